-Q theories Verif
theories/GoLib.v
theories/BaseModel.v
theories/GoLemmas.v
theories/BaseSpec.v
theories/BaseProofs.v
theories/BaseProofs2.v
theories/BaseProofs3.v
theories/BaseProofs4.v
theories/BaseProofs5.v
theories/BaseProofs6.v
theories/BaseProps.v
theories/TableModel.v
theories/TableSpec.v
theories/TableProofs.v
theories/TableProofs2.v
theories/TableProofs3.v
theories/TableProps.v
theories/ListModel.v
theories/ListSpec.v
theories/ListProofs.v
theories/ListProofs2.v
theories/ListProofs3.v
theories/ListProofs4.v
theories/ListProofs5.v
theories/ListProofs6.v
theories/ListProofs7.v
theories/ListProps.v
theories/NameModel.v
theories/NameSpec.v
theories/NameProofs.v
theories/NameProofs2.v
theories/NameProps.v
theories/VariantModel.v
theories/VariantSpec.v
theories/VariantProofs.v
theories/VariantProofs2.v
theories/VariantProofs3.v
theories/VariantProps.v
theories/HeapModel.v
theories/HeapSpec.v
theories/HeapProofs.v
theories/HeapProofs2.v
theories/HeapProofs3.v
theories/HeapProofs4.v
theories/HeapProofs5.v
theories/HeapProps.v
theories/StreamModel.v
theories/StreamSpec.v
theories/StreamProofs.v
theories/StreamProofs2.v
theories/StreamProofs3.v
theories/StreamProofs4.v
theories/StreamProofs5.v
theories/StreamProps.v
theories/ParserModel.v
theories/ParserSpec.v
theories/ParserProofs.v
theories/ParserProofs2.v
theories/ParserProofs3.v
theories/ParserProofs4.v
theories/ParserProofs5.v
theories/ParserProps.v
theories/ConcModel.v
theories/ConcSpec.v
theories/ConcProofs.v
theories/ConcProofs2.v
theories/ConcProps.v
theories/GenModel.v
theories/GenSpec.v
theories/GenProofs.v
theories/GenProofs2.v
theories/GenProofs3.v
theories/GenProofs4.v
theories/GenProofs5.v
theories/GenProofs6.v
theories/GenProps.v
theories/InfoModel.v
theories/InfoSpec.v
theories/InfoProofs.v
theories/InfoProofs2.v
theories/InfoProps.v
theories/WalkModel.v
theories/WalkSpec.v
theories/WalkProofs.v
theories/WalkProofs2.v
theories/WalkProofs3.v
theories/WalkProofs4.v
theories/WalkProofs5.v
theories/WalkProofs6.v
theories/WalkProofs7.v
theories/WalkProofs8.v
theories/WalkProofs9.v
theories/WalkProps.v
theories/AddModel.v
theories/AddSpec.v
theories/AddProofs.v
theories/AddProofs2.v
theories/AddProofs3.v
theories/AddProofs4.v
theories/AddProofs5.v
theories/AddProofs6.v
theories/AddProofs7.v
theories/AddProofs8.v
theories/AddProofs9.v
theories/AddProofs10.v
theories/AddProps.v
theories/SepModel.v
theories/SepSpec.v
theories/SepProofs.v
theories/SepProofs2.v
theories/SepProofs3.v
theories/SepProofs4.v
theories/SepProofs5.v
theories/SepProps.v
theories/EqualModel.v
theories/EqualSpec.v
theories/EqualProofs.v
theories/EqualProofs2.v
theories/EqualProofs3.v
theories/EqualProps.v
theories/BuildModel.v
theories/BuildSpec.v
theories/BuildProofs.v
theories/BuildProofs2.v
theories/BuildProofs3.v
theories/BuildProofs4.v
theories/BuildProofs5.v
theories/BuildProofs6.v
theories/BuildProofs7.v
theories/BuildProofs8.v
theories/BuildProofs9.v
theories/BuildProofs10.v
theories/BuildProps.v
theories/LinkSpec.v
theories/LinkProofs.v
theories/LinkProofs2.v
theories/LinkProps.v
theories/InsModel.v
theories/InsSpec.v
theories/InsProofs.v
theories/InsProofs2.v
theories/InsProofs3.v
theories/InsProofs4.v
theories/InsProofs5.v
theories/InsProofs6.v
theories/InsProofs7.v
theories/InsProofs8.v
theories/InsProofs9.v
theories/InsProofs10.v
theories/InsProofs11.v
theories/InsProofs12.v
theories/InsProps.v
theories/LayerModel.v
theories/LayerProofs.v
theories/LayerProps.v
theories/LogModel.v
theories/LogSpec.v
theories/LogProofs.v
theories/LogProps.v
theories/SearchModel.v
theories/SearchSpec.v
theories/SearchProofs.v
theories/SearchProps.v
theories/UnmarshalModel.v
theories/UnmarshalSpec.v
theories/UnmarshalProofs.v
theories/UnmarshalProofs2.v
theories/UnmarshalProps.v
theories/PutModel.v
theories/PutSpec.v
theories/PutProofs.v
theories/PutProofs2.v
theories/PutProofs3.v
theories/PutProofs4.v
theories/PutProofs5.v
theories/PutProofs6.v
theories/PutProofs7.v
theories/PutProps.v
theories/JourModel.v
theories/JourSpec.v
theories/JourProofs.v
theories/JourProofs2.v
theories/JourProofs3.v
theories/JourProofs4.v
theories/JourProofs5.v
theories/JourProofs6.v
theories/JourProofs7.v
theories/JourProofs8.v
theories/JourProofs9.v
theories/JourProofs10.v
theories/JourProps.v
theories/ElemModel.v
theories/ElemSpec.v
theories/ElemProofs.v
theories/ElemProofs2.v
theories/ElemProofs3.v
theories/ElemProofs4.v
theories/ElemProps.v
theories/SortModel.v
theories/SortSpec.v
theories/SortProofs.v
theories/SortProps.v
theories/DocModel.v
theories/DocSpec.v
theories/DocProofs.v
theories/DocProps.v
theories/FillSpec.v
theories/FillProofs.v
theories/FillProps.v
theories/FindProofs.v
theories/FindProps.v
theories/SameSpec.v
theories/SameProofs.v
theories/SameProps.v
theories/MixModel.v
theories/MixSpec.v
theories/MixProofs.v
theories/MixProps.v
theories/DblModel.v
theories/DblSpec.v
theories/DblProofs.v
theories/DblProps.v
theories/WrapModel.v
theories/WrapSpec.v
theories/WrapProofs.v
theories/WrapProps.v
theories/MovModel.v
theories/MovProofs.v
theories/MovProps.v
