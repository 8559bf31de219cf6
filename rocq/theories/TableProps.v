(** Property theorems about scalars, tables and structs (C22-C30, C51-C54).
    Every theorem is closed by the lemma that proves it; the examples show a
    concrete instance. *)
From Coq Require Import ZArith List Bool Lia.
From Coq Require Import Strings.Byte.
From Verif Require Import GoLib BaseModel BaseSpec BaseProofs.
From Verif Require Import TableModel TableSpec TableProofs TableProofs2 TableProofs3.
Import ListNotations.
Open Scope Z_scope.

(** ** C22 *)
Theorem C22_encode_decode : forall t v, in_range t v -> scalar_get t (scalar_bytes t v) = Ok v.
Proof. exact scalar_roundtrip. Qed.
Print Assumptions C22_encode_decode.

Theorem C22_little_endian : forall t v, in_range t v ->
  zlen (scalar_bytes t v) = Z.of_nat (width t) /\
  forall k, 0 <= k < Z.of_nat (width t) -> exists x,
    zget (scalar_bytes t v) k = Some x /\ b2z x = (v / 256 ^ k) mod 256.
Proof. exact scalar_bytes_digits. Qed.
Print Assumptions C22_little_endian.

(** Encoding a decoded slice gives the slice back for every type but bool. *)
Theorem C22_decode_encode_partial : forall t l v, t <> SBool -> length l = width t ->
  scalar_get t l = Ok v -> in_range t v /\ scalar_bytes t v = l.
Proof. exact scalar_decode_encode. Qed.
Print Assumptions C22_decode_encode_partial.

Theorem C22_bool_refuted : exists l v, length l = width SBool /\ scalar_get SBool l = Ok v /\
  scalar_bytes SBool v <> l.
Proof. exact bool_reencode. Qed.
Print Assumptions C22_bool_refuted.

Example C22_example :
  in_range SInt16 (-2) /\ scalar_bytes SInt16 (-2) = [xfe; xff] /\
  scalar_get SInt16 [xfe; xff] = Ok (-2) /\ scalar_get SUint16 [xfe; xff] = Ok 65534.
Proof. cbn. repeat split; lia. Qed.

(** ** C23 *)
Theorem C23_set_get : forall t b pos v, in_memory b -> 0 <= pos -> in_range t v ->
  exists b', set_scalar t t b pos (Z.of_nat (width t)) v = Ok (Some b') /\ in_memory b' /\
    get_scalar t b' pos = Ok v /\
    forall m, shows b m -> shows b' (img_write m pos (scalar_bytes t v)).
Proof. exact set_get. Qed.
Print Assumptions C23_set_get.

(** Whatever the setter and the type of the node: a call that succeeds leaves
    the value the getter of the node's type returns. *)
Theorem C23_set_own_type : forall nt t b pos v b', in_memory b -> 0 <= pos -> in_range t v ->
  set_scalar nt t b pos (Z.of_nat (width nt)) v = Ok (Some b') ->
  get_scalar nt b' pos = Ok v /\
  forall m, shows b m -> shows b' (img_write m pos (scalar_bytes nt v)).
Proof. exact set_own_type. Qed.
Print Assumptions C23_set_own_type.

Theorem C23_from_get : forall t v, in_range t v ->
  exists b, from_scalar t v = Ok (Some b) /\ get_scalar t b 0 = Ok v /\
    delivers b 0 (scalar_bytes t v).
Proof. exact from_get. Qed.
Print Assumptions C23_from_get.

Example C23_example :
  let b := fst (write_at (new_base (gs_of [x01;x02;x03;x04;x05])) [x0a;x0b;x0c] 1) in
  in_memory b /\ exists b', set_scalar SInt32 SInt32 b 1 4 (-5) = Ok (Some b') /\
    get_scalar SInt32 b' 1 = Ok (-5) /\
    map (peek b') [0;1;2;3;4;5] =
    [Ok (Some x01); Ok (Some xfb); Ok (Some xff); Ok (Some xff); Ok (Some xff); Ok None].
Proof.
  split; [split; [reflexivity|repeat constructor; cbn; lia]|].
  eexists; split; [vm_compute; reflexivity|]. split; vm_compute; reflexivity.
Qed.

(** ** C24 *)
Theorem C24_conforming_access : forall b pos soff es tl, flat b ->
  table_at (img_bytes (sl_data (b_bytes b))) pos soff es tl -> 0 <= soff ->
  virtual_table_len b pos = Ok (4 + 2 * zlen es) /\
  table_len b pos = Ok tl /\
  forall i e, zget es i = Some e ->
    virtual_table b pos i = Ok (pos + e) /\
    virtual_table_is_zero b pos i = Ok (e =? 0) /\
    (e = 0 -> table_ref b pos i = Ok (-1)) /\
    (forall o, e <> 0 -> holds_uint (img_bytes (sl_data (b_bytes b))) (pos + e) 4 o ->
       table_ref b pos i = Ok (pos + e + o)).
Proof. exact conforming_access. Qed.
Print Assumptions C24_conforming_access.

Theorem C24_vector_field : forall b pos soff es tl i e o n, flat b ->
  table_at (img_bytes (sl_data (b_bytes b))) pos soff es tl -> 0 <= soff ->
  zget es i = Some e -> 0 < e ->
  holds_uint (img_bytes (sl_data (b_bytes b))) (pos + e) 4 o ->
  holds_uint (img_bytes (sl_data (b_bytes b))) (pos + e + o) 4 n ->
  value_info_pos_list b pos i = Ok (Some (pos + e + o + 4, n)).
Proof. exact vector_access. Qed.
Print Assumptions C24_vector_field.

Theorem C24_string_field : forall b pos soff es tl e o l, flat b ->
  table_at (img_bytes (sl_data (b_bytes b))) pos soff es tl -> 0 <= soff ->
  zget es 0 = Some e -> 0 < e ->
  holds_uint (img_bytes (sl_data (b_bytes b))) (pos + e) 4 o ->
  holds_uint (img_bytes (sl_data (b_bytes b))) (pos + e + o) 4 (zlen l) ->
  slice_of_image (img_bytes (sl_data (b_bytes b))) (pos + e + o + 4) l ->
  (l <> nil -> pos + e + o + 4 + zlen l <= gs_len (b_bytes b)) ->
  fbs_string b pos = Ok l.
Proof. exact string_access. Qed.
Print Assumptions C24_string_field.

(** A vtable with two entries (the second absent), its table and a string. *)
Definition ex_table : list byte :=
  [x08;x00;x08;x00;x04;x00;x00;x00; x08;x00;x00;x00;x04;x00;x00;x00; x02;x00;x00;x00;x68;x69].

Example C24_example :
  table_at (img_bytes ex_table) 8 8 [4; 0] 8 /\
  virtual_table (new_base (gs_of ex_table)) 8 0 = Ok 12 /\
  virtual_table_is_zero (new_base (gs_of ex_table)) 8 1 = Ok true /\
  value_info_pos_list (new_base (gs_of ex_table)) 8 0 = Ok (Some (20, 2)) /\
  fbs_string (new_base (gs_of ex_table)) 8 = Ok [x68; x69].
Proof.
  split; [|repeat split; vm_compute; reflexivity].
  constructor; try (apply holds_uint_check; vm_compute; reflexivity); try (vm_compute; split; congruence).
  intros i e H. pose proof (GoLemmas.zget_some_range _ _ _ H) as R. unfold zlen in R; cbn [length] in R.
  assert (C : i = 0 \/ i = 1) by lia.
  destruct C as [->| ->]; injection H as <-; apply holds_uint_check; vm_compute; reflexivity.
Qed.

(** ** C25: holds beyond the end of the buffer; in general the bytes after the
    vtable are taken for entries. *)
Theorem C25_unknown_absent_partial : forall b pos soff es tl i, flat b -> b_check b = true ->
  table_at (img_bytes (sl_data (b_bytes b))) pos soff es tl -> 0 <= soff ->
  gs_len (b_bytes b) <= pos - soff + 4 + 2 * i -> virtual_table_is_zero b pos i = Ok true.
Proof. exact unknown_past_end. Qed.
Print Assumptions C25_unknown_absent_partial.

Theorem C25_reads_neighbour : forall b pos soff es tl i v, flat b ->
  table_at (img_bytes (sl_data (b_bytes b))) pos soff es tl -> 0 <= soff -> zlen es <= i ->
  holds_uint (img_bytes (sl_data (b_bytes b))) (pos - soff + 4 + 2 * i) 2 v ->
  virtual_table_is_zero b pos i = Ok (v =? 0).
Proof. exact unknown_reads_neighbour. Qed.
Print Assumptions C25_reads_neighbour.

Theorem C25_unknown_absent_refuted : exists l pos soff tl,
  table_at (img_bytes l) pos soff nil tl /\ 0 <= soff /\
  virtual_table_is_zero (new_base (gs_of l)) pos 0 = Ok false.
Proof. exact unknown_field_present. Qed.
Print Assumptions C25_unknown_absent_refuted.

Example C25_example : virtual_table_is_zero (new_base (gs_of ex_table)) 8 9 = Ok true /\
  virtual_table_is_zero (new_base (gs_of ex_table)) 8 2 = Ok false.
Proof. split; vm_compute; reflexivity. Qed.

(** ** C26 *)
Theorem C26_fresh_table : forall ks, 4 + 2 * zlen ks < 65536 ->
  exists b, init_table ks = Ok (b, 4 + 2 * zlen ks) /\
    table_at (img_bytes (sl_data (b_bytes b))) (4 + 2 * zlen ks) (4 + 2 * zlen ks)
             (repeat 0 (length ks)) 4 /\
    (forall i, 0 <= i < zlen ks -> virtual_table_is_zero b (4 + 2 * zlen ks) i = Ok true).
Proof. exact fresh_table. Qed.
Print Assumptions C26_fresh_table.

Theorem C26_fresh_table_len : forall ks b p, 4 + 2 * zlen ks < 65536 -> init_table ks = Ok (b, p) ->
  p = 4 + 2 * zlen ks /\ len_buf b = p + 4.
Proof. exact fresh_table_len. Qed.
Print Assumptions C26_fresh_table_len.

Example C26_example : exists b, init_table [KBasic 4; KRef; KStruct 12] = Ok (b, 10) /\
  sl_data (b_bytes b) = [x0a;x00;x04;x00;x00;x00;x00;x00;x00;x00;x0a;x00;x00;x00].
Proof. eexists; split; vm_compute; reflexivity. Qed.

(** ** C27 *)
Theorem C27_fields_are_a_map : forall ks l,
  Forall (fun k => forall n, inline_size k = Some n -> 1 <= n) ks ->
  4 + 2 * zlen ks < 65536 -> 4 + inline_total ks < 65536 ->
  Forall (fun ap => assign_ok ks (fst ap) (snd ap)) l ->
  exists b t, init_table ks = Ok (b, 4 + 2 * zlen ks) /\
    run_assigns ks (mkT b (4 + 2 * zlen ks)) (map fst l) = Ok (Some t) /\
    forall i k n, zget ks i = Some k -> inline_size k = Some n ->
      read_field t i n = Ok (final_map l i).
Proof. exact assigns_map. Qed.
Print Assumptions C27_fields_are_a_map.

Example C27_example :
  let ks := [KBasic 4; KRef; KStruct 8; KBasic 1] in
  let src p := new_base (gs_of p) in
  let l := [((2, src [x01;x02;x03;x04;x05;x06;x07;x08], 0), [x01;x02;x03;x04;x05;x06;x07;x08]);
            ((0, src [x0a;x0b;x0c;x0d;x0e], 1), [x0b;x0c;x0d;x0e]);
            ((2, src [x11;x12;x13;x14;x15;x16;x17;x18], 0), [x11;x12;x13;x14;x15;x16;x17;x18])] in
  Forall (fun k => forall n, inline_size k = Some n -> 1 <= n) ks /\
  Forall (fun ap => assign_ok ks (fst ap) (snd ap)) l /\
  exists b t, init_table ks = Ok (b, 12) /\ run_assigns ks (mkT b 12) (map fst l) = Ok (Some t) /\
    read_field t 2 8 = Ok (Some [x11;x12;x13;x14;x15;x16;x17;x18]) /\
    read_field t 0 4 = Ok (Some [x0b;x0c;x0d;x0e]) /\ read_field t 3 1 = Ok None.
Proof.
  cbv zeta. split; [|split].
  - repeat constructor; cbn [inline_size]; intros n H; try discriminate; injection H as <-; lia.
  - repeat (apply Forall_cons; [|]); try apply Forall_nil; cbn [fst snd];
      (split; [eexists; split; vm_compute; reflexivity|]);
      eexists; (split; [vm_compute; reflexivity|]); split; vm_compute; congruence.
  - do 2 eexists. split; [vm_compute; reflexivity|]. split; [vm_compute; reflexivity|].
    repeat split; vm_compute; reflexivity.
Qed.

(** ** C28 *)
Theorem C28_struct_fields_disjoint : forall sizes pos i j ni nj,
  Forall (fun n => 0 <= n) sizes -> i <> j ->
  nth_error sizes i = Some ni -> nth_error sizes j = Some nj ->
  (struct_field_pos pos sizes i = pos + offset_of sizes i /\
   pos <= struct_field_pos pos sizes i /\
   struct_field_pos pos sizes i + ni <= pos + struct_size sizes) /\
  (struct_field_pos pos sizes i + ni <= struct_field_pos pos sizes j \/
   struct_field_pos pos sizes j + nj <= struct_field_pos pos sizes i).
Proof. exact struct_fields_disjoint. Qed.
Print Assumptions C28_struct_fields_disjoint.

Theorem C28_members_are_a_map : forall sizes b pos l,
  Forall (fun n => 1 <= n) sizes -> flat b -> 0 <= pos ->
  pos + struct_size sizes <= zlen (sl_data (b_bytes b)) ->
  Forall (fun ap => member_ok sizes (fst ap) (snd ap)) l ->
  exists b', run_struct_assigns sizes b pos (map fst l) = Ok (Some b') /\
    (forall i n, nth_error sizes i = Some n ->
       read_member sizes b' pos i n =
       Ok (final_members (member_bytes (sl_data (b_bytes b)) pos sizes) l i)) /\
    (forall q, 0 <= q -> q < pos \/ pos + struct_size sizes <= q -> peek b' q = peek b q).
Proof. exact struct_assigns_map. Qed.
Print Assumptions C28_members_are_a_map.

(** [ValueInfo] computes another range for the same member. *)
Theorem C28_value_info_refuted : exists sizes i n, nth_error sizes i = Some n /\
  struct_value_info 0 0 sizes i <> (offset_of sizes i, n).
Proof. exact struct_value_info_wrong. Qed.
Print Assumptions C28_value_info_refuted.

Example C28_example :
  let b := new_base (gs_of [xff; x01;x02;x03;x04;x05;x06;x07; xee]) in
  let l := [((1%nat, new_base (gs_of [x0a;x0b]), 0), [x0a;x0b]);
            ((0%nat, new_base (gs_of [x0c]), 0), [x0c]);
            ((1%nat, new_base (gs_of [x1a;x1b]), 0), [x1a;x1b])] in
  Forall (fun ap => member_ok [1; 2; 4] (fst ap) (snd ap)) l /\
  exists b', run_struct_assigns [1; 2; 4] b 1 (map fst l) = Ok (Some b') /\
    read_member [1; 2; 4] b' 1 0 1 = Ok [x0c] /\ read_member [1; 2; 4] b' 1 1 2 = Ok [x1a;x1b] /\
    read_member [1; 2; 4] b' 1 2 4 = Ok [x04;x05;x06;x07] /\ peek b' 8 = Ok (Some xee).
Proof.
  cbv zeta. split.
  - repeat (apply Forall_cons; [|]); try apply Forall_nil; cbn [fst snd]; (split; [reflexivity|]);
      eexists; (split; [vm_compute; reflexivity|]); split; vm_compute; congruence.
  - eexists. split; [vm_compute; reflexivity|]. repeat split; vm_compute; reflexivity.
Qed.

(** ** C29: exactly when every running sum is aligned. *)
Theorem C29_layout_agrees_partial : forall sizes start, Forall (fun n => 0 < n) sizes ->
  ((forall i, (i < length sizes)%nat -> struct_field_pos start sizes i = format_offset start sizes i)
   <-> (forall i n, nth_error sizes i = Some n -> (start + offset_of sizes i) mod n = 0)).
Proof. exact format_offset_agree. Qed.
Print Assumptions C29_layout_agrees_partial.

Theorem C29_layout_refuted : exists sizes i, Forall (fun n => 0 < n) sizes /\ (i < length sizes)%nat /\
  struct_field_pos 0 sizes i <> format_offset 0 sizes i.
Proof. exact struct_layout_differs. Qed.
Print Assumptions C29_layout_refuted.

Example C29_example : struct_field_pos 0 [8; 4; 4] 2 = format_offset 0 [8; 4; 4] 2 /\
  struct_field_pos 0 [1; 8] 1 = 1 /\ format_offset 0 [1; 8] 1 = 8.
Proof. repeat split; vm_compute; reflexivity. Qed.

(** ** C30 *)
Theorem C30_len_rounds_up : forall pos size, 0 <= pos + size ->
  node_len pos size mod 8 = 0 /\ pos + size <= node_len pos size < pos + size + 8.
Proof. exact node_len_round. Qed.
Print Assumptions C30_len_rounds_up.

Example C30_example : node_len 12 9 = 24 /\ node_len 12 12 = 24.
Proof. split; vm_compute; reflexivity. Qed.

(** ** C51: refuted, the stored offset is read as an unsigned number.  For a
    vtable before its table see C24. *)
Theorem C51_negative_soffset_refuted : exists l pos soff es tl,
  table_at (img_bytes l) pos soff es tl /\ zget es 0 = Some 4 /\
  virtual_table (new_base (gs_of l)) pos 0 = Panic.
Proof. exact negative_soffset. Qed.
Print Assumptions C51_negative_soffset_refuted.

(** ** C52: holds for structs of at least four bytes, always fails below. *)
Theorem C52_struct_init_partial : forall sizes, Forall (fun n => 1 <= n) sizes -> 4 <= sum_z sizes ->
  exists b, init_struct sizes = Ok (b, 0) /\ flat b /\ sl_data (b_bytes b) = zeros (sum_z sizes).
Proof. exact init_struct_ok. Qed.
Print Assumptions C52_struct_init_partial.

Theorem C52_struct_init_refuted : forall sizes, 0 <= sum_z sizes < 4 -> init_struct sizes = Panic.
Proof. exact struct_init_panics. Qed.
Print Assumptions C52_struct_init_refuted.

Example C52_example : (exists b, init_struct [4; 2] = Ok (b, 0) /\ len_buf b = 6) /\
  init_struct [2; 1] = Panic.
Proof. split; [eexists; split|]; vm_compute; reflexivity. Qed.

(** ** C53: refuted, two adjacent one-byte writes make the getter panic; holds
    after Flatten. *)
Theorem C53_get_after_flatten_partial : forall b m t pos l, in_memory b -> shows b m -> 0 <= pos ->
  zlen l = Z.of_nat (width t) -> (forall k, 0 <= k < zlen l -> m (pos + k) = zget l k) ->
  exists b', base_flatten b = Ok b' /\ get_scalar t b' pos = scalar_get t l.
Proof. exact flatten_get. Qed.
Print Assumptions C53_get_after_flatten_partial.

Theorem C53_split_scalar_refuted : exists b v,
  run_wops (new_base (gs_of nil)) [OpWriteAt 0 [x01]; OpWriteAt 1 [x02]] = Ok b /\
  holds_uint (content b) 0 2 v /\ get_scalar SUint16 b 0 = Panic.
Proof. exact split_scalar. Qed.
Print Assumptions C53_split_scalar_refuted.

Example C53_example : exists b b',
  run_wops (new_base (gs_of nil)) [OpWriteAt 0 [x01]; OpWriteAt 1 [x02]] = Ok b /\
  base_flatten b = Ok b' /\ get_scalar SUint16 b' 0 = Ok 513.
Proof. do 2 eexists. split; [vm_compute; reflexivity|]. split; vm_compute; reflexivity. Qed.

(** ** C54: refuted for every member of every struct: the setter returns
    ERR_INVALID_TYPE. *)
Theorem C54_set_member_refuted : forall t b pos sizes i v,
  let (p, sz) := member_node pos sizes i in set_scalar t t b p sz v = Ok None.
Proof. exact member_never_set. Qed.
Print Assumptions C54_set_member_refuted.
