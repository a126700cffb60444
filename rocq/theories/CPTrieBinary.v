(** * CPTrie: the binary format *)
From Coq Require Import ZArith List Bool Lia ZifyBool.
From Verif Require Import Py Arr Bytes UnicodeSet UTrie2Lookup CPTrie CPTrieLookup.
Import ListNotations.
Open Scope Z_scope.
Ltac Zify.zify_post_hook ::= Z.to_euclidean_division_equations.

(** The contents of a serialised code point trie. *)
Record cpfile := mkCPFile {
  b_sig : Z; b_reserved : Z;                 (* signature, option bits 5..3 *)
  b_type : Z; b_width : Z;
  b_null3 : Z; b_nullData : Z; b_shiftedHigh : Z;
  b_index : list Z; b_data : list Z }.

(** The number of bytes of a value of a width code: 0 is 16 bits, 1 is 32 bits, 2 is 8 bits. *)
Definition width_bytes (w : Z) : Z := if w =? 0 then 2 else if w =? 1 then 4 else 1.

(** ICU's ucptrie.h: 16 bytes of header, the index, the data, all little-endian *)
Definition cp_encode (T : cpfile) : bytes :=
  pack 4 [b_sig T] ++
  pack 2 [zlen (b_data T) / 65536 * 4096 + b_nullData T / 65536 * 256 + b_type T * 64 + b_reserved T * 8 + b_width T;
          zlen (b_index T); zlen (b_data T) mod 65536; b_null3 T; b_nullData T mod 65536; b_shiftedHigh T] ++
  pack 2 (b_index T) ++ pack (width_bytes (b_width T)) (b_data T).

Record cpfile_ok (T : cpfile) : Prop := {
  bok_sig : 0 <= b_sig T < 2 ^ 32; bok_reserved : 0 <= b_reserved T < 8;
  bok_type : 0 <= b_type T < 4; bok_width : 0 <= b_width T < 8;
  bok_null3 : 0 <= b_null3 T < 65536; bok_nullData : 0 <= b_nullData T < 2 ^ 20;
  bok_high : 0 <= b_shiftedHigh T < 65536;
  bok_index : 0 < zlen (b_index T) < 65536; bok_data : zlen (b_data T) < 2 ^ 20;
  bok_index_values : Forall (fun x => 0 <= x < 65536) (b_index T);
  bok_data_values : Forall (fun x => 0 <= x < 256 ^ width_bytes (b_width T)) (b_data T) }.

(** The trie object that the file describes. *)
Definition cp_decoded (T : cpfile) : cptrie :=
  mkCPTrie (arr_of_list (b_index T)) (arr_of_list (b_data T)) (b_type T) (b_width T)
    (b_null3 T) (b_nullData T) (512 * b_shiftedHigh T) ((512 * b_shiftedHigh T + 4095) / 4096).

Lemma land_field x m n : 0 <= m -> 0 <= n -> Z.land x (Z.shiftl (Z.ones n) m) = x / 2 ^ m mod 2 ^ n * 2 ^ m.
Proof.
  intros Hm Hn. replace (Z.land x (Z.shiftl (Z.ones n) m)) with (Z.shiftl (Z.land (Z.shiftr x m) (Z.ones n)) m).
  - rewrite Z.land_ones, Z.shiftr_div_pow2, Z.shiftl_mul_pow2 by lia. reflexivity.
  - apply Z.bits_inj'. intros k Hk. rewrite Z.shiftl_spec, !Z.land_spec, Z.shiftl_spec by lia.
    destruct (Z_lt_le_dec k m) as [L|L].
    + rewrite !(Z.testbit_neg_r _ (k - m)) by lia. rewrite ?andb_false_r. reflexivity.
    + rewrite ?Z.land_spec, Z.shiftr_spec by lia. replace (k - m + m) with k by lia. reflexivity.
Qed.

Lemma option_bits a b t r w : 0 <= a < 16 -> 0 <= b < 16 -> 0 <= t < 4 -> 0 <= r < 8 -> 0 <= w < 8 ->
  let o := a * 4096 + b * 256 + t * 64 + r * 8 + w in
  0 <= o < 65536 /\ Z.land (Z.shiftr o 6) 3 = t /\ Z.land o 7 = w /\
  Z.shiftl (Z.land o 0xf000) 4 = a * 65536 /\ Z.shiftl (Z.land o 0xf00) 8 = b * 65536.
Proof.
  intros Ha Hb Ht Hr Hw o. assert (0 <= o < 65536) by (subst o; lia). repeat split; try lia.
  - change 3 with (Z.ones 2). rewrite Z.land_ones, Z.shiftr_div_pow2 by lia. change (2 ^ 6) with 64. change (2 ^ 2) with 4. subst o. clear H. lia.
  - change 7 with (Z.ones 3). rewrite Z.land_ones by lia. change (2 ^ 3) with 8. subst o. clear H. lia.
  - change 0xf000 with (Z.shiftl (Z.ones 4) 12). rewrite land_field, Z.shiftl_mul_pow2 by lia.
    change (2 ^ 12) with 4096. change (2 ^ 4) with 16. replace (o / 4096 mod 16) with a; [lia|]. subst o. clear H. lia.
  - change 0xf00 with (Z.shiftl (Z.ones 4) 8). rewrite land_field, Z.shiftl_mul_pow2 by lia.
    change (2 ^ 8) with 256. change (2 ^ 4) with 16. replace (o / 256 mod 16) with b; [lia|]. subst o. clear H. lia.
Qed.

Lemma width_pos w : 0 <= width_bytes w.
Proof. unfold width_bytes. destruct (w =? 0), (w =? 1); lia. Qed.

Definition cp_header (T : cpfile) : bytes :=
  pack 4 [b_sig T] ++
  pack 2 [zlen (b_data T) / 65536 * 4096 + b_nullData T / 65536 * 256 + b_type T * 64 + b_reserved T * 8 + b_width T;
          zlen (b_index T); zlen (b_data T) mod 65536; b_null3 T; b_nullData T mod 65536; b_shiftedHigh T].
Lemma cp_encode_parts T : cp_encode T = cp_header T ++ pack 2 (b_index T) ++ pack (width_bytes (b_width T)) (b_data T).
Proof. unfold cp_encode, cp_header. rewrite <- !app_assoc. reflexivity. Qed.
Lemma zlen_header T : zlen (cp_header T) = 16.
Proof. unfold cp_header. rewrite zlen_app, !zlen_pack by lia. reflexivity. Qed.

(** what remains to be read once the header is known *)
Lemma cp_read_header T b : cpfile_ok T -> py_slice b 0 16 = cp_header T ->
  createFromData b =
    let i := zlen (b_index T) in let n := zlen (b_data T) in let w := width_bytes (b_width T) in
    let* index := unpack 2 i (py_slice b 16 (16 + 2 * i)) in
    let* data := unpack w n (py_slice b (16 + 2 * i) (16 + 2 * i + w * n)) in
    newCPTrie index data (b_type T) (b_width T) (b_null3 T) (b_nullData T) (512 * b_shiftedHigh T) ((512 * b_shiftedHigh T + 4095) / 4096).
Proof.
  intros [S R TY W N3 ND H I D IV DV] E0. change (2 ^ 20) with 1048576 in *.
  unfold createFromData. change headerLength with 16. rewrite E0. unfold cp_header.
  set (o := zlen (b_data T) / 65536 * 4096 + b_nullData T / 65536 * 256 + b_type T * 64 + b_reserved T * 8 + b_width T).
  pose proof (zlen_nonneg (b_data T)) as DN.
  destruct (option_bits (zlen (b_data T) / 65536) (b_nullData T / 65536) (b_type T) (b_reserved T) (b_width T)) as (O0 & O1 & O2 & O3 & O4); try lia.
  fold o in O0, O1, O2, O3, O4.
  set (h1 := pack 4 [b_sig T]).
  set (h2 := pack 2 [o; zlen (b_index T); zlen (b_data T) mod 65536; b_null3 T; b_nullData T mod 65536; b_shiftedHigh T]).
  assert (L1 : zlen h1 = 4) by reflexivity. assert (L2 : zlen h2 = 12) by reflexivity.
  cbv zeta.
  replace (py_slice (h1 ++ h2) 0 4) with h1 by (symmetry; apply (slice_mid [] h1 h2); rewrite ?L1; reflexivity).
  replace (py_slice (h1 ++ h2) 4 (zlen (h1 ++ h2))) with h2.
  2: { symmetry. replace (h1 ++ h2) with (h1 ++ h2 ++ []) at 1 by (rewrite app_nil_r; reflexivity).
       apply slice_mid; [rewrite L1; reflexivity|apply zlen_app]. }
  unfold h1. change 1 with (zlen [b_sig T]) at 1. rewrite unpack_pack; [|lia|constructor; [exact S|constructor]]. cbn [bind].
  unfold h2. change 6 with (zlen [o; zlen (b_index T); zlen (b_data T) mod 65536; b_null3 T; b_nullData T mod 65536; b_shiftedHigh T]) at 1.
  rewrite unpack_pack; [|lia|change (256 ^ 2) with 65536; repeat (constructor; [lia|]); constructor]. cbn [bind].
  rewrite O1, O2, O3, O4, !lor_16 by (apply Z.mod_pos_bound; reflexivity).
  replace (zlen (b_data T) / 65536 * 65536 + zlen (b_data T) mod 65536) with (zlen (b_data T)) by lia.
  replace (b_nullData T / 65536 * 65536 + b_nullData T mod 65536) with (b_nullData T) by lia.
  fold (width_bytes (b_width T)). change CP_SHIFT_2 with 9. rewrite !Z.shiftl_mul_pow2, Z.shiftr_div_pow2 by lia.
  change (2 ^ 9) with 512. change (2 ^ 12) with 4096. rewrite (Z.mul_comm (b_shiftedHigh T)). reflexivity.
Qed.

Theorem cp_round_trip T tail : cpfile_ok T -> createFromData (cp_encode T ++ tail) = Ok (cp_decoded T).
Proof.
  intros K. pose proof (zlen_header T) as LH.
  assert (E : cp_encode T ++ tail = cp_header T ++ pack 2 (b_index T) ++ pack (width_bytes (b_width T)) (b_data T) ++ tail)
    by (rewrite cp_encode_parts, <- !app_assoc; reflexivity).
  rewrite (cp_read_header T) by (exact K || (rewrite E; apply (slice_mid [] (cp_header T)); [reflexivity|rewrite LH; reflexivity])).
  cbv zeta. rewrite E. destruct K as [_ _ _ _ _ _ _ I _ IV DV].
  rewrite slice_mid by (rewrite ?zlen_pack by lia; lia). rewrite unpack_pack; [|lia|exact IV]. cbn [bind].
  rewrite app_assoc. rewrite slice_mid by (rewrite ?zlen_app, ?LH, ?zlen_pack by (try apply width_pos; lia); ring).
  rewrite unpack_pack; [|apply width_pos|exact DV]. cbn [bind]. unfold newCPTrie.
  assert (G : exists x, py_get (b_index T) 0 = Ok x) by (destruct (b_index T) as [|x r]; [cbn in I; lia|exists x; apply py_get_cons_0]).
  destruct G as [x G]. rewrite G. reflexivity.
Qed.

(** What lookup makes of the parsed file of a layout. *)
Definition layout_file (L : cplayout) : cpfile :=
  mkCPFile 0x54726933 0 (if q_fast L then 0 else 1) (q_width L) (q_null3 L) (q_nullData L) (q_highStart L / 512)
    (cp_serialize_index L) (q_data L).
Lemma layout_file_decoded L : q_highStart L mod 512 = 0 -> cp_decoded (layout_file L) = cp_serialize L.
Proof.
  intros H. unfold cp_decoded, layout_file, cp_serialize. cbn [b_index b_data b_type b_width b_null3 b_nullData b_shiftedHigh].
  rewrite Z.shiftr_div_pow2 by lia. change (2 ^ 12) with 4096. replace (512 * (q_highStart L / 512)) with (q_highStart L) by lia.
  reflexivity.
Qed.
Theorem cp_file_lookup L tail : cplayout_ok L -> q_highStart L mod 512 = 0 -> cpfile_ok (layout_file L) ->
  exists t, createFromData (cp_encode (layout_file L) ++ tail) = Ok t /\
    forall c, 0 <= c <= 0x10FFFF -> cpget t c = Ok (cp_value L c).
Proof.
  intros K H F. exists (cp_serialize L). rewrite cp_round_trip by exact F. rewrite layout_file_decoded by exact H.
  split; [reflexivity|]. exact (cp_lookup_ok L K).
Qed.

(** A file cut short is rejected. *)
Lemma py_slice_length {A} (l : list A) i j : 0 <= i -> zlen (py_slice l i j) <= Z.max 0 (zlen l - i).
Proof.
  intros Hi. unfold py_slice, zlen. rewrite firstn_length, skipn_length. unfold py_bound. destruct (i <? 0) eqn:E; lia.
Qed.
Lemma py_slice_prefix {A} (p s : list A) i j : 0 <= i -> 0 <= j <= zlen p -> py_slice (p ++ s) i j = py_slice p i j.
Proof.
  intros Hi Hj. unfold py_slice, py_bound. pose proof (zlen_nonneg s). rewrite zlen_app.
  replace (i <? 0) with false by lia. replace (j <? 0) with false by lia.
  replace (Z.min (zlen p + zlen s) j) with j by lia. replace (Z.min (zlen p) j) with j by lia.
  rewrite (Z.max_r 0 j) by lia.
  destruct (Z_le_gt_dec i (zlen p)) as [Q|Q].
  - replace (Z.max 0 (Z.min (zlen p + zlen s) i)) with i by lia. replace (Z.max 0 (Z.min (zlen p) i)) with i by lia. rewrite skipn_app, firstn_app.
    replace (firstn (Z.to_nat (j - i) - length (skipn (Z.to_nat i) p)) (skipn (Z.to_nat i - length p) s)) with (@nil A).
    + apply app_nil_r.
    + rewrite skipn_length. unfold zlen in *. replace (Z.to_nat (j - i) - (length p - Z.to_nat i))%nat with 0%nat by lia. reflexivity.
  - replace (Z.to_nat (j - Z.max 0 (Z.min (zlen p + zlen s) i))) with 0%nat by lia.
    replace (Z.to_nat (j - Z.max 0 (Z.min (zlen p) i))) with 0%nat by lia. reflexivity.
Qed.
Lemma unpack_short w n b : zlen b <> w * n -> unpack w n b = Err StructError.
Proof. intros H. unfold unpack. destruct (zlen b =? w * n) eqn:E; [lia|reflexivity]. Qed.

Theorem cp_truncated T p s : cpfile_ok T -> cp_encode T = p ++ s -> s <> [] -> createFromData p = Err StructError.
Proof.
  intros K E NS.
  assert (LE : zlen p < zlen (cp_encode T)).
  { rewrite E, zlen_app. destruct s; [congruence|]. rewrite zlen_cons. pose proof (zlen_nonneg s). lia. }
  pose proof (zlen_header T) as LH. pose proof (zlen_nonneg p) as NP. pose proof (width_pos (b_width T)) as NW.
  assert (LT : zlen (cp_encode T) = 16 + 2 * zlen (b_index T) + width_bytes (b_width T) * zlen (b_data T))
    by (rewrite cp_encode_parts, !zlen_app, LH, !zlen_pack by lia; ring).
  destruct (Z_lt_le_dec (zlen p) 16) as [S|S].
  - unfold createFromData. change headerLength with 16. cbv zeta.
    assert (L : zlen (py_slice p 0 16) <= zlen p) by (pose proof (py_slice_length p 0 16 ltac:(lia)); lia).
    destruct (Z.eq_dec (zlen (py_slice (py_slice p 0 16) 0 4)) 4) as [Q|Q].
    + destruct (unpack 4 1 _) eqn:U; cbn [bind].
      * rewrite unpack_short; [reflexivity|].
        pose proof (py_slice_length (py_slice p 0 16) 4 (zlen (py_slice p 0 16)) ltac:(lia)). lia.
      * unfold unpack in U. rewrite Q in U. discriminate.
    + rewrite unpack_short by lia. reflexivity.
  - rewrite (cp_read_header T p K).
    2: { rewrite <- (py_slice_prefix p s) by lia. rewrite <- E, cp_encode_parts. apply (slice_mid [] (cp_header T)); [reflexivity|rewrite LH; reflexivity]. }
    cbv zeta. pose proof (py_slice_length p 16 (16 + 2 * zlen (b_index T)) ltac:(lia)) as L1.
    pose proof (zlen_nonneg (b_index T)) as NI. pose proof (zlen_nonneg (b_data T)) as ND.
    pose proof (py_slice_length p (16 + 2 * zlen (b_index T)) (16 + 2 * zlen (b_index T) + width_bytes (b_width T) * zlen (b_data T)) ltac:(lia)) as L2.
    destruct (unpack 2 _ _) as [ix|e] eqn:U1; cbn [bind].
    + assert (0 < width_bytes (b_width T) * zlen (b_data T)).
      { unfold unpack in U1. destruct (_ =? _) eqn:Q in U1; [|discriminate]. lia. }
      rewrite unpack_short by lia. reflexivity.
    + unfold unpack in U1. destruct (_ =? _) in U1; [discriminate|]. injection U1 as <-. reflexivity.
Qed.
