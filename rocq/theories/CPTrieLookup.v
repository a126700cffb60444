(** * CPTrie: a serialised trie answers what was stored.

    [cplayout] is an independent description of a code point trie: every block is
    named by its number (index blocks) or by its offset in the data array (data
    blocks, which may overlap in any way). *)
From Coq Require Import ZArith List Bool Lia ZifyBool.
From Verif Require Import Py Arr Bytes UnicodeSet UTrie2Lookup CPTrie.
Import ListNotations.
Open Scope Z_scope.
Ltac Zify.zify_post_hook ::= Z.to_euclidean_division_equations.

Record cplayout := mkCPLayout {
  q_fast : bool;                   (* type FAST or SMALL *)
  q_bmp : list Z;                  (* data offsets, one per 64 code points: 1024 (FAST) or 64 (SMALL) *)
  q_i1 : list Z;                   (* index-2 block numbers, one per 16384 code points *)
  q_i2 : list (list Z);            (* index-2 blocks: 32 index-3 block numbers *)
  q_i3 : list (bool * list Z);     (* index-3 blocks: 32 data offsets, stored with 18 bits if [true] *)
  q_data : list Z;                 (* the last two values are the high value and the error value *)
  q_highStart : Z; q_null3 : Z; q_nullData : Z; q_width : Z }.

Definition q_first (L : cplayout) : Z := if q_fast L then 0x10000 else 0.  (* first code point of index-1 *)
Definition q_limit (L : cplayout) : Z := if q_fast L then 0x10000 else 0x1000. (* end of the fast part *)
Definition i3_at (L : cplayout) (k : Z) : bool * list Z := nth (Z.to_nat k) (q_i3 L) (false, []).

(** the value of a code point *)
Definition cp_value (L : cplayout) (c : Z) : Z :=
  if c <? q_limit L then znth (q_data L) (znth (q_bmp L) (c / 64) + c mod 64)
  else if c <? q_highStart L then
    let i2 := znthl (q_i2 L) (znth (q_i1 L) ((c - q_first L) / 16384)) in
    let i3 := snd (i3_at L (znth i2 (c / 512 mod 32))) in
    znth (q_data L) (znth i3 (c / 16 mod 32) + c mod 16)
  else znth (q_data L) (zlen (q_data L) - 2).
Definition cp_error (L : cplayout) : Z := znth (q_data L) (zlen (q_data L) - 1).

(** eight 18-bit numbers: a word with their top bits, then their low 16 bits *)
Fixpoint top_bits (sh : nat) (l : list Z) : Z :=
  match l with [] => 0 | o :: r => o / 65536 * 4 ^ Z.of_nat sh + top_bits (pred sh) r end.
Definition group18 (l : list Z) : list Z := top_bits 7 l :: map (fun o => o mod 65536) l.
Definition eighth (l : list Z) (g : nat) : list Z := firstn 8 (skipn (8 * g) l).
Definition enc3 (b : bool * list Z) : list Z :=
  if fst b then concat (map (fun g => group18 (eighth (snd b) g)) (seq 0 4)) else snd b.

Definition i2_pos (L : cplayout) (id : Z) : Z := zlen (q_bmp L) + zlen (q_i1 L) + 32 * id.
Definition i3_pos (L : cplayout) (id : Z) : Z :=
  zlen (q_bmp L) + zlen (q_i1 L) + 32 * zlen (q_i2 L) + zlen (concat (map enc3 (firstn (Z.to_nat id) (q_i3 L)))).
Definition i3_ref (L : cplayout) (id : Z) : Z :=
  i3_pos L id + (if fst (i3_at L id) then 0x8000 else 0).

Definition cp_serialize_index (L : cplayout) : list Z :=
  q_bmp L ++ map (i2_pos L) (q_i1 L) ++ concat (map (map (i3_ref L)) (q_i2 L)) ++ concat (map enc3 (q_i3 L)).
Definition cp_serialize (L : cplayout) : cptrie :=
  mkCPTrie (arr_of_list (cp_serialize_index L)) (arr_of_list (q_data L)) (if q_fast L then 0 else 1) (q_width L)
           (q_null3 L) (q_nullData L) (q_highStart L) (Z.shiftr (q_highStart L + 0xfff) 12).

Record cplayout_ok (L : cplayout) : Prop := {
  qok_bmp : zlen (q_bmp L) = if q_fast L then 1024 else 64;
  qok_bmp_off : Forall (fun o => 0 <= o /\ o + 64 <= zlen (q_data L)) (q_bmp L);
  qok_ascii : znth (q_bmp L) 0 = 0 /\ znth (q_bmp L) 1 = 64;       (* ASCII is linear *)
  qok_i1 : q_limit L < q_highStart L -> q_highStart L <= q_first L + 16384 * zlen (q_i1 L);
  qok_i1_id : Forall (fun k => 0 <= k < zlen (q_i2 L)) (q_i1 L);
  qok_i2 : Forall (fun b => zlen b = 32) (q_i2 L);
  qok_i2_id : Forall (Forall (fun k => 0 <= k < zlen (q_i3 L))) (q_i2 L);
  qok_i3 : Forall (fun b => zlen (snd b) = 32) (q_i3 L);
  qok_i3_off : Forall (fun b => Forall (fun o => 0 <= o < 2 ^ 18 /\ o + 16 <= zlen (q_data L)) (snd b)) (q_i3 L);
  qok_size : zlen (cp_serialize_index L) <= 0x8000;
  qok_data : 2 <= zlen (q_data L);
  qok_high : q_highStart L <= 0x110000 }.

(** ** 18-bit numbers *)

Lemma land_30000 x : Z.land x 0x30000 = x / 65536 mod 4 * 65536.
Proof.
  change 0x30000 with (Z.shiftl (Z.ones 2) 16).
  replace (Z.land x (Z.shiftl (Z.ones 2) 16)) with (Z.shiftl (Z.land (Z.shiftr x 16) (Z.ones 2)) 16).
  - rewrite Z.land_ones, Z.shiftr_div_pow2, Z.shiftl_mul_pow2 by lia. reflexivity.
  - apply Z.bits_inj'. intros n Hn. rewrite Z.shiftl_spec, !Z.land_spec, Z.shiftl_spec by lia.
    destruct (Z_lt_le_dec n 16) as [L|L].
    + rewrite !(Z.testbit_neg_r _ (n - 16)) by lia. rewrite ?andb_false_r. reflexivity.
    + rewrite ?Z.land_spec, Z.shiftr_spec by lia. replace (n - 16 + 16) with n by lia. reflexivity.
Qed.

Lemma lor_16 h l : 0 <= l < 65536 -> Z.lor (h * 65536) l = h * 65536 + l.
Proof.
  intros H. assert (D : Z.land (h * 65536) l = 0).
  { apply Z.bits_inj'. intros n Hn. rewrite Z.land_spec, Z.bits_0.
    change 65536 with (2 ^ 16) in *. rewrite <- Z.shiftl_mul_pow2, Z.shiftl_spec by lia.
    destruct (Z_lt_le_dec n 16) as [Q|Q]; [rewrite Z.testbit_neg_r by lia; reflexivity|].
    replace (Z.testbit l n) with false; [apply andb_false_r|]. symmetry.
    destruct (Z.eq_dec l 0) as [->|]; [apply Z.bits_0|]. apply Z.bits_above_log2; [lia|].
    assert (Z.log2 l < 16) by (apply Z.log2_lt_pow2; lia). lia. }
  rewrite Z.add_nocarry_lxor by auto. symmetry. apply Z.lxor_lor. auto.
Qed.

Lemma digit4 p q A h B w m : p * q = 65536 -> 0 < p -> m = q -> w = p * (4 * A + h) + B -> 0 <= B < p -> 0 <= h < 4 ->
  w * m / 65536 mod 4 = h.
Proof.
  intros Hpq Hp -> -> HB Hh. rewrite <- Hpq. assert (q <> 0) by (intros ->; lia).
  rewrite Z.div_mul_cancel_r by lia. rewrite (Z.mul_comm p), Z.div_add_l by lia.
  rewrite (Z.div_small B p) by lia. rewrite Z.add_0_r, Z.add_comm, Z.mul_comm, Z_mod_plus_full. apply Z.mod_small. lia.
Qed.

Lemma group18_spec l i : length l = 8%nat -> Forall (fun o => 0 <= o < 2 ^ 18) l -> 0 <= i < 8 ->
  Z.lor (Z.land (Z.shiftl (znth (group18 l) 0) (2 + 2 * i)) 0x30000) (znth (group18 l) (1 + i)) = znth l i.
Proof.
  intros Hl F Hi.
  destruct l as [|a0 [|a1 [|a2 [|a3 [|a4 [|a5 [|a6 [|a7 [|]]]]]]]]]; try discriminate.
  repeat (apply Forall_cons_iff in F; destruct F as [? F]). change (2 ^ 18) with 262144 in *.
  unfold group18, znth. change (Z.to_nat 0) with 0%nat. cbn [nth].
  replace (top_bits 7 [a0; a1; a2; a3; a4; a5; a6; a7]) with
    (a0 / 65536 * 16384 + a1 / 65536 * 4096 + a2 / 65536 * 1024 + a3 / 65536 * 256 +
     a4 / 65536 * 64 + a5 / 65536 * 16 + a6 / 65536 * 4 + a7 / 65536)
    by (cbn [top_bits pred]; change (4 ^ Z.of_nat 7) with 16384; change (4 ^ Z.of_nat 6) with 4096;
        change (4 ^ Z.of_nat 5) with 1024; change (4 ^ Z.of_nat 4) with 256; change (4 ^ Z.of_nat 3) with 64;
        change (4 ^ Z.of_nat 2) with 16; change (4 ^ Z.of_nat 1) with 4; change (4 ^ Z.of_nat 0) with 1; ring).
  set (h0 := a0 / 65536). set (h1 := a1 / 65536). set (h2 := a2 / 65536). set (h3 := a3 / 65536).
  set (h4 := a4 / 65536). set (h5 := a5 / 65536). set (h6 := a6 / 65536). set (h7 := a7 / 65536).
  assert (0 <= h0 < 4) by (subst h0; lia). assert (0 <= h1 < 4) by (subst h1; lia).
  assert (0 <= h2 < 4) by (subst h2; lia). assert (0 <= h3 < 4) by (subst h3; lia).
  assert (0 <= h4 < 4) by (subst h4; lia). assert (0 <= h5 < 4) by (subst h5; lia).
  assert (0 <= h6 < 4) by (subst h6; lia). assert (0 <= h7 < 4) by (subst h7; lia).
  assert (K : i = 0 \/ i = 1 \/ i = 2 \/ i = 3 \/ i = 4 \/ i = 5 \/ i = 6 \/ i = 7) by lia.
  rewrite land_30000, Z.shiftl_mul_pow2 by lia.
  set (w := h0 * 16384 + h1 * 4096 + h2 * 1024 + h3 * 256 + h4 * 64 + h5 * 16 + h6 * 4 + h7).
  assert (W0 : w * 2 ^ (2 + 2 * 0) / 65536 mod 4 = h0) by (apply (digit4 16384 4 (0) h0 (h1 * 4096 + h2 * 1024 + h3 * 256 + h4 * 64 + h5 * 16 + h6 * 4 + h7)); subst w; clearbody h0 h1 h2 h3 h4 h5 h6 h7; clear - H7 H8 H9 H10 H11 H12 H13 H14; try lia; reflexivity).
  assert (W1 : w * 2 ^ (2 + 2 * 1) / 65536 mod 4 = h1) by (apply (digit4 4096 16 (h0 * 1) h1 (h2 * 1024 + h3 * 256 + h4 * 64 + h5 * 16 + h6 * 4 + h7)); subst w; clearbody h0 h1 h2 h3 h4 h5 h6 h7; clear - H7 H8 H9 H10 H11 H12 H13 H14; try lia; reflexivity).
  assert (W2 : w * 2 ^ (2 + 2 * 2) / 65536 mod 4 = h2) by (apply (digit4 1024 64 (h0 * 4 + h1 * 1) h2 (h3 * 256 + h4 * 64 + h5 * 16 + h6 * 4 + h7)); subst w; clearbody h0 h1 h2 h3 h4 h5 h6 h7; clear - H7 H8 H9 H10 H11 H12 H13 H14; try lia; reflexivity).
  assert (W3 : w * 2 ^ (2 + 2 * 3) / 65536 mod 4 = h3) by (apply (digit4 256 256 (h0 * 16 + h1 * 4 + h2 * 1) h3 (h4 * 64 + h5 * 16 + h6 * 4 + h7)); subst w; clearbody h0 h1 h2 h3 h4 h5 h6 h7; clear - H7 H8 H9 H10 H11 H12 H13 H14; try lia; reflexivity).
  assert (W4 : w * 2 ^ (2 + 2 * 4) / 65536 mod 4 = h4) by (apply (digit4 64 1024 (h0 * 64 + h1 * 16 + h2 * 4 + h3 * 1) h4 (h5 * 16 + h6 * 4 + h7)); subst w; clearbody h0 h1 h2 h3 h4 h5 h6 h7; clear - H7 H8 H9 H10 H11 H12 H13 H14; try lia; reflexivity).
  assert (W5 : w * 2 ^ (2 + 2 * 5) / 65536 mod 4 = h5) by (apply (digit4 16 4096 (h0 * 256 + h1 * 64 + h2 * 16 + h3 * 4 + h4 * 1) h5 (h6 * 4 + h7)); subst w; clearbody h0 h1 h2 h3 h4 h5 h6 h7; clear - H7 H8 H9 H10 H11 H12 H13 H14; try lia; reflexivity).
  assert (W6 : w * 2 ^ (2 + 2 * 6) / 65536 mod 4 = h6) by (apply (digit4 4 16384 (h0 * 1024 + h1 * 256 + h2 * 64 + h3 * 16 + h4 * 4 + h5 * 1) h6 (h7)); subst w; clearbody h0 h1 h2 h3 h4 h5 h6 h7; clear - H7 H8 H9 H10 H11 H12 H13 H14; try lia; reflexivity).
  assert (W7 : w * 2 ^ (2 + 2 * 7) / 65536 mod 4 = h7) by (apply (digit4 1 65536 (h0 * 4096 + h1 * 1024 + h2 * 256 + h3 * 64 + h4 * 16 + h5 * 4 + h6 * 1) h7 (0)); subst w; clearbody h0 h1 h2 h3 h4 h5 h6 h7; clear - H7 H8 H9 H10 H11 H12 H13 H14; try lia; reflexivity).
  clearbody w.
  destruct K as [->|[->|[->|[->|[->|[->|[->| ->]]]]]]];
    [rewrite W0; change (Z.to_nat (1 + 0)) with 1%nat|rewrite W1; change (Z.to_nat (1 + 1)) with 2%nat
    |rewrite W2; change (Z.to_nat (1 + 2)) with 3%nat|rewrite W3; change (Z.to_nat (1 + 3)) with 4%nat
    |rewrite W4; change (Z.to_nat (1 + 4)) with 5%nat|rewrite W5; change (Z.to_nat (1 + 5)) with 6%nat
    |rewrite W6; change (Z.to_nat (1 + 6)) with 7%nat|rewrite W7; change (Z.to_nat (1 + 7)) with 8%nat];
    cbn [nth map]; rewrite lor_16 by (apply Z.mod_pos_bound; reflexivity).
  - change (Z.to_nat 0) with 0%nat; cbn [nth]; subst h0; rewrite Z.mul_comm; symmetry; apply Z.div_mod; discriminate.
  - change (Z.to_nat 1) with 1%nat; cbn [nth]; subst h1; rewrite Z.mul_comm; symmetry; apply Z.div_mod; discriminate.
  - change (Z.to_nat 2) with 2%nat; cbn [nth]; subst h2; rewrite Z.mul_comm; symmetry; apply Z.div_mod; discriminate.
  - change (Z.to_nat 3) with 3%nat; cbn [nth]; subst h3; rewrite Z.mul_comm; symmetry; apply Z.div_mod; discriminate.
  - change (Z.to_nat 4) with 4%nat; cbn [nth]; subst h4; rewrite Z.mul_comm; symmetry; apply Z.div_mod; discriminate.
  - change (Z.to_nat 5) with 5%nat; cbn [nth]; subst h5; rewrite Z.mul_comm; symmetry; apply Z.div_mod; discriminate.
  - change (Z.to_nat 6) with 6%nat; cbn [nth]; subst h6; rewrite Z.mul_comm; symmetry; apply Z.div_mod; discriminate.
  - change (Z.to_nat 7) with 7%nat; cbn [nth]; subst h7; rewrite Z.mul_comm; symmetry; apply Z.div_mod; discriminate.
Qed.

(** ** Reading the serialised index *)

Lemma small_bits i : 0 <= i < 32 -> Z.land i (Z.lnot 7) + Z.shiftr i 3 = 9 * (i / 8) /\ Z.land i 7 = i mod 8.
Proof.
  intros H.
  assert (K : forallb (fun k => let i := Z.of_nat k in (Z.land i (Z.lnot 7) + Z.shiftr i 3 =? 9 * (i / 8)) && (Z.land i 7 =? i mod 8)) (seq 0 32) = true) by reflexivity.
  rewrite forallb_forall in K. specialize (K (Z.to_nat i)). rewrite in_seq in K.
  rewrite Z2Nat.id in K by lia. cbv zeta in K. specialize (K ltac:(lia)). lia.
Qed.

Lemma zlen_firstn {A} (l : list A) k : 0 <= k <= zlen l -> zlen (firstn (Z.to_nat k) l) = k.
Proof. intros H. unfold zlen in *. rewrite firstn_length. lia. Qed.

Lemma znth_ext_concat (bs : list (list Z)) k j : (k < length bs)%nat -> 0 <= j < zlen (nth k bs []) ->
  znth (concat bs) (zlen (concat (firstn k bs)) + j) = znth (nth k bs []) j.
Proof.
  intros Hk Hj. revert k Hk Hj. induction bs as [|b r IH]; intros k Hk Hj; [cbn in Hk; lia|].
  destruct k as [|k].
  - cbn [firstn concat nth] in *. rewrite znth_app_l by (unfold zlen at 1 2; cbn; lia). f_equal.
  - cbn [firstn concat nth length] in *. pose proof (zlen_nonneg b). pose proof (zlen_nonneg (concat (firstn k r))).
    rewrite zlen_app, znth_app_r by lia.
    rewrite <- (IH k) by (auto; lia). f_equal. lia.
Qed.

Lemma in_firstn_skipn (l : list Z) o a b : In o (firstn a (skipn b l)) -> In o l.
Proof.
  intros H. rewrite <- (firstn_skipn b l). apply in_or_app. right.
  rewrite <- (firstn_skipn a (skipn b l)). apply in_or_app. left. exact H.
Qed.

Lemma eighth_len l g : zlen l = 32 -> (g < 4)%nat -> length (eighth l g) = 8%nat.
Proof. intros H Hg. unfold eighth. rewrite firstn_length, skipn_length. unfold zlen in H. lia. Qed.
Lemma eighth_nth l g i : 0 <= i < 8 -> znth (eighth l g) i = znth l (8 * Z.of_nat g + i).
Proof.
  intros Hi. unfold eighth, znth.
  rewrite <- (firstn_skipn (8 * g) l) at 2.
  destruct (Nat.le_gt_cases (length l) (8 * g)) as [Q|Q].
  - rewrite skipn_all2, firstn_nil by lia. rewrite app_nil_r, (nth_overflow (firstn _ _)).
    + destruct (Z.to_nat i); reflexivity.
    + rewrite firstn_length. lia.
  - rewrite app_nth2 by (rewrite firstn_length; lia). rewrite firstn_length, Nat.min_l by lia.
    replace (Z.to_nat (8 * Z.of_nat g + i) - 8 * g)%nat with (Z.to_nat i) by lia.
    set (r := skipn (8 * g) l). clearbody r. assert (Hi' : (Z.to_nat i < 8)%nat) by lia.
    set (n := Z.to_nat i) in *. clearbody n. clear -Hi'.
    revert n Hi'. generalize 8%nat. intros m. revert r. induction m as [|m IH]; intros r n H; [lia|].
    destruct r as [|x r]; [destruct n; reflexivity|]. destruct n; [reflexivity|]. cbn. apply IH. lia.
Qed.
Lemma enc3_wide l : zlen l = 32 -> zlen (enc3 (true, l)) = 36 /\
  forall i j, 0 <= i < 4 -> 0 <= j < 9 -> znth (enc3 (true, l)) (9 * i + j) = znth (group18 (eighth l (Z.to_nat i))) j.
Proof.
  intros H. unfold enc3. cbn [fst snd].
  assert (G : Forall (fun b => zlen b = 9) (map (fun g => group18 (eighth l g)) (seq 0 4))).
  { apply Forall_forall. intros b Hb. apply in_map_iff in Hb as (g & <- & Hg). apply in_seq in Hg.
    unfold group18. rewrite zlen_cons, zlen_map. unfold zlen. rewrite eighth_len; auto; lia. }
  split.
  - rewrite (zlen_concat 9) by exact G. reflexivity.
  - intros i j Hi Hj. rewrite (znth_concat 9); [|lia|exact G|exact Hi|exact Hj].
    assert (Q : i = 0 \/ i = 1 \/ i = 2 \/ i = 3) by lia.
    destruct Q as [->|[->|[->| ->]]]; reflexivity.
Qed.
Lemma land_8000 x : 0 <= x < 0x8000 -> Z.land x 0x8000 = 0 /\ Z.land (x + 0x8000) 0x8000 = 0x8000 /\ Z.land (x + 0x8000) 0x7fff = x.
Proof.
  intros H. change 0x8000 with (2 ^ 15) in *. change 0x7fff with (Z.ones 15). repeat split.
  - rewrite (UtilitiesFacts.land_pow2 x 15), UtilitiesFacts.testbit_div by lia. change (2 ^ 15) with 32768 in *. replace (x / 32768) with 0 by lia. reflexivity.
  - rewrite (UtilitiesFacts.land_pow2 (x + 2 ^ 15) 15), UtilitiesFacts.testbit_div by lia. change (2 ^ 15) with 32768 in *. replace ((x + 32768) / 32768) with 1 by lia. reflexivity.
  - rewrite Z.land_ones by lia. change (2 ^ 15) with 32768 in *. lia.
Qed.

Lemma sh6 c : Z.shiftr c FAST_SHIFT = c / 64.
Proof. unfold FAST_SHIFT. rewrite Z.shiftr_div_pow2 by lia. reflexivity. Qed.
Lemma shc14 c : Z.shiftr c CP_SHIFT_1 = c / 16384.
Proof. change CP_SHIFT_1 with 14. rewrite Z.shiftr_div_pow2 by lia. reflexivity. Qed.
Lemma shc9 c : Z.shiftr c CP_SHIFT_2 = c / 512.
Proof. change CP_SHIFT_2 with 9. rewrite Z.shiftr_div_pow2 by lia. reflexivity. Qed.
Lemma shc4 c : Z.shiftr c CP_SHIFT_3 = c / 16.
Proof. change CP_SHIFT_3 with 4. rewrite Z.shiftr_div_pow2 by lia. reflexivity. Qed.
Lemma landc63 c : Z.land c FAST_DATA_MASK = c mod 64.
Proof. change FAST_DATA_MASK with (Z.ones 6). rewrite Z.land_ones by lia. reflexivity. Qed.
Lemma landc31 c : Z.land c CP_INDEX_2_MASK = c mod 32.
Proof. change CP_INDEX_2_MASK with (Z.ones 5). rewrite Z.land_ones by lia. reflexivity. Qed.
Lemma landc31' c : Z.land c CP_INDEX_3_MASK = c mod 32.
Proof. change CP_INDEX_3_MASK with (Z.ones 5). rewrite Z.land_ones by lia. reflexivity. Qed.
Lemma landc15 c : Z.land c SMALL_DATA_MASK = c mod 16.
Proof. change SMALL_DATA_MASK with (Z.ones 4). rewrite Z.land_ones by lia. reflexivity. Qed.

Section Read.
  Variable L : cplayout.
  Hypothesis K : cplayout_ok L.
  Let S := cp_serialize_index L.
  Let F := zlen (q_bmp L).
  Let N1 := zlen (q_i1 L).
  Let N2 := zlen (q_i2 L).

  Lemma len_i2 : zlen (concat (map (map (i3_ref L)) (q_i2 L))) = 32 * N2.
  Proof.
    rewrite (zlen_concat 32), zlen_map; auto. apply Forall_forall. intros b Hb.
    apply in_map_iff in Hb as (x & <- & Hx). rewrite zlen_map.
    pose proof (qok_i2 L K) as G. rewrite Forall_forall in G. auto.
  Qed.

  Lemma len_S : zlen S = F + N1 + 32 * N2 + zlen (concat (map enc3 (q_i3 L))).
  Proof. unfold S, cp_serialize_index. rewrite !zlen_app, zlen_map, len_i2. unfold F, N1. lia. Qed.

  Lemma get_S i : 0 <= i < zlen S -> aget (cp_index (cp_serialize L)) i = Ok (znth S i).
  Proof. intros H. cbn [cp_serialize cp_index]. rewrite aget_Ok by exact H. reflexivity. Qed.

  Lemma S_bmp i : 0 <= i < F -> znth S i = znth (q_bmp L) i.
  Proof. intros H. unfold S, cp_serialize_index. apply znth_app_l. exact H. Qed.

  Lemma S_i1 i : 0 <= i < N1 -> znth S (F + i) = i2_pos L (znth (q_i1 L) i).
  Proof.
    intros H. unfold S, cp_serialize_index.
    rewrite znth_app_r by (fold F; lia). fold F.
    rewrite znth_app_l by (rewrite zlen_map; fold N1; lia).
    rewrite znth_map by (fold N1; lia). do 2 f_equal. lia.
  Qed.

  Lemma S_i2 k j : 0 <= k < N2 -> 0 <= j < 32 -> znth S (i2_pos L k + j) = i3_ref L (znth (znthl (q_i2 L) k) j).
  Proof.
    intros Hk Hj. unfold S, cp_serialize_index, i2_pos. fold F N1.
    rewrite znth_app_r by (fold F; unfold F, N1; pose proof (zlen_nonneg (q_i1 L)); lia). fold F.
    rewrite znth_app_r by (rewrite zlen_map; fold N1; lia). rewrite zlen_map. fold N1.
    rewrite znth_app_l by (rewrite len_i2; lia).
    replace (F + N1 + 32 * k + j - F - N1) with (32 * k + j) by lia.
    pose proof (qok_i2 L K) as G. rewrite Forall_forall in G.
    rewrite (znth_concat 32); try lia.
    - rewrite znthl_map by exact Hk. apply znth_map. rewrite G by (apply znthl_In; exact Hk). lia.
    - apply Forall_forall. intros b Hb. apply in_map_iff in Hb as (x & <- & Hx). rewrite zlen_map. auto.
    - rewrite zlen_map. exact Hk.
  Qed.

  Lemma i3_in k : 0 <= k < zlen (q_i3 L) -> In (i3_at L k) (q_i3 L).
  Proof. intros H. unfold i3_at. apply nth_In. unfold zlen in H. lia. Qed.

  Lemma i3_start k : 0 <= k < zlen (q_i3 L) -> 0 <= i3_pos L k /\ i3_pos L k + zlen (enc3 (i3_at L k)) <= zlen S.
  Proof.
    intros H. rewrite len_S. unfold i3_pos. fold F N1 N2.
    pose proof (zlen_nonneg (q_bmp L)) as A1. pose proof (zlen_nonneg (q_i1 L)) as A2. pose proof (zlen_nonneg (q_i2 L)) as A3.
    fold F in A1. fold N1 in A2. fold N2 in A3.
    set (P := concat (map enc3 (firstn (Z.to_nat k) (q_i3 L)))). pose proof (zlen_nonneg P). split; [lia|].
    assert (E : q_i3 L = firstn (Z.to_nat k) (q_i3 L) ++ i3_at L k :: skipn (Datatypes.S (Z.to_nat k)) (q_i3 L)).
    { rewrite <- (firstn_skipn (Z.to_nat k) (q_i3 L)) at 1. f_equal. unfold i3_at.
      unfold zlen in H. clear -H. set (n := Z.to_nat k). assert (Hn : (n < length (q_i3 L))%nat) by lia. clearbody n. clear H.
      revert n Hn. induction (q_i3 L) as [|a l IH]; intros n Hn; [cbn in Hn; lia|]. destruct n; [reflexivity|].
      cbn [skipn nth]. apply IH. cbn in Hn. lia. }
    assert (Q : zlen (concat (map enc3 (q_i3 L))) = zlen P + zlen (enc3 (i3_at L k)) +
                zlen (concat (map enc3 (skipn (Datatypes.S (Z.to_nat k)) (q_i3 L))))).
    { rewrite E at 1. rewrite map_app, concat_app, zlen_app. cbn [map concat]. rewrite zlen_app. fold P. lia. }
    pose proof (zlen_nonneg (concat (map enc3 (skipn (Datatypes.S (Z.to_nat k)) (q_i3 L))))). lia.
  Qed.

  Lemma S_i3 k j : 0 <= k < zlen (q_i3 L) -> 0 <= j < zlen (enc3 (i3_at L k)) ->
    znth S (i3_pos L k + j) = znth (enc3 (i3_at L k)) j.
  Proof.
    intros Hk Hj. unfold S, cp_serialize_index, i3_pos. fold F N1 N2.
    set (P := concat (map enc3 (firstn (Z.to_nat k) (q_i3 L)))). pose proof (zlen_nonneg P) as A0.
    pose proof (zlen_nonneg (q_bmp L)) as A1. pose proof (zlen_nonneg (q_i1 L)) as A2. pose proof (zlen_nonneg (q_i2 L)) as A3.
    fold F in A1. fold N1 in A2. fold N2 in A3.
    rewrite znth_app_r by (fold F; lia). fold F.
    rewrite znth_app_r by (rewrite zlen_map; fold N1; lia). rewrite zlen_map. fold N1.
    rewrite znth_app_r by (rewrite len_i2; lia). rewrite len_i2.
    replace (F + N1 + 32 * N2 + zlen P + j - F - N1 - 32 * N2) with (zlen P + j) by lia.
    unfold P. rewrite <- firstn_map.
    assert (E : nth (Z.to_nat k) (map enc3 (q_i3 L)) [] = enc3 (i3_at L k)).
    { rewrite (nth_indep _ [] (enc3 (false, []))) by (rewrite map_length; unfold zlen in Hk; lia). apply map_nth. }
    rewrite znth_ext_concat; rewrite ?E; auto. rewrite map_length. unfold zlen in Hk. lia.
  Qed.




  Lemma index3_ok k i : 0 <= k < zlen (q_i3 L) -> 0 <= i < 32 ->
    index3 (cp_serialize L) (i3_ref L k) i = Ok (znth (snd (i3_at L k)) i).
  Proof.
    intros Hk Hi. pose proof (i3_in k Hk) as Hin. destruct (i3_start k Hk) as [P1 P2].
    pose proof (qok_i3 L K) as G1. rewrite Forall_forall in G1. specialize (G1 _ Hin).
    pose proof (qok_i3_off L K) as G2. rewrite Forall_forall in G2. specialize (G2 _ Hin).
    pose proof (qok_size L K) as G3. fold S in G3.
    assert (R := fun j => S_i3 k j Hk).
    unfold index3, i3_ref. destruct (i3_at L k) as [wide l]. cbn [fst snd] in *.
    destruct wide.
    - destruct (enc3_wide l G1) as [E1 E2]. rewrite E1 in *.
      destruct (land_8000 (i3_pos L k) ltac:(lia)) as (_ & B1 & B2). rewrite B1, B2. change (0x8000 =? 0) with false. cbv iota.
      destruct (small_bits i Hi) as [C1 C2]. rewrite <- Z.add_assoc, C1, C2.
      rewrite get_S by lia. cbn [bind]. rewrite get_S by lia. cbn [bind].
      rewrite R by lia. rewrite <- Z.add_assoc, <- Z.add_assoc. rewrite R by lia.
      replace (9 * (i / 8)) with (9 * (i / 8) + 0) at 1 by lia. rewrite E2 by lia.
      replace (9 * (i / 8) + (1 + i mod 8)) with (9 * (i / 8) + (1 + i mod 8)) by lia. rewrite E2 by lia.
      f_equal. rewrite group18_spec.
      + rewrite eighth_nth by lia. f_equal. lia.
      + apply eighth_len; auto. lia.
      + apply Forall_forall. intros o Ho. rewrite Forall_forall in G2. apply G2.
        unfold eighth in Ho. apply (in_firstn_skipn l o 8 (8 * Z.to_nat (i / 8))). exact Ho.
      + lia.
    - assert (E1 : zlen (enc3 (false, l)) = 32) by exact G1. rewrite E1 in *.
      rewrite Z.add_0_r. destruct (land_8000 (i3_pos L k) ltac:(lia)) as (B1 & _). rewrite B1. change (0 =? 0) with true. cbv iota.
      rewrite get_S by lia. rewrite R by lia. reflexivity.
  Qed.

  Lemma get_D i : 0 <= i < zlen (q_data L) -> aget (cp_data (cp_serialize L)) i = Ok (znth (q_data L) i).
  Proof. intros H. cbn [cp_serialize cp_data]. rewrite aget_Ok by exact H. reflexivity. Qed.

  Lemma bmp_off i : 0 <= i < F -> 0 <= znth (q_bmp L) i /\ znth (q_bmp L) i + 64 <= zlen (q_data L).
  Proof.
    intros H. pose proof (qok_bmp_off L K) as G. rewrite Forall_forall in G. apply G. unfold znth. apply nth_In.
    unfold F, zlen in H. lia.
  Qed.

  Lemma F_S : F <= zlen S.
  Proof.
    rewrite len_S. pose proof (zlen_nonneg (q_i1 L)) as A2. pose proof (zlen_nonneg (q_i2 L)) as A3.
    pose proof (zlen_nonneg (concat (map enc3 (q_i3 L)))). fold N1 in A2. fold N2 in A3. lia.
  Qed.


  Lemma fast_ok c : 0 <= c < q_limit L -> fastIndex (cp_serialize L) c = Ok (znth (q_bmp L) (c / 64) + c mod 64).
  Proof.
    intros H. unfold fastIndex. rewrite sh6, landc63.
    assert (B : 0 <= c / 64 < F).
    { unfold F. rewrite (qok_bmp L K). unfold q_limit in H. destruct (q_fast L); lia. }
    pose proof F_S. rewrite get_S by lia. rewrite S_bmp by lia. reflexivity.
  Qed.

  Lemma i3Block_ok c : q_limit L <= c < q_highStart L ->
    let id := znth (znthl (q_i2 L) (znth (q_i1 L) ((c - q_first L) / 16384))) (c / 512 mod 32) in
    0 <= id < zlen (q_i3 L) /\ i3BlockOf (cp_serialize L) c = Ok (i3_ref L id).
  Proof.
    intros H id. set (i := (c - q_first L) / 16384) in *.
    assert (Hi : 0 <= i < N1).
    { pose proof (qok_i1 L K) as QI. fold N1 in QI. unfold i, q_first, q_limit in *. destruct (q_fast L); lia. }
    assert (Hk : 0 <= znth (q_i1 L) i < N2).
    { pose proof (qok_i1_id L K) as G. apply (znth_below N2 (q_i1 L) i G). exact Hi. }
    set (k := znth (q_i1 L) i) in *.
    assert (Hm : 0 <= c / 512 mod 32 < 32) by (apply Z.mod_pos_bound; lia).
    assert (Hid : 0 <= id < zlen (q_i3 L)).
    { unfold id. fold k. pose proof (qok_i2_id L K) as G. rewrite Forall_forall in G. specialize (G _ (znthl_In _ _ Hk)).
      apply (znth_below _ _ _ G). pose proof (qok_i2 L K) as G2. rewrite Forall_forall in G2. rewrite (G2 _ (znthl_In _ _ Hk)). exact Hm. }
    split; auto. unfold i3BlockOf. rewrite shc14, shc9, landc31.
    replace (c / 16384 + (if cp_type (cp_serialize L) =? TYPE_FAST then BMP_INDEX_LENGTH - CP_OMITTED_BMP_INDEX_1_LENGTH else SMALL_INDEX_LENGTH))
      with (F + i).
    2: { unfold F, i, q_first, cp_serialize. cbn [cp_type]. rewrite (qok_bmp L K). destruct (q_fast L).
         - change (0 =? TYPE_FAST) with true. cbv iota. change (BMP_INDEX_LENGTH - CP_OMITTED_BMP_INDEX_1_LENGTH) with 1020. lia.
         - change (1 =? TYPE_FAST) with false. cbv iota. change SMALL_INDEX_LENGTH with 64. rewrite Z.sub_0_r. lia. }
    pose proof len_S as LS. pose proof (zlen_nonneg (concat (map enc3 (q_i3 L)))) as NN.
    pose proof (zlen_nonneg (q_bmp L)) as A1. fold F in A1. pose proof (zlen_nonneg (q_i1 L)) as A2. fold N1 in A2.
    rewrite get_S by lia. rewrite S_i1 by lia. cbn [bind]. fold k.
    assert (0 <= i2_pos L k + c / 512 mod 32 < zlen S) by (unfold i2_pos; fold F N1; lia).
    rewrite get_S by lia. rewrite S_i2 by lia. reflexivity.
  Qed.

  Theorem cp_lookup_ok c : 0 <= c <= 0x10FFFF -> cpget (cp_serialize L) c = Ok (cp_value L c).
  Proof.
    intros Hc. unfold cpget, cpIndex, cp_value.
    replace (if cp_type (cp_serialize L) =? TYPE_FAST then 0xFFFF else SMALL_MAX) with (q_limit L - 1)
      by (unfold q_limit, cp_serialize; cbn [cp_type]; destruct (q_fast L); reflexivity).
    assert (HL : q_limit L = 0x10000 \/ q_limit L = 0x1000) by (unfold q_limit; destruct (q_fast L); auto).
    destruct (c <? q_limit L) eqn:E1.
    - assert (B : 0 <= c / 64 < F).
      { unfold F. rewrite (qok_bmp L K). unfold q_limit in *. destruct (q_fast L); lia. }
      pose proof (bmp_off _ B).
      destruct (c <=? 0x7F) eqn:E0.
      + cbn [bind]. replace (znth (q_bmp L) (c / 64) + c mod 64) with c.
        * apply get_D. destruct (qok_ascii L K) as [A1 A2].
          assert (Q : c / 64 = 0 \/ c / 64 = 1) by lia. destruct Q as [Q|Q]; rewrite Q in *; lia.
        * destruct (qok_ascii L K) as [A1 A2]. assert (Q : c / 64 = 0 \/ c / 64 = 1) by lia. destruct Q as [Q|Q]; rewrite Q in *; lia.
      + destruct (c <=? q_limit L - 1) eqn:E2; [|lia]. rewrite fast_ok by lia. cbn [bind]. apply get_D. lia.
    - destruct (c <=? 0x7F) eqn:E0; [lia|]. destruct (c <=? q_limit L - 1) eqn:E2; [lia|].
      destruct (c <=? 0x10FFFF) eqn:E3; [|lia]. unfold smallIndex. change (cp_highStart (cp_serialize L)) with (q_highStart L).
      destruct (c <? q_highStart L) eqn:E4.
      + destruct (c >=? q_highStart L) eqn:E5; [lia|]. unfold internalSmallIndex.
        destruct (i3Block_ok c ltac:(lia)) as [Hid E]. rewrite E. cbn [bind]. rewrite shc4, landc31', landc15.
        assert (Hm : 0 <= c / 16 mod 32 < 32) by (apply Z.mod_pos_bound; lia).
        rewrite index3_ok by auto. cbn [bind]. apply get_D.
        match goal with |- context [snd (i3_at L ?k)] => set (id := k) in * end.
        pose proof (qok_i3_off L K) as G. rewrite Forall_forall in G. specialize (G _ (i3_in id Hid)).
        rewrite Forall_forall in G. specialize (G (znth (snd (i3_at L id)) (c / 16 mod 32))).
        pose proof (qok_i3 L K) as G1. rewrite Forall_forall in G1. specialize (G1 _ (i3_in id Hid)).
        assert (In (znth (snd (i3_at L id)) (c / 16 mod 32)) (snd (i3_at L id))) by (unfold znth; apply nth_In; unfold zlen in G1; lia).
        specialize (G H). pose proof (Z.mod_pos_bound c 16 ltac:(lia)). lia.
      + destruct (c >=? q_highStart L) eqn:E5; [|lia]. cbn [bind]. unfold cp_dataLength, HIGH_VALUE_NEG_DATA_OFFSET.
        change (alen (cp_data (cp_serialize L))) with (zlen (q_data L)). apply get_D. pose proof (qok_data L K). lia.
  Qed.

  Theorem cp_lookup_error c : 0x10FFFF < c -> cpget (cp_serialize L) c = Ok (cp_error L).
  Proof.
    intros Hc. unfold cpget, cpIndex, cp_error.
    destruct (c <=? 0x7F) eqn:E0; [lia|].
    replace (c <=? (if cp_type (cp_serialize L) =? TYPE_FAST then 0xFFFF else SMALL_MAX)) with false
      by (destruct (cp_type (cp_serialize L) =? TYPE_FAST); unfold SMALL_MAX; lia).
    destruct (c <=? 0x10FFFF) eqn:E3; [lia|]. cbn [bind]. unfold cp_dataLength, ERROR_VALUE_NEG_DATA_OFFSET.
    change (alen (cp_data (cp_serialize L))) with (zlen (q_data L)). apply get_D. pose proof (qok_data L K). lia.
  Qed.
End Read.
