(** * UTrie2: a serialised trie answers what was stored.

    [layout] is an independent description of a trie: which data block each group
    of 32 code points uses (blocks may be shared in any way), with a second level
    for supplementary code points; [value_at] is the function from code points it
    stands for and [serialize] writes it out in the UTrie2 array format. *)
From Coq Require Import ZArith List Bool Lia ZifyBool.
From Verif Require Import Py Arr UnicodeSet Utilities UTrie2 UtilitiesFacts.
Import ListNotations.
Open Scope Z_scope.
Ltac Zify.zify_post_hook ::= Z.to_euclidean_division_equations.

Record layout := mkLayout {
  L_bmp : list Z;            (* 2048 data block numbers: U+0000..U+FFFF, code units for surrogates *)
  L_lscp : list Z;           (* 32 data block numbers: lead surrogate code points *)
  L_utf8 : list Z;           (* 32 entries not used by this lookup *)
  L_index1 : list Z;         (* index-2 block numbers, one per 2048 supplementary code points *)
  L_i2 : list (list Z);      (* index-2 blocks: 64 data block numbers each *)
  L_pad : list Z;            (* padding of the index to a multiple of 4 *)
  L_data : list (list Z);    (* data blocks of 32 values *)
  L_high : Z;                (* the value from L_highStart to U+10FFFF *)
  L_highStart : Z;
  L_nullI2 : Z; L_nullData : Z; L_init : Z }.

Definition znth (l : list Z) (i : Z) : Z := nth (Z.to_nat i) l 0.
Definition znthl (l : list (list Z)) (i : Z) : list Z := nth (Z.to_nat i) l [].
Definition below (n : Z) (l : list Z) : Prop := Forall (fun x => 0 <= x < n) l.

Record layout_ok (L : layout) : Prop := {
  ok_bmp : zlen (L_bmp L) = 2048;
  ok_lscp : zlen (L_lscp L) = 32;
  ok_utf8 : zlen (L_utf8 L) = 32;
  ok_high : 0x10000 <= L_highStart L <= 0x110000;
  ok_high_mod : L_highStart L mod 2048 = 0;
  ok_index1 : zlen (L_index1 L) = (L_highStart L - 0x10000) / 2048;
  ok_i2 : Forall (fun b => zlen b = 64 /\ below (zlen (L_data L)) b) (L_i2 L);
  ok_pad : (zlen (L_index1 L) + zlen (L_pad L)) mod 4 = 0;
  ok_data : Forall (fun b => zlen b = 32) (L_data L);
  ok_bmp_ids : below (zlen (L_data L)) (L_bmp L);
  ok_lscp_ids : below (zlen (L_data L)) (L_lscp L);
  ok_index1_ids : below (zlen (L_i2 L)) (L_index1 L);
  ok_ascii : 6 <= zlen (L_data L) }.

(** the value of a code point: the [c mod 32]-th value of its data block *)
Definition data_value (L : layout) (b c : Z) : Z := znth (znthl (L_data L) b) (c mod 32).
Definition value_at (L : layout) (c : Z) : Z :=
  if c <? 0x10000 then
    if (0xD800 <=? c) && (c <=? 0xDBFF) then data_value L (znth (L_lscp L) ((c - 0xD800) / 32)) c
    else data_value L (znth (L_bmp L) (c / 32)) c
  else if c <? L_highStart L then
    data_value L (znth (znthl (L_i2 L) (znth (L_index1 L) ((c - 0x10000) / 2048))) (c / 32 mod 64)) c
  else L_high L.
(** the error value: the first value of data block 4 (ill-formed UTF-8) *)
Definition error_value (L : layout) : Z := znth (znthl (L_data L) 4) 0.

(** number of index entries *)
Definition index_size (L : layout) : Z :=
  2048 + 32 + 32 + zlen (L_index1 L) + zlen (L_pad L) + 64 * zlen (L_i2 L).
Definition data_ref (L : layout) (id : Z) : Z := (index_size L + 32 * id) / 4.
Definition i2_ref (L : layout) (id : Z) : Z := 2112 + zlen (L_index1 L) + zlen (L_pad L) + 64 * id.

Definition serialize_list (L : layout) : list Z :=
  map (data_ref L) (L_bmp L) ++ map (data_ref L) (L_lscp L) ++ L_utf8 L ++
  map (i2_ref L) (L_index1 L) ++ L_pad L ++
  concat (map (map (data_ref L)) (L_i2 L)) ++
  concat (L_data L) ++ [L_high L].

Definition serialize (L : layout) : utrie2 :=
  mkUTrie2 (arr_of_list (serialize_list L)) (index_size L) (L_nullI2 L) (L_nullData L)
           (L_highStart L) (index_size L + 32 * zlen (L_data L)) (L_init L).

(** ** Reading the serialised array *)

Definition rd (l : list Z) (i : Z) : Z := znth l i.

Lemma zlen_map {A B} (f : A -> B) l : zlen (map f l) = zlen l.
Proof. unfold zlen. rewrite map_length. reflexivity. Qed.

Lemma znth_app_l l1 l2 i : 0 <= i < zlen l1 -> znth (l1 ++ l2) i = znth l1 i.
Proof. intros H. unfold znth. rewrite app_nth1; auto. unfold zlen in H. lia. Qed.
Lemma znth_app_r l1 l2 i : zlen l1 <= i -> znth (l1 ++ l2) i = znth l2 (i - zlen l1).
Proof. intros H. unfold znth. unfold zlen in *. rewrite app_nth2 by lia. f_equal. lia. Qed.
Lemma znth_map f l i : 0 <= i < zlen l -> znth (map f l) i = f (znth l i).
Proof.
  intros H. unfold znth. rewrite (nth_indep _ 0 (f 0)) by (rewrite map_length; unfold zlen in H; lia).
  apply map_nth.
Qed.

Lemma zlen_concat n (bs : list (list Z)) : Forall (fun b => zlen b = n) bs -> zlen (concat bs) = n * zlen bs.
Proof.
  induction 1 as [|b r H F IH]; cbn [concat]; [unfold zlen; simpl; lia|].
  rewrite zlen_app, IH, H. unfold zlen. simpl length. lia.
Qed.

Lemma znth_concat n (bs : list (list Z)) : 0 < n -> Forall (fun b => zlen b = n) bs -> forall k j, 0 <= k < zlen bs -> 0 <= j < n ->
  znth (concat bs) (n * k + j) = znth (znthl bs k) j.
Proof.
  intros Hn. induction 1 as [|b r H F IH]; intros k j Hk Hj; [unfold zlen in Hk; simpl in Hk; lia|].
  cbn [concat]. destruct (Z.eq_dec k 0) as [->|Nk].
  - rewrite znth_app_l by lia. replace (n * 0 + j) with j by lia. reflexivity.
  - rewrite znth_app_r by nia. rewrite H. replace (n * k + j - n) with (n * (k - 1) + j) by lia.
    rewrite IH; [|unfold zlen in *; simpl in Hk; lia|lia].
    f_equal. unfold znthl. replace (Z.to_nat k) with (S (Z.to_nat (k - 1))) by lia. reflexivity.
Qed.

Lemma znth_below n l i : below n l -> 0 <= i < zlen l -> 0 <= znth l i < n.
Proof.
  intros B H. unfold below in B. rewrite Forall_forall in B. apply B. unfold znth. apply nth_In. unfold zlen in H. lia.
Qed.
Lemma znthl_In bs k : 0 <= k < zlen bs -> In (znthl bs k) bs.
Proof. intros H. unfold znthl. apply nth_In. unfold zlen in H. lia. Qed.
Lemma znthl_map (f : list Z -> list Z) bs k : 0 <= k < zlen bs -> znthl (map f bs) k = f (znthl bs k).
Proof.
  intros H. unfold znthl. rewrite (nth_indep _ [] (f [])) by (rewrite map_length; unfold zlen in H; lia).
  apply map_nth.
Qed.

Section Read.
  Variable L : layout.
  Hypothesis K : layout_ok L.

  Let K1 := ok_bmp L K. Let K2 := ok_lscp L K. Let K3 := ok_utf8 L K.
  Let S := serialize_list L.

  Lemma zlen_i2 : zlen (concat (map (map (data_ref L)) (L_i2 L))) = 64 * zlen (L_i2 L).
  Proof.
    rewrite (zlen_concat 64), zlen_map; auto. apply Forall_forall. intros b Hb.
    apply in_map_iff in Hb as (x & <- & Hx). rewrite zlen_map.
    pose proof (ok_i2 L K) as F. rewrite Forall_forall in F. apply F; auto.
  Qed.

  Lemma zlen_S : zlen S = index_size L + 32 * zlen (L_data L) + 1.
  Proof.
    unfold S, serialize_list. rewrite !zlen_app, !zlen_map, zlen_i2, K1, K2, K3.
    rewrite (zlen_concat 32) by apply (ok_data L K). unfold index_size. change (zlen [L_high L]) with 1. lia.
  Qed.

  Lemma size_mod4 : index_size L mod 4 = 0.
  Proof. unfold index_size. pose proof (ok_pad L K). pose proof (zlen_nonneg (L_i2 L)). lia. Qed.

  Lemma data_ref_4 id : 0 <= id -> Z.shiftl (data_ref L id) 2 = index_size L + 32 * id.
  Proof.
    intros. rewrite Z.shiftl_mul_pow2 by lia. change (2 ^ 2) with 4. unfold data_ref.
    pose proof size_mod4. lia.
  Qed.

  Lemma S_get i : 0 <= i < zlen S -> aget (arr_of_list S) i = Ok (znth S i).
  Proof. intros H. apply (aget_Ok (arr_of_list S)). exact H. Qed.

  Lemma S_bmp i : 0 <= i < 2048 -> znth S i = data_ref L (znth (L_bmp L) i).
  Proof. intros H. unfold S, serialize_list. rewrite znth_app_l by (rewrite zlen_map; lia). apply znth_map. lia. Qed.

  Lemma S_lscp i : 0 <= i < 32 -> znth S (2048 + i) = data_ref L (znth (L_lscp L) i).
  Proof.
    intros H. unfold S, serialize_list. rewrite znth_app_r, zlen_map by (rewrite zlen_map; lia).
    rewrite znth_app_l by (rewrite zlen_map; lia). rewrite znth_map by lia. do 2 f_equal. lia.
  Qed.

  Lemma S_index1 i : 0 <= i < zlen (L_index1 L) -> znth S (2112 + i) = i2_ref L (znth (L_index1 L) i).
  Proof.
    intros H. unfold S, serialize_list. do 3 (rewrite znth_app_r, ?zlen_map by (rewrite ?zlen_map; lia)).
    rewrite znth_app_l by (rewrite zlen_map; lia). rewrite znth_map by lia. do 2 f_equal. lia.
  Qed.

  Lemma S_i2 k j : 0 <= k < zlen (L_i2 L) -> 0 <= j < 64 ->
    znth S (i2_ref L k + j) = data_ref L (znth (znthl (L_i2 L) k) j).
  Proof.
    intros Hk Hj. unfold S, serialize_list, i2_ref.
    pose proof (zlen_nonneg (L_index1 L)). pose proof (zlen_nonneg (L_pad L)).
    do 5 (rewrite znth_app_r, ?zlen_map by (rewrite ?zlen_map; lia)).
    rewrite znth_app_l by (rewrite zlen_i2; lia).
    match goal with |- znth _ ?e = _ => replace e with (64 * k + j) by lia end.
    rewrite znth_concat; auto; [|lia| |rewrite zlen_map; lia].
    - rewrite znthl_map by lia. rewrite znth_map; auto.
      pose proof (ok_i2 L K) as F. rewrite Forall_forall in F.
      destruct (F _ (znthl_In _ _ Hk)) as [-> _]. lia.
    - apply Forall_forall. intros b Hb. apply in_map_iff in Hb as (x & <- & Hx). rewrite zlen_map.
      pose proof (ok_i2 L K) as F. rewrite Forall_forall in F. apply F; auto.
  Qed.

  Lemma S_data id j : 0 <= id < zlen (L_data L) -> 0 <= j < 32 ->
    znth S (index_size L + 32 * id + j) = znth (znthl (L_data L) id) j.
  Proof.
    intros Hi Hj. unfold S, serialize_list, index_size.
    pose proof (zlen_nonneg (L_index1 L)). pose proof (zlen_nonneg (L_pad L)). pose proof (zlen_nonneg (L_i2 L)).
    do 6 (rewrite znth_app_r, ?zlen_map, ?zlen_i2 by (rewrite ?zlen_map, ?zlen_i2; lia)).
    rewrite znth_app_l by (rewrite (zlen_concat 32) by apply (ok_data L K); lia).
    match goal with |- znth _ ?e = _ => replace e with (32 * id + j) by lia end.
    apply znth_concat; auto; [lia|]. apply (ok_data L K).
  Qed.

  Lemma S_high : znth S (index_size L + 32 * zlen (L_data L)) = L_high L.
  Proof.
    unfold S, serialize_list, index_size.
    pose proof (zlen_nonneg (L_index1 L)). pose proof (zlen_nonneg (L_pad L)). pose proof (zlen_nonneg (L_i2 L)).
    pose proof (zlen_nonneg (L_data L)).
    do 7 (rewrite znth_app_r, ?zlen_map, ?zlen_i2, ?(zlen_concat 32 (L_data L)) by
            (rewrite ?zlen_map, ?zlen_i2, ?(zlen_concat 32 (L_data L)); try apply (ok_data L K); lia)).
    match goal with |- znth _ ?e = _ => replace e with 0 by lia end. reflexivity.
  Qed.

  Lemma size_pos : 2112 <= index_size L.
  Proof. unfold index_size. pose proof (zlen_nonneg (L_index1 L)). pose proof (zlen_nonneg (L_pad L)). pose proof (zlen_nonneg (L_i2 L)). lia. Qed.

  Lemma read_data id c : 0 <= id < zlen (L_data L) ->
    aget (arr_of_list S) (Z.shiftl (data_ref L id) INDEX_SHIFT + Z.land c DATA_MASK) = Ok (data_value L id c).
  Proof.
    intros H. unfold INDEX_SHIFT. rewrite data_ref_4 by lia.
    replace (Z.land c DATA_MASK) with (c mod 32) by (change DATA_MASK with (Z.ones 5); rewrite Z.land_ones by lia; reflexivity).
    pose proof size_pos. rewrite S_get by (rewrite zlen_S; lia). rewrite S_data by lia. reflexivity.
  Qed.

  Lemma sh5 c : Z.shiftr c SHIFT_2 = c / 32.
  Proof. unfold SHIFT_2. rewrite Z.shiftr_div_pow2 by lia. reflexivity. Qed.
  Lemma sh11 c : Z.shiftr c SHIFT_1 = c / 2048.
  Proof. unfold SHIFT_1. rewrite Z.shiftr_div_pow2 by lia. reflexivity. Qed.

  Theorem lookup_ok c : 0 <= c < 0x10FFFF -> get (serialize L) c = Ok (value_at L c).
  Proof.
    intros Hc. pose proof size_pos. pose proof zlen_S. pose proof (ok_ascii L K).
    unfold get, indexFromCodePoint, value_at.
    cbn [serialize index indexLength highStart highValueIndex].
    destruct (c <? 0xD800) eqn:E1.
    - unfold indexRaw. cbn [serialize index]. rewrite sh5, Z.add_0_l. fold S.
      rewrite S_get, S_bmp by lia. cbn [bind].
      pose proof (znth_below _ _ (c / 32) (ok_bmp_ids L K) ltac:(lia)).
      rewrite read_data by lia.
      destruct (c <? 0x10000) eqn:E2; [|lia]. destruct ((0xD800 <=? c) && (c <=? 0xDBFF)) eqn:E3; [lia|]. reflexivity.
    - destruct (c <=? 0xFFFF) eqn:E2.
      + destruct (c <? 0x10000) eqn:E3; [|lia].
        destruct (c >=? 0xDC00) eqn:E4.
        * destruct ((0xD800 <=? c) && (c <=? 0xDBFF)) eqn:E5; [lia|].
          unfold indexRaw. cbn [serialize index]. rewrite sh5, Z.add_0_l. fold S.
          rewrite S_get, S_bmp by lia. cbn [bind].
          pose proof (znth_below _ _ (c / 32) (ok_bmp_ids L K) ltac:(lia)).
          rewrite read_data by lia. reflexivity.
        * destruct ((0xD800 <=? c) && (c <=? 0xDBFF)) eqn:E5; [|lia].
          unfold indexRaw. cbn [serialize index]. rewrite (sh5 c). fold S.
          replace (LSCP_INDEX_2_OFFSET - Z.shiftr 0xD800 SHIFT_2 + c / 32) with (2048 + (c - 0xD800) / 32)
            by (change (LSCP_INDEX_2_OFFSET - Z.shiftr 0xD800 SHIFT_2) with 320; lia).
          rewrite S_get, S_lscp by lia. cbn [bind].
          pose proof (znth_below _ _ ((c - 0xD800) / 32) (ok_lscp_ids L K) ltac:(lia)).
          rewrite read_data by lia. reflexivity.
      + destruct (c <? 0x10000) eqn:E3; [lia|]. destruct (c >=? 0x10FFFF) eqn:E4; [lia|].
        destruct (c >=? L_highStart L) eqn:E5.
        * destruct (c <? L_highStart L) eqn:E6; [lia|]. cbn [bind]. fold S.
          rewrite S_get, S_high by lia. reflexivity.
        * destruct (c <? L_highStart L) eqn:E6; [|lia].
          pose proof (ok_index1 L K). pose proof (ok_high_mod L K). pose proof (ok_high L K).
          unfold indexFromSupp. cbn [serialize index]. rewrite sh11, sh5. fold S.
          replace (INDEX_1_OFFSET - OMITTED_BMP_INDEX_1_LENGTH + c / 2048) with (2112 + (c - 0x10000) / 2048)
            by (change (INDEX_1_OFFSET - OMITTED_BMP_INDEX_1_LENGTH) with 2080; lia).
          pose proof (zlen_nonneg (L_pad L)). pose proof (zlen_nonneg (L_i2 L)).
          assert (index_size L = 2112 + zlen (L_index1 L) + zlen (L_pad L) + 64 * zlen (L_i2 L)) as SZ by (unfold index_size; lia).
          rewrite S_get, S_index1 by lia. cbn [bind].
          pose proof (znth_below _ _ ((c - 0x10000) / 2048) (ok_index1_ids L K) ltac:(lia)) as B1.
          set (k := znth (L_index1 L) ((c - 0x10000) / 2048)) in *.
          replace (Z.land (c / 32) INDEX_2_MASK) with (c / 32 mod 64)
            by (change INDEX_2_MASK with (Z.ones 6); rewrite Z.land_ones by lia; reflexivity).
          rewrite S_get by (unfold i2_ref; lia). rewrite S_i2 by lia. cbn [bind].
          pose proof (ok_i2 L K) as F. rewrite Forall_forall in F.
          destruct (F _ (znthl_In _ k B1)) as [Fl Fb].
          pose proof (znth_below _ _ (c / 32 mod 64) Fb ltac:(lia)).
          rewrite read_data by lia. reflexivity.
  Qed.

  (** U+10FFFF and everything above it: the error value *)
  Theorem lookup_error c : 0x10FFFF <= c -> get (serialize L) c = Ok (error_value L).
  Proof.
    intros Hc. pose proof size_pos. pose proof zlen_S. pose proof (ok_ascii L K).
    unfold get, indexFromCodePoint. cbn [serialize index indexLength highStart highValueIndex].
    destruct (c <? 0xD800) eqn:E1; [lia|]. destruct (c <=? 0xFFFF) eqn:E2; [lia|].
    destruct (c >=? 0x10FFFF) eqn:E3; [|lia]. cbn [bind]. fold S.
    rewrite S_get by (unfold BAD_UTF8_DATA_OFFSET; lia).
    replace (index_size L + BAD_UTF8_DATA_OFFSET) with (index_size L + 32 * 4 + 0) by (unfold BAD_UTF8_DATA_OFFSET; lia).
    rewrite S_data by lia. reflexivity.
  Qed.
End Read.
