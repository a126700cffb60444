(** * CPTrie.enumerator: which requests are answered, and with what *)
From Coq Require Import ZArith List Bool Lia ZifyBool.
From Verif Require Import Py Arr Bytes UnicodeSet UtilitiesFacts UTrie2Lookup UTrie2Enum CPTrie CPTrieLookup CPTrieEnum CPTrieNever.
Import ListNotations.
Open Scope Z_scope.
Ltac Zify.zify_post_hook ::= Z.to_euclidean_division_equations.

(** code points that go through the index of three stages *)
Definition multi (t : cptrie) (x : Z) : Prop := (cp_type t = TYPE_FAST -> 0x10000 <= x) /\ 0x1000 <= x.
(** the data block of a code point below U+1000, or of one with three stages *)
Definition dblk (t : cptrie) (x : Z) : res Z :=
  if x <? 0x1000 then aget (cp_index t) (x / 64) else let* i3 := i3BlockOf t x in index3 t i3 (x / 16 mod 32).
Definition lenOf (x : Z) : Z := if x <? 0x1000 then 64 else 16.
(** the first code point of its block *)
Definition b0 (x : Z) : Z := if x <? 0x1000 then 64 * (x / 64) else 16 * (x / 16).

(** The trie can be read up to highStart, ASCII is linear, the null block holds one value, and the
    index-3 null block has the null block in it. *)
Record regular (t : cptrie) : Prop := {
  rg_high : cp_highStart t mod 512 = 0 /\ cp_highStart t <= 0x110000;
  rg_index : forall i v, aget (cp_index t) i = Ok v -> 0 <= v;
  rg_null3 : 0 <= cp_index3NullOffset t;
  rg_low : forall k, 0 <= k < 64 -> exists y, aget (cp_index t) k = Ok y /\ forall j, 0 <= j < 64 -> exists v, aget (cp_data t) (y + j) = Ok v;
  rg_ascii : aget (cp_index t) 0 = Ok 0 /\ aget (cp_index t) 1 = Ok 64;
  rg_multi : forall x, multi t x -> x < cp_highStart t -> exists i3 y, i3BlockOf t x = Ok i3 /\ index3 t i3 (x / 16 mod 32) = Ok y /\
    (exists v, aget (cp_data t) (y + x mod 16) = Ok v) /\ (i3 = cp_index3NullOffset t -> y = cp_dataNullOffset t);
  rg_null : exists v, forall j, 0 <= j < 64 -> aget (cp_data t) (cp_dataNullOffset t + j) = Ok v;
  rg_last : exists h, aget (cp_data t) (cp_dataLength t - 2) = Ok h }.

(** the code points that a request can come to *)
Definition inside (t : cptrie) (x : Z) : Prop := 0 <= x < 0x1000 \/ (multi t x /\ x < cp_highStart t).

Section Exact.
  Variable t : cptrie.
  Hypothesis K : regular t.

  Lemma cpget_dblk x : inside t x -> cpget t x = let* y := dblk t x in aget (cp_data t) (y + (x - b0 x)).
  Proof using K.
    intros [H|[[M1 M2] H]]; unfold cpget, dblk, b0.
    - replace (x <? 0x1000) with true by lia. destruct (x <=? 0x7F) eqn:E0.
      + cbn [bind]. destruct (rg_ascii t K) as [A0 A1]. assert (Q : x / 64 = 0 \/ x / 64 = 1) by lia.
        destruct Q as [Q|Q]; rewrite Q, ?A0, ?A1; cbn [bind]; f_equal; lia.
      + unfold cpIndex. replace (x <=? (if cp_type t =? TYPE_FAST then 0xFFFF else SMALL_MAX)) with true
          by (unfold SMALL_MAX; destruct (cp_type t =? TYPE_FAST); lia).
        unfold fastIndex. rewrite sh6. change FAST_DATA_MASK with 63. rewrite land63.
        destruct (aget (cp_index t) (x / 64)); [|reflexivity]. cbn [bind]. f_equal. lia.
    - destruct (rg_high t K) as [_ HH]. replace (x <? 0x1000) with false by lia. replace (x <=? 0x7F) with false by lia. unfold cpIndex.
      replace (x <=? (if cp_type t =? TYPE_FAST then 0xFFFF else SMALL_MAX)) with false
        by (unfold SMALL_MAX; destruct (cp_type t =? TYPE_FAST) eqn:Q; [specialize (M1 ltac:(lia)); lia|lia]).
      replace (x <=? 0x10FFFF) with true by lia. unfold smallIndex. replace (x >=? cp_highStart t) with false by lia.
      unfold internalSmallIndex. rewrite shc4, landc31', landc15.
      destruct (i3BlockOf t x) as [i3|]; [|reflexivity]. cbn [bind]. destruct (index3 t i3 (x / 16 mod 32)) as [y|]; [|reflexivity]. cbn [bind].
      f_equal. lia.
  Qed.
  Lemma dblk_ok x : inside t x -> exists y v, dblk t x = Ok y /\ aget (cp_data t) (y + (x - b0 x)) = Ok v /\ cpget t x = Ok v.
  Proof using K.
    intros I. rewrite (cpget_dblk x I). destruct I as [H|[M H]]; unfold dblk, b0.
    - replace (x <? 0x1000) with true by lia. destruct (rg_low t K (x / 64) ltac:(lia)) as (y & E & R). destruct (R (x - 64 * (x / 64)) ltac:(lia)) as [v V].
      exists y, v. rewrite E. cbn [bind]. auto.
    - destruct (rg_multi t K x M H) as (i3 & y & E1 & E2 & (v & V) & _). destruct M as [_ M]. replace (x <? 0x1000) with false by lia.
      rewrite E1. cbn [bind]. rewrite E2. replace (x - 16 * (x / 16)) with (x mod 16) by lia. exists y, v. rewrite V. auto.
  Qed.
  Lemma inside_get x : inside t x -> exists v, cpget t x = Ok v.
  Proof using K. intros I. destruct (dblk_ok x I) as (y & v & _ & _ & E). exists v. exact E. Qed.
  (** the null block holds the null value *)
  Variable null : Z.
  Hypothesis NV : aget (cp_data t) (cp_dataNullOffset t) = Ok null.
  Lemma null_value x : inside t x -> dblk t x = Ok (cp_dataNullOffset t) -> cpget t x = Ok null.
  Proof using K NV.
    intros I E. rewrite (cpget_dblk x I), E. cbn [bind]. destruct (rg_null t K) as [v V]. assert (V0 := V 0 ltac:(lia)). rewrite Z.add_0_r, NV in V0.
    injection V0 as <-. apply V. unfold b0. destruct (x <? 0x1000); lia.
  Qed.

  Variables start limit : Z.
  Hypothesis SL : 0 <= start < limit.

  (** the request takes the block that begins at [b] for one filled with the value before it *)
  Definition skip (b : Z) : bool := (start <=? b - lenOf b) && match dblk t b, dblk t (b - 1) with Ok y, Ok z => y =? z | _, _ => false end.
  (** the value that the request gives to a code point *)
  Inductive shown : Z -> Z -> Prop :=
  | shown_own x v : skip (b0 x) = false -> cpget t x = Ok v -> shown x v
  | shown_left x v : skip (b0 x) = true -> shown (b0 x - 1) v -> shown x v.

  Lemma lenOf_b0 x : 0 <= x -> b0 x <= x < b0 x + lenOf x /\ lenOf (b0 x) = lenOf x /\ b0 (b0 x) = b0 x /\ 0 <= b0 x.
  Proof. unfold lenOf, b0. intros H. destruct (x <? 0x1000) eqn:E; [replace (64 * (x / 64) <? 0x1000) with true by lia|replace (16 * (x / 16) <? 0x1000) with false by lia]; lia. Qed.
  Lemma i3_block x y : x / 512 = y / 512 -> x / 16 mod 32 = y / 16 mod 32 -> 0x1000 <= x -> 0x1000 <= y -> dblk t x = dblk t y.
  Proof. intros H1 H2 H3 H4. unfold dblk. replace (x <? 0x1000) with false by lia. replace (y <? 0x1000) with false by lia. rewrite (i3BlockOf_same t x y H1), H2. reflexivity. Qed.
  Lemma dblk_b0 x : 0 <= x -> dblk t (b0 x) = dblk t x.
  Proof.
    intros H. destruct (x <? 0x1000) eqn:E.
    - unfold dblk, b0. rewrite E. replace (64 * (x / 64) <? 0x1000) with true by lia. f_equal. lia.
    - unfold b0. rewrite E. apply i3_block; lia.
  Qed.
  (** blocks that are the null block, one after another, have the null value *)
  Lemma inside_left x : inside t x -> start <= b0 x - 1 -> multi t start \/ cp_type t <> TYPE_FAST \/ x < 0x1000 -> inside t (b0 x - 1).
  Proof using SL.
    intros I S M. pose proof (lenOf_b0 x) as L. destruct I as [H|[[M1 M2] H]].
    - left. unfold b0 in *. replace (x <? 0x1000) with true in * by lia. lia.
    - assert (Q : b0 x = 16 * (x / 16)) by (unfold b0; replace (x <? 0x1000) with false by lia; reflexivity). rewrite Q in *. destruct M as [[N1 N2]|[N|N]]; [| |lia].
      + right. split; [split; [intros T; specialize (N1 T); lia|lia]|lia].
      + destruct (Z_lt_le_dec (16 * (x / 16) - 1) 0x1000); [left; lia|right]. split; [split; [intros T; congruence|lia]|lia].
  Qed.
  (** the requests considered do not pass from U+0FFF to the rest of a FAST trie *)
  Definition whole (x : Z) : Prop := inside t x /\ (multi t start \/ cp_type t <> TYPE_FAST \/ x < 0x1000).
  Lemma whole_left x : whole x -> start <= b0 x - 1 -> whole (b0 x - 1).
  Proof using SL.
    intros [I M] S. split; [apply (inside_left x I S M)|]. pose proof (lenOf_b0 x). destruct M as [M|[M|M]]; [left; exact M|right; left; exact M|].
    right. right. unfold b0. replace (x <? 0x1000) with true by lia. lia.
  Qed.
  Lemma null_shown x : start <= x -> whole x -> dblk t x = Ok (cp_dataNullOffset t) -> shown x null.
  Proof using K NV SL.
    intros S. revert x S.
    assert (G : forall x, 0 <= x -> start <= x -> whole x -> dblk t x = Ok (cp_dataNullOffset t) -> shown x null); [|intros x S; apply G; lia].
    apply (Z_lt_induction (fun x => start <= x -> whole x -> dblk t x = Ok (cp_dataNullOffset t) -> shown x null)).
    intros x IH S W E. destruct (lenOf_b0 x ltac:(lia)) as (L1 & L2 & L3 & L4). case_eq (skip (b0 x)); intros Q; [|apply shown_own; [exact Q|apply null_value; [apply W|exact E]]].
    apply shown_left; [exact Q|]. unfold skip in Q. apply andb_true_iff in Q as [Q1 Q2]. rewrite (dblk_b0 x), E in Q2 by lia.
    assert (0 < lenOf (b0 x)) by (unfold lenOf; destruct (_ <? _); lia).
    apply IH; [lia|lia|apply whole_left; [exact W|lia]|]. destruct (dblk t (b0 x - 1)) as [z|]; [f_equal; lia|discriminate].
  Qed.
  Lemma shown_get : (forall b x v, skip b = true -> b0 x = b -> start <= x -> whole x -> x < limit -> cpget t (b - 1) = Ok v -> cpget t x = Ok v) ->
    forall x v, shown x v -> start <= x -> whole x -> x < limit -> cpget t x = Ok v.
  Proof using SL.
    intros H x v Sh. induction Sh as [x v Q E|x v Q Sh IH]; intros S W L; [exact E|].
    destruct (lenOf_b0 x ltac:(lia)) as (L1 & L2 & L3 & L4). assert (0 < lenOf (b0 x)) by (unfold lenOf; destruct (_ <? _); lia).
    assert (start <= b0 x - lenOf (b0 x)) by (unfold skip in Q; apply andb_true_iff in Q as [Q1 _]; lia).
    apply (H (b0 x) x v Q eq_refl S W L). apply IH; [lia|apply whole_left; [exact W|lia]|lia].
  Qed.
  Lemma shown_fun x v : shown x v -> forall w, shown x w -> v = w.
  Proof. intros Sh. induction Sh as [x v Q E|x v Q Sh IH]; intros w H; inversion H; subst; try congruence. apply IH. assumption. Qed.
  Lemma shown_some x : start <= x -> whole x -> exists v, shown x v.
  Proof using K SL.
    intros S. revert x S. assert (G : forall x, 0 <= x -> start <= x -> whole x -> exists v, shown x v); [|intros x S; apply G; lia].
    apply (Z_lt_induction (fun x => start <= x -> whole x -> exists v, shown x v)).
    intros x IH S W. destruct (lenOf_b0 x ltac:(lia)) as (L1 & L2 & L3 & L4). case_eq (skip (b0 x)); intros Q.
    - assert (0 < lenOf (b0 x)) by (unfold lenOf; destruct (_ <? _); lia).
      assert (start <= b0 x - lenOf (b0 x)) by (unfold skip in Q; apply andb_true_iff in Q as [Q1 _]; lia).
      destruct (IH (b0 x - 1)) as [v V]; [lia|lia|apply whole_left; [exact W|lia]|]. exists v. apply shown_left; [exact Q|exact V].
    - destruct (inside_get x (proj1 W)) as [v V]. exists v. apply shown_own; [exact Q|exact V].
  Qed.

  (** ** What the loops keep *)
  Record INV (s : cst) : Prop := {
    I_tiles : tiles start (rev (k_out s)) (k_prev s);
    I_changes : changes (rev (k_out s));
    I_last : match k_out s with (_, _, w) :: _ => w <> k_value s | [] => True end;
    I_vals : forall a b v x, In (a, b, v) (k_out s) -> a <= x < b -> shown x v;
    I_cur : forall x, k_prev s <= x < k_c s -> x < limit -> shown x (k_value s);
    I_prev : k_prev s <= k_c s /\ k_prev s < limit /\ start <= k_c s /\ (start < k_c s -> k_prev s < k_c s);
    I_out : k_c s = start -> k_out s = [] }.
  Lemma adv s v c' : INV s -> k_c s < limit -> k_c s < c' -> (forall x, k_c s <= x < c' -> x < limit -> shown x v) -> INV (k_setc (k_note s v) c').
  Proof using SL.
    clear - SL. intros [T C La Va Cu Pr Ou] H1 H2 H3. unfold k_note. destruct (v =? k_value s) eqn:E.
    - apply Z.eqb_eq in E. subst v. constructor; cbn [k_setc k_out k_prev k_value k_c]; auto; try lia.
      intros x Hx Hl. destruct (Z_lt_le_dec x (k_c s)); [apply Cu|apply H3]; lia.
    - apply Z.eqb_neq in E. unfold k_yield. destruct (k_prev s <? k_c s) eqn:P.
      + constructor; cbn [k_setc k_out k_prev k_value k_c].
        * cbn [rev]. apply tiles_snoc; [auto|lia].
        * cbn [rev]. apply changes_snoc; [auto|]. rewrite rev_involutive. destruct (k_out s) as [|[[? ?] w] r]; auto.
        * auto.
        * intros a b w x [Q|Q] Hx; [injection Q as <- <- <-; apply Cu; lia|eapply Va; eauto].
        * intros x Hx Hl. apply H3; lia.
        * lia.
        * lia.
      + assert (Q : k_c s = start) by lia. constructor; cbn [k_setc k_out k_prev k_value k_c]; rewrite ?(Ou Q); cbn; auto; try lia; try (intros a b w x []). 
  Qed.
  Lemma adv_same s c' : INV s -> k_c s < limit -> k_c s < c' -> (forall x, k_c s <= x < c' -> x < limit -> shown x (k_value s)) -> INV (k_setc s c').
  Proof using SL. intros J H1 H2 H3. replace s with (k_note s (k_value s)) at 1 by (unfold k_note; rewrite Z.eqb_refl; reflexivity). apply adv; [exact J|exact H1|exact H2|exact H3]. Qed.
  Lemma last_shown s : INV s -> start < k_c s -> k_c s <= limit -> shown (k_c s - 1) (k_value s).
  Proof using. clear. intros J H1 H2. pose proof (I_prev s J). apply (I_cur s J); lia. Qed.

  (** ** One data block *)
  Lemma land_len len b c : len = 64 \/ len = 16 -> b mod len = 0 -> b <= c < b + len ->
    Z.land c (len - 1) = c - b /\ Z.land (c + len) (Z.lnot (len - 1)) = b + len /\ (Z.land (c + 1) (len - 1) =? 0) = (c + 1 =? b + len).
  Proof.
    clear. intros [-> | ->] M H; [change (64 - 1) with 63; rewrite !land63, land_n63|change (16 - 1) with 15; rewrite !land15, land_n15]; lia.
  Qed.
  (** [own b x]: the request reads the values of this block *)
  Lemma dloop_ok len b y n : len = 64 \/ len = 16 -> b mod len = 0 ->
    (forall x, b <= x < b + len -> start <= x -> exists v, aget (cp_data t) (y + (x - b)) = Ok v /\ shown x v) ->
    forall s di, INV s -> k_c s < limit -> b <= k_c s < b + len -> di = y + (k_c s - b) -> b + len - k_c s <= Z.of_nat n ->
    exists s', dloop t limit n (len - 1) di s = Ok s' /\ INV s' /\ k_block s' = k_block s /\ k_i3block s' = k_i3block s /\ k_c s' = Z.min limit (b + len).
  Proof using SL.
    intros LEN M R. induction n as [|n IH]; intros s di J Hc Hb Hd Hn; [lia|]. cbn [dloop].
    pose proof (I_prev s J) as Pr. destruct (R (k_c s) Hb ltac:(lia)) as (v & Hv & Sv). rewrite Hd, Hv. cbn [bind].
    assert (J' : INV (k_setc (k_note s v) (k_c s + 1))).
    { apply adv; auto; try lia. intros x Hx _. replace x with (k_c s) by lia. exact Sv. }
    set (s1 := k_setc (k_note s v) (k_c s + 1)) in *.
    assert (C1 : k_c s1 = k_c s + 1) by reflexivity.
    assert (B1 : k_block s1 = k_block s) by (subst s1; unfold k_note; destruct (v =? k_value s); reflexivity).
    assert (B3 : k_i3block s1 = k_i3block s) by (subst s1; unfold k_note; destruct (v =? k_value s); reflexivity).
    rewrite C1. destruct (land_len len b (k_c s) LEN M Hb) as (_ & _ & ->).
    destruct ((k_c s + 1 <? limit) && negb (k_c s + 1 =? b + len)) eqn:E.
    - destruct (IH s1 (y + (k_c s - b) + 1)) as (s' & H1 & H2 & H3 & H4 & H5); [exact J'|lia|lia|lia|lia|].
      exists s'. split; [exact H1|]. split; [exact H2|]. split; [congruence|]. split; [congruence|exact H5].
    - exists s1. split; [reflexivity|]. split; [exact J'|]. split; [exact B1|]. split; [exact B3|]. rewrite C1. lia.
  Qed.

  (** at a new block, the block before is known *)
  Definition BM (s : cst) : Prop := start < k_c s -> k_c s < limit -> k_c s = b0 (k_c s) /\ dblk t (k_c s - 1) = Ok (k_block s).

  (** ** The blocks of the linear part, and of one index-3 block *)
  Lemma bloop_64 N base i3 : 0 <= base -> base mod 64 = 0 -> base + 64 * N <= 0x1000 ->
    (forall x, base <= x < base + 64 * N -> whole x /\ index3 t i3 ((x - base) / 64) = dblk t x) ->
    forall n k s, N - k = Z.of_nat n -> 0 <= k -> INV s -> BM s ->
      k_c s <= base + 64 * N -> (limit <= k_c s \/ (base + 64 * k <= k_c s /\ (k < N -> k_c s < base + 64 * k + 64) /\ (k = N -> k_c s = base + 64 * N))) ->
    exists s', bloop t start limit null i3 64 (py_range k N 1) s = Ok s' /\ INV s' /\ BM s' /\ k_i3block s' = k_i3block s /\ k_c s' <= base + 64 * N /\ (limit <= k_c s' \/ k_c s' = base + 64 * N).
  Proof using K NV SL.
    intros B0 BA EX R. induction n as [|n IH]; intros k s Hk K0 J Hb Hm Hc.
    - rewrite py_range_nil by lia. exists s. cbn [bloop]. repeat (split; [first [reflexivity|assumption]|]). destruct Hc as [Hc|(_ & _ & Hc)]; [left; exact Hc|right; apply Hc; lia].
    - rewrite py_range_cons by lia. cbn [bloop]. destruct (k_c s >=? limit) eqn:E.
      { exists s. repeat (split; [first [reflexivity|assumption]|]). left. lia. }
      destruct Hc as [Hc|(Hc1 & Hc2 & _)]; [lia|]. specialize (Hc2 ltac:(lia)).
      remember (base + 64 * k) as b eqn:Eb0.
      assert (In : base <= k_c s < base + 64 * N) by lia.
      assert (BM0 : b mod 64 = 0) by lia.
      assert (BX0 : forall x, b <= x < b + 64 -> b0 x = b /\ lenOf x = 64 /\ (x - base) / 64 = k).
      { intros x Hx. clear - Hx Eb0 BM0 BA EX K0 Hk. unfold b0, lenOf. assert (x <? 0x1000 = true) as -> by lia. lia. }
      destruct (R (k_c s) In) as (WC & IX). destruct (BX0 (k_c s) ltac:(lia)) as (BC & LC & KI). rewrite KI in IX.
      destruct (dblk_ok (k_c s) (proj1 WC)) as (y & v0 & Dy & _). rewrite IX, Dy. cbn [bind].
      destruct (land_len 64 b (k_c s) ltac:(auto) BM0 ltac:(lia)) as (LA & LN & _). rewrite LA.
      pose proof (I_prev s J) as Pr.
      assert (BX : forall x, b <= x < b + 64 -> b0 x = b /\ whole x /\ dblk t x = Ok y).
      { intros x Hx. destruct (BX0 x Hx) as (Bx & Lx & Kx). assert (base <= x < base + 64 * N) as Ix by lia. destruct (R x Ix) as (Wx & IXx).
        split; [exact Bx|]. split; [exact Wx|]. rewrite <- Dy, <- IXx, Kx. exact IX. }
      assert (LB : lenOf b = 64) by (apply BX0; lia).
      assert (REC : forall s', INV s' -> k_i3block s' = k_i3block s -> k_c s' <= b + 64 -> (limit <= k_c s' \/ (k_c s' = b + 64 /\ k_block s' = y)) ->
        exists s'', bloop t start limit null i3 64 (py_range (k + 1) N 1) s' = Ok s'' /\ INV s'' /\ BM s'' /\ k_i3block s'' = k_i3block s /\ k_c s'' <= base + 64 * N /\ (limit <= k_c s'' \/ k_c s'' = base + 64 * N)).
      { intros s' J' I3 Q5 Q. rewrite <- I3. apply IH; [lia|lia|exact J'| |lia|].
        - intros Q1 Q2. destruct Q as [Q|[Q3 Q4]]; [lia|]. rewrite Q3, Q4. split; [|apply BX; lia].
          clear - BM0 EX Eb0 K0. unfold b0. destruct (b + 64 <? 0x1000) eqn:T; lia.
        - clear - Q Eb0 Hk. destruct Q as [Q|[Q3 Q4]]; [left; exact Q|right]. lia. }
      destruct ((y =? k_block s) && (k_c s - start >=? 64)) eqn:SK.
      + destruct (Hb ltac:(lia) ltac:(lia)) as [Eb Eb2]. rewrite BC in Eb. replace (k_c s - b =? 0) with true by lia. cbn [bind].
        apply REC; [|reflexivity|cbn [k_setc k_c]; lia|right; cbn [k_setc k_c k_block]; lia].
        apply adv_same; [exact J|lia|lia|]. intros x Hx Lx. destruct (BX x ltac:(lia)) as (B1 & B2 & B3).
        apply shown_left; rewrite B1.
        * unfold skip. rewrite LB. rewrite Eb in Eb2. destruct (BX b ltac:(lia)) as (_ & _ & ->). rewrite Eb2. lia.
        * rewrite <- Eb. apply last_shown; [exact J|lia|lia].
      + assert (JB : INV (k_setblock s y)) by (destruct J; constructor; auto).
        assert (NS' : skip b = false).
        { unfold skip. rewrite LB. destruct (start <=? b - 64) eqn:T; [|reflexivity]. destruct (Hb ltac:(lia) ltac:(lia)) as [Eb Eb2]. rewrite BC in Eb.
          rewrite <- Eb, Eb2, Dy. cbn [andb]. lia. }
        destruct (y =? cp_dataNullOffset t) eqn:EN.
        * cbn [bind]. apply REC.
          -- apply adv; [exact JB|cbn [k_setblock k_c]; lia|cbn [k_setblock k_c]; lia|cbn [k_setblock k_c]].
             intros x Hx Hl. destruct (BX x ltac:(lia)) as (B1 & B2 & B3). apply null_shown; [lia|exact B2|]. rewrite B3. f_equal. lia.
          -- unfold k_note. destruct (null =? k_value (k_setblock s y)); reflexivity.
          -- cbn [k_setc k_c k_setblock]. rewrite LN. lia.
          -- right. cbn [k_setc k_c k_setblock]. rewrite LN. split; [reflexivity|]. unfold k_note. destruct (null =? k_value (k_setblock s y)); reflexivity.
        * destruct (dloop_ok 64 b y (Z.to_nat 64) ltac:(auto) BM0) with (s := k_setblock s y) (di := y + (k_c s - b)) as (s' & D1 & D2 & D3 & D4 & D5).
          -- intros x Hx Sx. destruct (BX x Hx) as (B1 & B2 & B3). destruct (dblk_ok x (proj1 B2)) as (y' & v & E1 & E2 & E3). exists v. rewrite B3 in E1. assert (y' = y) by congruence. subst y'.
             rewrite B1 in E2. split; [exact E2|]. apply shown_own; [rewrite B1; exact NS'|exact E3].
          -- exact JB.
          -- cbn [k_setblock k_c]. lia.
          -- cbn [k_setblock k_c]. lia.
          -- reflexivity.
          -- cbn [k_setblock k_c]. lia.
          -- change (k_c (k_setblock s y)) with (k_c s). rewrite LA, D1. cbn [bind]. cbn [k_setblock k_c k_block k_i3block] in D3, D4, D5. apply REC; [exact D2|exact D4|lia|]. lia.
  Qed.
  Lemma bloop_16 N base i3 : 0 <= base -> base mod 16 = 0 -> 0x1000 <= base ->
    (forall x, base <= x < base + 16 * N -> whole x /\ index3 t i3 ((x - base) / 16) = dblk t x) ->
    forall n k s, N - k = Z.of_nat n -> 0 <= k -> INV s -> BM s ->
      k_c s <= base + 16 * N -> (limit <= k_c s \/ (base + 16 * k <= k_c s /\ (k < N -> k_c s < base + 16 * k + 16) /\ (k = N -> k_c s = base + 16 * N))) ->
    exists s', bloop t start limit null i3 16 (py_range k N 1) s = Ok s' /\ INV s' /\ BM s' /\ k_i3block s' = k_i3block s /\ k_c s' <= base + 16 * N /\ (limit <= k_c s' \/ k_c s' = base + 16 * N).
  Proof using K NV SL.
    intros B0 BA EX R. induction n as [|n IH]; intros k s Hk K0 J Hb Hm Hc.
    - rewrite py_range_nil by lia. exists s. cbn [bloop]. repeat (split; [first [reflexivity|assumption]|]). destruct Hc as [Hc|(_ & _ & Hc)]; [left; exact Hc|right; apply Hc; lia].
    - rewrite py_range_cons by lia. cbn [bloop]. destruct (k_c s >=? limit) eqn:E.
      { exists s. repeat (split; [first [reflexivity|assumption]|]). left. lia. }
      destruct Hc as [Hc|(Hc1 & Hc2 & _)]; [lia|]. specialize (Hc2 ltac:(lia)).
      remember (base + 16 * k) as b eqn:Eb0.
      assert (In : base <= k_c s < base + 16 * N) by lia.
      assert (BM0 : b mod 16 = 0) by lia.
      assert (BX0 : forall x, b <= x < b + 16 -> b0 x = b /\ lenOf x = 16 /\ (x - base) / 16 = k).
      { intros x Hx. clear - Hx Eb0 BM0 BA EX K0 Hk. unfold b0, lenOf. assert (x <? 0x1000 = false) as -> by lia. lia. }
      destruct (R (k_c s) In) as (WC & IX). destruct (BX0 (k_c s) ltac:(lia)) as (BC & LC & KI). rewrite KI in IX.
      destruct (dblk_ok (k_c s) (proj1 WC)) as (y & v0 & Dy & _). rewrite IX, Dy. cbn [bind].
      destruct (land_len 16 b (k_c s) ltac:(auto) BM0 ltac:(lia)) as (LA & LN & _). rewrite LA.
      pose proof (I_prev s J) as Pr.
      assert (BX : forall x, b <= x < b + 16 -> b0 x = b /\ whole x /\ dblk t x = Ok y).
      { intros x Hx. destruct (BX0 x Hx) as (Bx & Lx & Kx). assert (base <= x < base + 16 * N) as Ix by lia. destruct (R x Ix) as (Wx & IXx).
        split; [exact Bx|]. split; [exact Wx|]. rewrite <- Dy, <- IXx, Kx. exact IX. }
      assert (LB : lenOf b = 16) by (apply BX0; lia).
      assert (REC : forall s', INV s' -> k_i3block s' = k_i3block s -> k_c s' <= b + 16 -> (limit <= k_c s' \/ (k_c s' = b + 16 /\ k_block s' = y)) ->
        exists s'', bloop t start limit null i3 16 (py_range (k + 1) N 1) s' = Ok s'' /\ INV s'' /\ BM s'' /\ k_i3block s'' = k_i3block s /\ k_c s'' <= base + 16 * N /\ (limit <= k_c s'' \/ k_c s'' = base + 16 * N)).
      { intros s' J' I3 Q5 Q. rewrite <- I3. apply IH; [lia|lia|exact J'| |lia|].
        - intros Q1 Q2. destruct Q as [Q|[Q3 Q4]]; [lia|]. rewrite Q3, Q4. split; [|apply BX; lia].
          clear - BM0 EX Eb0 K0. unfold b0. destruct (b + 16 <? 0x1000) eqn:T; lia.
        - clear - Q Eb0 Hk. destruct Q as [Q|[Q3 Q4]]; [left; exact Q|right]. lia. }
      destruct ((y =? k_block s) && (k_c s - start >=? 16)) eqn:SK.
      + destruct (Hb ltac:(lia) ltac:(lia)) as [Eb Eb2]. rewrite BC in Eb. replace (k_c s - b =? 0) with true by lia. cbn [bind].
        apply REC; [|reflexivity|cbn [k_setc k_c]; lia|right; cbn [k_setc k_c k_block]; lia].
        apply adv_same; [exact J|lia|lia|]. intros x Hx Lx. destruct (BX x ltac:(lia)) as (B1 & B2 & B3).
        apply shown_left; rewrite B1.
        * unfold skip. rewrite LB. rewrite Eb in Eb2. destruct (BX b ltac:(lia)) as (_ & _ & ->). rewrite Eb2. lia.
        * rewrite <- Eb. apply last_shown; [exact J|lia|lia].
      + assert (JB : INV (k_setblock s y)) by (destruct J; constructor; auto).
        assert (NS' : skip b = false).
        { unfold skip. rewrite LB. destruct (start <=? b - 16) eqn:T; [|reflexivity]. destruct (Hb ltac:(lia) ltac:(lia)) as [Eb Eb2]. rewrite BC in Eb.
          rewrite <- Eb, Eb2, Dy. cbn [andb]. lia. }
        destruct (y =? cp_dataNullOffset t) eqn:EN.
        * cbn [bind]. apply REC.
          -- apply adv; [exact JB|cbn [k_setblock k_c]; lia|cbn [k_setblock k_c]; lia|cbn [k_setblock k_c]].
             intros x Hx Hl. destruct (BX x ltac:(lia)) as (B1 & B2 & B3). apply null_shown; [lia|exact B2|]. rewrite B3. f_equal. lia.
          -- unfold k_note. destruct (null =? k_value (k_setblock s y)); reflexivity.
          -- cbn [k_setc k_c k_setblock]. rewrite LN. lia.
          -- right. cbn [k_setc k_c k_setblock]. rewrite LN. split; [reflexivity|]. unfold k_note. destruct (null =? k_value (k_setblock s y)); reflexivity.
        * destruct (dloop_ok 16 b y (Z.to_nat 16) ltac:(auto) BM0) with (s := k_setblock s y) (di := y + (k_c s - b)) as (s' & D1 & D2 & D3 & D4 & D5).
          -- intros x Hx Sx. destruct (BX x Hx) as (B1 & B2 & B3). destruct (dblk_ok x (proj1 B2)) as (y' & v & E1 & E2 & E3). exists v. rewrite B3 in E1. assert (y' = y) by congruence. subst y'.
             rewrite B1 in E2. split; [exact E2|]. apply shown_own; [rewrite B1; exact NS'|exact E3].
          -- exact JB.
          -- cbn [k_setblock k_c]. lia.
          -- cbn [k_setblock k_c]. lia.
          -- reflexivity.
          -- cbn [k_setblock k_c]. lia.
          -- change (k_c (k_setblock s y)) with (k_c s). rewrite LA, D1. cbn [bind]. cbn [k_setblock k_c k_block k_i3block] in D3, D4, D5. apply REC; [exact D2|exact D4|lia|]. lia.
  Qed.

  (** ** The whole request *)
  Hypothesis SH : start < cp_highStart t.
  Definition stop : Z := Z.min limit (Z.max (cp_highStart t) 0x1000).
  (** no index-3 block but the null block is entered beyond its middle *)
  Definition reach : Prop := (cp_type t = TYPE_FAST -> start <= 0xFFFF -> stop <= 0x1000) /\
    forall m, start <= m < stop -> multi t m -> 256 <= m mod 512 -> i3BlockOf t m = Ok (cp_index3NullOffset t).
  Hypothesis RE : reach.
  Lemma fast_start : cp_type t = TYPE_FAST -> 0x1000 < stop -> 0x10000 <= start.
  Proof using RE. intros T L. destruct RE as [R _]. specialize (R T). lia. Qed.
  Lemma whole_all x : start <= x < stop -> whole x.
  Proof using RE SL SH.
    intros H. destruct (Z_lt_le_dec x 0x1000) as [L|L]; [split; [left; lia|right; right; exact L]|].
    assert (F : cp_type t = TYPE_FAST -> 0x10000 <= start) by (intros T; apply fast_start; [exact T|lia]). unfold stop in H.
    split; [right; split; [split; [intros T; specialize (F T); lia|lia]|lia]|].
    destruct (Z.eq_dec (cp_type t) TYPE_FAST) as [T|T]; [left; specialize (F T); split; [intros _; lia|lia]|right; left; exact T].
  Qed.

  Record PINV (s : cst) : Prop := {
    P_inv : INV s;
    P_bm : BM s;
    P_c : k_c s = start \/ limit <= k_c s \/ (0x1000 <= k_c s /\ k_c s mod 512 = 0);
    P_max : k_c s <= Z.max (cp_highStart t) 0x1000;
    P_i3 : k_i3block s = -1 \/ limit <= k_c s \/ (0x1000 <= k_c s /\ k_i3block s = cp_index3NullOffset t /\ k_value s = null /\ k_block s = cp_dataNullOffset t) }.
  Lemma INV_block s b : INV s -> INV (k_setblock s b).
  Proof using. clear. intros J. destruct J; constructor; auto. Qed.
  Lemma INV_i3 s b : INV s -> INV (k_seti3 s b).
  Proof using. clear. intros J. destruct J; constructor; auto. Qed.
  Lemma note_value s v : k_value (k_note s v) = v.
  Proof using. clear. unfold k_note. destruct (v =? k_value s) eqn:E; [lia|reflexivity]. Qed.

  Lemma pass s : PINV s -> k_c s < limit -> k_c s < cp_highStart t -> exists s', cp_body t start limit null s = Ok s' /\ PINV s' /\ k_c s < k_c s'.
  Proof using K NV SL SH RE.
    intros [J B PC PM P3] L H. destruct (rg_high t K) as [HM HH]. pose proof (I_prev s J) as Pr. unfold cp_body.
    destruct (Z_lt_le_dec (k_c s) 0x1000) as [Lo|Hi].
    - assert (CS : k_c s = start) by lia. assert (C3 : k_i3block s = -1) by lia.
      replace ((k_c s <=? 0xFFFF) && ((cp_type t =? TYPE_FAST) || (k_c s <=? SMALL_MAX))) with true by (unfold SMALL_MAX; lia).
      change FAST_DATA_BLOCK_LENGTH with 64. rewrite sh6.
      destruct (bloop_64 64 0 0) with (n := Z.to_nat (64 - k_c s / 64)) (k := k_c s / 64) (s := s) as (s' & E & J' & B' & I3 & M & Q); try lia; auto.
      + intros x Hx. split; [split; [left; lia|right; right; lia]|]. rewrite index3_0. unfold dblk. replace (x <? 0x1000) with true by lia. f_equal. lia.
      + exists s'. split; [exact E|]. assert (G : k_c s < k_c s') by lia. split; [|exact G]. constructor; [exact J'|exact B'|lia|lia|lia].
    - assert (ST : k_c s < stop) by (unfold stop; lia).
      assert (F : cp_type t = TYPE_FAST -> 0x10000 <= start) by (intros T; apply fast_start; [exact T|lia]).
      assert (M : multi t (k_c s)) by (split; [intros T; specialize (F T); lia|lia]).
      replace ((k_c s <=? 0xFFFF) && ((cp_type t =? TYPE_FAST) || (k_c s <=? SMALL_MAX))) with false
        by (unfold SMALL_MAX; destruct (cp_type t =? TYPE_FAST) eqn:T; [specialize (F ltac:(lia)); lia|lia]).
      replace (negb (if cp_type t =? TYPE_FAST then (0xFFFF <? k_c s) && (k_c s <? cp_highStart t)
                     else (k_c s <? cp_highStart t) && (cp_highStart t >? SMALL_LIMIT))) with false
        by (change SMALL_LIMIT with 0x1000; destruct (cp_type t =? TYPE_FAST) eqn:T; [specialize (F ltac:(lia)); lia|lia]).
      destruct (rg_multi t K (k_c s) M H) as (i3 & y & E3 & _ & _ & N3). rewrite E3. cbn [bind].
      change CP_PER_INDEX_2_ENTRY with 512. change (512 - 1) with 511. rewrite land511, land_n511.
      assert (WW : forall x, 512 * (k_c s / 512) <= x < 512 * (k_c s / 512) + 512 -> inside t x /\ whole x /\ i3BlockOf t x = Ok i3).
      { intros x Hx. assert (Mx : multi t x) by (split; [intros T; specialize (F T); lia|lia]). assert (Ix : inside t x) by (right; split; [exact Mx|lia]).
        split; [exact Ix|]. split; [|rewrite (i3BlockOf_same t x (k_c s)) by lia; exact E3]. split; [exact Ix|].
        destruct (Z.eq_dec (cp_type t) TYPE_FAST) as [T|T]; [left; specialize (F T); split; [intros _; lia|lia]|right; left; exact T]. }
      destruct (Z.eq_dec i3 (cp_index3NullOffset t)) as [NN|NN].
      + assert (WN : forall x, 512 * (k_c s / 512) <= x < 512 * (k_c s / 512) + 512 -> dblk t x = Ok (cp_dataNullOffset t)).
        { intros x Hx. destruct (WW x Hx) as (Ix & _ & Ex). destruct Ix as [Ix|[Mx Hh]]; [lia|].
          destruct (rg_multi t K x Mx Hh) as (i & z & E1 & E2 & _ & N). assert (i = i3) by congruence. subst i. unfold dblk. replace (x <? 0x1000) with false by lia.
          rewrite E1. cbn [bind]. rewrite E2, (N NN). reflexivity. }
        assert (WS : forall x, k_c s <= x < 512 * (k_c s / 512) + 512 -> x < limit -> shown x null).
        { intros x Hx _. apply null_shown; [lia|apply WW; lia|apply WN; lia]. }
        assert (BB : forall s1, k_c s1 = 512 * (k_c s / 512) + 512 -> k_block s1 = cp_dataNullOffset t -> BM s1).
        { intros s1 E1 E2 _ _. rewrite E1, E2. split; [|apply WN; lia]. unfold b0. destruct (_ <? 0x1000) eqn:T; lia. }
        destruct ((i3 =? k_i3block s) && (k_c s - start >=? 512)) eqn:SK.
        * destruct P3 as [P3|[P3|(P31 & P32 & P33 & P34)]]; [pose proof (rg_null3 t K); lia|lia|]. assert (CM : k_c s mod 512 = 0) by lia.
          replace (k_c s mod 512 =? 0) with true by lia. eexists. split; [reflexivity|]. split; [|cbn [k_setc k_c]; lia].
          constructor; cbn [k_setc k_c k_i3block k_value k_block].
          -- apply adv_same; [exact J|exact L|lia|]. intros x Hx Hl. rewrite P33. apply WS; lia.
          -- apply BB; cbn [k_setc k_c k_block]; [lia|exact P34].
          -- lia.
          -- lia.
          -- right. right. lia.
        * replace (i3 =? cp_index3NullOffset t) with true by lia. eexists. split; [reflexivity|]. split; [|cbn [k_setc k_c]; lia].
          change (k_setc (k_setblock (k_note (k_seti3 s i3) null) (cp_dataNullOffset t)) (512 * ((k_c s + 512) / 512)))
            with (k_setblock (k_setc (k_note (k_seti3 s i3) null) (512 * ((k_c s + 512) / 512))) (cp_dataNullOffset t)).
          constructor; cbn [k_setblock k_setc k_c k_i3block k_value k_block].
          -- apply INV_block. apply adv; [apply INV_i3; exact J|exact L|cbn [k_seti3 k_c]; lia|]. cbn [k_seti3 k_c]. intros x Hx Hl. apply WS; lia.
          -- apply BB; cbn [k_setblock k_setc k_c k_block]; [lia|reflexivity].
          -- lia.
          -- lia.
          -- right. right. split; [lia|]. split; [|split; [apply note_value|reflexivity]].
             unfold k_note. destruct (null =? k_value (k_seti3 s i3)); cbn [k_seti3 k_i3block]; exact NN.
      + assert (SK : (i3 =? k_i3block s) && (k_c s - start >=? 512) = false).
        { assert (0 <= i3). { unfold i3BlockOf in E3. destruct (aget (cp_index t) _) as [z|]; [|discriminate]. cbn [bind] in E3. exact (rg_index t K _ _ E3). } lia. }
        rewrite SK. replace (i3 =? cp_index3NullOffset t) with false by lia.
        assert (HALF : k_c s mod 512 < 256).
        { destruct (Z_lt_le_dec (k_c s mod 512) 256) as [Q|Q]; [exact Q|]. exfalso. destruct RE as [_ R]. specialize (R (k_c s) ltac:(lia) M Q). congruence. }
        rewrite shc4, landc31'. change SMALL_DATA_BLOCK_LENGTH with 16.
        destruct (bloop_16 16 (512 * (k_c s / 512)) i3) with (n := Z.to_nat (16 - k_c s / 16 mod 32)) (k := k_c s / 16 mod 32) (s := k_seti3 s i3) as (s' & E & J' & B' & I3 & M' & Q);
          cbn [k_seti3 k_c]; try lia.
        * intros x Hx. destruct (WW x ltac:(lia)) as (_ & Wx & Ex). split; [exact Wx|]. unfold dblk. replace (x <? 0x1000) with false by lia. rewrite Ex. cbn [bind]. f_equal. lia.
        * apply INV_i3. exact J.
        * exact B.
        * exists s'. split; [exact E|].
          assert (G : limit <= k_c s').
          { destruct Q as [Q|Q]; [exact Q|]. destruct (Z_lt_le_dec (k_c s') limit) as [T|T]; [|exact T]. exfalso. destruct RE as [_ R].
            assert (X := R (k_c s') ltac:(unfold stop; lia) ltac:(split; [intros T1; specialize (F T1); lia|lia]) ltac:(lia)).
            destruct (WW (k_c s') ltac:(lia)) as (_ & _ & Y). congruence. }
          split; [|lia]. constructor; [exact J'|exact B'|lia|lia|lia].
  Qed.

  Lemma run_all n : forall s, PINV s -> stop - k_c s <= Z.of_nat n ->
    exists s', run_nat (cp_step t start limit null) (S n) s = inr (Ok s') /\ PINV s' /\ ~ (k_c s' < limit /\ k_c s' < cp_highStart t).
  Proof using K NV SL SH RE.
    assert (STOP : stop = Z.min limit (Z.max (cp_highStart t) 0x1000)) by reflexivity.
    induction n as [|n IH]; intros s P Hn; cbn [run_nat]; unfold cp_step at 1.
    - replace ((k_c s <? limit) && (k_c s <? cp_highStart t)) with false by lia. exists s. split; [reflexivity|]. split; [exact P|lia].
    - destruct ((k_c s <? limit) && (k_c s <? cp_highStart t)) eqn:E.
      + destruct (pass s P ltac:(lia) ltac:(lia)) as (s1 & -> & P1 & L). apply IH; [exact P1|lia].
      + exists s. split; [reflexivity|]. split; [exact P|lia].
  Qed.

  (** what the request gives *)
  Definition result (rs : list (Z * Z * Z)) : Prop :=
    exists rs1 a v h, partition start (rs1 ++ [(a, stop, v)]) stop /\ aget (cp_data t) (cp_dataLength t - 2) = Ok h /\
      rs = (rs1 ++ [(a, stop, v)]) ++ (if (stop <? limit) && negb (h =? v) then [(a, stop, v)] else []) /\
      forall a b w x, In (a, b, w) rs -> a <= x < b -> shown x w.
  Lemma finish_all s : PINV s -> ~ (k_c s < limit /\ k_c s < cp_highStart t) -> exists rs, cp_finish t limit s = Ok rs /\ result rs.
  Proof using K NV SL SH RE.
    intros P Q. destruct (rg_last t K) as [h Hh].
    assert (C : Z.min limit (k_c s) = stop).
    { unfold stop. pose proof (P_max s P). pose proof (P_c s P). lia. }
    destruct P as [J _ PC PM _]. pose proof (I_prev s J) as Pr. destruct J as [T Ch La Va Cu _ Ou].
    assert (PS : k_prev s < stop) by lia.
    assert (RS : partition start (rev (k_out s) ++ [(k_prev s, stop, k_value s)]) stop /\ forall a b w x, In (a, b, w) (rev (k_out s) ++ [(k_prev s, stop, k_value s)]) -> a <= x < b -> shown x w).
    { split; [split|].
      - apply tiles_snoc; [exact T|exact PS].
      - apply changes_snoc; [exact Ch|]. rewrite rev_involutive. exact La.
      - intros a b w x I Hx. apply in_app_or in I as [I|[I|[]]]; [apply in_rev in I; eapply Va; eauto|]. injection I as <- <- <-. apply Cu; lia. }
    destruct RS as [RS1 RS2]. unfold cp_finish.
    destruct (k_c s >? limit) eqn:E1.
    - cbn [bind]. eexists. split; [reflexivity|]. exists (rev (k_out s)), (k_prev s), (k_value s), h. split; [exact RS1|]. split; [exact Hh|].
      replace (stop <? limit) with false by lia. cbn [andb]. rewrite app_nil_r. unfold k_yield. cbn [k_setc k_c k_prev k_value k_out].
      assert (limit = stop) as -> by lia. replace (k_prev s <? stop) with true by lia. cbn [rev]. split; [reflexivity|exact RS2].
    - destruct (k_c s <? limit) eqn:E2.
      + change HIGH_VALUE_NEG_DATA_OFFSET with 2. rewrite Hh. cbn [bind]. assert (CS : k_c s = stop) by lia.
        destruct (h =? k_value s) eqn:E3.
        * exists (rev (k_out s) ++ [(k_prev s, stop, k_value s)]). split; [unfold k_yield; rewrite CS; replace (k_prev s <? stop) with true by lia; reflexivity|].
          exists (rev (k_out s)), (k_prev s), (k_value s), h. split; [exact RS1|]. split; [exact Hh|]. rewrite E3, andb_false_r, app_nil_r. split; [reflexivity|exact RS2].
        * exists ((rev (k_out s) ++ [(k_prev s, stop, k_value s)]) ++ [(k_prev s, stop, k_value s)]).
          split; [unfold k_yield; cbn [k_c k_prev k_value k_out]; rewrite CS; replace (k_prev s <? stop) with true by lia; reflexivity|].
          exists (rev (k_out s)), (k_prev s), (k_value s), h. split; [exact RS1|]. split; [exact Hh|]. rewrite E3. replace (stop <? limit) with true by lia. split; [reflexivity|].
          intros a b w x I Hx. apply in_app_or in I as [I|I]; [eapply RS2; eauto|]. apply (RS2 a b w x); [|exact Hx]. apply in_or_app. right. exact I.
      + cbn [bind]. eexists. split; [reflexivity|]. exists (rev (k_out s)), (k_prev s), (k_value s), h. split; [exact RS1|]. split; [exact Hh|].
        replace (stop <? limit) with false by lia. cbn [andb]. rewrite app_nil_r. unfold k_yield. assert (k_c s = stop) as -> by lia. replace (k_prev s <? stop) with true by lia. cbn [rev].
        split; [reflexivity|exact RS2].
  Qed.
  Lemma cpenum_reach : exists fuel rs, cpenum t fuel start limit = Ok rs /\ result rs.
  Proof using K NV SL SH RE.
    destruct (rg_high t K) as [_ HH]. set (s0 := mkCst start start null (-1) (-1) []).
    assert (P0 : PINV s0).
    { constructor; cbn [s0 k_c k_i3block k_block]; [|intros Q; cbn [s0 k_c] in Q; lia|left; reflexivity|lia|left; reflexivity].
      constructor; cbn [s0 k_c k_out k_prev k_value rev]; [reflexivity|exact I|exact I|intros a b v x []|intros x Hx; lia|lia|reflexivity]. }
    destruct (run_all (Z.to_nat (stop - start)) s0 P0 ltac:(cbn [s0 k_c]; lia)) as (s' & E & P & Q).
    destruct (finish_all s' P Q) as (rs & F & R). exists (S (Z.to_nat (stop - start))), rs. split; [|exact R].
    unfold cpenum. replace ((start >=? 0x110000) || (start >=? cp_highStart t)) with false by lia. rewrite NV. cbn [bind]. fold s0. rewrite E. exact F.
  Qed.
End Exact.

(** more passes do not change an answer *)
Lemma cpenum_more t n m start limit rs : cpenum t n start limit = Ok rs -> (n <= m)%nat -> cpenum t m start limit = Ok rs.
Proof.
  intros E L. unfold cpenum in *. destruct ((start >=? 0x110000) || (start >=? cp_highStart t)); [exact E|]. destruct (aget (cp_data t) (cp_dataNullOffset t)) as [null|]; [|discriminate].
  cbn [bind] in *. replace m with (n + (m - n))%nat by lia. rewrite run_nat_add.
  destruct (run_nat (cp_step t start limit null) n (mkCst start start null (-1) (-1) [])) as [s|r]; [discriminate|exact E].
Qed.
Lemma cpenum_same t n m start limit r1 r2 : cpenum t n start limit = Ok r1 -> cpenum t m start limit = Ok r2 -> r1 = r2.
Proof.
  intros E1 E2. destruct (le_lt_dec n m) as [L|L].
  - assert (E := cpenum_more t n m start limit r1 E1 L). congruence.
  - assert (E := cpenum_more t m n start limit r2 E2 ltac:(lia)). congruence.
Qed.
