(** * Decimal digits stand in rows of ten (C118) *)
From Coq Require Import ZArith List Bool Lia ZifyBool.
From Verif Require Import Py Arr UTrie2 Runs CharRuns CharProps BidiProps Agree Prop_CaseKeeps.
Import ListNotations.
Open Scope Z_scope.

(** ** C118 *)
(** two digits of one row: everything but the value is the same *)
Definition row_alike (c d : Z) : Prop :=
  alike (getGeneralCategory icu) c d /\ alike (getScript icu) c d /\ alike (getBlock icu) c d /\ alike (getEastAsianWidth icu) c d /\ alike (getLineBreak icu) c d /\
  alike (getWordBreak icu) c d /\ alike (getSentenceBreak icu) c d /\ alike (getGraphemeClusterBreak icu) c d /\ alike (getDecompType icu) c d /\
  alike (getCharDirection icu_bidi) c d /\ (forall k, 0 <= k < 32 -> alike (asks k) c d).
Definition row_asks : list (Z -> res Z) :=
  [getGeneralCategory icu; getScript icu; getBlock icu; getEastAsianWidth icu; getLineBreak icu; getWordBreak icu; getSentenceBreak icu; getGraphemeClusterBreak icu;
   getDecompType icu; getCharDirection icu_bidi].
Definition row_alikeb (c d : Z) : bool := forallb (fun ask => alikeb Z.eqb ask c d) row_asks && forallb (fun k => alikeb Bool.eqb (asks k) c d) (zrange 0 32).
Lemma row_alikeb_ok c d : row_alikeb c d = true -> row_alike c d.
Proof.
  unfold row_alikeb. intros H. apply andb_true_iff in H as [H K]. rewrite forallb_forall in H, K.
  assert (A : forall ask, In ask row_asks -> alike ask c d) by (intros ask I; exact (alike_ok Z.eqb ask c d zeq (H ask I))).
  unfold row_asks in A. unfold row_alike.
  split; [apply A; left; reflexivity|]. split; [apply A; right; left; reflexivity|]. split; [apply A; do 2 right; left; reflexivity|].
  split; [apply A; do 3 right; left; reflexivity|]. split; [apply A; do 4 right; left; reflexivity|]. split; [apply A; do 5 right; left; reflexivity|].
  split; [apply A; do 6 right; left; reflexivity|]. split; [apply A; do 7 right; left; reflexivity|]. split; [apply A; do 8 right; left; reflexivity|].
  split; [apply A; do 9 right; left; reflexivity|]. intros k Hk. exact (alike_ok Bool.eqb (asks k) c d beq (K k (proj2 (zrange_spec _ _ _) Hk))).
Qed.
(** a zero is alike to the nine characters after it; another digit has a zero before it *)
Definition row_each (c : Z) : bool := gives (digitValue icu c) (fun v => (0 <=? v) && (v <=? 9) && (0 <=? c - v) && (c - v + 9 <? 0x10FFFF) &&
  (if v =? 0 then forallb (fun k => gives (digitValue icu (c + k)) (Z.eqb k) && row_alikeb c (c + k)) (zrange 0 10)
   else gives (digitValue icu (c - v)) (Z.eqb 0) && gives (getGeneralCategory icu (c - v)) (Z.eqb 9))).
Lemma row_alike_join z c d : row_alike z c -> row_alike z d -> row_alike c d.
Proof.
  unfold row_alike, alike. intros (A0 & A1 & A2 & A3 & A4 & A5 & A6 & A7 & A8 & A9 & A) (B0 & B1 & B2 & B3 & B4 & B5 & B6 & B7 & B8 & B9 & B).
  repeat (split; [congruence|]). intros k Hk. rewrite (A k Hk), (B k Hk). reflexivity.
Qed.
Lemma rows_checked : check_runs (fun a b p => negb (Z.land p 31 =? 9)) (fun c _ => row_each c) props_runs = true.
Proof. vm_cast_no_check (eq_refl true). Qed.
Lemma row_ok c : 0 <= c <= 0x10FFFF -> getGeneralCategory icu c = Ok 9 -> row_each c = true.
Proof.
  intros Hc G. destruct (Z.eq_dec c 0x10FFFF) as [->|N]; [vm_compute in G; discriminate|].
  destruct (by_runs _ _ _ (fun x p => Z.land p 31 <> 9 \/ row_each x = true) props_runs_ok) with (c := c) as (p & R & H); [|lia|].
  - apply (check_runs_ok (fun a b p => negb (Z.land p 31 =? 9)) (fun c _ => row_each c) props_runs (fun x p => Z.land p 31 <> 9 \/ row_each x = true) rows_checked);
      [intros; left; lia|intros x p K; right; exact K].
  - destruct H as [H|H]; [|exact H]. exfalso. unfold getGeneralCategory in G. rewrite R in G. cbn [bind] in G. apply H. change 31 with 0x1F. unfold generalCategoryFromProps in G. congruence.
Qed.

(** *** Every digit has its place in a row of ten, in the order of their values *)
Theorem C118_rows : forall c, 0 <= c <= 0x10FFFF -> getGeneralCategory icu c = Ok 9 (* Nd *) ->
  exists z v, c = z + v /\ 0 <= v <= 9 /\ 0 <= z /\ z + 9 < 0x10FFFF /\ digitValue icu c = Ok v /\ forall k, 0 <= k <= 9 -> digitValue icu (z + k) = Ok k /\ row_alike c (z + k).
Proof.
  assert (First : forall z, 0 <= z <= 0x10FFFF -> getGeneralCategory icu z = Ok 9 -> digitValue icu z = Ok 0 ->
    z + 9 < 0x10FFFF /\ forall k, 0 <= k <= 9 -> digitValue icu (z + k) = Ok k /\ row_alike z (z + k)).
  { intros z Hz G V. pose proof (row_ok z Hz G) as H. unfold row_each in H. rewrite V in H. cbn [gives Z.eqb] in H. apply andb_true_iff in H as [H K]. split; [lia|].
    intros k Hk. rewrite forallb_forall in K. specialize (K k (proj2 (zrange_spec 0 10 k) ltac:(lia))). apply andb_true_iff in K as [K1 K2].
    apply gives_ok in K1 as (w & W & K1). split; [rewrite W; f_equal; lia|exact (row_alikeb_ok z _ K2)]. }
  intros c Hc G. pose proof (row_ok c Hc G) as H. unfold row_each in H. apply gives_ok in H as (v & V & H). apply andb_true_iff in H as [H K].
  apply andb_true_iff in H as [H H4]. apply andb_true_iff in H as [H H3]. apply andb_true_iff in H as [H1 H2].
  exists (c - v), v. split; [lia|]. split; [lia|]. split; [lia|]. split; [lia|]. split; [exact V|].
  assert (getGeneralCategory icu (c - v) = Ok 9 /\ digitValue icu (c - v) = Ok 0) as [Zg Zv].
  { destruct (v =? 0) eqn:V0; [replace (c - v) with c by lia; split; [exact G|rewrite V; f_equal; lia]|]. apply andb_true_iff in K as [K1 K2].
    apply gives_ok in K1 as (w & W & K1). apply gives_ok in K2 as (g & Gg & K2). split; [rewrite Gg; f_equal; lia|rewrite W; f_equal; lia]. }
  destruct (First (c - v) ltac:(lia) Zg Zv) as [_ R]. intros k Hk. destruct (R k Hk) as [R1 R2]. split; [exact R1|].
  destruct (R v ltac:(lia)) as [_ Rc]. replace (c - v + v) with c in Rc by lia. exact (row_alike_join (c - v) c _ Rc R2).
Qed.
Print Assumptions C118_rows.

(** *** Numbers written with the digits of one row, of any length *)
(** a zero: the first of a row *)
Definition zero (z : Z) : Prop := 0 <= z <= 0x10FFFF /\ getGeneralCategory icu z = Ok 9 /\ digitValue icu z = Ok 0.
Definition digit (d : Z) : Prop := 0 <= d <= 9.
Definition valueOf (ds : list Z) : Z := fold_left (fun n d => 10 * n + d) ds 0.
(** what a caller computes from a text: [for ch in text: n = 10 * n + digitValue(ord(ch))] *)
Definition readNumber (text : list Z) : res Z := let* ds := mapM (digitValue icu) text in Ok (valueOf ds).
Definition writeNumber (z : Z) (ds : list Z) : list Z := map (fun d => z + d) ds.
Lemma read_digits z ds : zero z -> Forall digit ds -> mapM (digitValue icu) (writeNumber z ds) = Ok ds.
Proof.
  intros (Hz & G & V) H. destruct (C118_rows z Hz G) as (z' & v & E & _ & _ & _ & V' & R).
  assert (v = 0) by congruence. subst v. assert (z' = z) by lia. subst z'. induction H as [|d ds Hd H IH]; [reflexivity|].
  cbn [writeNumber map mapM]. destruct (R d Hd) as [D _]. rewrite D. cbn [bind]. unfold writeNumber in IH. rewrite IH. reflexivity.
Qed.
Theorem C118_numbers : forall z ds, zero z -> Forall digit ds -> readNumber (writeNumber z ds) = Ok (valueOf ds).
Proof. intros z ds Hz H. unfold readNumber. rewrite (read_digits z ds Hz H). reflexivity. Qed.
Print Assumptions C118_numbers.
(** every natural number is written with the digits of every row *)
Lemma valueOf_snoc ds d : valueOf (ds ++ [d]) = 10 * valueOf ds + d.
Proof. unfold valueOf. rewrite fold_left_app. reflexivity. Qed.
Lemma digits_exist n : 0 <= n -> exists ds, Forall digit ds /\ ds <> [] /\ valueOf ds = n /\ (n <> 0 -> hd 0 ds <> 0).
Proof.
  intros Hn. refine (Z_lt_induction (fun n => 0 <= n -> exists ds, Forall digit ds /\ ds <> [] /\ valueOf ds = n /\ (n <> 0 -> hd 0 ds <> 0)) _ n Hn Hn).
  clear n Hn. intros n IH Hn. destruct (Z_lt_le_dec n 10) as [L|L].
  - exists [n]. split; [constructor; [unfold digit; lia|constructor]|]. split; [discriminate|]. split; [unfold valueOf; cbn [fold_left]; lia|intros N; exact N].
  - destruct (IH (n / 10)) as (ds & D & N & V & F); [pose proof (Z.div_lt n 10); lia|pose proof (Z.div_pos n 10); lia|].
    exists (ds ++ [n mod 10]). split; [apply Forall_app; split; [exact D|constructor; [unfold digit; pose proof (Z.mod_pos_bound n 10); lia|constructor]]|].
    split; [intros E; apply app_eq_nil in E as [_ E]; discriminate|]. split; [rewrite valueOf_snoc, V; pose proof (Z.div_mod n 10); lia|].
    intros _. assert (n / 10 <> 0) by (pose proof (Z.div_le_lower_bound n 10 1); lia). destruct ds as [|x t]; [congruence|]. apply F. assumption.
Qed.
Theorem C118_every_number : forall z n, zero z -> 0 <= n -> exists ds, Forall digit ds /\ ds <> [] /\ (n <> 0 -> hd 0 ds <> 0) /\ readNumber (writeNumber z ds) = Ok n.
Proof.
  intros z n Hz Hn. destruct (digits_exist n Hn) as (ds & D & N & V & F). exists ds. split; [exact D|]. split; [exact N|]. split; [exact F|].
  rewrite (C118_numbers z ds Hz D), V. reflexivity.
Qed.
Print Assumptions C118_every_number.
(** any text of digits, even of several rows, has the value of the ASCII digits that [digitValue] gives *)
Theorem C118_ascii : forall text, Forall (fun c => 0 <= c <= 0x10FFFF /\ getGeneralCategory icu c = Ok 9) text ->
  exists ds, mapM (digitValue icu) text = Ok ds /\ Forall digit ds /\ readNumber text = readNumber (writeNumber 0x30 ds).
Proof.
  assert (Z0 : zero 0x30) by (split; [lia|split; vm_compute; reflexivity]).
  intros text H. assert (E : exists ds, mapM (digitValue icu) text = Ok ds /\ Forall digit ds).
  { induction H as [|c t [Hc G] H (ds & E & D)]; [exists []; split; [reflexivity|constructor]|]. destruct (C118_rows c Hc G) as (z & v & _ & Hv & _ & _ & V & _).
    exists (v :: ds). cbn [mapM]. rewrite V. cbn [bind]. rewrite E. split; [reflexivity|constructor; [exact Hv|exact D]]. }
  destruct E as (ds & E & D). exists ds. split; [exact E|]. split; [exact D|]. unfold readNumber. rewrite E, (read_digits 0x30 ds Z0 D). reflexivity.
Qed.
Print Assumptions C118_ascii.
(** every digit belongs to the row of a zero, and rows do not overlap *)
Theorem C118_zeros : forall c, 0 <= c <= 0x10FFFF -> getGeneralCategory icu c = Ok 9 -> exists z, zero z /\ z <= c <= z + 9 /\ forall z', zero z' -> z' <= c <= z' + 9 -> z' = z.
Proof.
  intros c Hc G. destruct (C118_rows c Hc G) as (z & v & E & Hv & Hz & T & V & R). exists z.
  assert (Z0 : zero z).
  { destruct (R 0 ltac:(lia)) as [D (A & _)]. rewrite Z.add_0_r in D, A. split; [lia|]. split; [unfold alike in A; rewrite A; exact G|exact D]. }
  split; [exact Z0|]. split; [lia|]. intros z' (Hz' & G' & V') I. destruct (C118_rows z' Hz' G') as (y & w & Ey & _ & _ & _ & W & S).
  assert (w = 0) by congruence. subst w. assert (y = z') by lia. subst y. destruct (S (c - z') ltac:(lia)) as [D _].
  replace (z' + (c - z')) with c in D by lia. assert (c - z' = v) by congruence. lia.
Qed.
Print Assumptions C118_zeros.
Example C118_case : zero 0x660 /\ writeNumber 0x660 [1; 4; 0] = [0x661; 0x664; 0x660] /\ readNumber [0x661; 0x664; 0x660] = Ok 140 /\
  readNumber [0x31; 0x96A; 0x1D7FF] = Ok 149 /\ zero 0x1FBF0.
Proof.
  split; [split; [lia|split; vm_compute; reflexivity]|]. split; [vm_compute; reflexivity|]. split; [vm_compute; reflexivity|]. split; [vm_compute; reflexivity|].
  split; [lia|split; vm_compute; reflexivity].
Qed.
