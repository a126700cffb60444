(** * Characters and their canonical decompositions get the same treatment (C113) *)
From Coq Require Import ZArith List Bool Lia ZifyBool.
From Verif Require Import Py Arr UTrie2 SpecText Utilities UtilitiesFacts Runs CPTrie CharRuns CharProps CaseProps CaseShipped BidiProps Normalizer2 NormFacts NormShipped NormDecompType NormTable NormHangul Agree.
Import ListNotations.
Open Scope Z_scope.

(** ** C113

    The properties come from the tables of CharProps and BidiProps, the decompositions from that of Normalizer2. *)
(** Grapheme_Cluster_Break values before which no cluster ends (UAX #29, GB6-GB9a): Extend, SpacingMark, V, T *)
Definition attached (g : Z) : Prop := g = 3 \/ g = 10 \/ g = 9 \/ g = 8.
Definition attachedb (g : Z) : bool := (g =? 3) || (g =? 10) || (g =? 9) || (g =? 8).

(** *** Segmentation: the boundary values of a character are those of the first of its parts, and the other parts stay with it *)
Definition graphemes_agree (g gx : Z) : Prop :=
  g = gx \/ (g = 10 (* SpacingMark *) /\ gx = 3 (* Extend *)) \/ ((g = 6 (* LV *) \/ g = 7 (* LVT *)) /\ gx = 4 (* L *)).
Definition graphemes_agreeb (g gx : Z) : bool := (g =? gx) || ((g =? 10) && (gx =? 3)) || (((g =? 6) || (g =? 7)) && (gx =? 4)).
Definition seg_check (c : Z) (f : list Z) : bool :=
  match f with
  | [] => false
  | x :: t =>
      gives (getGraphemeClusterBreak icu c) (fun g => gives (getGraphemeClusterBreak icu x) (graphemes_agreeb g)) &&
      (sameb Z.eqb (getWordBreak icu c) (getWordBreak icu x) && sameb Z.eqb (getSentenceBreak icu c) (getSentenceBreak icu x)) &&
      forallb (fun y => gives (getGraphemeClusterBreak icu y) attachedb) t
  end.
Lemma forallb_likes (P : Z -> bool) f g : (forall x y, like x y -> korean x -> korean y -> P x = P y) -> Forall2 like f g -> Forall korean f -> Forall korean g -> forallb P f = forallb P g.
Proof.
  intros E F. induction F as [|x y f g H F IH]; intros Kf Kg; [reflexivity|]. apply Forall_cons_iff in Kf as [Kx Kf]. apply Forall_cons_iff in Kg as [Ky Kg].
  cbn [forallb]. rewrite (E x y H Kx Ky), (IH Kf Kg). reflexivity.
Qed.
Lemma korean_code x : korean x -> 0 <= x <= 0x10FFFF. Proof. unfold korean. lia. Qed.
Lemma seg_hangul : on_hangul seg_check.
Proof.
  apply by_likes; [|vm_compute; reflexivity|vm_compute; reflexivity]. intros c d f g L F Kc Kd Kf Kg. destruct F as [|x y f g Lx F]; [reflexivity|].
  apply Forall_cons_iff in Kf as [Kx Kf]. apply Forall_cons_iff in Kg as [Ky Kg]. unfold seg_check.
  destruct (likes c d) as (-> & -> & -> & _); [apply korean_code; exact Kc|apply korean_code; exact Kd|exact L|].
  destruct (likes x y) as (-> & -> & -> & _); [apply korean_code; exact Kx|apply korean_code; exact Ky|exact Lx|].
  f_equal. apply forallb_likes; [|exact F|exact Kf|exact Kg]. intros a b Lab Ka Kb.
  destruct (likes a b) as (-> & _); [apply korean_code; exact Ka|apply korean_code; exact Kb|exact Lab|reflexivity].
Qed.
Lemma seg_checked : forallb (check_decomposition seg_check) decomposing = true.
Proof. vm_cast_no_check (eq_refl true). Qed.
Theorem C113_segmentation : forall c f, 0 <= c <= 0x10FFFF -> getDecomposition nfc c = Ok (Some f) ->
  exists x t g gx, f = x :: t /\ getGraphemeClusterBreak icu c = Ok g /\ getGraphemeClusterBreak icu x = Ok gx /\ graphemes_agree g gx /\
    agree (getWordBreak icu) c x /\ agree (getSentenceBreak icu) c x /\
    Forall (fun y => exists h, getGraphemeClusterBreak icu y = Ok h /\ attached h) t.
Proof.
  intros c f Hc F. pose proof (check_all _ seg_hangul seg_checked c f Hc F) as K. unfold seg_check in K.
  destruct f as [|x t]; [discriminate|]. apply andb_true_iff in K as [K K3]. apply andb_true_iff in K as [K K2]. apply andb_true_iff in K2 as [K2 K2'].
  apply gives_ok in K as (g & G & K). apply gives_ok in K as (gx & Gx & K). exists x, t, g, gx.
  split; [reflexivity|]. split; [exact G|]. split; [exact Gx|]. split; [unfold graphemes_agree, graphemes_agreeb in *; lia|].
  split; [exact (same_ok Z.eqb (getWordBreak icu) c x zeq K2)|]. split; [exact (same_ok Z.eqb (getSentenceBreak icu) c x zeq K2')|].
  apply Forall_forall. intros y Hy. rewrite forallb_forall in K3. specialize (K3 y Hy). apply gives_ok in K3 as (h & Gh & K3).
  exists h. split; [exact Gh|]. unfold attached, attachedb in *. lia.
Qed.
Print Assumptions C113_segmentation.

(** *** What may compose with a character before it, or has a combining class, never starts a cluster, and is a mark or a jamo *)
Definition markb (g : Z) : bool := (g =? 6) || (g =? 7) || (g =? 8).
Definition jamoVTb (c : Z) : bool := ((0x1161 <=? c) && (c <=? 0x1175)) || ((0x11A8 <=? c) && (c <=? 0x11C2)).
Definition maybe_check (c n : Z) : bool :=
  if isMaybeOrNonZeroCC nfc n then
    if isLead c then true else gives (getGraphemeClusterBreak icu c) attachedb && (jamoVTb c || gives (getGeneralCategory icu c) markb)
  else true.
Lemma maybe_checked : check_runs (fun _ _ n => negb (isMaybeOrNonZeroCC nfc n)) maybe_check nfc_runs = true.
Proof. vm_cast_no_check (eq_refl true). Qed.
Theorem C113_joining : forall c n, 0 <= c <= 0x10FFFF -> getNorm16 nfc c = Ok n -> isMaybeOrNonZeroCC nfc n = true ->
  (exists h, getGraphemeClusterBreak icu c = Ok h /\ attached h) /\
  (0x1161 <= c <= 0x1175 \/ 0x11A8 <= c <= 0x11C2 \/ exists g, getGeneralCategory icu c = Ok g /\ (g = 6 \/ g = 7 \/ g = 8)).
Proof.
  intros c n Hc N M. unfold getNorm16 in N. destruct (isLead c) eqn:L; [injection N as <-; discriminate M|].
  change (cpget nfc_trie c = Ok n) in N.
  destruct (Z_lt_le_dec c 0x2fc00) as [B|B]; [|rewrite (nfc_high c B) in N; assert (n = 1) by congruence; subst n; discriminate M].
  destruct (by_runs _ _ _ (fun c v => isMaybeOrNonZeroCC nfc v = true -> maybe_check c v = true) nfc_runs_ok) with (c := c) as (v & G & K); [|lia|].
  - apply (check_runs_ok _ _ nfc_runs (fun c v => isMaybeOrNonZeroCC nfc v = true -> maybe_check c v = true) maybe_checked); [|intros x v E _; exact E].
    intros a b v x S _ Y. rewrite Y in S. discriminate.
  - assert (v = n) by congruence. subst v. specialize (K M). unfold maybe_check in K. rewrite M, L in K. apply andb_true_iff in K as [K1 K2].
    apply gives_ok in K1 as (h & Gh & K1). split; [exists h; split; [exact Gh|unfold attached, attachedb in *; lia]|].
    apply orb_true_iff in K2 as [K2|K2]; [unfold jamoVTb in K2; lia|]. right. right. apply gives_ok in K2 as (g & Gg & K2). exists g. split; [exact Gg|unfold markb in K2; lia].
Qed.
Print Assumptions C113_joining.

(** *** Identifiers (UAX #31): an identifier stays one, and nothing becomes one, when its characters are decomposed *)
(** the columns of XID_Start, XID_Continue, ID_Start, ID_Continue *)
Definition id_check (s k : Z) (c : Z) (f : list Z) : bool :=
  match f with
  | [] => false
  | x :: t => gives (asks s c) (Bool.eqb (yesb (asks s x) && forallb (fun y => yesb (asks k y)) t)) && gives (asks k c) (Bool.eqb (forallb (fun y => yesb (asks k y)) f))
  end.
Lemma id_likes s k c d f g : like c d -> Forall2 like f g -> korean c -> korean d -> Forall korean f -> Forall korean g -> id_check s k c f = id_check s k d g.
Proof.
  intros L F Kc Kd Kf Kg. assert (A : forall j x y, like x y -> korean x -> korean y -> asks j x = asks j y).
  { intros j x y Lx Kx Ky. destruct (likes x y) as (_ & _ & _ & E & _); [apply korean_code; exact Kx|apply korean_code; exact Ky|exact Lx|exact (E j)]. }
  assert (B : forall l m, Forall2 like l m -> Forall korean l -> Forall korean m -> forallb (fun y => yesb (asks k y)) l = forallb (fun y => yesb (asks k y)) m).
  { intros l m. apply forallb_likes. intros x y Lx Kx Ky. rewrite (A k x y Lx Kx Ky). reflexivity. }
  destruct F as [|x y f g Lx F]; [reflexivity|]. unfold id_check. rewrite (B (x :: f) (y :: g)) by (assumption || (constructor; assumption)).
  apply Forall_cons_iff in Kf as [Kx Kf]. apply Forall_cons_iff in Kg as [Ky Kg].
  rewrite (A s c d L Kc Kd), (A k c d L Kc Kd), (A s x y Lx Kx Ky), (B f g F Kf Kg). reflexivity.
Qed.
Lemma id_hangul : on_hangul (fun c f => id_check 22 23 c f && id_check 24 25 c f).
Proof.
  apply by_likes; [|vm_compute; reflexivity|vm_compute; reflexivity]. intros c d f g L F Kc Kd Kf Kg.
  rewrite (id_likes 22 23 c d f g), (id_likes 24 25 c d f g) by assumption. reflexivity.
Qed.
Lemma id_checked : forallb (check_decomposition (fun c f => id_check 22 23 c f && id_check 24 25 c f)) decomposing = true.
Proof. vm_cast_no_check (eq_refl true). Qed.
Lemma id_check_ok s k c f : id_check s k c f = true -> exists x t, f = x :: t /\
  (asks s c = Ok true <-> asks s x = Ok true /\ Forall (fun y => asks k y = Ok true) t) /\ (asks k c = Ok true <-> Forall (fun y => asks k y = Ok true) f).
Proof.
  unfold id_check. destruct f as [|x t]; [discriminate|]. intros H. apply andb_true_iff in H as [H1 H2]. exists x, t. split; [reflexivity|].
  assert (FA : forall l, forallb (fun y => yesb (asks k y)) l = true <-> Forall (fun y => asks k y = Ok true) l).
  { intros l. rewrite forallb_forall, Forall_forall. split; intros K y Hy; apply yesb_iff, K, Hy. }
  apply gives_ok in H1 as (v & E1 & H1). apply gives_ok in H2 as (w & E2 & H2). apply Bool.eqb_prop in H1, H2. split.
  - rewrite <- FA, <- (yesb_iff (asks s x)), <- andb_true_iff, H1, E1. split; intros K; [congruence|rewrite K; reflexivity].
  - rewrite <- FA, H2, E2. split; intros K; [congruence|rewrite K; reflexivity].
Qed.
Theorem C113_identifiers : forall c f, 0 <= c <= 0x10FFFF -> getDecomposition nfc c = Ok (Some f) -> exists x t, f = x :: t /\
  (asks 22 c = Ok true <-> asks 22 x = Ok true /\ Forall (fun y => asks 23 y = Ok true) t) /\ (asks 23 c = Ok true <-> Forall (fun y => asks 23 y = Ok true) f) /\
  (asks 24 c = Ok true <-> asks 24 x = Ok true /\ Forall (fun y => asks 25 y = Ok true) t) /\ (asks 25 c = Ok true <-> Forall (fun y => asks 25 y = Ok true) f).
Proof.
  intros c f Hc F. pose proof (check_all _ id_hangul id_checked c f Hc F) as K. cbv beta in K. apply andb_true_iff in K as [K1 K2].
  apply id_check_ok in K1 as (x & t & E & A1 & A2). apply id_check_ok in K2 as (x' & t' & E' & B1 & B2).
  assert (x' = x /\ t' = t) as [-> ->] by (split; congruence). exists x, t. exact (conj E (conj A1 (conj A2 (conj B1 B2)))).
Qed.
Print Assumptions C113_identifiers.

(** *** Kind: category, direction, joining, number and most binary properties are those of the first part *)
(** White_Space, Dash, Hyphen, Quotation_Mark, Alphabetic, Ideographic, Noncharacter, Default_Ignorable, Soft_Dotted … by their columns *)
Definition kept : list Z := [0; 1; 2; 3; 8; 9; 12; 14; 15; 16; 17; 19; 21; 27; 28; 30; 31].
Definition kinds_agree (g gx : Z) : Prop := g = gx \/ (g = 3 (* Lt *) /\ gx = 1 (* Lu *)) \/ (g = 8 (* Mc *) /\ gx = 6 (* Mn *)).
Definition kinds_agreeb (g gx : Z) : bool := (g =? gx) || ((g =? 3) && (gx =? 1)) || ((g =? 8) && (gx =? 6)).
Definition kind_check (c : Z) (f : list Z) : bool :=
  match f with
  | [] => false
  | x :: t =>
      gives (getGeneralCategory icu c) (fun g => gives (getGeneralCategory icu x) (fun gx => kinds_agreeb g gx &&
        ((g =? 8) && (gx =? 6) || (sameb Z.eqb (getCharDirection icu_bidi c) (getCharDirection icu_bidi x) && sameb Z.eqb (getJoiningType icu_bidi c) (getJoiningType icu_bidi x))))) &&
      gives (getScript icu c) (fun s => gives (getScript icu x) (fun sx => (s =? sx) || (sx =? 0))) &&
      (sameb Z.eqb (getNumericTypeValue icu c) (getNumericTypeValue icu x) && sameb Z.eqb (getJoiningGroup icu_bidi c) (getJoiningGroup icu_bidi x)) &&
      forallb (fun k => sameb Bool.eqb (asks k c) (asks k x)) kept
  end.
Lemma kind_hangul : on_hangul kind_check.
Proof.
  apply by_likes; [|vm_compute; reflexivity|vm_compute; reflexivity]. intros c d f g L F Kc Kd Kf Kg. destruct F as [|x y f g Lx F]; [reflexivity|].
  apply Forall_cons_iff in Kf as [Kx Kf]. apply Forall_cons_iff in Kg as [Ky Kg]. unfold kind_check.
  rewrite (korean_group c Kc), (korean_group d Kd), (korean_group x Kx), (korean_group y Ky).
  destruct (likes c d) as (_ & _ & _ & A & -> & -> & -> & -> & -> & _); [apply korean_code; exact Kc|apply korean_code; exact Kd|exact L|].
  destruct (likes x y) as (_ & _ & _ & B & -> & -> & -> & -> & -> & _); [apply korean_code; exact Kx|apply korean_code; exact Ky|exact Lx|].
  f_equal. unfold kept. cbn [forallb]. rewrite !A, !B. reflexivity.
Qed.
Lemma kind_checked : forallb (check_decomposition kind_check) decomposing = true.
Proof. vm_cast_no_check (eq_refl true). Qed.
Theorem C113_kind : forall c f, 0 <= c <= 0x10FFFF -> getDecomposition nfc c = Ok (Some f) -> exists x t g gx s sx, f = x :: t /\
  getGeneralCategory icu c = Ok g /\ getGeneralCategory icu x = Ok gx /\ kinds_agree g gx /\
  ((g = 8 /\ gx = 6) \/ (agree (getCharDirection icu_bidi) c x /\ agree (getJoiningType icu_bidi) c x)) /\
  getScript icu c = Ok s /\ getScript icu x = Ok sx /\ (s = sx \/ sx = 0 (* Common *)) /\
  agree (getNumericTypeValue icu) c x /\ agree (getJoiningGroup icu_bidi) c x /\ (forall k, In k kept -> agree (asks k) c x).
Proof.
  intros c f Hc F. pose proof (check_all _ kind_hangul kind_checked c f Hc F) as K. unfold kind_check in K. destruct f as [|x t]; [discriminate|].
  apply andb_true_iff in K as [K K4]. apply andb_true_iff in K as [K K3]. apply andb_true_iff in K as [K1 K2]. apply andb_true_iff in K3 as [K3 K3'].
  apply gives_ok in K1 as (g & Gg & K1). apply gives_ok in K1 as (gx & Gx & K1). apply andb_true_iff in K1 as [K1 K1'].
  apply gives_ok in K2 as (s & Gs & K2). apply gives_ok in K2 as (sx & Gsx & K2).
  exists x, t, g, gx, s, sx. split; [reflexivity|]. split; [exact Gg|]. split; [exact Gx|]. split; [unfold kinds_agree, kinds_agreeb in *; lia|].
  split.
  { apply orb_true_iff in K1' as [E|E]; [left; lia|right]. apply andb_true_iff in E as [E1 E2].
    split; [exact (same_ok Z.eqb (getCharDirection icu_bidi) c x zeq E1)|exact (same_ok Z.eqb (getJoiningType icu_bidi) c x zeq E2)]. }
  split; [exact Gs|]. split; [exact Gsx|]. split; [lia|].
  split; [exact (same_ok Z.eqb (getNumericTypeValue icu) c x zeq K3)|]. split; [exact (same_ok Z.eqb (getJoiningGroup icu_bidi) c x zeq K3')|].
  intros k Hk. rewrite forallb_forall in K4. exact (same_ok Bool.eqb (asks k) c x beq (K4 k Hk)).
Qed.
Print Assumptions C113_kind.
Example C113_case : getDecomposition nfc 0x1FAF = Ok (Some [0x3A9; 0x314; 0x342; 0x345]) /\ getGeneralCategory icu 0x1FAF = Ok 3 /\ getGeneralCategory icu 0x3A9 = Ok 1 /\
  getDecomposition nfc 0xCCA = Ok (Some [0xCC6; 0xCC2]) /\ getGraphemeClusterBreak icu 0xCCA = Ok 10 /\ getGraphemeClusterBreak icu 0xCC6 = Ok 3 /\ asks 23 0xCC2 = Ok true /\
  getNorm16 nfc 0x315 = Ok 65488 /\ isMaybeOrNonZeroCC nfc 65488 = true.
Proof. vm_compute. auto 20. Qed.

(** *** Age: a decomposition has no characters from a later version, but for hamza and madda above and below *)
Definition late : list Z := [0x622; 0x623; 0x624; 0x625; 0x626; 0x6C0; 0x6C2; 0x6D3].
Definition not_later (a b : list Z) : Prop := exists M m N n, a = [M; m; 0; 0] /\ b = [N; n; 0; 0] /\ (M < N \/ (M = N /\ m <= n)).
Definition not_laterb (a b : list Z) : bool := match a, b with [M; m; 0; 0], [N; n; 0; 0] => (M <? N) || ((M =? N) && (m <=? n)) | _, _ => false end.
Lemma not_laterb_ok a b : not_laterb a b = true -> not_later a b.
Proof.
  unfold not_laterb, not_later. destruct a as [|M [|m [|[| |] [|[| |] [|]]]]]; try discriminate. destruct b as [|N [|n [|[| |] [|[| |] [|]]]]]; try discriminate.
  intros H. exists M, m, N, n. split; [reflexivity|]. split; [reflexivity|lia].
Qed.
Definition age_check (c : Z) (f : list Z) : bool := existsb (Z.eqb c) late || gives (getAge icu c) (fun a => forallb (fun x => gives (getAge icu x) (fun b => not_laterb b a)) f).
Lemma age_hangul : on_hangul age_check.
Proof.
  assert (N : forall c, korean c -> existsb (Z.eqb c) late = false).
  { intros c K. destruct (existsb (Z.eqb c) late) eqn:E; [|reflexivity]. apply existsb_exists in E as (y & Hy & E). unfold late in Hy. cbn [In] in Hy. unfold korean in K. lia. }
  apply by_likes; [|vm_compute; reflexivity|vm_compute; reflexivity]. intros c d f g L F Kc Kd Kf Kg. unfold age_check. rewrite (N c Kc), (N d Kd). cbn [orb].
  destruct (likes c d) as (_ & _ & _ & _ & _ & _ & _ & _ & _ & -> & _); [apply korean_code; exact Kc|apply korean_code; exact Kd|exact L|].
  destruct (getAge icu d) as [a|]; [|reflexivity]. cbn [gives]. apply forallb_likes; [|exact F|exact Kf|exact Kg]. intros x y Lx Kx Ky.
  destruct (likes x y) as (_ & _ & _ & _ & _ & _ & _ & _ & _ & -> & _); [apply korean_code; exact Kx|apply korean_code; exact Ky|exact Lx|reflexivity].
Qed.
Lemma age_checked : forallb (check_decomposition age_check) decomposing = true.
Proof. vm_cast_no_check (eq_refl true). Qed.
Theorem C113_age : forall c f, 0 <= c <= 0x10FFFF -> getDecomposition nfc c = Ok (Some f) -> ~ In c late ->
  exists a, getAge icu c = Ok a /\ Forall (fun x => exists b, getAge icu x = Ok b /\ not_later b a) f.
Proof.
  intros c f Hc F N. pose proof (check_all _ age_hangul age_checked c f Hc F) as K. unfold age_check in K. apply orb_true_iff in K as [K|K].
  - apply existsb_exists in K as (y & Hy & E). exfalso. apply N. replace c with y by lia. exact Hy.
  - apply gives_ok in K as (a & A & K). exists a. split; [exact A|]. apply Forall_forall. intros x Hx. rewrite forallb_forall in K. specialize (K x Hx).
    apply gives_ok in K as (b & B & K). exists b. split; [exact B|exact (not_laterb_ok b a K)].
Qed.
Print Assumptions C113_age.
Example C113_age_case : getDecomposition nfc 0x1109A = Ok (Some [0x11099; 0x110BA]) /\ getAge icu 0x1109A = Ok [5; 2; 0; 0] /\ getAge icu 0x110BA = Ok [5; 2; 0; 0] /\
  getDecomposition nfc 0x622 = Ok (Some [0x627; 0x653]) /\ getAge icu 0x622 = Ok [1; 1; 0; 0] /\ getAge icu 0x653 = Ok [3; 0; 0; 0].
Proof. split; [vm_compute; reflexivity|]. split; [vm_compute; reflexivity|]. split; [vm_compute; reflexivity|]. split; [vm_compute; reflexivity|]. split; vm_compute; reflexivity. Qed.
