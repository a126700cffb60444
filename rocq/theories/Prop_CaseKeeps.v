(** * Changing case changes only the case (C115) *)
From Coq Require Import ZArith List Bool Lia ZifyBool.
From Verif Require Import Py Arr UTrie2 Runs CharRuns CharProps CaseProps CaseShipped BidiProps Agree Prop_CaseNorm.
Import ListNotations.
Open Scope Z_scope.

(** ** C115

    The mappings come from the tables of CaseProps, the other properties from those of CharProps and BidiProps. *)
Definition alike {A} (ask : Z -> res A) (c d : Z) : Prop := ask d = ask c.
Definition alikeb {A} (eqb : A -> A -> bool) (ask : Z -> res A) (c d : Z) : bool := sameb eqb (ask c) (ask d).
Lemma alike_ok {A} (eqb : A -> A -> bool) ask c d : (forall x y, eqb x y = true -> x = y) -> alikeb eqb ask c d = true -> alike ask c d.
Proof. intros E H. destruct (same_ok eqb ask c d E H) as (v & V & W). unfold alike. congruence. Qed.
(** every binary property of that word, except Math *)
Definition columns : list Z := [0; 1; 2; 3; 4] ++ zrange 6 32.
(** direction, boundaries, number, joining and the binary properties *)
Definition keeps (c d : Z) : Prop :=
  alike (getCharDirection icu_bidi) c d /\ alike (getWordBreak icu) c d /\ alike (getGraphemeClusterBreak icu) c d /\
  alike (getNumericTypeValue icu) c d /\ alike (getJoiningType icu_bidi) c d /\ alike (getJoiningGroup icu_bidi) c d /\ (forall k, In k columns -> alike (asks k) c d).
Definition keepsb (c d : Z) : bool :=
  alikeb Z.eqb (getCharDirection icu_bidi) c d && (alikeb Z.eqb (getWordBreak icu) c d && (alikeb Z.eqb (getGraphemeClusterBreak icu) c d &&
  (alikeb Z.eqb (getNumericTypeValue icu) c d && (alikeb Z.eqb (getJoiningType icu_bidi) c d && (alikeb Z.eqb (getJoiningGroup icu_bidi) c d && forallb (fun k => alikeb Bool.eqb (asks k) c d) columns))))).
Lemma keepsb_ok c d : keepsb c d = true -> keeps c d.
Proof.
  unfold keepsb, keeps. intros H. apply andb_true_iff in H as [H1 H]. apply andb_true_iff in H as [H2 H]. apply andb_true_iff in H as [H3 H].
  apply andb_true_iff in H as [H4 H]. apply andb_true_iff in H as [H5 H]. apply andb_true_iff in H as [H6 H].
  split; [exact (alike_ok Z.eqb (getCharDirection icu_bidi) c d zeq H1)|]. split; [exact (alike_ok Z.eqb (getWordBreak icu) c d zeq H2)|].
  split; [exact (alike_ok Z.eqb (getGraphemeClusterBreak icu) c d zeq H3)|]. split; [exact (alike_ok Z.eqb (getNumericTypeValue icu) c d zeq H4)|].
  split; [exact (alike_ok Z.eqb (getJoiningType icu_bidi) c d zeq H5)|]. split; [exact (alike_ok Z.eqb (getJoiningGroup icu_bidi) c d zeq H6)|].
  intros k Hk. rewrite forallb_forall in H. exact (alike_ok Bool.eqb (asks k) c d beq (H k Hk)).
Qed.
Lemma keeps_refl c : keeps c c.
Proof. repeat (split; [reflexivity|]). intros k _. reflexivity. Qed.
(** the general category goes from one to the other *)
Definition moves (l : list (Z * Z)) (c d : Z) : Prop := exists g h, getGeneralCategory icu c = Ok g /\ getGeneralCategory icu d = Ok h /\ In (g, h) l.
Definition movesb (l : list (Z * Z)) (c d : Z) : bool :=
  gives (getGeneralCategory icu c) (fun g => gives (getGeneralCategory icu d) (fun h => existsb (fun '(x, y) => (x =? g) && (y =? h)) l)).
Lemma movesb_ok l c d : movesb l c d = true -> moves l c d.
Proof.
  unfold movesb, moves. intros H. apply gives_ok in H as (g & G & H). apply gives_ok in H as (h & Hh & H). exists g, h. split; [exact G|]. split; [exact Hh|].
  apply existsb_exists in H as ([x y] & Hin & E). replace g with x by lia. replace h with y by lia. exact Hin.
Qed.
(** Lu 1, Ll 2, Lt 3, Nl 10, So 27 *)
Definition lowered := [(1, 2); (3, 2); (10, 10); (27, 27)].
Definition uppered := [(2, 1); (2, 3); (3, 1); (10, 10); (27, 27)].
Definition titled := [(2, 1); (2, 3); (1, 3); (10, 10); (27, 27)].
Definition each_lower (c : Z) : bool := gives (toLower icu_case c) (fun d => keepsb c d && (alikeb Z.eqb (getScript icu) c d && ((d =? c) || movesb lowered c d))).
Definition each_up (f : Z -> res Z) l (c : Z) : bool :=
  (c =? 0x345) || gives (f c) (fun d => keepsb c d && (((c =? 0xB5) || alikeb Z.eqb (getScript icu) c d) && ((d =? c) || movesb l c d))).
Lemma lower_kept : check_runs (fun a b p => Z.land p 0xB =? 0) (fun c p => each_lower c) case_runs = true.
Proof. vm_cast_no_check (eq_refl true). Qed.
Lemma upper_kept : check_runs (fun a b p => Z.land p 0xB =? 0) (fun c p => each_up (toUpper icu_case) uppered c) case_runs = true.
Proof. vm_cast_no_check (eq_refl true). Qed.
Lemma title_kept : check_runs (fun a b p => Z.land p 0xB =? 0) (fun c p => each_up (toTitle icu_case) titled c) case_runs = true.
Proof. vm_cast_no_check (eq_refl true). Qed.

Theorem C115_lower : forall c, 0 <= c <= 0x10FFFF -> exists d, toLower icu_case c = Ok d /\ keeps c d /\ alike (getScript icu) c d /\ (d = c \/ moves lowered c d).
Proof.
  apply (case_checked each_lower _ lower_kept).
  - intros c _ (L & _). exists c. split; [exact L|]. split; [apply keeps_refl|]. split; [reflexivity|]. left. reflexivity.
  - intros c H. apply gives_ok in H as (d & L & H). apply andb_true_iff in H as [H1 H]. apply andb_true_iff in H as [H2 H]. exists d.
    split; [exact L|]. split; [exact (keepsb_ok c d H1)|]. split; [exact (alike_ok Z.eqb (getScript icu) c d zeq H2)|].
    apply orb_true_iff in H as [H|H]; [left; lia|right; exact (movesb_ok _ c d H)].
Qed.
Print Assumptions C115_lower.
Lemma up_kept f l : check_runs (fun a b p => Z.land p 0xB =? 0) (fun c p => each_up f l c) case_runs = true -> (forall c, identity_at c -> f c = Ok c) ->
  forall c, 0 <= c <= 0x10FFFF -> c <> 0x345 -> exists d, f c = Ok d /\ keeps c d /\ (c = 0xB5 \/ alike (getScript icu) c d) /\ (d = c \/ moves l c d).
Proof.
  intros K I. apply (case_checked (each_up f l) (fun c => c <> 0x345 -> exists d, f c = Ok d /\ keeps c d /\ (c = 0xB5 \/ alike (getScript icu) c d) /\ (d = c \/ moves l c d)) K).
  - intros c _ J _. exists c. split; [exact (I c J)|]. split; [apply keeps_refl|]. split; [right; reflexivity|]. left. reflexivity.
  - intros c H N. unfold each_up in H. apply orb_true_iff in H as [H|H]; [lia|]. apply gives_ok in H as (d & L & H). apply andb_true_iff in H as [H1 H]. apply andb_true_iff in H as [H2 H].
    exists d. split; [exact L|]. split; [exact (keepsb_ok c d H1)|]. split; [apply orb_true_iff in H2 as [H2|H2]; [left; lia|right; exact (alike_ok Z.eqb (getScript icu) c d zeq H2)]|].
    apply orb_true_iff in H as [H|H]; [left; lia|right; exact (movesb_ok _ c d H)].
Qed.
(** U+00B5 MICRO SIGN is of no script; U+0345 is a mark, and its upper case a letter *)
Theorem C115_upper : forall c, 0 <= c <= 0x10FFFF -> c <> 0x345 ->
  exists d, toUpper icu_case c = Ok d /\ keeps c d /\ (c = 0xB5 \/ alike (getScript icu) c d) /\ (d = c \/ moves uppered c d).
Proof. apply (up_kept _ _ upper_kept). intros c (_ & U & _). exact U. Qed.
Print Assumptions C115_upper.
Theorem C115_title : forall c, 0 <= c <= 0x10FFFF -> c <> 0x345 ->
  exists d, toTitle icu_case c = Ok d /\ keeps c d /\ (c = 0xB5 \/ alike (getScript icu) c d) /\ (d = c \/ moves titled c d).
Proof. apply (up_kept _ _ title_kept). intros c (_ & _ & T & _). exact T. Qed.
Print Assumptions C115_title.
Theorem C115_iota : toUpper icu_case 0x345 = Ok 0x399 /\ toTitle icu_case 0x345 = Ok 0x399 /\ moves [(6, 1)] 0x345 0x399 /\
  getGraphemeClusterBreak icu 0x345 = Ok 3 /\ getGraphemeClusterBreak icu 0x399 = Ok 0 /\ alike (asks 8) 0x345 0x399 /\ alike (asks 23) 0x345 0x399.
Proof.
  split; [vm_compute; reflexivity|]. split; [vm_compute; reflexivity|]. split; [exists 6, 1; split; [vm_compute; reflexivity|split; [vm_compute; reflexivity|left; reflexivity]]|].
  split; [vm_compute; reflexivity|]. split; [vm_compute; reflexivity|]. split; vm_compute; reflexivity.
Qed.
Print Assumptions C115_iota.

(** *** Identifiers stay identifiers (UAX #31), of any length, in upper and in lower case *)
Definition identifier (s k : Z) (text : list Z) : Prop := match text with [] => False | x :: t => asks s x = Ok true /\ Forall (fun y => asks k y = Ok true) t end.
Definition id_each (s k : Z) (full : Z -> res (list Z)) (c : Z) : bool := gives (full c) (fun l =>
  match l with
  | [] => false
  | x :: t => (negb (yesb (asks s c)) || (yesb (asks s x) && forallb (fun y => yesb (asks k y)) t)) && (negb (yesb (asks k c)) || forallb (fun y => yesb (asks k y)) l)
  end).
Definition id_all (c : Z) : bool :=
  id_each 22 23 (toFullLower icu_case) c && (id_each 22 23 (toFullUpper icu_case) c && (id_each 22 23 (toFullTitle icu_case) c &&
  (id_each 24 25 (toFullLower icu_case) c && (id_each 24 25 (toFullUpper icu_case) c && id_each 24 25 (toFullTitle icu_case) c)))).
Lemma id_kept : check_runs (fun a b p => Z.land p 0xB =? 0) (fun c p => id_all c) case_runs = true.
Proof. vm_cast_no_check (eq_refl true). Qed.
Definition id_one (s k : Z) (full : Z -> res (list Z)) (c : Z) : Prop := exists l, full c = Ok l /\ (asks s c = Ok true -> identifier s k l) /\
  (asks k c = Ok true -> Forall (fun y => asks k y = Ok true) l).
Lemma id_each_ok s k full c : id_each s k full c = true -> id_one s k full c.
Proof.
  unfold id_each, id_one. intros H. apply gives_ok in H as (l & L & H). exists l. split; [exact L|]. destruct l as [|x t]; [discriminate|]. apply andb_true_iff in H as [H1 H2].
  assert (FA : forall l, forallb (fun y => yesb (asks k y)) l = true -> Forall (fun y => asks k y = Ok true) l).
  { intros m K. rewrite forallb_forall in K. apply Forall_forall. intros y Hy. apply yesb_iff, K, Hy. }
  split; intros E; apply yesb_iff in E.
  - rewrite E in H1. cbn [negb orb] in H1. apply andb_true_iff in H1 as [H1 H3]. split; [apply yesb_iff; exact H1|apply FA; exact H3].
  - rewrite E in H2. apply FA. exact H2.
Qed.
Lemma id_same s k full c : full c = Ok [c] -> id_one s k full c.
Proof. intros L. exists [c]. split; [exact L|]. split; intros E; [split; [exact E|constructor]|constructor; [exact E|constructor]]. Qed.
Lemma id_ok c : 0 <= c <= 0x10FFFF ->
  id_one 22 23 (toFullLower icu_case) c /\ id_one 22 23 (toFullUpper icu_case) c /\ id_one 22 23 (toFullTitle icu_case) c /\
  id_one 24 25 (toFullLower icu_case) c /\ id_one 24 25 (toFullUpper icu_case) c /\ id_one 24 25 (toFullTitle icu_case) c.
Proof.
  revert c. apply (case_checked id_all _ id_kept).
  - intros c _ (_ & _ & _ & L & U & T).
    exact (conj (id_same _ _ _ c L) (conj (id_same _ _ _ c U) (conj (id_same _ _ _ c T) (conj (id_same _ _ _ c L) (conj (id_same _ _ _ c U) (id_same _ _ _ c T)))))).
  - intros c H. unfold id_all in H. apply andb_true_iff in H as [H1 H]. apply andb_true_iff in H as [H2 H]. apply andb_true_iff in H as [H3 H].
    apply andb_true_iff in H as [H4 H]. apply andb_true_iff in H as [H5 H6].
    exact (conj (id_each_ok _ _ _ c H1) (conj (id_each_ok _ _ _ c H2) (conj (id_each_ok _ _ _ c H3) (conj (id_each_ok _ _ _ c H4) (conj (id_each_ok _ _ _ c H5) (id_each_ok _ _ _ c H6)))))).
Qed.
Lemma id_text s k full : (forall c, 0 <= c <= 0x10FFFF -> id_one s k full c) -> forall text, Forall code text -> identifier s k text ->
  exists u, onText full text = Ok u /\ identifier s k u.
Proof.
  intros H. assert (R : forall t, Forall code t -> Forall (fun y => asks k y = Ok true) t -> exists u, onText full t = Ok u /\ Forall (fun y => asks k y = Ok true) u).
  { induction t as [|c t IH]; intros Hc Hk; [exists []; split; [reflexivity|constructor]|]. apply Forall_cons_iff in Hc as [Hc Ht]. apply Forall_cons_iff in Hk as [Hk Hkt].
    destruct (H c Hc) as (l & L & _ & A). destruct (IH Ht Hkt) as (u & U & B). exists (l ++ u). rewrite onText_cons, L, U. split; [reflexivity|]. apply Forall_app. split; [exact (A Hk)|exact B]. }
  intros [|c t] Hc I; [contradiction|]. destruct I as [I1 I2]. apply Forall_cons_iff in Hc as [Hc Ht]. destruct (H c Hc) as (l & L & A & _).
  destruct (R t Ht I2) as (u & U & B). exists (l ++ u). rewrite onText_cons, L, U. split; [reflexivity|]. specialize (A I1). destruct l as [|x m]; [contradiction|].
  destruct A as [A1 A2]. split; [exact A1|]. apply Forall_app. split; assumption.
Qed.
Theorem C115_identifiers : forall text, Forall code text ->
  (identifier 22 23 text -> (exists u, onText (toFullLower icu_case) text = Ok u /\ identifier 22 23 u) /\ (exists u, onText (toFullUpper icu_case) text = Ok u /\ identifier 22 23 u)) /\
  (identifier 24 25 text -> (exists u, onText (toFullLower icu_case) text = Ok u /\ identifier 24 25 u) /\ (exists u, onText (toFullUpper icu_case) text = Ok u /\ identifier 24 25 u)).
Proof.
  intros text Hc. split; intros I; split.
  - apply (id_text 22 23); [intros c Hx; destruct (id_ok c Hx) as (A & _); exact A|exact Hc|exact I].
  - apply (id_text 22 23); [intros c Hx; destruct (id_ok c Hx) as (_ & A & _); exact A|exact Hc|exact I].
  - apply (id_text 24 25); [intros c Hx; destruct (id_ok c Hx) as (_ & _ & _ & A & _); exact A|exact Hc|exact I].
  - apply (id_text 24 25); [intros c Hx; destruct (id_ok c Hx) as (_ & _ & _ & _ & A & _); exact A|exact Hc|exact I].
Qed.
Print Assumptions C115_identifiers.
Theorem C115_title_identifiers : forall c, 0 <= c <= 0x10FFFF -> id_one 22 23 (toFullTitle icu_case) c /\ id_one 24 25 (toFullTitle icu_case) c.
Proof. intros c Hc. destruct (id_ok c Hc) as (_ & _ & A & _ & _ & B). exact (conj A B). Qed.
Print Assumptions C115_title_identifiers.
Example C115_case : toLower icu_case 0x1C5 = Ok 0x1C6 /\ moves lowered 0x1C5 0x1C6 /\ toUpper icu_case 0xB5 = Ok 0x39C /\ getScript icu 0xB5 = Ok 0 /\ getScript icu 0x39C = Ok 14 /\
  identifier 22 23 [0x53; 0xDF; 0x31] /\ onText (toFullUpper icu_case) [0x53; 0xDF; 0x31] = Ok [0x53; 0x53; 0x53; 0x31].
Proof.
  split; [vm_compute; reflexivity|]. split; [exists 3, 2; split; [vm_compute; reflexivity|split; [vm_compute; reflexivity|right; left; reflexivity]]|].
  split; [vm_compute; reflexivity|]. split; [vm_compute; reflexivity|]. split; [vm_compute; reflexivity|]. split; [|vm_compute; reflexivity].
  split; [vm_compute; reflexivity|]. constructor; [vm_compute; reflexivity|]. constructor; [vm_compute; reflexivity|constructor].
Qed.
