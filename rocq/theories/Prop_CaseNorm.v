(** * Changing case and decomposing can be done in either order, for every text (C114) *)
From Coq Require Import ZArith List Bool Lia ZifyBool.
From Verif Require Import Py Arr UTrie2 SpecText Utilities Runs CPTrie CharRuns CharProps CaseProps CaseShipped Normalizer2 NormFacts NormShipped NormTable NormHangul.
Import ListNotations.
Open Scope Z_scope.

(** A text is a list of code points.  [onText f] applies [f] to each character and joins the results:
    what a caller writes as ["".join(f(ord(ch)) for ch in text)]. *)
Definition onText (f : Z -> res (list Z)) (text : list Z) : res (list Z) := let* ls := mapM f text in Ok (concat ls).
(** the full decomposition of a character, itself when it has none *)
Definition parts (c : Z) : res (list Z) := let* d := getDecomposition nfc c in Ok (match d with Some f => f | None => [c] end).
Definition code (c : Z) : Prop := 0 <= c <= 0x10FFFF.
(** equivalent: with the same decomposition (up to the order of marks, which this library does not change) *)
Definition equivalent (s t : list Z) : Prop := exists d, onText parts s = Ok d /\ onText parts t = Ok d.

(** ** [onText] *)
Lemma onText_nil f : onText f [] = Ok []. Proof. reflexivity. Qed.
Lemma onText_cons f c t : onText f (c :: t) = let* a := f c in let* b := onText f t in Ok (a ++ b).
Proof. unfold onText. cbn [mapM]. destruct (f c) as [a|]; [|reflexivity]. cbn [bind]. destruct (mapM f t) as [ls|]; reflexivity. Qed.
Lemma onText_app f s t : onText f (s ++ t) = let* a := onText f s in let* b := onText f t in Ok (a ++ b).
Proof.
  induction s as [|c s IH].
  - cbn [app]. rewrite onText_nil. cbn [bind]. destruct (onText f t); reflexivity.
  - cbn [app]. rewrite !onText_cons, IH. destruct (f c) as [a|]; [|reflexivity]. cbn [bind]. destruct (onText f s) as [b|]; [|reflexivity]. cbn [bind].
    destruct (onText f t) as [d|]; [|reflexivity]. cbn [bind]. rewrite app_assoc. reflexivity.
Qed.

(** ** Decomposing *)
Lemma parts_total c : code c -> exists d, parts c = Ok d /\ Forall code d /\ onText parts d = Ok d.
Proof.
  intros Hc. unfold parts at 1. destruct (nfc_results c Hc) as [[_ F]|(r & f & _ & F & _ & _ & _ & S & _)]; rewrite F; cbn [bind].
  - exists [c]. split; [reflexivity|]. split; [constructor; [exact Hc|constructor]|]. rewrite onText_cons, onText_nil. unfold parts. rewrite F. reflexivity.
  - exists f. split; [reflexivity|].
    assert (C : Forall code f) by (revert S; apply Forall_impl; unfold scalar, code; intros; lia). split; [exact C|].
    assert (N : forall x, In x f -> parts x = Ok [x]).
    { intros x Hx. pose proof (proj1 (Forall_forall _ _) C x Hx) as Hr. unfold parts.
      destruct (nfc_cases c Hc) as [[_ [_ N]]|[[_ (l & v & t & K & -> & F' & _)]|[_ (r' & f' & _ & F' & G)]]]; [congruence| |].
      - assert (f = jamo l v t) by congruence. subst f.
        assert (J : getRawDecomposition nfc x = Ok None).
        { apply jamo_final. unfold jamo, jamo_ok in *. destruct (t =? 0) eqn:T; cbn [In] in Hx; lia. }
        destruct (nfc_results x Hr) as [[_ N]|(? & ? & R2 & _)]; [rewrite N; reflexivity|congruence].
      - assert (f' = f) by congruence. subst f'. unfold good in G. rewrite !andb_true_iff in G. destruct G as [[[[[[[[[_ G2] _] _] _] _] _] _] _] _].
        rewrite forallb_forall in G2. specialize (G2 x Hx). unfold is_none in G2. destruct (getRawDecomposition nfc x) as [[|]|] eqn:R; try discriminate.
        destruct (nfc_results x Hr) as [[_ N]|(? & ? & R2 & _)]; [rewrite N; reflexivity|congruence]. }
    clear - N. induction f as [|x t IH]; [reflexivity|]. rewrite onText_cons, N by (left; reflexivity). cbn [bind].
    rewrite IH by (intros y Hy; apply N; right; exact Hy). reflexivity.
Qed.
Lemma text_total t : Forall code t -> exists d, onText parts t = Ok d /\ Forall code d /\ onText parts d = Ok d.
Proof.
  induction t as [|c t IH]; intros H; [exists []; split; [reflexivity|split; [constructor|reflexivity]]|].
  apply Forall_cons_iff in H as [Hc Ht]. destruct (parts_total c Hc) as (a & A & Ca & Da). destruct (IH Ht) as (b & B & Cb & Db).
  exists (a ++ b). rewrite onText_cons, A, B. split; [reflexivity|]. split; [apply Forall_app; split; assumption|]. rewrite onText_app, Da, Db. reflexivity.
Qed.

(** ** Case *)
Section Mapping.
  Variable full : Z -> res (list Z).
  Hypothesis Htotal : forall c, code c -> exists u, full c = Ok u /\ Forall code u.
  Hypothesis Hparts : forall c f, code c -> getDecomposition nfc c = Ok (Some f) -> exists u v d, full c = Ok u /\ onText full f = Ok v /\ onText parts u = Ok d /\ onText parts v = Ok d.
  Lemma one_commutes c : code c -> exists p u v d, parts c = Ok p /\ full c = Ok u /\ onText full p = Ok v /\ onText parts u = Ok d /\ onText parts v = Ok d.
  Proof using Htotal Hparts.
    intros Hc. destruct (nfc_results c Hc) as [[_ F]|(r & f & _ & F & _)].
    - destruct (Htotal c Hc) as (u & U & Cu). destruct (text_total u Cu) as (d & D & _). exists [c], u, u, d.
      split; [unfold parts; rewrite F; reflexivity|]. split; [exact U|]. rewrite onText_cons, U, onText_nil. cbn [bind]. rewrite app_nil_r.
      split; [reflexivity|]. split; exact D.
    - destruct (Hparts c f Hc F) as (u & v & d & U & V & D & E). exists f, u, v, d. split; [unfold parts; rewrite F; reflexivity|]. auto.
  Qed.
  Lemma text_commutes t : Forall code t -> exists p u v d, onText parts t = Ok p /\ onText full t = Ok u /\ onText full p = Ok v /\ onText parts u = Ok d /\ onText parts v = Ok d.
  Proof using Htotal Hparts.
    induction t as [|c t IH]; intros H; [exists [], [], [], []; repeat split|].
    apply Forall_cons_iff in H as [Hc Ht]. destruct (one_commutes c Hc) as (p & u & v & d & P & U & V & D & E).
    destruct (IH Ht) as (p' & u' & v' & d' & P' & U' & V' & D' & E'). exists (p ++ p'), (u ++ u'), (v ++ v'), (d ++ d').
    rewrite !onText_cons, P, P', U, U', !onText_app, V, V', D, D', E, E'. repeat split.
  Qed.
End Mapping.
(** the parts of a character, checked for all that have any *)
Definition eqs (a b : res (list Z)) : bool := match a, b with Ok x, Ok y => list_eqb x y | _, _ => false end.
Definition commutes (full : Z -> res (list Z)) (c : Z) (f : list Z) : bool := eqs (let* u := full c in onText parts u) (let* v := onText full f in onText parts v).
Lemma commutes_ok full c f : commutes full c f = true -> exists u v d, full c = Ok u /\ onText full f = Ok v /\ onText parts u = Ok d /\ onText parts v = Ok d.
Proof.
  unfold commutes, eqs. destruct (full c) as [u|]; cbn [bind]; [|discriminate]. destruct (onText parts u) as [d|] eqn:D; [|discriminate].
  destruct (onText full f) as [v|]; cbn [bind]; [|discriminate]. destruct (onText parts v) as [e|] eqn:E; [|discriminate].
  intros H. apply list_eqb_eq in H. subst e. exists u, v, d. split; [reflexivity|]. split; [reflexivity|]. split; [exact D|exact E].
Qed.
(** Hangul has no case *)
Lemma onText_same (f : Z -> res (list Z)) t : Forall (fun x => f x = Ok [x]) t -> onText f t = Ok t.
Proof.
  induction t as [|x t IH]; intros H; [reflexivity|]. apply Forall_cons_iff in H as [Hx Ht]. rewrite onText_cons, Hx. cbn [bind]. rewrite (IH Ht). reflexivity.
Qed.
Lemma jamo_parts l v t : jamo_ok l v t -> onText parts (jamo l v t) = Ok (jamo l v t).
Proof.
  intros K. apply onText_same. generalize (jamo_whole l v t K). apply Forall_impl. intros x E. unfold parts. rewrite E. reflexivity.
Qed.
Lemma eqs_refl t : eqs (Ok t) (Ok t) = true.
Proof. unfold eqs, list_eqb. destruct (list_eq_dec Z.eq_dec t t) as [_|N]; [reflexivity|elim N; reflexivity]. Qed.
Lemma hangul_commutes full : (forall x, korean x -> full x = Ok [x]) -> on_hangul (commutes full).
Proof.
  intros H l v t K F. unfold commutes. rewrite (H _ (korean_syllable l v t K)). cbn [bind]. rewrite onText_cons, onText_nil. unfold parts at 1. rewrite F. cbn [bind].
  rewrite (onText_same full (jamo l v t)) by (generalize (korean_jamo l v t K); apply Forall_impl; exact H). cbn [bind].
  rewrite (jamo_parts l v t K), app_nil_r. apply eqs_refl.
Qed.
Lemma lower_hangul : on_hangul (commutes (toFullLower icu_case)).
Proof. apply hangul_commutes. intros x K. apply (korean_case x K). Qed.
Lemma upper_hangul : on_hangul (commutes (toFullUpper icu_case)).
Proof. apply hangul_commutes. intros x K. apply (korean_case x K). Qed.
Lemma lower_checked : forallb (check_decomposition (commutes (toFullLower icu_case))) decomposing = true.
Proof. vm_cast_no_check (eq_refl true). Qed.
Lemma upper_checked : forallb (check_decomposition (commutes (toFullUpper icu_case))) decomposing = true.
Proof. vm_cast_no_check (eq_refl true). Qed.
Lemma full_total full simple c : good_full full simple c -> exists u, full c = Ok u /\ Forall code u.
Proof. intros (l & d & L & _ & _ & H & _). exists l. split; [exact L|]. revert H. apply Forall_impl. unfold code. intros; lia. Qed.
Lemma lower_total c : code c -> exists u, toFullLower icu_case c = Ok u /\ Forall code u.
Proof. intros Hc. destruct (full_shipped c Hc) as (L & _). exact (full_total _ _ c L). Qed.
Lemma upper_total c : code c -> exists u, toFullUpper icu_case c = Ok u /\ Forall code u.
Proof. intros Hc. destruct (full_shipped c Hc) as (_ & U & _). exact (full_total _ _ c U). Qed.
Lemma title_total c : code c -> exists u, toFullTitle icu_case c = Ok u /\ Forall code u.
Proof. intros Hc. destruct (full_shipped c Hc) as (_ & _ & T). exact (full_total _ _ c T). Qed.

(** ** C114 *)
Theorem C114_upper : forall text, Forall code text -> exists d u v, onText parts text = Ok d /\ onText (toFullUpper icu_case) text = Ok u /\
  onText (toFullUpper icu_case) d = Ok v /\ equivalent u v.
Proof.
  intros t H. destruct (text_commutes _ upper_total (fun c f Hc F => commutes_ok _ c f (check_all _ upper_hangul upper_checked c f Hc F)) t H)
    as (p & u & v & d & P & U & V & D & E). exists p, u, v. split; [exact P|]. split; [exact U|]. split; [exact V|]. exists d. split; [exact D|exact E].
Qed.
Print Assumptions C114_upper.
Theorem C114_lower : forall text, Forall code text -> exists d u v, onText parts text = Ok d /\ onText (toFullLower icu_case) text = Ok u /\
  onText (toFullLower icu_case) d = Ok v /\ equivalent u v.
Proof.
  intros t H. destruct (text_commutes _ lower_total (fun c f Hc F => commutes_ok _ c f (check_all _ lower_hangul lower_checked c f Hc F)) t H)
    as (p & u & v & d & P & U & V & D & E). exists p, u, v. split; [exact P|]. split; [exact U|]. split; [exact V|]. exists d. split; [exact D|exact E].
Qed.
Print Assumptions C114_lower.
(** so equivalent texts stay equivalent *)
Theorem C114_equivalent : forall s t, Forall code s -> Forall code t -> equivalent s t ->
  (exists u v, onText (toFullUpper icu_case) s = Ok u /\ onText (toFullUpper icu_case) t = Ok v /\ equivalent u v) /\
  (exists u v, onText (toFullLower icu_case) s = Ok u /\ onText (toFullLower icu_case) t = Ok v /\ equivalent u v).
Proof.
  intros s t Hs Ht (d & Ds & Dt). split.
  - destruct (C114_upper s Hs) as (d1 & u & v & D1 & U & V & (e & Eu & Ev)). destruct (C114_upper t Ht) as (d2 & u' & v' & D2 & U' & V' & (e' & Eu' & Ev')).
    assert (d1 = d2) by congruence. subst d2. assert (v = v') by congruence. subst v'. assert (e = e') by congruence. subst e'.
    exists u, u'. split; [exact U|]. split; [exact U'|]. exists e. split; assumption.
  - destruct (C114_lower s Hs) as (d1 & u & v & D1 & U & V & (e & Eu & Ev)). destruct (C114_lower t Ht) as (d2 & u' & v' & D2 & U' & V' & (e' & Eu' & Ev')).
    assert (d1 = d2) by congruence. subst d2. assert (v = v') by congruence. subst v'. assert (e = e') by congruence. subst e'.
    exists u, u'. split; [exact U|]. split; [exact U'|]. exists e. split; assumption.
Qed.
Print Assumptions C114_equivalent.
(** title case of a character is the title case of its first part, followed by the others *)
Definition titles (c : Z) (f : list Z) : bool :=
  match f with [] => false | x :: t => eqs (let* u := toFullTitle icu_case c in onText parts u) (let* v := toFullTitle icu_case x in onText parts (v ++ t)) end.
Lemma title_hangul : on_hangul titles.
Proof.
  assert (T : forall x, korean x -> toFullTitle icu_case x = Ok [x]) by (intros x K; apply (korean_case x K)).
  intros l v t K F. pose proof (korean_jamo l v t K) as KJ. pose proof (jamo_parts l v t K) as P. unfold titles. rewrite (T _ (korean_syllable l v t K)). cbn [bind].
  rewrite onText_cons, onText_nil. unfold parts at 1. rewrite F. cbn [bind]. rewrite app_nil_r. unfold jamo in *.
  rewrite (T (0x1100 + l)) by exact (Forall_inv KJ). cbn [bind app]. rewrite P. apply eqs_refl.
Qed.
Lemma title_checked : forallb (check_decomposition titles) decomposing = true.
Proof. vm_cast_no_check (eq_refl true). Qed.
Theorem C114_title : forall c f, code c -> getDecomposition nfc c = Ok (Some f) -> exists x t u v, f = x :: t /\
  toFullTitle icu_case c = Ok u /\ toFullTitle icu_case x = Ok v /\ equivalent u (v ++ t).
Proof.
  intros c f Hc F. pose proof (check_all _ title_hangul title_checked c f Hc F) as K. unfold titles, eqs in K. destruct f as [|x t]; [discriminate|].
  destruct (toFullTitle icu_case c) as [u|] eqn:U; cbn [bind] in K; [|discriminate]. destruct (onText parts u) as [d|] eqn:D; [|discriminate].
  destruct (toFullTitle icu_case x) as [v|] eqn:V; cbn [bind] in K; [|discriminate]. destruct (onText parts (v ++ t)) as [e|] eqn:E; [|discriminate].
  apply list_eqb_eq in K. subst e. exists x, t, u, v. split; [reflexivity|]. split; [reflexivity|]. split; [exact V|]. exists d. split; assumption.
Qed.
Print Assumptions C114_title.
(** the simple mappings: lower case does, except for U+0130; upper case does not *)
Definition single (f : Z -> res Z) (c : Z) : res (list Z) := let* d := f c in Ok [d].
Definition lowers (c : Z) (f : list Z) : bool := (c =? 0x130) || commutes (single (toLower icu_case)) c f.
Lemma simple_hangul : on_hangul lowers.
Proof.
  intros l v t K F. unfold lowers. apply orb_true_iff. right. revert l v t K F. apply hangul_commutes. intros x K. unfold single.
  destruct (korean_case x K) as (-> & _). reflexivity.
Qed.
Lemma simple_checked : forallb (check_decomposition lowers) decomposing = true.
Proof. vm_cast_no_check (eq_refl true). Qed.
Theorem C114_simple_lower : forall c f, code c -> c <> 0x130 -> getDecomposition nfc c = Ok (Some f) -> exists u v, toLower icu_case c = Ok u /\
  mapM (toLower icu_case) f = Ok v /\ equivalent [u] v.
Proof.
  intros c f Hc N F. pose proof (check_all _ simple_hangul simple_checked c f Hc F) as K. unfold lowers in K. apply orb_true_iff in K as [K|K]; [lia|].
  apply commutes_ok in K as (u & v & d & U & V & D & E). unfold single in U. destruct (toLower icu_case c) as [u0|]; [|discriminate].
  cbn [bind] in U. assert (u = [u0]) by congruence. subst u. exists u0.
  assert (M : forall l w, onText (single (toLower icu_case)) l = Ok w -> mapM (toLower icu_case) l = Ok w).
  { clear. induction l as [|x l IH]; intros w; [intros H; exact H|]. rewrite onText_cons. unfold single at 1. cbn [mapM].
    destruct (toLower icu_case x) as [y|]; cbn [bind]; [|discriminate]. destruct (onText (single (toLower icu_case)) l) as [z|] eqn:O; cbn [bind]; [|discriminate].
    rewrite (IH z eq_refl). intros H. exact H. }
  exists v. split; [reflexivity|]. split; [exact (M f v V)|]. exists d. split; assumption.
Qed.
Print Assumptions C114_simple_lower.
Theorem C114_simple_upper_differs : exists c f u v, code c /\ getDecomposition nfc c = Ok (Some f) /\ toUpper icu_case c = Ok u /\
  mapM (toUpper icu_case) f = Ok v /\ ~ equivalent [u] v.
Proof.
  exists 0x1E96, [0x68; 0x331], 0x1E96, [0x48; 0x331]. split; [unfold code; lia|]. split; [vm_compute; reflexivity|]. split; [vm_compute; reflexivity|]. split; [vm_compute; reflexivity|].
  assert (E1 : onText parts [0x1E96] = Ok [0x68; 0x331]) by (vm_compute; reflexivity). assert (E2 : onText parts [0x48; 0x331] = Ok [0x48; 0x331]) by (vm_compute; reflexivity).
  intros (d & D1 & D2). congruence.
Qed.
Print Assumptions C114_simple_upper_differs.
Example C114_case : onText parts [0x1F80; 0x6D; 0xAC01] = Ok [0x3B1; 0x313; 0x345; 0x6D; 0x1100; 0x1161; 0x11A8] /\
  onText (toFullUpper icu_case) [0x1F80; 0x6D; 0xAC01] = Ok [0x1F08; 0x399; 0x4D; 0xAC01] /\
  onText (toFullUpper icu_case) [0x3B1; 0x313; 0x345; 0x6D; 0x1100; 0x1161; 0x11A8] = Ok [0x391; 0x313; 0x399; 0x4D; 0x1100; 0x1161; 0x11A8] /\
  onText (toFullLower icu_case) [0x130] = Ok [0x69; 0x307] /\ toFullTitle icu_case 0x1F84 = Ok [0x1F8C].
Proof. vm_compute. auto 10. Qed.
