(** * Mirror images and paired brackets fit the other properties and canonical equivalence (C117) *)
From Coq Require Import ZArith List Bool Lia ZifyBool.
From Verif Require Import Py Arr UTrie2 SpecText Utilities Runs CharRuns CharProps CharShipped BidiProps BidiFacts BidiShipped Normalizer2 NormFacts NormShipped NormTable NormHangul Agree Prop_CaseNorm Prop_CaseKeeps.
Import ListNotations.
Open Scope Z_scope.

(** ** C117

    *** The mirror image of a character is of the same kind *)
(** Ps 20, Pe 21, Sm 24, So 27, Pi 28, Pf 29 *)
Definition mirrored_to := [(20, 21); (21, 20); (28, 29); (29, 28); (24, 24); (24, 27); (27, 24)].
Definition image_each (c : Z) : bool := gives (getMirror icu_bidi c) (fun d => keepsb c d && (alikeb Z.eqb (getScript icu) c d &&
  (alikeb Z.eqb (getSentenceBreak icu) c d && ((d =? c) || movesb mirrored_to c d)))).
Lemma images_checked : check_runs (fun a b p => (0 <=? p) && (p <? 8192)) (fun c _ => image_each c) bidi_runs = true.
Proof. vm_cast_no_check (eq_refl true). Qed.
Theorem C117_images : forall c, 0 <= c <= 0x10FFFF -> exists d, getMirror icu_bidi c = Ok d /\ keeps c d /\ alike (getScript icu) c d /\
  alike (getSentenceBreak icu) c d /\ (d = c \/ moves mirrored_to c d).
Proof.
  intros c Hc. destruct (bidi_all (fun x p => 0 <= p < 8192 \/ image_each x = true)) with (c := c) as (p & G & [H|H]); [| |exact Hc| |].
  - apply (check_runs_ok (fun a b p => (0 <=? p) && (p <? 8192)) (fun c _ => image_each c) bidi_runs (fun x p => 0 <= p < 8192 \/ image_each x = true) images_checked);
      [intros; left; lia|intros x p K; right; exact K].
  - left. lia.
  - exists c. split; [exact (no_delta c p H G)|]. split; [apply keeps_refl|]. split; [reflexivity|]. split; [reflexivity|left; reflexivity].
  - apply gives_ok in H as (d & L & H). apply andb_true_iff in H as [H1 H]. apply andb_true_iff in H as [H2 H]. apply andb_true_iff in H as [H3 H]. exists d.
    split; [exact L|]. split; [exact (keepsb_ok c d H1)|]. split; [exact (alike_ok Z.eqb (getScript icu) c d zeq H2)|].
    split; [exact (alike_ok Z.eqb (getSentenceBreak icu) c d zeq H3)|].
    apply orb_true_iff in H as [H|H]; [left; lia|right; exact (movesb_ok _ c d H)].
Qed.
Print Assumptions C117_images.
Example C117_images_case : getMirror icu_bidi 0xAB = Ok 0xBB /\ moves mirrored_to 0xAB 0xBB /\ getMirror icu_bidi 0x2208 = Ok 0x220B.
Proof.
  split; [vm_compute; reflexivity|]. split; [|vm_compute; reflexivity].
  exists 28, 29. split; [vm_compute; reflexivity|]. split; [vm_compute; reflexivity|]. right. right. left. reflexivity.
Qed.

(** *** Texts: replacing every character by its partner, and decomposing *)
Definition partnered (f : Z -> res Z) (c : Z) : res (list Z) := let* d := f c in Ok [d].
Definition excepted (l : list Z) (c : Z) : bool := existsb (Z.eqb c) l.
Definition partner_check (f : Z -> res Z) (l : list Z) (c : Z) (p : list Z) : bool :=
  excepted l c || gives (f c) (fun d => gives (getDecomposition nfc d) (fun o => match o with Some q => gives (onText (partnered f) p) (list_eqb q) | None => false end)).
Lemma not_excepted l c : ~ In c l -> excepted l c = false.
Proof.
  intros N. unfold excepted. destruct (existsb (Z.eqb c) l) eqn:E; [|reflexivity]. apply existsb_exists in E as (x & Hx & E). exfalso. apply N. replace c with x by lia. exact Hx.
Qed.
Section Partner.
  Variable f : Z -> res Z.
  Variable l : list Z.
  Hypothesis Hback : forall c, code c -> exists d, f c = Ok d /\ code d /\ f d = Ok c.
  Hypothesis Hchecked : forall c p, 0 <= c <= 0x10FFFF -> getDecomposition nfc c = Ok (Some p) -> partner_check f l c p = true.
  Definition outside (c : Z) : Prop := code c /\ ~ In c l /\ forall d, f c = Ok d -> ~ In d l.
  Lemma decomposed c p : code c -> ~ In c l -> getDecomposition nfc c = Ok (Some p) ->
    exists d q, f c = Ok d /\ getDecomposition nfc d = Ok (Some q) /\ onText (partnered f) p = Ok q.
  Proof using Hchecked.
    intros Hc N F. pose proof (Hchecked c p Hc F) as K. unfold partner_check in K. rewrite (not_excepted l c N) in K. cbn [orb] in K.
    apply gives_ok in K as (d & E & K). apply gives_ok in K as (o & G & K). destruct o as [q|]; [|discriminate]. apply gives_ok in K as (r & R & K).
    assert (q = r) by (revert K; apply list_eqb_eq). subst r. exists d, q. split; [exact E|]. split; [exact G|exact R].
  Qed.
  Lemma one_partner c : outside c -> exists p d q, parts c = Ok p /\ f c = Ok d /\ parts d = Ok q /\ onText (partnered f) p = Ok q.
  Proof using Hback Hchecked.
    intros (Hc & N & Nd). destruct (Hback c Hc) as (d & E & Hd & B). specialize (Nd d E). unfold parts.
    destruct (nfc_results c Hc) as [[_ F]|(r & p & _ & F & _)]; rewrite F; cbn [bind].
    - destruct (nfc_results d Hd) as [[_ G]|(r & q & _ & G & _)].
      + exists [c], d, [d]. rewrite G. split; [reflexivity|]. split; [exact E|]. split; [reflexivity|]. rewrite onText_cons. unfold partnered at 1. rewrite E. reflexivity.
      + destruct (decomposed d q Hd Nd G) as (c' & s & E' & F' & _). assert (c' = c) by congruence. subst c'. congruence.
    - destruct (decomposed c p Hc N F) as (d' & q & E' & G & R). assert (d' = d) by congruence. subst d'. exists p, d, q. rewrite G.
      split; [reflexivity|]. split; [exact E|]. split; [reflexivity|exact R].
  Qed.
  Lemma text_partner text : Forall outside text -> exists p m q,
    onText parts text = Ok p /\ onText (partnered f) text = Ok m /\ onText (partnered f) p = Ok q /\ onText parts m = Ok q.
  Proof using Hback Hchecked.
    induction text as [|c t IH]; intros H; [exists [], [], []; split; [reflexivity|split; [reflexivity|split; reflexivity]]|].
    apply Forall_cons_iff in H as [Hc Ht]. destruct (one_partner c Hc) as (p & d & q & P & E & Q & R). destruct (IH Ht) as (p' & m & q' & P' & M & R' & Q').
    exists (p ++ p'), (d :: m), (q ++ q'). rewrite !onText_cons, P, P'. split; [reflexivity|]. split; [unfold partnered at 1; rewrite E; cbn [bind]; rewrite M; reflexivity|].
    split; [rewrite onText_app, R, R'; reflexivity|rewrite Q, Q'; reflexivity].
  Qed.
End Partner.
Lemma bracket_back c : code c -> exists d, getPairedBracket icu_bidi c = Ok d /\ code d /\ getPairedBracket icu_bidi d = Ok c.
Proof. intros Hc. destruct (bracket_shipped c Hc) as (d & t & E & _ & Hd & B & _). exists d. split; [exact E|split; [exact Hd|exact B]]. Qed.
Lemma mirror_back c : code c -> exists d, getMirror icu_bidi c = Ok d /\ code d /\ getMirror icu_bidi d = Ok c.
Proof. intros Hc. destruct (mirror_shipped c Hc) as (d & E & Hd & B & _). exists d. split; [exact E|split; [exact Hd|exact B]]. Qed.
Lemma hangul_partner f l : (forall x, korean x -> f x = Ok x) -> on_hangul (partner_check f l).
Proof.
  intros H a v t K F. unfold partner_check. apply orb_true_iff. right. rewrite (H _ (korean_syllable a v t K)). cbn [gives]. rewrite F. cbn [gives].
  rewrite (onText_same (partnered f) (jamo a v t)).
  - cbn [gives]. exact (eqs_refl (jamo a v t)).
  - generalize (korean_jamo a v t K). apply Forall_impl. intros x Kx. unfold partnered. rewrite (H x Kx). reflexivity.
Qed.
Lemma brackets_hangul : on_hangul (partner_check (getPairedBracket icu_bidi) []).
Proof. apply hangul_partner. intros x K. apply (korean_mirror x K). Qed.
Lemma brackets_checked : forallb (check_decomposition (partner_check (getPairedBracket icu_bidi) [])) decomposing = true.
Proof. vm_cast_no_check (eq_refl true). Qed.
(** Characters that decompose into a sign and a stroke, where the sign has a mirror image and there is no character for that image with the stroke *)
Definition struck : list Z := [0x2224; 0x2241; 0x2244; 0x2247; 0x22AC; 0x22AD; 0x22AE; 0x22AF].
Lemma mirrors_hangul : on_hangul (partner_check (getMirror icu_bidi) struck).
Proof. apply hangul_partner. intros x K. apply (korean_mirror x K). Qed.
Lemma mirrors_checked : forallb (check_decomposition (partner_check (getMirror icu_bidi) struck)) decomposing = true.
Proof. vm_cast_no_check (eq_refl true). Qed.

(** The bracket pairs of a text are those of its decomposition (what rule N0 of UAX #9 asks for) *)
Theorem C117_brackets : forall text, Forall code text -> exists p m q,
  onText parts text = Ok p /\ onText (partnered (getPairedBracket icu_bidi)) text = Ok m /\ onText (partnered (getPairedBracket icu_bidi)) p = Ok q /\ onText parts m = Ok q.
Proof.
  intros text H. apply (text_partner (getPairedBracket icu_bidi) [] bracket_back (check_all _ brackets_hangul brackets_checked)). revert H. apply Forall_impl. intros c Hc.
  split; [exact Hc|]. split; [intros []|intros d _ []].
Qed.
Print Assumptions C117_brackets.
Example C117_brackets_case : onText parts [0x2329; 0x61; 0x232A] = Ok [0x3008; 0x61; 0x3009] /\
  onText (partnered (getPairedBracket icu_bidi)) [0x2329; 0x61; 0x232A] = Ok [0x232A; 0x61; 0x2329] /\ onText parts [0x232A; 0x61; 0x2329] = Ok [0x3009; 0x61; 0x3008].
Proof. split; [vm_compute; reflexivity|split; vm_compute; reflexivity]. Qed.

(** The mirror image of a text decomposes into the mirror images of its decomposition, unless the text has one of eight characters or the mirror image of one *)
Theorem C117_mirrors : forall text, Forall (outside (getMirror icu_bidi) struck) text -> exists p m q,
  onText parts text = Ok p /\ onText (partnered (getMirror icu_bidi)) text = Ok m /\ onText (partnered (getMirror icu_bidi)) p = Ok q /\ onText parts m = Ok q.
Proof. exact (text_partner (getMirror icu_bidi) struck mirror_back (check_all _ mirrors_hangul mirrors_checked)). Qed.
Print Assumptions C117_mirrors.
(** and each of the eight is an exception *)
Theorem C117_struck : forall c, In c struck -> exists p d q r, parts c = Ok p /\ getMirror icu_bidi c = Ok d /\ parts d = Ok q /\ onText (partnered (getMirror icu_bidi)) p = Ok r /\ q <> r.
Proof.
  assert (K : forallb (fun c => gives (parts c) (fun p => gives (getMirror icu_bidi c) (fun d => gives (parts d) (fun q =>
    gives (onText (partnered (getMirror icu_bidi)) p) (fun r => negb (list_eqb q r)))))) struck = true) by (vm_cast_no_check (eq_refl true)).
  intros c Hc. rewrite forallb_forall in K. specialize (K c Hc). apply gives_ok in K as (p & P & K). apply gives_ok in K as (d & D & K).
  apply gives_ok in K as (q & Q & K). apply gives_ok in K as (r & R & K). exists p, d, q, r. split; [exact P|]. split; [exact D|]. split; [exact Q|]. split; [exact R|].
  intros ->. unfold list_eqb in K. destruct (list_eq_dec Z.eq_dec r r) as [_|N]; [discriminate|exact (N eq_refl)].
Qed.
Print Assumptions C117_struck.
Example C117_mirrors_case : onText parts [0x2209; 0x28] = Ok [0x2208; 0x338; 0x28] /\ onText (partnered (getMirror icu_bidi)) [0x2209; 0x28] = Ok [0x220C; 0x29] /\
  onText parts [0x220C; 0x29] = Ok [0x220B; 0x338; 0x29].
Proof. split; [vm_compute; reflexivity|split; vm_compute; reflexivity]. Qed.

(** *** A character is mirrored when the first of its parts is, but for five *)
Definition lopsided : list Z := [0x2224; 0x2226; 0x2260; 0x2262; 0x2ADC].
Definition flag_check (c : Z) (p : list Z) : bool :=
  match p with [] => false | x :: _ => excepted lopsided c || sameb Bool.eqb (isMirrored icu_bidi c) (isMirrored icu_bidi x) end.
Lemma flags_hangul : on_hangul flag_check.
Proof.
  intros l v t K F. pose proof (korean_jamo l v t K) as KJ. unfold flag_check, jamo in *. apply Forall_inv in KJ.
  assert (N : forall y, korean y -> isMirrored icu_bidi y = Ok false).
  { intros y Ky. destruct (korean_words y Ky) as (p & w & _ & _ & _ & B). unfold isMirrored. rewrite B. reflexivity. }
  rewrite (N _ (korean_syllable l v t K)), (N _ KJ). apply orb_true_r.
Qed.
Lemma flags_checked : forallb (check_decomposition flag_check) decomposing = true.
Proof. vm_cast_no_check (eq_refl true). Qed.
Theorem C117_flags : forall c f, 0 <= c <= 0x10FFFF -> getDecomposition nfc c = Ok (Some f) -> exists x t, f = x :: t /\ (In c lopsided \/ agree (isMirrored icu_bidi) c x).
Proof.
  intros c f Hc F. pose proof (check_all _ flags_hangul flags_checked c f Hc F) as K. unfold flag_check in K. destruct f as [|x t]; [discriminate|]. exists x, t.
  split; [reflexivity|]. apply orb_true_iff in K as [K|K].
  - left. apply existsb_exists in K as (y & Hy & E). replace c with y by lia. exact Hy.
  - right. exact (same_ok Bool.eqb (isMirrored icu_bidi) c x beq K).
Qed.
Print Assumptions C117_flags.
Example C117_flags_case : getDecomposition nfc 0x2209 = Ok (Some [0x2208; 0x338]) /\ isMirrored icu_bidi 0x2209 = Ok true /\ isMirrored icu_bidi 0x2208 = Ok true /\
  getDecomposition nfc 0x2260 = Ok (Some [0x3D; 0x338]) /\ isMirrored icu_bidi 0x2260 = Ok true /\ isMirrored icu_bidi 0x3D = Ok false.
Proof. split; [vm_compute; reflexivity|]. split; [vm_compute; reflexivity|]. split; [vm_compute; reflexivity|]. split; [vm_compute; reflexivity|]. split; vm_compute; reflexivity. Qed.
