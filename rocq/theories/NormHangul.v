(** * The decompositions of Hangul syllables, without going through them one by one *)
From Coq Require Import ZArith List Bool Lia ZifyBool.
From Verif Require Import Py Arr UTrie2 SpecText Utilities Runs CPTrie CharProps CharRuns CaseProps CaseShipped BidiProps BidiShipped Normalizer2 NormFacts NormShipped NormTable MasterRuns Agree.
Import ListNotations.
Open Scope Z_scope.

(** a statement about a character and its decomposition that holds of the syllables and of all that the list has *)
Definition on_hangul (P : Z -> list Z -> bool) : Prop := forall l v t, jamo_ok l v t ->
  getDecomposition nfc (syllable l v t) = Ok (Some (jamo l v t)) -> P (syllable l v t) (jamo l v t) = true.
Lemma check_all P : on_hangul P -> forallb (check_decomposition P) decomposing = true ->
  forall c f, 0 <= c <= 0x10FFFF -> getDecomposition nfc c = Ok (Some f) -> P c f = true.
Proof.
  intros HH H c f Hc F. destruct (in_app_or _ _ _ (decomposing_all c f Hc F)) as [I|I].
  - apply zrange_spec in I. destruct (nfc_cases c Hc) as [[A _]|[[_ (l & v & t & K & -> & G & _)]|[A _]]]; [unfold is_syllable in A; lia| |unfold is_syllable in A; lia].
    assert (f = jamo l v t) by congruence. subst f. exact (HH l v t K G).
  - rewrite forallb_forall in H. specialize (H c I). unfold check_decomposition in H. rewrite F in H. exact H.
Qed.

(** ** What the tables have for them *)
Definition LV : words := (5, 2520, 0, 0).
Definition LVT : words := (5, 2523, 0, 0).
Definition weqb (x y : words) : bool := let '(p, v, t, b) := x in let '(p', v', t', b') := y in (p =? p') && (v =? v') && (t =? t') && (b =? b').
Lemma weqb_ok x y : weqb x y = true -> x = y.
Proof. destruct x as [[[p v] t] b], y as [[[p' v'] t'] b']. unfold weqb. intros H. repeat f_equal; lia. Qed.
Definition hangul_run (r : Z * Z * words) : bool := let '(a, b, w) := r in
  if (b <=? 0xAC00) || (0xD7A4 <=? a) then true
  else (0xAC00 <=? a) && (if (a - 0xAC00) mod 28 =? 0 then (b =? a + 1) && weqb w LV else ((a - 0xAC00) mod 28 =? 1) && (b =? a + 27) && weqb w LVT).
Lemma hangul_runs : forallb hangul_run master_runs = true.
Proof. vm_cast_no_check (eq_refl true). Qed.
Lemma run_of c : 0 <= c < 0x10FFFF -> exists a b w, In (a, b, w) master_runs /\ a <= c < b /\ looked_up c w.
Proof.
  intros Hc. destruct (tiles_covers _ 0x10FFFF 0 master_tile c) as (a & b & w & I & R); [lia|]. exists a, b, w. split; [exact I|]. split; [exact R|].
  exact (master_sound a b w c I R ltac:(lia)).
Qed.
Lemma syllable_words l v t : jamo_ok l v t -> looked_up (syllable l v t) (if t =? 0 then LV else LVT).
Proof.
  intros (Hl & Hv & Ht). assert (B : 0xAC00 <= syllable l v t <= 0xD7A3) by (unfold syllable; lia).
  destruct (run_of (syllable l v t) ltac:(lia)) as (a & b & w & I & R & L). pose proof hangul_runs as H. rewrite forallb_forall in H. specialize (H _ I). unfold hangul_run in H.
  replace ((b <=? 0xAC00) || (0xD7A4 <=? a)) with false in H by lia. apply andb_true_iff in H as [_ H].
  destruct ((a - 0xAC00) mod 28 =? 0) eqn:M.
  - apply andb_true_iff in H as [H1 H2]. apply weqb_ok in H2. subst w. replace (t =? 0) with true; [exact L|]. unfold syllable in *. lia.
  - apply andb_true_iff in H as [H1 H2]. apply weqb_ok in H2. subst w. replace (t =? 0) with false; [exact L|]. unfold syllable in *. lia.
Qed.
Lemma jamo_words x : (0x1100 <= x < 0x1113 -> looked_up x (5, 2073, 0, 0)) /\ (0x1161 <= x < 0x1176 -> looked_up x (5, 1203, 0, 0)) /\ (0x11A8 <= x < 0x11C3 -> looked_up x (5, 1200, 0, 0)).
Proof.
  assert (I : forall a b w, existsb (fun r => let '(a', b', w') := r in (a =? a') && (b =? b') && weqb w w') master_runs = true -> In (a, b, w) master_runs).
  { intros a b w E. apply existsb_exists in E as ([[a' b'] w'] & I & E). apply andb_true_iff in E as [E E2]. apply weqb_ok in E2. subst w'.
    replace a with a' by lia. replace b with b' by lia. exact I. }
  assert (I1 := I 4352 4442 (5, 2073, 0, 0) ltac:(vm_cast_no_check (eq_refl true))).
  assert (I2 := I 4449 4515 (5, 1203, 0, 0) ltac:(vm_cast_no_check (eq_refl true))).
  assert (I3 := I 4520 4602 (5, 1200, 0, 0) ltac:(vm_cast_no_check (eq_refl true))). clear I.
  split; [|split]; intros H; [apply (master_sound _ _ _ x I1)|apply (master_sound _ _ _ x I2)|apply (master_sound _ _ _ x I3)]; lia.
Qed.

(** ** Characters with the same values in the tables *)
Definition like (c d : Z) : Prop := exists w, looked_up c w /\ looked_up d w.
Lemma likes c d : 0 <= c <= 0x10FFFF -> 0 <= d <= 0x10FFFF -> like c d ->
  getGraphemeClusterBreak icu c = getGraphemeClusterBreak icu d /\ getWordBreak icu c = getWordBreak icu d /\ getSentenceBreak icu c = getSentenceBreak icu d /\
  (forall k, asks k c = asks k d) /\ getGeneralCategory icu c = getGeneralCategory icu d /\ getCharDirection icu_bidi c = getCharDirection icu_bidi d /\
  getJoiningType icu_bidi c = getJoiningType icu_bidi d /\ getScript icu c = getScript icu d /\ getNumericTypeValue icu c = getNumericTypeValue icu d /\
  getAge icu c = getAge icu d /\ isMirrored icu_bidi c = isMirrored icu_bidi d.
Proof.
  intros Hc Hd ([[[p v] t] b] & (P & V & T & B) & (P' & V' & T' & B')).
  unfold getGraphemeClusterBreak, getWordBreak, getSentenceBreak, asks, getBinaryProp, getGeneralCategory, getCharDirection, getJoiningType, getScript, getNumericTypeValue,
    getAge, isMirrored, getUnicodeProperties, of_char. replace (c >? 0x10FFFF) with false by lia. replace (d >? 0x10FFFF) with false by lia.
  rewrite P, V, B, P', V', B'. repeat (split; [reflexivity|]). reflexivity.
Qed.
Lemma syllable_like l v t : jamo_ok l v t -> like (syllable l v t) (if t =? 0 then 0xAC00 else 0xAC01).
Proof.
  intros K. exists (if t =? 0 then LV else LVT). split; [exact (syllable_words l v t K)|]. destruct (t =? 0).
  - exact (syllable_words 0 0 0 ltac:(unfold jamo_ok; lia)).
  - exact (syllable_words 0 0 1 ltac:(unfold jamo_ok; lia)).
Qed.
Lemma lead_like l : 0 <= l < 19 -> like (0x1100 + l) 0x1100.
Proof. intros H. eexists. split; apply (proj1 (jamo_words _)); lia. Qed.
Lemma vowel_like v : 0 <= v < 21 -> like (0x1161 + v) 0x1161.
Proof. intros H. eexists. split; apply (proj1 (proj2 (jamo_words _))); lia. Qed.
Lemma tail_like t : 0 < t < 28 -> like (0x11A7 + t) 0x11A8.
Proof. intros H. eexists. split; apply (proj2 (proj2 (jamo_words _))); lia. Qed.

(** ** They have no case, no mirror image and no joining group *)
Definition korean (x : Z) : Prop := 0x1100 <= x < 0x1113 \/ 0x1161 <= x < 0x1176 \/ 0x11A8 <= x < 0x11C3 \/ 0xAC00 <= x <= 0xD7A3.
Lemma korean_words x : korean x -> exists p v, looked_up x (p, v, 0, 0).
Proof.
  intros [H|[H|[H|H]]]; [eexists; eexists; exact (proj1 (jamo_words x) H)|eexists; eexists; exact (proj1 (proj2 (jamo_words x)) H)|eexists; eexists; exact (proj2 (proj2 (jamo_words x)) H)|].
  destruct (syllable_parts x H) as (l & v & t & K & ->). pose proof (syllable_words l v t K) as W. destruct (t =? 0); eexists; eexists; exact W.
Qed.
Lemma korean_case x : korean x -> identity_at x.
Proof. intros H. destruct (korean_words x H) as (p & v & _ & _ & T & _). apply (uncased x 0); [unfold korean in H; lia|exact T|reflexivity]. Qed.
Lemma korean_mirror x : korean x -> getMirror icu_bidi x = Ok x /\ getPairedBracket icu_bidi x = Ok x.
Proof.
  intros H. destruct (korean_words x H) as (p & v & _ & _ & _ & B). split; [exact (no_delta x 0 ltac:(lia) B)|]. unfold getPairedBracket. rewrite B. reflexivity.
Qed.
Lemma korean_group x : korean x -> getJoiningGroup icu_bidi x = Ok 0.
Proof.
  intros H. unfold getJoiningGroup. 
  replace (aget (indexes icu_bidi) UBIDI_IX_JG_START) with (@Ok Z 0x620) by (vm_compute; reflexivity).
  replace (aget (indexes icu_bidi) UBIDI_IX_JG_LIMIT) with (@Ok Z 0x8C8) by (vm_compute; reflexivity).
  replace (aget (indexes icu_bidi) UBIDI_IX_JG_START2) with (@Ok Z 0x10AC0) by (vm_compute; reflexivity).
  replace (aget (indexes icu_bidi) UBIDI_IX_JG_LIMIT2) with (@Ok Z 0x10D24) by (vm_compute; reflexivity).
  cbn [bind]. unfold korean in H. replace ((0x620 <=? x) && (x <? 0x8C8)) with false by lia. replace ((0x10AC0 <=? x) && (x <? 0x10D24)) with false by lia. reflexivity.
Qed.
Lemma korean_syllable l v t : jamo_ok l v t -> korean (syllable l v t).
Proof. unfold korean, jamo_ok, syllable. intros H. right. right. right. lia. Qed.
Lemma korean_jamo l v t : jamo_ok l v t -> Forall korean (jamo l v t).
Proof.
  intros (Hl & Hv & Ht). unfold jamo. constructor; [left; lia|]. constructor; [right; left; lia|]. destruct (t =? 0) eqn:T; [constructor|].
  constructor; [right; right; left; lia|constructor].
Qed.
(** the parts have no decomposition *)
Lemma jamo_whole l v t : jamo_ok l v t -> Forall (fun x => getDecomposition nfc x = Ok None) (jamo l v t).
Proof.
  intros K. apply Forall_forall. intros x Hx.
  assert (R : 0x1100 <= x < 0x1113 \/ 0x1161 <= x < 0x1176 \/ 0x11A8 <= x < 0x11C3) by (unfold jamo, jamo_ok in *; destruct (t =? 0) eqn:T; cbn [In] in Hx; lia).
  destruct (nfc_results x ltac:(lia)) as [[_ N]|(? & ? & R2 & _)]; [exact N|]. rewrite (jamo_final x R) in R2. discriminate.
Qed.

(** ** Checking a statement that asks only the tables: six characters stand for all *)
Lemma by_likes (P : Z -> list Z -> bool) :
  (forall c d f g, like c d -> Forall2 like f g -> korean c -> korean d -> Forall korean f -> Forall korean g -> P c f = P d g) ->
  P 0xAC00 [0x1100; 0x1161] = true -> P 0xAC01 [0x1100; 0x1161; 0x11A8] = true -> on_hangul P.
Proof.
  intros E H1 H2 l v t K _. pose proof K as (Hl & Hv & Ht). pose proof (syllable_like l v t K) as S. pose proof (korean_jamo l v t K) as KJ. unfold jamo in *.
  destruct (t =? 0) eqn:T.
  - rewrite <- H1. apply E; [exact S| |exact (korean_syllable l v t K)|right; right; right; lia|exact KJ|exact (korean_jamo 0 0 0 ltac:(unfold jamo_ok; lia))].
    constructor; [exact (lead_like l Hl)|]. constructor; [exact (vowel_like v Hv)|constructor].
  - rewrite <- H2. apply E; [exact S| |exact (korean_syllable l v t K)|right; right; right; lia|exact KJ|exact (korean_jamo 0 0 1 ltac:(unfold jamo_ok; lia))].
    constructor; [exact (lead_like l Hl)|]. constructor; [exact (vowel_like v Hv)|]. constructor; [exact (tail_like t ltac:(lia))|constructor].
Qed.
