(** * BidiProps: facts about the shipped tables. *)
From Coq Require Import ZArith List Bool Lia ZifyBool Sorted.
From Verif Require Import Py Arr UTrie2 Runs UTrie2Runs CharRuns CharProps CharShipped CharPropsFacts Utilities UtilitiesFacts BidiProps BidiFacts Data_Bidi Data_Names.
Import ListNotations.
Open Scope Z_scope.

Definition bidi_runs : list (Z * Z * Z) := Eval vm_compute in of_res (trie_runs (bidiPropsTrie icu_bidi)).
Lemma bidi_runs_eq : trie_runs (bidiPropsTrie icu_bidi) = Ok bidi_runs.
Proof. vm_cast_no_check (eq_refl (Ok bidi_runs)). Qed.
Lemma bidi_runs_ok : runs_ok (get (bidiPropsTrie icu_bidi)) bidi_runs 0x10FFFF.
Proof. apply trie_runs_correct; [exact bidi_runs_eq|split; discriminate|reflexivity]. Qed.
Lemma bidi_top c : 0x10FFFF <= c -> get (bidiPropsTrie icu_bidi) c = Ok 0.
Proof.
  intros H. unfold get, indexFromCodePoint.
  replace (c <? 0xD800) with false by (symmetry; apply Z.ltb_ge; lia).
  replace (c <=? 0xFFFF) with false by (symmetry; apply Z.leb_gt; lia).
  replace (c >=? 0x10FFFF) with true by (symmetry; apply Z.geb_le; lia). vm_compute. reflexivity.
Qed.
Lemma bidi_all (P : Z -> Z -> Prop) :
  (forall a b p, In (a, b, p) bidi_runs -> forall c, a <= c < b -> P c p) -> P 0x10FFFF 0 ->
  forall c, 0 <= c <= 0x10FFFF -> exists p, get (bidiPropsTrie icu_bidi) c = Ok p /\ P c p.
Proof.
  intros H T c Hc. destruct (Z.eq_dec c 0x10FFFF) as [->|N].
  - exists 0. split; [apply bidi_top; lia|exact T].
  - apply (by_runs _ _ _ P bidi_runs_ok H). lia.
Qed.

(** ** Words and getters *)
Definition bword_good (p : Z) : bool :=
  (0 <=? p) && (p <? 65536) && (p mod 32 <? 23) && (p / 32 mod 8 <? 6) && (p / 256 mod 4 <? 3).
Lemma bwords_checked : forallb (fun r => let '(a, b, p) := r in bword_good p) bidi_runs && bword_good 0 = true.
Proof. vm_compute. reflexivity. Qed.
Lemma bwords c : 0 <= c <= 0x10FFFF -> exists p, get (bidiPropsTrie icu_bidi) c = Ok p /\ bword_good p = true.
Proof.
  pose proof bwords_checked as F. apply andb_true_iff in F as [F F0]. rewrite forallb_forall in F.
  revert c. apply (bidi_all (fun _ p => bword_good p = true)); [|exact F0]. intros a b p Hin x _. exact (F _ Hin).
Qed.
Lemma bidi_word c : 0 <= c <= 0x10FFFF -> exists B, bword_ok B /\ get (bidiPropsTrie icu_bidi) c = Ok (encode_word B) /\ b_class B < 23 /\ b_jt B < 6 /\ b_bpt B < 3.
Proof.
  intros Hc. destruct (bwords c Hc) as (p & G & H). unfold bword_good in H. rewrite !andb_true_iff in H. destruct H as [[[[H1 H2] H3] H4] H5].
  destruct (word_of_bits_ok p ltac:(lia)) as [K E]. exists (word_of_bits p). split; [exact K|]. split; [rewrite E; exact G|].
  cbn [word_of_bits b_class b_jt b_bpt]. lia.
Qed.
Lemma jg_arrays : (forall i, aget (jgArray icu_bidi) i = py_get ubidi_props_jgArray_list i) /\
  (forall i, aget (jgArray2 icu_bidi) i = py_get ubidi_props_jgArray2_list i).
Proof.
  split; intros i; apply aget_tree.
  - symmetry. apply ubidi_props_jgArray_is.
  - apply ubidi_props_jgArray_is.
  - symmetry. apply ubidi_props_jgArray2_is.
  - apply ubidi_props_jgArray2_is.
Qed.
Lemma jg_shipped c : getJoiningGroup icu_bidi c =
  Ok (if (1568 <=? c) && (c <? 2248) then nth (Z.to_nat (c - 1568)) ubidi_props_jgArray_list 0
      else if (68288 <=? c) && (c <? 68900) then nth (Z.to_nat (c - 68288)) ubidi_props_jgArray2_list 0 else 0).
Proof.
  destruct jg_arrays as [A1 A2]. destruct ubidi_props_jgArray_is as [_ L1]. destruct ubidi_props_jgArray2_is as [_ L2].
  rewrite (joining_group icu_bidi 1568 ubidi_props_jgArray_list 68288 ubidi_props_jgArray2_list c); try exact A1; try exact A2; rewrite ?L1, ?L2; reflexivity.
Qed.
Definition below (n : Z) (l : list Z) : bool := forallb (fun x => (0 <=? x) && (x <? n)) l.
Lemma jg_checked : below 102 ubidi_props_jgArray_list && below 102 ubidi_props_jgArray2_list = true.
Proof. vm_compute. reflexivity. Qed.
Lemma nth_below n l k : 0 < n -> below n l = true -> 0 <= nth k l 0 < n.
Proof.
  intros Hn H. unfold below in H. rewrite forallb_forall in H. destruct (Nat.lt_ge_cases k (length l)) as [L|G].
  - specialize (H _ (nth_In l 0 L)). lia.
  - rewrite nth_overflow by exact G. lia.
Qed.
Lemma jg_range c : exists g, getJoiningGroup icu_bidi c = Ok g /\ 0 <= g < 102.
Proof.
  rewrite jg_shipped. eexists. split; [reflexivity|]. pose proof jg_checked as H. apply andb_true_iff in H as [H1 H2].
  destruct ((1568 <=? c) && (c <? 2248)); [apply nth_below; [lia|exact H1]|].
  destruct ((68288 <=? c) && (c <? 68900)); [apply nth_below; [lia|exact H2]|lia].
Qed.
Lemma bidi_named c : 0 <= c <= 0x10FFFF ->
  named bidiClassNames (getCharDirection icu_bidi c) /\ named joiningTypeNames (getJoiningType icu_bidi c) /\
  named joiningGroupNames (getJoiningGroup icu_bidi c) /\ (exists t, getPairedBracketType icu_bidi c = Ok t /\ 0 <= t <= 2).
Proof.
  intros Hc. destruct (bidi_word c Hc) as (B & K & G & H1 & H2 & H3). destruct (fields_ok icu_bidi c B K G) as (E1 & E2 & E3 & _).
  rewrite E1, E2, E3. destruct (jg_range c) as (g & EG & Hg). rewrite EG. destruct K as [K1 K2 K3 _]. repeat split.
  - exists (b_class B). split; [reflexivity|]. apply (dict_upto_ok _ 23); [vm_compute; reflexivity|lia].
  - exists (b_jt B). split; [reflexivity|]. apply (dict_upto_ok _ 6); [vm_compute; reflexivity|lia].
  - exists g. split; [reflexivity|]. apply (dict_upto_ok _ 102); [vm_compute; reflexivity|lia].
  - exists (b_bpt B). split; [reflexivity|lia].
Qed.

(** ** The mirror table *)
Definition icu_table : list (Z * Z) := map (fun m => (m mod 2 ^ 21, m / 2 ^ 21)) ubidi_props_mirrors_list.
Lemma icu_table_words : mirrors icu_bidi = table_words icu_table.
Proof. vm_compute. reflexivity. Qed.
Fixpoint rising (l : list (Z * Z)) : bool :=
  match l with [] => true | a :: r => forallb (fun b => fst a <? fst b) r && rising r end.
Lemma rising_ok l : rising l = true -> StronglySorted (fun a b : Z * Z => fst a < fst b) l.
Proof.
  induction l as [|a r IH]; intros H; constructor; cbn [rising] in H; apply andb_true_iff in H as [H1 H2]; [apply IH; exact H2|].
  apply Forall_forall. rewrite forallb_forall in H1. intros b Hb. specialize (H1 b Hb). lia.
Qed.
Lemma icu_table_ok : table_ok icu_table.
Proof.
  constructor; [apply rising_ok; vm_compute; reflexivity|].
  assert (H : forallb (fun e => (0 <=? fst e) && (fst e <? 2 ^ 21) && (0 <=? snd e) && (snd e <? zlen icu_table)) icu_table = true) by (vm_compute; reflexivity).
  apply Forall_forall. rewrite forallb_forall in H. intros e He. specialize (H e He). lia.
Qed.
Lemma icu_symmetric : symmetric icu_table.
Proof.
  assert (H : forallb (fun i => snd (nth (Z.to_nat (snd (nth (Z.to_nat i) icu_table (0, 0)))) icu_table (0, 0)) =? i) (zrange 0 (zlen icu_table)) = true)
    by (vm_compute; reflexivity).
  intros i Hi. rewrite forallb_forall in H. specialize (H i (proj2 (zrange_spec _ _ _) Hi)). lia.
Qed.

(** ** Mirroring *)
Definition okb (r : res bool) : bool := match r with Ok b => b | Err _ => false end.
Definition mirror_each (c p : Z) : bool :=
  match getMirror icu_bidi c with
  | Ok d => (0 <=? d) && (d <=? 0x10FFFF) && match getMirror icu_bidi d with Ok e => e =? c | Err _ => false end &&
            (if d =? c then true else okb (isMirrored icu_bidi c) && okb (isMirrored icu_bidi d))
  | Err _ => false
  end.
Definition mirror_good (c : Z) : Prop := exists d, getMirror icu_bidi c = Ok d /\ 0 <= d <= 0x10FFFF /\ getMirror icu_bidi d = Ok c /\
  (d <> c -> isMirrored icu_bidi c = Ok true /\ isMirrored icu_bidi d = Ok true).
Lemma mirror_checked : check_runs (fun a b p => (0 <=? p) && (p <? 8192)) mirror_each bidi_runs = true.
Proof. vm_compute. reflexivity. Qed.
Lemma okb_true r : okb r = true -> r = Ok true.
Proof. destruct r as [[]|]; [reflexivity|discriminate|discriminate]. Qed.
Lemma no_delta c p : 0 <= p < 8192 -> get (bidiPropsTrie icu_bidi) c = Ok p -> getMirror icu_bidi c = Ok c.
Proof.
  intros Hp G. destruct (word_of_bits_ok p ltac:(lia)) as [K E]. rewrite <- E in G.
  rewrite (mirror_ok icu_bidi icu_table icu_table_ok icu_table_words c _ K G). cbn [word_of_bits b_delta].
  rewrite (Z.div_small p 8192) by exact Hp. change (signed 3 0) with 0. cbn [Z.eqb]. f_equal. lia.
Qed.
Lemma mirror_shipped c : 0 <= c <= 0x10FFFF -> mirror_good c.
Proof.
  intros Hc.
  assert (I : forall x p, 0 <= x <= 0x10FFFF -> 0 <= p < 8192 -> get (bidiPropsTrie icu_bidi) x = Ok p -> mirror_good x).
  { intros x p Hx Hp G. pose proof (no_delta x p Hp G) as E. exists x. repeat split; auto; try lia; congruence. }
  destruct (bidi_all (fun x p => 0 <= p < 8192 \/ mirror_good x)) with (c := c) as (p & G & [H|H]); [| |exact Hc| |exact H].
  - apply (check_runs_ok _ _ _ _ mirror_checked); [intros; left; lia|]. intros x p H. right. unfold mirror_each in H.
    destruct (getMirror icu_bidi x) as [d|] eqn:E; [|discriminate]. rewrite !andb_true_iff in H. destruct H as [[H1 H2] H3].
    exists d. split; [exact E|]. split; [lia|]. destruct (getMirror icu_bidi d) as [e|]; [|discriminate]. apply Z.eqb_eq in H2. subst e.
    split; [reflexivity|]. intros N. replace (d =? x) with false in H3 by lia. apply andb_true_iff in H3 as [H3 H4]. split; apply okb_true; assumption.
  - left. lia.
  - apply (I c p Hc H G).
Qed.

(** ** Brackets *)
Definition ok_is (r : res Z) (x : Z) : bool := match r with Ok y => y =? x | Err _ => false end.
Definition bracket_each (c p : Z) : bool :=
  let t := p / 256 mod 4 in
  match getPairedBracket icu_bidi c with
  | Ok d => (0 <=? d) && (d <=? 0x10FFFF) && negb (d =? c) && ok_is (getPairedBracket icu_bidi d) c && ok_is (getPairedBracketType icu_bidi c) t &&
            ok_is (getPairedBracketType icu_bidi d) (3 - t) && ok_is (getMirror icu_bidi c) d && ((t =? 1) || (t =? 2))
  | Err _ => false
  end.
Definition bracket_good (c : Z) : Prop := exists d t, getPairedBracket icu_bidi c = Ok d /\ getPairedBracketType icu_bidi c = Ok t /\
  0 <= d <= 0x10FFFF /\ getPairedBracket icu_bidi d = Ok c /\ (d = c <-> t = 0) /\
  (t = 1 -> getPairedBracketType icu_bidi d = Ok 2) /\ (t = 2 -> getPairedBracketType icu_bidi d = Ok 1) /\
  (t <> 0 -> getMirror icu_bidi c = Ok d).
Lemma bracket_checked : check_runs (fun a b p => Z.land p 0x300 =? 0) bracket_each bidi_runs = true.
Proof. vm_compute. reflexivity. Qed.
Lemma ok_is_true r x : ok_is r x = true -> r = Ok x.
Proof. destruct r as [y|]; [cbn; intros H; f_equal; lia|discriminate]. Qed.
Lemma bracket_shipped c : 0 <= c <= 0x10FFFF -> bracket_good c.
Proof.
  intros Hc. destruct (bidi_all (fun x p => Z.land p 0x300 = 0 \/ bracket_good x)) with (c := c) as (p & G & [H|H]); [| |exact Hc| |exact H].
  - apply (check_runs_ok _ _ _ _ bracket_checked); [intros; left; lia|]. intros x p H. right. unfold bracket_each in H.
    destruct (getPairedBracket icu_bidi x) as [d|] eqn:E; [|discriminate]. rewrite !andb_true_iff in H. destruct H as [[[[[[[H1 H2] H3] H4] H5] H6] H7] H8].
    apply ok_is_true in H4, H5, H6, H7. exists d, (p / 256 mod 4). split; [exact E|]. split; [exact H5|]. split; [lia|]. split; [exact H4|].
    set (t := p / 256 mod 4) in *. clearbody t. split; [lia|]. split; [intros ->; exact H6|]. split; [intros ->; exact H6|]. intros _. exact H7.
  - left. reflexivity.
  - exists c, 0. unfold getPairedBracket, getPairedBracketType. rewrite G. cbn [bind]. unfold UBIDI_BPT_MASK. rewrite H. cbn [Z.eqb].
    repeat split; try lia; try discriminate; auto.
Qed.

(** ** Controls, brackets and categories *)
Definition controls : list Z := [0x61C; 0x200E; 0x200F; 0x202A; 0x202B; 0x202C; 0x202D; 0x202E; 0x2066; 0x2067; 0x2068; 0x2069].
Definition cp_in (l : list Z) (a b : Z) : bool := forallb (fun x => (a <=? x) && (x <? b)) l.
Fixpoint none_in (l : list Z) (a b : Z) : bool := match l with [] => true | x :: r => if (a <=? x) && (x <? b) then false else none_in r a b end.
Definition control_ok (c p : Z) : bool :=
  Bool.eqb (Z.testbit p 11) (existsb (Z.eqb c) controls) && Bool.eqb (Z.testbit p 10) ((c =? 0x200C) || (c =? 0x200D)).
Lemma control_checked : check_runs (fun a b p => none_in (0x200C :: 0x200D :: controls) a b && negb (Z.testbit p 11) && negb (Z.testbit p 10)) control_ok bidi_runs = true.
Proof. vm_compute. reflexivity. Qed.
Lemma none_in_ok l a b c : none_in l a b = true -> a <= c < b -> ~ In c l.
Proof.
  induction l as [|x r IH]; intros H Hc Hin; [exact Hin|]. cbn [none_in] in H. destruct ((a <=? x) && (x <? b)) eqn:E; [discriminate|].
  destruct Hin as [->|Hin]; [lia|]. apply IH; auto.
Qed.
Lemma flag_testbit p k : 0 <= k -> getFlagFromProps p k = Z.testbit p k.
Proof.
  intros Hk. unfold getFlagFromProps. change 1 with (Z.ones 1). rewrite Z.land_ones, Z.testbit_odd by lia. change (2 ^ 1) with 2. rewrite Zmod_odd.
  destruct (Z.odd (Z.shiftr p k)); reflexivity.
Qed.
Lemma control_shipped c : 0 <= c <= 0x10FFFF ->
  (isBidiControl icu_bidi c = Ok true <-> In c controls) /\ (isJoinControl icu_bidi c = Ok true <-> c = 0x200C \/ c = 0x200D).
Proof.
  intros Hc. destruct (bidi_all (fun x p => control_ok x p = true)) with (c := c) as (p & G & H); [| |exact Hc|].
  - apply (check_runs_ok _ _ _ _ control_checked); [|auto]. intros a b p x H Hx. rewrite !andb_true_iff in H. destruct H as [[H1 H2] H3].
    pose proof (none_in_ok _ _ _ _ H1 Hx) as N. unfold control_ok.
    assert (E : existsb (Z.eqb x) controls = false).
    { destruct (existsb (Z.eqb x) controls) eqn:Q; [|reflexivity]. apply existsb_exists in Q as (y & Hy & E). apply Z.eqb_eq in E. subst y. exfalso. apply N. right. right. exact Hy. }
    rewrite E. destruct (Z.testbit p 11), (Z.testbit p 10); try discriminate. cbn [Bool.eqb andb].
    assert (x <> 0x200C) by (intros ->; apply N; left; reflexivity). assert (x <> 0x200D) by (intros ->; apply N; right; left; reflexivity).
    replace (x =? 0x200C) with false by lia. replace (x =? 0x200D) with false by lia. reflexivity.
  - vm_compute. reflexivity.
  - unfold isBidiControl, isJoinControl. rewrite G. cbn [bind]. unfold UBIDI_BIDI_CONTROL_SHIFT, UBIDI_JOIN_CONTROL_SHIFT.
    rewrite !flag_testbit by lia. unfold control_ok in H. apply andb_true_iff in H as [H1 H2]. apply eqb_prop in H1, H2. rewrite H1, H2. split; split.
    + intros Q. assert (E : existsb (Z.eqb c) controls = true) by congruence. apply existsb_exists in E as (y & Hy & E). apply Z.eqb_eq in E. subst y. exact Hy.
    + intros Hin. f_equal. apply existsb_exists. exists c. split; [exact Hin|apply Z.eqb_refl].
    + intros [= E]. lia.
    + intros E. f_equal. lia.
Qed.

Definition pb_runs : list (Z * Z * (Z * Z)) := Eval vm_compute in merged props_runs bidi_runs.
Lemma pb_runs_eq : merged props_runs bidi_runs = pb_runs.
Proof. vm_cast_no_check (eq_refl pb_runs). Qed.
Lemma pb_runs_tile : tiles 0 pb_runs 0x10FFFF = true.
Proof. vm_compute. reflexivity. Qed.
Lemma pb_values (f : Z -> Z -> bool) : forallb (fun r => let '(a, b, (p, v)) := r in f p v) pb_runs && f 0 0 = true ->
  forall c, 0 <= c <= 0x10FFFF -> exists p v, get (propsTrie icu) c = Ok p /\ get (bidiPropsTrie icu_bidi) c = Ok v /\ f p v = true.
Proof.
  intros F c Hc. apply andb_true_iff in F as [F F0]. rewrite forallb_forall in F. destruct (Z.eq_dec c 0x10FFFF) as [->|N].
  - exists 0, 0. split; [apply props_top; lia|]. split; [apply bidi_top; lia|exact F0].
  - apply (by_merged _ _ _ _ 0x10FFFF (fun c p v => f p v = true) props_runs_ok bidi_runs_ok); [|rewrite pb_runs_eq|lia].
    + rewrite pb_runs_eq. exact pb_runs_tile.
    + intros a b p v Hin x _. exact (F _ Hin).
Qed.
Definition cat_ok (p v : Z) : bool :=
  let gc := Z.land p 31 in let cl := v mod 32 in let t := v / 256 mod 4 in
  (0 <=? v) && (v <? 65536) &&
  (if t =? 0 then true else (cl =? 10) && Z.odd (v / 4096) && (gc =? (if t =? 1 then 20 else 21))) &&
  (if cl =? 17 then (gc =? 6) || (gc =? 7) else true) &&
  (if gc =? 9 then (cl =? 0) || (cl =? 1) || (cl =? 2) || (cl =? 5) else true).
Lemma cat_checked : forallb (fun r => let '(a, b, (p, v)) := r in cat_ok p v) pb_runs && cat_ok 0 0 = true.
Proof. vm_compute. reflexivity. Qed.
Lemma cat_shipped c : 0 <= c <= 0x10FFFF ->
  (forall t, getPairedBracketType icu_bidi c = Ok t -> t <> 0 -> getCharDirection icu_bidi c = Ok 10 /\ isMirrored icu_bidi c = Ok true /\
    getGeneralCategory icu c = Ok (if t =? 1 then 20 else 21)) /\
  (getCharDirection icu_bidi c = Ok 17 -> getGeneralCategory icu c = Ok 6 \/ getGeneralCategory icu c = Ok 7) /\
  (getGeneralCategory icu c = Ok 9 -> exists d, getCharDirection icu_bidi c = Ok d /\ In d [0; 1; 2; 5]).
Proof.
  intros Hc. destruct (pb_values _ cat_checked c Hc) as (p & v & Gp & Gv & H). unfold cat_ok in H. cbv zeta in H. rewrite !andb_true_iff in H.
  destruct H as [[[[H1 H2] H3] H4] H5]. destruct (word_of_bits_ok v ltac:(lia)) as [K E]. rewrite <- E in Gv.
  destruct (fields_ok icu_bidi c _ K Gv) as (E1 & _ & E3 & _ & _ & E6). cbn [word_of_bits b_class b_bpt b_mirrored] in *.
  unfold getGeneralCategory. rewrite Gp, E1, E3, E6. cbn [bind]. change (generalCategoryFromProps p) with (Z.land p 31).
  split; [|split].
  - intros t Ht N. assert (v / 256 mod 4 = t) by congruence. subst t. replace (v / 256 mod 4 =? 0) with false in H3 by lia.
    rewrite !andb_true_iff in H3. destruct H3 as [[A1 A2] A3]. apply Z.eqb_eq in A1, A3. rewrite A1, A2, A3. auto.
  - intros [= Q]. replace (v mod 32 =? 17) with true in H4 by lia. apply orb_true_iff in H4 as [A|A]; apply Z.eqb_eq in A; rewrite A; auto.
  - intros Q. assert (Z.land p 31 = 9) by congruence. replace (Z.land p 31 =? 9) with true in H5 by lia.
    exists (v mod 32). split; [reflexivity|]. cbn [In]. lia.
Qed.
(** noncharacters other than the last are boundary neutral *)
Definition nonchars : list Z := map (fun k => 0xFDD0 + Z.of_nat k) (seq 0 32) ++ concat (map (fun k => [0x10000 * Z.of_nat k + 0xFFFE; 0x10000 * Z.of_nat k + 0xFFFF]) (seq 0 17)).
Lemma nonchars_checked : forallb (fun c => if c =? 0x10FFFF then true else ok_is (getCharDirection icu_bidi c) 18) nonchars = true.
Proof. vm_compute. reflexivity. Qed.
Lemma nonchar_in c : 0 <= c <= 0x10FFFF -> isUnicodeNoncharacter c = true -> In c nonchars.
Proof.
  intros Hc H. apply nonchar_spec in H. unfold nonchars. apply in_or_app. destruct H as [H|H].
  - left. apply in_map_iff. exists (Z.to_nat (c - 0xFDD0)). rewrite in_seq. lia.
  - right. destruct H as (k & Hk & H). apply in_concat.
    exists [0x10000 * Z.of_nat (Z.to_nat k) + 0xFFFE; 0x10000 * Z.of_nat (Z.to_nat k) + 0xFFFF]. split.
    + apply in_map_iff. exists (Z.to_nat k). split; [reflexivity|]. rewrite in_seq. lia.
    + rewrite Z2Nat.id by lia. cbn [In]. lia.
Qed.
Lemma nonchar_shipped c : 0 <= c < 0x10FFFF -> isUnicodeNoncharacter c = true -> getCharDirection icu_bidi c = Ok 18.
Proof.
  intros Hc H. pose proof nonchars_checked as F. rewrite forallb_forall in F. specialize (F c (nonchar_in c ltac:(lia) H)).
  replace (c =? 0x10FFFF) with false in F by lia. apply ok_is_true. exact F.
Qed.
