(** * Property C106: what the exhaustive test of the repository tells *)
From Coq Require Import ZArith List Bool Lia ZifyBool String.
From Verif Require Import Py Arr PyStr Dict CharProps CaseProps BidiProps CPTrie Normalizer2 Normalizer2File CharNames UCD UCDFacts UCDIndex UCDIndexFacts PyModule Data_Modules ModuleFacts
  Data_Names CharRuns CharShipped CaseShipped BidiShipped BidiFacts NormShipped Prop_UCD Prop_Modules Prop_BidiProps Prop_CaseProps Prop_Normalizer2 Exhaustive ExhaustiveFacts.
Import ListNotations.
Local Notation yes := UCDFacts.yes.
Open Scope string_scope.
Open Scope list_scope.
Open Scope Z_scope.
Local Notation length := List.length.
Local Notation concat := List.concat.

(** ** C106

    [tellsSame] and [compared] are in ExhaustiveFacts.v; [attr] and [yes] are the attributes of
    an element or else of its group (UCDFacts.v). *)
(** the test passes exactly when each element that has a code point can be read, and the
    library and the last element for each code point tell the same *)
Theorem C106_passes N L nfcT nfkcT nfkc_cfT groups : fst (test_exhaustive N L nfcT nfkcT nfkc_cfT groups []) = Ok tt <->
  (forall char group, In (char, group) (entries groups) -> exists data, newCharacterData char group = Ok data) /\
  forall before char group data after, entries groups = before ++ (char, group) :: after -> newCharacterData char group = Ok data ->
    (forall char' group' data', In (char', group') after -> newCharacterData char' group' = Ok data' -> codePoint data' <> codePoint data) ->
    tellsSame N L nfcT nfkcT nfkc_cfT (codePoint data) char group data.
Proof.
  rewrite test_entries. destruct (load_cases (entries groups)) as [H|(b & e & r & x & E & X & H)].
  - destruct (all_new _ H) as [ds F]. rewrite (loadEntries_ok _ _ _ F). cbn [fst]. rewrite testAll_iff. split.
    + intros T. split; [intros c g I; apply (H (c, g) I)|]. intros before char group data after E D O. apply (one_iff _ _ _ _ _ _ char group data D). apply T. apply stored.
      rewrite E in F. apply Forall2_app_inv_l in F as (m1 & m2 & F1 & F2 & ->). inversion F2 as [|? a ? m3 A F3]; subst. unfold newFor in A. cbn [fst snd] in A. assert (a = data) by congruence. subst a.
      exists m1, m3. split; [reflexivity|]. split; [reflexivity|]. intros y I. destruct (Forall2_in _ _ _ _ F3 I) as ([c' g'] & I' & N'). eapply O; [exact I'|exact N'].
    + intros [_ T] c a I. apply stored in I as (m1 & m3 & -> & <- & O). apply Forall2_app_inv_r in F as (l1 & l2 & F1 & F2 & E). inversion F2 as [|[char group] ? l3 ? A F3]; subst. unfold newFor in A. cbn [fst snd] in A.
      apply (one_iff _ _ _ _ _ _ char group a A). apply (T l1 char group a l3 E A). intros c' g' d' I' D'. apply O. destruct (Forall2_in' _ _ _ _ F3 I') as (y & Iy & Y). unfold newFor in Y. cbn [fst snd] in Y. congruence.
  - destruct (all_new _ H) as [ds F]. rewrite E, (load_fails b e r x ds X F). cbn [fst]. split; [discriminate|]. intros [A _]. destruct e as [c g]. destruct (A c g) as [d D]; [apply in_or_app; right; left; reflexivity|]. unfold newFor in X. cbn [fst snd] in X. congruence.
Qed.
Print Assumptions C106_passes.

(** elements without their own code point, like those for ranges, are not tested *)
Theorem C106_untested N L nfcT nfkcT nfkc_cfT groups groups' : entries groups = entries groups' ->
  test_exhaustive N L nfcT nfkcT nfkc_cfT groups [] = test_exhaustive N L nfcT nfkcT nfkc_cfT groups' [].
Proof. intros E. rewrite !test_entries, E. reflexivity. Qed.
Print Assumptions C106_untested.
Theorem C106_nothing N L nfcT nfkcT nfkc_cfT groups : (forall group chars char, In (group, chars) groups -> In char chars -> dict_find char (lit "cp") = None) ->
  test_exhaustive N L nfcT nfkcT nfkc_cfT groups [] = (Ok tt, []).
Proof.
  intros H. rewrite test_entries. assert (entries groups = []) as ->; [|reflexivity]. unfold entries. induction groups as [|[g cs] r IH]; [reflexivity|]. cbn [flat_map fst snd]. rewrite IH by (intros g' c' x I; apply (H g' c' x); right; exact I).
  assert (filter (fun char => match dict_find char (lit "cp") with Some _ => true | None => false end) cs = []) as ->; [|reflexivity].
  assert (K : forall char, In char cs -> dict_find char (lit "cp") = None) by (intros x I; apply (H g cs x); [left; reflexivity|exact I]). clear - K. induction cs as [|c cs IH]; [reflexivity|]. cbn [filter]. rewrite K by (left; reflexivity).
  apply IH. intros x I. apply K. right. exact I.
Qed.
Print Assumptions C106_nothing.

(** a second test in the same process: it gives the same, except after a file that could not be
    read.  Then it gives what a file with the elements before the bad one gives. *)
Theorem C106_again N L nfcT nfkcT nfkc_cfT groups : let first := test_exhaustive N L nfcT nfkcT nfkc_cfT groups [] in let second := test_exhaustive N L nfcT nfkcT nfkc_cfT groups (snd first) in
  ((forall char group, In (char, group) (entries groups) -> exists data, newCharacterData char group = Ok data) -> second = first) /\
  (forall before char group after x, entries groups = before ++ (char, group) :: after -> (forall e, In e before -> exists data, newCharacterData (fst e) (snd e) = Ok data) ->
    newCharacterData char group = Err x ->
    fst first = Err x /\ (before = [] -> second = first) /\
    forall groups', before <> [] -> entries groups' = before -> second = test_exhaustive N L nfcT nfkcT nfkc_cfT groups' []).
Proof.
  cbv zeta. assert (K : forall ds, ds <> [] -> fold_left store ds [] <> []).
  { intros ds Hds E. destruct (exists_last Hds) as (l & a & ->). assert (In (codePoint a, a) (fold_left store (l ++ [a]) [])) as I by (apply stored; exists l, []; split; [reflexivity|]; split; [reflexivity|intros ? []]). rewrite E in I. contradiction. }
  assert (Z : forall d, d <> [] -> test_exhaustive N L nfcT nfkcT nfkc_cfT groups d = (testAll N L nfcT nfkcT nfkc_cfT d, d)).
  { intros [|p d] Hd; [contradiction|]. unfold test_exhaustive, loadCharacterData. replace (zlen (p :: d) >? 0) with true by (unfold zlen; cbn [length]; lia). reflexivity. }
  split.
  - intros H. destruct (all_new (entries groups)) as [ds F]; [intros [c g] I; exact (H c g I)|]. rewrite test_entries, (loadEntries_ok _ _ _ F). cbn [snd]. destruct ds as [|a ds].
    + cbn [fold_left]. rewrite test_entries, (loadEntries_ok _ _ _ F). reflexivity.
    + rewrite Z by (apply K; discriminate). reflexivity.
  - intros before char group after x E H X. destruct (all_new before) as [ds F]; [exact H|]. assert (X' : newFor (char, group) = Err x) by exact X. rewrite test_entries, E, (load_fails _ _ _ _ _ X' F). cbn [fst snd]. split; [reflexivity|]. split.
    + intros ->. inversion F; subst. cbn [fold_left]. rewrite test_entries, E, (load_fails [] _ _ _ [] X' (Forall2_nil _)). reflexivity.
    + intros groups' Hb E'. destruct ds as [|a ds]; [exfalso; apply Hb; inversion F; reflexivity|]. rewrite Z by (apply K; discriminate). rewrite test_entries, E', (loadEntries_ok _ _ _ F). reflexivity.
Qed.
Print Assumptions C106_again.

(** two files with the same elements up to attributes that are not compared give the same:
    numeric types and values, combining classes, word breaks, script extensions, simple mappings
    and case foldings, quick checks, Hangul syllable types and the rest are not tested *)
Theorem C106_blind N L nfcT nfkcT nfkc_cfT groups groups' :
  Forall2 (fun e e' => (forall k, In k compared -> attr (fst e) (snd e) k = attr (fst e') (snd e') k) /\
    (exists data, newCharacterData (fst e) (snd e) = Ok data) /\ exists data, newCharacterData (fst e') (snd e') = Ok data) (entries groups) (entries groups') ->
  fst (test_exhaustive N L nfcT nfkcT nfkc_cfT groups []) = fst (test_exhaustive N L nfcT nfkcT nfkc_cfT groups' []).
Proof.
  rewrite !test_entries. intros F.
  assert (G : forall es es', Forall2 (fun e e' => (forall k, In k compared -> attr (fst e) (snd e) k = attr (fst e') (snd e') k) /\
    (exists data, newCharacterData (fst e) (snd e) = Ok data) /\ exists data, newCharacterData (fst e') (snd e') = Ok data) es es' ->
    forall d d', Forall2 (fun p q => fst p = fst q /\ forall cp, testOne N L nfcT nfkcT nfkc_cfT cp (snd p) = testOne N L nfcT nfkcT nfkc_cfT cp (snd q)) d d' ->
    exists r r', loadEntries d es = (Ok tt, r) /\ loadEntries d' es' = (Ok tt, r') /\
      Forall2 (fun p q => fst p = fst q /\ forall cp, testOne N L nfcT nfkcT nfkc_cfT cp (snd p) = testOne N L nfcT nfkcT nfkc_cfT cp (snd q)) r r').
  { induction 1 as [|e e' es es' (H & [a A] & [b B]) _ IH]; intros d d' R; [exists d, d'; split; [reflexivity|]; split; [reflexivity|exact R]|]. cbn [loadEntries]. unfold newFor. rewrite A, B. apply IH.
    pose proof (proj1 (compared_same N L nfcT nfkcT nfkc_cfT 0 _ _ _ _ _ _ H A B)) as C. unfold store. rewrite <- C. clear - H A B R.
    induction R as [|[k x] [k' y] d d' [E T] R IH]; cbn [zd_set fst snd] in *.
    - constructor; [|constructor]. split; [reflexivity|]. intros cp. apply (compared_same N L nfcT nfkcT nfkc_cfT cp _ _ _ _ _ _ H A B).
    - subst k'. destruct (k =? codePoint a).
      + constructor; [|exact R]. cbn [fst snd]. split; [reflexivity|]. intros cp. apply (compared_same N L nfcT nfkcT nfkc_cfT cp _ _ _ _ _ _ H A B).
      + constructor; [|exact IH]. cbn [fst snd]. split; [reflexivity|exact T]. }
  destruct (G _ _ F [] [] (Forall2_nil _)) as (r & r' & -> & -> & R). cbn [fst]. clear - R. induction R as [|[k x] [k' y] d d' [E T] R IH]; [reflexivity|]. cbn [testAll fst snd] in *. subst k'. rewrite T, IH. reflexivity.
Qed.
Print Assumptions C106_blind.

(** *** the results *)
Lemma has_says name r : has_name name r -> exists s, says name r s.
Proof. intros (k & s & -> & H). exists s, k. split; [reflexivity|]. unfold vd_get in H. destruct (vd_find (UD name) (VInt k)); congruence. Qed.
Lemma upto_says name l n k : UD name = as_dict l -> dict_upto l n = true -> 0 <= k < n -> forall r, r = Ok k -> exists s, says name r s.
Proof. intros E U K r ->. apply has_says. apply (named_has name l (Ok k) E). exists k. split; [reflexivity|]. apply (dict_upto_ok l n); assumption. Qed.
Definition rangeTables (N : names) (L : layout) (nfkcT nfkc_cfT : norm2) (c : Z) : Prop :=
  (exists v, getInPC L c = Ok v /\ 0 <= v < 15) /\ (exists v, getInSC L c = Ok v /\ 0 <= v < 36) /\ (exists v, getVO L c = Ok v /\ 0 <= v < 4) /\
  (exists r, getRawDecomposition nfkcT c = Ok r) /\ (exists r, getRawDecomposition nfkc_cfT c = Ok r) /\ exists s, getCharName N c 0 = Ok s.
Lemma answers_exist N L nfkcT nfkc_cfT c : 0 <= c <= 0x10FFFF -> rangeTables N L nfkcT nfkc_cfT c -> exists a, answersFor N L nfc nfkcT nfkc_cfT c = Ok a.
Proof.
  intros Hc ((v1 & V1 & K1) & (v2 & V2 & K2) & (v3 & V3 & K3) & (r1 & R1) & (r2 & R2) & (nm & NM)).
  destruct (C81_getters c Hc) as (G1 & G2 & G3 & G4 & G5 & G6 & _ & G8 & G9 & G10 & G11 & G12).
  apply has_says in G1 as [s1 G1]. apply has_says in G2 as [s2 G2]. apply has_says in G3 as [s3 G3]. apply has_says in G4 as [s4 G4]. apply has_says in G5 as [s5 G5]. apply has_says in G6 as [s6 G6].
  apply has_says in G8 as [s8 G8]. apply has_says in G9 as [s9 G9]. apply has_says in G10 as [s10 G10]. apply has_says in G11 as [s11 G11]. apply has_says in G12 as [s12 G12].
  destruct (upto_says "indicPositionalCategoryNames" Data_Names.indicPositionalCategoryNames 15 v1 ltac:(vm_compute; reflexivity) ltac:(vm_compute; reflexivity) K1 _ V1) as [p1 P1].
  destruct (upto_says "indicSyllabicCategoryNames" Data_Names.indicSyllabicCategoryNames 36 v2 ltac:(vm_compute; reflexivity) ltac:(vm_compute; reflexivity) K2 _ V2) as [p2 P2].
  destruct (upto_says "verticalOrientationNames" Data_Names.verticalOrientationNames 4 v3 ltac:(vm_compute; reflexivity) ltac:(vm_compute; reflexivity) K3 _ V3) as [p3 P3].
  destruct (C41_involution c Hc) as (m & M & _). destruct (C42_brackets c Hc) as (b & t & B & _).
  destruct C60_shipped as (_ & _ & _ & W). destruct (W c Hc) as (w & Wk & Wg). destruct (fields_ok icu_bidi c w Wk Wg) as (_ & _ & _ & F1 & F2 & F3).
  destruct (C39_full c Hc) as ((ll & _ & LL & _) & (lu & _ & LU & _) & (lt & _ & LT & _)).
  assert (D : exists d, getRawDecomposition nfc c = Ok d) by (destruct (C64_results c Hc) as [[D _]|(d & f & D & _)]; eauto). destruct D as [d D].
  exists (mkAnswers s2 s1 s10 s11 s12 s3 s4 s5 s6 s8 m b (b_join w) (b_control w) (b_mirrored w) s9 lu ll lt p1 p2 p3 d r1 r2 nm). apply answers_iff.
  cbn [a_sc a_gc a_cd a_jt a_jg a_bc a_aw a_lb a_sb a_gcb a_bmg a_bpb a_ijc a_ibc a_im a_dt a_uc a_lc a_tc a_inpc a_insc a_vo a_nfc a_nfkc a_nfkc_cf a_name].
  repeat match goal with |- _ /\ _ => split end; assumption.
Qed.
Lemma binary_result c col fields tests : 0 <= c <= 0x10FFFF -> 0 <= col <= 2 ->
  Forall (fun t => (exists k, constantOf (fst t) = Ok k /\ 0 <= k < 32) /\ exists b, dict_find fields (lit (snd t)) = Some b) tests ->
  doBinaryTests c col fields tests = Ok tt \/ doBinaryTests c col fields tests = Err AssertionError.
Proof.
  intros Hc Hcol F. induction F as [|[m t] r ((k & K & Hk) & (b & B)) F IH]; [left; reflexivity|]. cbn [doBinaryTests fst snd] in *. rewrite K. cbn [bind].
  destruct (char_values (fun _ _ => true) ltac:(vm_compute; reflexivity) c Hc) as (p & v & P & V & _). rewrite (binary_shipped c p v k col Hc P V Hk Hcol). cbn [bind]. rewrite B. unfold doTest. destruct (Bool.eqb _ b); [exact IH|right; reflexivity].
Qed.
(** with tables that have an answer for each code point of the file, the test passes or
    fails with an AssertionError, and nothing else happens *)
Theorem C106_results N L nfkcT nfkc_cfT groups : (forall char group, In (char, group) (entries groups) -> exists data, newCharacterData char group = Ok data /\ 0 <= codePoint data <= 0x10FFFF /\
    rangeTables N L nfkcT nfkc_cfT (codePoint data)) ->
  fst (test_exhaustive N L nfc nfkcT nfkc_cfT groups []) = Ok tt \/ fst (test_exhaustive N L nfc nfkcT nfkc_cfT groups []) = Err AssertionError.
Proof.
  intros H. destruct (all_new (entries groups)) as [ds F]; [intros [c g] I; destruct (H c g I) as (d & D & _); exists d; exact D|]. rewrite test_entries, (loadEntries_ok _ _ _ F). cbn [fst].
  assert (A : forall c a, In (c, a) (fold_left store ds []) -> testOne N L nfc nfkcT nfkc_cfT c a = Ok tt \/ testOne N L nfc nfkcT nfkc_cfT c a = Err AssertionError).
  { intros c a I. apply stored in I as (m1 & m3 & -> & <- & _). apply Forall2_app_inv_r in F as (l1 & l2 & _ & F2 & E). inversion F2 as [|[char group] ? l3 ? Q _]; subst. unfold newFor in Q. cbn [fst snd] in Q.
    destruct (H char group) as (d & D & Hc & T); [rewrite E; apply in_or_app; right; left; reflexivity|]. assert (d = a) by congruence. subst d. destruct (answers_exist N L nfkcT nfkc_cfT (codePoint a) Hc T) as [an AN].
    unfold testOne. rewrite AN. cbn [bind]. unfold doTest. destruct (forallb _ _); [cbn [bind]|right; reflexivity].
    destruct (record_fields _ _ _ D) as (_ & _ & _ & BN & (M1 & M2 & M3 & M4 & M5 & M6)).
    destruct (binary_result (codePoint a) 1 (snd (binary a)) binaryTestList Hc ltac:(lia)) as [->| ->]; [|cbn [bind]|right; reflexivity].
    - rewrite BN. pose proof (match1 (yes char group)) as M. assert (R : Forall (fun kt => 0 <= fst kt < 32) column1) by (unfold column1; repeat constructor; cbn; lia).
      clear - M R. induction M as [|t kt ts kts (C & E) M IH]; constructor; inversion R; subst; eauto.
    - apply binary_result; [exact Hc|lia|]. pose proof (match2 (yes char group) a M1 M2 M3 M4 M5 M6) as M. assert (R : Forall (fun kt => 0 <= fst kt < 32) column2) by (unfold column2; repeat constructor; cbn; lia).
      clear - M R. induction M as [|t kt ts kts (C & E) M IH]; constructor; inversion R; subst; eauto. }
  revert A. induction (fold_left store ds []) as [|[c a] d IH]; intros A; [left; reflexivity|]. cbn [testAll]. destruct (A c a (or_introl eq_refl)) as [->| ->]; [cbn [bind]|right; reflexivity].
  apply IH. intros c' a' I. apply A. right. exact I.
Qed.
Print Assumptions C106_results.

(** U+10FFFF: the library says it is not a noncharacter and is in no block, so a file that
    describes it rightly cannot pass *)
Theorem C106_last N L nfcT nfkcT nfkc_cfT groups before char group after data : fst (test_exhaustive N L nfcT nfkcT nfkc_cfT groups []) = Ok tt ->
  entries groups = before ++ (char, group) :: after -> newCharacterData char group = Ok data -> codePoint data = 0x10FFFF ->
  (forall char' group' data', In (char', group') after -> newCharacterData char' group' = Ok data' -> codePoint data' <> 0x10FFFF) ->
  attr char group "NChar" <> lit "Y" /\ spaced (attr char group "blk") = lit "NB" /\ attr char group "gc" = lit "Cn".
Proof.
  intros T E D C O. apply C106_passes in T as [_ T]. specialize (T before char group data after E D). rewrite C in T. specialize (T O).
  destruct T as ((_ & (k1 & G1 & G2) & _ & _ & _ & (k2 & B1 & B2) & _) & _ & _ & _ & _ & B & _). split; [|split].
  - intros Y. specialize (B 12 "NChar" ltac:(vm_compute; tauto)). unfold yes in B. rewrite Y, str_eqb_refl in B. vm_compute in B. discriminate.
  - assert (k2 = 0) by (vm_compute in B1; congruence). subst k2. assert (V : vd_find (UD "blockNames") (VInt 0) = Some (VStr (lit "NB"))) by (vm_compute; reflexivity). congruence.
  - assert (k1 = 0) by (vm_compute in G1; congruence). subst k1. assert (V : vd_find (UD "generalCategoryNames") (VInt 0) = Some (VStr (lit "Cn"))) by (vm_compute; reflexivity). congruence.
Qed.
Print Assumptions C106_last.

(** U+4E00 as in the file, with the attributes it shares with its group there.  The element for
    a range, and a file with a bad element after it. *)
Definition small_trie (v : Z) : cptrie := mkCPTrie (arr_of_list [0]) (arr_of_list [v; v; v; v]) 1 0 0x7FFF 0 0 0.
Definition small_layout : Normalizer2File.layout := Normalizer2File.mkLayout (small_trie 0) (small_trie 0) (small_trie 3).
Definition small_names : names := mkNames noTokens [] [mkAlg 0x4E00 0x9FFD 0 4 0 [] (lit "CJK UNIFIED IDEOGRAPH-") []].
Definition texts : list (string * string) -> element := map (fun p => (lit (fst p), lit (snd p))).
Definition han_group : element := texts [("gc", "Lo"); ("ccc", "0"); ("dt", "none"); ("dm", "#"); ("nt", "None"); ("nv", "NaN"); ("bc", "L"); ("bpt", "n"); ("bpb", "#"); ("Bidi_M", "N"); ("bmg", ""); ("suc", "#"); ("slc", "#"); ("stc", "#");
  ("uc", "#"); ("lc", "#"); ("tc", "#"); ("scf", "#"); ("cf", "#"); ("jt", "U"); ("jg", "No_Joining_Group"); ("ea", "W"); ("lb", "ID"); ("sc", "Hani"); ("scx", "Hani"); ("Dash", "N"); ("Ideo", "Y"); ("UIdeo", "Y"); ("Alpha", "Y"); ("IDS", "Y"); ("IDC", "Y");
  ("XIDS", "Y"); ("XIDC", "Y"); ("Gr_Base", "Y"); ("NFKC_CF", "#"); ("FC_NFKC", ""); ("SB", "LE"); ("WB", "XX"); ("GCB", "XX"); ("InSC", "Other"); ("InPC", "NA"); ("vo", "U"); ("blk", "CJK"); ("na", "CJK UNIFIED IDEOGRAPH-#")].
Definition han_file (numeric : string) : list (element * list element) :=
  [(han_group, [texts [("cp", "4E00"); ("nt", "Nu"); ("nv", numeric)]; texts [("first-cp", "4E01"); ("last-cp", "9FFC"); ("gc", "Cn")]])].
Definition bad_file : list (element * list element) := han_file "1" ++ [(han_group, [texts [("cp", "4E01")]; texts [("cp", "U+4E02")]])].
Example C106_case :
  fst (test_exhaustive small_names small_layout nfc nfc nfc (han_file "1") []) = Ok tt /\ fst (test_exhaustive small_names small_layout nfc nfc nfc (han_file "1000") []) = Ok tt /\
  fst (test_exhaustive small_names small_layout nfc nfc nfc [(han_group, [texts [("cp", "4E00"); ("lb", "AL")]])] []) = Err AssertionError /\
  (let first := test_exhaustive small_names small_layout nfc nfc nfc bad_file [] in fst first = Err ValueError /\ map fst (snd first) = [0x4E00; 0x4E01] /\ fst (test_exhaustive small_names small_layout nfc nfc nfc bad_file (snd first)) = Ok tt) /\
  rangeTables small_names small_layout nfc nfc 0x4E00.
Proof.
  split; [vm_compute; reflexivity|]. split; [vm_compute; reflexivity|]. split; [vm_compute; reflexivity|]. split; [cbv zeta; split; [vm_compute; reflexivity|split; vm_compute; reflexivity]|].
  split; [exists 0; split; [vm_compute; reflexivity|lia]|]. split; [exists 0; split; [vm_compute; reflexivity|lia]|]. split; [exists 3; split; [vm_compute; reflexivity|lia]|].
  split; [eexists; vm_compute; reflexivity|]. split; [eexists; vm_compute; reflexivity|]. eexists. vm_compute. reflexivity.
Qed.
