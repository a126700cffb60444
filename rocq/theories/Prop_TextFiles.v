(** * Building and installing files of bytes (C122): the encodings of the text files *)
From Coq Require Import ZArith List Bool Lia ZifyBool String.
From Verif Require Import Py Dict PyStr Utilities CharNames PyText ModuleBuilder HeaderFile BuilderArgs CsvReader Build BuildFacts BuildRun TextCodec TextCodecFacts TextFilesFacts Prop_Build.
Import ListNotations.
Open Scope string_scope.
Open Scope list_scope.
Open Scope Z_scope.
Local Notation length := List.length.
Local Notation concat := List.concat.

(** ** C122: UTF-8

    A list of bytes is decoded to a text exactly when it is the sequence of the standard forms
    ([form], TextCodecFacts.v) of its characters, which are scalar values; a text is encoded
    exactly when it has scalar values only, to these forms. *)
Theorem C122_utf8 :
  (forall bs s, Forall byte bs -> (dec UTF8 bs = Some s <-> Forall scalar s /\ bs = concat (map form s))) /\
  (forall s bs, Forall (fun c => 0 <= c <= 0x10FFFF) s -> (enc UTF8 s = Some bs <-> Forall scalar s /\ bs = concat (map form s))) /\
  (forall s bs, Forall (fun c => 0 <= c <= 0x10FFFF) s -> Forall byte bs -> (enc UTF8 s = Some bs <-> dec UTF8 bs = Some s)).
Proof.
  assert (D : forall bs s, Forall byte bs -> (dec UTF8 bs = Some s <-> Forall scalar s /\ bs = concat (map form s))).
  { intros bs s B. split; [apply (dec_form (length bs)); [lia|exact B]|]. intros [S ->]. apply forms_dec, S. }
  assert (E : forall s bs, Forall (fun c => 0 <= c <= 0x10FFFF) s -> (enc UTF8 s = Some bs <-> Forall scalar s /\ bs = concat (map form s))).
  { intros s bs R. split.
    - intros E. assert (S := encAll_scalar s bs R E). split; [exact S|]. cbn [enc UTF8] in E. rewrite encAll_forms in E by exact S. injection E as <-. reflexivity.
    - intros [S ->]. apply encAll_forms, S. }
  split; [exact D|]. split; [exact E|]. intros s bs R B. rewrite (E s bs R), (D bs s B). reflexivity.
Qed.
Print Assumptions C122_utf8.

Lemma single_back n s bs : enc (single n) s = Some bs -> dec (single n) bs = Some s /\ bs = s.
Proof.
  cbn [enc dec single]. revert bs. induction s as [|c s IH]; intros bs E; cbn [encAll] in E; [injection E as <-; split; reflexivity|]. destruct (c <? n) eqn:L; [|discriminate].
  destruct (encAll _ s) as [b|]; [|discriminate]. injection E as <-. destruct (IH b eq_refl) as [D ->]. cbn [app encAll]. rewrite L, D. split; reflexivity.
Qed.
Lemma single_below n s bs : enc (single n) s = Some bs -> Forall (fun c => c < n) s.
Proof.
  cbn [enc single]. revert bs. induction s as [|c s IH]; intros bs E; cbn [encAll] in E; [constructor|]. destruct (c <? n) eqn:L; [|discriminate].
  destruct (encAll _ s) as [b|]; [|discriminate]. constructor; [lia|exact (IH b eq_refl)].
Qed.
(** decoding inverts encoding, for the three codecs *)
Theorem C122_back : forall C, In C [UTF8; LATIN1; ASCII] -> forall s b, enc C s = Some b -> dec C b = Some s.
Proof. intros C [<-|[<-|[<-|[]]]] s b E; [apply utf8_back, E|apply (single_back 0x100), E|apply (single_back 0x80), E]. Qed.
Print Assumptions C122_back.

(** *** ASCII is ASCII: the ASCII characters of the text are the ASCII bytes of the file, in
    their order, whichever of the encodings is used; and ASCII is encoded as itself *)
Definition isAscii (c : Z) : bool := (0 <=? c) && (c <? 0x80).
Lemma form_ascii c : scalar c -> filter isAscii (form c) = filter isAscii [c].
Proof.
  intros S. unfold scalar in S. assert (M : forall y, 0 <= y mod 64 < 64) by (intros y; apply Z.mod_pos_bound; lia). pose proof (M c). pose proof (M (c / 64)). pose proof (M (c / 4096)). clear M.
  unfold form. destruct (Z.ltb_spec c 0x80); [reflexivity|]. assert (0 <= c / 64 /\ 0 <= c / 4096 /\ 0 <= c / 262144) by (repeat split; apply Z.div_pos; lia).
  assert (N : forall x, 0x80 <= x -> isAscii x = false) by (intros x; unfold isAscii; lia).
  destruct (Z.ltb_spec c 0x800); [|destruct (Z.ltb_spec c 0x10000)]; cbn [filter]; rewrite !N by lia; reflexivity.
Qed.
Theorem C122_ascii : forall C, In C [UTF8; LATIN1; ASCII] ->
  (forall bs s, Forall byte bs -> dec C bs = Some s -> filter isAscii s = filter isAscii bs) /\
  (forall s, forallb isAscii s = true -> enc C s = Some s /\ dec C s = Some s).
Proof.
  assert (S1 : forall n, 0x80 <= n -> (forall bs s, dec (single n) bs = Some s -> filter isAscii s = filter isAscii bs) /\ (forall s, forallb isAscii s = true -> enc (single n) s = Some s)).
  { intros n Hn. split.
    - intros bs s D. change (dec (single n) bs) with (enc (single n) bs) in D. apply single_back in D as [_ ->]. reflexivity.
    - intros s A. cbn [enc single]. induction s as [|c s IH]; [reflexivity|]. cbn [forallb] in A. apply andb_true_iff in A as [A B]. unfold isAscii in A. cbn [encAll]. replace (c <? n) with true by lia. rewrite IH by exact B. reflexivity. }
  assert (S2 : forall n, 0x80 <= n -> (forall bs s, Forall byte bs -> dec (single n) bs = Some s -> filter isAscii s = filter isAscii bs) /\ (forall s, forallb isAscii s = true -> enc (single n) s = Some s /\ dec (single n) s = Some s)).
  { intros n Hn. destruct (S1 n Hn) as [A B]. split; [intros bs s _; apply A|]. intros s H. split; [exact (B s H)|exact (B s H)]. }
  intros C [<-|[<-|[<-|[]]]]; [|apply (S2 0x100); lia|apply (S2 0x80); lia]. split.
  - intros bs s B D. apply (dec_form (length bs)) in D as [S ->]; [|lia|exact B]. clear B. induction S as [|c s S _ IH]; [reflexivity|].
    cbn [map concat]. rewrite filter_app, form_ascii by exact S. change (c :: s) with ([c] ++ s). rewrite filter_app, IH. reflexivity.
  - intros s A. assert (S : Forall scalar s) by (apply Forall_forall; intros c I; rewrite forallb_forall in A; specialize (A c I); unfold isAscii in A; unfold scalar; lia).
    assert (E : concat (map form s) = s).
    { clear S. induction s as [|c s IH]; [reflexivity|]. cbn [forallb] in A. apply andb_true_iff in A as [A B]. cbn [map concat]. rewrite IH by exact B. unfold isAscii in A. unfold form. replace (c <? 0x80) with true by lia. reflexivity. }
    cbn [enc dec UTF8]. rewrite encAll_forms by exact S. pose proof (forms_dec s S) as D. rewrite E in *. split; [reflexivity|exact D].
Qed.
Print Assumptions C122_ascii.

(** *** The module that is imported

    Python reads a module as UTF-8.  A module that the builder wrote in UTF-8 is read as the text
    it was made of; one written as ISO 8859-1 is, exactly when it is ASCII. *)
Theorem C122_import : forall s bs, Forall (fun c => 0 <= c <= 0x10FFFF) s ->
  (enc UTF8 s = Some bs -> dec UTF8 bs = Some s) /\
  (enc LATIN1 s = Some bs -> (dec UTF8 bs = Some s <-> forallb isAscii s = true)).
Proof.
  intros s bs R. split.
  - intros E. destruct C122_utf8 as (D & F & _). apply (F s bs R) in E as [S ->]. apply forms_dec, S.
  - intros E. apply single_back in E as L. destruct L as [_ ->]. apply single_below in E.
    assert (B : Forall byte s) by (rewrite Forall_forall in *; intros c I; specialize (R c I); specialize (E c I); unfold byte; lia). split.
    + intros D. apply (dec_form (length s)) in D as [S F]; [|lia|exact B].
      assert (L : forall t, Forall scalar t -> (length t <= length (concat (map form t)))%nat /\ (length (concat (map form t)) = length t -> forallb isAscii t = true)).
      { clear. intros t S. induction S as [|c t S _ [I1 I2]]; [split; [apply le_n|reflexivity]|]. cbn [map concat List.length forallb]. rewrite app_length.
        assert (F : (length (form c) = 1%nat /\ isAscii c = true) \/ (2 <= length (form c))%nat).
        { unfold scalar in S. unfold form, isAscii. destruct (Z.ltb_spec c 0x80); [left; split; [reflexivity|lia]|right]. destruct (c <? 0x800); [cbn; lia|]. destruct (c <? 0x10000); cbn; lia. }
        destruct F as [[F A]|F]; [|split; lia]. rewrite F. split; [lia|]. intros Q. rewrite A. apply I2. lia. }
      apply (L s S). rewrite <- F. reflexivity.
    + intros A. apply (C122_ascii UTF8); [left; reflexivity|exact A].
Qed.
Print Assumptions C122_import.

(** ** The build

    The text files of ICU that are decoded, and the outputs that are encoded; icudata.dat and
    LICENSE are copied as bytes. *)
Definition sources : list str :=
  [lit "common/ubidi_props_data.h"; lit "common/uchar_props_data.h"; lit "common/ucase_props_data.h"; lit "common/uprops.h"; lit "common/ucase.h";
   lit "common/unicode/uchar.h"; lit "common/unicode/uscript.h"; lit "common/unicode/uvernum.h"; lit "data/unidata/ppucd.txt"].
Definition written : list str :=
  [lit "BidiPropsData.py"; lit "CharPropsData.py"; lit "CasePropsData.py"; lit "uprops_h.py"; lit "ucase_h.py"; lit "uchar_h.py"; lit "uscript_h.py"; lit "UCDTypeDictionaries.py"; lit "UnicodeVersion.py"].
Definition sourcePath (cwd : path) (a : args) (s : str) : path := resolve cwd (joinPath (parsePath (icuSourceDir a)) s).
(** the files as texts; what is no text stays as it is *)
Definition inText (C : codec) (f : fs) : fs := mkFs (map (fun '(p, b) => (p, match dec C b with Some s => s | None => b end)) (files f)) (dirs f).
Section Sim.
  Variable C : codec.
  Hypothesis RT : forall s b, enc C s = Some b -> dec C b = Some s.
  Variable cwd : path.
  Variable now : str -> str.
  Variable pyeval : str -> dict Z -> res Z.
  Variable a : args.
  Let icu := parsePath (icuSourceDir a).
  Let outDir := parsePath (outputDir a).
  Let out := outDirOf cwd a.
  Definition read (p : path) : Prop := exists s, In s sources /\ p = sourcePath cwd a s.
  Definition made (ns : list str) (p : path) : Prop := exists n, In n ns /\ p = out ++ [n].
  Definition touched (ns : list str) (p : path) : Prop := p = out \/ made ns p \/ exists x, p = out ++ [lit "icudata.dat"; x].
  Definition good {A} (wr outs : list str) (cB : MB A) (c : M A) : Prop := sim C read (made wr) (touched outs) cB c /\ tame (touched outs) c.
  Lemma touched_more ns ms p : incl ns ms -> touched ns p -> touched ms p.
  Proof. intros I [H|[(n & H & E)|H]]; [left; exact H|right; left; exists n; split; [apply I, H|exact E]|right; right; exact H]. Qed.
  Lemma good_bind {A B} wr1 wr2 outs1 outs2 wr outs (cB : MB A) c (kB : A -> MB B) k :
    good wr1 outs1 cB c -> (forall x, good wr2 outs2 (kB x) (k x)) ->
    wr = wr1 ++ wr2 -> outs = outs1 ++ outs2 -> (forall n, In n wr1 -> existsb (str_eqb n) outs2 = false) ->
    good wr outs (andThenB cB kB) (andThen c k).
  Proof.
    intros [S T] K -> -> D.
    assert (L : forall p, touched outs1 p -> touched (outs1 ++ outs2) p) by (intros p; apply touched_more, incl_appl, incl_refl).
    assert (R : forall p, touched outs2 p -> touched (outs1 ++ outs2) p) by (intros p; apply touched_more, incl_appr, incl_refl). split.
    - apply (sim_bind C read (made wr1) (made wr2) (touched outs1) (touched outs2)); [exact S|intros x; apply K|intros x; apply K| | |].
      + intros p (n & I & ->). split; [exists n; split; [apply in_or_app; left; exact I|reflexivity]|]. intros [H|[(m & J & H)|(x & H)]].
        * rewrite <- (app_nil_r out) in H at 2. apply app_inv_head in H. discriminate.
        * apply app_inv_head in H. injection H as <-. specialize (D n I). assert (Q : existsb (str_eqb n) outs2 = true); [|congruence]. apply existsb_exists. exists n. split; [exact J|apply str_eqb_eq; reflexivity].
        * apply app_inv_head in H. discriminate.
      + intros p (n & I & E). exists n. split; [apply in_or_app; right; exact I|exact E].
      + intros p [H|H]; [apply L, H|apply R, H].
    - apply tame_bind; [intros f p N; apply T; intros H; apply N, L, H|]. intros x f p N. apply (proj2 (K x)). intros H. apply N, R, H.
  Qed.
  Lemma sim_none {A} outs (cB : MB A) c : sim C read none outs cB c -> sim C read (made []) outs cB c.
  Proof. intros S f. destruct (S f) as [F E]. split; [exact F|]. destruct (cB f) as [[x|[e| |]] g]; try exact E. destruct E as (p & s & [] & _). Qed.
  Lemma good_ret {A} (x : A) : good [] [] (retB x) (ret x).
  Proof. split; [apply sim_ret|apply tame_ret]. Qed.
  Lemma good_lift {A} (x : res A) : good [] [] (raw (lift x)) (lift x).
  Proof. split; [apply sim_lift|apply tame_lift]. Qed.
  Lemma good_makedirs p : good [] [] (raw (makedirs cwd p)) (makedirs cwd p).
  Proof. split; [apply sim_makedirs|apply tame_mkdirs]. Qed.
  Lemma good_read s : In s sources -> good [] [] (readDec cwd C (joinPath icu s)) (readRaw cwd (joinPath icu s)).
  Proof. intros I. split; [apply read_sim; exists s; split; [exact I|reflexivity]|apply tame_raw]. Qed.
  Lemma good_text s : In s sources -> good [] [] (readTextB cwd C (joinPath icu s)) (readText cwd (joinPath icu s)).
  Proof. intros I. split; [apply readText_sim; exists s; split; [exact I|reflexivity]|apply tame_text]. Qed.
  Lemma outName n : plain n -> parsePath n = [n] -> resolve cwd (joinPath outDir n) = out ++ [n].
  Proof. intros P E. unfold joinPath. rewrite E. apply resolve_app. constructor; [exact P|constructor]. Qed.
  Lemma good_write n t : plain n -> parsePath n = [n] -> good [n] [n] (writeB cwd C (joinPath outDir n) t) (write cwd (joinPath outDir n) t).
  Proof.
    intros P E. assert (M : made [n] (resolve cwd (joinPath outDir n))) by (exists n; split; [left; reflexivity|apply outName; assumption]).
    split; [apply write_sim; [exact RT|exact M|right; left; exact M]|apply tame_writeAt; right; left; exact M].
  Qed.
  Lemma good_module src n ps : In src sources -> plain n -> parsePath n = [n] -> good [n] [n] (buildModuleB cwd C now icu src outDir n ps) (buildModule cwd now icu src outDir n ps).
  Proof.
    intros I P E. unfold buildModuleB, buildModule. eapply good_bind; [apply good_makedirs|intros _|reflexivity|reflexivity|intros m []]. eapply good_bind; [apply good_text, I|intros s|reflexivity|reflexivity|intros m []].
    eapply good_bind; [apply good_lift|intros l|reflexivity|reflexivity|intros m []]. apply good_write; assumption.
  Qed.
  Lemma good_header src n ex ig : In src sources -> headerName (pathName (joinPath icu src)) ++ lit ".py" = n -> plain n -> parsePath n = [n] ->
    good [n] [n] (buildHeaderB cwd C now pyeval icu src outDir ex ig) (buildHeader cwd now pyeval icu src outDir ex ig).
  Proof.
    intros I Q P E. unfold buildHeaderB, buildHeader. eapply good_bind; [apply good_makedirs|intros _|reflexivity|reflexivity|intros m []]. eapply good_bind; [apply good_text, I|intros s|reflexivity|reflexivity|intros m []].
    eapply good_bind; [apply good_lift|intros l|reflexivity|reflexivity|intros m []]. rewrite Q. apply good_write; assumption.
  Qed.
  Lemma good_ucd : good [lit "UCDTypeDictionaries.py"] [lit "UCDTypeDictionaries.py"] (buildUCDB cwd C now icu outDir) (buildUCD cwd now icu outDir).
  Proof.
    unfold buildUCDB, buildUCD. eapply good_bind; [apply good_read; vm_compute; tauto|intros s|reflexivity|reflexivity|intros m []].
    do 3 (eapply good_bind; [apply good_lift|try intros [? ?]; try intros ?|reflexivity|reflexivity|intros m []]).
    eapply (good_bind [lit "UCDTypeDictionaries.py"] [] [lit "UCDTypeDictionaries.py"] []); [apply good_write; [split; discriminate|reflexivity]|intros _; apply good_ret|reflexivity|reflexivity|reflexivity].
  Qed.
  Lemma header_name s q n : parsePath s = q ++ [n] -> pathName (joinPath icu s) = n.
  Proof. intros E. unfold pathName, joinPath. rewrite E, app_assoc. apply last_snoc. Qed.
  Ltac one := intros m I; cbn [In] in I; repeat (destruct I as [<-|I]; [vm_compute; reflexivity|]); destruct I.
  Lemma good_build : good written outputs (buildB cwd C now pyeval a) (build cwd now pyeval a).
  Proof.
    unfold buildB, build. fold icu. fold outDir.
    do 3 (eapply good_bind; [apply good_module; [vm_compute; tauto|split; discriminate|reflexivity]|intros _|reflexivity|reflexivity|one]).
    eapply good_bind; [apply (good_header _ (lit "uprops_h.py")); [vm_compute; tauto|rewrite (header_name _ [lit "common"] (lit "uprops.h")) by reflexivity; vm_compute; reflexivity|split; discriminate|reflexivity]|intros _|reflexivity|reflexivity|one].
    eapply good_bind; [apply (good_header _ (lit "ucase_h.py")); [vm_compute; tauto|rewrite (header_name _ [lit "common"] (lit "ucase.h")) by reflexivity; vm_compute; reflexivity|split; discriminate|reflexivity]|intros _|reflexivity|reflexivity|one].
    eapply good_bind; [apply (good_header _ (lit "uchar_h.py")); [vm_compute; tauto|rewrite (header_name _ [lit "common"; lit "unicode"] (lit "uchar.h")) by reflexivity; vm_compute; reflexivity|split; discriminate|reflexivity]|intros _|reflexivity|reflexivity|one].
    eapply good_bind; [apply (good_header _ (lit "uscript_h.py")); [vm_compute; tauto|rewrite (header_name _ [lit "common"; lit "unicode"] (lit "uscript.h")) by reflexivity; vm_compute; reflexivity|split; discriminate|reflexivity]|intros _|reflexivity|reflexivity|one].
    eapply good_bind; [apply good_text; vm_compute; tauto|intros uv|reflexivity|reflexivity|one]. do 2 (eapply good_bind; [apply good_lift|intros ?|reflexivity|reflexivity|one]).
    eapply (good_bind [] [lit "UCDTypeDictionaries.py"; lit "UnicodeVersion.py"] [lit "icudata.dat"] [lit "LICENSE"; lit "UCDTypeDictionaries.py"; lit "UnicodeVersion.py"]); [|intros _|reflexivity|reflexivity|one].
    { assert (R : resolve cwd (joinPath outDir (lit "icudata.dat")) = out ++ [lit "icudata.dat"]) by (apply outName; [split; discriminate|reflexivity]).
      assert (T1 : touched [lit "icudata.dat"] (resolve cwd (joinPath outDir (lit "icudata.dat")))) by (rewrite R; right; left; eexists; split; [left; reflexivity|reflexivity]).
      assert (T2 : forall x, touched [lit "icudata.dat"] (resolve cwd (joinPath outDir (lit "icudata.dat")) ++ [x])) by (intros y; rewrite R; right; right; exists y; rewrite <- app_assoc; reflexivity).
      split; [apply sim_none, sim_copy; [exact T1|apply T2]|apply tame_copy; [exact T1|apply T2]]. }
    eapply (good_bind [] [lit "UCDTypeDictionaries.py"; lit "UnicodeVersion.py"] [lit "LICENSE"] [lit "UCDTypeDictionaries.py"; lit "UnicodeVersion.py"]); [|intros _|reflexivity|reflexivity|one].
    { assert (T1 : touched [lit "LICENSE"] (resolve cwd outDir)) by (left; reflexivity).
      assert (T2 : touched [lit "LICENSE"] (resolve cwd outDir ++ [pathName (joinPath (parent icu) (lit "LICENSE"))])).
      { right. left. exists (lit "LICENSE"). split; [left; reflexivity|]. unfold out, outDirOf. fold outDir. f_equal. f_equal. apply (last_snoc _ (lit "LICENSE") []). }
      split; [apply sim_none, sim_copy; assumption|apply tame_copy; assumption]. }
    eapply (good_bind [lit "UCDTypeDictionaries.py"] [lit "UnicodeVersion.py"] [lit "UCDTypeDictionaries.py"] [lit "UnicodeVersion.py"]); [apply good_ucd|intros v|reflexivity|reflexivity|one].
    eapply (good_bind [lit "UnicodeVersion.py"] [] [lit "UnicodeVersion.py"] []); [apply good_write; [split; discriminate|reflexivity]|intros _; apply good_ret|reflexivity|reflexivity|one].
  Qed.
End Sim.
(** Whatever encoding the locale has, provided that decoding inverts encoding: a build of files
    of bytes ends as the build of their texts (C95), with the files that these texts are encoded
    to, unless a source is no text in this encoding or the text of an output cannot be encoded. *)
Theorem C122_build : forall C cwd now pyeval a f r g,
  (forall s b, enc C s = Some b -> dec C b = Some s) ->
  buildB cwd C now pyeval a f = (r, g) ->
  match r with
  | inl v => build cwd now pyeval a (inText C f) = (Ok v, inText C g)
  | inr (Raised e) => build cwd now pyeval a (inText C f) = (Err e, inText C g)
  | inr UnicodeDecodeError => exists s b, In s sources /\ lookup g (sourcePath cwd a s) = Some b /\ dec C b = None
  | inr UnicodeEncodeError => exists n t, In n written /\ enc C t = None /\ lookup g (outDirOf cwd a ++ [n]) = Some [] /\ lookup (snd (build cwd now pyeval a (inText C f))) (outDirOf cwd a ++ [n]) = Some t
  end /\
  (** no other file is changed *)
  forall p, (forall n, In n outputs -> p <> outDirOf cwd a ++ [n]) -> (forall x, p <> outDirOf cwd a ++ [lit "icudata.dat"; x]) -> p <> outDirOf cwd a -> lookup g p = lookup f p.
Proof.
  intros C cwd now pyeval a f r g RT B. destruct (good_build C RT cwd now pyeval a) as [S _]. destruct (S f) as [F E]. rewrite B in F, E. cbn [snd] in F. split.
  - change (inText C) with (look (asText C)). destruct r as [v|[e| |]]; [exact E|exact E| |].
    + destruct E as (p & b & (s & I & ->) & L & D). exists s, b. auto.
    + destruct E as (p & t & (n & I & ->) & N & L & R). exists n, t. auto.
  - intros p N1 N2 N3. apply F. intros [H|[(n & I & H)|(x & H)]]; [exact (N3 H)|exact (N1 n I H)|exact (N2 x H)].
Qed.
Print Assumptions C122_build.

(** so a build whose sources are texts, and the texts of whose outputs can be encoded, is the build of the texts *)
Theorem C122_build_texts : forall C cwd now pyeval a f,
  (forall s b, enc C s = Some b -> dec C b = Some s) ->
  (** the sources are texts and no outputs *)
  (forall s, In s sources -> (forall n, In n outputs -> sourcePath cwd a s <> outDirOf cwd a ++ [n]) /\ (forall x, sourcePath cwd a s <> outDirOf cwd a ++ [lit "icudata.dat"; x]) /\ sourcePath cwd a s <> outDirOf cwd a /\
    forall b, lookup f (sourcePath cwd a s) = Some b -> dec C b <> None) ->
  (forall n t, In n written -> lookup (snd (build cwd now pyeval a (inText C f))) (outDirOf cwd a ++ [n]) = Some t -> enc C t <> None) ->
  exists g, build cwd now pyeval a (inText C f) = (match fst (buildB cwd C now pyeval a f) with inl v => Ok v | inr (Raised e) => Err e | _ => Err ValueError end, inText C g) /\ snd (buildB cwd C now pyeval a f) = g /\
    match fst (buildB cwd C now pyeval a f) with inl _ | inr (Raised _) => True | _ => False end.
Proof.
  intros C cwd now pyeval a f RT S W. destruct (buildB cwd C now pyeval a f) as [r g] eqn:B. destruct (C122_build C cwd now pyeval a f r g RT B) as [E F]. exists g. cbn [fst snd].
  destruct r as [v|[e| |]]; [auto|auto| |].
  - destruct E as (s & b & I & L & D). destruct (S s I) as (N1 & N2 & N3 & T). rewrite F in L by assumption. destruct (T b L D).
  - destruct E as (n & t & I & N & _ & L). destruct (W n t I L N).
Qed.
Print Assumptions C122_build_texts.

(** *** Installing

    The installer (C96) copies bytes: what it installs has the bytes of the source, so the same
    text, in whatever encoding it is read. *)
Theorem C122_install : forall C cwd arg f r g, install cwd arg f = (r, g) -> install cwd arg (inText C f) = (r, inText C g).
Proof. intros C cwd arg f r g E. change (inText C) with (look (asText C)). rewrite look_install, E. reflexivity. Qed.
Print Assumptions C122_install.

(** *** A source with a copyright sign in a comment, encoded in UTF-8 *)
Definition signed : fs := mkFs (map (fun '(p, c) => if path_eqb p (pth "icu/source/common/uprops.h") then (p, lit "// " ++ [0xC2; 0xA9] ++ line " 2016" ++ c) else (p, c)) (files tree1)) (dirs tree1).
Example C122_case :
  (** UTF-8 and ISO 8859-1 read different texts and make the same files *)
  dec UTF8 [0xC2; 0xA9] = Some [0xA9] /\ dec LATIN1 [0xC2; 0xA9] = Some [0xC2; 0xA9] /\
  fst (buildB work UTF8 someDay evalName args1 signed) = inl (lit "69.1", lit "69") /\ buildB work LATIN1 someDay evalName args1 signed = buildB work UTF8 someDay evalName args1 signed /\
  forallb (fun n => match lookup (snd (buildB work UTF8 someDay evalName args1 signed)) (outDirOf work args1 ++ [n]), lookup tree2 (outDirOf work args1 ++ [n]) with Some b, Some c => str_eqb b c | _, _ => false end) outputs = true /\
  (** ASCII reads no text *)
  fst (buildB work ASCII someDay evalName args1 signed) = inr UnicodeDecodeError /\
  (** a date that cannot be written *)
  (let r := buildB work LATIN1 (fun _ => [0x41C; 0x430; 0x439]) evalName args1 signed in fst r = inr UnicodeEncodeError /\ lookup (snd r) (outDirOf work args1 ++ [lit "BidiPropsData.py"]) = Some []) /\
  (** what is no UTF-8: cut short, overlong, a surrogate, too large *)
  map (dec UTF8) [[0xE2; 0x82]; [0xC0; 0x80]; [0xED; 0xA0; 0x80]; [0xF4; 0x90; 0x80; 0x80]] = [None; None; None; None] /\
  dec UTF8 [0xE2; 0x82; 0xAC; 0xF0; 0x9F; 0x98; 0x80] = Some [0x20AC; 0x1F600] /\ enc UTF8 [0x20AC; 0x1F600] = Some [0xE2; 0x82; 0xAC; 0xF0; 0x9F; 0x98; 0x80] /\ enc UTF8 [0xD800] = None.
Proof. vm_compute. repeat split. Qed.
(** the sources of this tree are texts in UTF-8 and no outputs *)
Example C122_build_case :
  forallb (fun s => forallb (fun n => negb (path_eqb (sourcePath work args1 s) (outDirOf work args1 ++ [n]))) outputs && negb (prefix (outDirOf work args1) (sourcePath work args1 s)) &&
    match lookup signed (sourcePath work args1 s) with Some b => match dec UTF8 b with Some _ => true | None => false end | None => false end) sources = true /\
  forallb (fun n => match lookup (snd (build work someDay evalName args1 (inText UTF8 signed))) (outDirOf work args1 ++ [n]) with Some t => match enc UTF8 t with Some _ => true | None => false end | None => false end) written = true.
Proof. vm_compute. repeat split. Qed.
