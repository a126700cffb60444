(** * C123: the encoding of the locale and what the builder writes *)
From Coq Require Import ZArith List Bool Lia ZifyBool String.
From Verif Require Import Py Dict PyStr Utilities CharNames PyText ModuleBuilder HeaderFile BuilderArgs CsvReader Build BuildFacts BuildRun TextCodec TextCodecFacts TextFilesFacts TextMade Prop_Build Prop_TextFiles.
Import ListNotations.
Open Scope string_scope.
Open Scope list_scope.
Open Scope Z_scope.
Local Notation length := List.length.
Local Notation concat := List.concat.

(** ** Two builds side by side

    [I]: what holds of the files throughout; [P]: a class of characters with all of ASCII, of
    which all texts are made; [F]: how a command may fail. *)
Section Pair.
  Variables C D : codec.
  Variable I : fs -> Prop.
  Variable P : Z -> Prop.
  Variable F : fault -> Prop.
  Hypothesis HA : forall c, 0 <= c < 0x80 -> P c.
  Hypothesis FR : forall e, F (Raised e).
  Local Notation ofP := (Forall P).
  Definition pair {A} (Q : A -> Prop) (c d : MB A) : Prop := forall f, I f -> c f = d f /\ I (snd (c f)) /\ match fst (c f) with inl x => Q x | inr e => F e end.
  Lemma pair_then {A B} Q R (c d : MB A) (k l : A -> MB B) : pair Q c d -> (forall x, Q x -> pair R (k x) (l x)) -> pair R (andThenB c k) (andThenB d l).
  Proof.
    intros H K f If. destruct (H f If) as (E & Ig & X). unfold andThenB. rewrite <- E. destruct (c f) as [[x|e] g]; cbn [fst snd] in *; [exact (K x X g Ig)|].
    split; [reflexivity|split; assumption].
  Qed.
  Lemma pair_ret {A} (Q : A -> Prop) x : Q x -> pair Q (retB x) (retB x).
  Proof. intros H f If. split; [reflexivity|split; assumption]. Qed.
  Lemma pair_lift {A} (Q : A -> Prop) x : (forall y, x = Ok y -> Q y) -> pair Q (raw (lift x)) (raw (lift x)).
  Proof using FR. intros H f If. split; [reflexivity|]. unfold raw, lift. split; [exact If|]. destruct x as [y|e]; cbn [outcome fst]; [exact (H y eq_refl)|apply FR]. Qed.
  Lemma pair_raw {A} (c : M A) : (forall f, I f -> I (snd (c f))) -> pair (fun _ => True) (raw c) (raw c).
  Proof using FR. intros H f If. split; [reflexivity|]. specialize (H f If). unfold raw. destruct (c f) as [[x|e] g]; cbn [fst snd outcome] in *; (split; [exact H|]); [constructor|apply FR]. Qed.

  Variable cwd : path.
  Variable now : str -> str.
  Variable pyeval : str -> dict Z -> res Z.
  Variable a : args.
  Hypothesis HN : forall n, ofP (now n).
  Let icu := parsePath (icuSourceDir a).
  Let outDir := parsePath (outputDir a).
  Hypothesis HR : forall s, In s sources -> pair ofP (readDec cwd C (joinPath icu s)) (readDec cwd D (joinPath icu s)).
  Hypothesis HW : forall p s, ofP s -> pair (fun _ => True) (writeB cwd C p s) (writeB cwd D p s).
  Hypothesis HM : forall p f, I f -> I (snd (makedirs cwd p f)).
  Hypothesis HC1 : forall src f, I f -> I (snd (copy cwd src (joinPath outDir (lit "icudata.dat")) f)).
  Hypothesis HC2 : forall p f, I f -> I (snd (copy cwd (joinPath p (lit "LICENSE")) outDir f)).

  Lemma pair_text s : In s sources -> pair ofP (readTextB cwd C (joinPath icu s)) (readTextB cwd D (joinPath icu s)).
  Proof using HA HR. intros M. apply (pair_then ofP); [apply HR, M|]. intros t T. apply pair_ret, of_universal; assumption. Qed.
  Lemma name_last s q n : parsePath s = q ++ [n] -> pathName (joinPath icu s) = n.
  Proof. intros E. unfold pathName, joinPath. rewrite E, app_assoc. apply last_last. Qed.
  Lemma pair_module s n ps q m : In s sources -> forallb asciiPart ps = true -> parsePath s = q ++ [m] -> ofP m -> ofP n ->
    pair (fun _ => True) (buildModuleB cwd C now icu s outDir n ps) (buildModuleB cwd D now icu s outDir n ps).
  Proof using HA FR HN HR HW HM.
    intros S A E OM ON. unfold buildModuleB. rewrite (name_last s q m E). apply (pair_then (fun _ => True)); [apply pair_raw, HM|]. intros _ _. apply (pair_then ofP); [apply pair_text, S|].
    intros t T. apply (pair_then (Forall ofP)); [apply pair_lift; intros l; apply of_partsLines; assumption|]. intros l L. apply HW, of_join; [apply of_lit; [exact HA|reflexivity]|].
    apply Forall_app. split; [|exact L]. apply of_heading; try assumption. apply of_lit; [exact HA|reflexivity].
  Qed.
  Lemma pair_header s ex ig q m : In s sources -> parsePath s = q ++ [m] -> ofP m -> Forall ofP ex ->
    pair (fun _ => True) (buildHeaderB cwd C now pyeval icu s outDir ex ig) (buildHeaderB cwd D now pyeval icu s outDir ex ig).
  Proof using HA FR HN HR HW HM.
    intros S E OM OX. unfold buildHeaderB. rewrite (name_last s q m E). apply (pair_then (fun _ => True)); [apply pair_raw, HM|]. intros _ _. apply (pair_then ofP); [apply pair_text, S|].
    intros t T. cbv zeta. apply (pair_then (Forall ofP)); [apply pair_lift; intros l; apply of_translate; [exact HA|apply of_textLines, T]|]. intros l L.
    apply HW, of_join; [apply of_lit; [exact HA|reflexivity]|]. apply Forall_app. split; [|apply Forall_app; split; assumption].
    apply of_heading; try assumption; [apply of_lit; [exact HA|reflexivity]|]. apply of_app; [|apply of_lit; [exact HA|reflexivity]].
    unfold headerName. apply of_lower; [exact HA|]. apply of_replace; [exact OM|apply of_lit; [exact HA|reflexivity]].
  Qed.
  Definition ofVersion (v : option str) : Prop := match v with Some s => ofP s | None => True end.
  Lemma pair_ucd : pair ofVersion (buildUCDB cwd C now icu outDir) (buildUCDB cwd D now icu outDir).
  Proof using HA FR HN HR HW.
    unfold buildUCDB. cbv zeta. rewrite (name_last (lit "data/unidata/ppucd.txt") [lit "data"; lit "unidata"] (lit "ppucd.txt") eq_refl).
    assert (ON : pathName (joinPath outDir (lit "UCDTypeDictionaries.py")) = lit "UCDTypeDictionaries.py").
    { unfold pathName, joinPath. change (parsePath (lit "UCDTypeDictionaries.py")) with ([] ++ [lit "UCDTypeDictionaries.py"]). rewrite app_assoc. apply last_last. }
    rewrite ON. apply (pair_then ofP); [apply HR; vm_compute; tauto|]. intros t T.
    apply (pair_then (Forall (Forall ofP))); [apply pair_lift; intros rows; apply of_csvRows; assumption|]. intros rows R.
    apply (pair_then (ofState P)); [apply pair_lift; intros st; apply of_generate; assumption|]. intros [v l] [V L]. cbn [fst snd] in V, L.
    apply (pair_then ofP).
    - apply pair_lift. intros s. apply of_writeFile; [exact HA| |exact L]. apply Forall_app. split.
      + apply of_heading; try assumption; (apply of_lit; [exact HA|reflexivity]).
      + constructor; [apply of_lit; [exact HA|reflexivity]|]. constructor; [apply of_lit; [exact HA|reflexivity]|constructor].
    - intros s S. apply (pair_then (fun _ => True)); [apply HW, S|]. intros _ _. apply pair_ret. exact V.
  Qed.
  Lemma pair_build : pair (fun _ => True) (buildB cwd C now pyeval a) (buildB cwd D now pyeval a).
  Proof using HA FR HN HR HW HM HC1 HC2.
    assert (L : forall s, forallb (fun c => (0 <=? c) && (c <? 0x80)) s = true -> ofP s) by (intros s; apply of_lit, HA).
    unfold buildB. cbv zeta. fold icu outDir.
    apply (pair_then (fun _ => True)); [eapply (pair_module _ _ _ [lit "common"] (lit "ubidi_props_data.h")); [vm_compute; tauto|reflexivity|reflexivity|apply L; reflexivity|apply L; reflexivity]|]. intros _ _.
    apply (pair_then (fun _ => True)); [eapply (pair_module _ _ _ [lit "common"] (lit "uchar_props_data.h")); [vm_compute; tauto|reflexivity|reflexivity|apply L; reflexivity|apply L; reflexivity]|]. intros _ _.
    apply (pair_then (fun _ => True)); [eapply (pair_module _ _ _ [lit "common"] (lit "ucase_props_data.h")); [vm_compute; tauto|reflexivity|reflexivity|apply L; reflexivity|apply L; reflexivity]|]. intros _ _.
    apply (pair_then (fun _ => True)); [apply (pair_header _ _ _ [lit "common"] (lit "uprops.h")); [vm_compute; tauto|reflexivity|apply L; reflexivity|constructor]|]. intros _ _.
    apply (pair_then (fun _ => True)); [apply (pair_header _ _ _ [lit "common"] (lit "ucase.h")); [vm_compute; tauto|reflexivity|apply L; reflexivity|constructor]|]. intros _ _.
    apply (pair_then (fun _ => True)); [apply (pair_header _ _ _ [lit "common"; lit "unicode"] (lit "uchar.h")); [vm_compute; tauto|reflexivity|apply L; reflexivity|constructor; [apply L; reflexivity|constructor]]|]. intros _ _.
    apply (pair_then (fun _ => True)); [apply (pair_header _ _ _ [lit "common"; lit "unicode"] (lit "uscript.h")); [vm_compute; tauto|reflexivity|apply L; reflexivity|constructor]|]. intros _ _.
    apply (pair_then ofP); [apply pair_text; vm_compute; tauto|]. intros uv _.
    apply (pair_then (fun _ => True)); [apply pair_lift; intros; constructor|]. intros v _.
    apply (pair_then (fun _ => True)); [apply pair_lift; intros; constructor|]. intros w _.
    apply (pair_then (fun _ => True)); [apply pair_raw, HC1|]. intros _ _.
    apply (pair_then (fun _ => True)); [apply pair_raw, HC2|]. intros _ _.
    apply (pair_then ofVersion); [apply pair_ucd|]. intros u U.
    apply (pair_then (fun _ => True)); [apply HW|intros _ _; apply pair_ret; constructor].
    unfold versionText. apply of_app; [apply L; reflexivity|]. apply of_app; [|apply L; reflexivity]. destruct u; [exact U|apply L; reflexivity].
  Qed.
End Pair.

(** ** What is written can be encoded *)
Definition textFiles (f : fs) : Prop := forall p b, lookup f p = Some b -> Forall byte b.
Lemma lookup_set l q c p : findFile (setFile l q c) p = if path_eqb q p then Some c else findFile l p.
Proof.
  induction l as [|[x b] l IH]; cbn [setFile findFile]; [reflexivity|]. destruct (path_eqb x q) eqn:E; cbn [findFile].
  - assert (x = q) by (unfold path_eqb in E; destruct (list_eq_dec (list_eq_dec Z.eq_dec) x q); [assumption|discriminate]). subst x. destruct (path_eqb q p); reflexivity.
  - destruct (path_eqb x p) eqn:X; [|exact IH]. assert (x = p) by (unfold path_eqb in X; destruct (list_eq_dec (list_eq_dec Z.eq_dec) x p); [assumption|discriminate]). subst x.
    assert (path_eqb q p = false) as ->; [|reflexivity]. unfold path_eqb in E |- *. destruct (list_eq_dec (list_eq_dec Z.eq_dec) p q); [discriminate|]. destruct (list_eq_dec (list_eq_dec Z.eq_dec) q p); [congruence|reflexivity].
Qed.
Lemma write_bytes q c f : Forall byte c -> textFiles f -> textFiles (snd (writeAt q c f)).
Proof.
  intros B T. unfold writeAt. destruct (isDir f q); [exact T|]. destruct (isDir f (removelast q)); [|exact T]. cbn [snd]. intros p b L. unfold lookup in L. cbn [files] in L.
  rewrite lookup_set in L. destruct (path_eqb q p); [congruence|exact (T p b L)].
Qed.
Lemma mkdir_bytes cwd p f : textFiles f -> textFiles (snd (makedirs cwd p f)).
Proof. intros T. unfold makedirs. destruct (throughFile f (resolve cwd p)); exact T. Qed.
Lemma copy_bytes cwd s d f : textFiles f -> textFiles (snd (copy cwd s d f)).
Proof.
  intros T. unfold copy, andThen, readRaw. destruct (lookup f (resolve cwd s)) as [c|] eqn:L; [|destruct (_ || _); exact T].
  set (q := if isDir f (resolve cwd d) then _ else _). destruct (path_eqb (resolve cwd s) q); [exact T|]. apply write_bytes; [exact (T _ _ L)|exact T].
Qed.
(** the characters of an encoding *)
Definition charOf (C : codec) (c : Z) : Prop := 0 <= c <= 0x10FFFF /\ enc C [c] <> None.
Lemma charOf_utf8 c : charOf UTF8 c <-> scalar c.
Proof.
  unfold charOf. split.
  - intros [R N]. destruct (scalar_dec c) as [S|S]; [exact S|]. destruct N. cbn [UTF8 enc encAll]. rewrite bytes_none by assumption. reflexivity.
  - intros S. split; [unfold scalar in S; lia|]. cbn [UTF8 enc encAll]. rewrite bytes_form by exact S. discriminate.
Qed.
Lemma charOf_single n c : 0 <= n <= 0x110000 -> charOf (single n) c <-> 0 <= c < n.
Proof. intros N. unfold charOf. cbn [single enc encAll]. destruct (Z.ltb_spec c n); split; intros H'; try lia; [|destruct H' as [_ H']; congruence]. split; [lia|discriminate]. Qed.
Lemma single_enc n s : Forall (fun c => c < n) s -> enc (single n) s = Some s.
Proof. induction 1 as [|c s H _ IH]; [reflexivity|]. cbn [single enc encAll] in IH |- *. replace (c <? n) with true by lia. rewrite IH. reflexivity. Qed.
Lemma single_dec n b s : dec (single n) b = Some s -> b = s.
Proof. intros E. symmetry. apply (single_back n b s E). Qed.
Lemma codec_text C : In C [UTF8; LATIN1; ASCII] ->
  (forall b s, Forall byte b -> dec C b = Some s -> Forall (charOf C) s) /\ (forall s, Forall (charOf C) s -> exists b, enc C s = Some b /\ Forall byte b) /\ (forall c, 0 <= c < 0x80 -> charOf C c).
Proof.
  intros H. destruct H as [<-|H].
  { split; [|split].
    - intros b s B E. destruct (dec_form (length b) b s (le_n _) B E) as [S _]. apply (Forall_impl _ (fun c => proj2 (charOf_utf8 c)) S).
    - intros s S. apply (Forall_impl _ (fun c => proj1 (charOf_utf8 c))) in S. exists (concat (map form s)). split; [apply encAll_forms, S|].
      induction S as [|c s Sc S IH]; [constructor|]. cbn [map concat]. apply Forall_app. split; [apply form_bytes, Sc|exact IH].
    - intros c R. apply charOf_utf8. unfold scalar. lia. }
  assert (exists n, C = single n /\ 0x80 <= n <= 0x100) as (n & -> & N) by (destruct H as [<-|[<-|[]]]; eexists; (split; [reflexivity|lia])). clear H.
  split; [|split].
  - intros b s B E. pose proof (single_dec n b s E) as <-. pose proof (single_below n b b E) as L. apply Forall_forall. intros c M. rewrite Forall_forall in B, L. specialize (B c M). specialize (L c M). unfold byte in B.
    apply charOf_single; lia.
  - intros s S. exists s. split.
    + apply single_enc. apply (Forall_impl _ (fun c H => proj2 (proj1 (charOf_single n c ltac:(lia)) H)) S).
    + refine (Forall_impl _ _ S). intros c H. apply charOf_single in H; [|lia]. unfold byte. lia.
  - intros c R. apply charOf_single; lia.
Qed.
Lemma encode_pair C cwd now pyeval a : In C [UTF8; LATIN1; ASCII] -> (forall n, Forall (charOf C) (now n)) ->
  pair textFiles (fun e => e <> UnicodeEncodeError) (fun _ => True) (buildB cwd C now pyeval a) (buildB cwd C now pyeval a).
Proof.
  intros HC HN. destruct (codec_text C HC) as (DE & EN & AS). apply (pair_build C C textFiles (charOf C)); try assumption.
  - discriminate.
  - intros s _ f T. split; [reflexivity|]. unfold readDec, andThenB, raw, readRaw. destruct (lookup f _) as [b|] eqn:L.
    + cbn [outcome]. unfold decoded. cbn [fst snd]. split; [exact T|]. destruct (dec C b) as [t|] eqn:E; [exact (DE b t (T _ _ L) E)|discriminate].
    + destruct (_ || _); cbn [outcome fst snd]; (split; [exact T|discriminate]).
  - intros p s S f T. split; [reflexivity|]. destruct (EN s S) as (b & E & B). unfold writeB. rewrite E. unfold raw, write. pose proof (write_bytes (resolve cwd p) b f B T) as W.
    destruct (writeAt (resolve cwd p) b f) as [[u|e] g]; cbn [outcome fst snd] in *; (split; [exact W|]); [constructor|discriminate].
  - intros p f. apply mkdir_bytes.
  - intros src f. apply copy_bytes.
  - intros p f. apply copy_bytes.
Qed.
(** *** If the date is in the encoding, the builder never fails to encode what it writes, whatever
    the files are.  It ends as on decoded files, or a source is no text.  *)
Theorem C123_encode : forall C, In C [UTF8; LATIN1; ASCII] -> forall cwd now pyeval a f r g,
  (forall p b, lookup f p = Some b -> Forall byte b) ->
  (forall n c, In c (now n) -> 0 <= c <= 0x10FFFF /\ enc C [c] <> None) ->
  buildB cwd C now pyeval a f = (r, g) ->
  match r with
  | inl v => build cwd now pyeval a (inText C f) = (Ok v, inText C g)
  | inr (Raised e) => build cwd now pyeval a (inText C f) = (Err e, inText C g)
  | inr UnicodeDecodeError => exists s b, In s sources /\ lookup g (sourcePath cwd a s) = Some b /\ dec C b = None
  | inr UnicodeEncodeError => False
  end /\
  (forall p b, lookup g p = Some b -> Forall byte b).
Proof.
  intros C HC cwd now pyeval a f r g T HN B.
  assert (HN' : forall n, Forall (charOf C) (now n)) by (intros n; apply Forall_forall; exact (HN n)).
  destruct (encode_pair C cwd now pyeval a HC HN' f T) as (_ & G & K). rewrite B in G, K. cbn [fst snd] in G, K. split; [|exact G].
  destruct (C122_build C cwd now pyeval a f r g (C122_back C HC) B) as [E _]. destruct r as [v|[e| |]]; [exact E|exact E|exact E|exact (K eq_refl)].
Qed.
Print Assumptions C123_encode.
(** the files of a tree are bytes, and the date is in all encodings; the copyright sign is no ASCII *)
Example C123_encode_case :
  forallb (fun '(_, b) => forallb (fun c => (0 <=? c) && (c <=? 0xFF)) b) (files signed) = true /\ forallb isAscii (someDay []) = true /\
  fst (buildB work UTF8 someDay evalName args1 signed) = inl (lit "69.1", lit "69") /\ fst (buildB work ASCII someDay evalName args1 signed) = inr UnicodeDecodeError.
Proof. vm_compute. repeat split. Qed.

(** ** ASCII sources *)
Lemma ascii_codec C s : In C [UTF8; LATIN1; ASCII] -> Forall (fun c => 0 <= c < 0x80) s -> enc C s = Some s /\ dec C s = Some s.
Proof. intros HC H. apply (C122_ascii C HC). apply forallb_forall. intros c M. rewrite Forall_forall in H. specialize (H c M). unfold isAscii. lia. Qed.
(** *** If the sources and the date are ASCII and the sources are no outputs, the encoding does not
    matter: the result and all files are the same, and nothing fails in a codec. *)
Theorem C123_locale : forall C D, In C [UTF8; LATIN1; ASCII] -> In D [UTF8; LATIN1; ASCII] -> forall cwd now pyeval a f,
  (forall s, In s sources -> (forall n, In n [lit "icudata.dat"; lit "LICENSE"] -> sourcePath cwd a s <> outDirOf cwd a ++ [n]) /\ (forall x, sourcePath cwd a s <> outDirOf cwd a ++ [lit "icudata.dat"; x]) /\
    sourcePath cwd a s <> outDirOf cwd a /\ forall b c, lookup f (sourcePath cwd a s) = Some b -> In c b -> 0 <= c < 0x80) ->
  (forall n c, In c (now n) -> 0 <= c < 0x80) ->
  buildB cwd C now pyeval a f = buildB cwd D now pyeval a f /\
  match fst (buildB cwd C now pyeval a f) with inl _ | inr (Raised _) => True | _ => False end /\
  (** the sources are ASCII as before *)
  forall s b c, In s sources -> lookup (snd (buildB cwd C now pyeval a f)) (sourcePath cwd a s) = Some b -> In c b -> 0 <= c < 0x80.
Proof.
  intros C D HC HD cwd now pyeval a f HS HN.
  set (ascii := fun c => 0 <= c < 0x80). set (I := fun f => forall s, In s sources -> forall b, lookup f (sourcePath cwd a s) = Some b -> Forall ascii b).
  assert (If : I f) by (intros s M b L; apply Forall_forall; intros c; exact (proj2 (proj2 (proj2 (HS s M))) b c L)).
  assert (FRM : forall q c f, (forall s, In s sources -> sourcePath cwd a s <> q) -> I f -> I (snd (writeAt q c f))).
  { intros q c h N Ih s M b L. rewrite write_frame in L by (apply N, M). exact (Ih s M b L). }
  assert (WR : forall q c f, Forall ascii c -> I f -> I (snd (writeAt q c f))).
  { intros q c h A Ih s M b L. unfold writeAt in L. destruct (isDir h q); [exact (Ih s M b L)|]. destruct (isDir h (removelast q)); [|exact (Ih s M b L)]. unfold lookup in L. cbn [snd files] in L. rewrite lookup_set in L.
    destruct (path_eqb q _); [congruence|exact (Ih s M b L)]. }
  assert (CP : forall src dst f, (forall s, In s sources -> sourcePath cwd a s <> resolve cwd dst /\ sourcePath cwd a s <> resolve cwd dst ++ [pathName src]) -> I f -> I (snd (copy cwd src dst f))).
  { intros src dst h N Ih. unfold copy, andThen, readRaw. destruct (lookup h (resolve cwd src)) as [c|]; [|destruct (_ || _); exact Ih].
    set (q := if isDir h (resolve cwd dst) then _ else _). destruct (path_eqb (resolve cwd src) q); [exact Ih|]. apply FRM; [|exact Ih]. intros s M. destruct (N s M) as [N1 N2].
    unfold q. destruct (isDir h (resolve cwd dst)); assumption. }
  set (F := fun e => match e with Raised _ => True | _ => False end).
  assert (K : pair I F (fun _ => True) (buildB cwd C now pyeval a) (buildB cwd D now pyeval a)).
  { apply (pair_build C D I ascii F).
    - intros c R. exact R.
    - intros e. constructor.
    - intros n. apply Forall_forall. exact (HN n).
    - intros s M h Ih. unfold readDec, andThenB, raw, readRaw. change (resolve cwd (joinPath (parsePath (icuSourceDir a)) s)) with (sourcePath cwd a s). destruct (lookup h (sourcePath cwd a s)) as [b|] eqn:L.
      + cbn [outcome]. unfold decoded. pose proof (Ih s M b L) as A. destruct (ascii_codec C b HC A) as [_ ->]. destruct (ascii_codec D b HD A) as [_ ->]. cbn [fst snd]. auto.
      + destruct (_ || _); cbn [outcome fst snd]; (split; [reflexivity|]); (split; [exact Ih|exact Logic.I]).
    - intros p s S h Ih. unfold writeB. destruct (ascii_codec C s HC S) as [-> _]. destruct (ascii_codec D s HD S) as [-> _]. split; [reflexivity|]. unfold raw, write. pose proof (WR (resolve cwd p) s h S Ih) as W.
      destruct (writeAt (resolve cwd p) s h) as [[u|e] g]; cbn [outcome fst snd] in *; (split; [exact W|exact Logic.I]).
    - intros p h Ih. unfold makedirs. destruct (throughFile h (resolve cwd p)); exact Ih.
    - intros src h. apply CP. intros s M. destruct (HS s M) as (N1 & N2 & _). unfold joinPath. change (parsePath (lit "icudata.dat")) with [lit "icudata.dat"].
      assert (PL : Forall plain [lit "icudata.dat"]) by (repeat constructor; vm_compute; discriminate).
      rewrite resolve_app by exact PL. split; [apply N1; left; reflexivity|]. rewrite <- app_assoc. apply N2.
    - intros p h. apply CP. intros s M. destruct (HS s M) as (N1 & _ & N3 & _). split; [exact N3|]. 
      assert (E : pathName (joinPath p (lit "LICENSE")) = lit "LICENSE") by (unfold pathName, joinPath; change (parsePath (lit "LICENSE")) with [lit "LICENSE"]; apply last_last).
      rewrite E. apply N1. right. left. reflexivity. }
  destruct (K f If) as (E & Ig & R). split; [exact E|]. split.
  - destruct (fst (buildB cwd C now pyeval a f)) as [v|[e| |]]; exact R.
  - intros s b c M L Hc. specialize (Ig s M b L). rewrite Forall_forall in Ig. exact (Ig c Hc).
Qed.
Print Assumptions C123_locale.
Example C123_locale_case :
  forallb (fun s => negb (prefix (outDirOf work args1) (sourcePath work args1 s)) && match lookup tree1 (sourcePath work args1 s) with Some b => forallb isAscii b | None => false end) sources = true /\
  fst (buildB work ASCII someDay evalName args1 tree1) = inl (lit "69.1", lit "69").
Proof. vm_compute. repeat split. Qed.

(** *** With other sources the encoding matters: in ISO 8859-1 the last byte of an a with grave accent
    is a space, so [strip] takes it from the end of a line.  The module is then no UTF-8, although
    its source is. *)
Definition accented : fs := mkFs (map (fun '(p, c) => if path_eqb p (pth "icu/source/common/uprops.h") then (p, c ++ lit "#define GRAVE 1 // voil" ++ [0xC3; 0xA0; 10]) else (p, c)) (files tree1)) (dirs tree1).
Theorem C123_locale_matters : exists cwd now pyeval a f,
  (forall s b, In s sources -> lookup f (sourcePath cwd a s) = Some b -> dec UTF8 b <> None) /\
  (forall n c, In c (now n) -> 0 <= c < 0x80) /\
  exists v g h p b, buildB cwd UTF8 now pyeval a f = (inl v, g) /\ buildB cwd LATIN1 now pyeval a f = (inl v, h) /\
    lookup g p = Some (b ++ [0xA0]) /\ dec UTF8 (b ++ [0xA0]) <> None /\ lookup h p = Some b /\ dec UTF8 b = None.
Proof.
  exists work, someDay, evalName, args1, accented. split; [|split].
  - assert (H : forallb (fun s => match lookup accented (sourcePath work args1 s) with Some b => match dec UTF8 b with Some _ => true | None => false end | None => true end) sources = true) by (vm_compute; reflexivity).
    intros s b M L. rewrite forallb_forall in H. specialize (H s M). rewrite L in H. destruct (dec UTF8 b); [discriminate|discriminate].
  - intros n c M. pose proof (of_lit (fun c => 0 <= c < 0x80) (fun c H => H) (someDay n) eq_refl) as H. rewrite Forall_forall in H. exact (H c M).
  - exists (lit "69.1", lit "69"), (snd (buildB work UTF8 someDay evalName args1 accented)), (snd (buildB work LATIN1 someDay evalName args1 accented)), (outDirOf work args1 ++ [lit "uprops_h.py"]),
      (match lookup (snd (buildB work LATIN1 someDay evalName args1 accented)) (outDirOf work args1 ++ [lit "uprops_h.py"]) with Some b => b | None => [] end).
    split; [vm_compute; reflexivity|]. split; [vm_compute; reflexivity|]. split; [vm_compute; reflexivity|]. split; [vm_compute; discriminate|]. split; vm_compute; reflexivity.
Qed.
Print Assumptions C123_locale_matters.
