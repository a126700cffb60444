(** * The fields of a name in UnicodeData/CharNames.py (C93) *)
From Coq Require Import ZArith List Bool Lia ZifyBool Sorting.Sorted String.
From Verif Require Import Py Bytes Dict Utilities HexFacts Runs CharProps ICUDataFile ICUFacts ICUItems Prop_ICUDataFile
  CharNames NamesLengths NamesFacts NamesIter NamesFile NamesMore Prop_CharNames.
Import ListNotations.
Open Scope Z_scope.
Local Notation length := List.length.

Lemma splitOn_piece x p rest : ~ In x p -> forall cur, splitOn x (p ++ rest) cur = splitOn x rest (cur ++ p).
Proof.
  induction p as [|y p IH]; intros N cur; cbn [app splitOn]; [rewrite app_nil_r; reflexivity|].
  replace (y =? x) with false by (enough (y <> x) by lia; intros ->; apply N; left; reflexivity).
  rewrite IH by (intros I; apply N; right; exact I). rewrite <- app_assoc. reflexivity.
Qed.
Lemma splitOn_join x ps : ps <> [] -> Forall (fun p => ~ In x p) ps -> splitOn x (join [x] ps) [] = ps.
Proof.
  intros N F. induction F as [|p r Hp F IH]; [congruence|]. cbn [join]. destruct r as [|q r].
  - rewrite <- (app_nil_r p) at 1. rewrite splitOn_piece by exact Hp. reflexivity.
  - rewrite splitOn_piece by exact Hp. cbn [app splitOn]. rewrite Z.eqb_refl. f_equal. apply IH. discriminate.
Qed.

(** ** C93: the fields of a name

    A line of a group has fields separated by semicolons: the name of Unicode, the name
    of Unicode 1.0, the ISO comment, and perhaps more.  [field_of choice] is the number
    of the field of a choice (CharNames.py:60-71: 1 is the Unicode 1.0 name, 3 the alias, 4 the comment). *)
Definition field_of (choice : Z) : nat :=
  if choice =? 1 then 1%nat else if choice =? 3 then 3%nat else if choice =? 4 then 2%nat else 0%nat.
(** The bytes of a line with the given fields *)
Definition line_bytes (fs : list (list piece)) : bytes := join [59] (map (flat_map piece_bytes) fs).
(** every field is written with tokens of the table, and no token has a byte that is a semicolon *)
Definition field_ok (T : tokens) (ps : list piece) : Prop := Forall (piece_ok T) ps /\ ~ In 59 (flat_map piece_bytes ps).

Lemma field_at T fs k : Forall (field_ok T) fs -> nth_error fs k = None \/ exists ps, nth_error fs k = Some ps /\ field_ok T ps.
Proof.
  intros F. destruct (nth_error fs k) as [ps|] eqn:E; [right|left; reflexivity]. exists ps. split; [reflexivity|].
  rewrite Forall_forall in F. apply F, (nth_error_In _ _ E).
Qed.
Lemma expand_field T g line choice fs : (choice = 1 \/ choice = 3 \/ choice = 4) -> py_get (g_strings g) line = Ok (line_bytes fs) -> fs <> [] -> Forall (field_ok T) fs ->
  expandName T g line choice = Ok (match nth_error fs (field_of choice) with Some ps => flat_map piece_text ps | None => [] end).
Proof.
  intros C G NE F. unfold expandName. rewrite G. cbn [bind].
  replace (negb (choice =? U_UNICODE_CHAR_NAME) && negb (choice =? U_EXTENDED_CHAR_NAME)) with true by (destruct C as [->|[->| ->]]; reflexivity).
  unfold line_bytes. change CP_SEMICOLON with 59. rewrite splitOn_join.
  2:{ destruct fs; [congruence|discriminate]. }
  2:{ apply Forall_forall. intros p Hp. apply in_map_iff in Hp as (ps & <- & Hp). rewrite Forall_forall in F. apply F, Hp. }
  assert (K : (if choice =? U_ISO_COMMENT then 2 else choice) = Z.of_nat (field_of choice)) by (destruct C as [->|[->| ->]]; reflexivity).
  rewrite K. rewrite get_nat, nth_error_map. destruct (field_at T fs (field_of choice) F) as [E|(ps & E & Hps & _)]; rewrite E; cbn [option_map].
  - apply nth_error_None in E. unfold zlen. rewrite map_length. replace (Z.of_nat (field_of choice) <? Z.of_nat (length fs)) with false by lia. reflexivity.
  - assert (L : (field_of choice < length fs)%nat) by (apply nth_error_Some; congruence). unfold zlen. rewrite map_length.
    replace (Z.of_nat (field_of choice) <? Z.of_nat (length fs)) with true by lia. cbn [bind].
    rewrite <- (app_nil_r (flat_map piece_bytes ps)). apply expand_ok; [exact Hps|left; reflexivity|]. left. destruct C as [->|[->| ->]]; discriminate.
Qed.
(** the first field, when the semicolon stands for itself *)
Lemma expand_first T g line ps fs : py_get (g_strings g) line = Ok (line_bytes (ps :: fs)) -> field_ok T ps -> literal T 59 ->
  expandName T g line U_UNICODE_CHAR_NAME = Ok (flat_map piece_text ps).
Proof.
  intros G [F _] L. unfold expandName. rewrite G. cbn [bind]. change (negb (U_UNICODE_CHAR_NAME =? U_UNICODE_CHAR_NAME)) with false. cbn [andb bind].
  unfold line_bytes. cbn [map join]. destruct (map (flat_map piece_bytes) fs) as [|q r] eqn:E.
  - rewrite <- (app_nil_r (flat_map piece_bytes ps)). apply expand_ok; [exact F|left; reflexivity|left; discriminate].
  - apply expand_ok; [exact F| |left; discriminate]. right. split; [|exact L]. cbn [app]. eexists. reflexivity.
Qed.

(** every choice but the extended name gives its own field, and nothing when the line has fewer *)
Theorem C93_fields : forall T g line fs choice, choice = 0 \/ choice = 1 \/ choice = 3 \/ choice = 4 -> fs <> [] ->
  nth_error (g_strings g) line = Some (line_bytes fs) -> Forall (field_ok T) fs -> literal T 59 ->
  expandName T g (Z.of_nat line) choice = Ok (match nth_error fs (field_of choice) with Some ps => flat_map piece_text ps | None => [] end).
Proof.
  intros T g line fs choice C NE G F L. assert (G' : py_get (g_strings g) (Z.of_nat line) = Ok (line_bytes fs)) by (rewrite get_nat, G; reflexivity).
  destruct C as [->|C]; [|apply expand_field; assumption]. destruct fs as [|ps fs]; [congruence|]. cbn [nth_error field_of].
  apply (expand_first T g _ ps fs G'); [|exact L]. inversion F; assumption.
Qed.
Print Assumptions C93_fields.

(** from the file to the text, for the same choices *)
Theorem C93_from_file : forall head cs pre h toks strs gs aps tail c pad ss fs choice,
  file_ok head cs -> In (mkContent pre unames (h ++ names_body toks strs gs aps ++ tail)) cs -> head_ok h -> body_ok toks strs gs aps ->
  StronglySorted (fun a b => fst (fst a) < fst (fst b)) gs -> In (c / 32, pad, ss) gs -> (forall ap, In ap aps -> ~ a_start (fst ap) <= c < a_stop (fst ap)) ->
  choice = 0 \/ choice = 1 \/ choice = 3 \/ choice = 4 -> fs <> [] ->
  nth_error ss (Z.to_nat (c mod 32)) = Some (line_bytes fs) -> Forall (field_ok (mkTokens toks strs)) fs -> literal (mkTokens toks strs) 59 ->
  exists D N, ICUDataFile.populateData noData (icu_file head cs) = (D, Ok tt) /\ CharNames.populateData noNames D = Ok N /\
    getCharName N c choice = Ok (match nth_error fs (field_of choice) with Some ps => flat_map piece_text ps | None => [] end).
Proof.
  intros head cs pre h toks strs gs aps tail c pad ss fs choice K I HH B HS Ig NA C NE EN F L.
  destruct (C70_names_from_file head cs pre h toks strs gs aps tail K I HH B) as (D & groups & E1 & E2 & R). exists D, (mkNames (mkTokens toks strs) groups (map fst aps)).
  split; [exact E1|]. split; [exact E2|].
  assert (GS : groups_sorted groups /\ exists g, In g groups /\ g_msb g = c / 32 /\ exists extra, g_strings g = ss ++ extra).
  { clear -R HS Ig. revert HS Ig. induction R as [|g w groups gs (R1 & x & _ & R2) R IH]; intros HS Ig; [destruct Ig|]. inversion HS as [|? ? S' F]; subst.
    assert (Q : Forall (fun g' => g_msb g < g_msb g') groups).
    { clear -R R1 F. induction R as [|g' w' groups gs (R1' & _) R IH]; [constructor|]. inversion F as [|? ? F1 F2]; subst. constructor; [lia|apply IH; exact F2]. }
    assert (Q2 : groups_sorted groups).
    { clear -R S'. induction R as [|g w groups gs (R1 & _) R IH]; [constructor|]. inversion S' as [|? ? S2 F]; subst. constructor; [apply IH; exact S2|].
      clear -R R1 F. induction R as [|g' w' groups gs (R1' & _) R IH]; [constructor|]. inversion F as [|? ? F1 F2]; subst. constructor; [lia|apply IH; exact F2]. }
    split; [constructor; assumption|].
    destruct Ig as [->|Ig]; [exists g; split; [left; reflexivity|]; split; [exact R1|exists x; exact R2]|].
    destruct (IH S' Ig) as (_ & g' & I' & H1 & H2). exists g'. split; [right; exact I'|]. auto. }
  destruct GS as (GS & g & Hg & Hm & extra & Hs).
  unfold getCharName. cbn [n_ranges]. rewrite find_none_all.
  2:{ intros a Ha. apply in_map_iff in Ha as (ap & <- & Ha). specialize (NA ap Ha). unfold charInRange. lia. }
  replace (choice =? U_EXTENDED_CHAR_NAME) with false by (destruct C as [->|[->|[->| ->]]]; reflexivity).
  unfold groupName. rewrite getGroup_ok; [|exact GS|cbn; destruct groups; [destruct Hg|discriminate]].
  cbn [bind n_groups n_tokens]. rewrite (find_block groups g c GS Hg) by (rewrite msb_block; lia).
  change (Z.land c GROUP_MASK) with (Z.land c (Z.ones 5)). rewrite Z.land_ones by lia. change (2 ^ 5) with 32.
  rewrite <- (Z2Nat.id (c mod 32)) by (apply Z.mod_pos_bound; lia). apply C93_fields; auto.
  rewrite Hs, nth_error_app1 by (apply nth_error_Some; congruence). exact EN.
Qed.
Print Assumptions C93_from_file.

(** A two-byte token may have a semicolon as its second byte (CharNames.py:141-145 reads it so); the
    fields are split before the tokens are read (CharNames.py:257), so the name of Unicode 1.0 is lost. *)
Definition toksS : list Z := [0; 0xFFFE] ++ repeat 0xFFFF 313 ++ [0].
Definition TS : tokens := mkTokens toksS (lit "WORD" ++ [0]).
Definition fieldsS : list (list piece) := [[Tok2 1 59 (lit "WORD")]; [Lit 66]].
Lemma piecesS : Forall (fun ps => Forall (piece_ok TS) ps) fieldsS /\ literal TS 59.
Proof.
  split; [|right; vm_compute; reflexivity]. constructor; [|constructor; [|constructor]]; (constructor; [|constructor]); cbn [piece_ok].
  - split; [lia|]. split; [lia|]. split; [reflexivity|]. exists 0. split; [vm_compute; reflexivity|]. split; [discriminate|]. split; [repeat constructor; discriminate|].
    exists [], []. split; reflexivity.
  - split; [lia|]. split; [discriminate|]. right. vm_compute. reflexivity.
Qed.
Theorem C93_semicolon_refuted : exists T g line fs, fs <> [] /\ nth_error (g_strings g) line = Some (line_bytes fs) /\
  Forall (fun ps => Forall (piece_ok T) ps) fs /\ literal T 59 /\
  expandName T g (Z.of_nat line) 0 = Ok (lit "WORD") /\ nth_error fs 1 = Some [Lit 66] /\ expandName T g (Z.of_nat line) 1 <> Ok [66].
Proof.
  exists TS, (mkGroup 2 [line_bytes fieldsS]), 0%nat, fieldsS. destruct piecesS as [P L]. split; [discriminate|]. split; [reflexivity|]. split; [exact P|]. split; [exact L|].
  split; [vm_compute; reflexivity|]. split; [reflexivity|]. vm_compute. discriminate.
Qed.
Print Assumptions C93_semicolon_refuted.

(** a line with three fields, and one with a name only *)
Definition fields3 : list (list piece) := [nameB; [Lit 79; Tok 2 (lit "LETTER ")]; [Lit 42]].
Example C93_case : Forall (field_ok T1) fields3 /\ literal T1 59 /\
  let g := mkGroup 2 [line_bytes fields3; line_bytes [nameB]] in
  map (expandName T1 g 0) [0; 1; 3; 4] = [Ok (lit "LATIN LETTER B" ++ [3]); Ok (lit "OLETTER "); Ok []; Ok (lit "*")] /\
  map (expandName T1 g 1) [0; 1; 3; 4] = [Ok (lit "LATIN LETTER B" ++ [3]); Ok []; Ok []; Ok []].
Proof.
  split; [|split; [left; vm_compute; discriminate|vm_compute; repeat split]].
  pose proof nameB_ok as B. constructor; [|constructor; [|constructor; [|constructor]]]; (split; [|vm_compute; intuition discriminate]).
  - exact B.
  - unfold nameB in B. inversion B as [|? ? _ B1]; subst. inversion B1 as [|? ? B2 _]; subst. constructor; [|constructor; [exact B2|constructor]].
    split; [lia|]. split; [discriminate|]. left. vm_compute. discriminate.
  - constructor; [|constructor]. split; [lia|]. split; [discriminate|]. left. vm_compute. discriminate.
Qed.
