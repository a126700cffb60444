(** * Facts about the csv reader *)
From Coq Require Import ZArith List Bool Lia ZifyBool.
From Verif Require Import Py Dict Utilities CsvReader.
Import ListNotations.
Open Scope Z_scope.
Local Notation length := List.length.

(** ** How a row is written *)
(** a value between quotation marks, with those in it doubled *)
Definition doubled (v : str) : str := flat_map (fun c => if c =? 34 then [34; 34] else [c]) v.
(** [written text v]: the value [v] of a field is written as [text] *)
Inductive written : str -> str -> Prop :=
| PlainField v : (forall c, In c v -> c <> 59 /\ c <> 10 /\ c <> 13 /\ c <> 0) -> hd 0 v <> 34 -> written v v
| QuotedField v : ~ In 0 v -> written ([34] ++ doubled v ++ [34]) v.
Definition eol_ok (e : str) : Prop := e = [10] \/ e = [13; 10].
(** a line with nothing in it is a row without fields *)
Inductive record : str -> list str -> Prop :=
| EmptyRecord : record [] []
| FieldsRecord ts vs : Forall2 written ts vs -> join [59] ts <> [] -> ts <> [] -> record (join [59] ts) vs.

(** ** Characters, lines *)
Lemma chars_app l m : forall R, processChars R (l ++ m) = let* R' := processChars R l in processChars R' m.
Proof.
  induction l as [|c l IH]; intros R; [reflexivity|]. cbn [app processChars]. destruct (c =? 0); [reflexivity|].
  destruct (processChar R c) as [R'|e]; cbn [bind]; [apply IH|reflexivity].
Qed.
Lemma lines_char c s cur : c <> 10 -> c <> 13 -> linesFrom (c :: s) cur = linesFrom s (cur ++ [c]).
Proof. intros A B. cbn [linesFrom]. replace (c =? 10) with false by lia. replace (c =? 13) with false by lia. reflexivity. Qed.
Lemma lines_plain p s : (forall c, In c p -> c <> 10 /\ c <> 13) -> forall cur, linesFrom (p ++ s) cur = linesFrom s (cur ++ p).
Proof.
  induction p as [|c p IH]; intros H cur; cbn [app]; [rewrite app_nil_r; reflexivity|].
  rewrite lines_char by (apply (H c); left; reflexivity). rewrite IH by (intros d Hd; apply H; right; exact Hd). rewrite <- app_assoc. reflexivity.
Qed.
Lemma lines_eol e s cur : eol_ok e -> linesFrom (e ++ s) cur = (cur ++ e) :: linesFrom s [].
Proof. intros [->| ->]; reflexivity. Qed.
Lemma char_one R c : c <> 0 -> processChars R [c] = processChar R c.
Proof. intros H. cbn [processChars]. replace (c =? 0) with false by lia. destruct (processChar R c); reflexivity. Qed.

(** A way from one point in the text to another: what is left, the line so far, the reader
    at the start of the line, and the reader at this point. *)
Definition leads (s : str) (cur : str) (R : reader) (s' : str) (R2 : reader) : Prop :=
  exists cur' R', rowsFrom (linesFrom s cur) R = rowsFrom (linesFrom s' cur') R' /\ processChars R' cur' = Ok R2 /\ cur' <> [].

Lemma rows_line line rest R R2 : processChars R line = Ok R2 -> rowsFrom (line :: rest) R =
  match r_state (processEol R2) with START_RECORD => let* rows := rowsFrom rest reset in Ok (r_fields (processEol R2) :: rows) | _ => rowsFrom rest (processEol R2) end.
Proof. intros E. cbn [rowsFrom]. unfold processLine. rewrite E. reflexivity. Qed.

(** inside quotation marks; what follows is the closing one *)
Lemma in_quotes n : forall v s cur R F f, (length v <= n)%nat -> ~ In 0 v -> processChars R cur = Ok (mkReader IN_QUOTED_FIELD F f) ->
  exists cur' R', rowsFrom (linesFrom (doubled v ++ 34 :: s) cur) R = rowsFrom (linesFrom (34 :: s) cur') R' /\
    processChars R' cur' = Ok (mkReader IN_QUOTED_FIELD F (f ++ v)).
Proof.
  induction n as [|n IH]; intros v s cur R F f L Z E; (destruct v as [|c v]; [exists cur, R; rewrite app_nil_r; auto|]); [cbn in L; lia|].
  assert (Zc : c <> 0) by (intros ->; apply Z; left; reflexivity). assert (Zv : ~ In 0 v) by (intros I; apply Z; right; exact I). cbn [length] in L.
  replace (f ++ c :: v) with ((f ++ [c]) ++ v) by (rewrite <- app_assoc; reflexivity).
  destruct (Z.eq_dec c 34) as [->|N34].
  { change (doubled (34 :: v)) with (34 :: 34 :: doubled v). cbn [app]. rewrite lines_char, lines_char by discriminate.
    apply IH; [lia|exact Zv|]. rewrite !chars_app, E. reflexivity. }
  assert (D : doubled (c :: v) = c :: doubled v) by (unfold doubled; cbn [flat_map]; replace (c =? 34) with false by lia; reflexivity). rewrite D. cbn [app].
  assert (P : forall c F f, c <> 0 -> c <> 34 -> processChars (mkReader IN_QUOTED_FIELD F f) [c] = Ok (mkReader IN_QUOTED_FIELD F (f ++ [c]))).
  { clear. intros c F f A B. rewrite char_one by exact A. unfold processChar. cbn [r_state]. change QUOTE with 34. replace (c =? 34) with false by lia. reflexivity. }
  destruct (Z.eq_dec c 10) as [->|N10].
  { cbn [linesFrom Z.eqb Pos.eqb]. rewrite (rows_line _ _ _ (mkReader IN_QUOTED_FIELD F (f ++ [10]))) by (rewrite chars_app, E; cbn [bind]; apply P; discriminate).
    cbn [processEol r_state]. apply IH; [lia|exact Zv|reflexivity]. }
  destruct (Z.eq_dec c 13) as [->|N13].
  2:{ rewrite lines_char by assumption. apply IH; [lia|exact Zv|]. rewrite chars_app, E. cbn [bind]. apply P; assumption. }
  assert (G : forall d r, doubled v ++ 34 :: s = d :: r -> d <> 10 -> linesFrom (13 :: doubled v ++ 34 :: s) cur = (cur ++ [13]) :: linesFrom (doubled v ++ 34 :: s) []).
  { intros d r Q Hd. rewrite Q. cbn [linesFrom Z.eqb Pos.eqb]. destruct (d =? 10) eqn:X; [lia|]. reflexivity. }
  assert (H13 : forall d r, doubled v ++ 34 :: s = d :: r -> d <> 10 -> exists cur' R',
    rowsFrom (linesFrom (13 :: doubled v ++ 34 :: s) cur) R = rowsFrom (linesFrom (34 :: s) cur') R' /\ processChars R' cur' = Ok (mkReader IN_QUOTED_FIELD F ((f ++ [13]) ++ v))).
  { intros d r Q Hd. rewrite (G d r Q Hd). rewrite (rows_line _ _ _ (mkReader IN_QUOTED_FIELD F (f ++ [13]))) by (rewrite chars_app, E; cbn [bind]; apply P; discriminate).
    cbn [processEol r_state]. apply IH; [lia|exact Zv|reflexivity]. }
  destruct v as [|d v].
  { apply (H13 34 s); [reflexivity|discriminate]. }
  destruct (Z.eq_dec d 10) as [->|Nd].
  - assert (D2 : doubled (10 :: v) = 10 :: doubled v) by reflexivity. rewrite D2. cbn [app linesFrom Z.eqb Pos.eqb].
    assert (Zv' : ~ In 0 v) by (intros I; apply Zv; right; exact I).
    rewrite (rows_line _ _ _ (mkReader IN_QUOTED_FIELD F (f ++ [13; 10]))).
    2:{ rewrite chars_app, E. cbn [bind]. change [13; 10] with ([13] ++ [10]). rewrite chars_app, P by discriminate. cbn [bind]. rewrite P by discriminate. rewrite <- app_assoc. reflexivity. }
    cbn [processEol r_state]. replace ((f ++ [13]) ++ 10 :: v) with ((f ++ [13; 10]) ++ v) by (rewrite <- !app_assoc; reflexivity).
    apply IH; [cbn in L; lia|exact Zv'|reflexivity].
  - unfold doubled in H13 |- *. cbn [flat_map] in H13 |- *. destruct (d =? 34) eqn:X.
    + apply (H13 34 (34 :: flat_map (fun c => if c =? 34 then [34; 34] else [c]) v ++ 34 :: s)); [rewrite <- app_assoc; reflexivity|discriminate].
    + apply (H13 d (flat_map (fun c => if c =? 34 then [34; 34] else [c]) v ++ 34 :: s)); [rewrite <- app_assoc; reflexivity|exact Nd].
Qed.

(** at the end of a field the reader will save [f] *)
Definition at_end (R : reader) (F : list str) (f : str) : Prop :=
  r_fields R = F /\ r_field R = f /\ (r_state R = START_FIELD \/ r_state R = IN_FIELD \/ r_state R = QUOTE_IN_QUOTED_FIELD).
Definition fresh (R : reader) : Prop := r_field R = [] /\ (r_state R = START_FIELD \/ r_state R = START_RECORD).
Lemma plain_run v F f : (forall c, In c v -> c <> 59 /\ c <> 10 /\ c <> 13 /\ c <> 0) -> processChars (mkReader IN_FIELD F f) v = Ok (mkReader IN_FIELD F (f ++ v)).
Proof.
  revert f. induction v as [|c v IH]; intros f H; [rewrite app_nil_r; reflexivity|]. destruct (H c (or_introl eq_refl)) as (H1 & H2 & H3 & H4).
  cbn [processChars]. replace (c =? 0) with false by lia. unfold processChar. cbn [r_state]. unfold newline. change DELIM with 59.
  replace (c =? 10) with false by lia. replace (c =? 13) with false by lia. replace (c =? 59) with false by lia. cbn [orb bind]. unfold addChar. cbn [r_fields r_field].
  rewrite IH by (intros d Hd; apply H; right; exact Hd). rewrite <- app_assoc. reflexivity.
Qed.
(** one field: from the start of the field to its end *)
Lemma field_run t v s cur R R1 : written t v -> processChars R cur = Ok R1 -> fresh R1 -> (t <> [] \/ r_state R1 = START_FIELD) ->
  exists cur' R' R2, rowsFrom (linesFrom (t ++ s) cur) R = rowsFrom (linesFrom s cur') R' /\ processChars R' cur' = Ok R2 /\ at_end R2 (r_fields R1) v /\ (t <> [] \/ cur <> [] -> cur' <> []).
Proof.
  intros W E [F0 FS] NE. destruct W as [v H Q|v Z].
  - destruct v as [|c v].
    + exists cur, R, R1. cbn [app]. split; [reflexivity|]. split; [exact E|]. split; [|intros [A|A]; [congruence|exact A]]. split; [reflexivity|]. split; [exact F0|]. destruct NE as [NE|NE]; [congruence|left; exact NE].
    + exists (cur ++ c :: v), R, (mkReader IN_FIELD (r_fields R1) (c :: v)). rewrite lines_plain by (intros d Hd; destruct (H d Hd) as (A & B & D & _); auto). split; [reflexivity|]. split.
      * rewrite chars_app, E. cbn [bind]. destruct (H c (or_introl eq_refl)) as (H1 & H2 & H3 & H4). cbn [hd] in Q. cbn [processChars]. replace (c =? 0) with false by lia.
        assert (P : processChar R1 c = Ok (mkReader IN_FIELD (r_fields R1) [c])).
        { unfold processChar, startField, newline, addChar. change QUOTE with 34. change DELIM with 59. rewrite F0. cbn [app].
          replace (c =? 10) with false by lia. replace (c =? 13) with false by lia. replace (c =? 59) with false by lia. replace (c =? 34) with false by lia.
          destruct FS as [-> | ->]; reflexivity. }
        rewrite P. cbn [bind]. apply plain_run. intros d Hd. apply H. right. exact Hd.
      * split; [split; [reflexivity|split; [reflexivity|right; left; reflexivity]]|]. intros _ A. apply app_eq_nil in A as [_ A]. discriminate A.
  - rewrite <- !app_assoc. cbn [app].
    assert (E1 : processChars R (cur ++ [34]) = Ok (mkReader IN_QUOTED_FIELD (r_fields R1) [])).
    { rewrite chars_app, E. cbn [bind]. rewrite char_one by discriminate. unfold processChar. destruct FS as [-> | ->]; unfold startField, newline, inState; rewrite F0; reflexivity. }
    rewrite lines_char by discriminate. destruct (in_quotes (length v) v s (cur ++ [34]) R (r_fields R1) [] (le_n _) Z E1) as (cur' & R' & Q & P).
    exists (cur' ++ [34]), R', (mkReader QUOTE_IN_QUOTED_FIELD (r_fields R1) v). split; [rewrite Q, lines_char by discriminate; reflexivity|]. split.
    + rewrite chars_app, P. cbn [bind app]. reflexivity.
    + split; [split; [reflexivity|split; [reflexivity|right; right; reflexivity]]|]. intros _ A. apply app_eq_nil in A as [_ A]. discriminate A.
Qed.
(** all fields of a record *)
Lemma fields_run ts vs : Forall2 written ts vs -> ts <> [] -> forall s cur R R1, processChars R cur = Ok R1 -> fresh R1 -> (join [59] ts <> [] \/ (r_state R1 = START_FIELD /\ cur <> [])) ->
  exists cur' R' R2 F v, rowsFrom (linesFrom (join [59] ts ++ s) cur) R = rowsFrom (linesFrom s cur') R' /\ processChars R' cur' = Ok R2 /\ at_end R2 F v /\ F ++ [v] = r_fields R1 ++ vs /\ cur' <> [].
Proof.
  induction 1 as [|t v ts vs W FW IH]; intros NE s cur R R1 E FR J; [congruence|]. cbn [join] in *. destruct ts as [|t2 ts].
  - inversion FW; subst. destruct (field_run t v s cur R R1 W E FR) as (cur' & R' & R2 & A & B & C & D); [tauto|]. exists cur', R', R2, (r_fields R1), v.
    split; [exact A|]. split; [exact B|]. split; [exact C|]. split; [reflexivity|]. apply D. tauto.
  - rewrite <- app_assoc. cbn [app].
    assert (X : exists cur' R' R2, rowsFrom (linesFrom (t ++ 59 :: join [59] (t2 :: ts) ++ s) cur) R = rowsFrom (linesFrom (join [59] (t2 :: ts) ++ s) cur') R' /\
      processChars R' cur' = Ok R2 /\ r_fields R2 = r_fields R1 ++ [v] /\ r_field R2 = [] /\ r_state R2 = START_FIELD /\ cur' <> []).
    { assert (S59 : forall cur' R' R2 F, processChars R' cur' = Ok R2 -> (at_end R2 F v \/ (fresh R2 /\ r_fields R2 = F /\ v = [])) ->
        processChars R' (cur' ++ [59]) = Ok (mkReader START_FIELD (F ++ [v]) [])).
      { intros cur' R' R2 F P Q. rewrite chars_app, P. cbn [bind]. rewrite char_one by discriminate. unfold processChar.
        destruct Q as [(A & B & [C|[C|C]])|((A & [C|C]) & B & ->)]; rewrite C; unfold startField, newline, saveField; cbn [Z.eqb Pos.eqb orb DELIM QUOTE]; rewrite ?A, ?B; reflexivity. }
      destruct t as [|c t'].
      - inversion W; subst. exists (cur ++ [59]), R, (mkReader START_FIELD (r_fields R1 ++ [[]]) []). cbn [app]. rewrite lines_char by discriminate. split; [reflexivity|].
        split; [apply (S59 cur R R1 (r_fields R1) E); right; auto|]. split; [reflexivity|]. split; [reflexivity|]. split; [reflexivity|]. intros A. apply app_eq_nil in A as [_ A]. discriminate A.
      - destruct (field_run (c :: t') v (59 :: join [59] (t2 :: ts) ++ s) cur R R1 W E FR) as (cur' & R' & R2 & A & B & C & D); [left; discriminate|].
        exists (cur' ++ [59]), R', (mkReader START_FIELD (r_fields R1 ++ [v]) []). rewrite A, lines_char by discriminate. split; [reflexivity|].
        split; [apply (S59 cur' R' R2 (r_fields R1) B); left; exact C|]. split; [reflexivity|]. split; [reflexivity|]. split; [reflexivity|]. intros X. apply app_eq_nil in X as [_ X]. discriminate X. }
    destruct X as (cur1 & R1' & R2 & A & B & C & D & G & N). rewrite A.
    destruct (IH ltac:(discriminate) s cur1 R1' R2 B (conj D (or_introl G)) (or_intror (conj G N))) as (cur' & R' & R3 & F & w & A' & B' & C' & D' & N').
    exists cur', R', R3, F, w. split; [exact A'|]. split; [exact B'|]. split; [exact C'|]. split; [|exact N']. rewrite D', C, <- app_assoc. reflexivity.
Qed.
Lemma end_of_line cur R R2 F v e rest : processChars R cur = Ok R2 -> at_end R2 F v -> eol_ok e ->
  rowsFrom ((cur ++ e) :: rest) R = let* rows := rowsFrom rest reset in Ok ((F ++ [v]) :: rows).
Proof.
  intros P (A & B & C) E.
  assert (Q : processChars R2 e = Ok (mkReader EAT_CRNL (F ++ [v]) [])).
  { assert (N : processChar R2 10 = Ok (mkReader EAT_CRNL (F ++ [v]) []) /\ processChar R2 13 = Ok (mkReader EAT_CRNL (F ++ [v]) [])).
    { unfold processChar, startField, newline, saveField. destruct C as [->|[->| ->]]; cbn [Z.eqb Pos.eqb orb QUOTE DELIM]; rewrite A, B; split; reflexivity. }
    destruct E as [->| ->]; cbn [processChars Z.eqb]; [rewrite (proj1 N)|rewrite (proj2 N)]; reflexivity. }
  rewrite (rows_line _ _ _ (mkReader EAT_CRNL (F ++ [v]) [])) by (rewrite chars_app, P; exact Q). reflexivity.
Qed.
Lemma end_of_file cur R R2 F v : processChars R cur = Ok R2 -> at_end R2 F v -> rowsFrom [cur] R = Ok [F ++ [v]].
Proof.
  intros P (A & B & C). rewrite (rows_line _ _ _ R2 P). unfold processEol. destruct C as [->|[->| ->]]; unfold saveField; cbn [r_state]; rewrite A, B; reflexivity.
Qed.
Lemma fresh_reset : fresh reset.
Proof. split; [reflexivity|right; reflexivity]. Qed.

(** ** The text of a file *)
Lemma record_run t vs e s : record t vs -> eol_ok e -> rowsFrom (linesFrom (t ++ e ++ s) []) reset = let* rows := rowsFrom (linesFrom s []) reset in Ok (vs :: rows).
Proof.
  intros [|ts ws F J NE] E.
  - cbn [app]. rewrite lines_eol by exact E. cbn [app]. destruct E as [->| ->]; reflexivity.
  - destruct (fields_run ts ws F NE (e ++ s) [] reset reset eq_refl fresh_reset (or_introl J)) as (cur' & R' & R2 & F' & v & A & B & C & D & N). rewrite A, lines_eol by exact E.
    rewrite (end_of_line cur' R' R2 F' v e _ B C E). rewrite D. reflexivity.
Qed.
Theorem csv_round_trip recs last lastRow : Forall (fun r => record (fst (fst r)) (snd (fst r)) /\ eol_ok (snd r)) recs -> record last lastRow ->
  rowsFrom (fileLines (flat_map (fun r => fst (fst r) ++ snd r) recs ++ last)) reset = Ok (map (fun r => snd (fst r)) recs ++ match last with [] => [] | _ => [lastRow] end).
Proof.
  intros F L. unfold fileLines. induction F as [|[[t vs] e] recs [Hr He] F IH]; cbn [flat_map map fst snd app].
  - destruct L as [|ts ws FL J NE]; [reflexivity|]. destruct (fields_run ts ws FL NE [] [] reset reset eq_refl fresh_reset (or_introl J)) as (cur' & R' & R2 & F' & v & A & B & C & D & N).
    rewrite app_nil_r in A. rewrite A. replace (linesFrom [] cur') with [cur'] by (destruct cur'; [congruence|reflexivity]). rewrite (end_of_file cur' R' R2 F' v B C), D. destruct (join [59] ts); [congruence|reflexivity].
  - rewrite <- !app_assoc. rewrite (record_run t vs e _ Hr He), IH. reflexivity.
Qed.

(** ** Errors *)
Definition calm (R : reader) : Prop := r_state R <> EAT_CRNL.
Lemma char_calm R c : calm R -> newline c = false -> exists R', processChar R c = Ok R' /\ calm R'.
Proof.
  intros C N. unfold calm in *. unfold processChar, startField. rewrite N. destruct (r_state R); try congruence;
    destruct (c =? QUOTE), (c =? DELIM); eexists; (split; [reflexivity|discriminate]).
Qed.
Lemma chars_calm p : forall R, calm R -> (forall c, In c p -> newline c = false /\ c <> 0) -> exists R', processChars R p = Ok R' /\ calm R'.
Proof.
  induction p as [|c p IH]; intros R C H; [eexists; split; [reflexivity|exact C]|]. destruct (H c (or_introl eq_refl)) as [N Z]. cbn [processChars]. replace (c =? 0) with false by lia.
  destruct (char_calm R c C N) as (R' & -> & C'). cbn [bind]. apply IH; [exact C'|]. intros d Hd. apply H. right. exact Hd.
Qed.
Lemma eol_calm R e : calm R -> e = [10] \/ e = [13] \/ e = [13; 10] -> exists R', processChars R e = Ok R' /\ (r_state R' = EAT_CRNL \/ r_state R' = IN_QUOTED_FIELD).
Proof.
  intros C. assert (P : forall c, c = 10 \/ c = 13 -> forall R, (calm R \/ r_state R = EAT_CRNL) -> exists R', processChar R c = Ok R' /\ (r_state R' = EAT_CRNL \/ r_state R' = IN_QUOTED_FIELD)).
  { clear. intros c Hc R H. unfold processChar, startField, newline, calm in *.
    destruct Hc as [->| ->]; cbn [Z.eqb Pos.eqb orb QUOTE DELIM]; destruct (r_state R) eqn:S; try (eexists; split; [reflexivity|]; cbn [r_state inState saveField addChar]; auto; fail). }
  intros [->|[->| ->]].
  - rewrite char_one by discriminate. apply P; auto.
  - rewrite char_one by discriminate. apply P; auto.
  - change [13; 10] with ([13] ++ [10]). rewrite chars_app, char_one by discriminate. destruct (P 13 (or_intror eq_refl) R (or_introl C)) as (R' & -> & Q). cbn [bind]. rewrite char_one by discriminate.
    apply P; [auto|]. destruct Q as [Q|Q]; [right; exact Q|left; unfold calm; rewrite Q; discriminate].
Qed.
(** a line of a file: text and an end of line, which the last line may lack *)
Definition line_ok (l : str) : Prop := exists p e, l = p ++ e /\ (forall c, In c p -> newline c = false) /\ (e = [] \/ e = [10] \/ e = [13] \/ e = [13; 10]).
Lemma lines_ok n : forall s cur, (length s <= n)%nat -> (forall c, In c cur -> newline c = false) -> Forall line_ok (linesFrom s cur) /\ concat (linesFrom s cur) = cur ++ s.
Proof.
  induction n as [|n IH]; intros s cur L H; (destruct s as [|c s]; [cbn [linesFrom]; destruct cur as [|d cur];
    [split; [constructor|reflexivity]|split; [constructor; [exists (d :: cur), []; rewrite app_nil_r; auto|constructor]|reflexivity]]|]); [cbn in L; lia|].
  cbn [length] in L. cbn [linesFrom]. destruct (c =? 10) eqn:E10.
  { apply Z.eqb_eq in E10 as ->. destruct (IH s [] ltac:(lia) ltac:(intros c [])) as [A B]. split; [constructor; [exists cur, [10]; auto|exact A]|]. cbn [concat]. rewrite B, <- app_assoc. reflexivity. }
  destruct (c =? 13) eqn:E13.
  { apply Z.eqb_eq in E13 as ->. destruct s as [|d s]; [split; [constructor; [exists cur, [13]; auto 10|constructor]|cbn [concat]; rewrite app_nil_r; reflexivity]|]. destruct (d =? 10) eqn:Ed.
    - apply Z.eqb_eq in Ed as ->. cbn [length] in L. destruct (IH s [] ltac:(lia) ltac:(intros c [])) as [A B]. split; [constructor; [exists cur, [13; 10]; auto 10|exact A]|]. cbn [concat]. rewrite B, <- app_assoc. reflexivity.
    - destruct (IH (d :: s) [] ltac:(lia) ltac:(intros c [])) as [A B]. split; [constructor; [exists cur, [13]; auto 10|exact A]|]. cbn [concat]. rewrite B, <- app_assoc. reflexivity. }
  destruct (IH s (cur ++ [c]) ltac:(lia)) as [A B]; [intros d Hd; apply in_app_iff in Hd as [Hd|[<-|[]]]; [auto|unfold newline; lia]|]. split; [exact A|]. rewrite B, <- app_assoc. reflexivity.
Qed.
Lemma line_calm R l : calm R -> line_ok l -> ~ In 0 l -> exists R', processLine R l = Ok R' /\ (r_state R' = START_RECORD \/ r_state R' = IN_QUOTED_FIELD).
Proof.
  intros C (p & e & -> & Hp & He) Z. unfold processLine. rewrite chars_app. destruct (chars_calm p R C) as (R1 & -> & C1).
  { intros c Hc. split; [apply Hp, Hc|]. intros ->. apply Z, in_or_app. left. exact Hc. }
  cbn [bind]. destruct He as [->|He].
  - cbn [processChars bind]. eexists. split; [reflexivity|]. unfold processEol, calm in *. destruct (r_state R1) eqn:S; cbn [r_state saveField inState]; auto.
  - destruct (eol_calm R1 e C1 He) as (R2 & -> & Q). cbn [bind]. eexists. split; [reflexivity|]. unfold processEol. destruct Q as [Q|Q]; rewrite Q; cbn [r_state inState]; auto.
Qed.
Lemma rows_total lines : Forall line_ok lines -> ~ In 0 (concat lines) -> forall R, calm R -> exists rows, rowsFrom lines R = Ok rows.
Proof.
  induction 1 as [|l lines Hl F IH]; intros Z R C; cbn [rowsFrom].
  - destruct (match r_field R with [] => _ | _ => _ end); eexists; reflexivity.
  - cbn [concat] in Z. destruct (line_calm R l C Hl) as (R' & -> & Q); [intros I; apply Z, in_or_app; left; exact I|]. cbn [bind].
    assert (Z' : ~ In 0 (concat lines)) by (intros I; apply Z, in_or_app; right; exact I). destruct Q as [Q|Q]; rewrite Q.
    + destruct (IH Z' reset ltac:(discriminate)) as (rows & ->). eexists. reflexivity.
    + apply IH; [exact Z'|]. unfold calm. rewrite Q. discriminate.
Qed.
Lemma nul_error lines : Forall line_ok lines -> In 0 (concat lines) -> forall R, calm R -> rowsFrom lines R = Err CsvError.
Proof.
  induction 1 as [|l lines Hl F IH]; intros I R C; [destruct I|]. cbn [rowsFrom]. destruct (in_dec Z.eq_dec 0 l) as [Z|Z].
  - unfold processLine. assert (E : processChars R l = Err CsvError).
    { destruct Hl as (p & e & -> & Hp & He). apply in_app_iff in Z as [Z|Z]; [|exfalso; destruct He as [->|[->|[->| ->]]]; cbn in Z; intuition discriminate].
      clear - C Hp Z. revert R C. induction p as [|c p IH]; intros R C; [destruct Z|]. cbn [app processChars]. destruct (Z.eqb_spec c 0); [reflexivity|]. destruct Z as [->|Z]; [lia|].
      destruct (char_calm R c C (Hp c (or_introl eq_refl))) as (R' & -> & C'). cbn [bind]. apply IH; auto. intros d Hd. apply Hp. right. exact Hd. }
    rewrite E. reflexivity.
  - cbn [concat] in I. apply in_app_iff in I as [I|I]; [contradiction|]. destruct (line_calm R l C Hl Z) as (R' & -> & Q). cbn [bind]. destruct Q as [Q|Q]; rewrite Q.
    + rewrite (IH I reset ltac:(discriminate)). reflexivity.
    + apply IH; [exact I|]. unfold calm. rewrite Q. discriminate.
Qed.

(** ** Sizes: no row is longer than the text *)
Definition size (fs : list str) : nat := length (concat fs).
Definition rsize (R : reader) : nat := (size (r_fields R) + length (r_field R))%nat.
Lemma size_save R st : rsize (saveField R st) = rsize R.
Proof. unfold rsize, size, saveField. cbn [r_fields r_field]. rewrite concat_app, app_length. cbn [concat]. rewrite app_nil_r. cbn. lia. Qed.
Lemma size_add R c st : rsize (addChar R c st) = S (rsize R).
Proof. unfold rsize, addChar. cbn [r_fields r_field]. rewrite app_length. cbn. lia. Qed.
Lemma size_state R st : rsize (inState R st) = rsize R.
Proof. reflexivity. Qed.
Lemma size_char R c R' : processChar R c = Ok R' -> (rsize R' <= S (rsize R))%nat.
Proof.
  unfold processChar, startField. intros H. destruct (r_state R), (newline c), (c =? QUOTE), (c =? DELIM); inversion H; subst; rewrite ?size_save, ?size_add, ?size_state; lia.
Qed.
Lemma size_chars l : forall R R', processChars R l = Ok R' -> (rsize R' <= length l + rsize R)%nat.
Proof.
  induction l as [|c l IH]; intros R R' H; cbn [processChars] in H; [inversion H; cbn; lia|]. destruct (c =? 0); [discriminate|].
  destruct (processChar R c) as [R1|e] eqn:E; [|discriminate]. cbn [bind] in H. apply IH in H. apply size_char in E. cbn [length]. lia.
Qed.
Lemma size_line l R R' : processLine R l = Ok R' -> (rsize R' <= length l + rsize R)%nat.
Proof.
  unfold processLine. destruct (processChars R l) as [R1|e] eqn:E; [|discriminate]. cbn [bind]. intros H. inversion H; subst. apply size_chars in E.
  unfold processEol. destruct (r_state R1); rewrite ?size_save, ?size_state; lia.
Qed.
Lemma size_rows lines : forall R rows, rowsFrom lines R = Ok rows -> forall row, In row rows -> (size row <= length (concat lines) + rsize R)%nat.
Proof.
  induction lines as [|l lines IH]; intros R rows H row I; cbn [rowsFrom] in H.
  - destruct (match r_field R with [] => _ | _ => _ end); inversion H; subst; [|destruct I]. destruct I as [<-|[]]. pose proof (size_save R START_RECORD) as Q. unfold rsize at 1 in Q. cbn [saveField r_field r_fields length] in Q. cbn [concat length]. lia.
  - destruct (processLine R l) as [R'|e] eqn:E; [|discriminate]. cbn [bind] in H. apply size_line in E. cbn [concat]. rewrite app_length.
    destruct (r_state R') eqn:ST;
      try (specialize (IH _ _ H row I); lia).
    destruct (rowsFrom lines reset) as [rows'|e] eqn:E2; [|discriminate]. cbn [bind] in H. inversion H; subst rows. destruct I as [<-|I].
    + unfold rsize in E at 1. lia.
    + specialize (IH _ _ E2 row I). change (rsize reset) with 0%nat in IH. lia.
Qed.
Lemma field_size f fs : In f fs -> (length f <= size fs)%nat.
Proof. unfold size. induction fs as [|g fs IH]; [intros []|]. cbn [concat]. rewrite app_length. intros [->|H]; [lia|]. specialize (IH H). lia. Qed.
Lemma short_iff rows : short rows = true <-> forall row f, In row rows -> In f row -> Z.of_nat (length f) <= 131072.
Proof.
  unfold short. rewrite forallb_forall. split.
  - intros H row f A B. specialize (H row A). rewrite forallb_forall in H. specialize (H f B). unfold FIELD_LIMIT in H. lia.
  - intros H row A. apply forallb_forall. intros f B. specialize (H row f A B). unfold FIELD_LIMIT. lia.
Qed.
