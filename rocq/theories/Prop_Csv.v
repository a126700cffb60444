(** * Reading ppucd.txt (C94): module_builder/UCDReader.py:155-156 *)
From Coq Require Import ZArith List Bool Lia ZifyBool String.
From Verif Require Import Py Dict Utilities PyStr UCDFacts CharNames ModuleBuilder CsvReader CsvFacts.
Import ListNotations.
Open Scope Z_scope.
Local Notation length := List.length.
Local Notation concat := List.concat.

(** ** C94: the rows are those written

    [written text v] (CsvFacts.v): a field is written as it is, without semicolon, line end and NUL
    and not beginning with a quotation mark, or between quotation marks with those inside doubled.
    A record is its fields separated by semicolons, ended by LF or CR LF, the last one perhaps
    by the end of the file; an empty line is a row without fields. *)
Theorem C94_round_trip : forall recs last lastRow rows,
  Forall (fun r => record (fst (fst r)) (snd (fst r)) /\ eol_ok (snd r)) recs -> record last lastRow ->
  rows = map (fun r => snd (fst r)) recs ++ match last with [] => [] | _ => [lastRow] end ->
  let text := flat_map (fun r => fst (fst r) ++ snd r) recs ++ last in
  ((forall row f, In row rows -> In f row -> Z.of_nat (length f) <= 131072) -> csvRows text = Ok rows) /\
  ((exists row f, In row rows /\ In f row /\ Z.of_nat (length f) > 131072) -> csvRows text = Err CsvError).
Proof.
  intros recs last lastRow rows F L -> text. unfold csvRows. subst text. rewrite (csv_round_trip _ _ _ F L). cbn [bind]. split.
  - intros H. apply short_iff in H. rewrite H. reflexivity.
  - intros (row & f & A & B & C). destruct (short _) eqn:E; [|reflexivity]. rewrite short_iff in E. specialize (E row f A B). lia.
Qed.
Print Assumptions C94_round_trip.

(** the reader fails for files that contain NUL or a field of more than 131072 characters only; the rows
    hold no more characters than the file *)
Theorem C94_errors : forall text,
  (exists rows, csvRows text = Ok rows /\ (forall row, In row rows -> (length (concat row) <= length text)%nat) /\
    (forall row f, In row rows -> In f row -> Z.of_nat (length f) <= 131072)) /\ ~ In 0 text \/
  csvRows text = Err CsvError /\ (In 0 text \/ Z.of_nat (length text) > 131072).
Proof.
  intros text. destruct (lines_ok (length text) text [] (le_n _) ltac:(intros c [])) as [A B]. cbn [app] in B. unfold csvRows, fileLines. destruct (in_dec Z.eq_dec 0 text) as [I|I].
  - right. split; [|left; exact I]. rewrite nul_error; [reflexivity|exact A|rewrite B; exact I|discriminate].
  - destruct (rows_total (linesFrom text []) A ltac:(rewrite B; exact I) reset ltac:(discriminate)) as [rows E]. rewrite E. cbn [bind].
    assert (Q : forall row, In row rows -> (length (concat row) <= length text)%nat).
    { intros row Hr. pose proof (size_rows _ _ _ E row Hr) as Q. rewrite B in Q. unfold rsize, reset, size in Q. cbn [r_fields r_field concat length] in Q. lia. }
    destruct (short rows) eqn:SH.
    + left. split; [|exact I]. exists rows. split; [reflexivity|]. split; [exact Q|]. apply short_iff. exact SH.
    + right. split; [reflexivity|]. right. destruct (Z_le_gt_dec (Z.of_nat (length text)) 131072) as [Hle|]; [|lia]. exfalso.
      enough (short rows = true) by congruence. apply short_iff. intros row f Hr Hf. specialize (Q row Hr). apply field_size in Hf. unfold size in Hf. lia.
Qed.
Print Assumptions C94_errors.

Lemma plain_record l : (forall c, In c l -> c <> 10 /\ c <> 13 /\ c <> 34 /\ c <> 0) -> record l (match l with [] => [] | _ => py_split l 59 end).
Proof.
  intros F. destruct l as [|c l]; [constructor|]. destruct (splitFrom_join 59 (c :: l) []) as (J & _ & N & NE). cbn [app] in J.
  assert (E : record (join [59] (py_split (c :: l) 59)) (py_split (c :: l) 59)).
  { constructor; [|unfold py_split; rewrite J; discriminate|exact NE]. unfold py_split. specialize (N ltac:(intros [])).
    assert (P : forall p, In p (splitFrom 59 (c :: l) []) -> written p p).
    { intros p Hp. assert (Hin : forall d, In d p -> In d (c :: l)).
      { intros d Hd. rewrite <- J. revert Hp Hd. clear. induction (splitFrom 59 (c :: l) []) as [|q r IH]; [intros []|]. intros Hp Hd. cbn [join].
        destruct r as [|q2 r]; [destruct Hp as [->|[]]; exact Hd|]. destruct Hp as [->|Hp]; apply in_or_app; [left; exact Hd|]. right. apply in_or_app. right. apply IH; assumption. }
      rewrite Forall_forall in N. constructor.
      - intros d Hd. destruct (F d (Hin d Hd)) as (F1 & F2 & F3 & F4). repeat split; auto. intros ->. exact (N p Hp Hd).
      - destruct p as [|d p]; [discriminate|]. cbn [hd]. apply (F d). apply Hin. left. reflexivity. }
    clear -P. induction (splitFrom 59 (c :: l) []) as [|q r IH]; constructor; [apply P; left; reflexivity|]. apply IH. intros p Hp. apply P. right. exact Hp. }
  unfold py_split in E at 1. rewrite J in E. exact E.
Qed.
(** without quotation marks a row is its line, split at the semicolons *)
Theorem C94_split_partial : forall lines, Forall (fun l => Z.of_nat (length l) <= 131072 /\ forall c, In c l -> c <> 10 /\ c <> 13 /\ c <> 34 /\ c <> 0) lines ->
  csvRows (flat_map (fun l => l ++ [10]) lines) = Ok (map (fun l => match l with [] => [] | _ => py_split l 59 end) lines).
Proof.
  intros lines F. set (rowOf := fun l : str => match l with [] => [] | _ => py_split l 59 end).
  destruct (C94_round_trip (map (fun l => (l, rowOf l, [10])) lines) [] [] (map rowOf lines)) as [Q _].
  - apply Forall_forall. intros r Hr. apply in_map_iff in Hr as (l & <- & Hl). cbn [fst snd]. split; [|left; reflexivity].
    rewrite Forall_forall in F. destruct (F l Hl) as [_ F']. apply plain_record. exact F'.
  - constructor.
  - rewrite map_map, app_nil_r. reflexivity.
  - rewrite app_nil_r in Q. replace (flat_map (fun l => l ++ [10]) lines) with (flat_map (fun r : str * list str * str => fst (fst r) ++ snd r) (map (fun l => (l, rowOf l, [10])) lines)).
    2:{ clear. induction lines as [|l r IH]; [reflexivity|]. cbn [map flat_map fst snd]. rewrite IH. reflexivity. }
    apply Q. intros row f Hr Hf. apply in_map_iff in Hr as (l & <- & Hl). rewrite Forall_forall in F. destruct (F l Hl) as [Z _]. unfold rowOf in Hf.
    destruct l as [|c l]; [destruct Hf|]. enough (length f <= length (c :: l))%nat by lia. unfold py_split in Hf. destruct (splitFrom_join 59 (c :: l) []) as (J & _). cbn [app] in J.
    rewrite <- J. revert Hf. clear. induction (splitFrom 59 (c :: l) []) as [|q r IH]; [intros []|]. intros Hf. cbn [join]. destruct r as [|q2 r]; [destruct Hf as [->|[]]; lia|].
    rewrite !app_length. destruct Hf as [->|Hf]; [lia|]. specialize (IH Hf). lia.
Qed.
Print Assumptions C94_split_partial.
(** with them it may not be: a field that begins with a quotation mark runs on to the next one,
    over the ends of lines *)
Definition quoted_text : str := lit "value;gc;""Lu;Uppercase_Letter" ++ [10] ++ lit "ucd;13.0.0" ++ [10].
Theorem C94_split_refuted : exists lines, Forall (fun l => forall c, In c l -> c <> 10 /\ c <> 13 /\ c <> 0) lines /\
  csvRows (flat_map (fun l => l ++ [10]) lines) <> Ok (map (fun l => match l with [] => [] | _ => py_split l 59 end) lines).
Proof.
  exists [lit "value;gc;""Lu;Uppercase_Letter"; lit "ucd;13.0.0"]. split.
  - repeat (constructor; [intros c Hc; repeat (destruct Hc as [<-|Hc]; [repeat split; discriminate|]); destruct Hc|]). constructor.
  - vm_compute. discriminate.
Qed.
Print Assumptions C94_split_refuted.

(** ** The dictionaries from the text of the file *)
(** UCDReader.py:158-180 with the reader *)
Definition dictionariesOf (text : str) : res (option str * dict (list str)) := let* rows := csvRows text in generateDictionaries rows.
(** two rows with CR LF, one with quotation marks and line ends, an empty line, a last row without end *)
Definition recs1 : list (str * list str * str) :=
  [(lit "ucd;13.0.0", [lit "ucd"; lit "13.0.0"], [13; 10]); ([], [], [10]);
   (lit "a;""x""""y;" ++ [13; 10; 13] ++ lit "z"";", [lit "a"; lit "x""y;" ++ [13; 10; 13] ++ lit "z"; []], [10])].
Example C94_case : csvRows (lit "ucd;13.0.0" ++ [13; 10; 10] ++ lit "a;""x""""y;" ++ [13; 10; 13] ++ lit "z"";" ++ [10] ++ lit "value;gc;Lu;Uppercase_Letter") =
    Ok [[lit "ucd"; lit "13.0.0"]; []; [lit "a"; lit "x""y;" ++ [13; 10; 13] ++ lit "z"; []]; [lit "value"; lit "gc"; lit "Lu"; lit "Uppercase_Letter"]] /\
  Forall (fun r => record (fst (fst r)) (snd (fst r)) /\ eol_ok (snd r)) recs1 /\
  csvRows quoted_text = Ok [[lit "value"; lit "gc"; lit "Lu;Uppercase_Letter" ++ [10] ++ lit "ucd;13.0.0" ++ [10]]] /\
  csvRows (lit "a;" ++ [0]) = Err CsvError /\
  dictionariesOf (lit "ucd;13.0.0" ++ [10] ++ lit "value;gc;Lu;Uppercase_Letter" ++ [10]) = Ok (Some (lit "13.0.0"), [(lit "gc", [lit "    U_UPPERCASE_LETTER: ""Lu"""])]) /\
  dictionariesOf quoted_text = Err IndexError.
Proof.
  split; [vm_compute; reflexivity|]. split; [|vm_compute; repeat split].
  assert (P : forall s, forallb (fun c => negb (c =? 59) && negb (c =? 10) && negb (c =? 13) && negb (c =? 0)) s = true -> hd 0 s <> 34 -> written s s).
  { intros s H N. constructor; [|exact N]. intros c Hc. rewrite forallb_forall in H. specialize (H c Hc). cbv beta in H. lia. }
  constructor; [|constructor; [|constructor; [|constructor]]]; cbn [fst snd].
  - split; [|right; reflexivity]. apply (FieldsRecord [lit "ucd"; lit "13.0.0"]); [|discriminate|discriminate].
    constructor; [apply P; [vm_compute; reflexivity|discriminate]|]. constructor; [apply P; [vm_compute; reflexivity|discriminate]|]. constructor.
  - split; [constructor|left; reflexivity].
  - split; [|left; reflexivity]. apply (FieldsRecord [lit "a"; [34] ++ doubled (lit "x""y;" ++ [13; 10; 13] ++ lit "z") ++ [34]; []]); [|discriminate|discriminate].
    constructor; [apply P; [vm_compute; reflexivity|discriminate]|]. constructor; [apply QuotedField; vm_compute; intuition discriminate|]. constructor; [apply P; [reflexivity|discriminate]|]. constructor.
Qed.
