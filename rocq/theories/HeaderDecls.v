(** * HeaderToPtyhon: the declarations of a header and the module made of them. *)
From Coq Require Import ZArith List Bool Lia String.
From Verif Require Import Py Dict PyStr CharNames PyText HeaderFile HeaderFacts.
Import ListNotations.
Open Scope Z_scope.
Local Notation length := List.length.
Local Notation concat := List.concat.

Definition word (s : str) : Prop := s <> [] /\ forallb wordChar s = true.
Definition spaces (s : str) : Prop := forallb uSpace s = true.
Lemma word_not_space c : wordChar c = true -> uSpace c = false.
Proof. unfold wordChar, uSpace. lia. Qed.
Lemma space_not_word c : uSpace c = true -> wordChar c = false.
Proof. unfold wordChar, uSpace. lia. Qed.
Lemma spaces_stop_word s t : spaces s -> s <> [] -> stops wordChar (s ++ t).
Proof. intros H N. destruct s as [|c s]; [contradiction|]. cbn in *. apply andb_prop in H. apply space_not_word. tauto. Qed.
Lemma skipn_app_len {A} (a b : list A) : skipn (length a) (a ++ b) = b.
Proof. induction a; [reflexivity|assumption]. Qed.
Lemma starts_front p s r : starts p (p ++ s ++ r) = true.
Proof. apply starts_app. Qed.
(** ** The first token *)
Lemma firstToken_intro t r : t <> [] -> forallb (fun c => negb (uSpace c)) t = true -> stops (fun c => negb (uSpace c)) r -> firstToken (t ++ r) = Ok t.
Proof.
  intros N H S. unfold firstToken. destruct t as [|c t]; [contradiction|]. pose proof H as H'. cbn in H'. apply andb_prop in H'. destruct H' as [H1 _].
  apply negb_true_iff in H1. rewrite lstrip_id by exact H1. rewrite span_intro by assumption. reflexivity.
Qed.
Lemma spaces_stop s t : spaces s -> (s = [] -> t = []) -> stops (fun c => negb (uSpace c)) (s ++ t).
Proof.
  intros H N. destruct s as [|c s]; [rewrite (N eq_refl); exact I|]. cbn in *. apply andb_prop in H. destruct H as [-> _]. reflexivity.
Qed.

(** ** #define *)
Lemma define_token r : firstToken (lit "#define " ++ r) = Ok (lit "#define").
Proof. change (lit "#define " ++ r) with (lit "#define" ++ (lit " " ++ r)). apply firstToken_intro; [discriminate|reflexivity|reflexivity]. Qed.
Lemma search_front s x : defineMatch s = Some x -> defineSearch s = Some x.
Proof. intros H. destruct s; cbn [defineSearch]; rewrite H; reflexivity. Qed.
Lemma defineMatch_front name r : word name -> stops wordChar r ->
  defineMatch (lit "#define " ++ name ++ r) =
  (let '(n, r1) := match args r with Some (g, r1) => (name ++ g, r1) | None => (name, r) end in
   let '(sp, v) := span uSpace r1 in
   match v with
   | [] => match rev sp with c :: _ :: _ => Some (n, [c]) | _ => Some (n, []) end
   | _ => match sp with [] => Some (n, []) | _ => Some (n, v) end
   end).
Proof.
  intros [N W] S. unfold defineMatch. rewrite starts_front. change 8%nat with (length (lit "#define ")). rewrite skipn_app_len.
  rewrite span_intro by assumption. destruct name; [contradiction|]. reflexivity.
Qed.
Lemma args_space sp r : spaces sp -> sp <> [] -> args (sp ++ r) = None.
Proof.
  intros H N. destruct sp as [|c sp]; [contradiction|]. unfold args. change (lit "(") with [40]. cbn [app starts]. unfold spaces in H. cbn in H.
  destruct (40 =? c) eqn:E; [|reflexivity]. apply Z.eqb_eq in E. subst c. discriminate.
Qed.
Lemma define_value name sp v : word name -> spaces sp -> sp <> [] -> v <> [] -> stops uSpace v ->
  defineSearch (lit "#define " ++ name ++ sp ++ v) = Some (name, v).
Proof.
  intros W S N NV SV. apply search_front. rewrite defineMatch_front; [|exact W|apply spaces_stop_word; assumption].
  rewrite args_space by assumption. rewrite span_intro by assumption. destruct v; [contradiction|]. destruct sp; [contradiction|]. reflexivity.
Qed.
Lemma define_flag name : word name -> defineSearch (lit "#define " ++ name) = Some (name, []).
Proof. intros W. apply search_front. rewrite <- (app_nil_r name) at 1. rewrite defineMatch_front; [reflexivity|exact W|exact I]. Qed.
Lemma args_paren s g r : args s = Some (g, r) -> existsb (Z.eqb 40) g = true.
Proof.
  unfold args. destruct (starts (lit "(") s); [|discriminate]. destruct (span wordChar (skipn 1 s)) as [a r0]. destruct a; [discriminate|].
  destruct (starts (lit ")") r0); [intros H; injection H as <- <-; reflexivity|]. destruct (starts (lit ",") r0); [|discriminate].
  destruct (span uSpace (skipn 1 r0)), (span wordChar s1). destruct s2; [discriminate|]. destruct (starts (lit ")") s3); [|discriminate].
  intros H; injection H as <- <-; reflexivity.
Qed.
Lemma define_call name r : word name -> exists n v, defineSearch (lit "#define " ++ name ++ lit "(" ++ r) = Some (n, v) /\ (v = [] \/ existsb (Z.eqb 40) n = true).
Proof.
  intros W. assert (E : defineMatch (lit "#define " ++ name ++ lit "(" ++ r) = _) by (apply defineMatch_front; [exact W|reflexivity]).
  destruct (args (lit "(" ++ r)) as [[g r1]|] eqn:A.
  - pose proof (args_paren _ _ _ A) as P. assert (Q : existsb (Z.eqb 40) (name ++ g) = true) by (rewrite existsb_app, P; apply orb_true_r).
    destruct (span uSpace r1) as [sp v]. destruct v as [|v0 v].
    + destruct (rev sp) as [|c [|c' l]]; eexists; eexists; (split; [apply search_front; exact E|right; exact Q]).
    + destruct sp; eexists; eexists; (split; [apply search_front; exact E|right; exact Q]).
  - change (lit "(") with [40] in *. cbn [app span uSpace] in E. cbn in E. exists name, []. split; [apply search_front; exact E|left; reflexivity].
Qed.

(** ** Entries of an enumeration *)
Record entry := { e_name : str; e_text : option str; e_comment : str; e_line : str }.
(** the line: name, name followed by something other than "=", or name = text; the text
    has no comma in it, and after it only a comma can come *)
Definition entry_ok (e : entry) : Prop :=
  word (e_name e) /\ ~ In 125 (e_line e) /\
  match e_text e with
  | None => exists tail, e_line e = e_name e ++ tail /\ stops wordChar tail /\ starts (lit "=") (lstrip tail) = false
  | Some v => exists s1 s2 tail, e_line e = e_name e ++ s1 ++ lit "=" ++ s2 ++ v ++ tail /\ spaces s1 /\ spaces s2 /\
                v <> [] /\ stops uSpace v /\ ~ In 44 v /\ (tail = [] \/ exists r, tail = lit "," ++ r)
  end.
Lemma no_comma v : ~ In 44 v -> forallb (fun c => negb (c =? 44)) v = true.
Proof. intros H. apply forallb_forall. intros c I. apply negb_true_iff. apply Z.eqb_neq. intros ->. contradiction. Qed.
Lemma enumEntry_ok e : entry_ok e -> enumEntry (e_line e) = Some (e_name e, match e_text e with Some v => v | None => [] end).
Proof.
  intros ([N W] & _ & H). unfold enumEntry.
  assert (F : forall r, span (fun c => negb (wordChar c)) (e_name e ++ r) = ([], e_name e ++ r)).
  { intros r. apply span_nil. destruct (e_name e) as [|c n]; [contradiction|]. cbn in W |- *. apply andb_prop in W. destruct W as [-> _]. reflexivity. }
  destruct (e_text e) as [v|].
  - destruct H as (s1 & s2 & tail & -> & S1 & S2 & NV & SV & C & T). rewrite F. rewrite span_intro; [|exact W|].
    2: { destruct s1; [reflexivity|]. apply spaces_stop_word; [exact S1|discriminate]. }
    destruct (e_name e) as [|n0 nm]; [contradiction|]. rewrite span_intro; [|exact S1|reflexivity].
    rewrite starts_app. change 1%nat with (length (lit "=")). rewrite skipn_app_len. rewrite span_intro; [|exact S2|].
    2: { destruct v; [contradiction|]. exact SV. }
    rewrite span_intro; [|apply no_comma; exact C|destruct T as [->|[r ->]]; [exact I|reflexivity]].
    destruct v; [contradiction|]. reflexivity.
  - destruct H as (tail & -> & S & E). rewrite F. rewrite span_intro by assumption. destruct (e_name e) as [|n0 nm]; [contradiction|].
    unfold lstrip in E. destruct (span uSpace tail) as [a b]. cbn [snd] in E. rewrite E. reflexivity.
Qed.
Lemma endOfEnum_brace s : endOfEnum s = true -> In 125 s.
Proof.
  induction s as [|c r IH]; [discriminate|]. cbn [endOfEnum]. destruct (endMatch (c :: r)) eqn:E; [|intros H; right; apply IH; exact H].
  intros _. left. unfold endMatch in E. change (lit "}") with [125] in E. cbn [starts] in E. destruct (125 =? c) eqn:Q; [apply Z.eqb_eq in Q; congruence|discriminate].
Qed.
Lemma entry_open e : entry_ok e -> starts (lit "{") (e_line e) = false.
Proof.
  intros ([N W] & _ & H). assert (exists r, e_line e = e_name e ++ r) as [r ->].
  { destruct (e_text e); [destruct H as (s1 & s2 & tail & -> & _)|destruct H as (tail & -> & _)]; eauto. }
  destruct (e_name e) as [|c n]; [contradiction|]. cbn in W. apply andb_prop in W. destruct W as [W _]. change (lit "{") with [123]. cbn [app starts].
  destruct (123 =? c) eqn:E; [|reflexivity]. apply Z.eqb_eq in E. subst c. discriminate.
Qed.

(** C's numbering: the value of the text, or one more than the value before, 0 at first.
    [value text names] is the value of a text, given the values of the names before. *)
Inductive numbered (value : str -> dict Z -> res Z) : Z -> dict Z -> list entry -> list Z -> Prop :=
| num_nil n names : numbered value n names [] []
| num_next n names e es zs : e_text e = None ->
    numbered value (n + 1) (dict_set names (e_name e) n) es zs -> numbered value n names (e :: es) (n :: zs)
| num_text n names e es zs v z : e_text e = Some v -> value v names = Ok z ->
    numbered value (z + 1) (dict_set names (e_name e) z) es zs -> numbered value n names (e :: es) (z :: zs).
(** an assignment, and its comment if there is one *)
Definition written (name value comment : str) : str :=
  match comment with [] => name ++ lit " = " ++ value | _ => name ++ lit " = " ++ value ++ lit "  # " ++ comment end.
Lemma outputLine_written name value comment : outputLine name value comment = written name value comment.
Proof. unfold outputLine, written. destruct comment; [rewrite app_nil_r|]; reflexivity. Qed.
(** name = text, or the number when there is no text *)
Definition entry_out (e : entry) (z : Z) : str :=
  written (e_name e) (match e_text e with Some v => v | None => dec z end) (e_comment e).

(** ** Declarations, as lines with their trailing comments *)
Inductive decl :=
| DValue (name sp value comment : str)      (* #define name value *)
| DFlag (name comment : str)                (* #define name *)
| DCall (name rest comment : str)           (* #define name(rest *)
| DOther (line comment : str)
| DEnum (head comment : str) (braces : list (str * str)) (entries : list entry) (close comment2 : str).
(** "enum" with anything after it, or "typedef enum" with name and brace *)
Definition head_ok (head : str) : Prop :=
  (exists sp r, head = lit "enum" ++ sp ++ r /\ spaces sp /\ (sp = [] -> r = [])) \/
  (exists s1 s2 s3 name b, head = lit "typedef" ++ s1 ++ lit "enum" ++ s2 ++ name ++ s3 ++ b /\ spaces s1 /\ s1 <> [] /\ spaces s2 /\ spaces s3 /\
     forallb wordChar name = true /\ (s2 = [] -> name = []) /\ (name = [] -> s3 = []) /\ (b = [] \/ b = lit "{")).
(** "}" with a name or without, ";" and anything *)
Definition close_ok (close : str) : Prop :=
  exists s1 name s2 r, close = lit "}" ++ s1 ++ name ++ s2 ++ lit ";" ++ r /\ spaces s1 /\ spaces s2 /\ forallb wordChar name = true /\ (name = [] -> s2 = []).
Definition keyword (t : str) : Prop := t = lit "#define" \/ t = lit "enum" \/ t = lit "typedef".
Definition decl_ok (d : decl) : Prop :=
  match d with
  | DValue name sp value _ => word name /\ spaces sp /\ sp <> [] /\ value <> [] /\ stops uSpace value
  | DFlag name _ | DCall name _ _ => word name
  | DOther line _ => exists t r, line = t ++ r /\ t <> [] /\ forallb (fun c => negb (uSpace c)) t = true /\ stops (fun c => negb (uSpace c)) r /\ ~ keyword t
  | DEnum head _ braces entries close _ => head_ok head /\ Forall (fun l => starts (lit "{") (fst l) = true) braces /\ Forall entry_ok entries /\ close_ok close
  end.
Definition decl_lines (d : decl) : list (str * str) :=
  match d with
  | DValue name sp value c => [(lit "#define " ++ name ++ sp ++ value, c)]
  | DFlag name c => [(lit "#define " ++ name, c)]
  | DCall name rest c => [(lit "#define " ++ name ++ lit "(" ++ rest, c)]
  | DOther line c => [(line, c)]
  | DEnum head c braces entries close c2 => (head, c) :: braces ++ map (fun e => (e_line e, e_comment e)) entries ++ [(close, c2)]
  end.
(** the assignments that belong to a declaration *)
Definition decl_out (value : str -> dict Z -> res Z) (ignore : list str) (d : decl) (out : list str) : Prop :=
  match d with
  | DValue name _ v c => (In name ignore /\ out = []) \/ (~ In name ignore /\ out = [written name v c])
  | DEnum _ _ _ entries _ _ => exists zs, numbered value 0 [] entries zs /\ out = map (fun '(e, z) => entry_out e z) (combine entries zs)
  | _ => out = []
  end.

Section Translate.
  Variable guard : str.
  Variable value : str -> dict Z -> res Z.
  Variable ignore : list str.
  (** str(n) is a numeral of n *)
  Hypothesis value_dec : forall n names, value (dec n) names = Ok n.

  Lemma in_ignore name : existsb (str_eqb name) ignore = true <-> In name ignore.
  Proof.
    rewrite existsb_exists. split.
    - intros [x [I E]]. apply str_eqb_eq in E. subst x. exact I.
    - intros I. exists name. split; [exact I|apply str_eqb_refl].
  Qed.
  Lemma entries_gen entries l : Forall entry_ok entries -> forall n names zs o, numbered value n names entries zs ->
    (forall n names, gen value ignore l (Some (n, names)) = Ok o) ->
    gen value ignore (map (fun e => (e_line e, e_comment e)) entries ++ l) (Some (n, names)) = Ok (map (fun '(e, z) => entry_out e z) (combine entries zs) ++ o).
  Proof.
    intros H. induction H as [|e es H Hs IH]; intros n names zs o N G.
    - inversion N; subst. cbn. apply G.
    - cbn [map app gen]. rewrite (entry_open e H). assert (endOfEnum (e_line e) = false) as ->.
      { destruct (endOfEnum (e_line e)) eqn:E; [|reflexivity]. apply endOfEnum_brace in E. destruct H as (_ & B & _). contradiction. }
      rewrite (enumEntry_ok e H). inversion N as [|? ? ? ? zs' T N'|? ? ? ? zs' v z T V N']; subst.
      + rewrite T. cbv iota zeta. rewrite value_dec. cbn [bind]. rewrite (IH _ _ _ _ N' G). cbn [bind combine map]. unfold entry_out at 2. rewrite T, <- outputLine_written. reflexivity.
      + rewrite T. destruct H as (_ & _ & H). rewrite T in H. destruct H as (? & ? & ? & _ & _ & _ & NV & _). destruct v as [|v0 v]; [contradiction|]. cbv iota zeta.
        rewrite V. cbn [bind]. rewrite (IH _ _ _ _ N' G). cbn [bind combine map]. unfold entry_out at 2. rewrite T, <- outputLine_written. reflexivity.
  Qed.
  Lemma braces_gen braces l st : Forall (fun x => starts (lit "{") (fst x) = true) braces -> gen value ignore (braces ++ l) (Some st) = gen value ignore l (Some st).
  Proof.
    intros H. induction H as [|[b c] bs H Hs IH]; [reflexivity|]. cbn [app gen]. cbn [fst] in H. rewrite H. destruct st. exact IH.
  Qed.
  Lemma stops_word s t : forallb wordChar s = true -> (s = [] -> stops uSpace t) -> stops uSpace (s ++ t).
  Proof. intros W S. destruct s as [|c s]; [exact (S eq_refl)|]. cbn in W |- *. apply andb_prop in W. apply word_not_space. tauto. Qed.
  Lemma stops_space s t : spaces s -> stops wordChar t -> stops wordChar (s ++ t).
  Proof. intros H S. destruct s as [|c s]; [exact S|]. apply spaces_stop_word; [exact H|discriminate]. Qed.
  Lemma close_gen close c l st : close_ok close -> gen value ignore ((close, c) :: l) (Some st) = gen value ignore l None.
  Proof.
    intros (s1 & name & s2 & r & -> & S1 & S2 & W & NS). cbn [gen]. destruct st as [n names].
    change (starts (lit "{") (lit "}" ++ s1 ++ name ++ s2 ++ lit ";" ++ r)) with false. cbv iota.
    assert (endMatch (lit "}" ++ s1 ++ name ++ s2 ++ lit ";" ++ r) = true) as E.
    { unfold endMatch. rewrite starts_app. change 1%nat with (length (lit "}")). rewrite skipn_app_len.
      rewrite span_intro; [|exact S1|]. 2: { apply stops_word; [exact W|]. intros N. rewrite (NS N). reflexivity. }
      rewrite span_intro; [|exact W|apply stops_space; [exact S2|reflexivity]]. rewrite span_intro; [|exact S2|reflexivity]. apply starts_app. }
    change (lit "}" ++ s1 ++ name ++ s2 ++ lit ";" ++ r) with (125 :: s1 ++ name ++ s2 ++ lit ";" ++ r) in *. cbn [endOfEnum]. rewrite E. reflexivity.
  Qed.
  Lemma typedef_ok s1 s2 s3 name b : spaces s1 -> s1 <> [] -> spaces s2 -> spaces s3 -> forallb wordChar name = true -> (s2 = [] -> name = []) -> (name = [] -> s3 = []) ->
    (b = [] \/ b = lit "{") -> typedefEnum (lit "typedef" ++ s1 ++ lit "enum" ++ s2 ++ name ++ s3 ++ b) = true.
  Proof.
    intros S1 N1 S2 S3 W _ N3 B. unfold typedefEnum. rewrite starts_app. change 7%nat with (length (lit "typedef")). rewrite skipn_app_len.
    rewrite span_intro; [|exact S1|reflexivity]. destruct s1; [contradiction|]. rewrite starts_app. change 4%nat with (length (lit "enum")). rewrite skipn_app_len.
    rewrite span_intro; [|exact S2|]. 2: { apply stops_word; [exact W|]. intros N. rewrite (N3 N). destruct B as [->| ->]; [exact I|reflexivity]. }
    rewrite span_intro; [|exact W|]. 2: { apply stops_space; [exact S3|]. destruct B as [->| ->]; [exact I|reflexivity]. }
    rewrite span_intro; [|exact S3|]. 2: { destruct B as [->| ->]; [exact I|reflexivity]. }
    destruct B as [->| ->]; reflexivity.
  Qed.
  Lemma enum_gen head c l : head_ok head -> gen value ignore ((head, c) :: l) None = gen value ignore l (Some (0, [])).
  Proof.
    intros [(sp & r & -> & S & N)|(s1 & s2 & s3 & name & b & -> & S1 & N1 & S2 & S3 & W & N2 & N3 & B)]; cbn [gen].
    - rewrite firstToken_intro; [reflexivity|discriminate|reflexivity|apply spaces_stop; assumption].
    - rewrite firstToken_intro; [|discriminate|reflexivity|apply spaces_stop; [exact S1|contradiction]]. cbn [bind].
      change (str_eqb (lit "typedef") (lit "#define")) with false. cbv iota. unfold enumStart. change (str_eqb (lit "typedef") (lit "enum")) with false.
      change (str_eqb (lit "typedef") (lit "typedef")) with true. cbn [andb orb]. rewrite typedef_ok by assumption. reflexivity.
  Qed.
  Lemma decl_gen d out l o : decl_ok d -> decl_out value ignore d out -> gen value ignore l None = Ok o -> gen value ignore (decl_lines d ++ l) None = Ok (out ++ o).
  Proof.
    intros D O G. destruct d as [name sp v c|name c|name rest c|line c|head c braces entries close c2]; cbn [decl_ok decl_lines decl_out] in *.
    - destruct D as (W & S & N & NV & SV). cbn [app gen]. rewrite define_token. cbn [bind]. rewrite str_eqb_refl. unfold defineOut.
      rewrite define_value by assumption. destruct O as [[I ->]|[I ->]].
      + apply in_ignore in I. rewrite I. cbn [orb bind]. rewrite G. reflexivity.
      + destruct (existsb (str_eqb name) ignore) eqn:E; [apply in_ignore in E; contradiction|]. destruct v as [|v0 v]; [contradiction|]. cbn [orb].
        assert (existsb (Z.eqb 40) name = false) as ->.
        { destruct W as [_ W]. destruct (existsb (Z.eqb 40) name) eqn:Q; [|reflexivity]. apply existsb_exists in Q. destruct Q as [x [I2 Q]]. apply Z.eqb_eq in Q. subst x.
          rewrite forallb_forall in W. specialize (W 40 I2). discriminate. }
        rewrite outputLine_written. cbn [bind]. rewrite G. reflexivity.
    - subst out. cbn [app gen]. rewrite define_token. cbn [bind]. rewrite str_eqb_refl. unfold defineOut. rewrite define_flag by exact D.
      rewrite orb_true_r. cbn [orb bind]. rewrite G. reflexivity.
    - subst out. cbn [app gen]. rewrite define_token. cbn [bind]. rewrite str_eqb_refl. unfold defineOut.
      destruct (define_call name rest D) as (n & v & -> & [->|Q]).
      + rewrite orb_true_r. cbn [orb bind]. rewrite G. reflexivity.
      + rewrite Q, orb_true_r. cbn [bind]. rewrite G. reflexivity.
    - subst out. destruct D as (t & r & -> & N & F & S & K). cbn [app gen]. rewrite firstToken_intro by assumption. cbn [bind].
      destruct (str_eqb t (lit "#define")) eqn:E1; [apply str_eqb_eq in E1; elim K; left; exact E1|]. unfold enumStart.
      destruct (str_eqb t (lit "enum")) eqn:E2; [apply str_eqb_eq in E2; elim K; right; left; exact E2|].
      destruct (str_eqb t (lit "typedef")) eqn:E3; [apply str_eqb_eq in E3; elim K; right; right; exact E3|]. exact G.
    - destruct D as (H & B & E & C). destruct O as (zs & N & ->). cbn [app]. rewrite enum_gen by exact H. rewrite <- app_assoc. rewrite braces_gen by exact B.
      rewrite <- app_assoc. apply entries_gen with (names := []); [exact E|exact N|]. intros n names. cbn [app]. rewrite close_gen by exact C. exact G.
  Qed.
  Lemma decls_gen ds outs : Forall decl_ok ds -> Forall2 (decl_out value ignore) ds outs -> gen value ignore (flat_map decl_lines ds) None = Ok (concat outs).
  Proof.
    intros D O. induction O as [|d out ds outs O Os IH]; [reflexivity|]. inversion D; subst. cbn [flat_map concat]. apply decl_gen; auto.
  Qed.
  Theorem translate_decls lines ds outs : delivered guard lines (flat_map decl_lines ds) -> Forall decl_ok ds -> Forall2 (decl_out value ignore) ds outs ->
    translate guard value ignore lines = Ok (concat outs).
  Proof. intros D O1 O2. rewrite (translate_delivered _ _ _ _ _ D). apply decls_gen; assumption. Qed.
End Translate.
