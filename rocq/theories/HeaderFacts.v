(** * HeaderToPtyhon: which lines are read, and what becomes of them. *)
From Coq Require Import ZArith List Bool Lia String.
From Verif Require Import Py Dict PyStr CharNames PyText HeaderFile.
Import ListNotations.
Open Scope Z_scope.
Local Notation length := List.length.
Local Notation concat := List.concat.

(** ** The pieces *)
Lemma starts_app p s : starts p (p ++ s) = true.
Proof. induction p as [|x p IH]; cbn; [reflexivity|]. rewrite Z.eqb_refl. exact IH. Qed.
Lemma starts_iff p s : starts p s = true <-> exists r, s = p ++ r.
Proof.
  split.
  - revert s. induction p as [|x p IH]; intros s H; cbn in *; [exists s; reflexivity|].
    destruct s as [|y s]; [discriminate|]. destruct (x =? y) eqn:E; [|discriminate]. apply Z.eqb_eq in E. subst y.
    destruct (IH s H) as [r ->]. exists r. reflexivity.
  - intros [r ->]. apply starts_app.
Qed.
Lemma starts_cons x y p s : starts (x :: p) (y :: s) = if x =? y then starts p s else false.
Proof. reflexivity. Qed.
Lemma span_app p s : s = fst (span p s) ++ snd (span p s).
Proof.
  induction s as [|c r IH]; cbn; [reflexivity|]. destruct (p c); [|reflexivity]. destruct (span p r) as [a b]. cbn in *. congruence.
Qed.
Lemma span_all p s : forallb p (fst (span p s)) = true.
Proof.
  induction s as [|c r IH]; cbn; [reflexivity|]. destruct (p c) eqn:E; [|reflexivity]. destruct (span p r) as [a b]. cbn in *. rewrite E. exact IH.
Qed.
Definition stops (p : Z -> bool) (s : str) : Prop := match s with [] => True | c :: _ => p c = false end.
Lemma span_stops p s : stops p (snd (span p s)).
Proof.
  induction s as [|c r IH]; cbn; [exact I|]. destruct (p c) eqn:E; [|exact E]. destruct (span p r) as [a b]. exact IH.
Qed.
Lemma span_intro p a b : forallb p a = true -> stops p b -> span p (a ++ b) = (a, b).
Proof.
  intros H S. induction a as [|c a IH]; cbn in *.
  - destruct b as [|c b]; [reflexivity|]. cbn in S |- *. rewrite S. reflexivity.
  - apply andb_prop in H. destruct H as [H1 H2]. rewrite H1, (IH H2). reflexivity.
Qed.
Lemma span_nil p b : stops p b -> span p b = ([], b).
Proof. intros S. exact (span_intro p [] b eq_refl S). Qed.
Lemma lstrip_suffix s : exists w, s = w ++ lstrip s /\ forallb uSpace w = true.
Proof. exists (fst (span uSpace s)). split; [apply span_app|apply span_all]. Qed.

(** ** The line that guards a header

    "#ifndef", spaces, and the name, with "__" around it or not, at the end of the line *)
Definition guard_line (name t : str) : Prop := exists pre s1 a b s2,
  t = pre ++ lit "#ifndef" ++ s1 ++ a ++ name ++ b ++ s2 /\ s1 <> [] /\ forallb uSpace s1 = true /\ forallb uSpace s2 = true /\
  (a = [] \/ a = lit "__") /\ (b = [] \/ b = lit "__").
(** names that do not begin with a space *)
Definition header_name (name : str) : Prop := match name with [] => False | c :: _ => uSpace c = false end.
Lemma skipn_len {A} (a b : list A) : skipn (length a) (a ++ b) = b.
Proof. induction a; [reflexivity|assumption]. Qed.
Lemma lstrip_nil s : lstrip s = [] <-> forallb uSpace s = true.
Proof.
  unfold lstrip. split.
  - intros H. rewrite (span_app uSpace s), H, app_nil_r. apply span_all.
  - intros H. rewrite <- (app_nil_r s). rewrite span_intro; [reflexivity|exact H|exact I].
Qed.
Definition guardTail (t : str) : bool :=
  match lstrip t with [] => true | _ => match lstrip (skipn 2 t) with [] => starts (lit "__") t | _ => false end end.
Lemma guardTail_iff t : guardTail t = true <-> exists b s2, t = b ++ s2 /\ (b = [] \/ b = lit "__") /\ forallb uSpace s2 = true.
Proof.
  unfold guardTail. split.
  - destruct (lstrip t) eqn:E; [intros _; exists [], t; split; [reflexivity|]; split; [left; reflexivity|apply lstrip_nil, E]|].
    destruct (lstrip (skipn 2 t)) eqn:E2; [|discriminate]. intros H. apply starts_iff in H as [r ->]. exists (lit "__"), r. split; [reflexivity|].
    split; [right; reflexivity|]. apply lstrip_nil. change 2%nat with (length (lit "__")) in E2. rewrite skipn_len in E2. exact E2.
  - intros (b & s2 & -> & [->| ->] & H).
    + cbn [app]. apply lstrip_nil in H. rewrite H. reflexivity.
    + destruct (lstrip (lit "__" ++ s2)); [reflexivity|]. change 2%nat with (length (lit "__")). rewrite skipn_len. apply lstrip_nil in H. rewrite H. apply starts_app.
Qed.
Definition guardBody (name t : str) : bool := if starts name t then guardTail (skipn (length name) t) else false.
Lemma guardAt_eq name s : guardAt name s =
  if starts (lit "#ifndef") s then
    let '(sp, r) := span uSpace (skipn 7 s) in
    match sp with [] => false | _ => if starts (lit "__") r then if guardBody name (skipn 2 r) then true else guardBody name r else guardBody name r end
  else false.
Proof. reflexivity. Qed.
Lemma guardAt_iff name s : header_name name ->
  (guardAt name s = true <-> exists s1 a b s2, s = lit "#ifndef" ++ s1 ++ a ++ name ++ b ++ s2 /\ s1 <> [] /\ forallb uSpace s1 = true /\ forallb uSpace s2 = true /\
     (a = [] \/ a = lit "__") /\ (b = [] \/ b = lit "__")).
Proof.
  intros HN. rewrite guardAt_eq. split.
  - destruct (starts (lit "#ifndef") s) eqn:E; [|discriminate]. apply starts_iff in E as [r ->]. change 7%nat with (length (lit "#ifndef")). rewrite skipn_len.
    pose proof (span_app uSpace r) as R. pose proof (span_all uSpace r) as A. destruct (span uSpace r) as [sp t]. cbn [fst snd] in R, A. subst r.
    destruct sp as [|c sp]; [discriminate|]. intros H.
    assert (B : forall t, guardBody name t = true ->
              exists b s2, t = name ++ b ++ s2 /\ forallb uSpace s2 = true /\ (b = [] \/ b = lit "__")).
    { intros u Hu. unfold guardBody in Hu. destruct (starts name u) eqn:E; [|discriminate]. apply starts_iff in E as [v ->]. rewrite skipn_len in Hu.
      apply guardTail_iff in Hu as (b & s2 & -> & Hb & Hs). exists b, s2. auto. }
    destruct (starts (lit "__") t) eqn:E.
    + apply starts_iff in E as [v ->]. change 2%nat with (length (lit "__")) in H. rewrite skipn_len in H.
      destruct (guardBody name v) eqn:G.
      * apply B in G as (b & s2 & -> & Hs & Hb). exists (c :: sp), (lit "__"), b, s2. repeat split; auto. discriminate.
      * apply B in H as (b & s2 & Hv & Hs & Hb). exists (c :: sp), [], b, s2. split; [rewrite Hv; reflexivity|]. repeat split; auto. discriminate.
    + apply B in H as (b & s2 & -> & Hs & Hb). exists (c :: sp), [], b, s2. repeat split; auto. discriminate.
  - intros (s1 & a & b & s2 & -> & N & H1 & H2 & Ha & Hb). rewrite starts_app. change 7%nat with (length (lit "#ifndef")). rewrite skipn_len.
    rewrite span_intro; [|exact H1|]. 2: { destruct Ha as [->| ->]; [|reflexivity]. destruct name; [contradiction|exact HN]. }
    destruct s1 as [|c s1]; [contradiction|].
    assert (B : guardBody name (name ++ b ++ s2) = true).
    { unfold guardBody. rewrite starts_app, skipn_len. apply guardTail_iff. exists b, s2. auto. }
    destruct Ha as [->| ->].
    + cbn [app]. rewrite B. destruct (starts (lit "__") (name ++ b ++ s2)); [|reflexivity]. destruct (guardBody name (skipn 2 _)); reflexivity.
    + rewrite starts_app. change 2%nat with (length (lit "__")). rewrite skipn_len. rewrite B. reflexivity.
Qed.
Theorem guardSearch_iff name s : header_name name -> (guardSearch name s = true <-> guard_line name s).
Proof.
  intros HN. induction s as [|c r IH].
  - cbn [guardSearch]. destruct (guardAt name []) eqn:E; [discriminate E|]. split; [discriminate|].
    intros (pre & s1 & a & b & s2 & H & _). destruct pre; discriminate H.
  - cbn [guardSearch]. destruct (guardAt name (c :: r)) eqn:E.
    + split; [|reflexivity]. intros _. apply (guardAt_iff name _ HN) in E as (s1 & a & b & s2 & H). exists [], s1, a, b, s2. exact H.
    + rewrite IH. split.
      * intros (pre & s1 & a & b & s2 & -> & H). exists (c :: pre), s1, a, b, s2. split; [reflexivity|exact H].
      * intros (pre & s1 & a & b & s2 & H & Q). destruct pre as [|c' pre].
        -- assert (T : guardAt name (c :: r) = true) by (apply (guardAt_iff name _ HN); exists s1, a, b, s2; split; [exact H|exact Q]). congruence.
        -- cbn [app] in H. injection H as -> ->. exists pre, s1, a, b, s2. split; [reflexivity|exact Q].
Qed.
Lemma guardSearch_not name s : header_name name -> ~ guard_line name s -> guardSearch name s = false.
Proof. intros HN H. destruct (guardSearch name s) eqn:E; [|reflexivity]. elim H. apply guardSearch_iff; assumption. Qed.

(** ** The lines of a header, one after the other *)
Section Lines.
  Variable guard : str.
  Hypothesis guard_fine : header_name guard.

  Inductive delivered : list str -> list (str * str) -> Prop :=
  | d_end lines rest : nextLine guard lines = (None, rest) -> delivered lines []
  | d_next lines rest x l : nextLine guard lines = (Some x, rest) -> delivered rest l -> delivered lines (x :: l).
  Lemma delivered_fun lines l l' : delivered lines l -> delivered lines l' -> l = l'.
  Proof.
    intros H. revert l'. induction H as [lines rest H|lines rest x l H H1 IH]; intros l' H'; inversion H' as [? r' E|? r' x' l2 E E1]; subst.
    - reflexivity.
    - congruence.
    - congruence.
    - rewrite H in E. injection E as <- <-. f_equal. apply IH. exact E1.
  Qed.

  (** what a header consists of; every line is given as it is in the file *)
  Inductive item :=
  | IBlank (raw : str)                                     (* white space *)
  | ISlash (raw : str)                                     (* // ... *)
  | IComment (raw : str)                                   (* /* ... */ *)
  | IComments (first : str) (mids : list str) (last : str) (* a comment of several lines *)
  | IGuard (raw : str) | IEndif (raw : str)                (* around the whole header *)
  | ICond (first : str) (mids : list str) (last : str)     (* #if ... #endif *)
  | ICode (raw : str)
  | IMacro (first : str) (mids : list str) (last : str).   (* a definition with continuation lines *)

  Definition nonempty (s : str) : Prop := s <> [].
  (** a line that is neither white space, comment nor conditional *)
  Definition plain (t : str) : Prop :=
    t <> [] /\ starts (lit "//") t = false /\ starts (lit "/*") t = false /\ starts (lit "#if") t = false /\ starts (lit "#endif") t = false.
  Definition item_ok (i : item) : Prop :=
    match i with
    | IBlank raw => raw <> [] /\ trim raw = []
    | ISlash raw => starts (lit "//") (trim raw) = true
    | IComment raw => starts (lit "/*") (trim raw) = true /\ ends (lit "*/") (trim raw) = true
    | IComments first mids last =>
        starts (lit "/*") (trim first) = true /\ ends (lit "*/") (trim first) = false /\
        Forall (fun raw => raw <> [] /\ ends (lit "*/") (trim raw) = false) mids /\
        ends (lit "*/") (trim last) = true /\ starts (lit "//") (trim last) = false /\ starts (lit "/*") (trim last) = false
    | IGuard raw => starts (lit "#if") (trim raw) = true /\ guard_line guard (trim raw)
    | IEndif raw => starts (lit "#endif") (trim raw) = true
    | ICond first mids last =>
        starts (lit "#if") (trim first) = true /\ ~ guard_line guard (trim first) /\
        Forall (fun raw => raw <> [] /\ starts (lit "#endif") (trim raw) = false /\
                           (starts (lit "/*") (trim raw) = true -> ends (lit "*/") (trim raw) = true)) mids /\
        starts (lit "#endif") (trim last) = true
    | ICode raw => plain (trim raw) /\ (starts (lit "#define") (trim raw) = true -> ends [92] (trim raw) = false)
    | IMacro first mids last =>
        starts (lit "#define") (trim first) = true /\ ends [92] (trim first) = true /\
        Forall (fun raw => plain (trim raw) /\ starts (lit "#define") (trim raw) = false /\ ends [92] (trim raw) = true) mids /\
        plain (trim last) /\ ends [92] (trim last) = false
    end.
  Definition item_lines (i : item) : list str :=
    match i with
    | IBlank r | ISlash r | IComment r | IGuard r | IEndif r | ICode r => [r]
    | IComments f m l | ICond f m l | IMacro f m l => f :: m ++ [l]
    end.
  (** the code of an item: continuation lines are put together *)
  Definition item_code (i : item) : list str :=
    match i with
    | ICode raw => [trim raw]
    | IMacro f m l => [removelast (trim f) ++ concat (map (fun raw => trim (removelast (trim raw))) m) ++ trim l]
    | _ => []
    end.

  Lemma trim_nil : trim [] = [].
  Proof. reflexivity. Qed.
  Lemma raw_nonempty raw p : starts p (trim raw) = true -> p <> [] -> exists c r, raw = c :: r /\ exists c' r', trim raw = c' :: r'.
  Proof.
    intros H N. destruct raw as [|c r]; [cbn in H; destruct p; [contradiction|discriminate]|]. exists c, r. split; [reflexivity|].
    destruct (trim (c :: r)) as [|c' r']; [destruct p; [contradiction|discriminate]|]. eauto.
  Qed.

  (** one line at a time *)
  Definition nextOne (line : str) (inComment inConditional inMacro : bool) (macroLine : str)
      (k : bool -> bool -> bool -> str -> option (str * str) * list str) (rest : list str) :=
    match line with
    | [] => k inComment inConditional inMacro macroLine
    | _ =>
        if starts (lit "//") line then k inComment inConditional inMacro macroLine
        else if starts (lit "/*") line then
          if ends (lit "*/") line then k inComment inConditional inMacro macroLine
          else k true inConditional inMacro macroLine
        else if inComment then k (negb (ends (lit "*/") line)) inConditional inMacro macroLine
        else if starts (lit "#if") line then
          k inComment (if guardSearch guard line then inConditional else true) inMacro macroLine
        else if inConditional then k inComment (negb (starts (lit "#endif") line)) inMacro macroLine
        else if starts (lit "#endif") line then k inComment inConditional inMacro macroLine
        else if starts (lit "#define") line && ends [92] line then k inComment inConditional true (removelast line)
        else if inMacro then
          if ends [92] line then k inComment inConditional inMacro (macroLine ++ trim (removelast line))
          else (Some (getTrailingComment (macroLine ++ line)), rest)
        else (Some (getTrailingComment line), rest)
    end.
  Lemma nextLoop_cons raw rest a b c m : raw <> [] ->
    nextLoop guard (raw :: rest) a b c m = nextOne (trim raw) a b c m (nextLoop guard rest) rest.
  Proof. destruct raw; [contradiction|]. reflexivity. Qed.

  Lemma excl (x y : Z) p q t : x <> y -> starts (x :: p) t = true -> starts (y :: q) t = false.
  Proof.
    intros N H. destruct t as [|z t]; [reflexivity|]. rewrite starts_cons in *. destruct (x =? z) eqn:E; [|discriminate].
    apply Z.eqb_eq in E. subst z. destruct (y =? x) eqn:E2; [|reflexivity]. apply Z.eqb_eq in E2. congruence.
  Qed.
  Lemma excl2 (w x y : Z) p q t : x <> y -> starts (w :: x :: p) t = true -> starts (w :: y :: q) t = false.
  Proof.
    intros N H. destruct t as [|z t]; [reflexivity|]. rewrite starts_cons in *. destruct (w =? z); [|reflexivity].
    exact (excl x y p q t N H).
  Qed.
  Definition code_of (c : Z) (s : str) : str := c :: s.

  Ltac lits := change (lit "//") with [47; 47] in *; change (lit "/*") with [47; 42] in *; change (lit "*/") with [42; 47] in *;
    change (lit "#if") with [35; 105; 102] in *; change (lit "#endif") with [35; 101; 110; 100; 105; 102] in *;
    change (lit "#define") with [35; 100; 101; 102; 105; 110; 101] in *.

  Lemma comment_body mids last rest b c m :
    Forall (fun raw => raw <> [] /\ ends (lit "*/") (trim raw) = false) mids ->
    ends (lit "*/") (trim last) = true -> starts (lit "//") (trim last) = false -> starts (lit "/*") (trim last) = false ->
    nextLoop guard (mids ++ last :: rest) true b c m = nextLoop guard rest false b c m.
  Proof.
    intros H E1 E2 E3. induction H as [|raw mids [N H] Hs IH].
    - cbn [app]. rewrite nextLoop_cons by (intros ->; discriminate E1).
      unfold nextOne. rewrite E2, E3, E1. destruct (trim last); [discriminate E1|reflexivity].
    - cbn [app]. rewrite nextLoop_cons by exact N. unfold nextOne. destruct (trim raw) as [|x t] eqn:T; [exact IH|].
      destruct (starts (lit "//") (x :: t)); [exact IH|]. rewrite H. destruct (starts (lit "/*") (x :: t)); exact IH.
  Qed.
  Lemma cond_body mids last rest c m :
    Forall (fun raw => raw <> [] /\ starts (lit "#endif") (trim raw) = false /\
                           (starts (lit "/*") (trim raw) = true -> ends (lit "*/") (trim raw) = true)) mids ->
    starts (lit "#endif") (trim last) = true ->
    nextLoop guard (mids ++ last :: rest) false true c m = nextLoop guard rest false false c m.
  Proof.
    intros H E. induction H as [|raw mids (N & H1 & H2) Hs IH].
    - cbn [app]. rewrite nextLoop_cons by (intros ->; discriminate E). unfold nextOne.
      destruct (trim last) as [|x t] eqn:T; [discriminate E|]. rewrite E. lits.
      rewrite (excl 35 47 _ _ _ ltac:(discriminate) E), (excl 35 47 _ _ _ ltac:(discriminate) E), (excl2 35 101 105 _ _ _ ltac:(discriminate) E). reflexivity.
    - cbn [app]. rewrite nextLoop_cons by exact N. unfold nextOne. destruct (trim raw) as [|x t] eqn:T; [exact IH|].
      destruct (starts (lit "//") (x :: t)); [exact IH|]. destruct (starts (lit "/*") (x :: t)); [rewrite (H2 eq_refl); exact IH|].
      destruct (starts (lit "#if") (x :: t)); [destruct (guardSearch guard (x :: t)); exact IH|]. rewrite H1. exact IH.
  Qed.
  Lemma macro_body mids last rest m :
    Forall (fun raw => plain (trim raw) /\ starts (lit "#define") (trim raw) = false /\ ends [92] (trim raw) = true) mids ->
    plain (trim last) -> ends [92] (trim last) = false ->
    nextLoop guard (mids ++ last :: rest) false false true m =
    (Some (getTrailingComment (m ++ concat (map (fun raw => trim (removelast (trim raw))) mids) ++ trim last)), rest).
  Proof.
    intros H P E. revert m. induction H as [|raw mids ((N & P1 & P2 & P3 & P4) & H1 & H2) Hs IH]; intros m.
    - cbn [app map concat]. destruct P as (N & P1 & P2 & P3 & P4). rewrite nextLoop_cons by (intros ->; apply N; reflexivity).
      unfold nextOne. rewrite P1, P2, P3, P4, E, andb_false_r. destruct (trim last); [contradiction|reflexivity].
    - cbn [app map concat]. rewrite nextLoop_cons by (intros ->; apply N; reflexivity).
      unfold nextOne. rewrite P1, P2, P3, P4, H1, H2. cbn [andb]. destruct (trim raw) as [|x t] eqn:T; [contradiction|].
      rewrite IH. rewrite <- app_assoc. rewrite <- app_assoc. reflexivity.
  Qed.

  Lemma next_item i rest : item_ok i -> nextLine guard (item_lines i ++ rest) =
    match item_code i with [] => nextLine guard rest | x :: _ => (Some (getTrailingComment x), rest) end.
  Proof.
    unfold nextLine. destruct i as [raw|raw|raw|f mids l|raw|raw|f mids l|raw|f mids l]; cbn [item_ok item_lines item_code]; intros H.
    - destruct H as [N H]. cbn [app]. rewrite nextLoop_cons by exact N. rewrite H. reflexivity.
    - destruct (raw_nonempty _ _ H ltac:(discriminate)) as (c & r & -> & c' & r' & T). cbn [app]. rewrite nextLoop_cons by discriminate.
      unfold nextOne. rewrite H. rewrite T. reflexivity.
    - destruct H as [H E]. destruct (raw_nonempty _ _ H ltac:(discriminate)) as (c & r & -> & c' & r' & T). cbn [app]. rewrite nextLoop_cons by discriminate.
      unfold nextOne. rewrite H, E. rewrite T. destruct (starts (lit "//") (c' :: r')); reflexivity.
    - destruct H as (H & E & M & L1 & L2 & L3). destruct (raw_nonempty _ _ H ltac:(discriminate)) as (c & r & -> & c' & r' & T).
      cbn [app]. rewrite nextLoop_cons by discriminate. unfold nextOne. rewrite H, E. lits. rewrite (excl2 47 42 47 _ _ _ ltac:(discriminate) H). rewrite T.
      rewrite <- app_assoc. cbn [app]. apply comment_body; assumption.
    - destruct H as [H G]. apply guardSearch_iff in G; [|exact guard_fine]. destruct (raw_nonempty _ _ H ltac:(discriminate)) as (c & r & -> & c' & r' & T). cbn [app]. rewrite nextLoop_cons by discriminate.
      unfold nextOne. rewrite H, G. lits. rewrite (excl 35 47 _ _ _ ltac:(discriminate) H), (excl 35 47 _ _ _ ltac:(discriminate) H). rewrite T. reflexivity.
    - destruct (raw_nonempty _ _ H ltac:(discriminate)) as (c & r & -> & c' & r' & T). cbn [app]. rewrite nextLoop_cons by discriminate.
      unfold nextOne. rewrite H. lits. rewrite (excl 35 47 _ _ _ ltac:(discriminate) H), (excl 35 47 _ _ _ ltac:(discriminate) H), (excl2 35 101 105 _ _ _ ltac:(discriminate) H). rewrite T. reflexivity.
    - destruct H as (H & G & M & L). apply guardSearch_not in G; [|exact guard_fine]. destruct (raw_nonempty _ _ H ltac:(discriminate)) as (c & r & -> & c' & r' & T).
      cbn [app]. rewrite nextLoop_cons by discriminate. unfold nextOne. rewrite H, G. lits.
      rewrite (excl 35 47 _ _ _ ltac:(discriminate) H), (excl 35 47 _ _ _ ltac:(discriminate) H). rewrite T.
      rewrite <- app_assoc. cbn [app]. apply cond_body; assumption.
    - destruct H as [(N & P1 & P2 & P3 & P4) D]. cbn [app]. rewrite nextLoop_cons by (intros ->; apply N; reflexivity).
      unfold nextOne. rewrite P1, P2, P3, P4. destruct (trim raw) as [|x t]; [contradiction|].
      destruct (starts (lit "#define") (x :: t)); [rewrite (D eq_refl)|]; reflexivity.
    - destruct H as (H & E & M & P & L). destruct (raw_nonempty _ _ H ltac:(discriminate)) as (c & r & -> & c' & r' & T).
      cbn [app]. rewrite nextLoop_cons by discriminate. unfold nextOne. rewrite H, E. lits.
      rewrite (excl 35 47 _ _ _ ltac:(discriminate) H), (excl 35 47 _ _ _ ltac:(discriminate) H), (excl2 35 100 105 _ _ _ ltac:(discriminate) H),
        (excl2 35 100 101 _ _ _ ltac:(discriminate) H). cbn [andb]. destruct (trim (c :: r)) as [|y t] eqn:T2; [discriminate|].
      rewrite <- app_assoc. cbn [app]. apply macro_body; assumption.
  Qed.

  Theorem lines_of_items items : Forall item_ok items ->
    delivered (flat_map item_lines items) (map getTrailingComment (flat_map item_code items)).
  Proof.
    intros H. induction H as [|i items H Hs IH].
    - cbn. eapply d_end. reflexivity.
    - cbn [flat_map]. rewrite map_app. pose proof (next_item i (flat_map item_lines items) H) as N.
      destruct (item_code i) as [|x l] eqn:E.
      + cbn [map app]. inversion IH as [? r E1|? r y l E1 E2]; subst.
        * eapply d_end. rewrite N. exact E1.
        * eapply d_next; [rewrite N; exact E1|exact E2].
      + assert (l = []) as -> by (destruct i; cbn in E; inversion E; reflexivity).
        cbn [map app]. eapply d_next; [exact N|exact IH].
  Qed.
End Lines.

(** ** What is read never has an empty line in it *)
Lemma lstrip_stops s : stops uSpace (lstrip s).
Proof. apply span_stops. Qed.
Lemma lstrip_id s : stops uSpace s -> lstrip s = s.
Proof. intros H. unfold lstrip. rewrite span_nil by exact H. reflexivity. Qed.
Lemma lstrip_app a b : lstrip a <> [] -> lstrip (a ++ b) = lstrip a ++ b.
Proof.
  induction a as [|c a IH]; [intros H; contradiction|]. unfold lstrip in *. cbn. destruct (uSpace c); [|reflexivity].
  destruct (span uSpace a), (span uSpace (a ++ b)). cbn in *. exact IH.
Qed.
(** text that starts with something other than white space, and so does what is left of it *)
Definition solid (s : str) : Prop := match s with [] => False | c :: _ => uSpace c = false end.
Lemma trim_solid c s : uSpace c = false -> exists r, trim (c :: s) = c :: r /\ exists w, s = r ++ w.
Proof.
  intros H. unfold trim. rewrite (lstrip_id (c :: s)) by exact H. cbn [rev].
  destruct (lstrip (rev s)) as [|x t] eqn:E.
  - exists []. split; [|exists s; reflexivity]. assert (lstrip (rev s ++ [c]) = [c]) as ->; [|reflexivity].
    destruct (lstrip_suffix (rev s)) as [w [W A]]. rewrite E, app_nil_r in W. rewrite W. unfold lstrip. rewrite span_intro; [reflexivity|exact A|exact H].
  - exists (rev (x :: t)). split.
    + rewrite lstrip_app by (rewrite E; discriminate). rewrite E. rewrite rev_app_distr. reflexivity.
    + destruct (lstrip_suffix (rev s)) as [w [W A]]. rewrite E in W. exists (rev w).
      rewrite <- rev_app_distr, <- W, rev_involutive. reflexivity.
Qed.
Lemma trim_stops s : stops uSpace (trim s).
Proof.
  pose proof (lstrip_stops s) as S. unfold trim. destruct (lstrip s) as [|c r]; [exact I|].
  destruct (trim_solid c r S) as [t [E _]]. unfold trim in E. rewrite (lstrip_id (c :: r) S) in E. rewrite E. exact S.
Qed.
Lemma trim_nonempty s : trim s <> [] -> solid (trim s).
Proof. pose proof (trim_stops s) as S. destruct (trim s); [contradiction|]. intros _. exact S. Qed.

Lemma search_before m s a g : search m s = Some (a, g) -> (exists b, s = a ++ b) /\ (m s = None -> a <> []).
Proof.
  revert a g. induction s as [|c r IH]; intros a g; cbn.
  - destruct (m []); [intros [= <- <-]; split; [exists []; reflexivity|discriminate]|discriminate].
  - destruct (m (c :: r)); [intros [= <- <-]; split; [exists (c :: r); reflexivity|discriminate]|].
    destruct (search m r) as [[a' g']|]; [|discriminate]. intros [= <- <-]. destruct (IH a' g' eq_refl) as [[b ->] _].
    split; [exists b; reflexivity|discriminate].
Qed.
(** a line that does not start with a comment *)
Definition codeStart (s : str) : Prop := solid s /\ starts (lit "/*") s = false /\ starts (lit "//") s = false.
Lemma trailing_solid s : codeStart s -> solid (fst (getTrailingComment s)).
Proof.
  intros (S & C1 & C2). unfold getTrailingComment. destruct s as [|c s]; [destruct S|].
  assert (N : forall m, m (c :: s) = None -> forall a g, search m (c :: s) = Some (a, g) -> solid (trim a)).
  { intros m M a g H. destruct (search_before m _ _ _ H) as [[b E] N]. specialize (N M). destruct a as [|x a]; [contradiction|].
    inversion E; subst x. destruct (trim_solid c a S) as [r [-> _]]. exact S. }
  destruct (search cMatch (c :: s)) as [[a g]|] eqn:E.
  - apply (N cMatch) with g; [|exact E]. unfold cMatch. rewrite C1. reflexivity.
  - destruct (search eolMatch (c :: s)) as [[a g]|] eqn:E2; [|exact S].
    apply (N eolMatch) with g; [|exact E2]. unfold eolMatch. rewrite C2. reflexivity.
Qed.
Lemma firstToken_solid s : solid s -> exists t, firstToken s = Ok t.
Proof.
  unfold firstToken. destruct s as [|c s]; [intros []|]. intros S. rewrite (lstrip_id (c :: s)) by exact S. cbn. cbn in S. rewrite S. cbn.
  destruct (span (fun c => negb (uSpace c)) s). cbn. eauto.
Qed.

Section Read.
  Variable guard : str.

  (** a macro is begun by "#define" *)
  Lemma next_solid lines a b c m x rest : (c = true -> codeStart m /\ (2 <= length m)%nat) ->
    nextLoop guard lines a b c m = (Some x, rest) -> solid (fst x) /\ (length rest < length lines)%nat.
  Proof.
    revert a b c m. induction lines as [|raw lines IH]; intros a b c m M; [discriminate|].
    destruct raw as [|r0 raw]; [discriminate|]. rewrite nextLoop_cons by discriminate. unfold nextOne.
    pose proof (trim_nonempty (r0 :: raw)) as S. destruct (trim (r0 :: raw)) as [|y t] eqn:T.
    { intros H. destruct (IH _ _ _ _ M H). split; [assumption|cbn; lia]. }
    specialize (S ltac:(discriminate)).
    assert (K : forall a b c m, (c = true -> codeStart m /\ (2 <= length m)%nat) -> nextLoop guard lines a b c m = (Some x, rest) -> solid (fst x) /\ (length rest < length (((r0 :: raw) :: lines) : list str))%nat).
    { intros a' b' c' m' M' H. destruct (IH _ _ _ _ M' H). split; [assumption|cbn [length]; lia]. }
    destruct (starts (lit "//") (y :: t)) eqn:E1; [apply K; exact M|].
    destruct (starts (lit "/*") (y :: t)) eqn:E2; [destruct (ends (lit "*/") (y :: t)); apply K; exact M|].
    destruct a; [apply K; exact M|]. destruct (starts (lit "#if") (y :: t)); [apply K; exact M|]. destruct b; [apply K; exact M|].
    destruct (starts (lit "#endif") (y :: t)); [apply K; exact M|].
    destruct (starts (lit "#define") (y :: t)) eqn:D; cbn [andb].
    - destruct (ends [92] (y :: t)) eqn:E3.
      + apply K. intros _. apply starts_iff in D. destruct D as [r D].
        destruct r as [|r1 r] using rev_ind; [rewrite D in E3; discriminate|]. rewrite D, app_assoc, removelast_last.
        change (lit "#define") with [35; 100; 101; 102; 105; 110; 101]. split; [|cbn [app length]; lia]. repeat split.
      + destruct c; intros [= <- <-]; (split; [|cbn [length]; lia]); apply trailing_solid.
        * destruct (M eq_refl) as [(M1 & M2 & M3) L]. destruct m as [|m0 [|m1 m]]; [cbn in L; lia|cbn in L; lia|].
          split; [exact M1|]. change (lit "/*") with [47; 42] in *. change (lit "//") with [47; 47] in *. cbn in M2, M3 |- *. split; assumption.
        * split; [exact S|]. split; assumption.
    - destruct c.
      + destruct (M eq_refl) as [(M1 & M2 & M3) L]. destruct m as [|m0 [|m1 m]]; [cbn in L; lia|cbn in L; lia|].
        assert (codeStart ((m0 :: m1 :: m) ++ t) -> True) as _ by auto.
        assert (CS : forall u, codeStart ((m0 :: m1 :: m) ++ u)).
        { intros u. split; [exact M1|]. change (lit "/*") with [47; 42] in *. change (lit "//") with [47; 47] in *. cbn in M2, M3 |- *. split; assumption. }
        destruct (ends [92] (y :: t)).
        * apply K. intros _. split; [apply CS|]. rewrite app_length. lia.
        * intros [= <- <-]. split; [|cbn [length]; lia]. apply trailing_solid. apply CS.
      + intros [= <- <-]. split; [|cbn [length]; lia]. apply trailing_solid. split; [exact S|]. split; assumption.
  Qed.
  Lemma nextLine_solid lines x rest : nextLine guard lines = (Some x, rest) -> solid (fst x) /\ (length rest < length lines)%nat.
  Proof. apply next_solid. discriminate. Qed.
  Lemma next_none lines a b c m rest : nextLoop guard lines a b c m = (None, rest) -> forall a' b' c' m', nextLoop guard rest a' b' c' m' = (None, rest).
  Proof.
    revert a b c m. induction lines as [|raw lines IH]; intros a b c m; [intros [= <-]; reflexivity|]. destruct raw as [|r0 raw]; [intros [= <-]; reflexivity|].
    rewrite nextLoop_cons by discriminate. unfold nextOne.
    destruct (trim (r0 :: raw)) as [|y t]; [apply IH|]. destruct (starts (lit "//") (y :: t)); [apply IH|].
    destruct (starts (lit "/*") (y :: t)); [destruct (ends (lit "*/") (y :: t)); apply IH|]. destruct a; [apply IH|].
    destruct (starts (lit "#if") (y :: t)); [apply IH|]. destruct b; [apply IH|]. destruct (starts (lit "#endif") (y :: t)); [apply IH|].
    destruct (starts (lit "#define") (y :: t) && ends [92] (y :: t)); [apply IH|]. destruct c; [destruct (ends [92] (y :: t)); [apply IH|discriminate]|discriminate].
  Qed.
  Lemma delivered_exists lines : exists l, delivered guard lines l.
  Proof.
    assert (G : forall n lines, (length lines < n)%nat -> exists l, delivered guard lines l).
    { induction n as [|n IH]; [lia|]. intros ls L. destruct (nextLine guard ls) as [[x|] rest] eqn:E.
      - destruct (nextLine_solid _ _ _ E). destruct (IH rest) as [l D]; [lia|]. exists (x :: l). eapply d_next; eassumption.
      - exists []. eapply d_end. exact E. }
    apply (G (S (length lines))). lia.
  Qed.
  Lemma delivered_solid lines l : delivered guard lines l -> Forall (fun x => solid (fst x)) l.
  Proof. intros H. induction H as [|? ? ? ? E H IH]; constructor; [apply (nextLine_solid _ _ _ E)|exact IH]. Qed.

  (** *** The translation of the lines delivered *)
  Variable pyeval : str -> dict Z -> res Z.
  Variable ignore : list str.

  (** within an enumeration: the value of the next entry and the names so far *)
  Definition defineOut (line comment : str) : res (list str) :=
    match defineSearch line with
    | None => Err IndexError
    | Some (name, value) =>
        Ok (if existsb (str_eqb name) ignore || match value with [] => true | _ => false end || existsb (Z.eqb 40) name then []
            else [outputLine name value comment])
    end.
  Definition enumStart (token line : str) : bool := str_eqb token (lit "enum") || (str_eqb token (lit "typedef") && typedefEnum line).
  Fixpoint gen (l : list (str * str)) (enum : option (Z * dict Z)) : res (list str) :=
    match l with
    | [] => Ok []
    | (line, comment) :: r =>
        match enum with
        | Some (n, vars) =>
            if starts (lit "{") line then gen r enum
            else if endOfEnum line then gen r None
            else match enumEntry line with
                 | None => Err IndexError
                 | Some (name, value) =>
                     let text := match value with [] => dec n | _ => value end in
                     let* z := pyeval text vars in
                     let* o := gen r (Some (z + 1, dict_set vars name z)) in Ok (outputLine name text comment :: o)
                 end
        | None =>
            let* token := firstToken line in
            if str_eqb token (lit "#define") then
              let* o := defineOut line comment in let* o' := gen r None in Ok (o ++ o')
            else gen r (if enumStart token line then Some (0, []) else None)
        end
    end.
  Lemma bind_assoc {A B C} (x : res A) (f : A -> res B) (g : B -> res C) : bind (bind x f) g = bind x (fun a => bind (f a) g).
  Proof. destruct x; reflexivity. Qed.
  Lemma bind_ok {A B} (a : A) (f : A -> res B) : bind (Ok a) f = f a.
  Proof. reflexivity. Qed.
  Lemma bind_ext {A B} (x : res A) (f g : A -> res B) : (forall a, x = Ok a -> f a = g a) -> bind x f = bind x g.
  Proof. destruct x; cbn; [intros H; apply H; reflexivity|reflexivity]. Qed.

  Lemma translate_gen fuel : forall lines l, delivered guard lines l -> (length lines < fuel)%nat ->
    (forall out, translateLoop guard pyeval ignore fuel lines out = bind (gen l None) (fun o => Ok (out ++ o))) /\
    (forall fuel2 out n vars, (length lines < fuel2)%nat ->
       bind (enumLoop guard pyeval fuel2 lines n vars out) (fun '(rest, out) => translateLoop guard pyeval ignore fuel rest out)
       = bind (gen l (Some (n, vars))) (fun o => Ok (out ++ o))).
  Proof.
    (* the fuel of the outer loop need only cover the lines *)
    assert (M : forall k fuel lines l, delivered guard lines l -> (length lines < k)%nat -> (length lines < fuel)%nat ->
      (forall out, translateLoop guard pyeval ignore fuel lines out = bind (gen l None) (fun o => Ok (out ++ o))) /\
      (forall fuel2 out n vars, (length lines < fuel2)%nat ->
       bind (enumLoop guard pyeval fuel2 lines n vars out) (fun '(rest, out) => translateLoop guard pyeval ignore fuel rest out)
       = bind (gen l (Some (n, vars))) (fun o => Ok (out ++ o)))).
    { induction k as [|k IH]; intros f lines l D L LF; [lia|]. destruct f as [|f]; [lia|].
      inversion D as [? rest E|? rest [line comment] l' E D']; subst.
      - split.
        + intros out. cbn. rewrite E. rewrite app_nil_r. reflexivity.
        + intros f2 out n vars L2. destruct f2 as [|f2]; [lia|]. cbn [enumLoop]. rewrite E. cbn [bind gen]. cbn [translateLoop].
          assert (N : nextLine guard rest = (None, rest)).
          { exact (next_none _ _ _ _ _ _ E _ _ _ _). }
          rewrite N. rewrite app_nil_r. reflexivity.
      - destruct (nextLine_solid _ _ _ E) as [SO LR]. split.
        + intros out. cbn [translateLoop gen]. rewrite E. cbn [fst] in *. destruct (firstToken_solid line SO) as [t T]. rewrite T. cbn [bind].
          destruct (str_eqb t (lit "#define")).
          * unfold defineOut. destruct (defineSearch line) as [[name value]|]; [|reflexivity]. rewrite bind_assoc. cbn [bind].
            destruct (existsb (str_eqb name) ignore); cbn [orb].
            { rewrite (proj1 (IH f rest l' D' ltac:(lia) ltac:(lia))). rewrite !bind_assoc. reflexivity. }
            destruct value as [|v0 value]; cbn [orb].
            { rewrite (proj1 (IH f rest l' D' ltac:(lia) ltac:(lia))). rewrite !bind_assoc. reflexivity. }
            destruct (existsb (Z.eqb 40) name).
            { rewrite (proj1 (IH f rest l' D' ltac:(lia) ltac:(lia))). rewrite !bind_assoc. reflexivity. }
            rewrite (proj1 (IH f rest l' D' ltac:(lia) ltac:(lia))). rewrite !bind_assoc. apply bind_ext. intros o _. cbn [bind]. rewrite <- app_assoc. reflexivity.
          * fold (enumStart t line). destruct (enumStart t line).
            -- apply (proj2 (IH f rest l' D' ltac:(lia) ltac:(lia))). lia.
            -- apply (proj1 (IH f rest l' D' ltac:(lia) ltac:(lia))).
        + intros f2 out n vars L2. destruct f2 as [|f2]; [lia|]. cbn [enumLoop gen]. rewrite E.
          destruct (starts (lit "{") line); [apply (proj2 (IH (S f) rest l' D' ltac:(lia) ltac:(lia))); lia|].
          destruct (endOfEnum line); [apply (proj1 (IH (S f) rest l' D' ltac:(lia) ltac:(lia)))|].
          destruct (enumEntry line) as [[name value]|]; [|reflexivity]. cbv zeta. rewrite !bind_assoc. apply bind_ext. intros z _.
          rewrite (proj2 (IH (S f) rest l' D' ltac:(lia) ltac:(lia))) by lia. rewrite !bind_assoc. apply bind_ext. intros o _. cbn [bind]. rewrite <- app_assoc. reflexivity. }
    intros lines l D L. exact (M (S (length lines)) fuel lines l D ltac:(lia) L).
  Qed.
  Theorem translate_delivered lines l : delivered guard lines l -> translate guard pyeval ignore lines = gen l None.
  Proof.
    intros D. unfold translate. rewrite (proj1 (translate_gen (S (length lines)) lines l D ltac:(lia)) []).
    destruct (gen l None); reflexivity.
  Qed.
End Read.
