(** * Facts about Python numerals, [split], [replace] and the UCD classes *)
From Coq Require Import ZArith List Bool Lia ZifyBool String.
From Verif Require Import Py PyStr Dict Utilities HexFacts CharProps CharNames NamesFacts UCD.
Import ListNotations.
Open Scope Z_scope.
Local Notation length := List.length.
Local Notation concat := List.concat.

(** ** Numerals *)
(** the value of a digit, upper or lower case *)
Definition digit_value (c : Z) : Z := if c <=? 57 then c - 48 else if c <=? 70 then c - 55 else c - 87.
Definition is_digit (base c : Z) : Prop := 48 <= c <= 57 \/ (base = 16 /\ (65 <= c <= 70 \/ 97 <= c <= 102)).
(** [s] is a numeral for [n]: one or more digits, any number of leading zeros *)
Definition numeral (base : Z) (s : str) (n : Z) : Prop :=
  s <> [] /\ Forall (is_digit base) s /\ fold_left (fun acc c => acc * base + digit_value c) s 0 = n.

Lemma digitOf_value base c : base = 10 \/ base = 16 -> is_digit base c -> digitOf c = Some (digit_value c) /\ 0 <= digit_value c < base /\ c <> 95.
Proof.
  intros B H. unfold digitOf, digit_value. destruct H as [H|[-> H]].
  - replace ((48 <=? c) && (c <=? 57)) with true by lia. replace (c <=? 57) with true by lia. repeat split; lia.
  - destruct H as [H|H].
    + replace ((48 <=? c) && (c <=? 57)) with false by lia. replace ((65 <=? c) && (c <=? 90)) with true by lia.
      replace (c <=? 57) with false by lia. replace (c <=? 70) with true by lia. repeat split; lia.
    + replace ((48 <=? c) && (c <=? 57)) with false by lia. replace ((65 <=? c) && (c <=? 90)) with false by lia.
      replace ((97 <=? c) && (c <=? 122)) with true by lia. replace (c <=? 57) with false by lia. replace (c <=? 70) with false by lia. repeat split; lia.
Qed.
Lemma digitsLoop_ok base s : base = 10 \/ base = 16 -> Forall (is_digit base) s -> forall acc need, (s <> [] \/ need = false) ->
  digitsLoop base s acc need = Ok (fold_left (fun acc c => acc * base + digit_value c) s acc).
Proof.
  intros B. induction 1 as [|c r Hc F IH]; intros acc need N; cbn [digitsLoop fold_left].
  - destruct N as [N|N]; [congruence|]. rewrite N. reflexivity.
  - destruct (digitOf_value base c B Hc) as (E & R & U). replace (c =? 95) with false by lia. rewrite E.
    replace (digit_value c <? base) with true by lia. apply IH. right. reflexivity.
Qed.
Lemma stripLeft_digits base s : Forall (is_digit base) s -> stripLeft s = s.
Proof.
  intros F. destruct F as [|c r Hc _]; [reflexivity|]. cbn [stripLeft].
  replace (isSpace c) with false; [reflexivity|]. unfold isSpace. unfold is_digit in Hc. lia.
Qed.
Lemma strip_digits base s : Forall (is_digit base) s -> strip s = s.
Proof.
  intros F. unfold strip. rewrite (stripLeft_digits base s F), (stripLeft_digits base (rev s)), rev_involutive; [reflexivity|].
  apply Forall_rev. exact F.
Qed.
Lemma dropPrefix_digits base s : Forall (is_digit base) s -> dropPrefix base s = s.
Proof.
  intros F. destruct F as [|a r Ha F]; [reflexivity|]. destruct F as [|b r Hb F]; [reflexivity|]. cbn [dropPrefix].
  replace ((base =? 16) && (a =? 48) && ((b =? 120) || (b =? 88))) with false; [reflexivity|]. unfold is_digit in Hb. lia.
Qed.
Lemma py_int_numeral base s n : base = 10 \/ base = 16 -> numeral base s n -> py_int s base = Ok n.
Proof.
  intros B (N & F & V). unfold py_int. rewrite (strip_digits base) by exact F.
  assert (D : digitsLoop base (dropPrefix base s) 0 true = Ok n).
  { rewrite dropPrefix_digits by exact F. rewrite digitsLoop_ok by auto. rewrite V. reflexivity. }
  destruct s as [|c r]; [congruence|]. assert (C : c <> 43 /\ c <> 45) by (inversion F; subst; unfold is_digit in *; lia).
  cbv zeta. replace (c =? 43) with false by lia. replace (c =? 45) with false by lia. exact D.
Qed.
Lemma numeral_inj base s n m : numeral base s n -> numeral base s m -> n = m.
Proof. intros (_ & _ & A) (_ & _ & B). congruence. Qed.
Lemma numeral_nonneg base s n : 0 <= base -> numeral base s n -> 0 <= n.
Proof.
  intros B (_ & F & <-). enough (forall acc, 0 <= acc -> 0 <= fold_left (fun acc c => acc * base + digit_value c) s acc) by (apply H; lia).
  induction F as [|c r Hc F IH]; intros acc A; cbn [fold_left]; [exact A|]. apply IH.
  assert (0 <= digit_value c) by (unfold digit_value, is_digit in *; destruct (c <=? 57) eqn:E1; [lia|destruct (c <=? 70) eqn:E2; lia]). nia.
Qed.
(** what [f"{n:0wX}"] writes is a numeral for n *)
Lemma formatHex_numeral w n : 0 <= n -> numeral 16 (formatHex w n) n.
Proof.
  intros H. destruct (formatHex_digits w n H) as (ds & E & D & V & L & N). rewrite E. repeat split.
  - destruct ds; [congruence|discriminate].
  - apply Forall_forall. intros x Hx. apply in_map_iff in Hx as (d & <- & Hd). unfold digitsOK in D. rewrite Forall_forall in D.
    pose proof (hexChar_ok d (D d Hd)) as Q. unfold isHexChar in Q. unfold is_digit. lia.
  - rewrite <- V. unfold valDigits. generalize 0 as a. clear - D. intros a. revert a. induction D as [|d r Hd D IH]; intros a; cbn [map fold_left]; [reflexivity|].
    replace (digit_value (hexChar d)) with d; [apply IH|]. unfold digit_value, hexChar. destruct (d <? 10) eqn:E.
    + replace (48 + d <=? 57) with true by lia. lia.
    + replace (55 + d <=? 57) with false by lia. replace (55 + d <=? 70) with true by lia. lia.
Qed.

(** ** [split] and [join] *)
Lemma splitFrom_piece x p rest : ~ In x p -> forall cur, splitFrom x (p ++ rest) cur = splitFrom x rest (cur ++ p).
Proof.
  induction p as [|y p IH]; intros N cur; cbn [app splitFrom]; [rewrite app_nil_r; reflexivity|].
  replace (y =? x) with false by (enough (y <> x) by lia; intros ->; apply N; left; reflexivity).
  rewrite IH by (intros I; apply N; right; exact I). rewrite <- app_assoc. reflexivity.
Qed.
Lemma split_join x ps : ps <> [] -> Forall (fun p => ~ In x p) ps -> py_split (join [x] ps) x = ps.
Proof.
  unfold py_split. intros N F. induction F as [|p r Hp F IH]; [congruence|]. cbn [join]. destruct r as [|q r].
  - rewrite <- (app_nil_r p) at 1. rewrite splitFrom_piece by exact Hp. reflexivity.
  - rewrite splitFrom_piece by exact Hp. cbn [app splitFrom]. rewrite Z.eqb_refl. f_equal. apply IH. discriminate.
Qed.
Lemma splitFrom_join x s : forall cur, join [x] (splitFrom x s cur) = cur ++ s /\ Forall (fun p => ~ In x p) (tl (splitFrom x s cur)) /\
  (~ In x cur -> Forall (fun p => ~ In x p) (splitFrom x s cur)) /\ splitFrom x s cur <> [].
Proof.
  induction s as [|y r IH]; intros cur; cbn [splitFrom].
  - cbn [join tl]. rewrite app_nil_r. split; [reflexivity|]. split; [constructor|]. split; [auto|discriminate].
  - destruct (y =? x) eqn:E.
    + assert (y = x) by lia. subst y. destruct (IH []) as (J & T & A & N). cbn [join tl]. split; [|split; [|split]].
      * destruct (splitFrom x r []) as [|q qs] eqn:S; [congruence|]. rewrite J. reflexivity.
      * apply A. auto.
      * intros C. constructor; [exact C|]. apply A. auto.
      * discriminate.
    + destruct (IH (cur ++ [y])) as (J & T & A & N). rewrite J, <- app_assoc. cbn [app]. repeat split; auto.
      intros C. apply A. rewrite in_app_iff. cbn [In]. intros [I|[I|I]]; auto. lia.
Qed.
(** [x.join(s.split(x)) == s], and no piece holds [x] *)
Lemma join_split x s : join [x] (py_split s x) = s /\ Forall (fun p => ~ In x p) (py_split s x).
Proof. unfold py_split. destruct (splitFrom_join x s []) as (J & _ & A & _). split; [exact J|]. apply A. auto. Qed.

(** ** Code points *)
Definition code_points (l : list Z) : Prop := Forall (fun c => 0 <= c <= 0x10FFFF) l.
Lemma py_chr_code c : 0 <= c <= 0x10FFFF -> py_chr c = Ok [c].
Proof. intros H. unfold py_chr. replace ((0 <=? c) && (c <=? 0x10FFFF)) with true by lia. reflexivity. Qed.
Lemma no_space base s n : numeral base s n -> ~ In 32 s.
Proof. intros (_ & F & _) I. rewrite Forall_forall in F. specialize (F _ I). unfold is_digit in F. lia. Qed.
Lemma charsOf_ok texts codes : texts <> [] -> Forall2 (numeral 16) texts codes -> code_points codes -> charsOf (join [32] texts) = Ok codes.
Proof.
  intros N F V. unfold charsOf. rewrite split_join; [|exact N|].
  - enough (mapM (fun codePoint => let* n := py_int codePoint 16 in py_chr n) texts = Ok (map (fun c => [c]) codes)) as ->.
    + cbn [bind]. f_equal. clear. induction codes as [|c r IH]; [reflexivity|]. cbn. f_equal. exact IH.
    + clear N. induction F as [|t c ts cs H F IH]; [reflexivity|]. cbn [mapM map]. inversion V; subst.
      rewrite (py_int_numeral 16 t c) by auto. cbn [bind]. rewrite (py_chr_code c) by assumption. cbn [bind].
      rewrite IH by assumption. reflexivity.
  - clear N V. induction F as [|t c ts cs H F IH]; constructor; auto. eapply no_space; eauto.
Qed.
Lemma join_numerals texts codes : texts <> [] -> Forall2 (numeral 16) texts codes -> join [32] texts <> [] /\ join [32] texts <> lit "#".
Proof.
  intros N F. destruct F as [|t c ts cs (T & D & _) F]; [congruence|]. destruct t as [|x t]; [congruence|]. inversion D as [|? ? X _]; subst.
  unfold is_digit in X. cbn [join]. destruct ts as [|u us]; cbn [app]; (split; [discriminate|]); intros E; inversion E; subst x; lia.
Qed.

(** ** [replace] *)
Lemma replace_none x s r : ~ In x s -> py_replace s x r = s.
Proof.
  unfold py_replace. induction s as [|y s IH]; intros N; [reflexivity|]. cbn [flat_map].
  replace (y =? x) with false by (enough (y <> x) by lia; intros ->; apply N; left; reflexivity).
  rewrite IH by (intros I; apply N; right; exact I). reflexivity.
Qed.
Lemma replace_app x a b r : py_replace (a ++ b) x r = py_replace a x r ++ py_replace b x r.
Proof. unfold py_replace. rewrite flat_map_app. reflexivity. Qed.
Lemma replace_join x ps r : Forall (fun p => ~ In x p) ps -> py_replace (join [x] ps) x r = join r ps.
Proof.
  induction 1 as [|p q Hp F IH]; [reflexivity|]. cbn [join]. destruct q as [|p2 q]; [apply replace_none; exact Hp|].
  rewrite !replace_app, (replace_none x p r Hp), IH. f_equal. f_equal. unfold py_replace. cbn [flat_map]. rewrite Z.eqb_refl, app_nil_r. reflexivity.
Qed.

(** ** Attributes *)
(** an attribute of a character: its own, or else that of its group, or else empty *)
Definition attr (char group : element) (k : string) : str := match dict_find (char ++ group) (lit k) with Some v => v | None => [] end.
Definition yes (char group : element) (k : string) : bool := str_eqb (attr char group k) (lit "Y").

Lemma dict_find_app {V} (a b : dict V) k : dict_find (a ++ b) k = match dict_find a k with Some v => Some v | None => dict_find b k end.
Proof. induction a as [|[j v] a IH]; [reflexivity|]. cbn [app dict_find]. destruct (str_eqb j k); [reflexivity|exact IH]. Qed.
Lemma getCharProperty_attr char group k : getCharProperty char group (lit k) = attr char group k.
Proof. unfold getCharProperty, attr. rewrite dict_find_app. destruct (dict_find char (lit k)); reflexivity. Qed.
Lemma getBooleanProperty_yes char group k : getBooleanProperty char group (lit k) = yes char group k.
Proof. unfold getBooleanProperty, yes. rewrite getCharProperty_attr. reflexivity. Qed.

(** a mapping to code points, ["#"] or nothing standing for the character itself *)
Definition maps_to (text : str) (self : Z) (codes : list Z) : Prop :=
  ((text = [] \/ text = lit "#") /\ codes = [self]) \/
  (exists texts, texts <> [] /\ text = join [32] texts /\ Forall2 (numeral 16) texts codes /\ code_points codes).
(** a decomposition, ["#"] or nothing standing for none *)
Definition decomposes (text : str) (d : option (list Z)) : Prop :=
  ((text = [] \/ text = lit "#") /\ d = None) \/
  (exists texts codes, texts <> [] /\ text = join [32] texts /\ Forall2 (numeral 16) texts codes /\ code_points codes /\ d = Some codes).
(** a mapping with ["#"] for the character itself and nothing for none *)
Definition folds (text : str) (self : Z) (d : option (list Z)) : Prop :=
  (text = [] /\ d = None) \/ (text = lit "#" /\ d = Some [self]) \/
  (exists texts codes, texts <> [] /\ text = join [32] texts /\ Forall2 (numeral 16) texts codes /\ code_points codes /\ d = Some codes).
(** a decimal number without superfluous zeros *)
Definition plain (s : str) (n : Z) : Prop := numeral 10 s n /\ (hd 0 s <> 48 \/ s = lit "0").
(** a numeric value: NaN, a whole number, or a fraction, rounded to the nearest float *)
Definition value_is (text : str) (v : option pynum) : Prop :=
  (text = lit "NaN" /\ v = None) \/
  (exists s n, plain s n /\ ((text = s /\ v = Some (PyInt n)) \/ (text = 45 :: s /\ v = Some (PyInt (- n))))) \/
  (exists s n t d, plain s n /\ plain t d /\ d <> 0 /\
     ((text = s ++ 47 :: t /\ v = Some (true_div n d)) \/ (text = 45 :: s ++ 47 :: t /\ v = Some (true_div (- n) d)))).

Lemma empty_text text : text = [] \/ text = lit "#" -> (zlen text =? 0) || str_eqb text (lit "#") = true.
Proof. intros [->| ->]; reflexivity. Qed.
Lemma full_text text : text <> [] -> text <> lit "#" -> (zlen text =? 0) || str_eqb text (lit "#") = false.
Proof.
  intros A B. destruct (str_eqb text (lit "#")) eqn:E; [apply str_eqb_eq in E; congruence|].
  destruct text; [congruence|]. rewrite zlen_cons. pose proof (zlen_nonneg text). lia.
Qed.
Lemma getCodePoints_ok char group k self codes : numeral 16 (attr char group "cp") self -> self <= 0x10FFFF -> maps_to (attr char group k) self codes ->
  getCodePointsProperty char group (lit k) = Ok codes.
Proof.
  intros C L M. unfold getCodePointsProperty, cp. rewrite !getCharProperty_attr. cbv zeta. destruct M as [[E ->]|(texts & N & E & F & V)].
  - rewrite empty_text by exact E. rewrite (py_int_numeral 16 _ self) by auto. cbn [bind]. unfold format_c.
    pose proof (numeral_nonneg 16 _ _ ltac:(lia) C). replace ((0 <=? self) && (self <=? 0x10FFFF)) with true by lia. reflexivity.
  - destruct (join_numerals texts codes N F) as [J1 J2]. rewrite E, full_text by assumption. apply charsOf_ok; assumption.
Qed.
Lemma dmToString_ok self text d : decomposes text d -> dmToString self text false = Ok d.
Proof.
  unfold dmToString. cbn [andb]. intros [[E ->]|(texts & codes & N & E & F & V & ->)].
  - rewrite empty_text by exact E. reflexivity.
  - destruct (join_numerals texts codes N F) as [J1 J2]. rewrite E, full_text, charsOf_ok with (codes := codes) by assumption. reflexivity.
Qed.
Lemma dmToString_pound self text d : 0 <= self <= 0x10FFFF -> folds text self d -> dmToString self text true = Ok d.
Proof.
  unfold dmToString. cbn [andb]. intros S [[-> ->]|[[-> ->]|(texts & codes & N & E & F & V & ->)]].
  - reflexivity.
  - rewrite str_eqb_refl, py_chr_code by exact S. reflexivity.
  - destruct (join_numerals texts codes N F) as [J1 J2]. rewrite E. destruct (str_eqb (join [32] texts) (lit "#")) eqn:Q; [apply str_eqb_eq in Q; congruence|].
    pose proof (full_text _ J1 J2) as K. rewrite Q in K. rewrite K, charsOf_ok with (codes := codes) by assumption. reflexivity.
Qed.

(** ** Numbers *)
Lemma fold10_zeros s : Forall (is_digit 10) s -> forall a, 0 <= a -> fold_left (fun acc c => acc * 10 + digit_value c) s a = 0 -> a = 0 /\ forallb (fun x => x =? 48) s = true.
Proof.
  induction 1 as [|c r Hc F IH]; intros a A E; cbn [fold_left forallb] in *; [split; [exact E|reflexivity]|].
  assert (c = 48 + digit_value c /\ 0 <= digit_value c) as [C1 C2] by (unfold digit_value, is_digit in *; replace (c <=? 57) with true by lia; lia).
  destruct (IH (a * 10 + digit_value c)) as [Q1 Q2]; [lia|exact E|]. split; [lia|]. rewrite Q2. lia.
Qed.
Lemma evalInt_plain s n : plain s n -> evalInt s = Ok n.
Proof.
  intros [H Z]. pose proof H as (N & F & V). unfold evalInt. destruct s as [|c r]; [congruence|].
  rewrite (py_int_numeral 10 _ n) by auto. replace (forallb (fun x => (48 <=? x) && (x <=? 57)) (c :: r)) with true.
  2:{ symmetry. apply forallb_forall. intros x Hx. rewrite Forall_forall in F. specialize (F x Hx). unfold is_digit in F. lia. }
  cbn [andb]. destruct Z as [Z|Z].
  - cbn [hd] in Z. replace (negb (c =? 48)) with true by lia. reflexivity.
  - injection Z as -> ->. reflexivity.
Qed.
Lemma plain_no x s n : plain s n -> x < 48 -> ~ In x s.
Proof. intros [(_ & F & _) _] L I. rewrite Forall_forall in F. specialize (F x I). unfold is_digit in F. lia. Qed.
Lemma plain_cons s n : plain s n -> exists c r, s = c :: r /\ 48 <= c <= 57.
Proof. intros [(N & F & _) _]. destruct s as [|c r]; [congruence|]. inversion F; subst. exists c, r. split; [reflexivity|]. unfold is_digit in *. lia. Qed.
Lemma split_one x s : ~ In x s -> py_split s x = [s].
Proof. intros N. apply (split_join x [s]); [discriminate|]. constructor; auto. Qed.
Lemma split_two x s t : ~ In x s -> ~ In x t -> py_split (s ++ x :: t) x = [s; t].
Proof. intros A B. apply (split_join x [s; t]); [discriminate|]. repeat constructor; assumption. Qed.
Lemma evalRatio_ok text : forall sg body, (text = body /\ sg = 1 /\ hd 0 body <> 45) \/ (text = 45 :: body /\ sg = -1) ->
  evalRatio text = match py_split body 47 with
    | [a] => let* n := evalInt a in Ok (sg * n, None)
    | [a; b] => let* n := evalInt a in let* d := evalInt b in Ok (sg * n, Some d)
    | _ => Err SyntaxError
    end.
Proof.
  intros sg body [(-> & -> & H)|[-> ->]]; unfold evalRatio.
  - destruct body as [|c r]; [reflexivity|]. cbn [hd] in H. replace (c =? 45) with false by lia. reflexivity.
  - rewrite Z.eqb_refl. reflexivity.
Qed.
Lemma evalNumber_ok text v : value_is text (Some v) -> evalNumber text = Ok v.
Proof.
  unfold evalNumber. intros [[_ H]|[(s & n & P & H)|(s & n & t & d & P & Q & D & H)]]; [discriminate| |].
  - pose proof (plain_no 47 s n P ltac:(lia)) as N. destruct (plain_cons s n P) as (c & r & E & C). destruct H as [[-> H]|[-> H]]; injection H as ->.
    + rewrite (evalRatio_ok s 1 s) by (left; split; [reflexivity|split; [reflexivity|subst s; cbn [hd]; lia]]). rewrite split_one by exact N. rewrite (evalInt_plain s n P). cbn [bind]. do 2 f_equal; lia.
    + rewrite (evalRatio_ok (45 :: s) (-1) s) by auto. rewrite split_one by exact N. rewrite (evalInt_plain s n P). cbn [bind]. do 2 f_equal; lia.
  - pose proof (plain_no 47 s n P ltac:(lia)) as N. pose proof (plain_no 47 t d Q ltac:(lia)) as N2. destruct (plain_cons s n P) as (c & r & E & C).
    destruct H as [[-> H]|[-> H]]; injection H as ->.
    + rewrite (evalRatio_ok (s ++ 47 :: t) 1 (s ++ 47 :: t)) by (left; split; [reflexivity|split; [reflexivity|subst s; cbn [hd app]; lia]]). rewrite split_two by assumption.
      rewrite (evalInt_plain s n P), (evalInt_plain t d Q). cbn [bind]. replace (d =? 0) with false by lia. do 2 f_equal; lia.
    + rewrite (evalRatio_ok (45 :: s ++ 47 :: t) (-1) (s ++ 47 :: t)) by auto. rewrite split_two by assumption.
      rewrite (evalInt_plain s n P), (evalInt_plain t d Q). cbn [bind]. replace (d =? 0) with false by lia. do 2 f_equal; lia.
Qed.

(** ** Objects *)
Lemma mirror_ok text self mirror : (text = [] /\ mirror = self) \/ numeral 16 text mirror -> (if str_eqb text [] then Ok self else py_int text 16) = Ok mirror.
Proof.
  intros [[-> ->]|H]; [reflexivity|]. destruct (str_eqb text []) eqn:E; [apply str_eqb_eq in E; destruct H; congruence|]. apply py_int_numeral; auto.
Qed.
Lemma bracket_ok text self b : (text = lit "#" /\ b = self) \/ numeral 16 text b -> (if str_eqb text (lit "#") then Ok self else py_int text 16) = Ok b.
Proof.
  intros [[-> ->]|H]; [reflexivity|]. destruct (str_eqb text (lit "#")) eqn:E; [|apply py_int_numeral; auto].
  apply str_eqb_eq in E. subst. destruct H as (_ & F & _). inversion F as [|? ? D _]; subst. unfold is_digit in D. lia.
Qed.
Lemma value_ok text v : value_is text v -> (if str_eqb text (lit "NaN") then Ok None else let* v := evalNumber text in Ok (Some v)) = Ok v.
Proof.
  intros H. destruct v as [v|].
  - rewrite (evalNumber_ok text v H). destruct (str_eqb text (lit "NaN")) eqn:E; [|reflexivity]. apply str_eqb_eq in E. subst text. exfalso.
    destruct H as [[_ H]|[(s & n & P & H)|(s & n & t & d & P & Q & D & H)]]; [discriminate| |];
      destruct (plain_cons s n P) as (c & r & -> & C); destruct H as [[H _]|[H _]]; inversion H; lia.
  - destruct H as [[-> _]|[(s & n & P & [[_ H]|[_ H]])|(s & n & t & d & P & Q & D & [[_ H]|[_ H]])]]; try discriminate. reflexivity.
Qed.
Lemma set_fresh {V} (d : dict V) k v : ~ In k (map fst d) -> dict_set d k v = d ++ [(k, v)].
Proof.
  induction d as [|[j w] r IH]; intros N; [reflexivity|]. cbn [dict_set app]. destruct (str_eqb j k) eqn:E.
  - apply str_eqb_eq in E. subst. exfalso. apply N. left. reflexivity.
  - rewrite IH; [reflexivity|]. intros I. apply N. right. exact I.
Qed.
Lemma fold_set {A V} (key : A -> str) (val : A -> V) l : NoDup (map key l) -> forall d, (forall x, In x l -> ~ In (key x) (map fst d)) ->
  fold_left (fun d x => dict_set d (key x) (val x)) l d = d ++ map (fun x => (key x, val x)) l.
Proof.
  induction l as [|x r IH]; intros N d H; cbn [fold_left map]; [symmetry; apply app_nil_r|]. inversion N as [|? ? N1 N2]; subst.
  rewrite set_fresh by (apply H; left; reflexivity). rewrite IH; [rewrite <- app_assoc; reflexivity|exact N2|].
  intros y Hy. rewrite map_app, in_app_iff. cbn. intros [I|[I|[]]]; [apply (H y); [right; exact Hy|exact I]|]. apply N1. rewrite I. apply in_map. exact Hy.
Qed.
Lemma nodup_strs (l : list str) : (fix go l := match l with [] => true | x :: r => negb (existsb (str_eqb x) r) && go r end) l = true -> NoDup l.
Proof.
  induction l as [|x r IH]; intros H; constructor; apply andb_true_iff in H as [H1 H2]; [|apply IH; exact H2].
  intros I. apply negb_true_iff in H1. enough (existsb (str_eqb x) r = true) by congruence. apply existsb_exists. exists x. split; [exact I|apply str_eqb_refl].
Qed.
Lemma binary_ok char group self : numeral 16 (attr char group "cp") self -> newBinaryProperties char group =
  Ok (self, map (fun p => (lit (fst p), yes char group (snd p)))
   [("whitespace", "WSpace"); ("dash", "Dash"); ("hyphen", "Hyphen"); ("quotationMark", "QMark"); ("terminalPunctuation", "Term");
    ("sentenceTerminalPunctuation", "STerm"); ("diacritic", "Dia"); ("extender", "Ext"); ("prependedConcatenationMark", "PCM");
    ("softDotted", "SD"); ("alphabetic", "Alpha"); ("otherAlphabetic", "OAlpha"); ("math", "Math"); ("otherMath", "OMath"); ("hexDigit", "Hex");
    ("asciiHexDigit", "AHex"); ("defaultIgnorable", "DI"); ("otherDefaultIgnorable", "ODI"); ("logicalOrderException", "LOE");
    ("regionalIndicator", "RI"); ("graphemeBase", "Gr_Base"); ("graphemeExtended", "Gr_Ext"); ("otherGraphemeExtended", "OGr_Ext");
    ("graphemeLink", "Gr_Link"); ("ideographic", "Ideo"); ("unifiedIdeographic", "UIdeo"); ("idsBinaryOperator", "IDSB");
    ("idsTrinaryOperator", "IDST"); ("radical", "Radical"); ("deprecated", "Dep"); ("variationSelector", "VS");
    ("nonCharacterCodePoint", "NChar"); ("idStart", "IDS"); ("otherIDStart", "OIDS"); ("xIDStart", "XIDS"); ("idContinue", "IDC");
    ("otherIDContinue", "OIDC"); ("xIDContinue", "XIDC"); ("patternSyntax", "Pat_Syn"); ("patternWhitespace", "Pat_WS")]%string).
Proof.
  intros C. unfold newBinaryProperties, cp. rewrite getCharProperty_attr, (py_int_numeral 16 _ self) by auto. cbn [bind]. f_equal. f_equal.
  rewrite (fold_set fst (fun ft => getBooleanProperty char group (snd ft))); [|apply nodup_strs; vm_compute; reflexivity|intros x _ I; exact I].
  unfold propsList. rewrite map_map. cbn [app]. apply map_ext. intros [f t]. cbn [fst snd]. rewrite getBooleanProperty_yes. reflexivity.
Qed.

Lemma charsOf_error s : In [] (py_split s 32) -> charsOf s = Err ValueError.
Proof.
  unfold charsOf. generalize (py_split s 32) as l. intros l I. enough (mapM (fun codePoint => let* n := py_int codePoint 16 in py_chr n) l = Err ValueError) as -> by reflexivity.
  assert (IE : forall p e, py_int p 16 = Err e -> e = ValueError).
  { assert (DE : forall s a b e, digitsLoop 16 s a b = Err e -> e = ValueError).
    { induction s0 as [|c r IH]; intros a b e; cbn [digitsLoop]; [destruct b; congruence|]. destruct (c =? 95); [destruct b; [congruence|apply IH]|].
      destruct (digitOf c); [|congruence]. destruct (z <? 16); [apply IH|congruence]. }
    intros p e. unfold py_int. cbv zeta. destruct (strip p) as [|c r]; [congruence|]. destruct (c =? 43); [apply DE|]. destruct (c =? 45); [|apply DE].
    destruct (digitsLoop 16 (dropPrefix 16 r) 0 true) eqn:Q; cbn [bind]; [congruence|]. intros H. apply DE in Q. congruence. }
  induction l as [|p l IH]; [destruct I|]. cbn [mapM]. destruct (py_int p 16) as [n|e] eqn:E; cbn [bind]; [|rewrite (IE p e E); reflexivity].
  destruct (py_chr n) as [c|e] eqn:Q; cbn [bind]; [|unfold py_chr in Q; destruct (_ && _); congruence].
  destruct I as [->|I]; [discriminate E|]. rewrite (IH I). reflexivity.
Qed.
Lemma missing_piece char group k : attr char group k <> [] -> In [] (py_split (attr char group k) 32) -> getCodePointsProperty char group (lit k) = Err ValueError.
Proof.
  intros N I. unfold getCodePointsProperty. rewrite getCharProperty_attr. cbv zeta. rewrite full_text; [apply charsOf_error; exact I|exact N|].
  intros E. rewrite E in I. destruct I as [I|[]]. discriminate.
Qed.
Lemma simple_title char group r : newCaseProperties char group = Ok r -> simpleTitleCase r = attr char group "stc".
Proof.
  unfold newCaseProperties. intros H. repeat (match type of H with (let* _ := ?m in _) = _ => destruct m; [cbn [bind] in H|discriminate] end; cbv zeta in H).
  injection H as <-. exact (getCharProperty_attr char group "stc").
Qed.
Lemma fold_copies char group data : newCharacterData char group = Ok data -> attr char group "NFKC_CF" <> [] -> nfkcCaseFolded (decomp data) = Some (nkfcCasefold (case data)).
Proof.
  intros H N. unfold newCharacterData in H. cbv zeta in H.
  destruct (py_int (cp char group) 16) as [self|] eqn:Ecp; [cbn [bind] in H|discriminate].
  destruct (py_int _ 10) as [ccc|]; [cbn [bind] in H|discriminate]. destruct (newBidiProperties char group) as [b|]; [cbn [bind] in H|discriminate].
  match type of H with (let* _ := ?m in _) = _ => destruct m as [v|]; [cbn [bind] in H|discriminate] end.
  destruct (newDecompProperties char group) as [d|] eqn:ED; [cbn [bind] in H|discriminate].
  destruct (newCaseProperties char group) as [c|] eqn:EC; [cbn [bind] in H|discriminate].
  destruct (newIndicProperties char group) as [i|]; [cbn [bind] in H|discriminate]. destruct (newBinaryProperties char group) as [y|]; [cbn [bind] in H|discriminate].
  injection H as <-. cbn [decomp case].
  unfold newDecompProperties in ED. rewrite Ecp in ED. cbn [bind] in ED.
  destruct (dmToString self (getCharProperty char group (lit "dm")) false); [cbn [bind] in ED|discriminate].
  destruct (dmToString self (getCharProperty char group (lit "FC_NFKC")) false); [cbn [bind] in ED|discriminate].
  destruct (dmToString self (getCharProperty char group (lit "NFKC_CF")) true) as [x|] eqn:EX; [cbn [bind] in ED|discriminate]. cbv zeta in ED. injection ED as <-.
  unfold newCaseProperties in EC. rewrite Ecp in EC. cbn [bind] in EC. cbv zeta in EC.
  do 7 (match type of EC with (let* _ := ?m in _) = _ => destruct m; [cbn [bind] in EC|discriminate] end).
  destruct (getCodePointsProperty char group (lit "NFKC_CF")) as [z|] eqn:EZ; [cbn [bind] in EC|discriminate]. injection EC as <-. cbn [nfkcCaseFolded nkfcCasefold].
  unfold getCodePointsProperty in EZ. rewrite Ecp in EZ. cbv zeta in EZ. rewrite getCharProperty_attr in *. unfold dmToString in EX. cbn [andb] in EX.
  destruct (str_eqb (attr char group "NFKC_CF") (lit "#")) eqn:Q.
  - rewrite orb_true_r in EZ. cbn [bind] in EZ. unfold format_c in EZ. unfold py_chr in EX. destruct ((0 <=? self) && (self <=? 0x10FFFF)); [|discriminate]. cbn [bind] in EX. injection EX as <-. injection EZ as <-. reflexivity.
  - rewrite orb_false_r in *. destruct (zlen (attr char group "NFKC_CF") =? 0) eqn:L.
    + exfalso. apply N. destruct (attr char group "NFKC_CF") as [|h t]; [reflexivity|]. rewrite zlen_cons in L. pose proof (zlen_nonneg t). lia.
    + rewrite EZ in EX. cbn [bind] in EX. injection EX as <-. reflexivity.
Qed.
Lemma names_agree char group data A self choice : newCharacterData char group = Ok data -> a_type A = 0 -> choice = 0 \/ choice = 2 -> 0 <= self ->
  ~ In 35 (a_string A) -> attr char group "na" = a_string A ++ lit "#" ->
  attr char group "cp" = formatHex (if a_variant A =? 4 then 4 else if a_variant A =? 5 then 5 else 6) self ->
  algName A self choice = Ok (name data) /\ codePoint data = self.
Proof.
  intros H T C P N Na Cp. rewrite algName_hex by assumption. rewrite <- Cp. unfold newCharacterData, cp in H. cbv zeta in H. rewrite !getCharProperty_attr in H.
  rewrite (py_int_numeral 16 (attr char group "cp") self) in H by (auto; rewrite Cp; apply formatHex_numeral; exact P). cbn [bind] in H.
  repeat match type of H with (let* _ := ?m in _) = _ => destruct m; [cbn [bind] in H|discriminate] end. injection H as <-. cbn [name codePoint]. split; [|reflexivity].
  f_equal. rewrite Na, replace_app, (replace_none 35 (a_string A)) by exact N. cbn. rewrite app_nil_r. reflexivity.
Qed.
Lemma grouping char group char' group' : (forall k, getCharProperty char group k = getCharProperty char' group' k) -> newCharacterData char group = newCharacterData char' group'.
Proof.
  intros H. unfold newCharacterData, newBidiProperties, newDecompProperties, newCaseProperties, newIndicProperties, newBinaryProperties, getCodePointsProperty, getBooleanProperty, cp.
  cbv zeta. rewrite !H.
  assert (F : forall l d, fold_left (fun d ft => dict_set d (fst ft) (str_eqb (getCharProperty char group (snd ft)) (lit "Y"))) l d =
    fold_left (fun d (ft : str * str) => dict_set d (fst ft) (str_eqb (getCharProperty char' group' (snd ft)) (lit "Y"))) l d).
  { induction l as [|x l IH]; intros d; cbn [fold_left]; [reflexivity|]. rewrite H. apply IH. }
  rewrite F. reflexivity.
Qed.
