(** * ICUDataFile: strings, the table of contents, items. *)
From Coq Require Import ZArith List Bool Lia ZifyBool.
From Verif Require Import Py Bytes Dict ICUDataFile.
Import ListNotations.
Open Scope Z_scope.

(** ** [l] is found at position [i] of [b] *)
Definition at_pos {A} (b : list A) (i : Z) (l : list A) : Prop := exists p q, b = p ++ l ++ q /\ zlen p = i.
Lemma at_slice {A} (b l : list A) i j : at_pos b i l -> j = i + zlen l -> py_slice b i j = l.
Proof. intros (p & q & -> & <-) ->. apply slice_mid; reflexivity. Qed.
Lemma at_app {A} (b l m : list A) i : at_pos b i (l ++ m) -> at_pos b i l /\ at_pos b (i + zlen l) m.
Proof.
  intros (p & q & -> & <-). split.
  - exists p, (m ++ q). rewrite <- app_assoc. auto.
  - exists (p ++ l), q. rewrite <- !app_assoc, zlen_app. auto.
Qed.
Lemma at_nonneg {A} (b l : list A) i : at_pos b i l -> 0 <= i /\ i + zlen l <= zlen b.
Proof. intros (p & q & -> & <-). rewrite !zlen_app. pose proof (zlen_nonneg p). pose proof (zlen_nonneg q). lia. Qed.
Lemma at_here {A} (p l q : list A) : at_pos (p ++ l ++ q) (zlen p) l.
Proof. exists p, q. auto. Qed.
Lemma at_inner {A} (b l m : list A) i j : at_pos b i l -> at_pos l j m -> at_pos b (i + j) m.
Proof.
  intros (p & q & -> & <-) (p' & q' & -> & <-). exists (p ++ p'), (q' ++ q). rewrite <- !app_assoc, zlen_app. auto.
Qed.
Lemma at_get b i x (l : list Z) : at_pos b i (x :: l) -> py_get b i = Ok x.
Proof.
  intros (p & q & -> & <-). unfold py_get. pose proof (zlen_nonneg p). cbv zeta. replace (zlen p <? 0) with false by lia. cbv iota. replace (zlen p <? 0) with false by lia.
  replace (Z.to_nat (zlen p)) with (length p) by (unfold zlen; lia). rewrite nth_error_app2 by lia. rewrite Nat.sub_diag. reflexivity.
Qed.

(** ** Strings end at the first zero *)
Definition nonzero (s : list Z) : Prop := Forall (fun x => x <> 0) s.
Lemma stringFrom_ok s : forall fuel b i, (length s < fuel)%nat -> nonzero s -> at_pos b i (s ++ [0]) -> stringFrom fuel b i = Ok s.
Proof.
  induction s as [|x s IH]; intros fuel b i Hf N A; (destruct fuel as [|m]; [cbn in Hf; lia|]); cbn [stringFrom].
  - rewrite (at_get b i 0 [] A). reflexivity.
  - inversion N as [|? ? Hx Ns]; subst. pose proof A as A'. apply (at_app b [x] (s ++ [0])) in A' as [_ A'].
    rewrite (at_get b i x (s ++ [0]) A). cbn [bind]. replace (x =? 0) with false by lia. cbn [negb].
    rewrite (IH m b (i + 1)); [reflexivity|cbn in Hf; lia|exact Ns|exact A'].
Qed.
Lemma getString_ok D i s : nonzero s -> at_pos (fileData D) i (s ++ [0]) -> getString D i = Ok s.
Proof.
  intros N A. unfold getString. apply stringFrom_ok; [|exact N|exact A].
  destruct A as (p & q & E & _). rewrite E, !app_length. cbn. lia.
Qed.
Lemma py_get_range {A} (b : list A) i : (exists x, py_get b i = Ok x) <-> - zlen b <= i < zlen b.
Proof.
  unfold py_get. set (k := if i <? 0 then i + zlen b else i). destruct (k <? 0) eqn:E.
  - split; [intros [x H]; discriminate|]. subst k. destruct (i <? 0) eqn:?; lia.
  - destruct (nth_error b (Z.to_nat k)) as [x|] eqn:N.
    + assert (Z.to_nat k < length b)%nat by (apply nth_error_Some; congruence). split; [|eauto]. subst k. unfold zlen in *. destruct (i <? 0) eqn:?; lia.
    + apply nth_error_None in N. split; [intros [x H]; discriminate|]. subst k. unfold zlen in *. destruct (i <? 0) eqn:?; lia.
Qed.
Lemma py_get_err {A} (b : list A) i e : py_get b i = Err e -> e = IndexError.
Proof. unfold py_get. set (k := if i <? 0 then i + zlen b else i). destruct (k <? 0); [|destruct (nth_error b (Z.to_nat k))]; congruence. Qed.
Lemma stringFrom_fuel m : forall b i, zlen b - i <= Z.of_nat m -> stringFrom (S m) b i <> Err OutOfFuel.
Proof.
  induction m as [|m IH]; intros b i H; cbn [stringFrom]; (destruct (py_get b i) as [x|e] eqn:E; cbn [bind];
    [assert (- zlen b <= i < zlen b) by (apply py_get_range; eauto)|apply py_get_err in E; congruence]).
  - lia.
  - destruct (negb (x =? 0)); [|discriminate]. specialize (IH b (i + 1) ltac:(lia)). cbn [stringFrom] in IH.
    destruct (let* x0 := py_get b (i + 1) in _) as [r|e]; cbn [bind]; [discriminate|exact IH].
Qed.
Lemma getString_total D i : - zlen (fileData D) <= i -> getString D i <> Err OutOfFuel.
Proof. intros H. unfold getString. apply stringFrom_fuel. unfold zlen in *. lia. Qed.
Lemma getString_below D i : i < - zlen (fileData D) -> getString D i = Err IndexError.
Proof.
  intros H. unfold getString. cbn [stringFrom]. destruct (py_get (fileData D) i) as [x|e] eqn:E.
  - assert (- zlen (fileData D) <= i < zlen (fileData D)) by (apply py_get_range; eauto). lia.
  - apply py_get_err in E. subst. reflexivity.
Qed.

(** ** Item names: what follows the first slash *)
Lemma indexOf_ok x p s : Forall (fun y => y <> x) p -> indexOf x (p ++ x :: s) = Ok (zlen p).
Proof.
  induction 1 as [|y p Hy F IH]; cbn [app indexOf].
  - rewrite Z.eqb_refl. reflexivity.
  - replace (y =? x) with false by lia. rewrite IH. cbn [bind]. f_equal. unfold zlen. cbn [length]. lia.
Qed.
Lemma getName_ok D i prefix name : nonzero prefix -> nonzero name -> Forall (fun y => y <> 47) prefix ->
  at_pos (fileData D) i (prefix ++ [47] ++ name ++ [0]) -> getName D i = Ok name.
Proof.
  intros N1 N2 F A. unfold getName. rewrite (getString_ok D i (prefix ++ [47] ++ name)).
  2:{ apply Forall_app. split; [exact N1|]. constructor; [lia|exact N2]. }
  2:{ rewrite <- !app_assoc. exact A. }
  cbn [bind app]. rewrite indexOf_ok by exact F. cbn [bind]. f_equal.
  apply at_slice; [|rewrite !zlen_app; change (47 :: name) with ([47] ++ name); rewrite zlen_app; change (zlen [47]) with 1; lia].
  exists (prefix ++ [47]), []. rewrite <- app_assoc, app_nil_r, zlen_app. auto.
Qed.

(** ** The table of contents *)
Record item := mkItem { it_prefix : str; it_name : str; it_nameOffset : Z; it_dataOffset : Z }.
Definition toc_words (its : list item) : list Z := flat_map (fun t => [it_nameOffset t; it_dataOffset t]) its.
Definition item_ok (file : bytes) (hl : Z) (t : item) : Prop :=
  0 <= it_nameOffset t < 2 ^ 32 /\ 0 <= it_dataOffset t < 2 ^ 32 /\
  nonzero (it_prefix t) /\ nonzero (it_name t) /\ Forall (fun y => y <> 47) (it_prefix t) /\
  at_pos file (hl + it_nameOffset t) (it_prefix t ++ [47] ++ it_name t ++ [0]).
Record toc_ok (file : bytes) (hl : Z) (its : list item) : Prop := {
  tk_header : exists h, at_pos file 0 h /\ zlen h = 24 /\ le (firstn 2 h) = hl;
  tk_count : zlen its < 2 ^ 32;
  tk_toc : at_pos file hl (pack 4 [zlen its] ++ pack 4 (toc_words its));
  tk_items : Forall (item_ok file hl) its }.
(** the offset of the last item with a name *)
Fixpoint last_offset (its : list item) (name : str) : option Z :=
  match its with
  | [] => None
  | t :: r => match last_offset r name with
              | Some o => Some o
              | None => if str_eqb (it_name t) name then Some (it_dataOffset t) else None
              end
  end.

Lemma unpack_at w xs b i j n : 0 <= w -> Forall (fun x => 0 <= x < 256 ^ w) xs -> at_pos b i (pack w xs) -> j = i + w * zlen xs -> n = zlen xs ->
  unpack w n (py_slice b i j) = Ok xs.
Proof.
  intros Hw F A -> ->. rewrite (at_slice b (pack w xs)); [apply unpack_pack; auto|exact A|rewrite zlen_pack by exact Hw; reflexivity].
Qed.
Lemma pack_app w a b : pack w (a ++ b) = pack w a ++ pack w b.
Proof. unfold pack. rewrite map_app, concat_app. reflexivity. Qed.

Lemma tocLoop_ok its : forall file d hl i, Forall (item_ok file hl) its -> at_pos file i (pack 4 (toc_words its)) ->
  exists d', tocLoop (length its) (mkICU file d) hl i (i + 8) = (mkICU file d', Ok tt) /\
    forall name, dict_find d' name = match last_offset its name with Some o => Some (o + hl) | None => dict_find d name end.
Proof.
  induction its as [|t its IH]; intros file d hl i F A; cbn [length tocLoop].
  - exists d. split; [reflexivity|]. intros. reflexivity.
  - inversion F as [|? ? (H1 & H2 & H3 & H4 & H5 & H6) F']; subst. cbn [toc_words flat_map] in A. fold (toc_words its) in A.
    rewrite pack_app in A. apply at_app in A as [A1 A2]. rewrite zlen_pack in A2 by lia. change (4 * zlen [it_nameOffset t; it_dataOffset t]) with 8 in A2.
    cbn [fileData]. rewrite (unpack_at 4 [it_nameOffset t; it_dataOffset t]); [|lia|repeat constructor; change (256 ^ 4) with (2 ^ 32); lia|exact A1|reflexivity|reflexivity].
    rewrite (getName_ok (mkICU file d) (it_nameOffset t + hl) (it_prefix t) (it_name t)) by (auto; rewrite Z.add_comm; exact H6).
    change tocEntryLength with 8. destruct (IH file (dict_set d (it_name t) (it_dataOffset t + hl)) hl (i + 8) F' A2) as (d' & E & L).
    exists d'. cbn [fileData dataOffsets]. split; [exact E|]. intros name. rewrite L. cbn [last_offset].
    destruct (last_offset its name); [reflexivity|]. rewrite find_set. destruct (str_eqb (it_name t) name); reflexivity.
Qed.

Theorem populate_ok D file hl its : fileData D = [] -> toc_ok file hl its ->
  exists d, populateData D file = (mkICU file d, Ok tt) /\
    forall name, dict_find d name = match last_offset its name with Some o => Some (o + hl) | None => dict_find (dataOffsets D) name end.
Proof.
  intros E0 [(h & A0 & L0 & HL) HC AT FI]. unfold populateData. rewrite E0.
  rewrite (at_slice file h 0 dataHeaderLength A0) by (rewrite L0; reflexivity).
  unfold unpackHeader. rewrite L0. cbn [Z.eqb negb dataHeaderLength Pos.eqb].
  cbv zeta. set (hd := mkHeader _ _ _ _ _ _ _ _ _ _ _). assert (HH : headerLength hd = hl).
  { subst hd. cbn [headerLength]. rewrite <- HL. f_equal. unfold py_slice, py_bound. rewrite L0. reflexivity. }
  change (match Ok hd with Ok header => ?f header | Err e => ?g e end) with (f hd). cbv beta iota. rewrite HH.
  apply at_app in AT as [AC AE]. rewrite zlen_pack in AE by lia. change (4 * zlen [zlen its]) with 4 in AE.
  rewrite (unpack_at 4 [zlen its]); [|lia| |exact AC|reflexivity|reflexivity].
  2:{ repeat constructor; change (256 ^ 4) with (2 ^ 32); [apply zlen_nonneg|exact HC]. }
  replace (Z.to_nat (zlen its)) with (length its) by (unfold zlen; lia).
  apply (tocLoop_ok its file (dataOffsets D) hl (hl + 4) FI AE).
Qed.

(** ** A whole file *)
Record content := mkContent { c_prefix : str; c_name : str; c_data : bytes }.
Definition c_label (c : content) : bytes := c_prefix c ++ [47] ++ c_name c ++ [0].
Fixpoint place (no do : Z) (cs : list content) : list item :=
  match cs with
  | [] => []
  | c :: r => mkItem (c_prefix c) (c_name c) no do :: place (no + zlen (c_label c)) (do + zlen (c_data c)) r
  end.
Definition labels (cs : list content) : bytes := flat_map c_label cs.
Definition icu_items (cs : list content) : list item :=
  let base := 4 + 8 * zlen cs in place base (base + zlen (labels cs)) cs.
(** header, number of items, table of offsets, names, data *)
Definition icu_file (head : bytes) (cs : list content) : bytes :=
  head ++ pack 4 [zlen cs] ++ pack 4 (toc_words (icu_items cs)) ++ labels cs ++ flat_map c_data cs.
Definition content_ok (c : content) : Prop := nonzero (c_prefix c) /\ nonzero (c_name c) /\ Forall (fun y => y <> 47) (c_prefix c).
Record file_ok (head : bytes) (cs : list content) : Prop := {
  fk_head : 24 <= zlen head /\ le (firstn 2 head) = zlen head;
  fk_contents : Forall content_ok cs;
  fk_names : NoDup (map c_name cs);
  fk_size : zlen (icu_file head cs) < 2 ^ 32 }.

Lemma place_length cs : forall no do, length (place no do cs) = length cs.
Proof. induction cs as [|c r IH]; intros; cbn [place length]; [reflexivity|]. rewrite IH. reflexivity. Qed.
Lemma zlen_toc its : zlen (toc_words its) = 2 * zlen its.
Proof. unfold zlen, toc_words. induction its as [|t r IH]; [reflexivity|]. cbn [flat_map app length]. lia. Qed.

(** every label and datum is where its item says *)
Lemma place_at file hl cs : forall no do, 0 <= no -> 0 <= do -> at_pos file (hl + no) (labels cs) -> at_pos file (hl + do) (flat_map c_data cs) ->
  Forall content_ok cs -> zlen file < 2 ^ 32 -> 0 <= hl ->
  Forall (item_ok file hl) (place no do cs) /\
  forall c, In c cs -> NoDup (map c_name cs) -> exists o, last_offset (place no do cs) (c_name c) = Some o /\ at_pos file (hl + o) (c_data c).
Proof.
  induction cs as [|c r IH]; intros no do Hn Hd AL AD F Z Hh; cbn [place].
  - split; [constructor|]. intros c [].
  - cbn [labels flat_map] in AL, AD. apply at_app in AL as [AL1 AL2]. apply at_app in AD as [AD1 AD2]. inversion F as [|? ? (F1 & F2 & F3) F']; subst.
    pose proof (zlen_nonneg (c_label c)) as P1. pose proof (zlen_nonneg (c_data c)) as P2.
    destruct (IH (no + zlen (c_label c)) (do + zlen (c_data c))) as [I1 I2]; auto; try lia.
    { replace (hl + (no + zlen (c_label c))) with (hl + no + zlen (c_label c)) by lia. exact AL2. }
    { replace (hl + (do + zlen (c_data c))) with (hl + do + zlen (c_data c)) by lia. exact AD2. }
    pose proof (at_nonneg _ _ _ AL1). pose proof (at_nonneg _ _ _ AD1). split.
    + constructor; [|exact I1]. repeat split; cbn [it_nameOffset it_dataOffset it_prefix it_name]; auto; lia.
    + intros x Hin ND. cbn [map] in ND. inversion ND as [|? ? NI ND']; subst. destruct Hin as [<-|Hin].
      * exists do. split; [|exact AD1]. cbn [last_offset it_name it_dataOffset]. rewrite str_eqb_refl.
        enough (last_offset (place (no + zlen (c_label c)) (do + zlen (c_data c)) r) (c_name c) = None) as -> by reflexivity.
        clear - NI. revert NI. generalize (no + zlen (c_label c)) (do + zlen (c_data c)). induction r as [|y r IH]; intros n d NI; cbn [place last_offset]; [reflexivity|].
        rewrite IH by (intros H; apply NI; right; exact H). cbn [it_name]. destruct (str_eqb (c_name y) (c_name c)) eqn:E; [|reflexivity].
        apply str_eqb_eq in E. exfalso. apply NI. left. exact E.
      * destruct (I2 x Hin ND') as (o & L & A). exists o. cbn [last_offset]. rewrite L. auto.
Qed.
Lemma last_offset_in its name o : last_offset its name = Some o -> In name (map it_name its).
Proof.
  induction its as [|t r IH]; cbn [last_offset map]; [discriminate|]. destruct (last_offset r name) as [x|]; [right; auto|].
  destruct (str_eqb (it_name t) name) eqn:E; [|discriminate]. intros _. left. apply str_eqb_eq. exact E.
Qed.
Lemma place_names cs : forall no do, map it_name (place no do cs) = map c_name cs.
Proof. induction cs as [|c r IH]; intros; cbn [place map]; [reflexivity|]. rewrite IH. reflexivity. Qed.

Theorem file_round_trip head cs : file_ok head cs -> exists d, populateData noData (icu_file head cs) = (mkICU (icu_file head cs) d, Ok tt) /\
  (forall c, In c cs -> exists o, getDataOffset (mkICU (icu_file head cs) d) (c_name c) = Ok o /\ at_pos (icu_file head cs) o (c_data c)) /\
  (forall name, ~ In name (map c_name cs) -> getDataOffset (mkICU (icu_file head cs) d) name = Err KeyError).
Proof.
  intros [[H24 HL] HC HN HS]. set (file := icu_file head cs) in *. set (hl := zlen head) in *.
  assert (LI : zlen (icu_items cs) = zlen cs) by (unfold zlen, icu_items; rewrite place_length; reflexivity).
  assert (LT : zlen (pack 4 [zlen cs] ++ pack 4 (toc_words (icu_items cs))) = 4 + 8 * zlen cs).
  { rewrite zlen_app, !zlen_pack, zlen_toc, LI by lia. change (zlen [zlen cs]) with 1. lia. }
  pose proof (zlen_nonneg cs) as P. pose proof (zlen_nonneg (labels cs)) as P2.
  assert (AT : at_pos file hl (pack 4 [zlen (icu_items cs)] ++ pack 4 (toc_words (icu_items cs)))).
  { exists head, (labels cs ++ flat_map c_data cs). split; [|reflexivity]. unfold file, icu_file. rewrite LI, <- !app_assoc. reflexivity. }
  assert (AL : at_pos file (hl + (4 + 8 * zlen cs)) (labels cs)).
  { exists (head ++ pack 4 [zlen cs] ++ pack 4 (toc_words (icu_items cs))), (flat_map c_data cs). split.
    - unfold file, icu_file. rewrite <- !app_assoc. reflexivity.
    - rewrite zlen_app, LT. reflexivity. }
  assert (AD : at_pos file (hl + (4 + 8 * zlen cs + zlen (labels cs))) (flat_map c_data cs)).
  { exists (head ++ (pack 4 [zlen cs] ++ pack 4 (toc_words (icu_items cs))) ++ labels cs), []. split.
    - unfold file, icu_file. rewrite <- !app_assoc, app_nil_r. reflexivity.
    - rewrite zlen_app, (zlen_app (pack 4 [zlen cs] ++ pack 4 (toc_words (icu_items cs)))), LT. unfold hl. lia. }
  destruct (place_at file hl cs (4 + 8 * zlen cs) (4 + 8 * zlen cs + zlen (labels cs))) as [I1 I2]; auto; try lia.
  assert (TK : toc_ok file hl (icu_items cs)).
  { constructor; [|rewrite LI; pose proof (at_nonneg _ _ _ AL); lia|exact AT|exact I1].
    exists (firstn 24 head). split; [|split].
    - exists [], (skipn 24 head ++ pack 4 [zlen cs] ++ pack 4 (toc_words (icu_items cs)) ++ labels cs ++ flat_map c_data cs). split; [|reflexivity].
      cbn [app]. rewrite app_assoc, firstn_skipn. reflexivity.
    - unfold zlen in *. rewrite firstn_length_le; lia.
    - rewrite firstn_firstn. exact HL. }
  destruct (populate_ok noData file hl (icu_items cs) eq_refl TK) as (d & E & L). exists d. split; [exact E|].
  split.
  - intros c Hin. destruct (I2 c Hin HN) as (o & Lo & A). exists (o + hl). unfold getDataOffset, dict_get. cbn [dataOffsets].
    rewrite L. unfold icu_items. cbv zeta. rewrite Lo. split; [reflexivity|]. rewrite Z.add_comm. exact A.
  - intros name Hn. unfold getDataOffset, dict_get. cbn [dataOffsets]. rewrite L. destruct (last_offset (icu_items cs) name) as [o|] eqn:Q; [|reflexivity].
    apply last_offset_in in Q. unfold icu_items in Q. cbv zeta in Q. rewrite place_names in Q. contradiction.
Qed.
Lemma populate_again D disk : fileData D <> [] -> populateData D disk = (D, Ok tt).
Proof. intros H. unfold populateData. destruct (fileData D); [congruence|reflexivity]. Qed.
Lemma tocLoop_bytes n : forall D hl i j D' r, tocLoop n D hl i j = (D', r) -> fileData D' = fileData D.
Proof.
  induction n as [|n IH]; intros D hl i j D' r; cbn [tocLoop]; [congruence|].
  destruct (unpack 4 2 _) as [[|a [|b [|]]]|e]; try congruence. destruct (getName D _) as [name|e]; [|congruence].
  intros H. apply IH in H. exact H.
Qed.
Lemma populate_keeps_bytes disk D r : populateData noData disk = (D, r) -> fileData D = disk.
Proof.
  unfold populateData. cbn [noData fileData]. destruct (unpackHeader _) as [h|e]; [|intros [= <- _]; reflexivity].
  destruct (unpack 4 1 _) as [[|a [|b l]]|e]; try (intros [= <- _]; reflexivity). intros H. apply tocLoop_bytes in H. exact H.
Qed.
(** a string without an end *)
Lemma stringFrom_end s : forall fuel b i p, (length s < fuel)%nat -> nonzero s -> b = p ++ s -> zlen p = i -> stringFrom fuel b i = Err IndexError.
Proof.
  induction s as [|x s IH]; intros fuel b i p Hf N E L; (destruct fuel as [|m]; [cbn in Hf; lia|]); cbn [stringFrom].
  - destruct (py_get b i) as [x|e] eqn:G; [|apply py_get_err in G; subst; reflexivity].
    assert (- zlen b <= i < zlen b) by (apply py_get_range; eauto). rewrite app_nil_r in E. subst b. lia.
  - inversion N as [|? ? Hx Ns]; subst. rewrite (at_get _ _ x s); [|exists p, []; rewrite app_nil_r; auto].
    cbn [bind]. replace (x =? 0) with false by lia. cbn [negb]. rewrite (IH m _ (zlen p + 1) (p ++ [x])); [reflexivity|cbn in Hf; lia|exact Ns|rewrite <- app_assoc; reflexivity|].
    rewrite zlen_app. reflexivity.
Qed.
Lemma getString_unterminated D i s : nonzero s -> 0 <= i -> (exists p, fileData D = p ++ s /\ zlen p = i) -> getString D i = Err IndexError.
Proof.
  intros N _ (p & E & L). unfold getString. apply (stringFrom_end s _ _ _ p); auto. rewrite E, app_length. lia.
Qed.
