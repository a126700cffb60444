(** * Enumerating the shipped tables with the default arguments. *)
From Coq Require Import ZArith List Bool Lia.
From Verif Require Import Py Arr UTrie2 UTrie2Enum Runs UTrie2Runs CharProps CharRuns BidiProps BidiShipped CaseProps CaseShipped.
Import ListNotations.
Open Scope Z_scope.

(** A value function that raises makes the generator raise when it is called.  With
    [res] values and equality of results an error is a value like any other, and the
    first one met is in a yielded range; so this is what the caller of the generator
    sees when it asks for all ranges (CharProps.py: blockFromVecIndex and so on). *)
Definition res_eqb (a b : res Z) : bool :=
  match a, b with Ok x, Ok y => x =? y | Err _, Err _ => true | _, _ => false end.
Fixpoint raise_first (rs : list (Z * Z * res Z)) : res (list (Z * Z * Z)) :=
  match rs with
  | [] => Ok []
  | (a, b, Ok v) :: r => let* r' := raise_first r in Ok ((a, b, v) :: r')
  | (a, b, Err e) :: _ => Err e
  end.
(** Utrie2.py:97-222 with a value function that may raise *)
Definition enumeratorR (vf : Z -> res Z) (t : utrie2) (limit start : Z) : res (list (Z * Z * Z)) :=
  let* _ := vf (initialValue t) in let* _ := vf 0 in
  let* rs := enumerator res_eqb vf t limit start in raise_first rs.

(** ** The code points with a wrong value, in ranges (first, last + 1) *)
Definition listed (l : list (Z * Z)) (c : Z) : Prop := exists a b, In (a, b) l /\ a <= c < b.
Definition props_wrong : list (Z * Z) :=
  [(0x1000, 0x1020); (0xD800, 0xDA80); (0xE000, 0xF900); (0x10800, 0x10806); (0x10808, 0x10809); (0x1080A, 0x10820);
   (0x11800, 0x11820); (0x13000, 0x13420); (0x14800, 0x14820); (0x16800, 0x16820); (0x19000, 0x19020);
   (0x1B000, 0x1B020); (0x1B800, 0x1B820); (0x1C000, 0x1C020); (0x1D000, 0x1D020); (0x2080A, 0x2080B);
   (0x21010, 0x21011); (0x22818, 0x22819); (0x2301B, 0x2301C); (0x2400D, 0x2400E); (0x2C002, 0x2C010);
   (0x2F000, 0x2F020); (0x2F800, 0x2F820); (0x31801, 0x31802); (0xE0001, 0xE0002); (0xE0800, 0xE0820);
   (0xF0000, 0xF0020); (0x100000, 0x100020)].
Definition category_wrong : list (Z * Z) :=
  [(0x1000, 0x1020); (0xD800, 0xDA80); (0xE000, 0xF900); (0x10800, 0x10806); (0x10808, 0x10809); (0x1080A, 0x10820);
   (0x11800, 0x11820); (0x13000, 0x13420); (0x14800, 0x14820); (0x16800, 0x16820); (0x19000, 0x19020);
   (0x1B000, 0x1B020); (0x1B800, 0x1B820); (0x1C000, 0x1C020); (0x1D000, 0x1D020); (0x2C002, 0x2C010);
   (0x2F000, 0x2F020); (0x2F800, 0x2F820); (0x31801, 0x31802); (0xE0001, 0xE0002); (0xE0800, 0xE0820);
   (0xF0000, 0xF0020); (0x100000, 0x100020)].
Definition bidi_wrong : list (Z * Z) :=
  [(0xAA29, 0xAA2F); (0xAA31, 0xAA33); (0xAA35, 0xAA37); (0x1180F, 0x11818); (0x11819, 0x1181B); (0x13810, 0x13815);
   (0x1C007, 0x1C00A); (0x1C013, 0x1C020); (0x30000, 0x30020); (0x40000, 0x40020); (0x50000, 0x50020);
   (0x60000, 0x60020); (0x70000, 0x70020); (0x80000, 0x80020); (0x90000, 0x90020); (0xA0000, 0xA0020);
   (0xB0000, 0xB0020); (0xC0000, 0xC0020); (0xD0000, 0xD0020); (0xE1000, 0xE1020); (0xF0000, 0xF0020);
   (0x100000, 0x100020); (0x10FFFF, 0x110000)].
Definition case_wrong : list (Z * Z) :=
  [(0x3099, 0x309F); (0x10801, 0x10804); (0x10805, 0x10807); (0x1080C, 0x10810); (0x1180F, 0x11818);
   (0x11819, 0x1181B); (0x13810, 0x13815); (0x1C005, 0x1C00A); (0x1C00D, 0x1C020); (0x1E810, 0x1E817);
   (0x1F010, 0x1F020); (0x1F801, 0x1F802); (0xE0001, 0xE0002); (0xE0800, 0xE0804)].

(** ** Comparing the enumeration with the table *)
Definition inside (l : list (Z * Z)) (a b : Z) : bool := existsb (fun e => let '(x, y) := e in (x <=? a) && (b <=? y)) l.
Definition outside (l : list (Z * Z)) (a b : Z) : bool := forallb (fun e => let '(x, y) := e in (y <=? a) || (b <=? x)) l.
Definition piece_ok (f : Z -> Z) (bad : list (Z * Z)) (a b w v : Z) : bool := if v =? f w then outside bad a b else inside bad a b.
Definition compared (f : Z -> Z) (bad : list (Z * Z)) (rs en : list (Z * Z * Z)) : bool :=
  let m := merged rs en in
  tiles 0 m 0x10FFFF && forallb (fun p => let '(a, b, (w, v)) := p in piece_ok f bad a (Z.min b 0x10FFFF) w v) m &&
  existsb (fun p => let '(a, b, v) := p in (a <=? 0x10FFFF) && (0x10FFFF <? b) && piece_ok f bad 0x10FFFF 0x110000 0 v) en.

Lemma inside_ok l a b c : inside l a b = true -> a <= c < b -> listed l c.
Proof.
  unfold inside. intros H Hc. apply existsb_exists in H as ([x y] & Hin & H). exists x, y. split; [exact Hin|lia].
Qed.
Lemma outside_ok l a b c : outside l a b = true -> a <= c < b -> ~ listed l c.
Proof.
  unfold outside. intros H Hc (x & y & Hin & Hr). rewrite forallb_forall in H. specialize (H _ Hin). cbv beta iota in H. lia.
Qed.
Lemma piece_ok_ok f bad a b w v c : piece_ok f bad a b w v = true -> a <= c < b -> (v = f w <-> ~ listed bad c).
Proof.
  unfold piece_ok. intros H Hc. destruct (Z.eqb_spec v (f w)).
  - split; [intros _; eapply outside_ok; eauto|auto].
  - split; [contradiction|]. intros N. exfalso. apply N. eapply inside_ok; eauto.
Qed.

(** every code point is in a range, with the value of the table if and only if it is not in the list *)
Definition exact_values (f : Z -> Z) (t : utrie2) (en : list (Z * Z * Z)) (bad : list (Z * Z)) : Prop :=
  forall c, 0 <= c <= 0x10FFFF -> exists a b v w, In (a, b, v) en /\ a <= c < b /\ get t c = Ok w /\ (v = f w <-> ~ listed bad c).

Lemma compared_ok f t bad rs en : runs_ok (get t) rs 0x10FFFF -> get t 0x10FFFF = Ok 0 -> compared f bad rs en = true ->
  exact_values f t en bad.
Proof.
  intros [_ R] T H c Hc. unfold compared in H. apply andb_true_iff in H as [H H3]. apply andb_true_iff in H as [H1 H2].
  destruct (Z.eq_dec c 0x10FFFF) as [->|N].
  - apply existsb_exists in H3 as ([[a b] v] & Hin & H). exists a, b, v, 0. apply andb_true_iff in H as [H Hp].
    split; [exact Hin|]. split; [lia|]. split; [exact T|]. eapply piece_ok_ok; [exact Hp|lia].
  - destruct (tiles_covers _ _ 0 H1 c ltac:(lia)) as (a & b & [w v] & Hin & Hr).
    rewrite forallb_forall in H2. specialize (H2 _ Hin). cbv beta iota in H2.
    destruct (merge_sound _ _ _ _ rs en _ _ _ _ (incl_refl _) (incl_refl _) Hin) as [(a1 & b1 & I1 & L1) (a2 & b2 & I2 & L2)].
    exists a2, b2, v, w. split; [exact I2|]. split; [lia|]. split; [eapply R; eauto; lia|]. eapply piece_ok_ok; [exact H2|lia].
Qed.

Section Shipped.
  Variables (f : Z -> Z) (t : utrie2) (en rs : list (Z * Z * Z)) (bad : list (Z * Z)).
  Hypothesis E : enumerator Z.eqb f t 0x110000 0 = Ok en.
  Hypothesis R : runs_ok (get t) rs 0x10FFFF.
  Hypothesis T : get t 0x10FFFF = Ok 0.
  Hypothesis C : compared f bad rs en = true.
  Lemma shipped_enumeration : exists en, enumerator Z.eqb f t 0x110000 0 = Ok en /\ partition 0 en 0x110000 /\ exact_values f t en bad.
  Proof.
    exists en. split; [exact E|]. split; [|eapply compared_ok; eauto].
    eapply (enumerator_partition Z.eqb f Z.eqb_eq t 0 0x110000); [lia|left; reflexivity|lia|exact E].
  Qed.
End Shipped.

Definition props_en : list (Z * Z * Z) := Eval vm_compute in of_res (enumerator Z.eqb (fun v => v) (propsTrie icu) 0x110000 0).
Lemma props_en_eq : enumerator Z.eqb (fun v => v) (propsTrie icu) 0x110000 0 = Ok props_en.
Proof. vm_cast_no_check (eq_refl (Ok props_en)). Qed.
Lemma props_compared : compared (fun v => v) props_wrong props_runs props_en = true.
Proof. vm_cast_no_check (eq_refl true). Qed.

Definition category_en : list (Z * Z * Z) := Eval vm_compute in of_res (enumerator Z.eqb generalCategoryFromProps (propsTrie icu) 0x110000 0).
Lemma category_en_eq : enumerator Z.eqb generalCategoryFromProps (propsTrie icu) 0x110000 0 = Ok category_en.
Proof. vm_cast_no_check (eq_refl (Ok category_en)). Qed.
Lemma category_compared : compared generalCategoryFromProps category_wrong props_runs category_en = true.
Proof. vm_cast_no_check (eq_refl true). Qed.

Definition bidi_en : list (Z * Z * Z) := Eval vm_compute in of_res (enumerator Z.eqb (fun v => v) (bidiPropsTrie icu_bidi) 0x110000 0).
Lemma bidi_en_eq : enumerator Z.eqb (fun v => v) (bidiPropsTrie icu_bidi) 0x110000 0 = Ok bidi_en.
Proof. vm_cast_no_check (eq_refl (Ok bidi_en)). Qed.
Lemma bidi_compared : compared (fun v => v) bidi_wrong bidi_runs bidi_en = true.
Proof. vm_cast_no_check (eq_refl true). Qed.

Definition case_en : list (Z * Z * Z) := Eval vm_compute in of_res (enumerator Z.eqb (fun v => v) (casePropsTrie icu_case) 0x110000 0).
Lemma case_en_eq : enumerator Z.eqb (fun v => v) (casePropsTrie icu_case) 0x110000 0 = Ok case_en.
Proof. vm_cast_no_check (eq_refl (Ok case_en)). Qed.
Lemma case_compared : compared (fun v => v) case_wrong case_runs case_en = true.
Proof. vm_cast_no_check (eq_refl true). Qed.

(** What the getter of the category says of each code point of a yielded range. *)
Lemma category_enumeration : exists en, enumerator Z.eqb generalCategoryFromProps (propsTrie icu) 0x110000 0 = Ok en /\
  partition 0 en 0x110000 /\
  forall c, 0 <= c <= 0x10FFFF -> exists a b v, In (a, b, v) en /\ a <= c < b /\ (getGeneralCategory icu c = Ok v <-> ~ listed category_wrong c).
Proof.
  destruct (shipped_enumeration generalCategoryFromProps (propsTrie icu) category_en props_runs category_wrong category_en_eq props_runs_ok
    (props_top _ (Z.le_refl _)) category_compared) as (en & E & P & X).
  exists en. split; [exact E|]. split; [exact P|]. intros c Hc. destruct (X c Hc) as (a & b & v & w & I & Hr & G & Q).
  exists a, b, v. split; [exact I|]. split; [exact Hr|]. rewrite <- Q. unfold getGeneralCategory. rewrite G. cbn [bind].
  split; congruence.
Qed.

Definition raises (r : res (list (Z * Z * Z))) : bool := match r with Err IndexError => true | _ => false end.
Lemma raises_ok r : raises r = true -> r = Err IndexError.
Proof. destruct r as [|[]]; cbn; congruence. Qed.
Lemma script_raises : raises (enumeratorR (scriptFromVecIndex icu) (propsVectorTrie icu) 0x110000 0) = true.
Proof. vm_cast_no_check (eq_refl true). Qed.
Lemma block_raises : raises (enumeratorR (blockFromVecIndex icu) (propsVectorTrie icu) 0x110000 0) = true.
Proof. vm_cast_no_check (eq_refl true). Qed.
Lemma width_raises : raises (enumeratorR (eastAsianWidthFromVecIndex icu) (propsVectorTrie icu) 0x110000 0) = true.
Proof. vm_cast_no_check (eq_refl true). Qed.
