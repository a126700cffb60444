(** * CaseProps: the stored case information, and what the mappings do with it. *)
From Coq Require Import ZArith List Bool Lia ZifyBool.
From Verif Require Import Py Arr UTrie2 Utilities UtilitiesFacts Runs CharPropsFacts CaseProps.
Import ListNotations.
Open Scope Z_scope.

(** ** The flag table is the population count *)
Fixpoint popcount_pos (p : positive) : Z := match p with xH => 1 | xO q => popcount_pos q | xI q => 1 + popcount_pos q end.
Definition popcount (z : Z) : Z := match z with Zpos p => popcount_pos p | _ => 0 end.
Lemma flags_checked : forallb (fun n => match py_get flagsOffset n with Ok k => k =? popcount n | Err _ => false end) (zrange 0 256) = true.
Proof. vm_compute. reflexivity. Qed.
Lemma flagsOffset_popcount n : 0 <= n < 256 -> py_get flagsOffset n = Ok (popcount n).
Proof.
  intros H. pose proof flags_checked as F. rewrite forallb_forall in F. specialize (F n (proj2 (zrange_spec 0 256 n) H)). cbv beta in F.
  destruct (py_get flagsOffset n); [apply Z.eqb_eq in F; congruence|discriminate].
Qed.
Fixpoint count (l : list bool) : Z := match l with [] => 0 | b :: r => Z.b2z b + count r end.
Lemma popcount_bits l : popcount (bits_val l) = count l.
Proof.
  induction l as [|b r IH]; [reflexivity|]. cbn [bits_val count]. rewrite <- IH. pose proof (bits_val_range r) as [P _].
  destruct b, (bits_val r) as [|p|p]; cbn [Z.b2z]; try reflexivity; lia.
Qed.
Lemma bits_val_app l1 l2 : bits_val (l1 ++ l2) = bits_val l1 + 2 ^ Z.of_nat (length l1) * bits_val l2.
Proof.
  induction l1 as [|b r IH]; [cbn [bits_val app length]; lia|]. cbn [bits_val app length]. rewrite IH, Nat2Z.inj_succ, Z.pow_succ_r by lia. ring.
Qed.
Lemma bits_val_firstn l n : (n <= length l)%nat -> bits_val l mod 2 ^ Z.of_nat n = bits_val (firstn n l).
Proof.
  intros H. rewrite <- (firstn_skipn n l) at 1. rewrite bits_val_app, firstn_length_le by exact H.
  rewrite Z.mul_comm, Z_mod_plus_full. apply Z.mod_small. pose proof (bits_val_range (firstn n l)) as R. rewrite firstn_length_le in R by exact H.
  exact R.
Qed.

(** ** Stored exceptions *)

(** the case information of a character with an exception *)
Record exc := mkExc {
  e_slots : list (option Z);     (* lower, fold, upper, title, delta, reserved, closure, lengths of the full mappings *)
  e_double : bool;               (* slots of two words *)
  e_negative : bool;             (* the delta is to be subtracted *)
  e_special : bool;              (* conditional mappings *)
  e_b9 : bool; e_b11 : bool; e_b12 : bool; e_b13 : bool; e_b15 : bool;
  e_lower : list Z; e_fold : list Z; e_upper : list Z; e_title : list Z }.
Definition is_some {A} (o : option A) : bool := match o with Some _ => true | None => false end.
Definition exc_bits (E : exc) : list bool := map is_some (e_slots E) ++
  [e_double E; e_b9 E; e_negative E; e_b11 E; e_b12 E; e_b13 E; e_special E; e_b15 E].
Definition exc_word (E : exc) : Z := bits_val (exc_bits E).
Definition slot_words (double : bool) (o : option Z) : list Z :=
  match o with None => [] | Some v => if double then [v / 65536; v mod 65536] else [v] end.
Definition exc_words (E : exc) : list Z :=
  [exc_word E] ++ concat (map (slot_words (e_double E)) (e_slots E)) ++ e_lower E ++ e_fold E ++ e_upper E ++ e_title E.
Definition slot (E : exc) (k : Z) : option Z := nth (Z.to_nat k) (e_slots E) None.
Record exc_ok (E : exc) : Prop := {
  ok_slots : length (e_slots E) = 8%nat;
  ok_values : Forall (fun o => match o with Some v => 0 <= v < (if e_double E then 2 ^ 32 else 2 ^ 16) | None => True end) (e_slots E);
  ok_lower : zlen (e_lower E) < 16; ok_fold : zlen (e_fold E) < 16; ok_upper : zlen (e_upper E) < 16; ok_title : zlen (e_title E) < 16;
  ok_full : match slot E 7 with
            | Some f => f = zlen (e_lower E) + 16 * zlen (e_fold E) + 256 * zlen (e_upper E) + 4096 * zlen (e_title E)
            | None => e_lower E = [] /\ e_fold E = [] /\ e_upper E = [] /\ e_title E = []
            end;
  ok_units : Forall (fun u => 0 <= u < 65536) (e_lower E ++ e_upper E ++ e_title E) }.

Lemma exc_bits_length E : length (e_slots E) = 8%nat -> length (exc_bits E) = 16%nat.
Proof. intros H. unfold exc_bits. rewrite app_length, map_length, H. reflexivity. Qed.
Lemma exc_bit E k : 0 <= k -> negb (Z.land (exc_word E) (Z.shiftl 1 k) =? 0) = nth (Z.to_nat k) (exc_bits E) false.
Proof. intros H. rewrite land_bit by exact H. apply bits_val_nth. exact H. Qed.
Lemma flag_bit E k b : length (e_slots E) = 8%nat ->
  nth k [e_double E; e_b9 E; e_negative E; e_b11 E; e_b12 E; e_b13 E; e_special E; e_b15 E] false = b ->
  negb (Z.land (exc_word E) (Z.shiftl 1 (8 + Z.of_nat k)) =? 0) = b.
Proof.
  intros H <-. rewrite exc_bit by lia. unfold exc_bits. rewrite app_nth2; rewrite map_length, H; [|lia]. f_equal. lia.
Qed.
Lemma hasSlot_ok E k : length (e_slots E) = 8%nat -> 0 <= k < 8 -> hasSlot (exc_word E) k = is_some (slot E k).
Proof.
  intros H Hk. unfold hasSlot. rewrite exc_bit by lia. unfold exc_bits, slot. rewrite app_nth1 by (rewrite map_length, H; lia).
  change false with (@is_some Z None). apply map_nth.
Qed.
Lemma slotOffset_ok E k : length (e_slots E) = 8%nat -> 0 <= k < 8 ->
  slotOffset (exc_word E) k = Ok (count (map is_some (firstn (Z.to_nat k) (e_slots E)))).
Proof.
  intros H Hk. unfold slotOffset. rewrite Z.shiftl_1_l. replace (2 ^ k - 1) with (Z.ones k) by (rewrite Z.ones_equiv; lia).
  rewrite Z.land_ones by lia. unfold exc_word. rewrite <- (Z2Nat.id k) at 1 by lia. rewrite bits_val_firstn by (rewrite exc_bits_length; [lia|exact H]).
  unfold exc_bits. rewrite firstn_app, map_length, H. replace (Z.to_nat k - 8)%nat with 0%nat by lia. rewrite firstn_O, app_nil_r.
  rewrite firstn_map. set (l := map is_some _). rewrite flagsOffset_popcount, popcount_bits; [reflexivity|].
  pose proof (bits_val_range l) as R. assert (L : (length l <= 7)%nat).
  { subst l. rewrite map_length. rewrite firstn_length. lia. }
  split; [apply R|]. eapply Z.lt_le_trans; [apply R|]. apply (Z.pow_le_mono_r 2 _ 8); lia.
Qed.
Lemma count_words d l : zlen (concat (map (slot_words d) l)) = (if d then 2 else 1) * count (map is_some l).
Proof.
  induction l as [|o r IH]; [destruct d; reflexivity|]. cbn [map concat count]. rewrite zlen_app, IH.
  destruct o, d; cbn [slot_words is_some Z.b2z]; unfold zlen; cbn [length]; lia.
Qed.

Section Exc.
  Variable D : casedata.
  Variable E : exc.
  Hypothesis K : exc_ok E.
  Variable i : Z.
  Hypothesis ST : stored (exceptions D) i (exc_words E).

  Lemma word_at_i : aget (exceptions D) i = Ok (exc_word E).
  Proof. unfold exc_words in ST. cbn [app] in ST. apply stored_hd in ST. exact ST. Qed.
  (** position just after slot [k] *)
  Definition after (k : Z) : Z := (if e_double E then 2 else 1) * (count (map is_some (firstn (Z.to_nat k) (e_slots E))) + 1).
  Lemma slot_ok k v : 0 <= k < 8 -> slot E k = Some v -> getSlotValue D (exc_word E) k (i + 1) = Ok (v, after k - 1).
  Proof using K ST.
    intros Hk S. pose proof (ok_slots E K) as L8. unfold getSlotValue. rewrite slotOffset_ok by (auto; lia). cbn [bind].
    set (n := count _).
    assert (B : (Z.land (exc_word E) UCASE_EXC_DOUBLE_SLOTS =? 0) = negb (e_double E)).
    { apply negb_sym. symmetry. apply (flag_bit E 0 (e_double E) L8). reflexivity. }
    rewrite B. unfold exc_words in ST. apply stored_app in ST as [_ ST1]. apply stored_app in ST1 as [ST1 _].
    change (zlen [exc_word E]) with 1 in ST1.
    rewrite <- (firstn_skipn (Z.to_nat k) (e_slots E)), map_app, concat_app in ST1. apply stored_app in ST1 as [_ ST1].
    rewrite count_words in ST1. fold n in ST1.
    destruct (skipn (Z.to_nat k) (e_slots E)) as [|o r] eqn:Q.
    { exfalso. assert (length (skipn (Z.to_nat k) (e_slots E)) = 0%nat) by (rewrite Q; reflexivity). rewrite skipn_length in H. lia. }
    assert (O : o = Some v).
    { unfold slot in S. rewrite <- (firstn_skipn (Z.to_nat k) (e_slots E)), Q in S.
      rewrite app_nth2 in S by (rewrite firstn_length; lia). rewrite firstn_length_le in S by lia. rewrite Nat.sub_diag in S. exact S. }
    subst o. cbn [map concat] in ST1. apply stored_app in ST1 as [ST1 _].
    assert (RV : 0 <= v < (if e_double E then 2 ^ 32 else 2 ^ 16)).
    { pose proof (ok_values E K) as F. rewrite Forall_forall in F. apply (F (Some v)). unfold slot in S. rewrite <- S. apply nth_In. lia. }
    unfold after. fold n. destruct (e_double E); cbn [negb slot_words] in *.
    - pose proof (ST1 0%nat ltac:(cbn; lia)) as W0. pose proof (ST1 1%nat ltac:(cbn; lia)) as W1.
      change (Z.of_nat 0) with 0 in W0. change (Z.of_nat 1) with 1 in W1. rewrite Z.add_0_r in W0. cbn [nth] in W0, W1.
      cbv zeta. rewrite W0, W1. cbn [bind]. f_equal. f_equal; [|lia].
      rewrite Z.shiftl_mul_pow2 by lia. pose proof (Z.mod_pos_bound v 65536 ltac:(lia)). rewrite lor_low by (change (2 ^ 16) with 65536; lia).
      change (2 ^ 16) with 65536. rewrite Z.mul_comm. symmetry. apply Z.div_mod. lia.
    - pose proof (ST1 0%nat ltac:(cbn; lia)) as W0. change (Z.of_nat 0) with 0 in W0. rewrite Z.add_0_r in W0. cbn [nth] in W0.
      rewrite Z.mul_1_l in W0. rewrite W0. cbn [bind]. f_equal. f_equal. lia.
  Qed.
  (** the strings start after the last slot *)
  Lemma strings_at v : slot E 7 = Some v -> stored (exceptions D) (i + 1 + after 7) (e_lower E ++ e_fold E ++ e_upper E ++ e_title E).
  Proof using K ST.
    intros S. pose proof (ok_slots E K) as L8. unfold exc_words in ST. apply stored_app in ST as [_ ST1]. apply stored_app in ST1 as [_ ST1].
    change (zlen [exc_word E]) with 1 in ST1. rewrite count_words in ST1.
    replace (after 7) with ((if e_double E then 2 else 1) * count (map is_some (e_slots E))); [exact ST1|].
    unfold after. f_equal. unfold slot in S.
    destruct (e_slots E) as [|o0 [|o1 [|o2 [|o3 [|o4 [|o5 [|o6 [|o7 [|]]]]]]]]]; try discriminate L8.
    change (nth (Z.to_nat 7) [o0; o1; o2; o3; o4; o5; o6; o7] None) with o7 in S. subst o7.
    change (firstn (Z.to_nat 7) [o0; o1; o2; o3; o4; o5; o6; Some v]) with [o0; o1; o2; o3; o4; o5; o6].
    cbn [map count is_some Z.b2z]. lia.
  Qed.
  Lemma read_ok s l rest : stored (exceptions D) s (l ++ rest) -> Forall (fun u => 0 <= u < 65536) l ->
    forall n, n = zlen l -> read_chars D s n = Ok l.
  Proof.
    intros S F n ->. apply stored_app in S as [S _]. unfold read_chars, zlen. rewrite Nat2Z.id.
    assert (R : forall m l0, stored (exceptions D) (s + Z.of_nat m) l0 -> Forall (fun u => 0 <= u < 65536) l0 ->
      mapM (fun i => let* x := aget (exceptions D) (s + Z.of_nat i) in py_chr x) (seq m (length l0)) = Ok (map (fun x => [x]) l0)).
    { intros m l0. revert m. induction l0 as [|x r IH]; intros m S0 F0; [reflexivity|]. cbn [length seq mapM map].
      rewrite (stored_hd _ _ _ _ S0). inversion F0; subst. cbn [bind]. unfold py_chr.
      replace ((0 <=? x) && (x <=? 1114111)) with true by lia. cbn [bind]. rewrite IH; [reflexivity| |assumption].
      change (x :: r) with ([x] ++ r) in S0. apply stored_app in S0 as [_ S0]. change (zlen [x]) with 1 in S0.
      replace (s + Z.of_nat (Datatypes.S m)) with (s + Z.of_nat m + 1) by lia. exact S0. }
    rewrite R; [|rewrite Z.add_0_r; exact S|exact F]. cbn [bind]. f_equal. clear. induction l; [reflexivity|]. cbn. f_equal. exact IHl.
  Qed.
End Exc.

(** character [c] has the type [ty] (0 none, 1 lower, 2 upper, 3 title) and the exception [E] *)
Definition has_exc (D : casedata) (c ty : Z) (E : exc) : Prop := exists i ign, 0 <= i /\ 0 <= ty < 4 /\ 0 <= ign < 2 /\
  get (casePropsTrie D) c = Ok (ty + 4 * ign + 8 + 16 * i) /\ stored (exceptions D) i (exc_words E).
(** ... or the type [ty] and the distance [delta] to the other case; [low] are other properties *)
Definition has_delta (D : casedata) (c ty delta : Z) : Prop := exists ign low, 0 <= ty < 4 /\ 0 <= ign < 2 /\ 0 <= low < 8 /\ -256 <= delta < 256 /\
  get (casePropsTrie D) c = Ok ((delta mod 512) * 128 + (ty + 4 * ign + 16 * low)).

(** ** What the mappings should be *)
Definition move (E : exc) (c d : Z) : Z := if e_negative E then c - d else c + d.
Definition default (o : option Z) (c : Z) : Z := match o with Some v => v | None => c end.
Definition spec_lower (c ty : Z) (E : exc) : Z :=
  match slot E 4 with Some d => if 2 <=? ty then move E c d else default (slot E 0) c | None => default (slot E 0) c end.
Definition spec_upper (c ty : Z) (E : exc) : Z :=
  match slot E 4 with Some d => if ty =? 1 then move E c d else default (slot E 2) c | None => default (slot E 2) c end.
Definition spec_title (c ty : Z) (E : exc) : Z :=
  match slot E 4 with Some d => if ty =? 1 then move E c d else default (slot E 3) (default (slot E 2) c)
  | None => default (slot E 3) (default (slot E 2) c) end.
Definition spec_full_lower (c ty : Z) (E : exc) : list Z :=
  if e_special E then if c =? 0x130 then [0x69; 0x307] else [spec_lower c ty E]
  else match e_lower E with [] => [spec_lower c ty E] | s => s end.
Definition spec_full_upper (c ty : Z) (E : exc) : list Z :=
  if e_special E then if c =? 0x587 then [0x535; 0x552] else [spec_upper c ty E]
  else match e_upper E with [] => [spec_upper c ty E] | s => s end.
Definition spec_full_title (c ty : Z) (E : exc) : list Z :=
  if e_special E then if c =? 0x587 then [0x535; 0x582] else [spec_title c ty E]
  else match e_title E with [] => [spec_title c ty E] | s => s end.

Lemma low_bits ty ign hi : 0 <= ty < 4 -> 0 <= ign < 2 -> Z.land (ty + 4 * ign + 8 * hi) 3 = ty.
Proof.
  intros. change 3 with (Z.ones 2). rewrite Z.land_ones by lia. change (2 ^ 2) with 4.
  replace (ty + 4 * ign + 8 * hi) with (ty + (ign + 2 * hi) * 4) by ring. rewrite Z_mod_plus_full. apply Z.mod_small. lia.
Qed.
Lemma bit_of a b k n : 0 <= k -> 0 <= a < 2 ^ k -> n = a + 2 ^ k * b -> negb (Z.land n (Z.shiftl 1 k) =? 0) = Z.odd b.
Proof.
  intros Hk Ha ->. rewrite land_bit by exact Hk. rewrite Z.testbit_odd, Z.shiftr_div_pow2 by exact Hk.
  rewrite Z.mul_comm, Z.div_add by lia. rewrite Z.div_small by exact Ha. reflexivity.
Qed.
Lemma upper_bit ty ign hi : 0 <= ty < 4 -> 0 <= ign < 2 -> isUpperOrTitle (ty + 4 * ign + 8 * hi) = (2 <=? ty).
Proof.
  intros H1 H2. unfold isUpperOrTitle, UCASE_UPPER, UCASE_TITLE. change (Z.land 2 3) with (Z.shiftl 1 1).
  assert (T : ty = 0 \/ ty = 1 \/ ty = 2 \/ ty = 3) by lia.
  destruct T as [->|[->|[->| ->]]].
  - rewrite (bit_of 0 (2 * ign + 4 * hi) 1) by lia. rewrite Z.odd_add_mul_2 with (n := 0) at 1 || idtac. rewrite Z.odd_add, !Z.odd_mul. reflexivity.
  - rewrite (bit_of 1 (2 * ign + 4 * hi) 1) by lia. rewrite Z.odd_add, !Z.odd_mul. reflexivity.
  - rewrite (bit_of 0 (1 + (2 * ign + 4 * hi)) 1) by lia. rewrite !Z.odd_add, !Z.odd_mul. reflexivity.
  - rewrite (bit_of 1 (1 + (2 * ign + 4 * hi)) 1) by lia. rewrite !Z.odd_add, !Z.odd_mul. reflexivity.
Qed.
Lemma exc_bit3 ty ign hi : 0 <= ty < 4 -> 0 <= ign < 2 -> hasException (ty + 4 * ign + 8 * hi) = Z.odd hi.
Proof. intros. unfold hasException. change UCASE_EXCEPTION with (Z.shiftl 1 3). apply (bit_of (ty + 4 * ign)); lia. Qed.

Section Mapping.
  Variable D : casedata.
  Variables c ty : Z.
  Section WithExc.
    Variable E : exc.
    Hypothesis K : exc_ok E.
    Hypothesis H : has_exc D c ty E.

    Lemma exc_facts : exists p i, get (casePropsTrie D) c = Ok p /\ hasException p = true /\ isUpperOrTitle p = (2 <=? ty) /\
      getTypeFromProps p = ty /\ Z.shiftr p UCASE_EXC_SHIFT = i /\ stored (exceptions D) i (exc_words E).
    Proof using H.
      destruct H as (i & ign & Hi & Ht & Hg & G & S). exists (ty + 4 * ign + 8 + 16 * i), i.
      replace (ty + 4 * ign + 8 + 16 * i) with (ty + 4 * ign + 8 * (1 + 2 * i)) in * by ring. split; [exact G|].
      split; [rewrite exc_bit3 by assumption; rewrite Z.odd_add, Z.odd_mul; reflexivity|].
      split; [apply upper_bit; assumption|]. split; [apply low_bits; assumption|]. split; [|exact S].
      unfold UCASE_EXC_SHIFT. rewrite Z.shiftr_div_pow2 by lia. change (2 ^ 4) with 16.
      replace (ty + 4 * ign + 8 * (1 + 2 * i)) with (ty + 4 * ign + 8 + i * 16) by ring. rewrite Z.div_add, Z.div_small by lia. reflexivity.
    Qed.
    Lemma neg_ok c0 d : add_delta (exc_word E) c0 d = move E c0 d.
    Proof using K.
      unfold add_delta, move. assert (B : (Z.land (exc_word E) UCASE_EXC_DELTA_IS_NEGATIVE =? 0) = negb (e_negative E)).
      { apply negb_sym. symmetry. apply (flag_bit E 2 (e_negative E) (ok_slots E K)). reflexivity. }
      rewrite B. destruct (e_negative E); reflexivity.
    Qed.
    Lemma special_ok : negb (Z.land (exc_word E) UCASE_EXC_CONDITIONAL_SPECIAL =? 0) = e_special E.
    Proof using K. apply (flag_bit E 6 (e_special E) (ok_slots E K)). reflexivity. Qed.

    Ltac slots := rewrite !hasSlot_ok by (first [exact (ok_slots E K)|unfold UCASE_EXC_DELTA, UCASE_EXC_LOWER, UCASE_EXC_UPPER, UCASE_EXC_TITLE,
      UCASE_EXC_FULL_MAPPINGS; lia]).
    Theorem toLower_exc : toLower D c = Ok (spec_lower c ty E).
    Proof using K H.
      destruct exc_facts as (p & i & G & X & U & T & I & S). unfold toLower. rewrite G. cbn [bind]. rewrite X, U, I. cbn [negb].
      rewrite (word_at_i D E i S). cbn [bind]. slots. unfold spec_lower, UCASE_EXC_DELTA, UCASE_EXC_LOWER.
      destruct (slot E 4) as [d|] eqn:S4; cbn [is_some andb].
      - destruct (2 <=? ty).
        + rewrite (slot_ok D E K i S 4 d) by (auto; lia). cbn [bind]. rewrite neg_ok. reflexivity.
        + destruct (slot E 0) as [v|] eqn:S0; cbn [is_some default]; [|reflexivity]. rewrite (slot_ok D E K i S 0 v) by (auto; lia). reflexivity.
      - destruct (slot E 0) as [v|] eqn:S0; cbn [is_some default]; [|reflexivity]. rewrite (slot_ok D E K i S 0 v) by (auto; lia). reflexivity.
    Qed.
    Theorem toUpper_exc : toUpper D c = Ok (spec_upper c ty E).
    Proof using K H.
      destruct exc_facts as (p & i & G & X & U & T & I & S). unfold toUpper. rewrite G. cbn [bind]. rewrite X, T, I. cbn [negb].
      rewrite (word_at_i D E i S). cbn [bind]. slots. unfold spec_upper, UCASE_EXC_DELTA, UCASE_EXC_UPPER, UCASE_LOWER.
      destruct (slot E 4) as [d|] eqn:S4; cbn [is_some andb].
      - destruct (ty =? 1).
        + rewrite (slot_ok D E K i S 4 d) by (auto; lia). cbn [bind]. rewrite neg_ok. reflexivity.
        + destruct (slot E 2) as [v|] eqn:S0; cbn [is_some default]; [|reflexivity]. rewrite (slot_ok D E K i S 2 v) by (auto; lia). reflexivity.
      - destruct (slot E 2) as [v|] eqn:S0; cbn [is_some default]; [|reflexivity]. rewrite (slot_ok D E K i S 2 v) by (auto; lia). reflexivity.
    Qed.
    Theorem toTitle_exc : toTitle D c = Ok (spec_title c ty E).
    Proof using K H.
      destruct exc_facts as (p & i & G & X & U & T & I & S). unfold toTitle. rewrite G. cbn [bind]. rewrite X, T, I. cbn [negb].
      rewrite (word_at_i D E i S). cbn [bind]. slots. unfold spec_title, UCASE_EXC_DELTA, UCASE_EXC_UPPER, UCASE_EXC_TITLE, UCASE_LOWER.
      assert (R : (if is_some (slot E 3) then let* (v, _) := getSlotValue D (exc_word E) 3 (i + 1) in Ok v
                   else if is_some (slot E 2) then let* (v, _) := getSlotValue D (exc_word E) 2 (i + 1) in Ok v else Ok c) =
                  Ok (default (slot E 3) (default (slot E 2) c))).
      { destruct (slot E 3) as [v|] eqn:S3; cbn [is_some default]; [rewrite (slot_ok D E K i S 3 v) by (auto; lia); reflexivity|].
        destruct (slot E 2) as [v|] eqn:S2; cbn [is_some default]; [|reflexivity]. rewrite (slot_ok D E K i S 2 v) by (auto; lia). reflexivity. }
      rewrite R. destruct (slot E 4) as [d|] eqn:S4; cbn [is_some andb]; [|reflexivity].
      destruct (ty =? 1); [|reflexivity]. rewrite (slot_ok D E K i S 4 d) by (auto; lia). cbn [bind]. rewrite neg_ok. reflexivity.
    Qed.

    Lemma units_lower : Forall (fun u => 0 <= u < 65536) (e_lower E).
    Proof using K. pose proof (ok_units E K) as F. rewrite !Forall_app in F. tauto. Qed.
    Lemma units_upper : Forall (fun u => 0 <= u < 65536) (e_upper E).
    Proof using K. pose proof (ok_units E K) as F. rewrite !Forall_app in F. tauto. Qed.
    Lemma units_title : Forall (fun u => 0 <= u < 65536) (e_title E).
    Proof using K. pose proof (ok_units E K) as F. rewrite !Forall_app in F. tauto. Qed.
    Lemma nib a b d : 0 <= a < 16 -> 0 <= b -> d = a + 16 * b -> Z.land d 15 = a /\ Z.shiftr d 4 = b.
    Proof.
      intros Ha Hb ->. change 15 with (Z.ones 4). rewrite Z.land_ones, Z.shiftr_div_pow2 by lia. change (2 ^ 4) with 16.
      rewrite Z.mul_comm, Z_mod_plus_full, Z.div_add by lia. rewrite Z.mod_small, Z.div_small by lia. lia.
    Qed.
    Lemma full_parts f : slot E 7 = Some f ->
      Z.land f 15 = zlen (e_lower E) /\ Z.land (Z.shiftr f 4) 15 = zlen (e_fold E) /\
      Z.land (Z.shiftr (Z.shiftr f 4) 4) 15 = zlen (e_upper E) /\ Z.land (Z.shiftr (Z.shiftr (Z.shiftr f 4) 4) 4) 15 = zlen (e_title E).
    Proof using K.
      intros S. pose proof (ok_full E K) as F. rewrite S in F.
      pose proof (ok_lower E K) as L1. pose proof (ok_fold E K) as L2. pose proof (ok_upper E K) as L3. pose proof (ok_title E K) as L4.
      pose proof (zlen_nonneg (e_lower E)). pose proof (zlen_nonneg (e_fold E)). pose proof (zlen_nonneg (e_upper E)). pose proof (zlen_nonneg (e_title E)).
      destruct (nib (zlen (e_lower E)) (zlen (e_fold E) + 16 * (zlen (e_upper E) + 16 * zlen (e_title E))) f) as [A1 ->]; [lia|lia|lia|].
      destruct (nib (zlen (e_fold E)) (zlen (e_upper E) + 16 * zlen (e_title E))
        (zlen (e_fold E) + 16 * (zlen (e_upper E) + 16 * zlen (e_title E)))) as [A2 ->]; [lia|lia|reflexivity|].
      destruct (nib (zlen (e_upper E)) (zlen (e_title E)) (zlen (e_upper E) + 16 * zlen (e_title E))) as [A3 ->]; [lia|lia|reflexivity|].
      destruct (nib (zlen (e_title E)) 0 (zlen (e_title E))) as [A4 _]; [lia|lia|lia|]. auto.
    Qed.

    Theorem toFullLower_exc : 0 <= c <= 0x10FFFF -> 0 <= spec_lower c ty E <= 0x10FFFF -> toFullLower D c = Ok (spec_full_lower c ty E).
    Proof using K H.
      intros Hc HV. destruct exc_facts as (p & i & G & X & U & T & I & S).
      assert (R : (if hasSlot (exc_word E) UCASE_EXC_DELTA && isUpperOrTitle p then
          let* (delta, _) := getSlotValue D (exc_word E) UCASE_EXC_DELTA (i + 1) in py_chr (add_delta (exc_word E) c delta)
        else if hasSlot (exc_word E) UCASE_EXC_LOWER then
          let* (ch, _) := getSlotValue D (exc_word E) UCASE_EXC_LOWER (i + 1) in py_chr ch
        else Ok [c]) = Ok [spec_lower c ty E]).
      { assert (P : py_chr (spec_lower c ty E) = Ok [spec_lower c ty E]).
        { unfold py_chr. replace ((0 <=? spec_lower c ty E) && (spec_lower c ty E <=? 1114111)) with true by lia. reflexivity. }
        revert P. clear HV. slots. rewrite U. unfold spec_lower, UCASE_EXC_DELTA, UCASE_EXC_LOWER.
        destruct (slot E 4) as [d|] eqn:S4; cbn [is_some andb].
        - destruct (2 <=? ty).
          + intros P. rewrite (slot_ok D E K i S 4 d) by (auto; lia). cbn [bind]. rewrite neg_ok. exact P.
          + destruct (slot E 0) as [v|] eqn:S0; cbn [is_some default]; [|reflexivity]. rewrite (slot_ok D E K i S 0 v) by (auto; lia). auto.
        - destruct (slot E 0) as [v|] eqn:S0; cbn [is_some default]; [|reflexivity]. rewrite (slot_ok D E K i S 0 v) by (auto; lia). auto. }
      unfold toFullLower. unfold py_chr at 1. replace ((0 <=? c) && (c <=? 1114111)) with true by lia. cbn [bind].
      rewrite G. cbn [bind]. rewrite X, I. cbn [negb]. rewrite (word_at_i D E i S). cbn [bind]. cbv zeta. rewrite R, special_ok.
      unfold spec_full_lower. destruct (e_special E); [destruct (c =? 304); reflexivity|].
      rewrite hasSlot_ok by (first [exact (ok_slots E K)|unfold UCASE_EXC_FULL_MAPPINGS; lia]). unfold UCASE_EXC_FULL_MAPPINGS.
      destruct (slot E 7) as [f|] eqn:S7; cbn [is_some].
      - rewrite (slot_ok D E K i S 7 f) by (auto; lia). cbn [bind]. unfold UCASE_FULL_LOWER.
        destruct (full_parts f S7) as (-> & _). pose proof (strings_at D E K i S f S7) as ST.
        destruct (e_lower E) as [|u r] eqn:EL; [reflexivity|].
        replace (zlen (u :: r) =? 0) with false by (unfold zlen; cbn [length]; lia). cbn [negb].
        replace (i + 1 + (after E 7 - 1 + 1)) with (i + 1 + after E 7) by lia.
        apply (read_ok D _ _ _ ST); [rewrite <- EL; apply units_lower|reflexivity].
      - pose proof (ok_full E K) as F. rewrite S7 in F. destruct F as (-> & _). reflexivity.
    Qed.

    Theorem toUpperOrTitle_exc (u : bool) : 0 <= c <= 0x10FFFF ->
      0 <= (if u then spec_upper c ty E else spec_title c ty E) <= 0x10FFFF ->
      toUpperOrTitle D c u = Ok (if u then spec_full_upper c ty E else spec_full_title c ty E).
    Proof using K H.
      intros Hc HV. destruct exc_facts as (p & i & G & X & U & T & I & S).
      set (sv := if u then spec_upper c ty E else spec_title c ty E) in *.
      assert (R : (if hasSlot (exc_word E) UCASE_EXC_DELTA && (getTypeFromProps p =? UCASE_LOWER) then
          let* (delta, _) := getSlotValue D (exc_word E) UCASE_EXC_DELTA (i + 1) in py_chr (add_delta (exc_word E) c delta)
        else if negb u && hasSlot (exc_word E) UCASE_EXC_TITLE then
          let* (ch, _) := getSlotValue D (exc_word E) UCASE_EXC_TITLE (i + 1) in py_chr ch
        else if hasSlot (exc_word E) UCASE_EXC_UPPER then
          let* (ch, _) := getSlotValue D (exc_word E) UCASE_EXC_UPPER (i + 1) in py_chr ch
        else Ok [c]) = Ok [sv]).
      { assert (P : py_chr sv = Ok [sv]) by (unfold py_chr; replace ((0 <=? sv) && (sv <=? 1114111)) with true by lia; reflexivity).
        revert P. clear HV. subst sv. slots. rewrite T.
        unfold spec_upper, spec_title, UCASE_EXC_DELTA, UCASE_EXC_UPPER, UCASE_EXC_TITLE, UCASE_LOWER.
        assert (R2 : py_chr (default (slot E 2) c) = Ok [default (slot E 2) c] ->
          (if is_some (slot E 2) then let* (ch, _) := getSlotValue D (exc_word E) 2 (i + 1) in py_chr ch else Ok [c]) = Ok [default (slot E 2) c]).
        { destruct (slot E 2) as [v|] eqn:S2; cbn [is_some default]; [|reflexivity]. rewrite (slot_ok D E K i S 2 v) by (auto; lia). auto. }
        assert (R3 : py_chr (default (slot E 3) (default (slot E 2) c)) = Ok [default (slot E 3) (default (slot E 2) c)] ->
          (if is_some (slot E 3) then let* (ch, _) := getSlotValue D (exc_word E) 3 (i + 1) in py_chr ch else
           if is_some (slot E 2) then let* (ch, _) := getSlotValue D (exc_word E) 2 (i + 1) in py_chr ch else Ok [c]) =
          Ok [default (slot E 3) (default (slot E 2) c)]).
        { destruct (slot E 3) as [v|] eqn:S3; cbn [is_some default]; [|exact R2]. rewrite (slot_ok D E K i S 3 v) by (auto; lia). auto. }
        destruct (slot E 4) as [d|] eqn:S4; cbn [is_some andb].
        - destruct (ty =? 1).
          + intros P. rewrite (slot_ok D E K i S 4 d) by (auto; lia). cbn [bind]. rewrite neg_ok. destruct u; exact P.
          + destruct u; cbn [negb andb]; [exact R2|exact R3].
        - destruct u; cbn [negb andb]; [exact R2|exact R3]. }
      unfold toUpperOrTitle. unfold py_chr at 1. replace ((0 <=? c) && (c <=? 1114111)) with true by lia. cbn [bind].
      rewrite G. cbn [bind]. rewrite X, I. cbn [negb]. rewrite (word_at_i D E i S). cbn [bind]. cbv zeta. rewrite R, special_ok.
      unfold spec_full_upper, spec_full_title. destruct (e_special E); [subst sv; destruct u, (c =? 1415); reflexivity|].
      rewrite hasSlot_ok by (first [exact (ok_slots E K)|unfold UCASE_EXC_FULL_MAPPINGS; lia]). unfold UCASE_EXC_FULL_MAPPINGS.
      destruct (slot E 7) as [f|] eqn:S7; cbn [is_some].
      - rewrite (slot_ok D E K i S 7 f) by (auto; lia). cbn [bind]. unfold UCASE_FULL_LOWER.
        destruct (full_parts f S7) as (-> & -> & A3 & A4). pose proof (strings_at D E K i S f S7) as ST.
        apply stored_app in ST as [_ ST]. apply stored_app in ST as [_ ST]. destruct u.
        + rewrite A3. cbv beta iota. destruct (e_upper E) as [|x r] eqn:EL; [reflexivity|].
          replace (zlen (x :: r) =? 0) with false by (unfold zlen; cbn [length]; lia). cbn [negb].
          apply (read_ok D _ _ (e_title E)); [|rewrite <- EL; apply units_upper|reflexivity].
          replace (i + 1 + (after E 7 - 1 + 1 + zlen (e_lower E)) + zlen (e_fold E)) with (i + 1 + after E 7 + zlen (e_lower E) + zlen (e_fold E)) by lia.
          exact ST.
        + rewrite A3, A4. cbv beta iota. destruct (e_title E) as [|x r] eqn:EL; [reflexivity|].
          replace (zlen (x :: r) =? 0) with false by (unfold zlen; cbn [length]; lia). cbn [negb].
          apply stored_app in ST as [_ ST].
          apply (read_ok D _ _ []); [|rewrite <- EL; apply units_title|reflexivity]. rewrite app_nil_r.
          replace (i + 1 + (after E 7 - 1 + 1 + zlen (e_lower E)) + zlen (e_fold E) + zlen (e_upper E))
            with (i + 1 + after E 7 + zlen (e_lower E) + zlen (e_fold E) + zlen (e_upper E)) by lia. exact ST.
      - pose proof (ok_full E K) as F. rewrite S7 in F. destruct F as (_ & _ & -> & ->). destruct u; reflexivity.
    Qed.
  End WithExc.

  Section Plain.
    Variable delta : Z.
    Hypothesis H : has_delta D c ty delta.
    Lemma plain_facts : exists p, get (casePropsTrie D) c = Ok p /\ hasException p = false /\ isUpperOrTitle p = (2 <=? ty) /\
      getTypeFromProps p = ty /\ getDeltaFromProps p = Ok delta.
    Proof using H.
      destruct H as (ign & low & Ht & Hg & Hl & Hd & G). eexists. split; [exact G|].
      assert (E : delta mod 512 * 128 + (ty + 4 * ign + 16 * low) = ty + 4 * ign + 8 * (2 * low + 16 * (delta mod 512))) by ring.
      split; [rewrite E, exc_bit3 by assumption; rewrite Z.odd_add, !Z.odd_mul; reflexivity|].
      split; [rewrite E; apply upper_bit; assumption|]. split; [unfold getTypeFromProps; rewrite E; apply low_bits; assumption|].
      unfold getDeltaFromProps, UCASE_PROPS_BITS, UCASE_DELTA_BITS.
      apply (arithmeticShift_decodes 16 9 delta (ty + 4 * ign + 16 * low)); [lia| |].
      - change (2 ^ (9 - 1)) with 256. lia.
      - change (2 ^ (16 - 9)) with 128. lia.
    Qed.
    Theorem plain_simple : toLower D c = Ok (if 2 <=? ty then c + delta else c) /\ toUpper D c = Ok (if ty =? 1 then c + delta else c) /\
      toTitle D c = Ok (if ty =? 1 then c + delta else c).
    Proof using H.
      destruct plain_facts as (p & G & X & U & T & L). unfold toLower, toUpper, toTitle. rewrite G. cbn [bind]. rewrite X, U, T. cbn [negb].
      unfold UCASE_LOWER. rewrite L. destruct (2 <=? ty), (ty =? 1); auto.
    Qed.
    Theorem plain_full : 0 <= c <= 0x10FFFF -> 0 <= c + delta <= 0x10FFFF ->
      toFullLower D c = Ok [if 2 <=? ty then c + delta else c] /\ toFullUpper D c = Ok [if ty =? 1 then c + delta else c] /\
      toFullTitle D c = Ok [if ty =? 1 then c + delta else c].
    Proof using H.
      intros Hc Hd. destruct plain_facts as (p & G & X & U & T & L). unfold toFullLower, toFullUpper, toFullTitle, toUpperOrTitle.
      assert (P1 : py_chr c = Ok [c]) by (unfold py_chr; replace ((0 <=? c) && (c <=? 1114111)) with true by lia; reflexivity).
      assert (P2 : py_chr (c + delta) = Ok [c + delta])
        by (unfold py_chr; replace ((0 <=? c + delta) && (c + delta <=? 1114111)) with true by lia; reflexivity).
      rewrite P1. cbn [bind]. rewrite G. cbn [bind]. rewrite X, U, T. cbn [negb]. unfold UCASE_LOWER. rewrite L. cbn [bind]. rewrite P2.
      destruct (2 <=? ty), (ty =? 1); auto.
    Qed.
  End Plain.
End Mapping.
