(** * What a consumer of an enumeration sees (C119) *)
From Coq Require Import ZArith List Bool Lia ZifyBool.
From Verif Require Import Py Arr UTrie2 UTrie2Enum UTrie2Lazy Runs CharProps CharRuns EnumShipped.
Import ListNotations.
Open Scope Z_scope.

(** ** C119

    [enumeratorL] keeps the ranges that were yielded before an exception; the value function may raise. *)
Theorem C119_same : forall V (veq : V -> V -> bool) vf t limit start,
  enumerator veq vf t limit start = outcome (enumeratorL veq (fun z => Ok (vf z)) t limit start).
Proof. intros. symmetry. apply enumerator_same. Qed.
Print Assumptions C119_same.

(** *** Before the exception: consecutive ranges from the start on, neighbours with different values *)
Lemma tiles_le {V} (rs : list (Z * Z * V)) : forall lo hi, UTrie2Enum.tiles lo rs hi -> lo <= hi.
Proof. induction rs as [|[[a b] v] r IH]; intros lo hi H; cbn in H; [lia|]. destruct H as (-> & L & H). apply IH in H. lia. Qed.
Theorem C119_prefix : forall V (veq : V -> V -> bool) f t limit start rs e, (forall a b, veq a b = true <-> a = b) ->
  enumeratorL veq f t limit start = (rs, Some e) -> exists m, start <= m /\ partition start rs m.
Proof.
  intros V veq f t limit start rs e E H.
  assert (G : exists m, partition start rs m); [|destruct G as [m P]; exists m; split; [exact (tiles_le rs start m (proj1 P))|exact P]].
  assert (N : partition start (rev (@nil (Z * Z * V))) start) by (split; [reflexivity|exact I]).
  unfold enumeratorL in H. destruct (f (initialValue t)) as [init|e0]; [|assert (rs = []) as -> by congruence; exists start; exact N].
  destruct (f 0) as [v0|e0]; [|assert (rs = []) as -> by congruence; exists start; exact N]. unfold stepsL in H. rewrite run_run_nat in H.
  assert (P0 : PI start (mkEst start start v0 (-1) (-1) [])) by (constructor; cbn; auto).
  pose proof (always_run veq f t limit init (PI start) (PI_advance veq (fun _ => v0) E start) (PI_note veq (fun _ => v0) E start) (PI_set_block start) (PI_set_i2block start)
    (Pos.to_nat (Z.to_pos (limit - start + 1))) _ P0) as K.
  destruct (run_nat (outer_stepL veq f t limit init) (Pos.to_nat (Z.to_pos (limit - start + 1))) (mkEst start start v0 (-1) (-1) [])) as [s|[s [e1|]]].
  - assert (rs = rev (e_out s)) as -> by congruence. exists (e_prev s). apply btiles_partition. exact (PI_t _ _ K).
  - assert (rs = rev (e_out s)) as -> by congruence. exists (e_prev s). apply btiles_partition. exact (PI_t _ _ K).
  - cbn [fst] in K. unfold finishL in H. destruct (e_c s >? limit); [congruence|]. destruct (e_c s <? limit); [|congruence].
    destruct (let* x := aget (index t) (highValueIndex t) in f x) as [v|e1]; [congruence|].
    assert (rs = rev (e_out s)) as -> by congruence. exists (e_prev s). apply btiles_partition. exact (PI_t _ _ K).
Qed.
Print Assumptions C119_prefix.

(** *** They are the first ranges of the enumeration with any function that agrees with the value function where that does not raise *)
Theorem C119_extends : forall V (veq : V -> V -> bool) f (g : Z -> V) t limit start rs o, (forall z v, f z = Ok v -> g z = v) ->
  enumeratorL veq f t limit start = (rs, o) ->
  match o with
  | None => enumerator veq g t limit start = Ok rs
  | Some _ => forall rs', enumerator veq g t limit start = Ok rs' -> exists more, rs' = rs ++ more
  end.
Proof.
  intros V veq f g t limit start rs o Hfg H. rewrite <- enumerator_same.
  assert (Hg : forall z v, f z = Ok v -> (fun z => Ok (g z)) z = Ok v) by (intros z v F; cbv beta; rewrite (Hfg z v F); reflexivity).
  unfold enumeratorL in *. destruct (f (initialValue t)) as [init|e] eqn:F1.
  2:{ assert (rs = [] /\ o = Some e) as [-> ->] by (split; congruence). intros rs' _. exists rs'. reflexivity. }
  destruct (f 0) as [v0|e] eqn:F0.
  2:{ assert (rs = [] /\ o = Some e) as [-> ->] by (split; congruence). intros rs' _. exists rs'. reflexivity. }
  rewrite (Hfg _ _ F1), (Hfg _ _ F0). pose proof (steps_sim veq f (fun z => Ok (g z)) Hg t limit init start (mkEst start start v0 (-1) (-1) [])) as K. rewrite H in K.
  destruct o as [e|]; [|rewrite K; reflexivity]. intros rs' R. destruct K as [l K]. exists l. rewrite <- K.
  destruct (stepsL veq (fun z => Ok (g z)) t limit init start (mkEst start start v0 (-1) (-1) [])) as [r [e'|]]; cbn [outcome fst] in *; congruence.
Qed.
Print Assumptions C119_extends.

(** *** The shipped vectors: script, block and width of the code points below U+30000 are yielded before the IndexError *)
Definition pieceR (f : Z -> res Z) (bad : list (Z * Z)) (a b w v : Z) : bool :=
  if match f w with Ok x => x =? v | Err _ => false end then outside bad a b else inside bad a b.
Definition comparedR (f : Z -> res Z) (bad : list (Z * Z)) (m : Z) (rs en : list (Z * Z * Z)) : bool :=
  let l := merged rs en in Runs.tiles 0 l m && forallb (fun p => let '(a, b, (w, v)) := p in pieceR f bad a (Z.min b m) w v) l.
Definition stopped (t : utrie2) (runs : list (Z * Z * Z)) (f : Z -> res Z) (bad : list (Z * Z)) (m : Z) : bool :=
  match enumeratorL Z.eqb f t 0x110000 0 with
  | (rs, Some IndexError) => comparedR f bad m runs rs && match rev rs with (_, b, _) :: _ => b =? m | [] => false end
  | _ => false
  end.
Lemma partition_end {V} (rs : list (Z * Z * V)) : forall lo hi a b v r, UTrie2Enum.tiles lo rs hi -> rev rs = (a, b, v) :: r -> hi = b.
Proof.
  induction rs as [|[[x y] w] l IH]; intros lo hi a b v r H R; [discriminate|]. cbn in H. destruct H as (-> & L & H). cbn [rev] in R.
  revert R. case_eq (rev l); [intros E R|intros [[p q] u] k E R; cbn [app] in R; apply (IH _ _ p q u k H) in E as E'; congruence].
  assert (l = []) as -> by (rewrite <- (rev_involutive l), E; reflexivity). cbn in H. cbn [app] in R. congruence.
Qed.
Lemma stopped_ok t runs f bad m : runs_ok (get t) runs 0x10FFFF -> stopped t runs f bad m = true -> 0 <= m <= 0x10FFFF ->
  exists rs, enumeratorL Z.eqb f t 0x110000 0 = (rs, Some IndexError) /\ partition 0 rs m /\
  forall c, 0 <= c < m -> exists a b v w, In (a, b, v) rs /\ a <= c < b /\ get t c = Ok w /\ (f w = Ok v <-> ~ listed bad c).
Proof.
  unfold stopped. intros [_ RO] H Hm. destruct (enumeratorL Z.eqb f t 0x110000 0) as [rs [[]|]] eqn:E; try discriminate.
  apply andb_true_iff in H as [H L]. exists rs. split; [reflexivity|]. split.
  - destruct (C119_prefix Z Z.eqb f _ _ _ rs IndexError Z.eqb_eq E) as (k & _ & P). destruct (rev rs) as [|[[a b] v] r] eqn:R; [discriminate|].
    pose proof (partition_end rs 0 k a b v r (proj1 P) R) as Q. replace m with k by lia. exact P.
  - unfold comparedR in H. apply andb_true_iff in H as [H1 H2]. intros c Hc. destruct (tiles_covers _ _ 0 H1 c Hc) as (a & b & [w v] & Hin & Hr).
    rewrite forallb_forall in H2. specialize (H2 _ Hin). cbv beta iota in H2.
    destruct (merge_sound _ _ _ _ runs rs _ _ _ _ (incl_refl _) (incl_refl _) Hin) as [(a1 & b1 & I1 & L1) (a2 & b2 & I2 & L2)].
    exists a2, b2, v, w. split; [exact I2|]. split; [lia|]. split; [apply (RO a1 b1 w c I1); lia|].
    unfold pieceR in H2. destruct (f w) as [x|e] eqn:F; [destruct (Z.eqb_spec x v) as [->|N]|].
    + split; [intros _; eapply outside_ok; [exact H2|lia]|reflexivity].
    + split; [congruence|]. intros N'. exfalso. apply N'. eapply inside_ok; [exact H2|lia].
    + split; [discriminate|]. intros N'. exfalso. apply N'. eapply inside_ok; [exact H2|lia].
Qed.
Definition script_wrong : list (Z * Z) :=
  [(0x1000, 0x1020); (0x2800, 0x2900); (0xA9CE, 0xA9D0); (0xA9DA, 0xA9DE); (0x10800, 0x10806); (0x10808, 0x10809); (0x1080A, 0x10820); (0x11800, 0x11820);
   (0x14800, 0x14820); (0x16800, 0x16820); (0x17800, 0x17820); (0x18000, 0x18020); (0x18800, 0x18820); (0x1B000, 0x1B020); (0x1B800, 0x1B820); (0x1C000, 0x1C020);
   (0x1D000, 0x1D020); (0x1F000, 0x1F020); (0x1F800, 0x1F820); (0x20000, 0x20020); (0x2C002, 0x2C010); (0x2C800, 0x2C820); (0x2D000, 0x2D020)].
Definition width_wrong : list (Z * Z) :=
  [(0x2010, 0x2011); (0x2013, 0x2017); (0x2018, 0x201A); (0x201C, 0x201E); (0xE000, 0xF900); (0x14800, 0x14820); (0x1B000, 0x1B020); (0x1B800, 0x1B820);
   (0x1F004, 0x1F005); (0x20000, 0x20020); (0x2D000, 0x2D020)].
Lemma script_stopped : stopped (propsVectorTrie icu) vec_runs (scriptFromVecIndex icu) script_wrong 0x30000 = true.
Proof. vm_cast_no_check (eq_refl true). Qed.
Lemma width_stopped : stopped (propsVectorTrie icu) vec_runs (eastAsianWidthFromVecIndex icu) width_wrong 0x30000 = true.
Proof. vm_cast_no_check (eq_refl true). Qed.
Theorem C119_script_refuted : exists rs, enumeratorL Z.eqb (scriptFromVecIndex icu) (propsVectorTrie icu) 0x110000 0 = (rs, Some IndexError) /\ partition 0 rs 0x30000 /\
  forall c, 0 <= c < 0x30000 -> exists a b v, In (a, b, v) rs /\ a <= c < b /\ (getScript icu c = Ok v <-> ~ listed script_wrong c).
Proof.
  destruct (stopped_ok _ _ _ _ _ vec_runs_ok script_stopped ltac:(lia)) as (rs & E & P & H). exists rs. split; [exact E|]. split; [exact P|]. intros c Hc.
  destruct (H c Hc) as (a & b & v & w & I & R & G & Q). exists a, b, v. split; [exact I|]. split; [exact R|]. rewrite <- Q. unfold getScript.
  replace (c >? 0x10FFFF) with false by lia. rewrite G. cbn [bind]. reflexivity.
Qed.
Print Assumptions C119_script_refuted.
Theorem C119_width_refuted : exists rs, enumeratorL Z.eqb (eastAsianWidthFromVecIndex icu) (propsVectorTrie icu) 0x110000 0 = (rs, Some IndexError) /\ partition 0 rs 0x30000 /\
  forall c, 0 <= c < 0x30000 -> exists a b v, In (a, b, v) rs /\ a <= c < b /\ (getEastAsianWidth icu c = Ok v <-> ~ listed width_wrong c).
Proof.
  destruct (stopped_ok _ _ _ _ _ vec_runs_ok width_stopped ltac:(lia)) as (rs & E & P & H). exists rs. split; [exact E|]. split; [exact P|]. intros c Hc.
  destruct (H c Hc) as (a & b & v & w & I & R & G & Q). exists a, b, v. split; [exact I|]. split; [exact R|]. rewrite <- Q. unfold getEastAsianWidth, of_char.
  rewrite G. cbn [bind]. reflexivity.
Qed.
Print Assumptions C119_width_refuted.
Example C119_case : listed script_wrong 0x1000 /\ ~ listed script_wrong 0x41 /\ getScript icu 0x1000 = Ok 28 /\
  enumeratorL Z.eqb (fun v => if v =? 2 then Err KeyError else Ok v) (propsTrie icu) 0x110000 0x40 =
    ([(0x40, 0x41, 23); (0x41, 0x5B, 1); (0x5B, 0x5C, 20); (0x5C, 0x5D, 23); (0x5D, 0x5E, 21); (0x5E, 0x5F, 26); (0x5F, 0x60, 22)], Some KeyError).
Proof.
  split; [exists 0x1000, 0x1020; split; [left; reflexivity|lia]|].
  split; [intros (a & b & Hin & Hr); repeat (destruct Hin as [[= <- <-]|Hin]; [lia|]); destruct Hin|].
  split; vm_compute; reflexivity.
Qed.
