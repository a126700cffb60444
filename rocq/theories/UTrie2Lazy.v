(** * Utrie2.py: [enumerator] as its consumer sees it

    The generator yields one range after the other; when it raises, the consumer has had
    the ranges before.  UTrie2.v gives the list of all ranges or the exception; here both
    are kept, and the value function may raise. *)
From Coq Require Import ZArith List Bool Lia ZifyBool.
From Verif Require Import Py Arr Utilities UnicodeSet UTrie2 UTrie2Enum.
Import ListNotations.
Open Scope Z_scope.

Section Lazy.
  Context {V : Type} (veq : V -> V -> bool).
  Local Notation est := (est (V := V)).
  (** the state of the generator, and the exception that ended it, if any *)
  Definition kept : Type := est * option exn.
  Definition thenL (r : kept) (k : est -> kept) : kept := match r with (s, None) => k s | (s, Some e) => (s, Some e) end.
  Definition withL {A} (s : est) (r : res A) (k : A -> kept) : kept := match r with Ok x => k x | Err e => (s, Some e) end.

  Section Generator.
    Variable vf : Z -> res V.
    Variable t : utrie2.
    Variable limit : Z.
    (** Utrie2.py:101: computed before the first range is asked for, so it is a value here *)
    Variable init : V.
    (** Utrie2.py:193-201 *)
    Fixpoint jloopL (block : Z) (js : list Z) (s : est) : kept :=
      match js with
      | [] => (s, None)
      | j :: rest => withL s (let* x := aget (index t) (block + j) in vf x) (fun v => jloopL block rest (advance (note veq s v) 1))
      end.
    (** Utrie2.py:172-201 *)
    Definition i2bodyL (i2Block tempLimit i2 : Z) (s : est) : kept :=
      withL s (aget (index t) (i2Block + i2)) (fun x =>
      let block := Z.shiftl x INDEX_SHIFT in
      if (block =? e_block s) && (e_c s - e_prev s >=? DATA_BLOCK_LENGTH)
      then (advance s DATA_BLOCK_LENGTH, None)
      else
        let s := set_block s block in
        if block =? dataNullOffset t
        then (advance (note veq s init) DATA_BLOCK_LENGTH, None)
        else
          let jStart := Z.land (e_c s) DATA_MASK in
          let jLimit := Z.min DATA_BLOCK_LENGTH (jStart + tempLimit - e_c s) in
          jloopL block (py_range jStart jLimit 1) s).
    Fixpoint i2loopL (i2Block tempLimit : Z) (is : list Z) (s : est) : kept :=
      match is with
      | [] => (s, None)
      | i2 :: rest => thenL (i2bodyL i2Block tempLimit i2 s) (i2loopL i2Block tempLimit rest)
      end.
    (** Utrie2.py:112-201 *)
    Definition outer_bodyL (s : est) : kept :=
      let c := e_c s in
      withL s (choose t limit c) (fun '(i2Block, tempLimit) =>
      if negb (c <=? 0xFFFF) && (i2Block =? e_i2block s) && (c - e_prev s >=? CP_PER_INDEX_1_ENTRY)
      then (advance s CP_PER_INDEX_1_ENTRY, None)
      else
        let s := set_i2block s i2Block in
        if i2Block =? index2NullOffset t then
          (advance (if veq (e_value s) init then s else set_block (note veq s init) (dataNullOffset t)) CP_PER_INDEX_1_ENTRY, None)
        else
          let (i2Start, i2Limit) := i2bounds c i2Block tempLimit in
          i2loopL i2Block tempLimit (py_range i2Start (i2Limit + 1) 1) s).
    (** Utrie2.py:111 *)
    Definition outer_stepL (s : est) : est + kept :=
      if (e_c s <? limit) && (e_c s <? highStart t) then match outer_bodyL s with (s', None) => inl s' | (s', Some e) => inr (s', Some e) end
      else inr (s, None).
    (** Utrie2.py:203-217; with the last range among those yielded *)
    Definition finishL (s : est) : list (Z * Z * V) * option exn :=
      let c := e_c s in
      let last s := (rev (out_before (mkEst limit (e_prev s) (e_value s) (e_block s) (e_i2block s) (e_out s))), None) in
      if c >? limit then last s
      else if c <? limit then match (let* x := aget (index t) (highValueIndex t) in vf x) with Ok v => last (note veq s v) | Err e => (rev (e_out s), Some e) end
      else (rev (out_before s), None).
    (** how many steps the outer loop takes at most; the initial state *)
    Definition stepsL (start : Z) (s0 : est) : list (Z * Z * V) * option exn :=
      match run outer_stepL (Z.to_pos (limit - start + 1)) s0 with
      | inl s => (rev (e_out s), Some OutOfFuel)
      | inr (s, None) => finishL s
      | inr (s, Some e) => (rev (e_out s), Some e)
      end.
  End Generator.

  (** Utrie2.py:97-217: the ranges yielded, and the exception after the last of them *)
  Definition enumeratorL (vf : Z -> res V) (t : utrie2) (limit start : Z) : list (Z * Z * V) * option exn :=
    match vf (initialValue t) with
    | Err e => ([], Some e)
    | Ok init =>
        match vf 0 with
        | Err e => ([], Some e)
        | Ok v0 => stepsL vf t limit init start (mkEst start start v0 (-1) (-1) [])
        end
    end.
End Lazy.

(** ** The two models agree *)
Definition outcome {A} (r : A * option exn) : res A := match r with (x, None) => Ok x | (_, Some e) => Err e end.
Section Same.
  Context {V : Type} (veq : V -> V -> bool) (vf : Z -> V).
  Variable t : utrie2.
  Variable limit : Z.
  Local Notation est := (est (V := V)).
  Local Notation vfL := (fun z => Ok (vf z)).
  Lemma jloop_same block js : forall s, outcome (jloopL veq vfL t block js s) = jloop veq vf t block js s.
  Proof.
    induction js as [|j js IH]; intros s; [reflexivity|]. cbn [jloopL jloop]. destruct (aget (index t) (block + j)) as [x|e]; [|reflexivity]. cbn [bind withL]. apply IH.
  Qed.
  Lemma i2body_same b tl i2 s : outcome (i2bodyL veq vfL t (initV vf t) b tl i2 s) = i2body veq vf t b tl i2 s.
  Proof.
    unfold i2bodyL, i2body. destruct (aget (index t) (b + i2)) as [x|e]; [|reflexivity]. cbn [bind withL].
    destruct ((Z.shiftl x INDEX_SHIFT =? e_block s) && (e_c s - e_prev s >=? DATA_BLOCK_LENGTH)); [reflexivity|].
    destruct (Z.shiftl x INDEX_SHIFT =? dataNullOffset t); [reflexivity|]. apply jloop_same.
  Qed.
  Lemma i2loop_same b tl is : forall s, outcome (i2loopL veq vfL t (initV vf t) b tl is s) = i2loop veq vf t b tl is s.
  Proof.
    induction is as [|i is IH]; intros s; [reflexivity|]. cbn [i2loopL i2loop]. rewrite <- i2body_same. destruct (i2bodyL veq vfL t (initV vf t) b tl i s) as [s1 [e|]]; [reflexivity|].
    cbn [thenL outcome bind]. apply IH.
  Qed.
  Lemma outer_same s : outcome (outer_bodyL veq vfL t limit (initV vf t) s) = outer_body veq vf t limit s.
  Proof.
    unfold outer_bodyL, outer_body. destruct (choose t limit (e_c s)) as [[b tl]|e]; [|reflexivity]. cbn [bind withL].
    destruct (negb (e_c s <=? 0xFFFF) && (b =? e_i2block s) && (e_c s - e_prev s >=? CP_PER_INDEX_1_ENTRY)); [reflexivity|].
    destruct (b =? index2NullOffset t); [reflexivity|]. destruct (i2bounds (e_c s) b tl) as [i0 i1]. apply i2loop_same.
  Qed.
  Definition sideL (r : est + kept (V := V)) : est + res est := match r with inl s => inl s | inr k => inr (outcome k) end.
  Lemma step_same s : sideL (outer_stepL veq vfL t limit (initV vf t) s) = outer_step veq vf t limit s.
  Proof.
    unfold outer_stepL, outer_step. destruct ((e_c s <? limit) && (e_c s <? highStart t)); [|reflexivity]. rewrite <- outer_same.
    destruct (outer_bodyL veq vfL t limit (initV vf t) s) as [s1 [e|]]; reflexivity.
  Qed.
  Lemma run_same n : forall s, sideL (run_nat (outer_stepL veq vfL t limit (initV vf t)) n s) = run_nat (outer_step veq vf t limit) n s.
  Proof.
    induction n as [|n IH]; intros s; [reflexivity|]. cbn [run_nat]. rewrite <- step_same.
    destruct (outer_stepL veq vfL t limit (initV vf t) s) as [s1|k]; [apply IH|reflexivity].
  Qed.
  Lemma finish_same s : outcome (finishL veq vfL t limit s) = finish veq vf t limit s.
  Proof.
    unfold finishL, finish. destruct (e_c s >? limit); [reflexivity|]. destruct (e_c s <? limit); [|reflexivity].
    destruct (aget (index t) (highValueIndex t)) as [x|e]; reflexivity.
  Qed.
  Lemma enumerator_same start : outcome (enumeratorL veq vfL t limit start) = enumerator veq vf t limit start.
  Proof.
    unfold enumeratorL, enumerator, stepsL. rewrite !run_run_nat. change (vf (initialValue t)) with (initV vf t). rewrite <- run_same.
    destruct (run_nat (outer_stepL veq vfL t limit (initV vf t)) _ _) as [s|[s [e|]]]; [reflexivity|reflexivity|]. cbn [sideL outcome]. apply finish_same.
  Qed.
End Same.

(** ** What holds at every moment *)
Section Always.
  Context {V : Type} (veq : V -> V -> bool) (vf : Z -> res V).
  Variable t : utrie2.
  Variable limit : Z.
  Variable init : V.
  Local Notation est := (est (V := V)).
  Variable I : est -> Prop.
  Hypothesis I_advance : forall s n, 0 <= n -> I s -> I (advance s n).
  Hypothesis I_note : forall s v n, 0 < n -> I s -> I (advance (note veq s v) n).
  Hypothesis I_block : forall s b, I s -> I (set_block s b).
  Hypothesis I_i2block : forall s b, I s -> I (set_i2block s b).
  Lemma always_j block js : forall s, I s -> I (fst (jloopL veq vf t block js s)).
  Proof using I_note.
    induction js as [|j js IH]; intros s H; [exact H|]. cbn [jloopL]. destruct (let* x := aget (index t) (block + j) in vf x) as [v|e]; [|exact H]. cbn [withL].
    apply IH. apply I_note; [reflexivity|exact H].
  Qed.
  Lemma always_i2body b tl i2 s : I s -> I (fst (i2bodyL veq vf t init b tl i2 s)).
  Proof using I_advance I_note I_block.
    intros H. unfold i2bodyL. destruct (aget (index t) (b + i2)) as [x|e]; [|exact H]. cbn [withL].
    destruct ((Z.shiftl x INDEX_SHIFT =? e_block s) && (e_c s - e_prev s >=? DATA_BLOCK_LENGTH)); [apply I_advance; [discriminate|exact H]|].
    destruct (Z.shiftl x INDEX_SHIFT =? dataNullOffset t); [apply I_note; [reflexivity|apply I_block; exact H]|]. apply always_j. apply I_block. exact H.
  Qed.
  Lemma always_i2loop b tl is : forall s, I s -> I (fst (i2loopL veq vf t init b tl is s)).
  Proof using I_advance I_note I_block.
    induction is as [|i is IH]; intros s H; [exact H|]. cbn [i2loopL]. pose proof (always_i2body b tl i s H) as K.
    destruct (i2bodyL veq vf t init b tl i s) as [s1 [e|]]; [exact K|]. cbn [thenL]. apply IH. exact K.
  Qed.
  Lemma always_outer s : I s -> I (fst (outer_bodyL veq vf t limit init s)).
  Proof using I_advance I_note I_block I_i2block.
    intros H. unfold outer_bodyL. destruct (choose t limit (e_c s)) as [[b tl]|e]; [|exact H]. cbn [withL].
    destruct (negb (e_c s <=? 0xFFFF) && (b =? e_i2block s) && (e_c s - e_prev s >=? CP_PER_INDEX_1_ENTRY)); [apply I_advance; [discriminate|exact H]|].
    destruct (b =? index2NullOffset t).
    - cbn [fst]. destruct (veq (e_value (set_i2block s b)) init); [apply I_advance; [discriminate|apply I_i2block; exact H]|].
      change (I (set_block (advance (note veq (set_i2block s b) init) CP_PER_INDEX_1_ENTRY) (dataNullOffset t))). apply I_block. apply I_note; [reflexivity|apply I_i2block; exact H].
    - destruct (i2bounds (e_c s) b tl) as [i0 i1]. apply always_i2loop. apply I_i2block. exact H.
  Qed.
  Lemma always_run n : forall s, I s -> match run_nat (outer_stepL veq vf t limit init) n s with inl s' => I s' | inr k => I (fst k) end.
  Proof using I_advance I_note I_block I_i2block.
    induction n as [|n IH]; intros s H; [exact H|]. cbn [run_nat]. unfold outer_stepL at 1.
    destruct ((e_c s <? limit) && (e_c s <? highStart t)); [|exact H]. pose proof (always_outer s H) as K.
    destruct (outer_bodyL veq vf t limit init s) as [s1 [e|]]; [exact K|]. apply IH. exact K.
  Qed.
End Always.

(** what has been yielded stays *)
Definition grown {V} (s0 s : est (V := V)) : Prop := exists l, e_out s = l ++ e_out s0.
Section Grown.
  Context {V : Type} (veq : V -> V -> bool).
  Local Notation est := (est (V := V)).
  Lemma grown_refl (s : est) : grown s s. Proof. exists []. reflexivity. Qed.
  Lemma grown_trans (a b c : est) : grown a b -> grown b c -> grown a c.
  Proof. intros [l E] [m F]. exists (m ++ l). rewrite F, E, app_assoc. reflexivity. Qed.
  Lemma grown_advance s0 (s : est) n : 0 <= n -> grown s0 s -> grown s0 (advance s n). Proof. intros _ H. exact H. Qed.
  Lemma grown_noted s0 (s : est) v : grown s0 s -> grown s0 (note veq s v).
  Proof.
    intros [l E]. unfold note, out_before. destruct (veq v (e_value s)); [exists l; exact E|]. destruct (e_prev s <? e_c s).
    - exists ((e_prev s, e_c s, e_value s) :: l). cbn [e_out app]. rewrite E. reflexivity.
    - exists l. exact E.
  Qed.
  Lemma grown_note s0 (s : est) v n : 0 < n -> grown s0 s -> grown s0 (advance (note veq s v) n). Proof. intros _ H. exact (grown_noted s0 s v H). Qed.
  Lemma grown_block s0 (s : est) b : grown s0 s -> grown s0 (set_block s b). Proof. intros H. exact H. Qed.
  Lemma grown_i2block s0 (s : est) b : grown s0 s -> grown s0 (set_i2block s b). Proof. intros H. exact H. Qed.
End Grown.

(** ** An exception takes nothing back: two value functions of which one raises and the other goes on *)
Section Extends.
  Context {V : Type} (veq : V -> V -> bool) (f g : Z -> res V).
  Hypothesis Hfg : forall z v, f z = Ok v -> g z = Ok v.
  Variable t : utrie2.
  Variable limit : Z.
  Variable init : V.
  Local Notation est := (est (V := V)).
  Definition sim (a b : kept (V := V)) : Prop := match a with (s, None) => b = (s, None) | (s, Some _) => grown s (fst b) end.
  Lemma sim_refl (a : kept (V := V)) : sim a a.
  Proof using. destruct a as [s [e|]]; [apply grown_refl|reflexivity]. Qed.
  Lemma j_grown h block js s : grown s (fst (jloopL veq h t block js s)).
  Proof using. apply always_j; [intros; apply grown_note; assumption|apply grown_refl]. Qed.
  Lemma i2loop_grown h b tl is s : grown s (fst (i2loopL veq h t init b tl is s)).
  Proof using.
    apply always_i2loop; [intros; apply grown_advance; assumption|intros; apply grown_note; assumption|intros; apply grown_block; assumption|apply grown_refl].
  Qed.
  Lemma j_sim block js : forall s, sim (jloopL veq f t block js s) (jloopL veq g t block js s).
  Proof using Hfg.
    induction js as [|j js IH]; intros s; [reflexivity|]. cbn [jloopL]. destruct (aget (index t) (block + j)) as [x|e]; [|apply sim_refl]. cbn [bind].
    destruct (f x) as [v|e] eqn:F; [rewrite (Hfg x v F); apply IH|]. cbn [withL sim]. destruct (g x) as [w|e']; cbn [withL]; [|apply grown_refl].
    eapply grown_trans; [|apply j_grown]. apply (grown_note veq); [reflexivity|apply grown_refl].
  Qed.
  Lemma i2body_sim b tl i2 s : sim (i2bodyL veq f t init b tl i2 s) (i2bodyL veq g t init b tl i2 s).
  Proof using Hfg.
    unfold i2bodyL. destruct (aget (index t) (b + i2)) as [x|e]; [|apply sim_refl]. cbn [withL].
    destruct ((Z.shiftl x INDEX_SHIFT =? e_block s) && (e_c s - e_prev s >=? DATA_BLOCK_LENGTH)); [reflexivity|].
    destruct (Z.shiftl x INDEX_SHIFT =? dataNullOffset t); [reflexivity|]. apply j_sim.
  Qed.
  Lemma i2loop_sim b tl is : forall s, sim (i2loopL veq f t init b tl is s) (i2loopL veq g t init b tl is s).
  Proof using Hfg.
    induction is as [|i is IH]; intros s; [reflexivity|]. cbn [i2loopL]. pose proof (i2body_sim b tl i s) as K.
    destruct (i2bodyL veq f t init b tl i s) as [s1 [e|]]; cbn [sim] in K.
    - cbn [thenL sim]. destruct (i2bodyL veq g t init b tl i s) as [s2 [e'|]]; [exact K|]. cbn [thenL]. eapply grown_trans; [exact K|]. apply i2loop_grown.
    - rewrite K. cbn [thenL]. apply IH.
  Qed.
  Lemma outer_sim s : sim (outer_bodyL veq f t limit init s) (outer_bodyL veq g t limit init s).
  Proof using Hfg.
    unfold outer_bodyL. destruct (choose t limit (e_c s)) as [[b tl]|e]; [|apply sim_refl]. cbn [withL].
    destruct (negb (e_c s <=? 0xFFFF) && (b =? e_i2block s) && (e_c s - e_prev s >=? CP_PER_INDEX_1_ENTRY)); [reflexivity|].
    destruct (b =? index2NullOffset t); [reflexivity|]. destruct (i2bounds (e_c s) b tl) as [i0 i1]. apply i2loop_sim.
  Qed.
  Definition yielded (r : est + kept (V := V)) : est := match r with inl s => s | inr k => fst k end.
  Lemma run_grown h n s : grown s (yielded (run_nat (outer_stepL veq h t limit init) n s)).
  Proof using.
    pose proof (always_run veq h t limit init (grown s) (fun x n => grown_advance s x n) (fun x v n => grown_note veq s x v n) (fun x b => grown_block s x b) (fun x b => grown_i2block s x b) n s (grown_refl s)) as K.
    destruct (run_nat (outer_stepL veq h t limit init) n s); exact K.
  Qed.
  Lemma run_sim n : forall s, match run_nat (outer_stepL veq f t limit init) n s with
    | inr (s1, Some _) => grown s1 (yielded (run_nat (outer_stepL veq g t limit init) n s))
    | r => run_nat (outer_stepL veq g t limit init) n s = r
    end.
  Proof using Hfg.
    induction n as [|n IH]; intros s; [reflexivity|]. cbn [run_nat].
    assert (K : match outer_stepL veq f t limit init s with
      | inr (s1, Some _) => grown s1 (yielded (outer_stepL veq g t limit init s))
      | r => outer_stepL veq g t limit init s = r end).
    { unfold outer_stepL. destruct ((e_c s <? limit) && (e_c s <? highStart t)) eqn:E; [|reflexivity]. pose proof (outer_sim s) as K.
      destruct (outer_bodyL veq f t limit init s) as [s1 [e|]]; cbn [sim] in K; [|rewrite K; reflexivity].
      destruct (outer_bodyL veq g t limit init s) as [s2 [e'|]]; exact K. }
    destruct (outer_stepL veq f t limit init s) as [s1|[s1 [e|]]].
    - rewrite K. apply IH.
    - destruct (outer_stepL veq g t limit init s) as [s2|k]; [|exact K]. eapply grown_trans; [exact K|]. apply run_grown.
    - rewrite K. reflexivity.
  Qed.
  Lemma finish_grown h s : exists l, fst (finishL veq h t limit s) = rev (e_out s) ++ l.
  Proof using.
    assert (O : forall s1 : est, grown s s1 -> exists l, rev (out_before s1) = rev (e_out s) ++ l).
    { intros s1 [l E]. unfold out_before. destruct (e_prev s1 <? e_c s1); [exists (rev l ++ [(e_prev s1, e_c s1, e_value s1)])|exists (rev l)].
      - cbn [rev]. rewrite E, rev_app_distr, <- app_assoc. reflexivity.
      - rewrite E, rev_app_distr. reflexivity. }
    unfold finishL. destruct (e_c s >? limit); [apply O; exists []; reflexivity|]. destruct (e_c s <? limit); [|apply O, grown_refl].
    destruct (let* x := aget (index t) (highValueIndex t) in h x) as [v|e]; [|exists []; rewrite app_nil_r; reflexivity].
    apply O. exact (grown_noted veq s s v (grown_refl s)).
  Qed.
  Lemma steps_sim start s0 : match stepsL veq f t limit init start s0 with
    | (rs, None) => stepsL veq g t limit init start s0 = (rs, None)
    | (rs, Some _) => exists l, fst (stepsL veq g t limit init start s0) = rs ++ l
    end.
  Proof using Hfg.
    unfold stepsL. rewrite !run_run_nat. set (n := Pos.to_nat (Z.to_pos (limit - start + 1))). clearbody n. pose proof (run_sim n s0) as K.
    assert (G : forall s1 r, grown s1 (yielded r) -> exists l, fst (match r with inl s => (rev (e_out s), Some OutOfFuel) | inr (s, None) => finishL veq g t limit s
      | inr (s, Some e) => (rev (e_out s), Some e) end) = rev (e_out s1) ++ l).
    { intros s1 r [l E]. destruct r as [s|[s [e|]]]; cbn [yielded fst] in *.
      - exists (rev l). rewrite E, rev_app_distr. reflexivity.
      - exists (rev l). rewrite E, rev_app_distr. reflexivity.
      - destruct (finish_grown g s) as [m M]. exists (rev l ++ m). rewrite M, E, rev_app_distr, app_assoc. reflexivity. }
    destruct (run_nat (outer_stepL veq f t limit init) n s0) as [s1|[s1 [e|]]].
    - rewrite K. exists []. rewrite app_nil_r. reflexivity.
    - apply G. exact K.
    - rewrite K. unfold finishL. destruct (e_c s1 >? limit); [reflexivity|]. destruct (e_c s1 <? limit); [|reflexivity].
      destruct (aget (index t) (highValueIndex t)) as [x|e]; [|exists []; rewrite app_nil_r; reflexivity]. cbn [bind].
      destruct (f x) as [v|e] eqn:F; [rewrite (Hfg x v F); reflexivity|].
      destruct (g x) as [w|e']; [|exists []; rewrite app_nil_r; reflexivity]. cbn [fst]. pose proof (grown_noted veq s1 s1 w (grown_refl s1)) as [l E].
      unfold out_before. cbn [e_prev e_c e_value e_out]. destruct (e_prev (note veq s1 w) <? limit).
      + exists (rev l ++ [(e_prev (note veq s1 w), limit, e_value (note veq s1 w))]). cbn [rev]. rewrite E, rev_app_distr, <- app_assoc. reflexivity.
      + exists (rev l). rewrite E, rev_app_distr. reflexivity.
  Qed.
End Extends.
