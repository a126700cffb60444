(** * CPTrie.py: [enumerator] as its consumer sees it

    The generator yields one range after the other; when it raises, or loops without yielding, the consumer has
    had the ranges before.  CPTrie.v gives the list of all ranges or the exception; here both are kept. *)
From Coq Require Import ZArith List Bool Lia ZifyBool.
From Verif Require Import Py Arr UnicodeSet CPTrie CPTrieEnum UTrie2Lazy.
Import ListNotations.
Open Scope Z_scope.

Section Lazy.
  Variable t : cptrie.
  Variables start limit nullValue : Z.
  (** the state of the generator, and the exception that ended it, if any *)
  Definition keptC : Type := cst * option exn.
  Definition withC {A} (s : cst) (r : res A) (k : A -> keptC) : keptC := match r with Ok x => k x | Err e => (s, Some e) end.
  Definition thenC (r : keptC) (k : cst -> keptC) : keptC := match r with (s, None) => k s | (s, Some e) => (s, Some e) end.

  (** CPTrie.py:325-340 *)
  Fixpoint dloopL (n : nat) (mask di : Z) (s : cst) : keptC :=
    match n with
    | O => (s, Some OutOfFuel)
    | S m => withC s (aget (cp_data t) di) (fun v =>
        let s := k_setc (k_note s v) (k_c s + 1) in
        if (k_c s <? limit) && negb (Z.land (k_c s) mask =? 0) then dloopL m mask (di + 1) s else (s, None))
    end.
  (** CPTrie.py:297-340 *)
  Fixpoint bloopL (i3Block blockLength : Z) (i3s : list Z) (s : cst) : keptC :=
    match i3s with
    | [] => (s, None)
    | i3 :: rest =>
        if k_c s >=? limit then (s, None)
        else withC s (index3 t i3Block i3) (fun block =>
          let mask := blockLength - 1 in
          thenC
            (if (block =? k_block s) && (k_c s - start >=? blockLength) then
               if Z.land (k_c s) mask =? 0 then (k_setc s (k_c s + blockLength), None) else (s, Some AssertionError)
             else
               let s := k_setblock s block in
               if block =? cp_dataNullOffset t then
                 (k_setc (k_note s nullValue) (Z.land (k_c s + blockLength) (Z.lnot mask)), None)
               else dloopL (Z.to_nat blockLength) mask (block + Z.land (k_c s) mask) s)
            (bloopL i3Block blockLength rest))
    end.
  (** CPTrie.py:258-340 *)
  Definition cp_bodyL (s : cst) : keptC :=
    let c := k_c s in
    if (c <=? 0xFFFF) && ((cp_type t =? TYPE_FAST) || (c <=? SMALL_MAX)) then
      bloopL 0 FAST_DATA_BLOCK_LENGTH (py_range (Z.shiftr c FAST_SHIFT) FAST_DATA_BLOCK_LENGTH 1) s
    else if negb (if cp_type t =? TYPE_FAST then (0xFFFF <? c) && (c <? cp_highStart t)
                  else (c <? cp_highStart t) && (cp_highStart t >? SMALL_LIMIT)) then (s, Some AssertionError)
    else withC s (i3BlockOf t c) (fun i3Block =>
      if (i3Block =? k_i3block s) && (c - start >=? CP_PER_INDEX_2_ENTRY) then
        if Z.land c (CP_PER_INDEX_2_ENTRY - 1) =? 0 then (k_setc s (c + CP_PER_INDEX_2_ENTRY), None)
        else (s, Some AssertionError)
      else
        let s := k_seti3 s i3Block in
        if i3Block =? cp_index3NullOffset t then
          (k_setc (k_setblock (k_note s nullValue) (cp_dataNullOffset t))
             (Z.land (c + CP_PER_INDEX_2_ENTRY) (Z.lnot (CP_PER_INDEX_2_ENTRY - 1))), None)
        else
          bloopL i3Block SMALL_DATA_BLOCK_LENGTH
            (py_range (Z.land (Z.shiftr c CP_SHIFT_3) CP_INDEX_3_MASK) SMALL_DATA_BLOCK_LENGTH 1) s).
  (** CPTrie.py:257 *)
  Definition cp_stepL (s : cst) : cst + keptC :=
    if (k_c s <? limit) && (k_c s <? cp_highStart t) then
      match cp_bodyL s with (s', None) => inl s' | (s', Some e) => inr (s', Some e) end
    else inr (s, None).
  (** CPTrie.py:342-351 *)
  Definition cp_finishL (s : cst) : list (Z * Z * Z) * option exn :=
    if k_c s >? limit then (rev (k_yield (k_setc s limit)), None)
    else if k_c s <? limit then
      match aget (cp_data t) (cp_dataLength t - HIGH_VALUE_NEG_DATA_OFFSET) with
      | Ok v => (rev (k_yield (if v =? k_value s then s else mkCst (k_c s) (k_prev s) (k_value s) (k_block s) (k_i3block s) (k_yield s))), None)
      | Err e => (rev (k_out s), Some e)
      end
    else (rev (k_yield s), None).
End Lazy.

(** CPTrie.py:246-351: the ranges yielded, and the exception after the last of them.  [OutOfFuel] says that the
    generator is still running after [fuel] passes of the outer loop. *)
Definition cpenumL (t : cptrie) (fuel : nat) (start limit : Z) : list (Z * Z * Z) * option exn :=
  if (start >=? 0x110000) || (start >=? cp_highStart t) then ([], None)
  else match aget (cp_data t) (cp_dataNullOffset t) with
    | Err e => ([], Some e)
    | Ok nullValue =>
        match run_nat (cp_stepL t start limit nullValue) fuel (mkCst start start nullValue (-1) (-1) []) with
        | inl s => (rev (k_out s), Some OutOfFuel)
        | inr (s, None) => cp_finishL t limit s
        | inr (s, Some e) => (rev (k_out s), Some e)
        end
    end.

(** ** The two models agree *)
Section Same.
  Variable t : cptrie.
  Variables start limit null : Z.
  Lemma dloop_sameC n : forall mask di s, outcome (dloopL t limit n mask di s) = dloop t limit n mask di s.
  Proof.
    induction n as [|n IH]; intros mask di s; [reflexivity|]. cbn [dloopL dloop]. destruct (aget (cp_data t) di) as [v|e]; [|reflexivity]. cbn [bind withC].
    destruct ((_ <? limit) && _); [apply IH|reflexivity].
  Qed.
  Lemma bloop_sameC b w l : forall s, outcome (bloopL t start limit null b w l s) = bloop t start limit null b w l s.
  Proof.
    induction l as [|k l IH]; intros s; [reflexivity|]. cbn [bloopL bloop]. destruct (k_c s >=? limit); [reflexivity|]. destruct (index3 t b k) as [y|e]; [|reflexivity]. cbn [bind withC].
    destruct ((y =? k_block s) && _); [destruct (_ =? 0); [apply IH|reflexivity]|]. destruct (y =? cp_dataNullOffset t); [apply IH|].
    rewrite <- dloop_sameC. destruct (dloopL _ _ _ _ _ _) as [s1 [e|]]; [reflexivity|]. apply IH.
  Qed.
  Lemma body_sameC s : outcome (cp_bodyL t start limit null s) = cp_body t start limit null s.
  Proof.
    unfold cp_bodyL, cp_body. destruct ((k_c s <=? 0xFFFF) && _); [apply bloop_sameC|]. destruct (negb _); [reflexivity|]. destruct (i3BlockOf t (k_c s)) as [i3|e]; [|reflexivity]. cbn [bind withC].
    destruct ((i3 =? k_i3block s) && _); [destruct (_ =? 0); reflexivity|]. destruct (i3 =? cp_index3NullOffset t); [reflexivity|apply bloop_sameC].
  Qed.
  Definition sideC (r : cst + keptC) : cst + res cst := match r with inl s => inl s | inr k => inr (outcome k) end.
  Lemma step_sameC s : sideC (cp_stepL t start limit null s) = cp_step t start limit null s.
  Proof.
    unfold cp_stepL, cp_step. destruct ((k_c s <? limit) && _); [|reflexivity]. rewrite <- body_sameC. destruct (cp_bodyL t start limit null s) as [s1 [e|]]; reflexivity.
  Qed.
  Lemma run_sameC n : forall s, sideC (run_nat (cp_stepL t start limit null) n s) = run_nat (cp_step t start limit null) n s.
  Proof.
    induction n as [|n IH]; intros s; [reflexivity|]. cbn [run_nat]. rewrite <- step_sameC. destruct (cp_stepL t start limit null s) as [s1|k]; [apply IH|reflexivity].
  Qed.
  Lemma finish_sameC s : outcome (cp_finishL t limit s) = cp_finish t limit s.
  Proof.
    unfold cp_finishL, cp_finish. destruct (k_c s >? limit); [reflexivity|]. destruct (k_c s <? limit); [|reflexivity]. destruct (aget _ _) as [v|e]; reflexivity.
  Qed.
End Same.
Lemma cpenum_sameC t fuel start limit : outcome (cpenumL t fuel start limit) = cpenum t fuel start limit.
Proof.
  unfold cpenumL, cpenum. destruct ((start >=? 0x110000) || _); [reflexivity|]. destruct (aget (cp_data t) (cp_dataNullOffset t)) as [null|e]; [|reflexivity]. cbn [bind].
  rewrite <- run_sameC. destruct (run_nat (cp_stepL t start limit null) fuel _) as [s|[s [e|]]]; cbn [sideC outcome]; try reflexivity. apply finish_sameC.
Qed.

(** ** What has been yielded stays *)
Definition grown (s s' : cst) : Prop := exists l, k_out s' = l ++ k_out s.
Lemma grown_refl s : grown s s.
Proof. exists []. reflexivity. Qed.
Lemma grown_trans a b c : grown a b -> grown b c -> grown a c.
Proof. intros [l E] [m F]. exists (m ++ l). rewrite F, E, app_assoc. reflexivity. Qed.
Lemma grown_out s s' : k_out s' = k_out s -> grown s s'.
Proof. intros E. exists []. exact E. Qed.
Lemma note_grown s v : grown s (k_note s v).
Proof.
  unfold k_note, k_yield. destruct (v =? k_value s); [apply grown_refl|]. destruct (k_prev s <? k_c s); [exists [(k_prev s, k_c s, k_value s)]; reflexivity|apply grown_out; reflexivity].
Qed.
Section Grown.
  Variable t : cptrie.
  Variables start limit null : Z.
  Lemma dloop_grown n : forall mask di s, grown s (fst (dloopL t limit n mask di s)).
  Proof.
    induction n as [|n IH]; intros mask di s; [apply grown_refl|]. cbn [dloopL]. destruct (aget (cp_data t) di) as [v|e]; [|apply grown_refl]. cbn [withC].
    assert (G : grown s (k_setc (k_note s v) (k_c s + 1))) by (eapply grown_trans; [apply note_grown|apply grown_out; reflexivity]).
    destruct ((_ <? limit) && _); [|exact G]. eapply grown_trans; [exact G|apply IH].
  Qed.
  Lemma thenC_grown s r k : grown s (fst r) -> (forall s1, grown s1 (fst (k s1))) -> grown s (fst (thenC r k)).
  Proof. intros G H. destruct r as [s1 [e|]]; [exact G|]. cbn [thenC]. eapply grown_trans; [exact G|apply H]. Qed.
  Lemma bloop_grown b w l : forall s, grown s (fst (bloopL t start limit null b w l s)).
  Proof.
    induction l as [|k l IH]; intros s; [apply grown_refl|]. cbn [bloopL]. destruct (k_c s >=? limit); [apply grown_refl|]. destruct (index3 t b k) as [y|e]; [|apply grown_refl]. cbn [withC].
    apply thenC_grown; [|exact IH]. destruct ((y =? k_block s) && _); [destruct (_ =? 0); apply grown_out; reflexivity|].
    destruct (y =? cp_dataNullOffset t).
    - cbn [fst]. eapply grown_trans; [apply (grown_out s (k_setblock s y)); reflexivity|]. eapply grown_trans; [apply note_grown|apply grown_out; reflexivity].
    - eapply grown_trans; [apply (grown_out s (k_setblock s y)); reflexivity|apply dloop_grown].
  Qed.
  Lemma body_grown s : grown s (fst (cp_bodyL t start limit null s)).
  Proof.
    unfold cp_bodyL. destruct ((k_c s <=? 0xFFFF) && _); [apply bloop_grown|]. destruct (negb _); [apply grown_refl|]. destruct (i3BlockOf t (k_c s)) as [i3|e]; [|apply grown_refl]. cbn [withC].
    destruct ((i3 =? k_i3block s) && _); [destruct (_ =? 0); apply grown_out; reflexivity|].
    assert (G : grown s (k_seti3 s i3)) by (apply grown_out; reflexivity).
    destruct (i3 =? cp_index3NullOffset t).
    - cbn [fst]. eapply grown_trans; [exact G|]. eapply grown_trans; [apply note_grown|apply grown_out; reflexivity].
    - eapply grown_trans; [exact G|apply bloop_grown].
  Qed.
  Definition stateC (r : cst + keptC) : cst := match r with inl s => s | inr k => fst k end.
  Lemma step_grown s : grown s (stateC (cp_stepL t start limit null s)).
  Proof.
    unfold cp_stepL. destruct ((k_c s <? limit) && _); [|apply grown_refl]. pose proof (body_grown s) as G. destruct (cp_bodyL t start limit null s) as [s1 [e|]]; exact G.
  Qed.
  Lemma run_grown n : forall s, grown s (stateC (run_nat (cp_stepL t start limit null) n s)).
  Proof.
    induction n as [|n IH]; intros s; [apply grown_refl|]. cbn [run_nat]. pose proof (step_grown s) as G. destruct (cp_stepL t start limit null s) as [s1|k]; [|exact G].
    eapply grown_trans; [exact G|apply IH].
  Qed.
  Lemma finish_grown s : exists l, fst (cp_finishL t limit s) = rev (k_out s) ++ l.
  Proof.
    assert (Y : forall s1, exists l, rev (k_yield s1) = rev (k_out s1) ++ l).
    { intros s1. unfold k_yield. destruct (k_prev s1 <? k_c s1); [eexists; reflexivity|exists []; rewrite app_nil_r; reflexivity]. }
    unfold cp_finishL. destruct (k_c s >? limit); [apply (Y (k_setc s limit))|]. destruct (k_c s <? limit); [|apply Y]. destruct (aget _ _) as [v|e]; [|exists []; cbn [fst]; rewrite app_nil_r; reflexivity].
    cbn [fst]. destruct (v =? k_value s); [apply Y|]. destruct (Y (mkCst (k_c s) (k_prev s) (k_value s) (k_block s) (k_i3block s) (k_yield s))) as [l E]. rewrite E. cbn [k_out].
    destruct (Y s) as [m F]. rewrite F, <- app_assoc. eexists. reflexivity.
  Qed.
End Grown.
(** the ranges after more passes begin with those after fewer *)
Lemma cpenumL_more t n m start limit : (n <= m)%nat -> exists l, fst (cpenumL t m start limit) = fst (cpenumL t n start limit) ++ l.
Proof.
  intros L. unfold cpenumL. destruct ((start >=? 0x110000) || _); [exists []; reflexivity|]. destruct (aget (cp_data t) (cp_dataNullOffset t)) as [null|e]; [|exists []; reflexivity].
  set (s0 := mkCst start start null (-1) (-1) []). replace m with (n + (m - n))%nat by lia. rewrite run_nat_add.
  destruct (run_nat (cp_stepL t start limit null) n s0) as [s|[s o]]; [|exists []; rewrite app_nil_r; reflexivity].
  pose proof (run_grown t start limit null (m - n) s) as G. cbn [fst].
  assert (R : forall s', grown s s' -> exists l, rev (k_out s') = rev (k_out s) ++ l).
  { intros s' [l E]. rewrite E, rev_app_distr. eexists. reflexivity. }
  destruct (run_nat (cp_stepL t start limit null) (m - n) s) as [s1|[s1 [e|]]]; cbn [stateC fst] in G.
  - apply R. exact G.
  - apply R. exact G.
  - destruct (R s1 G) as [l E]. destruct (finish_grown t limit s1) as [k F]. rewrite F, E, <- app_assoc. eexists. reflexivity.
Qed.
