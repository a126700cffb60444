(** * Functions that a CPTrie can hold: any function constant from U+40000 on. *)
From Coq Require Import ZArith List Bool Lia ZifyBool.
From Verif Require Import Py Arr Bytes UnicodeSet UTrie2Lookup UTrie2Build CPTrie CPTrieLookup.
Import ListNotations.
Open Scope Z_scope.
Ltac Zify.zify_post_hook ::= Z.to_euclidean_division_equations.

Definition cp_first (fast : bool) : Z := if fast then 0x10000 else 0.
Definition cp_blocks (fast : bool) : Z := if fast then 12 else 16.

(** all data in one linear array, index-3 blocks with 18-bit offsets *)
Definition cplayout_of (fast : bool) (f : Z -> Z) (high err : Z) : cplayout := {|
  q_fast := fast;
  q_bmp := ztab (if fast then 1024 else 64) (fun k => 64 * k);
  q_i1 := ztab (cp_blocks fast) (fun k => k);
  q_i2 := ztab (cp_blocks fast) (fun b => ztab 32 (fun j => 32 * b + j));
  q_i3 := ztab (32 * cp_blocks fast) (fun b => (true, ztab 32 (fun j => cp_first fast + 512 * b + 16 * j)));
  q_data := ztab 0x40002 (fun i => if i <? 0x40000 then f i else if i =? 0x40000 then high else err);
  q_highStart := 0x40000; q_null3 := 0x7fff; q_nullData := 0; q_width := 1 |}.

Lemma i3_at_of fast f h e k : 0 <= k < 32 * cp_blocks fast ->
  i3_at (cplayout_of fast f h e) k = (true, ztab 32 (fun j => cp_first fast + 512 * k + 16 * j)).
Proof.
  intros H. unfold i3_at. cbn [cplayout_of q_i3]. unfold ztab at 1.
  rewrite (nth_indep _ _ ((fun b => (true, ztab 32 (fun j => cp_first fast + 512 * b + 16 * j))) (Z.of_nat 0)))
    by (rewrite map_length, seq_length; lia).
  rewrite (map_nth (fun k => (fun b => (true, ztab 32 (fun j => cp_first fast + 512 * b + 16 * j))) (Z.of_nat k))).
  rewrite seq_nth by lia. cbv beta. replace (Z.of_nat (0 + Z.to_nat k)) with k by lia. reflexivity.
Qed.

Lemma cplayout_of_ok fast f h e : cplayout_ok (cplayout_of fast f h e).
Proof.
  assert (B : cp_blocks fast = 12 \/ cp_blocks fast = 16) by (destruct fast; auto).
  assert (D : cp_first fast + 16384 * cp_blocks fast = 0x40000) by (destruct fast; reflexivity).
  assert (D0 : 0 <= cp_first fast) by (destruct fast; discriminate).
  constructor; cbn [cplayout_of q_fast q_bmp q_i1 q_i2 q_i3 q_data q_highStart]; rewrite ?(zlen_ztab 0x40002) by lia.
  - destruct fast; apply zlen_ztab; lia.
  - apply Forall_ztab. intros i Hi. destruct fast; lia.
  - destruct fast; rewrite !znth_ztab by lia; split; reflexivity.
  - rewrite zlen_ztab by lia. unfold q_first. cbn [cplayout_of q_fast]. fold (cp_first fast). lia.
  - apply Forall_ztab. intros i Hi. rewrite zlen_ztab; lia.
  - apply Forall_ztab. intros i Hi. apply zlen_ztab. lia.
  - apply Forall_ztab. intros i Hi. apply Forall_ztab. intros j Hj. rewrite zlen_ztab; lia.
  - apply Forall_ztab. intros i Hi. cbn [snd]. apply zlen_ztab. lia.
  - apply Forall_ztab. intros i Hi. cbn [snd]. apply Forall_ztab. intros j Hj. change (2 ^ 18) with 0x40000. lia.
  - unfold cp_serialize_index. cbn [cplayout_of q_bmp q_i1 q_i2 q_i3]. rewrite !zlen_app, !zlen_map.
    rewrite (zlen_concat 32), (zlen_concat 36).
    + rewrite !zlen_map, !zlen_ztab by (destruct fast; lia). destruct fast; cbn [cp_blocks]; lia.
    + apply Forall_map. apply Forall_ztab. intros i Hi. apply enc3_wide. apply zlen_ztab. lia.
    + apply Forall_map. apply Forall_ztab. intros i Hi. rewrite zlen_map. apply zlen_ztab. lia.
  - lia.
  - lia.
Qed.

Lemma cplayout_of_value fast f h e c : 0 <= c < 0x40000 -> cp_value (cplayout_of fast f h e) c = f c.
Proof.
  intros H. unfold cp_value.
  assert (DD : forall i, 0 <= i < 0x40000 -> znth (q_data (cplayout_of fast f h e)) i = f i).
  { intros i Hi. cbn [cplayout_of q_data]. rewrite znth_ztab by lia. destruct (i <? 0x40000) eqn:E; [auto|lia]. }
  change (q_highStart (cplayout_of fast f h e)) with 0x40000.
  assert (QL : q_limit (cplayout_of fast f h e) = if fast then 0x10000 else 0x1000) by reflexivity.
  assert (QF : q_first (cplayout_of fast f h e) = cp_first fast) by reflexivity.
  assert (D : cp_first fast + 16384 * cp_blocks fast = 0x40000) by (destruct fast; reflexivity).
  assert (D0 : cp_first fast = 0 \/ cp_first fast = 0x10000) by (destruct fast; auto).
  destruct (c <? q_limit (cplayout_of fast f h e)) eqn:E.
  - replace (znth (q_bmp (cplayout_of fast f h e)) (c / 64)) with (64 * (c / 64)).
    2: { cbn [cplayout_of q_bmp]. rewrite znth_ztab; [reflexivity|]. rewrite QL in E. destruct fast; lia. }
    rewrite DD by lia. f_equal. lia.
  - destruct (c <? 0x40000) eqn:E2; [|lia]. cbv zeta.
    assert (C1 : cp_first fast <= c) by (rewrite QL in E; destruct fast; cbn [cp_first]; lia).
    assert (I1 : 0 <= (c - cp_first fast) / 16384 < cp_blocks fast) by lia.
    change (q_i1 (cplayout_of fast f h e)) with (ztab (cp_blocks fast) (fun k => k)).
    rewrite QF, znth_ztab by exact I1.
    change (q_i2 (cplayout_of fast f h e)) with (ztab (cp_blocks fast) (fun b => ztab 32 (fun j => 32 * b + j))).
    rewrite znthl_ztab by exact I1. rewrite znth_ztab by lia.
    assert (I3 : 32 * ((c - cp_first fast) / 16384) + c / 512 mod 32 = (c - cp_first fast) / 512)
      by (clear -D0; destruct D0 as [-> | ->]; lia).
    rewrite I3, i3_at_of by (clear - I1 I3 C1; lia). cbn [snd]. rewrite znth_ztab by lia.
    assert (I4 : cp_first fast + 512 * ((c - cp_first fast) / 512) + 16 * (c / 16 mod 32) + c mod 16 = c)
      by (clear -D0; destruct D0 as [-> | ->]; lia).
    rewrite I4. apply DD. lia.
Qed.

Lemma cplayout_of_high fast f h e c : 0x40000 <= c -> cp_value (cplayout_of fast f h e) c = h.
Proof.
  intros H. unfold cp_value.
  assert (QL : q_limit (cplayout_of fast f h e) = if fast then 0x10000 else 0x1000) by reflexivity.
  destruct (c <? q_limit (cplayout_of fast f h e)) eqn:E; [rewrite QL in E; destruct fast; lia|].
  change (q_highStart (cplayout_of fast f h e)) with 0x40000. destruct (c <? 0x40000) eqn:E2; [lia|].
  cbn [cplayout_of q_data]. rewrite zlen_ztab by lia. rewrite znth_ztab by lia. reflexivity.
Qed.

Lemma cplayout_of_error fast f h e : cp_error (cplayout_of fast f h e) = e.
Proof. unfold cp_error. cbn [cplayout_of q_data]. rewrite zlen_ztab by lia. rewrite znth_ztab by lia. reflexivity. Qed.

Lemma functions_held fast f e : (forall c, 0x40000 <= c <= 0x10FFFF -> f c = f 0x10FFFF) ->
  exists L, cplayout_ok L /\ q_fast L = fast /\ cp_error L = e /\ forall c, 0 <= c <= 0x10FFFF -> cp_value L c = f c.
Proof.
  intros H. exists (cplayout_of fast f (f 0x10FFFF) e). split; [apply cplayout_of_ok|]. split; [reflexivity|].
  split; [apply cplayout_of_error|]. intros c Hc. destruct (Z_lt_le_dec c 0x40000).
  - apply cplayout_of_value. lia.
  - rewrite cplayout_of_high by lia. symmetry. apply H. lia.
Qed.
