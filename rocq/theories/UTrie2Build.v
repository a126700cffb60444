(** * Every function on code points has a UTrie2 holding it. *)
From Coq Require Import ZArith List Bool Lia ZifyBool.
From Verif Require Import Py Arr UnicodeSet Utilities UTrie2 UtilitiesFacts UTrie2Lookup.
Import ListNotations.
Open Scope Z_scope.
Ltac Zify.zify_post_hook ::= Z.to_euclidean_division_equations.

(** [ztab n g] = [g 0; ...; g (n-1)] *)
Definition ztab {A} (n : Z) (g : Z -> A) : list A := map (fun k => g (Z.of_nat k)) (seq 0 (Z.to_nat n)).

Lemma zlen_ztab {A} n (g : Z -> A) : 0 <= n -> zlen (ztab n g) = n.
Proof. intros. unfold ztab, zlen. rewrite map_length, seq_length. lia. Qed.

Lemma znth_ztab n g i : 0 <= i < n -> znth (ztab n g) i = g i.
Proof.
  intros H. unfold znth, ztab.
  rewrite (nth_indep _ 0 (g (Z.of_nat 0))) by (rewrite map_length, seq_length; lia).
  rewrite (map_nth (fun k => g (Z.of_nat k))). rewrite seq_nth by lia. f_equal. lia.
Qed.
Lemma znthl_ztab n g i : 0 <= i < n -> znthl (ztab n g) i = g i.
Proof.
  intros H. unfold znthl, ztab.
  rewrite (nth_indep _ [] (g (Z.of_nat 0))) by (rewrite map_length, seq_length; lia).
  rewrite (map_nth (fun k => g (Z.of_nat k))). rewrite seq_nth by lia. f_equal. lia.
Qed.
Lemma Forall_ztab {A} (P : A -> Prop) n g : (forall i, 0 <= i < n -> P (g i)) -> Forall P (ztab n g).
Proof.
  intros H. apply Forall_forall. intros x Hx. unfold ztab in Hx. apply in_map_iff in Hx as (k & <- & Hk).
  apply in_seq in Hk. apply H. lia.
Qed.

(** data block number of the 32 code points from [32 * k]; blocks 4 and 5 are the
    error values *)
Definition block_of (k : Z) : Z := if k <? 4 then k else k + 2.

Definition layout_of (f : Z -> Z) (e high : Z) : layout := {|
  L_bmp := ztab 2048 block_of;
  L_lscp := ztab 32 (fun k => block_of (1728 + k));
  L_utf8 := ztab 32 (fun _ => 0);
  L_index1 := ztab 512 (fun k => k);
  L_i2 := ztab 512 (fun b => ztab 64 (fun k => block_of (2048 + 64 * b + k)));
  L_pad := [];
  L_data := ztab 34818 (fun b =>
              if (b =? 4) || (b =? 5) then ztab 32 (fun _ => e)
              else ztab 32 (fun j => f (32 * (if b <? 4 then b else b - 2) + j)));
  L_high := high;
  L_highStart := 0x110000;
  L_nullI2 := 0; L_nullData := 0; L_init := 0 |}.

Lemma block_of_range k : 0 <= k < 34816 -> 0 <= block_of k < 34818.
Proof. unfold block_of. destruct (k <? 4); lia. Qed.

Lemma layout_of_ok f e high : layout_ok (layout_of f e high).
Proof.
  constructor; cbn [layout_of L_bmp L_lscp L_utf8 L_index1 L_i2 L_pad L_data L_high L_highStart];
    rewrite ?zlen_ztab by lia; try reflexivity; try lia.
  - apply Forall_ztab. intros b Hb. rewrite zlen_ztab by lia. split; auto. apply Forall_ztab. intros k Hk. apply block_of_range. lia.
  - apply Forall_ztab. intros b Hb. destruct ((b =? 4) || (b =? 5)); apply zlen_ztab; lia.
  - apply Forall_ztab. intros k Hk. apply block_of_range. lia.
  - apply Forall_ztab. intros k Hk. apply block_of_range. lia.
  - apply Forall_ztab. auto.
Qed.

Lemma layout_of_data f e high k c : 0 <= k < 34816 -> data_value (layout_of f e high) (block_of k) c = f (32 * k + c mod 32).
Proof.
  intros Hk. unfold data_value. cbn [layout_of L_data]. rewrite znthl_ztab by (apply block_of_range; auto).
  unfold block_of. destruct (k <? 4) eqn:E.
  - destruct ((k =? 4) || (k =? 5)) eqn:E2; [lia|]. rewrite znth_ztab by lia. rewrite E. reflexivity.
  - destruct ((k + 2 =? 4) || (k + 2 =? 5)) eqn:E2; [lia|]. rewrite znth_ztab by lia.
    destruct (k + 2 <? 4) eqn:E3; [lia|]. f_equal. lia.
Qed.

Lemma layout_of_value f e high c : 0 <= c <= 0x10FFFF -> value_at (layout_of f e high) c = f c.
Proof.
  intros Hc. unfold value_at. destruct (c <? 0x10000) eqn:E1.
  - destruct ((0xD800 <=? c) && (c <=? 0xDBFF)) eqn:E2.
    + cbn [layout_of L_lscp]. rewrite znth_ztab by lia. fold (layout_of f e high). rewrite layout_of_data by lia. f_equal. lia.
    + cbn [layout_of L_bmp]. rewrite znth_ztab by lia. fold (layout_of f e high). rewrite layout_of_data by lia. f_equal. lia.
  - change (L_highStart (layout_of f e high)) with 0x110000. destruct (c <? 0x110000) eqn:E2; [|lia].
    change (L_index1 (layout_of f e high)) with (ztab 512 (fun k => k)). rewrite znth_ztab by lia.
    change (L_i2 (layout_of f e high)) with (ztab 512 (fun b => ztab 64 (fun k => block_of (2048 + 64 * b + k)))).
    rewrite znthl_ztab by lia. rewrite znth_ztab by lia. rewrite layout_of_data by lia. f_equal. lia.
Qed.

Lemma layout_of_error f e high : error_value (layout_of f e high) = e.
Proof.
  unfold error_value. cbn [layout_of L_data]. rewrite znthl_ztab by lia. cbn [Z.eqb Pos.eqb orb]. rewrite znth_ztab by lia. reflexivity.
Qed.

Lemma every_function f e : exists L, layout_ok L /\ error_value L = e /\
  forall c, 0 <= c <= 0x10FFFF -> value_at L c = f c.
Proof.
  exists (layout_of f e 0). split; [apply layout_of_ok|]. split; [apply layout_of_error|].
  apply layout_of_value.
Qed.
