(** * The ranges of a CPTrie with the fast type: lookups in blocks of sixteen code points. *)
From Coq Require Import ZArith List Bool Lia ZifyBool.
From Verif Require Import Py Arr Runs UtilitiesFacts CPTrie.
Import ListNotations.
Open Scope Z_scope.
Ltac Zify.zify_post_hook ::= Z.to_euclidean_division_equations.

Section CPRuns.
  Variable t : cptrie.
  Definition cp_addr (k : Z) : res Z := if 16 * k <=? 0x7F then Ok (16 * k) else cpIndex t 0xFFFF (16 * k).
  Definition cp_runs (n : Z) : res (list (Z * Z * Z)) := runs 16 cp_addr (aget (cp_data t)) n.

  Lemma shift_block c n : 4 <= n -> 0 <= c -> Z.shiftr (16 * (c / 16)) n = Z.shiftr c n.
  Proof using.
    intros Hn Hc. rewrite !Z.shiftr_div_pow2 by lia. replace (2 ^ n) with (16 * 2 ^ (n - 4)) by (change 16 with (2 ^ 4); rewrite <- Z.pow_add_r by lia; f_equal; lia).
    assert (0 < 2 ^ (n - 4)) by (apply Z.pow_pos_nonneg; lia). rewrite <- !Zdiv.Zdiv_Zdiv by lia.
    f_equal. rewrite Z.mul_comm, Z.div_mul by lia. reflexivity.
  Qed.
  Lemma block_cpget c : cp_type t = 0 -> 0 <= c <= 0x10FFFF -> cp_highStart t mod 16 = 0 -> c < cp_highStart t ->
    block_get 16 cp_addr (aget (cp_data t)) c = cpget t c.
  Proof using.
    intros T Hc HA HH. unfold block_get, cpget, cp_addr. rewrite T. cbn [Z.eqb TYPE_FAST].
    destruct (c <=? 0x7F) eqn:E1.
    - replace (16 * (c / 16) <=? 0x7F) with true by lia. cbn [bind]. f_equal. lia.
    - replace (16 * (c / 16) <=? 0x7F) with false by lia. unfold cpIndex. destruct (c <=? 0xFFFF) eqn:E2.
      + replace (16 * (c / 16) <=? 0xFFFF) with true by lia. unfold fastIndex. rewrite shift_block by (unfold FAST_SHIFT; lia).
        destruct (aget (cp_index t) (Z.shiftr c FAST_SHIFT)) as [x|]; [|reflexivity]. cbn [bind]. f_equal.
        change FAST_DATA_MASK with (Z.ones 6). rewrite !land_ones_mod by lia. change (2 ^ 6) with 64. lia.
      + replace (16 * (c / 16) <=? 0xFFFF) with false by lia. replace (c <=? 0x10FFFF) with true by lia. replace (16 * (c / 16) <=? 0x10FFFF) with true by lia.
        unfold smallIndex. replace (c >=? cp_highStart t) with false by lia. replace (16 * (c / 16) >=? cp_highStart t) with false by lia.
        unfold internalSmallIndex, i3BlockOf. rewrite !shift_block by (unfold CP_SHIFT_1, CP_SHIFT_2, CP_SHIFT_3; lia).
        destruct (let* x := aget (cp_index t) _ in aget (cp_index t) _) as [b|]; [|reflexivity]. cbn [bind].
        destruct (index3 t b _) as [d|]; [|reflexivity]. cbn [bind]. f_equal.
        change SMALL_DATA_MASK with (Z.ones 4). rewrite !land_ones_mod by lia. change (2 ^ 4) with 16. lia.
  Qed.
  Lemma cp_runs_correct rs : cp_type t = 0 -> 0 <= cp_highStart t <= 0x110000 -> cp_highStart t mod 16 = 0 ->
    cp_runs (cp_highStart t / 16) = Ok rs -> runs_ok (cpget t) rs (cp_highStart t).
  Proof using.
    intros T HH HA H. destruct (runs_correct 16 cp_addr (aget (cp_data t)) ltac:(lia) (cp_highStart t / 16) rs ltac:(lia) H) as [[C V] _].
    replace (16 * (cp_highStart t / 16)) with (cp_highStart t) in * by lia. split; [exact C|].
    intros a b v x Hin Hx Hn. rewrite <- block_cpget by (auto; lia). eapply V; eauto.
  Qed.
End CPRuns.
