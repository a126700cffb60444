(** * Byte strings: slices and [struct.unpack].

    A [bytes] object is a list of integers 0..255.  [struct] is used by the code
    with native byte order and alignment (no prefix character, also through
    fontTools' sstruct); the model fixes a little-endian machine.  The formats used
    need no padding. *)
From Coq Require Import ZArith List Bool Lia.
From Verif Require Import Py.
Import ListNotations.
Open Scope Z_scope.

Definition bytes := list Z.

(** the unsigned little-endian integer held by some bytes *)
Fixpoint le (b : bytes) : Z :=
  match b with [] => 0 | x :: r => x + 256 * le r end.

(** cut into pieces of [w] bytes *)
Fixpoint pieces (w : nat) (n : nat) (b : bytes) : list bytes :=
  match n with O => [] | S m => firstn w b :: pieces w m (skipn w b) end.

(** [struct.unpack(f"{n}H", b)] and the like, for items of [w] bytes: the length must match exactly *)
Definition unpack (w : Z) (n : Z) (b : bytes) : res (list Z) :=
  if zlen b =? w * n then Ok (map le (pieces (Z.to_nat w) (Z.to_nat n) b)) else Err StructError.

(** ** The inverse, for specifications *)

(** the [w] bytes of [x], least significant first *)
Fixpoint le_bytes (w : nat) (x : Z) : bytes :=
  match w with O => [] | S v => x mod 256 :: le_bytes v (x / 256) end.
Definition pack (w : Z) (xs : list Z) : bytes := concat (map (le_bytes (Z.to_nat w)) xs).

Lemma le_le_bytes w x : 0 <= x < 256 ^ Z.of_nat w -> le (le_bytes w x) = x.
Proof.
  revert x. induction w as [|w IH]; intros x H; cbn [le_bytes le].
  - change (256 ^ Z.of_nat 0) with 1 in H. lia.
  - replace (Z.of_nat (S w)) with (Z.of_nat w + 1) in H by lia. rewrite Z.pow_add_r in H by lia.
    change (256 ^ 1) with 256 in H.
    rewrite IH; [rewrite (Z.div_mod x 256) at 3 by lia; lia|].
    split; [apply Z.div_pos; lia|apply Z.div_lt_upper_bound; lia].
Qed.

Lemma length_le_bytes w x : length (le_bytes w x) = w.
Proof. revert x. induction w; intros; cbn; auto. Qed.

Lemma zlen_pack w xs : 0 <= w -> zlen (pack w xs) = w * zlen xs.
Proof.
  intros Hw. unfold pack, zlen. induction xs as [|x r IH]; cbn [map concat]; [cbn; lia|].
  rewrite app_length, length_le_bytes. cbn [length]. lia.
Qed.

Lemma unpack_pack w xs : 0 <= w -> Forall (fun x => 0 <= x < 256 ^ w) xs -> unpack w (zlen xs) (pack w xs) = Ok xs.
Proof.
  intros Hw F. unfold unpack. rewrite zlen_pack, Z.eqb_refl by auto. f_equal.
  replace (Z.to_nat (zlen xs)) with (length xs) by (unfold zlen; lia). unfold pack.
  induction F as [|x r Hx F IH]; cbn [length pieces map concat]; auto.
  rewrite firstn_app, length_le_bytes, Nat.sub_diag, firstn_O, app_nil_r.
  rewrite firstn_all2 by (rewrite length_le_bytes; lia).
  rewrite skipn_app, length_le_bytes, Nat.sub_diag, skipn_O, skipn_all2 by (rewrite length_le_bytes; lia).
  cbn [app]. rewrite IH. f_equal. apply le_le_bytes. rewrite Z2Nat.id by auto. auto.
Qed.

(** slicing out a known part *)
Lemma slice_mid {A} (p m s : list A) i j : i = zlen p -> j = zlen p + zlen m ->
  py_slice (p ++ m ++ s) i j = m.
Proof.
  intros -> ->. unfold py_slice, py_bound. rewrite !zlen_app.
  pose proof (zlen_nonneg p). pose proof (zlen_nonneg m). pose proof (zlen_nonneg s).
  replace (zlen p <? 0) with false by (symmetry; apply Z.ltb_ge; lia).
  replace (zlen p + zlen m <? 0) with false by (symmetry; apply Z.ltb_ge; lia).
  rewrite !Z.min_r, !Z.max_r by lia.
  replace (Z.to_nat (zlen p + zlen m - zlen p)) with (length m) by (unfold zlen; lia).
  replace (Z.to_nat (zlen p)) with (length p) by (unfold zlen; lia).
  rewrite skipn_app, skipn_all, Nat.sub_diag. cbn [app skipn].
  rewrite firstn_app, Nat.sub_diag, firstn_O, app_nil_r. apply firstn_all.
Qed.
