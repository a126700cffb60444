(** Facts about hexadecimal formatting and a reader for it. *)
From Coq Require Import ZArith List Bool Lia ZifyBool.
From Verif Require Import Py Utilities.
Import ListNotations.
Open Scope Z_scope.
Ltac Zify.zify_post_hook ::= Z.to_euclidean_division_equations.

(** the number a string of upper-case hexadecimal digits stands for *)
Definition unhexChar (c : Z) : Z := if c <? 65 then c - 48 else c - 55.
Definition readHex (s : list Z) : Z := fold_left (fun acc c => acc * 16 + unhexChar c) s 0.
Definition isHexChar (c : Z) : Prop := 48 <= c <= 57 \/ 65 <= c <= 70.

Definition valDigits (ds : list Z) : Z := fold_left (fun acc d => acc * 16 + d) ds 0.
Definition digitsOK (ds : list Z) : Prop := Forall (fun d => 0 <= d < 16) ds.

Lemma fold_digits ds : forall a, fold_left (fun acc d => acc * 16 + d) ds a = a * 16 ^ (Z.of_nat (length ds)) + valDigits ds.
Proof.
  unfold valDigits. induction ds as [|d r IH]; intros a; cbn [fold_left length]; [lia|].
  rewrite IH, (IH (0 * 16 + d)). rewrite Nat2Z.inj_succ, Z.pow_succ_r by lia. lia.
Qed.

Lemma valDigits_app a b : valDigits (a ++ b) = valDigits a * 16 ^ (Z.of_nat (length b)) + valDigits b.
Proof. unfold valDigits at 1. rewrite fold_left_app, fold_digits. reflexivity. Qed.

Lemma valDigits_cons d b : valDigits (d :: b) = d * 16 ^ (Z.of_nat (length b)) + valDigits b.
Proof. apply (valDigits_app [d] b). Qed.

Lemma hexDigits_val : forall fuel n acc, 0 <= n < 16 ^ (Z.of_nat fuel) ->
  valDigits (hexDigits fuel n acc) = n * 16 ^ (Z.of_nat (length acc)) + valDigits acc.
Proof.
  induction fuel as [|k IH]; intros n acc Hn.
  - cbn [hexDigits]. change (16 ^ Z.of_nat 0) with 1 in Hn. replace n with 0 by lia. lia.
  - cbn [hexDigits]. rewrite Nat2Z.inj_succ, Z.pow_succ_r in Hn by lia. destruct (n <? 16) eqn:E.
    + apply valDigits_cons.
    + rewrite IH by lia. rewrite valDigits_cons. cbn [length]. rewrite Nat2Z.inj_succ, Z.pow_succ_r by lia.
      pose proof (Z.div_mod n 16 ltac:(lia)). set (p := 16 ^ Z.of_nat (length acc)) in *. nia.
Qed.

Lemma hexDigits_ok : forall fuel n acc, 0 <= n -> digitsOK acc -> digitsOK (hexDigits fuel n acc).
Proof.
  induction fuel as [|k IH]; intros n acc Hn A; cbn [hexDigits]; auto.
  destruct (n <? 16) eqn:E; [constructor; auto; lia|].
  apply IH; [lia|]. constructor; auto. lia.
Qed.

Lemma fuel_enough n : 0 <= n -> n < 16 ^ Z.of_nat (S (Z.to_nat (Z.log2 n))).
Proof.
  intros H. destruct (Z.eq_dec n 0) as [->|]; [reflexivity|].
  pose proof (Z.log2_spec n ltac:(lia)) as [_ S]. eapply Z.lt_le_trans; [exact S|].
  rewrite Nat2Z.inj_succ, Z2Nat.id by apply Z.log2_nonneg.
  apply Z.pow_le_mono_l. lia.
Qed.

Lemma valDigits_zeros k : valDigits (repeat 0 k) = 0.
Proof. induction k; auto. Qed.

Lemma formatHex_digits w n : 0 <= n -> exists ds, formatHex w n = map hexChar ds /\ digitsOK ds /\ valDigits ds = n /\ (w <= length ds)%nat /\ ds <> [].
Proof.
  intros H. unfold formatHex. eexists; split; [reflexivity|]. unfold padTo. repeat split.
  - apply Forall_app; split.
    + apply Forall_forall. intros x Hx. apply repeat_spec in Hx. lia.
    + apply hexDigits_ok; auto. constructor.
  - rewrite valDigits_app, valDigits_zeros, hexDigits_val by (split; [auto|apply fuel_enough; auto]).
    change (valDigits []) with 0. change (Z.of_nat (length (@nil Z))) with 0. lia.
  - rewrite app_length, repeat_length. lia.
  - intros E. apply app_eq_nil in E as [_ E]. apply (f_equal (@length Z)) in E. revert E.
    assert (forall f n acc, (1 <= length acc \/ (1 <= f))%nat -> (1 <= length (hexDigits f n acc))%nat) as L.
    { induction f as [|f IH]; intros m acc Q; cbn [hexDigits]; [lia|]. destruct (m <? 16); [cbn [length]; lia|].
      apply IH. cbn [length]. lia. }
    specialize (L (S (Z.to_nat (Z.log2 n))) n [] ltac:(lia)). intros E. rewrite E in L. cbn in L. lia.
Qed.

Lemma unhex_hex d : 0 <= d < 16 -> unhexChar (hexChar d) = d.
Proof. intros. unfold unhexChar, hexChar. destruct (d <? 10) eqn:E; [destruct (48 + d <? 65) eqn:E2|destruct (55 + d <? 65) eqn:E2]; lia. Qed.

Lemma hexChar_ok d : 0 <= d < 16 -> isHexChar (hexChar d).
Proof. intros. unfold isHexChar, hexChar. destruct (d <? 10) eqn:E; lia. Qed.

Lemma readHex_digits ds : digitsOK ds -> readHex (map hexChar ds) = valDigits ds.
Proof.
  unfold readHex, valDigits. generalize 0 as a. intros a D. revert a. induction D; intros a; cbn [map fold_left]; auto.
  rewrite unhex_hex by auto. apply IHD.
Qed.

Lemma formatHex_spec w n : 0 <= n ->
  readHex (formatHex w n) = n /\ (w <= length (formatHex w n))%nat /\ formatHex w n <> [] /\
  Forall isHexChar (formatHex w n).
Proof.
  intros H. destruct (formatHex_digits w n H) as (ds & E & D & V & L & N). rewrite E. repeat split.
  - rewrite readHex_digits; auto.
  - rewrite map_length; auto.
  - destruct ds; [congruence|discriminate].
  - apply Forall_forall. intros x Hx. apply in_map_iff in Hx as (d & <- & Hd). apply hexChar_ok.
    unfold digitsOK in D. rewrite Forall_forall in D. auto.
Qed.

(** digits never carry more than needed: the length is max w (number of digits) *)
Lemma hexDigits_len : forall fuel n acc, 0 <= n < 16 ^ (Z.of_nat fuel) -> forall k, (1 <= k)%nat -> n < 16 ^ Z.of_nat k ->
  (length (hexDigits fuel n acc) <= k + length acc)%nat.
Proof.
  induction fuel as [|f IH]; intros n acc Hn k Hk Hb; cbn [hexDigits]; [lia|].
  rewrite Nat2Z.inj_succ, Z.pow_succ_r in Hn by lia.
  destruct (n <? 16) eqn:E; [cbn [length]; lia|].
  destruct k as [|[|k]]; [lia|change (16 ^ Z.of_nat 1) with 16 in Hb; lia|].
  rewrite Nat2Z.inj_succ, Z.pow_succ_r in Hb by lia.
  specialize (IH (n / 16) (n mod 16 :: acc) ltac:(lia) (S k) ltac:(lia) ltac:(lia)).
  cbn [length] in IH. lia.
Qed.

Lemma formatHex_len w n : 0 <= n < 16 ^ Z.of_nat w -> (1 <= w)%nat -> length (formatHex w n) = w.
Proof.
  intros H Hw. unfold formatHex, padTo. rewrite map_length, app_length, repeat_length.
  pose proof (hexDigits_len (S (Z.to_nat (Z.log2 n))) n [] ltac:(split; [lia|apply fuel_enough; lia]) w Hw ltac:(lia)) as L.
  rewrite Nat.add_0_r in L. lia.
Qed.

(** ** listOfCodes can be read back *)

(** split at ", " *)
Fixpoint splitCodes (s cur : list Z) : list (list Z) :=
  match s with
  | [] => [cur]
  | c :: r => if c =? 44 then match r with _ :: r' => cur :: splitCodes r' [] | [] => [cur; []] end
              else splitCodes r (cur ++ [c])
  end.

Definition readCodes (s : list Z) : list Z :=
  match s with [] => [] | _ => map readHex (splitCodes s []) end.

Lemma split_token tok : Forall isHexChar tok -> forall cur rest,
  splitCodes (tok ++ rest) cur = splitCodes rest (cur ++ tok).
Proof.
  induction 1 as [|x r Hx F IH]; intros cur rest; cbn [app splitCodes]; [rewrite app_nil_r; auto|].
  destruct (x =? 44) eqn:E; [unfold isHexChar in Hx; lia|]. rewrite IH, <- app_assoc. reflexivity.
Qed.

Lemma split_join toks : Forall (Forall isHexChar) toks -> toks <> [] -> splitCodes (join [44; 32] toks) [] = toks.
Proof.
  induction 1 as [|t r Ht F IH]; intros N; [congruence|]. destruct r as [|t2 r].
  - cbn [join]. rewrite <- (app_nil_r t) at 1. rewrite split_token by auto. reflexivity.
  - change (join [44; 32] (t :: t2 :: r)) with (t ++ [44; 32] ++ join [44; 32] (t2 :: r)).
    rewrite split_token by auto. cbn [app splitCodes Z.eqb Pos.eqb]. rewrite IH by discriminate. reflexivity.
Qed.

Lemma listOfCodes_reads codes : Forall (fun c => 0 <= c) codes -> readCodes (listOfCodes codes) = codes.
Proof.
  intros F. destruct codes as [|c r]; [reflexivity|].
  unfold listOfCodes.
  assert (NN : join [44; 32] (map (formatHex 4) (c :: r)) <> []).
  { inversion F; subst. destruct (formatHex_spec 4 c H1) as (_ & _ & N & _). cbn [map join].
    destruct (map (formatHex 4) r); [auto|]. destruct (formatHex 4 c); [congruence|discriminate]. }
  unfold readCodes. destruct (join [44; 32] (map (formatHex 4) (c :: r))) eqn:E; [congruence|]. rewrite <- E.
  rewrite split_join; [|clear -F|discriminate].
  - rewrite map_map. clear E NN. induction F; cbn [map]; auto.
    rewrite (proj1 (formatHex_spec 4 x H)). congruence.
  - apply Forall_forall. intros t Ht. apply in_map_iff in Ht as (x & <- & Hx).
    rewrite Forall_forall in F. apply formatHex_spec; auto.
Qed.
