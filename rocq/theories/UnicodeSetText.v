(** * UnicodeSet.__str__ (UnicodeData/UnicodeSet.py:795-805) *)
From Coq Require Import ZArith List Bool Lia.
From Verif Require Import Py Utilities HexFacts UnicodeSet UnicodeSetFacts UnicodeSetViews UnicodeSetOps UnicodeSetReach UnicodeSetLaws.
Import ListNotations.
Open Scope Z_scope.

(** UnicodeSet.py:801 [f"0x{cp:04X}"] *)
Definition piece (cp : Z) : list Z := [48; 120] ++ formatHex 4 cp.
(** UnicodeSet.py:795-805 *)
Definition str_set (l : uset) : list Z := [91] ++ join [44; 32] (map piece l) ++ [93].

(** ** Reading a Python list display of hexadecimal numbers *)
Fixpoint split_commas (s cur : list Z) : list (list Z) :=
  match s with
  | [] => [cur]
  | c :: r => if c =? 44 then cur :: split_commas r [] else split_commas r (cur ++ [c])
  end.
Fixpoint skip_spaces (s : list Z) : list Z :=
  match s with c :: r => if c =? 32 then skip_spaces r else s | [] => [] end.
Definition hexb (c : Z) : bool := ((48 <=? c) && (c <=? 57)) || ((65 <=? c) && (c <=? 70)).
Definition read_number (s : list Z) : option Z :=
  match skip_spaces s with
  | 48 :: 120 :: c :: r => if forallb hexb (c :: r) then Some (readHex (c :: r)) else None
  | _ => None
  end.
Fixpoint all_some {A} (l : list (option A)) : option (list A) :=
  match l with
  | [] => Some []
  | Some x :: r => match all_some r with Some r' => Some (x :: r') | None => None end
  | None :: _ => None
  end.
Definition read_list (s : list Z) : option (list Z) :=
  match s with
  | 91 :: r => match rev r with
               | 93 :: m => match m with [] => Some [] | _ => all_some (map read_number (split_commas (rev m) [])) end
               | _ => None
               end
  | _ => None
  end.

Lemma split_tok tok : Forall (fun c => c <> 44) tok -> forall cur rest,
  split_commas (tok ++ rest) cur = split_commas rest (cur ++ tok).
Proof.
  induction 1 as [|x r Hx F IH]; intros cur rest; cbn [app split_commas]; [rewrite app_nil_r; auto|].
  destruct (Z.eqb_spec x 44); [contradiction|]. rewrite IH, <- app_assoc. reflexivity.
Qed.
Definition spaced (toks : list (list Z)) : list (list Z) := match toks with [] => [] | t :: r => t :: map (cons 32) r end.
Lemma split_all toks : Forall (Forall (fun c => c <> 44)) toks -> toks <> [] -> forall cur,
  split_commas (join [44; 32] toks) cur = match toks with [] => [] | t :: r => (cur ++ t) :: map (cons 32) r end.
Proof.
  induction 1 as [|t r Ht F IH]; intros N cur; [congruence|]. destruct r as [|t2 r].
  - cbn [join map]. rewrite <- (app_nil_r t) at 1. rewrite split_tok by auto. reflexivity.
  - change (join [44; 32] (t :: t2 :: r)) with (t ++ [44; 32] ++ join [44; 32] (t2 :: r)).
    rewrite split_tok by auto. change ([44; 32] ++ join [44; 32] (t2 :: r)) with (44 :: 32 :: join [44; 32] (t2 :: r)).
    cbn [split_commas Z.eqb Pos.eqb app]. rewrite IH by discriminate. reflexivity.
Qed.

Lemma hexb_all s : Forall isHexChar s -> forallb hexb s = true.
Proof. intros F. apply forallb_forall. intros c Hc. rewrite Forall_forall in F. specialize (F c Hc). unfold isHexChar, hexb in *. lia. Qed.
Lemma read_piece n : 0 <= n -> read_number (piece n) = Some n /\ read_number (32 :: piece n) = Some n.
Proof.
  intros H. destruct (formatHex_spec 4 n H) as (R & _ & N & F). unfold read_number, piece.
  destruct (formatHex 4 n) as [|c r] eqn:E; [congruence|]. cbn [app skip_spaces Z.eqb Pos.eqb].
  rewrite (hexb_all _ F), R. auto.
Qed.
Lemma piece_clean n : 0 <= n -> Forall (fun c => c <> 44) (piece n).
Proof.
  intros H. destruct (formatHex_spec 4 n H) as (_ & _ & _ & F). unfold piece.
  constructor; [lia|]. constructor; [lia|]. eapply Forall_impl; [|exact F]. intros c Hc. unfold isHexChar in Hc. cbv beta. lia.
Qed.
Lemma read_str l : Forall (fun c => 0 <= c) l -> read_list (str_set l) = Some l.
Proof.
  intros F. unfold read_list, str_set. cbn [app]. rewrite rev_app_distr. cbn [rev app].
  destruct l as [|n r]; [reflexivity|].
  destruct (rev (join [44; 32] (map piece (n :: r)))) as [|x m] eqn:E.
  - exfalso. apply (f_equal (@rev Z)) in E. rewrite rev_involutive in E. cbn [map join] in E. destruct (map piece r); discriminate.
  - rewrite <- E, rev_involutive. clear E x m. rewrite split_all; [|clear -F|discriminate].
    + cbn [map app]. inversion F; subst. rewrite (proj1 (read_piece n H1)). cbn [all_some].
      assert (G : all_some (map read_number (map (cons 32) (map piece r))) = Some r).
      { clear - H2. induction H2 as [|y t Hy Ht IH]; [reflexivity|]. cbn [map]. rewrite (proj2 (read_piece y Hy)). cbn [all_some].
        rewrite IH. reflexivity. }
      rewrite G. reflexivity.
    + apply Forall_forall. intros t Ht. apply in_map_iff in Ht as (x & <- & Hx).
      apply piece_clean. rewrite Forall_forall in F. auto.
Qed.

Lemma built_nonneg A : built A -> Forall (fun c => 0 <= c) A.
Proof.
  intros H. destruct (built_WF A H) as (_ & B & _). eapply Forall_impl; [|exact B]. cbv beta. intros; lia.
Qed.
Lemma str_eq A B : built A -> built B -> (str_set A = str_set B <-> UnicodeSet.eq A B = true).
Proof.
  intros HA HB. split.
  - intros E. apply list_eqb_eq.
    pose proof (read_str A (built_nonneg A HA)) as RA. pose proof (read_str B (built_nonneg B HB)) as RB.
    rewrite E, RB in RA. injection RA. congruence.
  - intros E. apply list_eqb_eq in E. congruence.
Qed.
