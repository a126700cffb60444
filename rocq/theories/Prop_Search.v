(** * What the search in a set costs, and which calls cannot fail (C120)

    Nothing is asked of the list here: it need not be sorted, nor end with HIGH. *)
From Coq Require Import ZArith List Bool Lia ZifyBool String.
From Verif Require Import Py PyStr UnicodeSet UnicodeSetFacts Dict CharProps CharNames UCD UCDIndex.
Import ListNotations.
Open Scope Z_scope.
Local Notation length := List.length.

(** UnicodeSet.py:87-98: the number of times round the loop *)
Fixpoint rounds (fuel : nat) (l : uset) (cp lo hi : Z) : nat :=
  match fuel with
  | O => O
  | S k => let i := Z.shiftr (lo + hi) 1 in
      if i =? lo then 1%nat
      else match py_get l i with Err _ => 1%nat | Ok x => S (if cp <? x then rounds k l cp lo i else rounds k l cp i hi) end
  end.
(** UnicodeSet.py:63-98: the number of entries of the list that are read: the first, the last but one, and one in each round but the last *)
Definition reads (l : uset) (cp : Z) : Z :=
  match py_get l 0 with
  | Err _ => 1
  | Ok x0 =>
      if cp <? x0 then 1 else if 0 >=? zlen l - 1 then 1
      else match py_get l (zlen l - 1 - 1) with
           | Err _ => 2
           | Ok x => if cp >=? x then 2 else 1 + Z.of_nat (rounds (length l) l cp 0 (zlen l - 1))
           end
  end.

Lemma find_loop_any l cp : forall k fuel lo hi, 0 <= lo < hi -> hi < zlen l -> hi - lo <= 2 ^ Z.of_nat k -> (S k <= fuel)%nat ->
  exists i, find_loop fuel l cp lo hi = Ok i /\ lo < i <= hi /\ (rounds fuel l cp lo hi <= S k)%nat.
Proof.
  induction k as [|k IH]; intros fuel lo hi H1 H2 H3 H4; (destruct fuel as [|fuel]; [lia|]); cbn [find_loop rounds]; cbv zeta; rewrite shiftr1.
  - change (2 ^ Z.of_nat 0) with 1 in H3. assert ((lo + hi) / 2 =? lo = true) as -> by lia. exists hi. repeat split; lia.
  - destruct ((lo + hi) / 2 =? lo) eqn:E; [exists hi; repeat split; lia|]. assert (lo < (lo + hi) / 2 < hi) by lia.
    rewrite py_get_znth by lia. cbn [bind].
    assert (P : 2 ^ Z.of_nat (S k) = 2 * 2 ^ Z.of_nat k) by (rewrite Nat2Z.inj_succ, Z.pow_succ_r by lia; reflexivity). rewrite P in H3.
    destruct (cp <? znth l ((lo + hi) / 2)).
    + destruct (IH fuel lo ((lo + hi) / 2)) as (i & A & B & C); [lia|lia|lia|lia|]. exists i. split; [exact A|]. split; [lia|]. apply le_n_S. exact C.
    + destruct (IH fuel ((lo + hi) / 2) hi) as (i & A & B & C); [lia|lia|lia|lia|]. exists i. split; [exact A|]. split; [lia|]. apply le_n_S. exact C.
Qed.
Lemma nonempty (l : uset) : l <> [] -> 0 < zlen l.
Proof. destruct l as [|x r]; [congruence|]. intros _. rewrite zlen_cons. pose proof (zlen_nonneg r). lia. Qed.
Lemma pow_above n : (n <= 2 ^ n)%nat.
Proof. apply Nat.lt_le_incl, Nat.pow_gt_lin_r. lia. Qed.
Lemma find_any l cp : l <> [] -> exists i, findCodePoint l cp = Ok i /\ 0 <= i < zlen l /\ reads l cp <= 2 + Z.log2_up (zlen l).
Proof.
  intros N. assert (L := nonempty l N). unfold findCodePoint, reads. assert (G := Z.log2_up_nonneg (zlen l)). rewrite py_get_znth by lia. cbn [bind].
  destruct (cp <? znth l 0); [exists 0; repeat split; lia|]. destruct (0 >=? zlen l - 1) eqn:E1; [exists (zlen l - 1); repeat split; lia|].
  rewrite py_get_znth by lia. cbn [bind]. destruct (cp >=? _); [exists (zlen l - 1); repeat split; lia|].
  set (k := Z.to_nat (Z.log2_up (zlen l))).
  assert (K : zlen l <= 2 ^ Z.of_nat k).
  { unfold k. rewrite Z2Nat.id by lia. apply Z.log2_up_spec. lia. }
  assert (F : (S k <= length l)%nat).
  { assert (Z.log2_up (zlen l) < zlen l) by (apply Z.log2_up_lt_lin; lia). unfold k, zlen in *. lia. }
  destruct (find_loop_any l cp k (length l) 0 (zlen l - 1)) as (i & A & B & C); [lia|lia|lia|exact F|].
  exists i. split; [exact A|]. split; [lia|]. unfold k in C. lia.
Qed.

(** A search in any list that is not empty ends with a place in the list, after reading at most two more entries than the logarithm of its length. *)
Theorem C120_search : forall l cp, l <> [] ->
  exists i, findCodePoint l cp = Ok i /\ 0 <= i < zlen l /\ reads l cp <= 2 + Z.log2_up (zlen l) /\
    contains l cp = Ok (negb (Z.even i)).
Proof.
  intros l cp N. destruct (find_any l cp N) as (i & A & B & C). exists i. split; [exact A|]. split; [exact B|]. split; [exact C|].
  unfold contains. rewrite A. cbn [bind]. f_equal. f_equal. change 1 with (Z.ones 1). rewrite Z.land_ones by lia. change (2 ^ 1) with 2. rewrite Zeven_mod.
  unfold Zeq_bool. destruct (i mod 2) eqn:Q; reflexivity.
Qed.
Print Assumptions C120_search.

Lemma slice_ins (l : uset) i v : 0 <= i <= zlen l -> py_set_slice l i i v = firstn (Z.to_nat i) l ++ v ++ skipn (Z.to_nat i) l.
Proof. intros H. unfold py_set_slice. rewrite (py_bound_in _ i H), Z.max_id. reflexivity. Qed.
Lemma set_any (l : uset) i v : 0 <= i < zlen l -> exists l', py_set l i v = Ok l' /\ zlen l' = zlen l.
Proof.
  intros H. unfold py_set. cbv zeta. assert (i <? 0 = false) as Q by lia. rewrite !Q. assert (zlen l <=? i = false) as -> by lia. cbn [orb].
  eexists. split; [reflexivity|]. unfold zlen in *. rewrite app_length, firstn_length. cbn [List.length]. rewrite skipn_length. lia.
Qed.
(** [add] cannot fail on a list that is not empty, and the list stays so, whatever integer it is given. *)
Lemma add_any l cp : l <> [] -> exists l', add l cp = Ok l' /\ l' <> [] /\ zlen l - 2 <= zlen l' <= zlen l + 2.
Proof.
  intros N. assert (L := nonempty l N). unfold add. destruct (find_any l (pin cp) N) as (i & -> & B & _). cbn [bind].
  destruct (Z.land i 1 =? 0) eqn:E; cbn [negb]; [|exists l; repeat split; [exact N|lia|lia]].
  assert (Ev : i mod 2 = 0). { change 1 with (Z.ones 1) in E. rewrite Z.land_ones in E by lia. change (2 ^ 1) with 2 in E. lia. }
  assert (NE : forall l' : uset, 0 < zlen l' -> l' <> []) by (intros l' H ->; discriminate H).
  rewrite py_get_znth by lia. cbn [bind].
  assert (I : exists l', Ok (py_set_slice l i i [cp; cp + 1]) = Ok l' /\ l' <> [] /\ zlen l - 2 <= zlen l' <= zlen l + 2).
  { eexists. split; [reflexivity|]. rewrite slice_ins by lia.
    assert (zlen (firstn (Z.to_nat i) l ++ [cp; cp + 1] ++ skipn (Z.to_nat i) l) = zlen l + 2).
    { unfold zlen in *. rewrite !app_length, firstn_length, skipn_length. cbn [List.length]. lia. }
    split; [apply NE; lia|lia]. }
  destruct (cp =? znth l i - 1).
  - destruct (set_any l i cp B) as (l1 & -> & L1). cbn [bind].
    set (l2 := if cp =? HIGH - 1 then l1 ++ [HIGH] else l1).
    assert (L2 : zlen l <= zlen l2 <= zlen l + 1) by (unfold l2; destruct (cp =? HIGH - 1); rewrite ?zlen_app, ?zlen_cons, ?zlen_nil; lia).
    destruct (i >? 0) eqn:P; [|exists l2; repeat split; [apply NE; lia|lia|lia]].
    rewrite py_get_znth by lia. cbn [bind]. destruct (cp =? znth l2 (i - 1)); [|exists l2; repeat split; [apply NE; lia|lia|lia]].
    eexists. split; [reflexivity|].
    assert (zlen (py_set_slice l2 (i - 1) (i + 1) []) = zlen l2 - 2).
    { unfold py_set_slice. rewrite (py_bound_in _ (i - 1)), (py_bound_in _ (i + 1)) by lia. cbn [app]. unfold zlen in *. rewrite app_length, firstn_length, skipn_length. lia. }
    split; [apply NE; lia|lia].
  - destruct (i >? 0) eqn:P; [|exact I]. rewrite py_get_znth by lia. cbn [bind]. destruct (cp =? znth l (i - 1)); [|exact I].
    destruct (set_any l (i - 1) (znth l (i - 1) + 1)) as (l' & -> & L'); [lia|]. exists l'. repeat split; [apply NE; lia|lia|lia].
Qed.
Theorem C120_add : forall l cp, (exists l', add l cp = Ok l' /\ l' <> []) <-> l <> [].
Proof.
  intros l cp. split.
  - intros (l' & A & _) ->. unfold add, findCodePoint in A. discriminate.
  - intros N. destruct (add_any l cp N) as (l' & A & B & _). exists l'. auto.
Qed.
Print Assumptions C120_add.

(** any integers, one after another *)
Definition adds (l : uset) (cs : list Z) : res uset := fold_left (fun r c => let* l := r in add l c) cs (Ok l).
Theorem C120_adds : forall cs l, l <> [] -> exists l', adds l cs = Ok l' /\ l' <> [] /\ zlen l' <= zlen l + 2 * zlen cs /\
  forall c, exists b, contains l' c = Ok b /\ reads l' c <= 2 + Z.log2_up (zlen l + 2 * zlen cs).
Proof.
  assert (A : forall cs l, l <> [] -> exists l', adds l cs = Ok l' /\ l' <> [] /\ zlen l' <= zlen l + 2 * zlen cs).
  { induction cs as [|c r IH]; intros l N; [exists l; change (zlen (@nil Z)) with 0; repeat split; [exact N|lia]|].
    destruct (add_any l c N) as (l1 & A & B & C). destruct (IH l1 B) as (l2 & D & E & F). exists l2. rewrite zlen_cons.
    split; [|split; [exact E|lia]]. unfold adds in D |- *. cbn [fold_left bind]. rewrite A. exact D. }
  intros cs l N. destruct (A cs l N) as (l' & H1 & H2 & H3). exists l'. split; [exact H1|]. split; [exact H2|]. split; [exact H3|].
  intros c. destruct (C120_search l' c H2) as (i & _ & _ & R & Q). eexists. split; [exact Q|].
  assert (Z.log2_up (zlen l') <= Z.log2_up (zlen l + 2 * zlen cs)) by (apply Z.log2_up_le_mono; exact H3). lia.
Qed.
Print Assumptions C120_adds.
(** 101 scattered code points and an integer that is none: the list is no longer sorted, and a search still reads at most 10 of its 205 entries. *)
Definition scattered : res uset := adds new_empty (map (fun k => 3 * k) (UnicodeSet.py_range 0 101 1) ++ [0x110000]).
Example C120_case : match scattered with
  | Ok l => zlen l = 205 /\ skipn 202 l = [0x110000; 0x110001; 0x110000] /\ contains l 150 = Ok true /\ contains l 151 = Ok false /\ reads l 150 = 10 /\ 2 + Z.log2_up (zlen l) = 10
  | Err _ => False end.
Proof. vm_compute. repeat split. Qed.
