(** * UTrie2.enumerator for every request (C25, completed) *)
From Coq Require Import ZArith List Bool Lia ZifyBool.
From Verif Require Import Py Arr UTrie2 UTrie2Enum UTrie2EnumAll Prop_UTrie2.
Import ListNotations.
Open Scope Z_scope.

(** Whatever the trie and the request, the yielded ranges follow each other without a gap from [start]
    on, neighbours differ in value, every range starts before [limit], and the last one ends at [limit]
    or less than 32 code points after it; only a request that ends in or just after the trail
    surrogates can overshoot by more, and then by less than 1024. *)
Theorem C25_exact : forall V (veq : V -> V -> bool) vf t start limit rs,
  (forall a b, veq a b = true <-> a = b) -> 0 <= start < limit -> enumerator veq vf t limit start = Ok rs ->
  exists hi, partition start rs hi /\ limit <= hi /\ (forall a b v, In (a, b, v) rs -> a < limit) /\
    (hi < limit + 32 \/ (start < 0xE000 /\ 0xDC00 < limit < 0xE420 /\ hi < limit + 1024)).
Proof.
  intros V veq vf t start limit rs E B R. destruct (enumerator_all veq vf E t start limit B rs R) as (hi & P & L & Q & S).
  exists hi. exact (conj P (conj L (conj S Q))).
Qed.
Print Assumptions C25_exact.

(** So a caller that cuts every range off at [limit] always has the partition that was asked for. *)
Definition cut {V} (limit : Z) (r : Z * Z * V) : Z * Z * V := let '(a, b, v) := r in (a, Z.min b limit, v).
Lemma changes_cut {V} limit (rs : list (Z * Z * V)) : changes rs -> changes (map (cut limit) rs).
Proof.
  induction rs as [|[[a b] v] rs IH]; [exact (fun H => H)|]. destruct rs as [|[[a2 b2] v2] rs]; [exact (fun _ => I)|].
  intros [H1 H2]. split; [exact H1|exact (IH H2)].
Qed.
Lemma tiles_cut {V} limit (rs : list (Z * Z * V)) : forall lo hi, lo <= limit -> limit <= hi -> (forall a b v, In (a, b, v) rs -> a < limit) ->
  tiles lo rs hi -> tiles lo (map (cut limit) rs) limit.
Proof.
  induction rs as [|[[a b] v] rs IH]; intros lo hi L H S T; cbn [tiles map] in *; [lia|]. destruct T as (-> & T1 & T2).
  assert (lo < limit) by exact (S lo b v (or_introl eq_refl)). cbn [cut tiles]. split; [reflexivity|]. split; [lia|].
  assert (S' : forall a b v, In (a, b, v) rs -> a < limit) by (intros x y w Hin; exact (S x y w (or_intror Hin))).
  destruct (Z.leb_spec b limit) as [G|G].
  - replace (Z.min b limit) with b by lia. exact (IH b hi G H S' T2).
  - destruct rs as [|[[p q] w] rs].
    + cbn. lia.
    + cbn [tiles] in T2. destruct T2 as (-> & _). specialize (S' b q w (or_introl eq_refl)). lia.
Qed.
Theorem C25_cut : forall V (veq : V -> V -> bool) vf t start limit rs,
  (forall a b, veq a b = true <-> a = b) -> 0 <= start < limit -> enumerator veq vf t limit start = Ok rs ->
  partition start (map (cut limit) rs) limit.
Proof.
  intros V veq vf t start limit rs E B R. destruct (C25_exact V veq vf t start limit rs E B R) as (hi & [T C] & L & S & _).
  split; [apply (tiles_cut limit rs start hi); [lia|exact L|exact S|exact T]|apply changes_cut; exact C].
Qed.
Print Assumptions C25_cut.

(** Overshooting happens far from the surrogates, too. Two blocks of ones hold U+0000..U+07FF and
    U+0800..U+083F, zeros follow. Asked for U+001F..U+0840, the generator says ones up to U+085E. *)
Definition blk25b (k : Z) : Z := if k <? 64 then 0 else if k <? 66 then 1 else 2.
Definition ones_trie : utrie2 :=
  mkUTrie2 (mkArr 2241 (fun i => if i <? 2112 then 528 + 8 * blk25b i else if i <? 2176 then 1 else 0)) 2112 4096 2176 0x10000 2240 0.
Lemma ones_refs : refs_ok ones_trie.
Proof.
  constructor.
  - intros k Hk. exists (528 + 8 * blk25b k). cbn [index ones_trie]. rewrite aget_Ok by (cbn [alen]; lia). cbn [anth alen].
    replace (k <? 2112) with true by lia. split; [reflexivity|]. unfold blk25b. destruct (k <? 64); [lia|]. destruct (k <? 66); lia.
  - cbn [highStart ones_trie]. intros c Hc. lia.
  - cbn. lia.
Qed.
Theorem C25_unaligned_refuted : exists t start limit rs, refs_ok t /\ 0 <= start < limit /\ limit <= 0xD800 /\
  enumerator Z.eqb (fun v => v) t limit start = Ok rs /\ ~ partition start rs limit.
Proof.
  exists ones_trie, 31, 2113, [(31, 2143, 1)]. split; [exact ones_refs|].
  split; [lia|]. split; [lia|]. split; [vm_compute; reflexivity|]. intros [(_ & _ & H) _]. discriminate.
Qed.
Print Assumptions C25_unaligned_refuted.
Example C25_exact_case : enumerator Z.eqb (fun v => v) ones_trie 2113 31 = Ok [(31, 2143, 1)] /\ get ones_trie 2112 = Ok 0 /\
  map (cut 2113) [(31, 2143, 1)] = [(31, 2113, 1)].
Proof. repeat split; vm_compute; reflexivity. Qed.
