(** * Properties C24 - C26: UTrie2. *)
From Coq Require Import ZArith List Bool Lia.
From Verif Require Import Py Arr Utilities UTrie2 UTrie2Lookup UTrie2Build UTrie2Enum UTrie2EnumVal.
Import ListNotations.
Open Scope Z_scope.

(** ** C24

    The full statement, for every function f: looking up any code point returns
    f of it.  Every f is held by some well-formed trie: *)
Theorem C24_every_function_has_a_trie : forall f e, exists L,
  layout_ok L /\ error_value L = e /\ forall c, 0 <= c <= 0x10FFFF -> value_at L c = f c.
Proof. exact every_function. Qed.
Print Assumptions C24_every_function_has_a_trie.
(** Missing from the full statement: U+10FFFF itself. *)
Theorem C24_lookup_partial : forall L, layout_ok L ->
  (forall c, 0 <= c < 0x10FFFF -> get (serialize L) c = Ok (value_at L c)) /\
  (forall c, 0x10FFFF < c -> get (serialize L) c = Ok (error_value L)).
Proof. exact (fun L K => conj (fun c => lookup_ok L K c) (fun c H => lookup_error L K c (Z.lt_le_incl _ _ H))). Qed.
Print Assumptions C24_lookup_partial.
(** U+10FFFF gets the error value, whatever was stored for it ([>=] in Utrie2.py:86). *)
Theorem C24_lookup_last_code_point_refuted : exists L, layout_ok L /\
  get (serialize L) 0x10FFFF <> Ok (value_at L 0x10FFFF).
Proof.
  destruct (every_function (fun _ => 1) 0) as (L & K & E & F). exists L. split; auto.
  rewrite (lookup_error L K) by lia. rewrite E, F by lia. congruence.
Qed.
Print Assumptions C24_lookup_last_code_point_refuted.
(** A shared block in use: all 2048 BMP entries share data block 5. *)
Definition tiny : layout := mkLayout (ztab 2048 (fun _ => 5)) (ztab 32 (fun _ => 0)) (ztab 32 (fun _ => 0))
  [0] [ztab 64 (fun k => k mod 6)] [0; 0; 0] (ztab 6 (fun b => ztab 32 (fun j => 100 * b + j))) 7 0x10800 0 0 0.
Example C24_tiny_ok : layout_ok tiny.
Proof.
  assert (B : forall n g, (forall i, 0 <= i < n -> 0 <= g i < 6) -> below 6 (ztab n g)) by (intros; apply Forall_ztab; auto).
  constructor; try reflexivity; try (simpl; lia).
  - constructor; [|constructor]. split; [reflexivity|]. apply B. intros. apply Z.mod_pos_bound. lia.
  - apply Forall_ztab. intros. apply zlen_ztab. lia.
  - apply B. lia.
  - apply B. lia.
  - repeat constructor; vm_compute; intuition discriminate.
Qed.
Example C24_case : map (get (serialize tiny)) [0x41; 0xD801; 0xFFFF; 0x10047; 0x10800; 0x110000] =
  map Ok [501; 1; 531; 207; 7; 400].
Proof. vm_compute. reflexivity. Qed.

(** ** C25

    The full statement: the yielded ranges are a partition of [start, limit).
    Missing: requests that end inside or just after the trail surrogates without
    starting after them, and long requests with a start that is not a multiple of 32. *)
Theorem C25_enumeration_partition_partial :
  forall V (veq : V -> V -> bool) vf t start limit rs,
  (forall a b, veq a b = true <-> a = b) ->
  0 <= start < limit ->
  start mod 32 = 0 \/ limit <= start + 2048 ->
  limit <= 0xDC00 \/ 0xE420 <= limit \/ 0xE000 <= start ->
  enumerator veq vf t limit start = Ok rs -> partition start rs limit.
Proof. exact (fun V veq vf t start limit rs E A B C => enumerator_partition veq vf E t start limit A B C rs). Qed.
Print Assumptions C25_enumeration_partition_partial.
(** The generator always ends, and does not raise if the references stored in the trie are in range. *)
Theorem C25_enumeration_ends : forall V (veq : V -> V -> bool) vf t start limit,
  (forall a b, veq a b = true <-> a = b) -> 0 <= start < limit ->
  (exists rs, enumerator veq vf t limit start = Ok rs) \/ enumerator veq vf t limit start = Err IndexError.
Proof. exact (fun V veq vf t start limit E A => enumerator_terminates veq vf E t start limit A). Qed.
Print Assumptions C25_enumeration_ends.
Theorem C25_enumeration_does_not_raise : forall V (veq : V -> V -> bool) vf t start limit,
  (forall a b, veq a b = true <-> a = b) -> 0 <= start < limit -> refs_ok t ->
  exists rs, enumerator veq vf t limit start = Ok rs.
Proof. exact (fun V veq vf t start limit E A R => enumerator_ok veq vf E t start limit A R). Qed.
Print Assumptions C25_enumeration_does_not_raise.

(** A small well-formed trie: BMP only, with four data blocks: zeros, ones, the
    null block (zeros) and 0..31; [blk k] says which one 32 code points use. *)
Definition small_trie (blk : Z -> Z) : utrie2 :=
  mkUTrie2 (mkArr 2241 (fun i => if i <? 2112 then 528 + 8 * blk i
                               else if i <? 2144 then 0 else if i <? 2176 then 1
                               else if i <? 2208 then 0 else if i <? 2240 then i - 2208 else 9))
           2112 4096 2176 0x10000 2240 0.
Lemma small_refs blk : (forall k, 0 <= blk k < 4) -> refs_ok (small_trie blk).
Proof.
  intros H. constructor; cbn [small_trie index highStart highValueIndex alen].
  - intros k Hk. rewrite aget_Ok by (cbn; lia). cbn [anth].
    replace (k <? 2112) with true by (symmetry; apply Z.ltb_lt; lia). specialize (H k). exists (528 + 8 * blk k). split; [reflexivity|]. lia.
  - lia.
  - lia.
Qed.

Definition blk25 (k : Z) : Z := if k =? 0x6E9 then 2 else 1.
Theorem C25_enumeration_partition_refuted : exists t start limit rs,
  refs_ok t /\ 0 <= start < limit /\ enumerator Z.eqb (fun v => v) t limit start = Ok rs /\ ~ partition start rs limit.
Proof.
  exists (small_trie blk25), 0xDD00, 0xDE00, [(0xDD00, 0xDE20, 1)].
  split; [apply small_refs; intros k; unfold blk25; destruct (k =? 0x6E9); lia|].
  split; [lia|]. split; [vm_compute; reflexivity|]. intros [(_ & _ & H) _]. discriminate.
Qed.
Print Assumptions C25_enumeration_partition_refuted.
Example C25_case : enumerator Z.eqb (fun v => v) (small_trie (fun k => if k <? 3 then k else 3)) 0x70 0x10 =
  Ok ([(0x10, 0x20, 0); (0x20, 0x40, 1); (0x40, 0x61, 0)] ++ map (fun k => (0x61 + k, 0x62 + k, 1 + k)) [0;1;2;3;4;5;6;7;8;9;10;11;12;13;14]).
Proof. vm_compute. reflexivity. Qed.

(** ** C26

    The full statement: every code point of every yielded range looks up to the
    value of the range.  Proved inside one window of 2048 code points (all BMP
    requests up to that length outside the surrogates, any request inside one
    supplementary index-2 block, and the high part). *)
Theorem C26_enumeration_agrees_partial : forall V (veq : V -> V -> bool) vf t start limit rs,
  (forall a b, veq a b = true <-> a = b) ->
  nulls_ok t -> 0 <= start < limit -> one_window t start limit -> start_ok t start ->
  0x10000 <= highStart t /\ highStart t mod 2048 = 0 ->
  enumerator veq vf t limit start = Ok rs ->
  partition start rs limit /\ agrees vf t rs.
Proof. exact (fun V veq vf t start limit rs E N A B C D => enumerator_values veq vf E t start limit N A B C D rs). Qed.
Print Assumptions C26_enumeration_agrees_partial.

Lemma small_nulls blk : (forall k, 0 <= blk k < 4) -> (forall k, 0 <= k < 64 -> blk (512 + k) = 2) ->
  let t := small_trie blk in nulls_ok (mkUTrie2 (index t) 2112 512 2176 0x10000 2240 0).
Proof.
  intros H H2. constructor; cbn [index small_trie dataNullOffset index2NullOffset initialValue].
  - intros j Hj. rewrite aget_Ok by (cbn [alen]; lia). cbn [anth].
    repeat (match goal with |- context [if ?a <? ?b then _ else _] => destruct (Z.ltb_spec a b); try lia end). reflexivity.
  - intros k Hk. rewrite aget_Ok by (cbn [alen]; lia). cbn [anth].
    replace (512 + k <? 2112) with true by (symmetry; apply Z.ltb_lt; lia).
    rewrite H2 by auto. eexists; split; reflexivity.
Qed.
(** Past one window it is false: the enumeration of this well-formed trie reports one
    range of zeros for U+0000..U+0FFF, though U+0800 looks up to 1. *)
Definition blk26 (k : Z) : Z := if k <? 64 then 0 else if (512 <=? k) && (k <? 576) then 2 else 1.
Definition t26 : utrie2 := mkUTrie2 (index (small_trie blk26)) 2112 512 2176 0x10000 2240 0.
Theorem C26_enumeration_agrees_refuted : exists t start limit rs,
  nulls_ok t /\ 0 <= start < limit /\ start mod 32 = 0 /\ limit <= 0xD800 /\
  enumerator Z.eqb (fun v => v) t limit start = Ok rs /\ ~ agrees (fun v => v) t rs.
Proof.
  exists t26, 0, 0x1000, [(0, 0x1000, 0)].
  split; [apply (small_nulls blk26)|].
  - intros k. unfold blk26. destruct (k <? 64); [lia|]. destruct ((512 <=? k) && (k <? 576)); lia.
  - intros k Hk. unfold blk26. replace (512 + k <? 64) with false by (symmetry; apply Z.ltb_ge; lia).
    replace (512 <=? 512 + k) with true by (symmetry; apply Z.leb_le; lia).
    replace (512 + k <? 576) with true by (symmetry; apply Z.ltb_lt; lia). reflexivity.
  - split; [lia|]. split; [reflexivity|]. split; [lia|]. split; [vm_compute; reflexivity|].
    intros A. destruct (A 0 0x1000 0 0x800 (or_introl eq_refl)) as (w & G & E); [lia|].
    vm_compute in G. congruence.
Qed.
Print Assumptions C26_enumeration_agrees_refuted.
(** The hypotheses on the start are needed too: an unaligned start in a null block
    gives the first code points of the next block the initial value. *)
Definition blk26b (k : Z) : Z := if k =? 1 then 1 else 2.
Example C26_start_hypothesis_needed :
  enumerator Z.eqb (fun v => v) (small_trie blk26b) 0x28 0x10 = Ok [(0x10, 0x28, 0)] /\ get (small_trie blk26b) 0x20 = Ok 1.
Proof. vm_compute. auto. Qed.
Example C26_case : nulls_ok t26 /\ one_window t26 0x7E0 0x900 /\ start_ok t26 0x7E0 /\
  enumerator Z.eqb (fun v => v) t26 0x900 0x7E0 = Ok [(0x7E0, 0x800, 0); (0x800, 0x900, 1)].
Proof.
  split; [apply (small_nulls blk26)|split; [left; lia|split; [left; reflexivity|vm_compute; reflexivity]]].
  - intros k. unfold blk26. destruct (k <? 64); [lia|]. destruct ((512 <=? k) && (k <? 576)); lia.
  - intros k Hk. unfold blk26. replace (512 + k <? 64) with false by (symmetry; apply Z.ltb_ge; lia).
    replace (512 <=? 512 + k) with true by (symmetry; apply Z.leb_le; lia).
    replace (512 + k <? 576) with true by (symmetry; apply Z.ltb_lt; lia). reflexivity.
Qed.
