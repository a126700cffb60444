(** * Properties C27 - C29: CPTrie. *)
From Coq Require Import ZArith List Bool Lia.
From Verif Require Import Py Arr Bytes UTrie2Lookup UTrie2Build UTrie2Enum CPTrie CPTrieLookup CPTrieBuild CPTrieBinary CPTrieEnum CPTrieNever.
Import ListNotations.
Open Scope Z_scope.

(** ** C27

    [cp_value L] is the function held by the trie with layout [L]. *)
Theorem C27_lookup : forall L, cplayout_ok L ->
  (forall c, 0 <= c <= 0x10FFFF -> cpget (cp_serialize L) c = Ok (cp_value L c)) /\
  (forall c, 0x10FFFF < c -> cpget (cp_serialize L) c = Ok (cp_error L)).
Proof. exact (fun L K => conj (cp_lookup_ok L K) (cp_lookup_error L K)). Qed.
Print Assumptions C27_lookup.
(** For either type, every function that is constant from U+40000 on is held by a
    trie (the 18-bit data offsets of the format leave no room for every function). *)
Theorem C27_functions_have_tries : forall fast f e, (forall c, 0x40000 <= c <= 0x10FFFF -> f c = f 0x10FFFF) ->
  exists L, cplayout_ok L /\ q_fast L = fast /\ cp_error L = e /\ forall c, 0 <= c <= 0x10FFFF -> cp_value L c = f c.
Proof. exact functions_held. Qed.
Print Assumptions C27_functions_have_tries.
Theorem C27_high_value : forall L c, cplayout_ok L -> q_limit L <= c <= 0x10FFFF -> q_highStart L <= c -> 0 <= c ->
  cpget (cp_serialize L) c = Ok (znth (q_data L) (zlen (q_data L) - 2)).
Proof.
  intros L c K H1 H2 H3. rewrite (cp_lookup_ok L K) by lia. unfold cp_value.
  replace (c <? q_limit L) with false by (symmetry; apply Z.ltb_ge; lia).
  replace (c <? q_highStart L) with false by (symmetry; apply Z.ltb_ge; lia). reflexivity.
Qed.
Print Assumptions C27_high_value.

(** A SMALL trie with shared blocks, one narrow and one wide index-3 block. *)
Definition tiny3 : cplayout := {|
  q_fast := false; q_bmp := ztab 64 (fun k => if k <? 2 then 64 * k else 100);
  q_i1 := [0]; q_i2 := [ztab 32 (fun k => k mod 2)];
  q_i3 := [(false, ztab 32 (fun j => 3 * j)); (true, ztab 32 (fun j => 150 - j))];
  q_data := ztab 200 (fun i => 1000 + i); q_highStart := 0x4000; q_null3 := 0x7fff; q_nullData := 0; q_width := 1 |}.
Example C27_tiny_ok : cplayout_ok tiny3.
Proof.
  constructor; cbn [tiny3 q_fast q_bmp q_i1 q_i2 q_i3 q_data q_highStart]; try reflexivity; try (vm_compute; intuition discriminate).
  - apply Forall_ztab. intros i Hi. rewrite zlen_ztab by lia. destruct (Z.ltb_spec i 2); lia.
  - repeat constructor; discriminate.
  - constructor; [apply zlen_ztab; lia|constructor].
  - constructor; [|constructor]. apply Forall_ztab. intros i Hi. change (zlen _) with 2. apply Z.mod_pos_bound. lia.
  - constructor; [apply zlen_ztab; lia|constructor; [apply zlen_ztab; lia|constructor]].
  - constructor; [|constructor; [|constructor]]; cbn [snd]; apply Forall_ztab; intros i Hi; rewrite zlen_ztab by lia;
      change (2 ^ 18) with 262144; lia.
Qed.
Example C27_case : map (cpget (cp_serialize tiny3)) [0x41; 0x81; 0x1000; 0x1011; 0x1200; 0x1211; 0x3FFF; 0x4000; 0x10FFFF; 0x110000] =
  map Ok [1065; 1101; 1000; 1004; 1150; 1150; 1134; 1198; 1198; 1199].
Proof. vm_compute. reflexivity. Qed.

(** ** C28

    The full statement: for every well-formed trie and start < limit the enumeration
    ends and yields a partition of [start, limit) that agrees with lookup.  Proved
    below U+1000 up to highStart, for tries in which a data block used twice in a row
    holds one value.  The missing cases are refuted below. *)
Theorem C28_enumeration_partial : forall t start limit fuel, low_ok t ->
  0 <= start < limit -> limit <= 0x1000 -> limit <= cp_highStart t -> (2 <= fuel)%nat ->
  exists rs, cpenum t fuel start limit = Ok rs /\ partition start rs limit /\ cp_agrees t rs.
Proof.
  exact (fun t start limit fuel K S L H F =>
    match low_null t K with
    | ex_intro _ v Hv => cpenum_low t K start limit v S L
        (eq_ind (cp_dataNullOffset t + 0) (fun i => aget (cp_data t) i = Ok v) (Hv 0 ltac:(lia)) _ (Z.add_0_r _)) fuel F H
    end).
Qed.
Print Assumptions C28_enumeration_partial.

(** a SMALL trie without index-3 blocks: [blk k] is the data block of 64 code points *)
Definition low_layout (fast : bool) (blk : Z -> Z) (f : Z -> Z) (n high : Z) : cplayout := {|
  q_fast := fast; q_bmp := ztab (if fast then 1024 else 64) (fun k => if k <? 2 then 64 * k else 64 * blk k);
  q_i1 := []; q_i2 := []; q_i3 := [];
  q_data := ztab (64 * n + 2) f; q_highStart := high; q_null3 := 0x7fff; q_nullData := 0; q_width := 1 |}.
Lemma low_layout_ok (fast : bool) blk f n high : 2 <= n -> (forall k, 0 <= blk k < n) -> high <= (if fast then 0x10000 else 0x1000) ->
  cplayout_ok (low_layout fast blk f n high).
Proof.
  intros Hn Hb Hh. constructor; cbn [low_layout q_fast q_bmp q_i1 q_i2 q_i3 q_data q_highStart]; rewrite ?(zlen_ztab (64 * n + 2)) by lia; auto.
  - destruct fast; apply zlen_ztab; lia.
  - apply Forall_ztab. intros k Hk. specialize (Hb k). destruct (Z.ltb_spec k 2); lia.
  - destruct fast; rewrite !znth_ztab by lia; auto.
  - unfold q_limit. cbn [low_layout q_fast]. destruct fast; lia.
  - unfold cp_serialize_index. cbn [low_layout q_bmp q_i1 q_i2 q_i3 map concat]. rewrite app_nil_r. cbn [app].
    destruct fast; rewrite zlen_ztab; lia.
  - lia.
  - destruct fast; lia.
Qed.

(** a well-formed trie whose null data block (block 0) holds one value *)
Definition wf3 (L : cplayout) : Prop := cplayout_ok L /\
  forall j, 0 <= j < 64 -> znth (q_data L) (q_nullData L + j) = znth (q_data L) (q_nullData L).

(** U+0080 and U+00C0 share a block that holds 1, then 2: only the first is reported. *)
Definition f28 (i : Z) : Z := if i <? 128 then 0 else if i =? 128 then 1 else if i <? 192 then 2 else 9.
Definition L28 : cplayout := low_layout true (fun _ => 2) f28 3 0x1000.
Lemma wf_L28 : wf3 L28.
Proof.
  split; [apply low_layout_ok; lia|]. intros j Hj. unfold L28, low_layout. cbn [q_data q_nullData].
  rewrite !znth_ztab by lia. unfold f28. destruct (Z.ltb_spec (0 + j) 128); [reflexivity|lia].
Qed.
Theorem C28_enumeration_agrees_refuted : exists L start limit rs, wf3 L /\ 0 <= start < limit /\ limit <= q_highStart L /\
  cpenum (cp_serialize L) 2 start limit = Ok rs /\ ~ cp_agrees (cp_serialize L) rs.
Proof.
  exists L28, 0, 0x100, [(0, 128, 0); (128, 129, 1); (129, 256, 2)].
  split; [apply wf_L28|]. split; [lia|]. split; [cbn; lia|]. split; [vm_compute; reflexivity|].
  intros A. specialize (A 129 256 2 192). cbn in A. specialize (A ltac:(auto) ltac:(lia)). revert A. vm_compute. discriminate.
Qed.
Print Assumptions C28_enumeration_agrees_refuted.

(** Every FAST trie with data above U+1000: a request that crosses U+1000 is never
    answered, whatever the fuel.  The default request (0, 0x110000) is one of them. *)
Theorem C28_fast_never_ends_refuted : forall t fuel start limit rs, cp_type t = TYPE_FAST -> 0x1000 < cp_highStart t ->
  start <= 0x1000 < limit -> cpenum t fuel start limit <> Ok rs.
Proof. exact cpenum_fast_never. Qed.
Print Assumptions C28_fast_never_ends_refuted.
(** A request that starts in the second half of a non-null index-3 block is never answered. *)
Theorem C28_half_block_never_ends_refuted : forall t fuel start limit rs i3, start < limit -> start < cp_highStart t ->
  0x10000 <= start < 0x110000 \/ (cp_type t <> TYPE_FAST /\ 0x1000 <= start < 0x110000 /\ 0x1000 < cp_highStart t) ->
  256 <= start mod 512 -> i3BlockOf t start = Ok i3 -> i3 <> cp_index3NullOffset t ->
  cpenum t fuel start limit <> Ok rs.
Proof. exact cpenum_half_never. Qed.
Print Assumptions C28_half_block_never_ends_refuted.
(** These are not exceptions: on a well-formed trie the loop runs for ever. *)
Lemma run_same {S R} (f : S -> S + R) n : forall s, f s = inl s -> run_nat f n s = inl s.
Proof. induction n; intros s H; [reflexivity|]. cbn. rewrite H. auto. Qed.
Theorem C28_infinite_loop_refuted : exists L, wf3 L /\ forall fuel, cpenum (cp_serialize L) fuel 0x1000 0x2000 = Err OutOfFuel.
Proof.
  exists (low_layout true (fun _ => 2) f28 3 0x10000). split.
  - split; [apply low_layout_ok; lia|]. apply wf_L28.
  - intros fuel. unfold cpenum. cbn [orb]. change ((0x1000 >=? 0x110000) || _) with false. cbv iota.
    replace (aget _ _) with (Ok (A := Z) 0) by (vm_compute; reflexivity). cbn [bind].
    rewrite run_same; [reflexivity|]. reflexivity.
Qed.
Print Assumptions C28_infinite_loop_refuted.
Example C28_half_case : i3BlockOf (cp_serialize tiny3) 0x1100 = Ok 97 /\ 97 <> cp_index3NullOffset (cp_serialize tiny3) /\ 256 <= 0x1100 mod 512.
Proof. vm_compute. intuition discriminate. Qed.

(** In general no request gets past the middle of an index-3 block that is not the null block: the loop over
    its entries stops after 16 of 32.  So the default request is answered for no trie that has one below highStart. *)
Theorem C28_middle_never_ends_refuted : forall t fuel start limit rs m i3,
  0x10000 <= start \/ cp_type t <> TYPE_FAST -> (forall i v, aget (cp_index t) i = Ok v -> 0 <= v) ->
  0x10000 <= m \/ (cp_type t <> TYPE_FAST /\ 0x1000 <= m) -> 256 <= m mod 512 ->
  0 <= start <= m -> m < limit -> m < cp_highStart t -> m < 0x110000 ->
  i3BlockOf t m = Ok i3 -> i3 <> cp_index3NullOffset t -> cpenum t fuel start limit <> Ok rs.
Proof. exact cpenum_never. Qed.
Print Assumptions C28_middle_never_ends_refuted.
Example C28_middle_case : forall fuel rs, cpenum (cp_serialize tiny3) fuel 0 0x110000 <> Ok rs.
Proof.
  intros fuel rs. apply (C28_middle_never_ends_refuted _ fuel 0 0x110000 rs 0x1100 97); try lia; try (vm_compute; congruence); try (right; vm_compute; split; congruence); try (right; vm_compute; congruence).
  intros i v E. cbn [cp_serialize cp_index] in E. rewrite aget_list in E.
  assert (F : Forall (fun x => 0 <= x) (cp_serialize_index tiny3)).
  { assert (B : forallb (fun x => 0 <=? x) (cp_serialize_index tiny3) = true) by (vm_compute; reflexivity).
    apply Forall_forall. intros x I. rewrite forallb_forall in B. apply Z.leb_le. auto. }
  rewrite Forall_forall in F. apply F. clear - E. unfold py_get in E. cbv zeta in E. destruct (_ <? 0); [discriminate|].
  match type of E with match nth_error ?l ?n with _ => _ end = _ => destruct (nth_error l n) as [x|] eqn:N; [|discriminate] end.
  apply nth_error_In in N. congruence.
Qed.
(** A FAST trie is never enumerated from U+1000 to U+FFFF, wherever the request starts. *)
Theorem C28_fast_anywhere_refuted : forall t fuel start limit rs, cp_type t = TYPE_FAST -> start <= 0xFFFF -> start < limit -> 0x1000 < limit ->
  start < cp_highStart t -> 0x1000 < cp_highStart t -> cpenum t fuel start limit <> Ok rs.
Proof. exact cpenum_fast_never_any. Qed.
Print Assumptions C28_fast_anywhere_refuted.
(** No answer has anything past highStart in it. *)
Theorem C28_high_missing_refuted : forall t fuel start limit rs, cp_highStart t mod 512 = 0 -> 0x1000 <= cp_highStart t -> start < limit -> cp_highStart t < limit ->
  cpenum t fuel start limit = Ok rs -> (forall a b v, In (a, b, v) rs -> b <= cp_highStart t) /\ ~ partition start rs limit.
Proof.
  intros t fuel start limit rs M H SL L E. assert (B : ends_by (cp_highStart t) rs) by (apply (cpenum_ends t fuel start limit rs M H SL L E)).
  unfold ends_by in B. rewrite Forall_forall in B. split; [intros a b v I; apply (B _ I)|].
  intros [T _]. clear E M H. revert start SL T. induction rs as [|[[a b] v] rs IH]; intros start SL T; cbn [tiles] in T; [lia|].
  destruct T as (-> & AB & T). destruct rs as [|r rs].
  - cbn [tiles] in T. specialize (B (start, b, v) (or_introl eq_refl)). cbn in B. lia.
  - apply (IH (fun x I => B x (or_intror I)) b); [|exact T]. specialize (B (start, b, v) (or_introl eq_refl)). cbn in B. lia.
Qed.
Print Assumptions C28_high_missing_refuted.

(** Past highStart the last range is yielded twice, and the rest is missing. *)
Theorem C28_enumeration_partition_refuted : exists L start limit rs, wf3 L /\ 0 <= start < limit /\
  cpenum (cp_serialize L) 9 start limit = Ok rs /\ ~ partition start rs limit.
Proof.
  exists L28, 0, 0x2000, [(0, 128, 0); (128, 129, 1); (129, 0x1000, 2); (129, 0x1000, 2)].
  split; [apply wf_L28|]. split; [lia|]. split; [vm_compute; reflexivity|].
  intros [T _]. cbn in T. lia.
Qed.
Print Assumptions C28_enumeration_partition_refuted.

(** A trie that meets the hypotheses of [C28_enumeration_partial]: null blocks and
    two other blocks in alternation. *)
Definition blk28 (k : Z) : Z := if k <? 10 then 0 else 2 + k mod 2.
Definition t28 : cptrie := cp_serialize (low_layout false blk28 (fun i => if i <? 128 then 0 else i / 50) 4 0x1000).
Example C28_low_ok : low_ok t28.
Proof.
  assert (I : forall k, 0 <= k < 64 -> aget (cp_index t28) k = Ok (if k <? 2 then 64 * k else 64 * blk28 k)).
  { intros k Hk. unfold t28. rewrite get_S.
    - rewrite S_bmp by (cbn [low_layout q_bmp]; rewrite zlen_ztab by lia; exact Hk). cbn [low_layout q_bmp]. rewrite znth_ztab by lia. reflexivity.
    - unfold cp_serialize_index. cbn [low_layout q_bmp q_i1 q_i2 q_i3 map concat]. rewrite app_nil_r. cbn [app]. rewrite zlen_ztab; lia. }
  assert (D : forall i, 0 <= i < 258 -> aget (cp_data t28) i = Ok (if i <? 128 then 0 else i / 50)).
  { intros i Hi. unfold t28. rewrite get_D; cbn [low_layout q_data]; [rewrite znth_ztab by lia; reflexivity|rewrite zlen_ztab; lia]. }
  assert (B : forall k, 0 <= blk28 k < 4) by (intros k; unfold blk28; pose proof (Z.mod_pos_bound k 2 ltac:(lia)); destruct (k <? 10); lia).
  constructor.
  - intros k Hk. rewrite I by exact Hk. eexists. split; [reflexivity|]. intros j Hj. specialize (B k). eexists. apply D.
    destruct (Z.ltb_spec k 2); lia.
  - rewrite !I by lia. auto.
  - exists 0. intros j Hj. change (cp_dataNullOffset t28) with 0. rewrite D by lia. destruct (Z.ltb_spec (0 + j) 128); [reflexivity|lia].
  - intros k y Hk E1 E2 j Hj. rewrite I in E1, E2 by lia. assert (Ey : (if k <? 2 then 64 * k else 64 * blk28 k) = y) by congruence.
    assert (E2' : (if k + 1 <? 2 then 64 * (k + 1) else 64 * blk28 (k + 1)) = (if k <? 2 then 64 * k else 64 * blk28 k)) by congruence.
    clear E1 E2. rename E2' into E2. rewrite <- Ey. clear Ey y.
    assert (Q : 0 <= (if k <? 2 then 64 * k else 64 * blk28 k) <= 64).
    { unfold blk28 in *. destruct (Z.ltb_spec k 2); [lia|]. destruct (Z.ltb_spec (k + 1) 2); [lia|].
      destruct (Z.ltb_spec k 10); [lia|]. destruct (Z.ltb_spec (k + 1) 10); [lia|].
      exfalso. pose proof (Z.mod_add 0). rewrite (Z.add_mod k 1 2) in E2 by lia. change (1 mod 2) with 1 in E2.
      pose proof (Z.mod_pos_bound k 2 ltac:(lia)). assert (R : k mod 2 = 0 \/ k mod 2 = 1) by lia.
      destruct R as [R|R]; rewrite R in E2; vm_compute in E2; discriminate. }
    clear E2. set (y := if k <? 2 then 64 * k else 64 * blk28 k) in *. clearbody y. rewrite (D (y + j)), (D y) by lia.
    destruct (Z.ltb_spec (y + j) 128); [|lia]. destruct (Z.ltb_spec y 128); [reflexivity|lia].
Qed.
Example C28_case : cpenum t28 2 0x70 0x300 =
  Ok [(0x70, 0x280, 0); (0x280, 0x296, 2); (0x296, 0x2C8, 3); (0x2C8, 0x2FA, 4); (0x2FA, 0x300, 5)].
Proof. vm_compute. reflexivity. Qed.

(** ** C29

    [cp_encode T] is the file with the contents [T]; any bytes may follow it. *)
Theorem C29_round_trip : forall T tail, cpfile_ok T -> createFromData (cp_encode T ++ tail) = Ok (cp_decoded T).
Proof. exact cp_round_trip. Qed.
Print Assumptions C29_round_trip.
(** From file to answers: parsing the file of a layout and looking up a code point
    gives the value stored for it. *)
Theorem C29_file_lookup : forall L tail, cplayout_ok L -> q_highStart L mod 512 = 0 -> cpfile_ok (layout_file L) ->
  exists t, createFromData (cp_encode (layout_file L) ++ tail) = Ok t /\
    forall c, 0 <= c <= 0x10FFFF -> cpget t c = Ok (cp_value L c).
Proof. exact cp_file_lookup. Qed.
Print Assumptions C29_file_lookup.
(** A file cut short anywhere is rejected with struct.error. *)
Theorem C29_truncated : forall T p s, cpfile_ok T -> cp_encode T = p ++ s -> s <> [] -> createFromData p = Err StructError.
Proof. exact cp_truncated. Qed.
Print Assumptions C29_truncated.

Example C29_tiny_ok : cpfile_ok (layout_file tiny3).
Proof.
  constructor; [try (split; vm_compute; first [discriminate|reflexivity])..| |].
  - apply Forall_forall. intros x Hx.
    assert (G : forallb (fun x => (0 <=? x) && (x <? 65536)) (b_index (layout_file tiny3)) = true) by (vm_compute; reflexivity).
    rewrite forallb_forall in G. specialize (G x Hx). apply andb_true_iff in G. rewrite Z.leb_le, Z.ltb_lt in G. exact G.
  - cbn [layout_file b_data tiny3 q_data]. apply Forall_ztab. intros i Hi. change (256 ^ _) with 4294967296. lia.
Qed.
Example C29_case : exists t, createFromData
    ([0x33;0x69;0x72;0x54; 0x42;0x00; 2;0; 3;0; 0xFF;0x7F; 0;0; 0x80;0x08] ++ [1;0;2;1] ++ [7;8;9] ++ [99]) = Ok t /\
  (cp_type t, cp_width t, cp_highStart t, cp_index3NullOffset t) = (1, 2, 0x110000, 0x7FFF) /\
  map (aget (cp_index t)) [0; 1] = [Ok 1; Ok 258] /\ map (aget (cp_data t)) [0; 1; 2; 3] = [Ok 7; Ok 8; Ok 9; Err IndexError].
Proof. eexists. split; [reflexivity|]. vm_compute. auto. Qed.
