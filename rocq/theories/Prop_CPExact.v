(** * Property C28, completed: exactly which requests CPTrie.enumerator answers, and what the answers are. *)
From Coq Require Import ZArith List Bool Lia ZifyBool.
From Verif Require Import Py Arr Bytes UnicodeSet UtilitiesFacts UTrie2Lookup UTrie2Build UTrie2Enum CPTrie CPTrieLookup CPTrieBuild CPTrieEnum CPTrieNever CPTrieExact.
Import ListNotations.
Open Scope Z_scope.
Ltac Zify.zify_post_hook ::= Z.to_euclidean_division_equations.

(** ** For every trie that can be read *)
Lemma tiles_at {V} (rs : list (Z * Z * V)) : forall lo hi x, tiles lo rs hi -> lo <= x < hi -> exists a b v, In (a, b, v) rs /\ a <= x < b.
Proof.
  induction rs as [|[[a b] v] rs IH]; cbn [tiles]; intros lo hi x T H; [lia|]. destruct T as (-> & AB & T).
  destruct (Z_lt_le_dec x b) as [Q|Q]; [exists lo, b, v; split; [left; reflexivity|lia]|].
  destruct (IH b hi x T ltac:(lia)) as (a' & b' & v' & I & R). exists a', b', v'. split; [right; exact I|exact R].
Qed.
Lemma answered_reach t start limit : regular t -> 0 <= start < limit -> start < cp_highStart t ->
  ((exists fuel rs, cpenum t fuel start limit = Ok rs) <-> reach t start limit).
Proof.
  intros K SL SH. destruct (rg_high t K) as [H5 HH]. split.
  - intros (fuel & rs & E).
    assert (R1 : cp_type t = TYPE_FAST -> start <= 0xFFFF -> stop t limit <= 0x1000).
    { intros T S. destruct (Z_le_gt_dec (stop t limit) 0x1000) as [Q|Q]; [exact Q|]. exfalso. unfold stop in Q.
      apply (cpenum_fast_never_any t fuel start limit rs T S ltac:(lia) ltac:(lia) SH ltac:(lia) E). }
    split; [exact R1|]. intros m Hm [M1 M2] MM. unfold stop in *.
    destruct (rg_multi t K m (conj M1 M2) ltac:(lia)) as (i3 & y & E1 & _). destruct (Z.eq_dec i3 (cp_index3NullOffset t)) as [Q|Q]; [rewrite <- Q; exact E1|]. exfalso.
    assert (TY : 0x10000 <= start \/ cp_type t <> TYPE_FAST).
    { destruct (Z.eq_dec (cp_type t) TYPE_FAST) as [T|T]; [left; specialize (R1 T); lia|right; exact T]. }
    apply (cpenum_never t fuel start limit rs m i3 TY (rg_index t K)); try lia; try exact E1; try exact Q; try exact E.
    destruct (Z.eq_dec (cp_type t) TYPE_FAST) as [T|T]; [left; apply M1; exact T|right; split; [exact T|exact M2]].
  - intros R. destruct (rg_null t K) as [null V]. assert (NV := V 0 ltac:(lia)). rewrite Z.add_0_r in NV.
    destruct (cpenum_reach t K null NV start limit SL SH R) as (fuel & rs & E & _). exists fuel, rs. exact E.
Qed.
Lemma answer_is t start limit fuel rs : regular t -> 0 <= start < limit -> start < cp_highStart t -> cpenum t fuel start limit = Ok rs ->
  exists rs1 a v h, partition start (rs1 ++ [(a, stop t limit, v)]) (stop t limit) /\ aget (cp_data t) (cp_dataLength t - 2) = Ok h /\
    rs = (rs1 ++ [(a, stop t limit, v)]) ++ (if (stop t limit <? limit) && negb (h =? v) then [(a, stop t limit, v)] else []) /\
    (cp_agrees t rs <->
     forall b x, b0 b = b -> start <= b - lenOf b -> b <= x < b + lenOf b -> x < stop t limit -> dblk t b = dblk t (b - 1) -> cpget t x = cpget t (b - 1)).
Proof.
  intros K SL SH E. assert (R : reach t start limit) by (apply (answered_reach t start limit K SL SH); eauto).
  destruct (rg_null t K) as [null V]. assert (NV := V 0 ltac:(lia)). rewrite Z.add_0_r in NV.
  destruct (cpenum_reach t K null NV start limit SL SH R) as (fuel' & rs' & E' & RS). assert (rs' = rs) as -> by (eapply cpenum_same; eauto).
  destruct RS as (rs1 & a & v & h & P & Hh & Q & Sh). exists rs1, a, v, h. split; [exact P|]. split; [exact Hh|]. split; [exact Q|].
  assert (W := whole_all t start limit SL SH R).
  assert (IN : forall r, In r rs -> In r (rs1 ++ [(a, stop t limit, v)])).
  { intros r I. rewrite Q in I. apply in_app_or in I as [I|I]; [exact I|]. destruct (_ && _); [|destruct I]. apply in_or_app. right. exact I. }
  assert (RG : forall a b w x, In (a, b, w) rs -> a <= x < b -> start <= x < stop t limit).
  { intros a' b' w x I Hx. apply IN in I. destruct P as [T _]. clear - T I Hx. revert T I. generalize (rs1 ++ [(a, stop t limit, v)]) as l. generalize (stop t limit) as hi. intros hi l.
    assert (M : forall lo, tiles lo l hi -> In (a', b', w) l -> lo <= a' /\ b' <= hi); [|intros T I; destruct (M start T I); lia].
    assert (LE : forall (l : list (Z * Z * Z)) lo, tiles lo l hi -> lo <= hi).
    { clear. induction l as [|[[a b] v] l IH]; cbn [tiles]; intros lo T; [lia|]. destruct T as (-> & AB & T). specialize (IH b T). lia. }
    induction l as [|[[a2 b2] v2] l IH]; cbn [tiles In]; intros lo T I; [destruct I|]. destruct T as (-> & AB & T). destruct I as [I|I].
    - injection I as -> -> ->. specialize (LE l _ T). lia.
    - specialize (IH _ T I). lia. }
  split.
  - intros A. 
    assert (G : forall x w, start <= x < stop t limit -> shown t start x w -> cpget t x = Ok w).
    { intros x w Hx Sx. destruct P as [T _]. destruct (tiles_at _ _ _ x T Hx) as (a' & b' & w' & I & Hr).
      assert (I' : In (a', b', w') rs) by (rewrite Q; apply in_or_app; left; exact I).
      assert (w' = w) as -> by (eapply shown_fun; [apply (Sh a' b' w' x I' Hr)|exact Sx]). apply (A a' b' w x I' Hr). }
    intros b x Bb S Hx Hs D. assert (0 < lenOf b) by (clear; unfold lenOf; destruct (b <? 0x1000); reflexivity).
    assert (Bx : b0 x = b) by (unfold b0, lenOf in *; destruct (b <? 0x1000) eqn:B; destruct (x <? 0x1000) eqn:X; lia).
    assert (SK : skip t start (b0 x) = true).
    { rewrite Bx. unfold skip. rewrite <- D. replace (start <=? b - lenOf b) with true by lia. cbn [andb].
      destruct (dblk_ok t K b (proj1 (W b ltac:(lia)))) as (y & w & Y & _). rewrite Y. apply Z.eqb_refl. }
    destruct (shown_some t K start limit SL (b - 1) ltac:(lia) (W (b - 1) ltac:(lia))) as [w Sw].
    rewrite (G (b - 1) w ltac:(lia) Sw). apply G; [lia|]. apply shown_left; [exact SK|]. rewrite Bx. exact Sw.
  - intros A a' b' w x I Hx. assert (Rx := RG a' b' w x I Hx).
    assert (Bd : stop t limit <= limit) by (unfold stop; lia).
    apply (shown_get t start (stop t limit) ltac:(lia)) with (v := w); [|apply (Sh a' b' w x I Hx)|lia|apply W; lia|lia].
    intros b z u Sk Bz Sz Wz Hz U. unfold skip in Sk. apply andb_true_iff in Sk as [S1 S2].
    destruct (lenOf_b0 z ltac:(lia)) as (L1 & L2 & L3 & L4). rewrite Bz in *.
    rewrite (A b z); [exact U|exact L3|lia|lia|exact Hz|].
    destruct (dblk t b) as [y|]; [|discriminate]. destruct (dblk t (b - 1)) as [y'|]; [|discriminate]. f_equal. lia.
Qed.

(** ** For every layout of a trie

    The null data block holds one value, and an index-3 block that stands where the header says the null
    block is has the null data block in all its entries. *)
Record null_ok (L : cplayout) : Prop := {
  nk_ok : cplayout_ok L;
  nk_high : q_highStart L mod 512 = 0;
  nk_data : 0 <= q_nullData L /\ q_nullData L + 64 <= zlen (q_data L);
  nk_const : forall j, 0 <= j < 64 -> znth (q_data L) (q_nullData L + j) = znth (q_data L) (q_nullData L);
  nk_ref : 0 <= q_null3 L;
  nk_null3 : forall k j, 0 <= k < zlen (q_i3 L) -> i3_ref L k = q_null3 L -> 0 <= j < 32 -> znth (snd (i3_at L k)) j = q_nullData L }.

(** the number of the index-3 block of a code point, and the place of its data block *)
Definition i3_num (L : cplayout) (c : Z) : Z := znth (znthl (q_i2 L) (znth (q_i1 L) ((c - q_first L) / 16384))) (c / 512 mod 32).
Definition block_at (L : cplayout) (c : Z) : Z := if c <? 0x1000 then znth (q_bmp L) (c / 64) else znth (snd (i3_at L (i3_num L c))) (c / 16 mod 32).
(** the length of the data blocks there, and where they begin *)
Definition block_len (c : Z) : Z := if c <? 0x1000 then 64 else 16.
(** where the answer to a request ends *)
Definition q_stop (L : cplayout) (limit : Z) : Z := Z.min limit (Z.max (q_highStart L) 0x1000).
(** what a request has to keep clear of: U+1000..U+FFFF of a FAST trie, and the second half of every index-3 block but the null block *)
Definition clear (L : cplayout) (start limit : Z) : Prop :=
  (q_fast L = true -> start <= 0xFFFF -> q_stop L limit <= 0x1000) /\
  forall m, start <= m < q_stop L limit -> q_limit L <= m -> 256 <= m mod 512 -> i3_ref L (i3_num L m) = q_null3 L.

Lemma top_bits_nonneg l : Forall (fun o => 0 <= o) l -> forall n, 0 <= top_bits n l.
Proof.
  intros F. induction F as [|o l O F IH]; intros n; cbn [top_bits]; [lia|]. specialize (IH (pred n)).
  assert (0 <= o / 65536) by (apply Z.div_pos; lia). assert (0 <= 4 ^ Z.of_nat n) by (apply Z.pow_nonneg; lia).
  assert (0 <= o / 65536 * 4 ^ Z.of_nat n) by (apply Z.mul_nonneg_nonneg; assumption). lia.
Qed.
Lemma index_nonneg L : cplayout_ok L -> Forall (fun x => 0 <= x) (cp_serialize_index L).
Proof.
  intros K. unfold cp_serialize_index. apply Forall_app. split; [|apply Forall_app; split; [|apply Forall_app; split]].
  - eapply Forall_impl; [|apply (qok_bmp_off L K)]. cbn. intros; lia.
  - apply Forall_forall. intros x I. apply in_map_iff in I as (k & <- & I). unfold i2_pos. pose proof (qok_i1_id L K) as G. rewrite Forall_forall in G. specialize (G k I).
    pose proof (zlen_nonneg (q_bmp L)). pose proof (zlen_nonneg (q_i1 L)). lia.
  - apply Forall_forall. intros x I. apply in_concat in I as (b & Ib & I). apply in_map_iff in Ib as (l & <- & Il). apply in_map_iff in I as (k & <- & I).
    pose proof (qok_i2_id L K) as G. rewrite Forall_forall in G. specialize (G l Il). rewrite Forall_forall in G. specialize (G k I).
    unfold i3_ref. destruct (i3_start L K k G) as [Q _]. destruct (fst _); lia.
  - apply Forall_forall. intros x I. apply in_concat in I as (b & Ib & I). apply in_map_iff in Ib as ([w l] & <- & Il).
    pose proof (qok_i3_off L K) as G. rewrite Forall_forall in G. specialize (G _ Il). cbn [snd] in G.
    assert (N : Forall (fun o => 0 <= o) l) by (eapply Forall_impl; [|exact G]; cbn; intros; lia).
    unfold enc3 in I. cbn [fst snd] in I. destruct w.
    + apply in_concat in I as (b & Ib & I). apply in_map_iff in Ib as (g & <- & Ig). unfold group18 in I. destruct I as [<-|I].
      * apply top_bits_nonneg. apply Forall_forall. intros o Io. rewrite Forall_forall in N. apply N. unfold eighth in Io. apply (in_firstn_skipn l o 8 (8 * g)). exact Io.
      * apply in_map_iff in I as (o & <- & _). apply Z.mod_pos_bound. lia.
    + rewrite Forall_forall in N. auto.
Qed.
Lemma layout_regular L : null_ok L -> regular (cp_serialize L).
Proof.
  intros [K NH ND NC NR N3]. constructor.
  - split; [exact NH|apply (qok_high L K)].
  - intros i v E. cbn [cp_serialize cp_index] in E. rewrite aget_list in E. pose proof (index_nonneg L K) as F. rewrite Forall_forall in F. apply F.
    unfold py_get in E. cbv zeta in E. destruct (_ <? 0); [discriminate|].
    match type of E with match nth_error ?l ?n with _ => _ end = _ => destruct (nth_error l n) as [x|] eqn:N; [|discriminate] end.
    apply nth_error_In in N. congruence.
  - exact NR.
  - intros k Hk. assert (B : 0 <= k < zlen (q_bmp L)) by (rewrite (qok_bmp L K); destruct (q_fast L); lia). pose proof (F_S L K) as FS.
    exists (znth (q_bmp L) k). split; [rewrite get_S, S_bmp by lia; reflexivity|]. intros j Hj. pose proof (bmp_off L K k B). eexists. apply get_D; lia.
  - pose proof (F_S L K) as FS. assert (B : 64 <= zlen (q_bmp L)) by (rewrite (qok_bmp L K); destruct (q_fast L); lia). destruct (qok_ascii L K) as [A0 A1].
    rewrite !get_S, !S_bmp, A0, A1 by lia. auto.
  - intros x [M1 M2] H. change (cp_highStart (cp_serialize L)) with (q_highStart L) in H.
    assert (LX : q_limit L <= x) by (unfold q_limit; unfold cp_serialize in M1; cbn [cp_type] in M1; destruct (q_fast L); [apply M1; reflexivity|exact M2]).
    destruct (i3Block_ok L K x ltac:(lia)) as [Hid E]. fold (i3_num L x) in Hid, E. set (id := i3_num L x) in *. exists (i3_ref L id), (znth (snd (i3_at L id)) (x / 16 mod 32)).
    assert (J : 0 <= x / 16 mod 32 < 32) by (apply Z.mod_pos_bound; lia).
    split; [exact E|]. split; [apply (index3_ok L K); [exact Hid|exact J]|]. split.
    + pose proof (qok_i3_off L K) as G. rewrite Forall_forall in G. specialize (G _ (i3_in L id Hid)). rewrite Forall_forall in G.
      pose proof (qok_i3 L K) as G1. rewrite Forall_forall in G1. specialize (G1 _ (i3_in L id Hid)).
      assert (In (znth (snd (i3_at L id)) (x / 16 mod 32)) (snd (i3_at L id))) as I by (unfold znth; apply nth_In; unfold zlen in G1; lia).
      specialize (G _ I). cbn in G. assert (0 <= x mod 16 < 16) by (apply Z.mod_pos_bound; lia). eexists. apply get_D; lia.
    + intros Q. change (cp_index3NullOffset (cp_serialize L)) with (q_null3 L) in Q. apply N3; assumption.
  - exists (znth (q_data L) (q_nullData L)). intros j Hj. change (cp_dataNullOffset (cp_serialize L)) with (q_nullData L). rewrite get_D by lia. rewrite NC by exact Hj. reflexivity.
  - pose proof (qok_data L K). change (cp_dataLength (cp_serialize L)) with (zlen (q_data L)). eexists. apply get_D. lia.
Qed.

Lemma multi_limit L m : multi (cp_serialize L) m <-> q_limit L <= m.
Proof.
  unfold multi, q_limit, cp_serialize. cbn [cp_type]. destruct (q_fast L).
  - split; [intros [H _]; apply H; reflexivity|intros H; split; [intros _; exact H|lia]].
  - split; [intros [_ H]; exact H|intros H; split; [discriminate|exact H]].
Qed.
Lemma reach_clear L start limit : null_ok L -> 0 <= start -> reach (cp_serialize L) start limit <-> clear L start limit.
Proof.
  intros N S0. pose proof (nk_ok L N) as K. unfold reach, clear. change (stop (cp_serialize L) limit) with (q_stop L limit). change (cp_index3NullOffset (cp_serialize L)) with (q_null3 L).
  assert (T : cp_type (cp_serialize L) = TYPE_FAST <-> q_fast L = true) by (unfold cp_serialize; cbn [cp_type]; destruct (q_fast L); split; auto; discriminate).
  assert (LL : 0x1000 <= q_limit L) by (unfold q_limit; destruct (q_fast L); lia).
  assert (E : forall m, start <= m < q_stop L limit -> q_limit L <= m -> i3BlockOf (cp_serialize L) m = Ok (i3_ref L (i3_num L m))).
  { intros m H Q. unfold q_stop in H. destruct (i3Block_ok L K m ltac:(lia)) as [_ E]. exact E. }
  split; intros [A B]; (split; [intros H; apply A; apply T; exact H|]); intros m H M MM.
  - specialize (B m H (proj2 (multi_limit L m) M) MM). rewrite (E m H M) in B. congruence.
  - apply multi_limit in M. rewrite (E m H M), (B m H M MM). reflexivity.
Qed.
Lemma dblk_at L c : null_ok L -> 0 <= c < 0x1000 \/ q_limit L <= c < q_highStart L -> dblk (cp_serialize L) c = Ok (block_at L c).
Proof.
  intros N H. pose proof (nk_ok L N) as K. unfold dblk, block_at. assert (LL : 0x1000 <= q_limit L) by (unfold q_limit; destruct (q_fast L); lia). destruct (c <? 0x1000) eqn:C.
  - assert (B : 0 <= c / 64 < zlen (q_bmp L)) by (rewrite (qok_bmp L K); destruct (q_fast L); lia). pose proof (F_S L K). rewrite get_S, S_bmp by lia. reflexivity.
  - destruct (i3Block_ok L K c ltac:(lia)) as [Hid E]. rewrite E. cbn [bind]. apply (index3_ok L K); [exact Hid|apply Z.mod_pos_bound; lia].
Qed.

(** A request is answered, for some number of passes, exactly when it keeps clear of what [clear] names; an answer does not depend on the number. *)
Theorem C28_answered : forall L start limit, null_ok L -> 0 <= start < limit -> start < q_highStart L ->
  ((exists fuel rs, cpenum (cp_serialize L) fuel start limit = Ok rs) <-> clear L start limit) /\
  (forall f1 f2 r1 r2, cpenum (cp_serialize L) f1 start limit = Ok r1 -> cpenum (cp_serialize L) f2 start limit = Ok r2 -> r1 = r2).
Proof.
  intros L start limit N SL SH. split; [|intros; eapply cpenum_same; eauto].
  rewrite <- (reach_clear L start limit N) by lia. apply answered_reach; [apply layout_regular; exact N|exact SL|exact SH].
Qed.
Print Assumptions C28_answered.

(** The answers: contiguous ranges from start up to [q_stop], that is at most highStart (or U+1000 if that is greater), and the last
    one again if the limit is beyond and the high value is another.  They agree with lookup exactly when no data
    block that is used again for the next code points holds anything but the value that stands at its end. *)
Theorem C28_answers : forall L start limit fuel rs, null_ok L -> 0 <= start < limit -> start < q_highStart L ->
  cpenum (cp_serialize L) fuel start limit = Ok rs ->
  let e := q_stop L limit in
  exists rs1 a v, partition start (rs1 ++ [(a, e, v)]) e /\
    rs = (rs1 ++ [(a, e, v)]) ++ (if (e <? limit) && negb (znth (q_data L) (zlen (q_data L) - 2) =? v) then [(a, e, v)] else []) /\
    ((forall a b w x, In (a, b, w) rs -> a <= x < b -> w = cp_value L x) <->
     forall b j, b mod block_len b = 0 -> start <= b - block_len b -> 0 <= j < block_len b -> b + j < e ->
       block_at L b = block_at L (b - 1) -> cp_value L (b + j) = cp_value L (b - 1)).
Proof.
  intros L start limit fuel rs N SL SH E e. pose proof (nk_ok L N) as K. pose proof (layout_regular L N) as RG.
  assert (R : reach (cp_serialize L) start limit) by (apply (answered_reach _ start limit RG SL SH); eauto).
  assert (LH : q_highStart L <= 0x110000) by (apply (qok_high L K)).
  assert (LK : forall x, 0 <= x < e -> cpget (cp_serialize L) x = Ok (cp_value L x)) by (intros x Hx; apply cp_lookup_ok; [exact K|unfold e, q_stop in Hx; lia]).
  assert (DB : forall x, start <= x < e -> dblk (cp_serialize L) x = Ok (block_at L x)).
  { intros x Hx. apply dblk_at; [exact N|]. destruct (whole_all (cp_serialize L) start limit SL SH R x Hx) as [[I|[M I]] _]; [left; exact I|right]. apply multi_limit in M. split; [exact M|exact I]. }
  destruct (answer_is _ start limit fuel rs RG SL SH E) as (rs1 & a & v & h & P & Hh & Q & A).
  change (stop (cp_serialize L) limit) with e in *.
  assert (Hv : h = znth (q_data L) (zlen (q_data L) - 2)).
  { change (cp_dataLength (cp_serialize L)) with (zlen (q_data L)) in Hh. pose proof (qok_data L K). rewrite get_D in Hh by lia. congruence. }
  exists rs1, a, v. split; [exact P|]. split; [rewrite <- Hv; exact Q|].
  assert (BL : forall b, 0 <= b -> (b0 b = b <-> b mod block_len b = 0)) by (intros b Hb; unfold b0, block_len; destruct (b <? 0x1000); lia).
  assert (LP : forall b, 0 < block_len b) by (intros b; unfold block_len; destruct (b <? 0x1000); lia).
  assert (RN : forall a b w x, In (a, b, w) rs -> a <= x < b -> 0 <= x < e).
  { assert (T : forall (l : list (Z * Z * Z)) lo, tiles lo l e -> lo <= e /\ forall a b w, In (a, b, w) l -> lo <= a /\ b <= e).
    { clear. induction l as [|[[a b] v] l IH]; cbn [tiles In]; intros lo T; [split; [lia|intros ? ? ? []]|]. destruct T as (-> & AB & T). destruct (IH b T) as [I1 I2]. split; [lia|].
      intros a' b' w [I|I]; [injection I as <- <- <-; lia|]. specialize (I2 a' b' w I). lia. }
    intros a' b' w x I Hx. rewrite Q in I. destruct P as [PT _]. destruct (T _ _ PT) as [_ T2].
    assert (I' : In (a', b', w) (rs1 ++ [(a, e, v)])).
    { apply in_app_or in I as [I|I]; [exact I|]. destruct (_ && _); [|destruct I]. apply in_or_app. right. exact I. }
    specialize (T2 _ _ _ I'). lia. }
  split.
  - intros G b j Bm S J X D.
    specialize (LP b). assert (b0 b = b) as Bb by (apply BL; [lia|exact Bm]).
    assert (G' : cp_agrees (cp_serialize L) rs).
    { intros a' b' w x I Hx. specialize (RN a' b' w x I Hx). rewrite LK by lia. rewrite (G a' b' w x I Hx). reflexivity. }
    rewrite A in G'. specialize (G' b (b + j) Bb S). change (lenOf b) with (block_len b) in G'.
    rewrite !LK, !DB in G' by lia. specialize (G' ltac:(lia) X ltac:(congruence)). congruence.
  - intros G. assert (G' : cp_agrees (cp_serialize L) rs).
    { apply A. intros b x Bb S Hx X D. change (lenOf b) with (block_len b) in *. specialize (LP b). rewrite !DB in D by lia. rewrite !LK by lia. f_equal.
      replace x with (b + (x - b)) by lia. apply G; [apply BL; [lia|exact Bb]|exact S|lia|lia|congruence]. }
    intros a' b' w x I Hx. specialize (RN a' b' w x I Hx). specialize (G' a' b' w x I Hx). rewrite LK in G' by lia. congruence.
Qed.
Print Assumptions C28_answers.

(** At or past highStart there is nothing. *)
Theorem C28_nothing_past : forall t fuel start limit, cp_highStart t <= start -> cpenum t fuel start limit = Ok [].
Proof. intros t fuel start limit H. unfold cpenum. replace (start >=? cp_highStart t) with true by lia. rewrite orb_true_r. reflexivity. Qed.
Print Assumptions C28_nothing_past.

(** A SMALL trie with the null index-3 block everywhere but from U+3E00 to U+3FFF: a request is answered up to U+3EFF and no further. *)
Definition L28x : cplayout := {|
  q_fast := false; q_bmp := ztab 64 (fun k => if k <? 2 then 64 * k else if k <? 62 then 0 else 128);
  q_i1 := [0]; q_i2 := [ztab 32 (fun k => if k =? 31 then 1 else 0)];
  q_i3 := [(false, ztab 32 (fun _ => 0)); (true, ztab 32 (fun j => 128 + 8 * j))];
  q_data := ztab 500 (fun i => if i <? 128 then 0 else i / 90); q_highStart := 0x4000; q_null3 := 97; q_nullData := 0; q_width := 1 |}.
Lemma L28x_null_ok : null_ok L28x.
Proof.
  constructor; [|reflexivity|vm_compute; intuition discriminate| |vm_compute; discriminate|].
  - constructor; cbn [L28x q_fast q_bmp q_i1 q_i2 q_i3 q_data q_highStart]; try reflexivity; try (vm_compute; intuition discriminate).
    + apply Forall_ztab. intros i Hi. rewrite zlen_ztab by lia. destruct (Z.ltb_spec i 2), (Z.ltb_spec i 62); lia.
    + repeat constructor; discriminate.
    + constructor; [apply zlen_ztab; lia|constructor].
    + constructor; [|constructor]. apply Forall_ztab. intros i Hi. change (zlen _) with 2. destruct (i =? 31); lia.
    + constructor; [apply zlen_ztab; lia|constructor; [apply zlen_ztab; lia|constructor]].
    + constructor; [|constructor; [|constructor]]; cbn [snd]; apply Forall_ztab; intros i Hi; rewrite zlen_ztab by lia; change (2 ^ 18) with 262144; lia.
  - intros j Hj. cbn [L28x q_data q_nullData]. rewrite !znth_ztab by lia. destruct (Z.ltb_spec (0 + j) 128); [reflexivity|lia].
  - intros k j Hk E Hj. change (zlen (q_i3 L28x)) with 2 in Hk. assert (Q : k = 0 \/ k = 1) by lia. destruct Q as [-> | ->].
    + change (snd (i3_at L28x 0)) with (ztab 32 (fun _ => 0)). rewrite znth_ztab by exact Hj. reflexivity.
    + exfalso. revert E. vm_compute. discriminate.
Qed.
Example C28_answered_case : null_ok L28x /\ clear L28x 0xF00 0x3F00 /\ ~ clear L28x 0xF00 0x3F01 /\
  cpenum (cp_serialize L28x) 99 0xF00 0x3F00 =
    Ok [(0xF00, 0xF80, 0); (0xF80, 0xFB4, 1); (0xFB4, 0x1000, 2); (0x1000, 0x3E00, 0); (0x3E00, 0x3E5C, 1); (0x3E5C, 0x3E60, 2); (0x3E60, 0x3E64, 1); (0x3E64, 0x3F00, 2)].
Proof.
  assert (E : cpenum (cp_serialize L28x) 99 0xF00 0x3F00 =
    Ok [(0xF00, 0xF80, 0); (0xF80, 0xFB4, 1); (0xFB4, 0x1000, 2); (0x1000, 0x3E00, 0); (0x3E00, 0x3E5C, 1); (0x3E5C, 0x3E60, 2); (0x3E60, 0x3E64, 1); (0x3E64, 0x3F00, 2)])
    by (vm_compute; reflexivity).
  split; [apply L28x_null_ok|]. split; [|split; [|exact E]].
  - apply (proj1 (C28_answered L28x 0xF00 0x3F00 L28x_null_ok ltac:(lia) ltac:(reflexivity))). eexists _, _. exact E.
  - intros [_ C]. specialize (C 0x3F00). revert C. vm_compute. intros C. discriminate C; intuition discriminate.
Qed.
(** Its data blocks at U+3E00 overlap but none is used twice, and the two at U+0F80 and U+0FC0 are: the answer does not agree with lookup there. *)
Example C28_answers_case : block_at L28x 0xFC0 = block_at L28x 0xFBF /\ cp_value L28x 0xFC0 = 1 /\ cp_value L28x 0xFBF = 2.
Proof. vm_compute. auto. Qed.
