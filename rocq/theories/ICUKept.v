(** * What populateData leaves behind for any file of bytes: the entries before the first bad one *)
From Coq Require Import ZArith List Bool Lia ZifyBool.
From Verif Require Import Py Bytes Dict ICUDataFile ICUFacts.
Import ListNotations.
Open Scope Z_scope.

Definition byte (x : Z) : Prop := 0 <= x < 256.

Lemma stringFrom_inv : forall fuel b i s, 0 <= i -> stringFrom fuel b i = Ok s -> nonzero s /\ at_pos b i (s ++ [0]).
Proof.
  induction fuel as [|m IH]; intros b i s P; cbn [stringFrom]; [discriminate|].
  destruct (py_get b i) as [x|e] eqn:G; [cbn [bind]|discriminate].
  assert (A : at_pos b i [x]).
  { unfold py_get in G. cbv zeta in G. replace (i <? 0) with false in G by lia. cbv iota in G. replace (i <? 0) with false in G by lia.
    destruct (nth_error b (Z.to_nat i)) as [y|] eqn:N; [|discriminate]. injection G as ->.
    apply nth_error_split in N as (p & q & -> & L). exists p, q. split; [reflexivity|]. unfold zlen. lia. }
  destruct (x =? 0) eqn:X; cbn [negb].
  - intros [= <-]. split; [constructor|]. replace 0 with x by lia. exact A.
  - destruct (stringFrom m b (i + 1)) as [r|e] eqn:S; [cbn [bind]|discriminate]. intros [= <-].
    destruct (IH b (i + 1) r ltac:(lia) S) as [N B]. split; [constructor; [lia|exact N]|].
    destruct A as (p & q & -> & L). destruct B as (p' & q' & E & L'). exists p, q'. split; [|exact L].
    assert (p' = p ++ [x] /\ q = (r ++ [0]) ++ q') as [_ ->]; [|cbn [app]; reflexivity].
    rewrite app_assoc in E. assert (length p' = length (p ++ [x])) as LL by (rewrite app_length; cbn; unfold zlen in *; lia).
    clear - E LL. revert E LL. generalize (p ++ [x]) as m0. induction p' as [|u p' IH]; intros [|v m0] E LL; cbn in *; try discriminate; [auto|].
    injection E as -> E. destruct (IH m0 E ltac:(lia)) as [-> ->]. auto.
Qed.
Lemma indexOf_inv x : forall s k, indexOf x s = Ok k -> exists p t, s = p ++ x :: t /\ zlen p = k /\ Forall (fun y => y <> x) p.
Proof.
  induction s as [|y s IH]; intros k; cbn [indexOf]; [discriminate|]. destruct (y =? x) eqn:E.
  - intros [= <-]. exists [], s. split; [cbn; f_equal; lia|]. split; [reflexivity|constructor].
  - destruct (indexOf x s) as [j|e]; [cbn [bind]|discriminate]. intros [= <-]. destruct (IH j eq_refl) as (p & t & -> & L & F).
    exists (y :: p), t. split; [reflexivity|]. split; [rewrite zlen_cons; lia|]. constructor; [lia|exact F].
Qed.
Lemma getName_inv D i name : 0 <= i -> getName D i = Ok name -> exists prefix, nonzero prefix /\ nonzero name /\ Forall (fun y => y <> 47) prefix /\
  at_pos (fileData D) i (prefix ++ [47] ++ name ++ [0]).
Proof.
  intros P. unfold getName. destruct (getString D i) as [s|e] eqn:S; [cbn [bind]|discriminate].
  destruct (indexOf 47 s) as [k|e] eqn:X; [cbn [bind]|discriminate]. intros [= <-].
  apply (stringFrom_inv _ _ _ _ P) in S as [N A]. apply indexOf_inv in X as (p & t & -> & L & F).
  apply Forall_app in N as [N1 N2]. inversion N2; subst.
  assert (py_slice (p ++ 47 :: t) (zlen p + 1) (zlen (p ++ 47 :: t)) = t) as ->.
  { apply at_slice; [exists (p ++ [47]), []; rewrite <- app_assoc, app_nil_r, zlen_app; auto|]. rewrite zlen_app, zlen_cons. lia. }
  exists p. repeat split; auto. rewrite <- app_assoc in A. exact A.
Qed.

Lemma le_inv : forall b, Forall byte b -> le_bytes (length b) (le b) = b /\ 0 <= le b < 256 ^ zlen b.
Proof.
  induction 1 as [|x b X F [IH R]]; [split; [reflexivity|cbn; lia]|]. unfold byte in X. cbn [le length le_bytes]. split.
  - rewrite Z.mul_comm, Z_mod_plus_full, Z.mod_small, Z.div_add, Z.div_small, Z.add_0_l by lia. rewrite IH. reflexivity.
  - rewrite zlen_cons. rewrite Z.pow_add_r by (try lia; apply zlen_nonneg). change (256 ^ 1) with 256. lia.
Qed.
Lemma pieces_inv w : forall n b, Forall byte b -> length b = (w * n)%nat ->
  concat (map (le_bytes w) (map le (pieces w n b))) = b /\ Forall (fun x => 0 <= x < 256 ^ Z.of_nat w) (map le (pieces w n b)) /\ length (pieces w n b) = n.
Proof.
  induction n as [|n IH]; intros b F L; cbn [pieces map concat length].
  - destruct b; [repeat split; constructor|cbn in L; lia].
  - assert (length (firstn w b) = w) as L1 by (rewrite firstn_length; lia).
    assert (Forall byte (firstn w b) /\ Forall byte (skipn w b)) as [F1 F2] by (rewrite <- Forall_app, firstn_skipn; exact F).
    destruct (le_inv _ F1) as [E R]. rewrite L1 in E. unfold zlen in R. rewrite L1 in R.
    destruct (IH (skipn w b) F2) as (E2 & R2 & L2); [rewrite skipn_length; lia|]. rewrite E, E2, firstn_skipn, L2. auto.
Qed.
Lemma unpack_inv w n b i j xs : 0 <= w -> 0 < n -> 0 < w -> 0 <= i -> Forall byte b -> j = i + w * n -> unpack w n (py_slice b i j) = Ok xs ->
  at_pos b i (pack w xs) /\ Forall (fun x => 0 <= x < 256 ^ w) xs /\ zlen xs = n.
Proof.
  intros W N W0 I F -> U. unfold unpack in U. destruct (zlen _ =? w * n) eqn:L; [|discriminate]. injection U as <-.
  assert (LB : i + w * n <= zlen b /\ py_slice b i (i + w * n) = firstn (Z.to_nat (w * n)) (skipn (Z.to_nat i) b)).
  { unfold py_slice, py_bound in *. cbv zeta in *.
    replace (i <? 0) with false in * by lia. replace (i + w * n <? 0) with false in * by lia.
    pose proof (zlen_nonneg b). assert (0 < w * n) by nia. revert L.
    set (s := Z.min (zlen b) i). set (e := Z.min (zlen b) (i + w * n)). intros L.
    assert (e - s = w * n) as ES.
    { unfold zlen in L at 1. rewrite firstn_length, skipn_length in L. unfold zlen in *. subst s e. lia. }
    subst s e. split; [lia|]. f_equal; [f_equal; lia|]. f_equal; lia. }
  destruct LB as [LB ->]. set (m := firstn _ _).
  assert (LM : length m = (Z.to_nat w * Z.to_nat n)%nat).
  { subst m. rewrite firstn_length, skipn_length. unfold zlen in LB. nia. }
  assert (FM : Forall byte m).
  { assert (Forall byte (skipn (Z.to_nat i) b)) as F2 by (rewrite <- (firstn_skipn (Z.to_nat i) b) in F; apply Forall_app in F as [_ F]; exact F).
    rewrite <- (firstn_skipn (Z.to_nat (w * n)) (skipn (Z.to_nat i) b)) in F2. apply Forall_app in F2 as [F2 _]. exact F2. }
  destruct (pieces_inv (Z.to_nat w) (Z.to_nat n) m FM LM) as (E & R & LL). split; [|split].
  - unfold pack. rewrite E. exists (firstn (Z.to_nat i) b), (skipn (Z.to_nat (w * n)) (skipn (Z.to_nat i) b)). split; [subst m; rewrite firstn_skipn, firstn_skipn; reflexivity|].
    unfold zlen in *. rewrite firstn_length. nia.
  - rewrite Z2Nat.id in R by lia. exact R.
  - unfold zlen. rewrite map_length, LL. lia.
Qed.

(** ** The loop *)
Definition offset_in (hl : Z) (its : list item) (d : dict Z) (name : str) : option Z :=
  match last_offset its name with Some o => Some (o + hl) | None => dict_find d name end.
Lemma at_join {A} (b l m : list A) i : at_pos b i l -> at_pos b (i + zlen l) m -> at_pos b i (l ++ m).
Proof.
  intros (p & q & -> & <-) (p' & q' & E & L). exists p, q'. split; [|reflexivity].
  assert (p' = p ++ l /\ q = m ++ q') as [_ ->]; [|rewrite <- app_assoc; reflexivity].
  rewrite app_assoc in E. assert (length p' = length (p ++ l)) as LL by (rewrite app_length; unfold zlen in *; lia).
  clear - E LL. revert E LL. generalize (p ++ l) as m0. induction p' as [|u p' IH]; intros [|v m0] E LL; cbn in *; try discriminate; [auto|].
  injection E as -> E. destruct (IH m0 E ltac:(lia)) as [-> ->]. auto.
Qed.
Lemma at_nil {A} (b : list A) i : 0 <= i <= zlen b -> at_pos b i [].
Proof.
  intros H. exists (firstn (Z.to_nat i) b), (skipn (Z.to_nat i) b). split; [cbn; rewrite firstn_skipn; reflexivity|]. unfold zlen in *. rewrite firstn_length. lia.
Qed.

(** the entry at [i] of the table is that of [t] *)
Definition entry_at (file : bytes) (hl i : Z) (t : item) : Prop := item_ok file hl t /\ at_pos file i (pack 4 (toc_words [t])).

Lemma tocLoop_kept n : forall file d hl i D r, Forall byte file -> 0 <= hl -> 0 <= i <= zlen file -> tocLoop n (mkICU file d) hl i (i + 8) = (D, r) ->
  exists its, fileData D = file /\ Forall (item_ok file hl) its /\ at_pos file i (pack 4 (toc_words its)) /\
    (forall name, dict_find (dataOffsets D) name = offset_in hl its d name) /\
    match r with
    | Ok _ => length its = n
    | Err _ => (length its < n)%nat /\ forall t, ~ entry_at file hl (i + 8 * zlen its) t
    end.
Proof.
  induction n as [|n IH]; intros file d hl i D r F H I E; cbn [tocLoop] in E.
  - injection E as <- <-. exists []. repeat split; auto. apply at_nil. exact I.
  - assert (BAD : forall t, entry_at file hl i t -> unpack 4 2 (py_slice file i (i + 8)) = Ok [it_nameOffset t; it_dataOffset t] /\
      getName (mkICU file d) (it_nameOffset t + hl) = Ok (it_name t)).
    { intros t [(H1 & H2 & H3 & H4 & H5 & H6) A]. split.
      - apply unpack_at; try lia; [repeat constructor; change (256 ^ 4) with (2 ^ 32); lia|exact A|reflexivity|reflexivity].
      - apply (getName_ok _ _ (it_prefix t)); auto. rewrite Z.add_comm. exact H6. }
    assert (STOP : forall e, (forall t, ~ entry_at file hl i t) -> (mkICU file d, Err e) = (D, r) -> exists its, fileData D = file /\ Forall (item_ok file hl) its /\
      at_pos file i (pack 4 (toc_words its)) /\ (forall name, dict_find (dataOffsets D) name = offset_in hl its d name) /\
      match r with Ok _ => length its = S n | Err _ => (length its < S n)%nat /\ forall t, ~ entry_at file hl (i + 8 * zlen its) t end).
    { intros e B [= <- <-]. exists []. split; [reflexivity|]. split; [constructor|]. split; [apply at_nil; exact I|]. split; [reflexivity|]. split; [cbn; lia|].
      change (8 * zlen (@nil item)) with 0. rewrite Z.add_0_r. exact B. }
    cbn [fileData] in E. destruct (unpack 4 2 (py_slice file i (i + 8))) as [l|e] eqn:U.
    2:{ apply STOP in E; [exact E|]. intros t T. apply BAD in T as [T _]. discriminate. }
    pose proof U as U'. apply unpack_inv in U' as (A & R & L); try lia; auto. change (256 ^ 4) with (2 ^ 32) in R.
    destruct l as [|no [|do [|x3 l3]]]; try (exfalso; rewrite ?zlen_cons in L; change (zlen (@nil Z)) with 0 in L; try pose proof (zlen_nonneg l3); lia).
    assert (0 <= no < 2 ^ 32 /\ 0 <= do < 2 ^ 32) as [Rn Rd] by (inversion R as [|? ? ? R2]; inversion R2; auto).
    destruct (getName (mkICU file d) (no + hl)) as [name|e] eqn:G.
    2:{ apply STOP in E; [exact E|]. intros t T. apply BAD in T as [[= -> ->] T]. congruence. }
    destruct (getName_inv (mkICU file d) (no + hl) name ltac:(lia) G) as (prefix & N1 & N2 & N3 & AN). cbn [fileData] in AN.
    change tocEntryLength with 8 in E. cbn [dataOffsets] in E.
    pose proof (at_nonneg _ _ _ A) as [_ LE]. rewrite zlen_pack in LE by lia. change (4 * zlen [no; do]) with 8 in LE.
    destruct (IH file _ hl (i + 8) D r F H ltac:(lia) E) as (its & K1 & K2 & K3 & K4 & K5).
    set (t := mkItem prefix name no do). exists (t :: its). split; [exact K1|]. split.
    { constructor; [|exact K2]. repeat split; cbn [it_nameOffset it_dataOffset it_prefix it_name t]; auto; try lia. rewrite Z.add_comm. exact AN. }
    split.
    { cbn [toc_words flat_map t it_nameOffset it_dataOffset]. fold (toc_words its). rewrite pack_app. apply at_join; [exact A|]. rewrite zlen_pack by lia. exact K3. }
    split.
    { intros x. rewrite K4. unfold offset_in. cbn [last_offset]. destruct (last_offset its x); [reflexivity|]. rewrite find_set. unfold t. cbn [it_name it_dataOffset].
      destruct (str_eqb name x); reflexivity. }
    destruct r as [u|e]; [cbn [length]; lia|]. destruct K5 as [K5 K6]. split; [cbn [length]; lia|]. rewrite zlen_cons.
    replace (i + 8 * (zlen its + 1)) with (i + 8 + 8 * zlen its) by lia. exact K6.
Qed.

Lemma header_at file : Forall byte file -> 24 <= zlen file -> exists h hd, at_pos file 0 h /\ zlen h = 24 /\ le (firstn 2 h) = headerLength hd /\ 0 <= headerLength hd /\
  unpackHeader (py_slice file 0 dataHeaderLength) = Ok hd.
Proof.
  intros F L. assert (A : at_pos file 0 (firstn 24 file)) by (exists [], (skipn 24 file); split; [cbn [app]; rewrite firstn_skipn; reflexivity|reflexivity]).
  assert (Z24 : zlen (firstn 24 file) = 24) by (unfold zlen in *; rewrite firstn_length; lia).
  assert (FB : Forall byte (firstn 24 file)) by (rewrite <- (firstn_skipn 24 file) in F; apply Forall_app in F; tauto).
  rewrite (at_slice file (firstn 24 file) 0 dataHeaderLength A) by (rewrite Z24; reflexivity).
  unfold unpackHeader. rewrite Z24. change (negb (24 =? dataHeaderLength)) with false. cbv iota zeta. eexists _, _. split; [exact A|]. split; [exact Z24|].
  split; [|split; [|reflexivity]]; cbn [headerLength]; set (b := firstn 24 file) in *.
  - f_equal. unfold py_slice, py_bound. rewrite Z24. reflexivity.
  - apply le_inv. unfold py_slice, py_bound. rewrite Z24. cbn -[firstn]. rewrite <- (firstn_skipn 2 b) in FB. apply Forall_app in FB as [FB _]. exact FB.
Qed.

Theorem populate_kept file D r : Forall byte file -> populateData noData file = (D, r) -> fileData D = file /\
  exists hl its, Forall (item_ok file hl) its /\ (forall name, dict_find (dataOffsets D) name = offset_in hl its [] name) /\
    match r with
    | Ok _ => toc_ok file hl its
    | Err _ => (forall hl' its', ~ toc_ok file hl' its') /\
        (its = [] \/ exists h n, at_pos file 0 h /\ zlen h = 24 /\ le (firstn 2 h) = hl /\ zlen its < n /\
           at_pos file hl (pack 4 [n] ++ pack 4 (toc_words its)) /\ forall t, ~ entry_at file hl (hl + 4 + 8 * zlen its) t)
    end.
Proof.
  intros F E. split; [exact (populate_keeps_bytes file D r E)|].
  assert (NO : forall e, r = Err e -> forall hl its, ~ toc_ok file hl its).
  { intros e -> hl its T. destruct (populate_ok noData file hl its eq_refl T) as (d & E' & _). congruence. }
  unfold populateData in E. cbn [noData fileData dataOffsets] in E.
  destruct (Z_lt_le_dec (zlen file) 24) as [S|S].
  { assert (unpackHeader (py_slice file 0 dataHeaderLength) = Err StructError) as Q.
    { unfold unpackHeader. replace (zlen _ =? dataHeaderLength) with false; [reflexivity|]. unfold py_slice, py_bound, dataHeaderLength. cbn -[Z.min Z.to_nat].
      unfold zlen at 1. rewrite firstn_length, skipn_length. unfold zlen in *. lia. }
    rewrite Q in E. injection E as <- <-. exists 0, []. split; [constructor|]. split; [reflexivity|]. split; [exact (NO _ eq_refl)|left; reflexivity]. }
  destruct (header_at file F S) as (h & hd & A & L & HL & P & U). rewrite U in E. cbv zeta in E. set (hl := headerLength hd) in *.
  destruct (unpack 4 1 (py_slice file hl (hl + 4))) as [l|e] eqn:UC.
  2:{ injection E as <- <-. exists hl, []. split; [constructor|]. split; [reflexivity|]. split; [exact (NO _ eq_refl)|left; reflexivity]. }
  apply unpack_inv in UC as (AC & R & LC); try lia; auto. change (256 ^ 4) with (2 ^ 32) in R.
  destruct l as [|n [|x3 l3]]; try (exfalso; rewrite ?zlen_cons in LC; change (zlen (@nil Z)) with 0 in LC; try pose proof (zlen_nonneg l3); lia).
  assert (0 <= n < 2 ^ 32) as RN by (inversion R; auto).
  pose proof (at_nonneg _ _ _ AC) as [_ LE]. rewrite zlen_pack in LE by lia. change (4 * zlen [n]) with 4 in LE.
  change tocEntryLength with 8 in E. destruct (tocLoop_kept _ file [] hl (hl + 4) D r F P ltac:(lia) E) as (its & K1 & K2 & K3 & K4 & K5).
  exists hl, its. split; [exact K2|]. split; [exact K4|].
  assert (AT : at_pos file hl (pack 4 [n] ++ pack 4 (toc_words its))) by (apply at_join; [exact AC|rewrite zlen_pack by lia; exact K3]).
  destruct r as [u|e].
  - assert (zlen its = n) as LN by (unfold zlen; lia). subst n. constructor; auto; [|lia]. exists h. auto.
  - split; [exact (NO _ eq_refl)|]. right. destruct K5 as [K5 K6]. exists h, n. repeat (split; [assumption|]). split; [unfold zlen; lia|]. split; [exact AT|exact K6].
Qed.
