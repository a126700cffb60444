(** * CharNames: reading unames.icu. *)
From Coq Require Import ZArith List Bool Lia ZifyBool Arith Sorting.Sorted.
From Verif Require Import Py Bytes Dict Utilities ICUDataFile ICUFacts ICUItems CharNames NamesLengths NamesFacts.
Import ListNotations.
Open Scope Z_scope.

(** ** Groups: the compressed lengths, then the strings *)
Record ngroup := mkNG { ng_msb : Z; ng_offset : Z; ng_pad : Z; ng_strings : list bytes }.
Definition ng_ok (g : ngroup) : Prop := 0 <= ng_msb g < 65536 /\ 0 <= ng_offset g < 2 ^ 32 /\ 0 <= ng_pad g < 16 /\ zlen (ng_strings g) = 32 /\
  Forall (fun s => zlen s <= 75) (ng_strings g).
Definition lengths_of (ss : list bytes) : list Z := map (fun s => zlen s) ss.
Definition ng_bytes (g : ngroup) : bytes := nib_bytes (ng_pad g) (nibbles (lengths_of (ng_strings g))) ++ concat (ng_strings g).
(** the entry in the table of groups *)
Definition ng_entry (g : ngroup) : list Z := [ng_msb g; ng_offset g / 65536; ng_offset g mod 65536].
(** what the group object holds: the 32 strings and perhaps one more *)
Definition reads (g : group) (n : ngroup) : Prop := g_msb g = ng_msb n /\ exists extra, zlen extra <= 1 /\ g_strings g = ng_strings n ++ extra.

Lemma combine_app {A B} (a1 a2 : list A) (b1 b2 : list B) : length a1 = length b1 -> combine (a1 ++ a2) (b1 ++ b2) = combine a1 b1 ++ combine a2 b2.
Proof. revert b1. induction a1 as [|x a1 IH]; intros [|y b1] E; cbn in *; try lia; try reflexivity. rewrite IH by lia. reflexivity. Qed.
Lemma cut_strings D d ss : forall o, at_pos (fileData D) (d + o) (concat ss) ->
  map (fun ol => getData D (d + fst ol) (d + fst ol + snd ol)) (combine (sums o (lengths_of ss)) (lengths_of ss)) = ss.
Proof.
  induction ss as [|s ss IH]; intros o A; cbn [lengths_of map sums combine fst snd]; [reflexivity|]. cbn [concat] in A. apply at_app in A as [A1 A2].
  f_equal; [apply at_slice; [exact A1|reflexivity]|]. apply IH. rewrite Z.add_assoc. exact A2.
Qed.
Lemma newGroup_ok D n i start : ng_ok n -> at_pos (fileData D) i (pack 2 (ng_entry n)) -> at_pos (fileData D) (start + ng_offset n) (ng_bytes n) ->
  exists g, newGroup D i start = Ok g /\ reads g n.
Proof.
  intros (H1 & H2 & H3 & H4 & H5) A1 A2. unfold newGroup, getData.
  assert (H6 : 0 <= ng_offset n / 65536 < 65536) by (split; [apply Z.div_pos; lia|apply Z.div_lt_upper_bound; lia]).
  pose proof (Z.mod_pos_bound (ng_offset n) 65536 ltac:(lia)) as H7.
  rewrite (unpack_at 2 (ng_entry n)); [|lia| |exact A1|reflexivity|reflexivity].
  2:{ repeat constructor; change (256 ^ 2) with 65536; lia. }
  cbn [bind ng_entry]. rewrite (lor_shift 16) by (change (2 ^ 16) with 65536; lia). change (2 ^ 16) with 65536. rewrite <- (Z.div_mod (ng_offset n) 65536) by lia.
  unfold ng_bytes in A2. apply at_app in A2 as [A3 A4].
  assert (LK : Forall len_ok (lengths_of (ng_strings n))).
  { unfold lengths_of. apply Forall_map. eapply Forall_impl; [|exact H5]. intros s Hs. unfold len_ok. pose proof (zlen_nonneg s). cbv beta in Hs. lia. }
  destruct (lengths_ok D (ng_pad n) (start + ng_offset n) (lengths_of (ng_strings n))) as (extra & X & R); auto.
  { unfold lengths_of, zlen. rewrite map_length. exact H4. }
  rewrite R. cbn [bind]. eexists. split; [reflexivity|]. split; [reflexivity|]. cbn [g_strings].
  rewrite sums_app, combine_app by apply length_sums. rewrite map_app.
  set (d := start + ng_offset n + _) in *. eexists. split; [|f_equal; apply (cut_strings D d (ng_strings n) 0); rewrite Z.add_0_r; exact A4].
  unfold zlen. rewrite map_length, combine_length, length_sums. destruct X as [-> | ->]; cbn; lia.
Qed.
Lemma groupsLoop_ok D start ns : forall i, Forall ng_ok ns -> at_pos (fileData D) i (pack 2 (flat_map ng_entry ns)) ->
  Forall (fun n => at_pos (fileData D) (start + ng_offset n) (ng_bytes n)) ns ->
  exists gs, groupsLoop (length ns) D i start = Ok gs /\ Forall2 reads gs ns.
Proof.
  induction ns as [|n ns IH]; intros i F A B; cbn [length groupsLoop].
  - exists []. split; [reflexivity|constructor].
  - inversion F as [|? ? F1 F2]; subst. inversion B as [|? ? B1 B2]; subst. cbn [flat_map] in A. rewrite pack_app in A. apply at_app in A as [A1 A2].
    rewrite zlen_pack in A2 by lia. change (2 * zlen (ng_entry n)) with 6 in A2.
    destruct (newGroup_ok D n i start F1 A1 B1) as (g & E & R). rewrite E. cbn [bind]. change groupLength with 6.
    destruct (IH (i + 6) F2 A2 B2) as (gs & E2 & R2). rewrite E2. cbn [bind]. exists (g :: gs). split; [reflexivity|]. constructor; assumption.
Qed.

(** ** Algorithmic ranges *)
Definition alg_content (a : algRange) : bytes :=
  if a_type a =? 0 then a_string a ++ [0]
  else if a_type a =? 1 then pack 2 (a_factors a) ++ (a_string a ++ [0]) ++ flat_map (fun e => e ++ [0]) (a_elements a)
  else [].
Definition alg_bytes (ap : algRange * bytes) : bytes :=
  let a := fst ap in
  pack 4 [a_start a; a_stop a - 1] ++ pack 1 [a_type a; a_variant a] ++ pack 2 [a_size a] ++ alg_content a ++ snd ap.
(** padding after the elements would be read as empty elements, and so is counted among them *)
Definition alg_ok (ap : algRange * bytes) : Prop :=
  let a := fst ap in
  0 <= a_start a < 2 ^ 32 /\ 0 <= a_stop a - 1 < 2 ^ 32 /\ 0 <= a_type a < 256 /\ 0 <= a_variant a < 256 /\
  a_size a = zlen (alg_bytes ap) /\ a_size a < 65536 /\ nonzero (a_string a) /\
  match a_type a with
  | 0 => a_factors a = [] /\ a_elements a = []
  | 1 => a_variant a = zlen (a_factors a) /\ Forall (fun f => 0 <= f < 65536) (a_factors a) /\ Forall nonzero (a_elements a) /\ snd ap = []
  | _ => a_factors a = [] /\ a_elements a = [] /\ a_string a = []
  end.
Lemma elements_ok D es : Forall nonzero es -> forall fuel i limit, at_pos (fileData D) i (flat_map (fun e => e ++ [0]) es) ->
  limit = i + zlen (flat_map (fun e => e ++ [0]) es) -> (Z.to_nat (limit - i) <= fuel)%nat -> elementsLoop fuel D i limit = Ok es.
Proof.
  induction 1 as [|e es He F IH]; intros fuel i limit A E Hf.
  - cbn in E. change (zlen []) with 0 in E. destruct fuel; cbn [elementsLoop]; replace (i <? limit) with false by lia; reflexivity.
  - cbn [flat_map] in A, E. apply at_app in A as [A1 A2]. rewrite zlen_app, zlen_app in E. change (zlen [0]) with 1 in E.
    pose proof (zlen_nonneg e). pose proof (zlen_nonneg (flat_map (fun e => e ++ [0]) es)).
    destruct fuel as [|m]; [lia|]. cbn [elementsLoop]. replace (i <? limit) with true by lia. cbn [negb].
    rewrite (getString_ok D i e He A1). cbn [bind]. rewrite zlen_app in A2. change (zlen [0]) with 1 in A2. rewrite (IH m (i + (zlen e + 1)) limit A2) by lia. reflexivity.
Qed.
Lemma pack_one w x : pack w [x] = le_bytes (Z.to_nat w) x.
Proof. unfold pack. cbn [map concat]. apply app_nil_r. Qed.
Lemma le_one w x : 0 <= w -> 0 <= x < 256 ^ w -> le (pack w [x]) = x.
Proof. intros H B. rewrite pack_one. apply le_le_bytes. rewrite Z2Nat.id by exact H. exact B. Qed.

Lemma newRange_ok D ap i : alg_ok ap -> at_pos (fileData D) i (alg_bytes ap) -> newAlgorithmicRange D i = Ok (fst ap).
Proof.
  destruct ap as [a pad]. intros K A. cbn [fst]. unfold newAlgorithmicRange.
  set (h := pack 4 [a_start a; a_stop a - 1] ++ pack 1 [a_type a; a_variant a] ++ pack 2 [a_size a]).
  assert (EB : alg_bytes (a, pad) = h ++ alg_content a ++ pad) by (unfold alg_bytes, h; cbn [fst snd]; rewrite <- !app_assoc; reflexivity).
  destruct K as (K1 & K2 & K3 & K4 & K5 & K6 & K7 & K8). cbn [fst snd] in *.
  assert (LH : zlen h = 12) by (unfold h; rewrite !zlen_app, !zlen_pack by lia; reflexivity).
  pose proof A as A0. rewrite EB in A. apply at_app in A as [Ah A]. rewrite LH in A. apply at_app in A as [Ac _].
  assert (EG : getData D i (i + rangeLength) = h) by (unfold getData; apply at_slice; [exact Ah|rewrite LH; reflexivity]).
  cbv zeta. rewrite EG, LH. change (12 =? rangeLength) with true. cbn [negb].
  pose proof (zlen_nonneg (alg_bytes (a, pad))) as SZ.
  assert (EH : h = pack 4 [a_start a] ++ pack 4 [a_stop a - 1] ++ pack 1 [a_type a] ++ pack 1 [a_variant a] ++ pack 2 [a_size a]).
  { unfold h. rewrite !pack_one. unfold pack. cbn [map concat]. rewrite !app_nil_r, <- !app_assoc. reflexivity. }
  assert (P1 : py_slice h 0 4 = pack 4 [a_start a]) by (apply at_slice; [exists [], (pack 4 [a_stop a - 1] ++ pack 1 [a_type a] ++ pack 1 [a_variant a] ++ pack 2 [a_size a]); auto|rewrite zlen_pack by lia; reflexivity]).
  assert (P2 : py_slice h 4 8 = pack 4 [a_stop a - 1]) by (apply at_slice; [exists (pack 4 [a_start a]), (pack 1 [a_type a] ++ pack 1 [a_variant a] ++ pack 2 [a_size a]); split; [exact EH|rewrite zlen_pack by lia; reflexivity]|rewrite zlen_pack by lia; reflexivity]).
  assert (P3 : py_slice h 8 9 = pack 1 [a_type a]).
  { apply at_slice; [|rewrite zlen_pack by lia; reflexivity]. exists (pack 4 [a_start a] ++ pack 4 [a_stop a - 1]), (pack 1 [a_variant a] ++ pack 2 [a_size a]).
    split; [rewrite EH, <- !app_assoc; reflexivity|rewrite zlen_app, !zlen_pack by lia; reflexivity]. }
  assert (P4 : py_slice h 9 10 = pack 1 [a_variant a]).
  { apply at_slice; [|rewrite zlen_pack by lia; reflexivity]. exists (pack 4 [a_start a] ++ pack 4 [a_stop a - 1] ++ pack 1 [a_type a]), (pack 2 [a_size a]).
    split; [rewrite EH, <- !app_assoc; reflexivity|rewrite !zlen_app, !zlen_pack by lia; reflexivity]. }
  assert (P5 : py_slice h 10 12 = pack 2 [a_size a]).
  { apply at_slice; [|rewrite zlen_pack by lia; reflexivity]. exists (pack 4 [a_start a] ++ pack 4 [a_stop a - 1] ++ pack 1 [a_type a] ++ pack 1 [a_variant a]), [].
    split; [rewrite EH, app_nil_r, <- !app_assoc; reflexivity|rewrite !zlen_app, !zlen_pack by lia; reflexivity]. }
  rewrite P1, P2, P3, P4, P5. rewrite !le_one by (try lia; change (256 ^ 4) with (2 ^ 32); change (256 ^ 2) with 65536; change (256 ^ 1) with 256; lia).
  replace (a_stop a - 1 + 1) with (a_stop a) by lia. change (i + rangeLength) with (i + 12). unfold alg_content in Ac.
  assert (Shape : forall f s e, a_factors a = f -> a_string a = s -> a_elements a = e ->
    mkAlg (a_start a) (a_stop a) (a_type a) (a_variant a) (a_size a) f s e = a) by (intros f s e <- <- <-; destruct a; reflexivity).
  destruct (a_type a =? 0) eqn:T0.
  - rewrite (getString_ok D (i + 12) (a_string a) K7 Ac). cbn [bind]. f_equal. replace (a_type a) with 0 in K8 by lia. destruct K8. apply Shape; auto.
  - destruct (a_type a =? 1) eqn:T1.
    + replace (a_type a) with 1 in K8 by lia. destruct K8 as (V & FF & FE & EP). subst pad. apply at_app in Ac as [Ac1 Ac]. apply at_app in Ac as [Ac2 Ac3].
      rewrite zlen_pack in Ac2, Ac3 by lia. rewrite zlen_app in Ac3. change (zlen [0]) with 1 in Ac3.
      unfold getData. rewrite (unpack_at 2 (a_factors a)); [|lia|exact FF|exact Ac1|lia|exact V]. cbn [bind].
      rewrite V. rewrite (getString_ok D _ (a_string a) K7 Ac2). cbn [bind].
      rewrite (elements_ok D (a_elements a) FE); [cbn [bind]; f_equal; rewrite <- V; apply Shape; reflexivity| | |lia].
      * replace (i + 12 + 2 * zlen (a_factors a) + zlen (a_string a) + 1) with (i + 12 + 2 * zlen (a_factors a) + (zlen (a_string a) + 1)) by lia. exact Ac3.
      * rewrite K5, EB. rewrite !zlen_app, LH. unfold alg_content. rewrite T0, T1. rewrite !zlen_app, zlen_pack by lia. change (zlen [0]) with 1. change (zlen (@nil Z)) with 0. lia.
    + cbn [bind]. f_equal. assert (a_factors a = [] /\ a_elements a = [] /\ a_string a = []) as (Q1 & Q2 & Q3).
      { destruct (a_type a) as [|[p|p|]|p]; try lia; auto. }
      apply Shape; auto.
Qed.
Lemma rangesLoop_ok D aps : forall i, Forall alg_ok aps -> at_pos (fileData D) i (flat_map alg_bytes aps) -> rangesLoop (length aps) D i = Ok (map fst aps).
Proof.
  induction aps as [|ap aps IH]; intros i F A; cbn [length rangesLoop map]; [reflexivity|]. inversion F as [|? ? F1 F2]; subst. cbn [flat_map] in A. apply at_app in A as [A1 A2].
  rewrite (newRange_ok D ap i F1 A1). cbn [bind]. assert (a_size (fst ap) = zlen (alg_bytes ap)) as -> by apply F1. rewrite (IH _ F2 A2). reflexivity.
Qed.

(** ** The whole item: four offsets; the tokens and their strings; the groups; the strings of each group; the ranges *)
Record names_layout (D : icuData) (base tso go gso ao : Z) (toks : list Z) (strs : bytes) (ns : list ngroup) (aps : list (algRange * bytes)) : Prop := {
  nl_range : 0 <= tso < 2 ^ 32 /\ 0 <= go < 2 ^ 32 /\ 0 <= gso < 2 ^ 32 /\ 0 <= ao < 2 ^ 32;
  nl_offsets : at_pos (fileData D) base (pack 4 [tso; go; gso; ao]);
  nl_tokens : at_pos (fileData D) (base + 16) (pack 2 [zlen toks] ++ pack 2 toks ++ strs);
  nl_tso : tso = 18 + 2 * zlen toks;
  nl_go : go = tso + zlen strs;
  nl_toks : zlen toks < 65536 /\ Forall (fun t => 0 <= t < 65536) toks;
  nl_groups : at_pos (fileData D) (base + go) (pack 2 [zlen ns] ++ pack 2 (flat_map ng_entry ns));
  nl_count : zlen ns < 65536;
  nl_group_ok : Forall ng_ok ns;
  nl_strings : Forall (fun n => at_pos (fileData D) (base + gso + ng_offset n) (ng_bytes n)) ns;
  nl_algs : at_pos (fileData D) (base + ao) (pack 4 [zlen aps] ++ flat_map alg_bytes aps);
  nl_acount : zlen aps < 2 ^ 32;
  nl_alg_ok : Forall alg_ok aps }.
Theorem names_read D h tso go gso ao toks strs ns aps o : head_ok h -> getDataOffset D unames = Ok o -> at_pos (fileData D) o h ->
  names_layout D (o + zlen h) tso go gso ao toks strs ns aps ->
  exists gs, populateData noNames D = Ok (mkNames (mkTokens toks strs) gs (map fst aps)) /\ Forall2 reads gs ns.
Proof.
  intros HH G A [NR NO NT ET EG [NTC NTF] NG NC NGK NS NA NAC NAK].
  destruct (header_at D unames h [] HH) as (o' & hd & GH & L & _); [exists o; rewrite app_nil_r; auto|].
  assert (o' = o) as -> by (unfold getDataOffsetAndHeader in GH; unfold getDataOffset in G; rewrite G in GH; cbn [bind] in GH; destruct (unpackHeader _); cbn [bind] in GH; congruence).
  unfold populateData. rewrite GH. cbn [bind]. rewrite L. set (base := o + zlen h) in *. unfold getData.
  pose proof (zlen_nonneg toks) as P1. pose proof (zlen_nonneg strs) as P2. pose proof (zlen_nonneg ns) as P3. pose proof (zlen_nonneg aps) as P4.
  rewrite (unpack_at 4 [tso; go; gso; ao]); [|lia|repeat constructor; change (256 ^ 4) with (2 ^ 32); lia|exact NO|reflexivity|reflexivity]. cbn [bind].
  apply at_app in NT as [NT1 NT]. apply at_app in NT as [NT2 NT3]. rewrite !zlen_pack in NT3 by lia. rewrite zlen_pack in NT2 by lia. change (2 * zlen [zlen toks]) with 2 in NT2, NT3.
  assert (PT : populateTokens (n_tokens noNames) D (base + 16) (tso + base) (go + base) = Ok (mkTokens toks strs)).
  { unfold populateTokens. cbn [noNames n_tokens noTokens t_tokens]. change (zlen [] =? 0) with true. cbn iota. unfold getData.
    rewrite (unpack_at 2 [zlen toks]); [|lia|repeat constructor; change (256 ^ 2) with 65536; lia|exact NT1|reflexivity|reflexivity]. cbn [bind].
    rewrite (unpack_at 2 toks); [|lia|exact NTF|exact NT2|lia|reflexivity]. cbn [bind]. f_equal. f_equal. apply at_slice; [|lia].
    replace (tso + base) with (base + 16 + 2 + 2 * zlen toks) by lia. exact NT3. }
  rewrite PT. cbn [bind]. apply at_app in NG as [NG1 NG2]. rewrite zlen_pack in NG2 by lia. change (2 * zlen [zlen ns]) with 2 in NG2. rewrite (Z.add_comm base go) in NG1, NG2.
  rewrite (unpack_at 2 [zlen ns]); [|lia|repeat constructor; change (256 ^ 2) with 65536; lia|exact NG1|reflexivity|reflexivity]. cbn [bind].
  replace (Z.to_nat (zlen ns)) with (length ns) by (unfold zlen; lia). rewrite (Z.add_comm gso base).
  destruct (groupsLoop_ok D (base + gso) ns (go + base + 2) NGK NG2 NS) as (gs & E & R). rewrite E. cbn [bind].
  apply at_app in NA as [NA1 NA2]. rewrite zlen_pack in NA2 by lia. change (4 * zlen [zlen aps]) with 4 in NA2. rewrite (Z.add_comm base ao) in NA1, NA2.
  rewrite (unpack_at 4 [zlen aps]); [|lia|repeat constructor; change (256 ^ 4) with (2 ^ 32); lia|exact NA1|reflexivity|reflexivity]. cbn [bind].
  replace (Z.to_nat (zlen aps)) with (length aps) by (unfold zlen; lia). rewrite (rangesLoop_ok D aps (ao + base + 4) NAK NA2). cbn [bind].
  exists gs. split; [reflexivity|exact R].
Qed.
