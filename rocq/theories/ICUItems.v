(** * Items of the ICU data file: normalisation data and layout properties. *)
From Coq Require Import ZArith List Bool Lia ZifyBool.
From Verif Require Import Py Arr Bytes Dict CPTrie CPTrieBinary ICUDataFile ICUFacts Normalizer2 Normalizer2File.
Import ListNotations.
Open Scope Z_scope.

(** an item of the file: a header of at least 24 bytes that starts with its length, and a body *)
Definition head_ok (h : bytes) : Prop := 24 <= zlen h /\ le (firstn 2 h) = zlen h.
Definition holds_item (D : icuData) (name : str) (b : bytes) : Prop := exists o, getDataOffset D name = Ok o /\ at_pos (fileData D) o b.

Lemma header_at D name h body : head_ok h -> holds_item D name (h ++ body) ->
  exists o hd, getDataOffsetAndHeader D name = Ok (o, hd) /\ ICUDataFile.headerLength hd = zlen h /\ at_pos (fileData D) (o + zlen h) body.
Proof.
  intros [L E] (o & G & A). unfold getDataOffsetAndHeader. unfold getDataOffset in G. rewrite G. cbn [bind].
  assert (S : py_slice (fileData D) o (o + dataHeaderLength) = firstn 24 h).
  { apply at_slice; [|unfold zlen in *; rewrite firstn_length_le by lia; reflexivity].
    rewrite <- (firstn_skipn 24 h), <- app_assoc in A. apply at_app in A as [A _]. exact A. }
  rewrite S. unfold unpackHeader.
  assert (L24 : zlen (firstn 24 h) = 24) by (unfold zlen in *; rewrite firstn_length_le by lia; reflexivity).
  rewrite L24. cbn [Z.eqb Pos.eqb negb dataHeaderLength bind].
  eexists o, _. split; [reflexivity|]. split.
  - cbn [ICUDataFile.headerLength]. rewrite <- E. f_equal. unfold py_slice, py_bound. rewrite L24. change (firstn 2 (firstn 24 h) = firstn 2 h). rewrite firstn_firstn. reflexivity.
  - apply at_app in A as [_ A]. exact A.
Qed.

Lemma unpackI_at D i x l : 0 <= x < 2 ^ 32 -> at_pos (fileData D) i (pack 4 (x :: l)) -> unpackI (getData D i (i + 4)) = Ok x.
Proof.
  intros H A. unfold unpackI, getData. change (x :: l) with ([x] ++ l) in A. rewrite pack_app in A. apply at_app in A as [A _].
  rewrite (unpack_at 4 [x]); [reflexivity|lia|repeat constructor; change (256 ^ 4) with (2 ^ 32); lia|exact A|reflexivity|reflexivity].
Qed.
Lemma py_get_nth (l : list Z) k x : nth_error l k = Some x -> py_get l (Z.of_nat k) = Ok x.
Proof. intros H. unfold py_get. replace (Z.of_nat k <? 0) with false by lia. cbv zeta. replace (Z.of_nat k <? 0) with false by lia. rewrite Nat2Z.id, H. reflexivity. Qed.

(** ** Normalisation data: indexes, trie (perhaps with padding), extra data *)
Record nrm_ok (T : cpfile) (pad : bytes) (ix extra : list Z) : Prop := {
  nk_trie : cpfile_ok T;
  nk_ix : Forall (fun x => 0 <= x < 2 ^ 32) ix;
  nk_extra : Forall (fun x => 0 <= x < 2 ^ 16) extra;
  nk_0 : nth_error ix 0 = Some (4 * zlen ix);
  nk_1 : nth_error ix 1 = Some (4 * zlen ix + zlen (cp_encode T ++ pad));
  nk_2 : nth_error ix 2 = Some (4 * zlen ix + zlen (cp_encode T ++ pad) + 2 * zlen extra) }.
Definition nrm_body (T : cpfile) (pad : bytes) (ix extra : list Z) (tail : bytes) : bytes :=
  pack 4 ix ++ (cp_encode T ++ pad) ++ pack 2 extra ++ tail.

Theorem nrm_read D package h T pad ix extra tail : head_ok h -> nrm_ok T pad ix extra ->
  holds_item D (package ++ nrm) (h ++ nrm_body T pad ix extra tail) ->
  createFromFileData D package = newNormalizer2 (cp_decoded T) (arr_of_list ix) (arr_of_list extra).
Proof.
  intros HH [KT KI KE K0 K1 K2] HI. destruct (header_at D _ h _ HH HI) as (o & hd & G & L & A). unfold createFromFileData. rewrite G. cbn [bind]. rewrite L.
  set (base := o + zlen h) in *. unfold nrm_body in A. apply at_app in A as [A1 A]. apply at_app in A as [A2 A]. apply at_app in A as [A3 _].
  rewrite zlen_pack in A2, A3 by lia. pose proof (zlen_nonneg ix) as P0. pose proof (zlen_nonneg (cp_encode T ++ pad)) as P1. pose proof (zlen_nonneg extra) as P2.
  destruct ix as [|x0 ixr]; [discriminate|]. assert (x0 = 4 * zlen (x0 :: ixr)) as X0 by (cbn [nth_error] in K0; congruence).
  set (ix := x0 :: ixr) in *. assert (R0 : 0 <= x0 < 2 ^ 32) by (inversion KI; assumption).
  rewrite (unpackI_at D base x0 ixr R0 A1). cbn [bind].
  replace (x0 / 4) with (zlen ix) by (rewrite X0, Z.mul_comm, Z.div_mul by lia; reflexivity).
  unfold getData. rewrite (unpack_at 4 ix) by (auto; try lia; change (256 ^ 4) with (2 ^ 32); assumption). cbn [bind].
  change IX_NORM_TRIE_OFFSET with (Z.of_nat 0). rewrite (py_get_nth _ _ _ K0). cbn [bind].
  change IX_EXTRA_DATA_OFFSET with (Z.of_nat 1). rewrite (py_get_nth _ _ _ K1). cbn [bind].
  change IX_SMALL_FCD_OFFSET with (Z.of_nat 2). rewrite (py_get_nth _ _ _ K2).
  rewrite (at_slice (fileData D) (cp_encode T ++ pad)); [|rewrite Z.add_comm; exact A2|lia].
  rewrite cp_round_trip by exact KT. cbn [bind].
  rewrite (unpack_at 2 extra); [reflexivity|lia|exact KE| | |].
  - replace (4 * zlen ix + zlen (cp_encode T ++ pad) + base) with (base + 4 * zlen ix + zlen (cp_encode T ++ pad)) by lia. exact A3.
  - lia.
  - replace (4 * zlen ix + zlen (cp_encode T ++ pad) + 2 * zlen extra + base - (4 * zlen ix + zlen (cp_encode T ++ pad) + base)) with (zlen extra * 2) by lia.
    apply Z.div_mul. lia.
Qed.

(** ** Layout properties: indexes and three tries *)
Record layout_ok (T1 T2 T3 : cpfile) (p1 p2 p3 : bytes) (ix : list Z) : Prop := {
  lk_1 : cpfile_ok T1; lk_2 : cpfile_ok T2; lk_3 : cpfile_ok T3;
  lk_ix : Forall (fun x => 0 <= x < 2 ^ 32) ix;
  lk_i0 : nth_error ix 0 = Some (zlen ix);
  lk_i1 : nth_error ix 1 = Some (4 * zlen ix + zlen (cp_encode T1 ++ p1));
  lk_i2 : nth_error ix 2 = Some (4 * zlen ix + zlen (cp_encode T1 ++ p1) + zlen (cp_encode T2 ++ p2));
  lk_i3 : nth_error ix 3 = Some (4 * zlen ix + zlen (cp_encode T1 ++ p1) + zlen (cp_encode T2 ++ p2) + zlen (cp_encode T3 ++ p3)) }.
Theorem layout_read D h T1 T2 T3 p1 p2 p3 ix tail : head_ok h -> layout_ok T1 T2 T3 p1 p2 p3 ix ->
  holds_item D ulayout (h ++ pack 4 ix ++ (cp_encode T1 ++ p1) ++ (cp_encode T2 ++ p2) ++ (cp_encode T3 ++ p3) ++ tail) ->
  loadLayout D = Ok (mkLayout (cp_decoded T1) (cp_decoded T2) (cp_decoded T3)).
Proof.
  intros HH [KT1 KT2 KT3 KI K0 K1 K2 K3] HI. destruct (header_at D _ h _ HH HI) as (o & hd & G & L & A). unfold loadLayout. rewrite G. cbn [bind]. rewrite L.
  set (base := o + zlen h) in *. apply at_app in A as [A0 A]. apply at_app in A as [A1 A]. apply at_app in A as [A2 A]. apply at_app in A as [A3 _].
  rewrite zlen_pack in A1, A2, A3 by lia. pose proof (zlen_nonneg ix) as P0.
  destruct ix as [|x0 ixr]; [discriminate|]. assert (x0 = zlen (x0 :: ixr)) as X0 by (cbn [nth_error] in K0; congruence).
  set (ix := x0 :: ixr) in *. assert (R0 : 0 <= x0 < 2 ^ 32) by (inversion KI; assumption).
  rewrite (unpackI_at D base x0 ixr R0 A0). cbn [bind].
  unfold getData. rewrite (unpack_at 4 ix) by (auto; try lia; change (256 ^ 4) with (2 ^ 32); assumption). cbn [bind].
  change ULAYOUT_IX_INPC_TRIE_TOP with (Z.of_nat 1). rewrite (py_get_nth _ _ _ K1). cbn [bind].
  change ULAYOUT_IX_INSC_TRIE_TOP with (Z.of_nat 2). rewrite (py_get_nth _ _ _ K2).
  change ULAYOUT_IX_VO_TRIE_TOP with (Z.of_nat 3). rewrite (py_get_nth _ _ _ K3).
  rewrite (at_slice (fileData D) (cp_encode T1 ++ p1) (base + x0 * 4)); [|replace (base + x0 * 4) with (base + 4 * zlen ix) by lia; exact A1|lia].
  rewrite cp_round_trip by exact KT1. cbn [bind].
  rewrite (at_slice (fileData D) (cp_encode T2 ++ p2)); [| |lia].
  2:{ replace (4 * zlen ix + zlen (cp_encode T1 ++ p1) + base) with (base + 4 * zlen ix + zlen (cp_encode T1 ++ p1)) by lia. exact A2. }
  rewrite cp_round_trip by exact KT2. cbn [bind].
  rewrite (at_slice (fileData D) (cp_encode T3 ++ p3)); [| |lia].
  2:{ replace (4 * zlen ix + zlen (cp_encode T1 ++ p1) + zlen (cp_encode T2 ++ p2) + base)
        with (base + 4 * zlen ix + zlen (cp_encode T1 ++ p1) + zlen (cp_encode T2 ++ p2)) by lia. exact A3. }
  rewrite cp_round_trip by exact KT3. reflexivity.
Qed.
