(** * Properties of UnicodeData/ICUDataFile.py and of what is read from the file (C46, C67-C69) *)
From Coq Require Import ZArith List Bool Lia.
From Verif Require Import Py Arr Bytes Dict CPTrie CPTrieLookup CPTrieBinary ICUDataFile ICUFacts ICUKept ICUItems Normalizer2 Normalizer2File.
Import ListNotations.
Open Scope Z_scope.

(** ** C46

    [icu_file head cs] is the data file with header [head] and the items [cs]: the
    number of items, for each the offsets of its name and of its data counted from
    the end of the header, the names, which are [prefix/name] and a zero byte, and
    the data. *)
Theorem C46_file : forall head cs, file_ok head cs ->
  exists D, populateData noData (icu_file head cs) = (D, Ok tt) /\
  (forall c, In c cs -> exists o, getDataOffset D (c_name c) = Ok o /\ getData D o (o + zlen (c_data c)) = c_data c) /\
  (forall name, ~ In name (map c_name cs) -> getDataOffset D name = Err KeyError /\ getDataOffsetAndHeader D name = Err KeyError).
Proof.
  intros head cs K. destruct (file_round_trip head cs K) as (d & E & H1 & H2). eexists. split; [exact E|]. split.
  - intros c Hc. destruct (H1 c Hc) as (o & G & A). exists o. split; [exact G|]. apply at_slice; [exact A|reflexivity].
  - intros name Hn. specialize (H2 name Hn). split; [exact H2|]. unfold getDataOffsetAndHeader. unfold getDataOffset in H2. rewrite H2. reflexivity.
Qed.
Print Assumptions C46_file.
(** The items may also be anywhere, in any order and share bytes: what counts is that the
    table is where the header ends and that the name of each item is where it says. *)
Theorem C46_any_table : forall D file hl its, fileData D = [] -> toc_ok file hl its ->
  exists d, populateData D file = (mkICU file d, Ok tt) /\
    forall name, dict_find d name = match last_offset its name with Some o => Some (o + hl) | None => dict_find (dataOffsets D) name end.
Proof. exact populate_ok. Qed.
Print Assumptions C46_any_table.
Theorem C46_strings : forall D i s, nonzero s -> at_pos (fileData D) i (s ++ [0]) -> getString D i = Ok s.
Proof. exact getString_ok. Qed.
Print Assumptions C46_strings.
Theorem C46_unterminated : forall D i s, nonzero s -> 0 <= i -> (exists p, fileData D = p ++ s /\ zlen p = i) -> getString D i = Err IndexError.
Proof. exact getString_unterminated. Qed.
Print Assumptions C46_unterminated.
Theorem C46_names : forall D i prefix name, nonzero prefix -> nonzero name -> Forall (fun y => y <> 47) prefix ->
  at_pos (fileData D) i (prefix ++ [47] ++ name ++ [0]) -> getName D i = Ok name.
Proof. exact getName_ok. Qed.
Print Assumptions C46_names.
(** and these are all the files that can be read *)
Theorem C46_exactly : forall file, Forall byte file -> (snd (populateData noData file) = Ok tt <-> exists hl its, toc_ok file hl its).
Proof.
  intros file F. destruct (populateData noData file) as [D r] eqn:E. cbn [snd]. split.
  - intros ->. destruct (populate_kept file D (Ok tt) F E) as (_ & hl & its & _ & _ & T). eauto.
  - intros (hl & its & T). destruct (populate_ok noData file hl its eq_refl T) as (d & E' & _). congruence.
Qed.
Print Assumptions C46_exactly.
(** the file is read once *)
Theorem C46_loaded_once : forall D disk, fileData D <> [] -> populateData D disk = (D, Ok tt).
Proof. exact populate_again. Qed.
Print Assumptions C46_loaded_once.

Definition head24 : bytes := [24; 0; 0xDA; 0x27] ++ [20; 0; 0; 0; 0; 0; 2; 0] ++ [67; 109; 110; 68] ++ [1; 0; 0; 0; 66; 0; 0; 0].
(** [d/a.icu] with the data 1 2 3, [d/b/c] without data, [/] with the data 9 *)
Definition three : list content := [mkContent [100] [97; 46; 105; 99; 117] [1; 2; 3]; mkContent [100] [98; 47; 99] []; mkContent [] [] [9]].
(** The fields of a header: H B B H H B B B B 4s 8B (ICUDataFile.py:19-35). *)
Theorem C46_header : forall hl m1 m2 size word big family uchar byte format version,
  0 <= hl < 2 ^ 16 -> 0 <= size < 2 ^ 16 -> 0 <= word < 2 ^ 16 -> zlen format = 4 -> zlen version = 8 ->
  unpackHeader ([hl mod 256; hl / 256; m1; m2; size mod 256; size / 256; word mod 256; word / 256; big; family; uchar; byte] ++ format ++ version) =
    Ok {| headerLength := hl; magic1 := m1; magic2 := m2; infoSize := size; reservedWord := word; isBigEndian := big; charsetFamily := family;
          sizeofUChar := uchar; reservedByte := byte; dataFormat := format; versions := version |}.
Proof.
  intros hl m1 m2 size word big family uchar byte format version H1 H2 H3 F V.
  unfold zlen in F, V. do 5 (destruct format as [|? format]; try (cbn [length] in F; lia)). do 9 (destruct version as [|? version]; try (cbn [length] in V; lia)).
  assert (LE : forall x, le [x mod 256; x / 256] = x) by (intros x; cbn [le]; pose proof (Z.div_mod x 256); lia).
  unfold unpackHeader. match goal with |- context [py_slice ?b 0 2] => change (py_slice b 0 2) with [hl mod 256; hl / 256]; change (py_slice b 4 6) with [size mod 256; size / 256]; change (py_slice b 6 8) with [word mod 256; word / 256] end.
  rewrite !LE. reflexivity.
Qed.
Print Assumptions C46_header.
Theorem C46_header_length : forall b, zlen b <> 24 -> unpackHeader b = Err StructError.
Proof. intros b H. unfold unpackHeader. apply Z.eqb_neq in H. change dataHeaderLength with 24. rewrite H. reflexivity. Qed.
Print Assumptions C46_header_length.
Example C46_three_ok : file_ok head24 three.
Proof.
  constructor.
  - split; vm_compute; [discriminate|reflexivity].
  - repeat constructor; cbn; discriminate.
  - repeat constructor; cbn; intuition discriminate.
  - vm_compute. reflexivity.
Qed.
Example C46_case : let D := fst (populateData noData (icu_file head24 three)) in
  icu_file head24 three = head24 ++ [3; 0; 0; 0] ++ [28; 0; 0; 0; 44; 0; 0; 0] ++ [36; 0; 0; 0; 47; 0; 0; 0] ++ [42; 0; 0; 0; 47; 0; 0; 0]
    ++ [100; 47; 97; 46; 105; 99; 117; 0] ++ [100; 47; 98; 47; 99; 0] ++ [47; 0] ++ [1; 2; 3; 9] /\
  dataOffsets D = [([97; 46; 105; 99; 117], 68); ([98; 47; 99], 71); ([], 71)] /\ getData D 68 71 = [1; 2; 3].
Proof. vm_compute. auto. Qed.

(** ** C67: normalisation data

    [nrm_body T pad ix extra tail]: the indexes, the trie with the contents [T] (and
    perhaps padding), the extra data and whatever follows. *)
Theorem C67_normalizer_from_file : forall head cs package pre h T pad ix extra tail,
  file_ok head cs -> In (mkContent pre (package ++ nrm) (h ++ nrm_body T pad ix extra tail)) cs -> head_ok h -> nrm_ok T pad ix extra ->
  exists D, populateData noData (icu_file head cs) = (D, Ok tt) /\
    createFromFileData D package = newNormalizer2 (cp_decoded T) (arr_of_list ix) (arr_of_list extra).
Proof.
  intros head cs package pre h T pad ix extra tail K I HH NK. destruct (file_round_trip head cs K) as (d & E & H1 & _).
  eexists. split; [exact E|]. apply (nrm_read _ package h T pad ix extra tail HH NK). destruct (H1 _ I) as (o & G & A). exists o. split; assumption.
Qed.
Print Assumptions C67_normalizer_from_file.
Theorem C67_normalizer_missing : forall head cs package, file_ok head cs -> ~ In (package ++ nrm) (map c_name cs) ->
  exists D, populateData noData (icu_file head cs) = (D, Ok tt) /\ createFromFileData D package = Err KeyError.
Proof.
  intros head cs package K N. destruct (C46_file head cs K) as (D & E & _ & M). exists D. split; [exact E|].
  destruct (M _ N) as [_ M']. unfold createFromFileData. rewrite M'. reflexivity.
Qed.
Print Assumptions C67_normalizer_missing.
(** In particular an item that holds the hard-coded tables gives the hard-coded normaliser. *)
Theorem C67_same_as_hard_coded : forall D package h T pad ix extra tail, head_ok h -> nrm_ok T pad ix extra ->
  holds_item D (package ++ nrm) (h ++ nrm_body T pad ix extra tail) ->
  cp_decoded T = nfc_trie -> arr_of_list ix = Data_NFC.norm2_nfc_data_indexes -> arr_of_list extra = Data_NFC.norm2_nfc_data_extraData ->
  createFromFileData D package = createFromHardCodedData.
Proof.
  intros D package h T pad ix extra tail HH NK HI E1 E2 E3. rewrite (nrm_read D package h T pad ix extra tail HH NK HI), E1, E2, E3. reflexivity.
Qed.
Print Assumptions C67_same_as_hard_coded.

(** a small item: 20 indexes, a trie with three values, two words of extra data *)
Definition mini : cpfile := mkCPFile 0x54726933 0 1 0 0x7FFF 0 0 [0] [5; 6; 7].
Definition mini_ix : list Z := [80; 104; 108; 0; 0; 0; 0; 0; 0xC0; 0x300; 10; 12; 20; 0xFC00; 14; 15; 16; 17; 0x300; 0].
Definition mini_cs : list content :=
  three ++ [mkContent [100] ([110; 102; 99] ++ nrm) (head24 ++ nrm_body mini [] mini_ix [7; 0xFFFF] [1])].
Example C67_mini_ok : nrm_ok mini [] mini_ix [7; 0xFFFF] /\ head_ok head24 /\ file_ok head24 mini_cs.
Proof.
  split; [|split].
  - constructor; try reflexivity.
    + constructor; cbn; try lia; repeat constructor; lia.
    + repeat constructor; lia.
    + repeat constructor; lia.
  - split; vm_compute; [discriminate|reflexivity].
  - constructor.
    + split; vm_compute; [discriminate|reflexivity].
    + repeat constructor; cbn; discriminate.
    + repeat constructor; cbn; intuition discriminate.
    + vm_compute. reflexivity.
Qed.
Example C67_case : exists N, createFromFileData (fst (populateData noData (icu_file head24 mini_cs))) [110; 102; 99] = Ok N /\
  cpget (n_trie N) 0 = Ok 5.
Proof. eexists. split; [vm_compute; reflexivity|]. reflexivity. Qed.

(** ** C68: layout properties *)
Theorem C68_layout_from_file : forall head cs pre h T1 T2 T3 p1 p2 p3 ix tail,
  file_ok head cs ->
  In (mkContent pre ulayout (h ++ pack 4 ix ++ (cp_encode T1 ++ p1) ++ (cp_encode T2 ++ p2) ++ (cp_encode T3 ++ p3) ++ tail)) cs ->
  head_ok h -> layout_ok T1 T2 T3 p1 p2 p3 ix ->
  exists D L, populateData noData (icu_file head cs) = (D, Ok tt) /\ loadLayout D = Ok L /\
    forall c, getInPC L c = cpget (cp_decoded T1) c /\ getInSC L c = cpget (cp_decoded T2) c /\ getVO L c = cpget (cp_decoded T3) c.
Proof.
  intros head cs pre h T1 T2 T3 p1 p2 p3 ix tail K I HH LK. destruct (file_round_trip head cs K) as (d & E & H1 & _).
  eexists _, _. split; [exact E|]. split; [apply (layout_read _ h T1 T2 T3 p1 p2 p3 ix tail HH LK)|].
  - destruct (H1 _ I) as (o & G & A). exists o. split; assumption.
  - intros c. repeat split.
Qed.
Print Assumptions C68_layout_from_file.
(** and so each code point has the values that the three stored tries give it *)
Theorem C68_layout_values : forall head cs pre h L1 L2 L3 p1 p2 p3 ix tail,
  file_ok head cs ->
  In (mkContent pre ulayout (h ++ pack 4 ix ++ (cp_encode (layout_file L1) ++ p1) ++ (cp_encode (layout_file L2) ++ p2) ++ (cp_encode (layout_file L3) ++ p3) ++ tail)) cs ->
  head_ok h -> layout_ok (layout_file L1) (layout_file L2) (layout_file L3) p1 p2 p3 ix ->
  Forall (fun L => cplayout_ok L /\ q_highStart L mod 512 = 0) [L1; L2; L3] ->
  exists D Y, populateData noData (icu_file head cs) = (D, Ok tt) /\ loadLayout D = Ok Y /\
    forall c, 0 <= c <= 0x10FFFF -> getInPC Y c = Ok (cp_value L1 c) /\ getInSC Y c = Ok (cp_value L2 c) /\ getVO Y c = Ok (cp_value L3 c).
Proof.
  intros head cs pre h L1 L2 L3 p1 p2 p3 ix tail K I HH LK F.
  destruct (C68_layout_from_file head cs pre h _ _ _ p1 p2 p3 ix tail K I HH LK) as (D & Y & E1 & E2 & V). exists D, Y. split; [exact E1|]. split; [exact E2|].
  assert (G : forall L, cplayout_ok L /\ q_highStart L mod 512 = 0 -> cpfile_ok (layout_file L) ->
    forall c, 0 <= c <= 0x10FFFF -> cpget (cp_decoded (layout_file L)) c = Ok (cp_value L c)).
  { intros L [KL M] KF c Hc. destruct (cp_file_lookup L [] KL M KF) as (t & Et & At). rewrite cp_round_trip in Et by exact KF.
    assert (cp_decoded (layout_file L) = t) as -> by congruence. apply At. exact Hc. }
  inversion F as [|? ? F1 F']; subst. inversion F' as [|? ? F2 F'']; subst. inversion F'' as [|? ? F3 _]; subst.
  destruct LK. intros c Hc. destruct (V c) as (-> & -> & ->). repeat split; apply G; assumption.
Qed.
Print Assumptions C68_layout_values.

Definition mini_l : list Z := [12; 72; 96; 120; 120; 120; 120; 120; 0; 0; 0; 0].
Definition mini2 : cpfile := mkCPFile 0x54726933 0 1 0 0x7FFF 0 0 [1] [5; 6; 7].
Definition mini3 : cpfile := mkCPFile 0x54726933 0 1 2 0x7FFF 0 0 [2] [5; 6; 8; 9].
Definition mini_lay : list content :=
  [mkContent [100] ulayout (head24 ++ pack 4 mini_l ++ (cp_encode mini ++ []) ++ (cp_encode mini2 ++ []) ++ (cp_encode mini3 ++ [0; 0]) ++ [])].
Example C68_mini_ok : layout_ok mini mini2 mini3 [] [] [0; 0] mini_l /\ file_ok head24 mini_lay.
Proof.
  split.
  - constructor; try reflexivity; try (constructor; cbn; try lia; repeat constructor; lia).
  - constructor.
    + split; vm_compute; [discriminate|reflexivity].
    + repeat constructor; cbn; discriminate.
    + repeat constructor; cbn; intuition discriminate.
    + vm_compute. reflexivity.
Qed.
Example C68_case : exists L, loadLayout (fst (populateData noData (icu_file head24 mini_lay))) = Ok L /\
  getInPC L 0 = Ok 5 /\ getInSC L 2 = Ok 7 /\ getVO L 2 = Ok 8.
Proof. eexists. split; [vm_compute; reflexivity|]. repeat split; vm_compute; reflexivity. Qed.

(** ** C69: a file that could not be loaded

    The class remembers the bytes of the file before it has read the table, and takes
    non-empty bytes to mean that all is loaded. *)
Theorem C69_failure_repeats_refuted : forall disk D e, disk <> [] -> populateData noData disk = (D, Err e) -> populateData D disk = (D, Ok tt).
Proof.
  intros disk D e N E. apply populate_again. rewrite (populate_keeps_bytes disk D (Err e) E). exact N.
Qed.
Print Assumptions C69_failure_repeats_refuted.
(** with a name without a slash after a good one: the first ICUData() raises, the
    second succeeds and knows only the items before the bad one *)
Theorem C69_partly_loaded_refuted : exists disk D, populateData noData disk = (D, Err ValueError) /\
  populateData D disk = (D, Ok tt) /\ map fst (dataOffsets D) = [[120]] /\ zlen (dataOffsets D) <> le (py_slice disk 24 28).
Proof.
  exists (head24 ++ pack 4 [2] ++ pack 4 [20; 26; 24; 26] ++ [100; 47; 120; 0] ++ [121; 0] ++ [1]). eexists.
  split; [vm_compute; reflexivity|]. split; [vm_compute; reflexivity|]. split; [reflexivity|]. vm_compute. discriminate.
Qed.
Print Assumptions C69_partly_loaded_refuted.
(** In general the class knows, from then on, the entries before the first bad one, whatever the bytes are. *)
Theorem C69_kept : forall file D e, Forall byte file -> populateData noData file = (D, Err e) -> fileData D = file /\
  exists hl its, Forall (item_ok file hl) its /\
    (forall name, getDataOffset D name = match last_offset its name with Some o => Ok (o + hl) | None => Err KeyError end) /\
    (its = [] \/ exists h n, at_pos file 0 h /\ zlen h = 24 /\ le (firstn 2 h) = hl /\ zlen its < n /\
       at_pos file hl (pack 4 [n] ++ pack 4 (toc_words its)) /\ forall t, ~ entry_at file hl (hl + 4 + 8 * zlen its) t).
Proof.
  intros file D e F E. destruct (populate_kept file D (Err e) F E) as (B & hl & its & I & O & _ & R). split; [exact B|]. exists hl, its. split; [exact I|]. split; [|exact R].
  intros name. unfold getDataOffset, dict_get. rewrite O. unfold offset_in. destruct (last_offset its name); reflexivity.
Qed.
Print Assumptions C69_kept.
(** What does hold: an empty file fails every time. *)
Theorem C69_empty_file_partial : populateData noData [] = (noData, Err StructError).
Proof. reflexivity. Qed.
Print Assumptions C69_empty_file_partial.
