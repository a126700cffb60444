(** * Properties of UnicodeData/CharNames.py (C47-C51, C70-C72) *)
From Coq Require Import ZArith List Bool Lia ZifyBool Sorting.Sorted String.
From Verif Require Import Py Bytes Dict Utilities HexFacts Runs CharProps CharShipped ICUDataFile ICUFacts ICUItems Prop_ICUDataFile
  CharNames NamesLengths NamesFacts NamesIter NamesFile NamesMore.
Import ListNotations.
Open Scope Z_scope.
Local Notation length := List.length.

(** ** C47: the lengths of the strings of a group

    A length below 12 is one nibble, the others are two: 12 more than the six low bits
    of both.  [nib_bytes pad ns] packs the nibbles into bytes, the first one into the
    high half; a last odd nibble is followed by [pad].  When there is such a padding
    nibble below 12 the code takes it for the length of a 33rd string. *)
Theorem C47_lengths : forall D pad s ls, 0 <= pad < 16 -> zlen ls = 32 -> Forall (fun l => 0 <= l <= 75) ls ->
  at_pos (fileData D) s (nib_bytes pad (nibbles ls)) ->
  exists extra, (extra = [] \/ extra = [pad]) /\
    expandGroupLengths D s = Ok (s + zlen (nib_bytes pad (nibbles ls)), sums 0 (ls ++ extra), ls ++ extra).
Proof. exact lengths_ok. Qed.
Print Assumptions C47_lengths.
(** the offset of string [k] is the sum of the lengths before it *)
Theorem C47_offsets : forall ls k, (k < length ls)%nat -> nth_error (sums 0 ls) k = Some (fold_right Z.add 0 (firstn k ls)).
Proof.
  intros ls k H. rewrite <- (firstn_skipn k ls) at 1. rewrite sums_app, nth_error_app2; rewrite length_sums, firstn_length_le by lia; [|lia]. rewrite Nat.sub_diag.
  destruct (skipn k ls) as [|x r] eqn:E; [|reflexivity]. exfalso. pose proof (skipn_length k ls) as L. rewrite E in L. cbn in L. lia.
Qed.
Print Assumptions C47_offsets.
Definition some_lengths : list Z := [5; 11; 12; 0; 75; 30; 3] ++ repeat 1 25.
Example C47_case : zlen some_lengths = 32 /\
  nib_bytes 7 (nibbles some_lengths) = [0x5B; 0xC0; 0x0F; 0xFD; 0x23] ++ repeat 0x11 12 ++ [0x17] /\
  expandGroupLengths (mkICU ([9; 9] ++ nib_bytes 7 (nibbles some_lengths)) []) 2 = Ok (20, sums 0 (some_lengths ++ [7]), some_lengths ++ [7]) /\
  firstn 8 (sums 0 some_lengths) = [0; 5; 16; 28; 28; 103; 133; 136].
Proof. vm_compute. repeat split. Qed.

(** ** C48: the group of a code point *)
Theorem C48_group : forall N c g, StronglySorted (fun a b => g_msb a < g_msb b) (n_groups N) -> n_groups N <> [] ->
  getGroup N c = Ok (Some g) <-> In g (n_groups N) /\ 32 * g_msb g <= c < 32 * g_msb g + 32.
Proof.
  intros N c g HS NE. rewrite getGroup_ok by assumption. destruct (group_span g) as [G1 G2]. split.
  - intros E. assert (F : find (fun g => in_block g c) (n_groups N) = Some g) by congruence. apply find_some in F as [I B]. split; [exact I|]. unfold in_block in B. lia.
  - intros [I B]. f_equal. apply find_block; auto. unfold in_block. lia.
Qed.
Print Assumptions C48_group.
Theorem C48_no_group : forall N c, StronglySorted (fun a b => g_msb a < g_msb b) (n_groups N) -> n_groups N <> [] ->
  getGroup N c = Ok None <-> forall g, In g (n_groups N) -> ~ 32 * g_msb g <= c < 32 * g_msb g + 32.
Proof.
  intros N c HS NE. rewrite getGroup_ok by assumption. split.
  - intros E g I. assert (F : find (fun g => in_block g c) (n_groups N) = None) by congruence. pose proof (find_none _ _ F g I) as Q. cbv beta in Q. destruct (group_span g). unfold in_block in Q. lia.
  - intros H. f_equal. apply find_none_all. intros g I. specialize (H g I). destruct (group_span g). unfold in_block. lia.
Qed.
Print Assumptions C48_no_group.
(** the search ends for every table, sorted or not; without groups it raises *)
Theorem C48_total : forall N c, n_groups N <> [] -> exists r, getGroup N c = Ok r.
Proof.
  intros N c NE. unfold getGroup. set (gs := n_groups N) in *. assert (L0 : (0 < length gs)%nat) by (destruct gs; [congruence|cbn; lia]).
  destruct (search_ok gs (Z.shiftr c GROUP_SHIFT) (length gs) 0 (length gs)) as (k & E & Hk & _); try lia.
  { intros g G. exfalso. assert (nth_error gs (length gs) = None) by (apply nth_error_None; lia). congruence. }
  change (Z.of_nat 0) with 0 in E. change (Z.of_nat (length gs)) with (zlen gs) in E. rewrite E. cbn [bind]. rewrite get_nat.
  destruct (nth_error gs k) eqn:G; [eexists; reflexivity|apply nth_error_None in G; lia].
Qed.
Print Assumptions C48_total.
Theorem C48_no_table : forall N c, n_groups N = [] -> getGroup N c = Err IndexError.
Proof. exact getGroup_empty. Qed.
Print Assumptions C48_no_table.
Example C48_case : let N := mkNames noTokens [mkGroup 1 []; mkGroup 2 []; mkGroup 5 []] [] in
  StronglySorted (fun a b => g_msb a < g_msb b) (n_groups N) /\ map (fun c => getGroup N c) [31; 32; 95; 96; 160; 191; 192] =
    [Ok None; Ok (Some (mkGroup 1 [])); Ok (Some (mkGroup 2 [])); Ok None; Ok (Some (mkGroup 5 [])); Ok (Some (mkGroup 5 [])); Ok None].
Proof. split; [repeat constructor|vm_compute; reflexivity]. Qed.

(** ** C49: tokens

    The bytes of a name are characters that stand for themselves, tokens of one byte
    and tokens of two bytes; the text ends at a semicolon or with the bytes. *)
Theorem C49_expand : forall T choice ps tail, Forall (piece_ok T) ps -> field_end T tail ->
  choice <> U_EXTENDED_CHAR_NAME \/ flat_map piece_text ps <> [] \/ zlen (t_tokens T) <= 59 ->
  expandString T (flat_map piece_bytes ps ++ tail) choice = Ok (flat_map piece_text ps).
Proof. exact expand_ok. Qed.
Print Assumptions C49_expand.
(** an empty first field is skipped for extended names, if the semicolon is in the table *)
Theorem C49_extended_skips : forall T rest, nth_error (t_tokens T) 59 = Some 0xFFFF ->
  expandString T (59 :: rest) U_EXTENDED_CHAR_NAME = expandString T rest U_EXTENDED_CHAR_NAME.
Proof. exact expand_skips. Qed.
Print Assumptions C49_extended_skips.
Definition toks1 : list Z := [0xFFFE; 0; 7; 0xFFFF].
Definition strs1 : bytes := lit "LATIN " ++ [0] ++ lit "LETTER " ++ [0].
Definition T1 : tokens := mkTokens toks1 strs1.
Definition nameB : list piece := [Tok2 0 1 (lit "LATIN "); Tok 2 (lit "LETTER "); Lit 66; Lit 3].
Lemma text1 : nonzero (lit "LATIN ") /\ nonzero (lit "LETTER ").
Proof. split; repeat constructor; discriminate. Qed.
Lemma nameB_ok : Forall (piece_ok T1) nameB.
Proof.
  assert (T : token_text T1 1 (lit "LATIN ") /\ token_text T1 2 (lit "LETTER ")).
  { split; eexists; (split; [reflexivity|]); (split; [discriminate|]); (split; [apply text1|]).
    - exists [], (lit "LETTER " ++ [0]). split; reflexivity.
    - exists (lit "LATIN " ++ [0]), []. split; reflexivity. }
  destruct T as [T1' T2']. unfold nameB. constructor; [|constructor; [|constructor; [|constructor; [|constructor]]]]; cbn [piece_ok].
  - repeat split; try lia; try reflexivity. exact T1'.
  - repeat split; try lia; [exact T2'|discriminate].
  - repeat split; try lia; [discriminate|]. left. vm_compute. discriminate.
  - repeat split; try lia; [discriminate|]. right. reflexivity.
Qed.
Example C49_case : flat_map piece_bytes nameB = [0; 1; 2; 66; 3] /\
  expandString T1 ([0; 1; 2; 66; 3] ++ lit ";X") U_UNICODE_CHAR_NAME = Ok (lit "LATIN LETTER B" ++ [3]) /\ flat_map piece_text nameB = lit "LATIN LETTER B" ++ [3].
Proof. vm_compute. repeat split. Qed.

(** ** C50: algorithmic names *)
Theorem C50_hex_name : forall A c choice, a_type A = 0 -> choice = 0 \/ choice = 2 -> 0 <= c ->
  exists digits, algName A c choice = Ok (a_string A ++ digits) /\ readHex digits = c /\ Forall isHexChar digits /\
    (if a_variant A =? 4 then 4 else if a_variant A =? 5 then 5 else 6) <= zlen digits.
Proof.
  intros A c choice H1 H2 Hc. eexists. split; [apply algName_hex; assumption|]. set (w := if a_variant A =? 4 then 4%nat else if a_variant A =? 5 then 5%nat else 6%nat).
  destruct (formatHex_spec w c Hc) as (R1 & R2 & _ & R4).
  split; [exact R1|]. split; [exact R4|]. 
  assert (Ew : (if a_variant A =? 4 then 4 else if a_variant A =? 5 then 5 else 6) = Z.of_nat w) by (unfold w; destruct (a_variant A =? 4); [|destruct (a_variant A =? 5)]; reflexivity).
  rewrite Ew. unfold zlen. lia.
Qed.
Print Assumptions C50_hex_name.
Theorem C50_hex_unique : forall A c d choice, a_type A = 0 -> choice = 0 \/ choice = 2 -> 0 <= c -> 0 <= d -> algName A c choice = algName A d choice -> c = d.
Proof. exact hex_unique. Qed.
Print Assumptions C50_hex_unique.
(** the digits [ds] are the offset in mixed radix; the suffix is the elements they select, one from each table *)
Theorem C50_factored : forall A tables c choice, a_type A = 1 -> choice = 0 \/ choice = 2 -> table_ok A tables -> tables <> [] -> a_start A <= c < a_stop A ->
  exists ds, Forall2 (fun t d => 0 <= d < zlen t) tables ds /\
    radix_value 0 (combine (a_factors A) ds) = c - a_start A /\ algName A c choice = Ok (a_string A ++ spell tables ds).
Proof. intros A tables c choice H1 H2 H3 H4 H5. apply factor_ok; auto. unfold charInRange. lia. Qed.
Print Assumptions C50_factored.
(** [alternating]: neighbouring tables share no letters, and only the first and the last
    may have an empty element *)
Theorem C50_factored_unique : forall A tables c d choice, a_type A = 1 -> choice = 0 \/ choice = 2 -> table_ok A tables -> tables <> [] ->
  alternating tables -> Forall (@NoDup str) tables -> a_start A <= c < a_stop A -> a_start A <= d < a_stop A -> algName A c choice = algName A d choice -> c = d.
Proof. intros A tables c d choice H1 H2 H3 H4 H5 H6 H7 H8. apply (factor_unique A tables c d choice); auto; unfold charInRange; lia. Qed.
Print Assumptions C50_factored_unique.
Theorem C50_other_choices : forall A c choice, choice <> 0 -> choice <> 2 -> algName A c choice = Ok [].
Proof. exact algName_other. Qed.
Print Assumptions C50_other_choices.
(** the Hangul syllables *)
Definition jamo : list (list str) :=
  [map lit ["G"; "GG"; "N"; "D"; "DD"; "R"; "M"; "B"; "BB"; "S"; "SS"; ""; "J"; "JJ"; "C"; "K"; "T"; "P"; "H"];
   map lit ["A"; "AE"; "YA"; "YAE"; "EO"; "E"; "YEO"; "YE"; "O"; "WA"; "WAE"; "OE"; "YO"; "U"; "WEO"; "WE"; "WI"; "YU"; "EU"; "YI"; "I"];
   map lit [""; "G"; "GG"; "GS"; "N"; "NJ"; "NH"; "D"; "L"; "LG"; "LM"; "LB"; "LS"; "LT"; "LP"; "LH"; "M"; "B"; "BS"; "S"; "SS"; "NG"; "J"; "C"; "K"; "T"; "P"; "H"]]%string.
Definition hangul : algRange := mkAlg 0xAC00 0xD7A4 1 3 0 [19; 21; 28] (lit "HANGUL SYLLABLE ") (List.concat jamo).
Example C50_hangul_ok : table_ok hangul jamo /\ alternating jamo /\ Forall (@NoDup str) jamo.
Proof.
  split; [|split].
  - split; [exists []; reflexivity|]. split; [reflexivity|]. split; [repeat constructor; discriminate|vm_compute; discriminate].
  - assert (D : forall t u, forallb (fun e => forallb (fun x => forallb (fun f => forallb (fun y => negb (x =? y)) f) u) e) t = true -> forall x, letters t x -> letters u x -> False).
    { intros t u C x (e & He & Hx) (f & Hf & Hy). rewrite forallb_forall in C. specialize (C e He). rewrite forallb_forall in C. specialize (C x Hx).
      rewrite forallb_forall in C. specialize (C f Hf). rewrite forallb_forall in C. specialize (C x Hy). lia. }
    split; [apply D; vm_compute; reflexivity|]. split; [right; repeat constructor; discriminate|]. split; [apply D; vm_compute; reflexivity|]. split; [left; reflexivity|exact I].
  - repeat constructor; cbn; intuition discriminate.
Qed.
Example C50_case : algName hangul 0xD55C 0 = Ok (lit "HANGUL SYLLABLE HAN") /\ algName hangul 0xC544 2 = Ok (lit "HANGUL SYLLABLE A") /\
  algName (mkAlg 0x4E00 0xA000 0 4 0 [] (lit "CJK UNIFIED IDEOGRAPH-") []) 0x4E2D 0 = Ok (lit "CJK UNIFIED IDEOGRAPH-4E2D").
Proof. vm_compute. repeat split. Qed.

(** ** C51: iteration and lookup by name

    [names_wf]: sorted groups and sorted disjoint ranges; every string expands; a group
    has no name for what a range names; and each range contains a whole block of 32 code
    points for which there is no group. *)
Theorem C51_iterator : forall N choice, names_wf N choice -> choice <> U_EXTENDED_CHAR_NAME ->
  snd (nameIterator N choice) = Ok tt /\
  (forall c n, In (c, n) (fst (nameIterator N choice)) <-> n <> [] /\ getCharName N c choice = Ok n) /\
  StronglySorted Z.lt (map fst (fst (nameIterator N choice))).
Proof. exact iterator_exact. Qed.
Print Assumptions C51_iterator.
Theorem C51_lookup : forall N choice name c, names_wf N choice -> choice <> U_EXTENDED_CHAR_NAME -> name <> [] -> getCharName N c choice = Ok name ->
  exists c', charFromName N name choice = Ok c' /\ getCharName N c' choice = Ok name /\ forall d, getCharName N d choice = Ok name -> c' <= d.
Proof. exact lookup_found. Qed.
Print Assumptions C51_lookup.
Theorem C51_not_found : forall N choice name, names_wf N choice -> choice <> U_EXTENDED_CHAR_NAME -> name = [] \/ (forall c, getCharName N c choice <> Ok name) ->
  charFromName N name choice = Ok 0xFFFFFFFF.
Proof. exact lookup_missing. Qed.
Print Assumptions C51_not_found.

Definition strings2 : list bytes := [[]; [1; 2; 65]; [0; 1; 2; 66] ++ lit ";OLD B"] ++ repeat [] 29.
Definition hex1 (start stop : Z) : algRange := mkAlg start stop 0 4 0 [] (lit "R-") [].
Definition N1 : names := mkNames T1 [mkGroup 2 strings2; mkGroup 4 (repeat [] 32)] [hex1 0x81 0xD0; hex1 0xE0 0x100].
Example C51_wf : names_wf N1 0.
Proof.
  constructor; cbn [n_tokens n_groups n_ranges N1].
  - repeat constructor.
  - discriminate.
  - repeat constructor; cbn; lia.
  - assert (C : forallb (fun g => forallb (fun c => match expandName T1 g (Z.land c GROUP_MASK) 0 with Ok _ => true | Err _ => false end) (py_range (g_start g) (g_stop g)))
      [mkGroup 2 strings2; mkGroup 4 (repeat [] 32)] = true) by (vm_compute; reflexivity).
    intros g c I B. rewrite forallb_forall in C. specialize (C g I). rewrite forallb_forall in C. specialize (C c). unfold in_block in B.
    destruct (expandName T1 g (Z.land c GROUP_MASK) 0) as [s|e]; [eexists; reflexivity|]. discriminate C. apply py_range_in. lia.
  - repeat constructor; cbn; lia.
  - discriminate.
  - repeat constructor; cbn; lia.
  - intros a c [<-|[<-|[]]] B; unfold charInRange in B; cbn in B; eexists; apply algName_hex; auto; lia.
  - intros g a c [<-|[<-|[]]] [<-|[<-|[]]] B1 B2; unfold in_block in B1; destruct (group_span (mkGroup 2 strings2)) as [G1 G2]; destruct (group_span (mkGroup 4 (repeat [] 32))) as [G3 G4];
      unfold charInRange in B2; cbn [a_start a_stop hex1 g_msb] in *; try lia.
    assert (C : forallb (fun c => match expandName T1 (mkGroup 4 (repeat [] 32)) (Z.land c GROUP_MASK) 0 with Ok [] => true | _ => false end) (zrange 128 160) = true) by (vm_compute; reflexivity).
    rewrite forallb_forall in C. specialize (C c). destruct (expandName T1 _ _ _) as [[|]|]; [reflexivity| |]; (discriminate C; apply zrange_spec; lia).
  - constructor; [exists 5|constructor; [exists 7|constructor]]; (split; [cbn; lia|]); (split; [cbn; lia|]); intros g [<-|[<-|[]]]; cbn; lia.
Qed.
Example C51_case : charFromName N1 (lit "LATIN LETTER B") 0 = Ok 66 /\ charFromName N1 (lit "R-00AB") 0 = Ok 0xAB /\ charFromName N1 (lit "OLD B") 0 = Ok 0xFFFFFFFF /\
  charFromName N1 (lit "OLD B") 1 = Ok 66 /\ List.length (fst (nameIterator N1 0)) = 113%nat.
Proof. vm_compute. repeat split. Qed.
(** Without the whole block a range may be stepped over, and then all ranges after it are lost:
    here the first ends inside a block and the second is shorter than the step. *)
Definition N2 : names := mkNames T1 [mkGroup 2 strings2] [hex1 0x80 0x96; hex1 0xA0 0xA9; hex1 0xC0 0x120].
Theorem C51_lookup_refuted : exists N c name, StronglySorted (fun a b => a_stop a <= a_start b) (n_ranges N) /\
  getCharName N c U_UNICODE_CHAR_NAME = Ok name /\ name <> [] /\ charFromName N name U_UNICODE_CHAR_NAME = Ok 0xFFFFFFFF.
Proof.
  exists N2, 0xC0, (lit "R-00C0"). split; [repeat constructor; cbn; lia|]. split; [vm_compute; reflexivity|]. split; [discriminate|vm_compute; reflexivity].
Qed.
Print Assumptions C51_lookup_refuted.
(** For extended names iteration and [getCharName] differ even then. *)
Theorem C51_extended_refuted : exists N c name, In (c, name) (fst (nameIterator N U_EXTENDED_CHAR_NAME)) /\ charFromName N name U_EXTENDED_CHAR_NAME = Ok c /\
  getCharName N c U_EXTENDED_CHAR_NAME <> Ok name.
Proof.
  exists N1, 65, (lit "LATIN LETTER A"). split; [|split].
  - assert (E : hd_error (fst (nameIterator N1 U_EXTENDED_CHAR_NAME)) = Some (65, lit "LATIN LETTER A")) by (vm_compute; reflexivity).
    destruct (fst (nameIterator N1 U_EXTENDED_CHAR_NAME)) as [|x l]; [discriminate|]. left. injection E as ->. reflexivity.
  - vm_compute. reflexivity.
  - assert (E : getCharName N1 65 U_EXTENDED_CHAR_NAME = Ok (lit "<uppercase letter-0041>")) by (vm_compute; reflexivity). rewrite E. discriminate.
Qed.
Print Assumptions C51_extended_refuted.

(** ** C70: names from the file

    [names_body] is the item: four offsets, the tokens and their strings, the table of
    groups, the lengths and strings of each group, the algorithmic ranges.  Each group
    read has the 32 strings of the group written, and perhaps one more. *)
Theorem C70_names_from_file : forall head cs pre h toks strs gs aps tail,
  file_ok head cs -> In (mkContent pre unames (h ++ names_body toks strs gs aps ++ tail)) cs -> head_ok h -> body_ok toks strs gs aps ->
  exists D groups, ICUDataFile.populateData noData (icu_file head cs) = (D, Ok tt) /\
    CharNames.populateData noNames D = Ok (mkNames (mkTokens toks strs) groups (map fst aps)) /\
    Forall2 (fun g w => g_msb g = fst (fst w) /\ exists extra, zlen extra <= 1 /\ g_strings g = snd w ++ extra) groups gs.
Proof.
  intros head cs pre h toks strs gs aps tail K I HH B. destruct (file_round_trip head cs K) as (d & E & H1 & _). destruct (H1 _ I) as (o & G & A). cbn [c_name c_data] in *.
  apply at_app in A as [A1 A2]. apply at_app in A2 as [A2 _].
  destruct (body_layout (mkICU (icu_file head cs) d) (o + zlen h) toks strs gs aps B A2) as (tso & go & gso & ao & NL).
  destruct (names_read (mkICU (icu_file head cs) d) h tso go gso ao toks strs (place 0 gs) aps o HH G A1 NL) as (groups & P & R).
  eexists _, groups. split; [exact E|]. split; [exact P|].
  assert (Q : forall off, Forall2 reads groups (place off gs) -> Forall2 (fun g w => g_msb g = fst (fst w) /\ exists extra, zlen extra <= 1 /\ g_strings g = snd w ++ extra) groups gs).
  { clear. revert groups. induction gs as [|[[m p] ss] r IH]; intros groups off R; cbn [place] in R; inversion R as [|g ? gr ? R1 R2]; subst; constructor; [exact R1|]. eapply IH. exact R2. }
  exact (Q 0 R).
Qed.
Print Assumptions C70_names_from_file.
(** the name of a code point, from the file to the text *)
Theorem C70_name : forall head cs pre h toks strs gs aps tail c pad ss ps rest,
  file_ok head cs -> In (mkContent pre unames (h ++ names_body toks strs gs aps ++ tail)) cs -> head_ok h -> body_ok toks strs gs aps ->
  StronglySorted (fun a b => fst (fst a) < fst (fst b)) gs -> In (c / 32, pad, ss) gs -> (forall ap, In ap aps -> ~ a_start (fst ap) <= c < a_stop (fst ap)) ->
  nth_error ss (Z.to_nat (c mod 32)) = Some (flat_map piece_bytes ps ++ rest) -> Forall (piece_ok (mkTokens toks strs)) ps -> field_end (mkTokens toks strs) rest ->
  exists D N, ICUDataFile.populateData noData (icu_file head cs) = (D, Ok tt) /\ CharNames.populateData noNames D = Ok N /\
    getCharName N c U_UNICODE_CHAR_NAME = Ok (flat_map piece_text ps).
Proof.
  intros head cs pre h toks strs gs aps tail c pad ss ps rest K I HH B S Ig NA EN FP FE.
  destruct (C70_names_from_file head cs pre h toks strs gs aps tail K I HH B) as (D & groups & E1 & E2 & R). exists D, (mkNames (mkTokens toks strs) groups (map fst aps)).
  split; [exact E1|]. split; [exact E2|].
  assert (GS : groups_sorted groups /\ exists g, In g groups /\ g_msb g = c / 32 /\ exists extra, g_strings g = ss ++ extra).
  { clear -R S Ig. revert S Ig. induction R as [|g w groups gs (R1 & x & _ & R2) R IH]; intros S Ig; [destruct Ig|]. inversion S as [|? ? S' F]; subst.
    assert (Q : groups_sorted groups).
    { clear -R S'. induction R as [|g w groups gs (R1 & _) R IH]; [constructor|]. inversion S' as [|? ? S2 F]; subst. constructor; [apply IH; exact S2|].
      clear -R R1 F. induction R as [|g' w' groups gs (R1' & _) R IH]; [constructor|]. inversion F as [|? ? F1 F2]; subst. constructor; [lia|apply IH; exact F2]. }
    split.
    - constructor; [exact Q|]. clear -R R1 F. induction R as [|g' w' groups gs (R1' & _) R IH]; [constructor|]. inversion F as [|? ? F1 F2]; subst. constructor; [lia|apply IH; exact F2].
    - destruct Ig as [->|Ig]; [exists g; split; [left; reflexivity|]; split; [exact R1|exists x; exact R2]|].
      destruct (IH S' Ig) as (_ & g' & I' & H1 & H2). exists g'. split; [right; exact I'|]. auto. }
  destruct GS as (GS & g & Hg & Hm & extra & Hs).
  unfold getCharName. cbn [n_ranges]. rewrite find_none_all.
  2:{ intros a Ha. apply in_map_iff in Ha as (ap & <- & Ha). specialize (NA ap Ha). unfold charInRange. lia. }
  change (U_UNICODE_CHAR_NAME =? U_EXTENDED_CHAR_NAME) with false. cbv iota. unfold groupName. rewrite getGroup_ok; [|exact GS|cbn; destruct groups; [destruct Hg|discriminate]].
  cbn [bind n_groups n_tokens]. rewrite (find_block groups g c GS Hg) by (rewrite msb_block; lia).
  unfold expandName. change (Z.land c GROUP_MASK) with (Z.land c (Z.ones 5)). rewrite Z.land_ones by lia. change (2 ^ 5) with 32.
  rewrite py_get_pos by (apply Z.mod_pos_bound; lia). rewrite Hs, nth_error_app1 by (apply nth_error_Some; congruence). rewrite EN. cbn [bind].
  change (negb (U_UNICODE_CHAR_NAME =? U_UNICODE_CHAR_NAME)) with false. cbn [andb bind]. apply expand_ok; auto. left. discriminate.
Qed.
Print Assumptions C70_name.
(** two groups, a padded hexadecimal range and a factored one *)
Definition facRange : algRange := mkAlg 0xE0 0xE4 1 2 26 [2; 2] (lit "F-") [lit "A"; lit "B"; lit "C"; []].
Definition apsX : list (algRange * bytes) := [(mkAlg 0x80 0x96 0 4 16 [] (lit "R-") [], [9]); (facRange, [])].
Definition gsX : list (Z * Z * list bytes) := [(2, 0, strings2); (4, 5, lit "Q" :: repeat [] 31)].
Definition bodyX : bytes := names_body toks1 strs1 gsX apsX.
Definition filesX : list content := [mkContent [100] [97] [1; 2; 3]; mkContent [100] unames (head24 ++ bodyX ++ [])].
Example C70_ok : file_ok head24 filesX /\ head_ok head24 /\ body_ok toks1 strs1 gsX apsX.
Proof.
  split; [|split].
  - constructor.
    + split; vm_compute; [discriminate|reflexivity].
    + repeat constructor; cbn; discriminate.
    + repeat constructor; cbn; intuition discriminate.
    + vm_compute. reflexivity.
  - split; vm_compute; [discriminate|reflexivity].
  - split; [vm_compute; reflexivity|]. split; [vm_compute; reflexivity|]. split; [repeat constructor; lia|]. split; [vm_compute; reflexivity|]. split.
    + constructor; [|constructor; [|constructor]]; (split; [cbn; lia|]); (split; [cbn; lia|]); (split; [reflexivity|]);
        apply Forall_forall; intros s Hs; apply Z.leb_le; revert s Hs; apply forallb_forall; vm_compute; reflexivity.
    + constructor; [|constructor; [|constructor]]; (split; [cbn; lia|]); (split; [cbn; lia|]); (split; [cbn; lia|]); (split; [cbn; lia|]); (split; [vm_compute; reflexivity|]);
        (split; [cbn; lia|]); (split; [repeat constructor; discriminate|]); cbn; auto.
      split; [reflexivity|]. split; [repeat constructor; lia|]. split; [|reflexivity]. repeat constructor; cbn; discriminate.
Qed.
Definition NX : names := match CharNames.populateData noNames (fst (ICUDataFile.populateData noData (icu_file head24 filesX))) with Ok N => N | Err _ => noNames end.
Example C70_case : n_ranges NX = map fst apsX /\ map g_msb (n_groups NX) = [2; 4] /\ getCharName NX 66 0 = Ok (lit "LATIN LETTER B") /\ getCharName NX 66 1 = Ok (lit "OLD B") /\
  getCharName NX 128 0 = Ok (lit "R-0080") /\ map (fun c => getCharName NX c 0) [0xE0; 0xE1; 0xE2; 0xE3; 0xE4] = map (fun s => Ok (lit s)) ["F-AC"; "F-A"; "F-BC"; "F-B"; ""]%string.
Proof. vm_compute. repeat split. Qed.

(** ** C71: extended names *)
(** outside the algorithmic ranges: the category and the code point, for every code point *)
Theorem C71_extended : forall N c, (forall a, In a (n_ranges N) -> ~ a_start a <= c < a_stop a) -> 0 <= c <= 0x10FFFF ->
  exists k cat, getCharCat c = Ok k /\ nth_error charCatNames (Z.to_nat k) = Some cat /\
    getCharName N c U_EXTENDED_CHAR_NAME = Ok (lit "<" ++ cat ++ lit "-" ++ formatHex 4 c ++ lit ">").
Proof. intros N c O. apply extended_ok. intros a Ha. specialize (O a Ha). unfold charInRange. lia. Qed.
Print Assumptions C71_extended.
(** the category: noncharacters and surrogates have their own *)
Theorem C71_category : forall c, 0 <= c <= 0x10FFFF -> exists gc, getGeneralCategory icu c = Ok gc /\
  getCharCat c = Ok (if isUnicodeNoncharacter c then 30 else if gc =? GC_SURROGATE then (if isLead c then 31 else 32) else gc).
Proof.
  intros c H. destruct (gc_range c H) as (g & E & _). exists g. split; [exact E|]. unfold getCharCat. destruct (isUnicodeNoncharacter c); [reflexivity|]. rewrite E. reflexivity.
Qed.
Print Assumptions C71_category.
Theorem C71_extended_unique : forall N c d, (forall a, In a (n_ranges N) -> ~ a_start a <= c < a_stop a) -> (forall a, In a (n_ranges N) -> ~ a_start a <= d < a_stop a) ->
  0 <= c <= 0x10FFFF -> 0 <= d <= 0x10FFFF -> getCharName N c U_EXTENDED_CHAR_NAME = getCharName N d U_EXTENDED_CHAR_NAME -> c = d.
Proof.
  intros N c d Oc Od Hc Hd E. destruct (C71_extended N c Oc Hc) as (k & cat & _ & G & Q). destruct (C71_extended N d Od Hd) as (k' & cat' & _ & G' & Q'). rewrite Q, Q' in E.
  pose proof cat_no_dash as ND. rewrite Forall_forall in ND. apply (synthetic_unique cat cat' c d); try lia.
  - apply ND. apply (nth_error_In _ _ G).
  - apply ND. apply (nth_error_In _ _ G').
  - injection E as E. exact (f_equal (app (lit "<")) E).
Qed.
Print Assumptions C71_extended_unique.
(** "Standard or synthetic Unicode character name" (CharNames.py:67): it is synthetic even when there is a standard name. *)
Theorem C71_standard_refuted : exists N c name, names_wf N U_UNICODE_CHAR_NAME /\ name <> [] /\ getCharName N c U_UNICODE_CHAR_NAME = Ok name /\ getCharName N c U_EXTENDED_CHAR_NAME <> Ok name.
Proof.
  exists N1, 65, (lit "LATIN LETTER A"). split; [exact C51_wf|]. split; [discriminate|]. split; [vm_compute; reflexivity|].
  assert (E : getCharName N1 65 U_EXTENDED_CHAR_NAME = Ok (lit "<uppercase letter-0041>")) by (vm_compute; reflexivity). rewrite E. discriminate.
Qed.
Print Assumptions C71_standard_refuted.
(** Above the code points everything is unassigned. *)
Theorem C71_above : forall N c, (forall a, In a (n_ranges N) -> ~ a_start a <= c < a_stop a) -> 0x10FFFF < c ->
  getCharName N c U_EXTENDED_CHAR_NAME = Ok (lit "<unassigned-" ++ formatHex 4 c ++ lit ">").
Proof.
  intros N c O H. unfold getCharName. rewrite (find_none_all _ _) by (intros a Ha; specialize (O a Ha); unfold charInRange; lia). change (U_EXTENDED_CHAR_NAME =? U_EXTENDED_CHAR_NAME) with true. cbv iota.
  assert (C : getCharCat c = Ok 0).
  { unfold getCharCat, isUnicodeNoncharacter. replace (c <=? 0x10ffff) with false by lia. rewrite andb_false_r. unfold getGeneralCategory, UTrie2.get, UTrie2.indexFromCodePoint.
    replace (c <? 0xD800) with false by lia. replace (c <=? 0xFFFF) with false by lia. replace (c >=? 0x10FFFF) with true by lia. vm_compute. reflexivity. }
  unfold getCharCatName. rewrite C. cbn [bind]. replace (0 >=? zlen charCatNames) with false by reflexivity. change (py_get charCatNames 0) with (Ok (lit "unassigned")). cbn [bind].
  unfold formatHexInt. replace (c <? 0) with false by lia. reflexivity.
Qed.
Print Assumptions C71_above.
(** Negative integers have a name if the tables give them a category: with a minus sign and
    three digits or more. *)
Theorem C71_negative : forall N c g cat, (forall a, In a (n_ranges N) -> ~ a_start a <= c < a_stop a) -> c < 0 ->
  getGeneralCategory icu c = Ok g -> 0 <= g < 30 -> g <> GC_SURROGATE -> nth_error charCatNames (Z.to_nat g) = Some cat ->
  getCharName N c U_EXTENDED_CHAR_NAME = Ok (lit "<" ++ cat ++ lit "-" ++ lit "-" ++ formatHex 3 (- c) ++ lit ">").
Proof.
  intros N c g cat O H G B NS E. unfold getCharName. rewrite (find_none_all _ _) by (intros a Ha; specialize (O a Ha); unfold charInRange; lia). change (U_EXTENDED_CHAR_NAME =? U_EXTENDED_CHAR_NAME) with true. cbv iota.
  unfold getCharCatName, getCharCat, isUnicodeNoncharacter. replace (c >=? 0xfdd0) with false by lia. cbn [andb]. rewrite G. cbn [bind]. replace (g =? GC_SURROGATE) with false by lia.
  change (zlen charCatNames) with 33. replace (g >=? 33) with false by lia. rewrite py_get_pos by lia. rewrite E. cbn [bind]. unfold formatHexInt. replace (c <? 0) with true by lia. reflexivity.
Qed.
Print Assumptions C71_negative.
(** and the shipped tables do so: they are read from their ends *)
Theorem C71_negative_refuted : exists N cat, getGeneralCategory icu (-1) = Ok 29 /\ nth_error charCatNames 29 = Some cat /\ cat <> lit "unassigned" /\
  getCharName N (-1) U_EXTENDED_CHAR_NAME = Ok (lit "<" ++ cat ++ lit "--001>").
Proof. exists N1, (lit "final punctuation"). repeat split; try (vm_compute; reflexivity). discriminate. Qed.
Print Assumptions C71_negative_refuted.
Example C71_case : map (fun c => getCharName N1 c 2) [0xD800; 0xDC00; 0xFFFE; 0x378; 0xE000; 10] =
  map (fun s => Ok (lit s)) ["<lead surrogate-D800>"; "<trail surrogate-DC00>"; "<noncharacter-FFFE>"; "<unassigned-0378>"; "<private use area-E000>"; "<control-000A>"]%string.
Proof. vm_compute. reflexivity. Qed.

(** ** C72: populateData again

    Every call appends the groups and ranges once more ([loaded k]: [k] times); names and
    groups stay the same, however often. *)
Theorem C72_appends : forall D N k, CharNames.populateData noNames D = Ok N -> CharNames.populateData (loaded (S k) N) D = Ok (loaded (S (S k)) N).
Proof. exact load_again. Qed.
Print Assumptions C72_appends.
Theorem C72_same_names : forall k N c choice, StronglySorted (fun a b => g_msb a < g_msb b) (n_groups N) -> n_groups N <> [] ->
  getCharName (loaded (S k) N) c choice = getCharName N c choice /\ getGroup (loaded (S k) N) c = getGroup N c.
Proof. intros k N c choice HS NE. split; [apply loaded_name; assumption|]. rewrite loaded_group, getGroup_ok by assumption. reflexivity. Qed.
Print Assumptions C72_same_names.
Example C72_case : CharNames.populateData NX (fst (ICUDataFile.populateData noData (icu_file head24 filesX))) = Ok (loaded 2 NX) /\
  map g_msb (n_groups (loaded 3 NX)) = [2; 4; 2; 4; 2; 4] /\ getCharName (loaded 3 NX) 66 0 = Ok (lit "LATIN LETTER B").
Proof. vm_compute. repeat split. Qed.
