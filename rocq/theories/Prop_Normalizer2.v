(** * Properties of UnicodeData/Normalizer2.py (C43-C45, C62-C66) *)
From Coq Require Import ZArith List Bool Lia.
From Verif Require Import Py Arr SpecText CPTrie CharProps Data_NFC Normalizer2 NormFacts NormShipped NormDecompType.
Import ListNotations.
Open Scope Z_scope.

(** ** C43: Hangul

    [syllable l v t] is the Unicode formula for the syllable made of the jamo with
    numbers [l], [v] and [t] ([t = 0]: no trailing consonant), and [jamo l v t] the
    text of those jamo. *)
Theorem C43_syllables c : 0xAC00 <= c <= 0xD7A3 -> exists l v t, jamo_ok l v t /\ c = 0xAC00 + (l * 21 + v) * 28 + t /\
  hangulDecomposition c = Ok ([0x1100 + l; 0x1161 + v] ++ (if t =? 0 then [] else [0x11A7 + t])) /\
  rawHangulDecomposition c = Ok (if t =? 0 then [0x1100 + l; 0x1161 + v] else [0xAC00 + (l * 21 + v) * 28; 0x11A7 + t]).
Proof.
  intros H. destruct (syllable_parts c H) as (l & v & t & K & ->). exists l, v, t. split; [exact K|]. split; [reflexivity|].
  split; [exact (hangul_ok l v t K)|]. rewrite (rawHangul_ok l v t K). unfold syllable. rewrite Z.add_0_r. reflexivity.
Qed.
Print Assumptions C43_syllables.
Theorem C43_recompose l v t : jamo_ok l v t -> hangulDecomposition (syllable l v t) = Ok (jamo l v t).
Proof. exact (hangul_ok l v t). Qed.
Print Assumptions C43_recompose.
Theorem C43_injective c c' : 0xAC00 <= c <= 0xD7A3 -> 0xAC00 <= c' <= 0xD7A3 -> hangulDecomposition c = hangulDecomposition c' -> c = c'.
Proof.
  intros H H'. destruct (syllable_parts c H) as (l & v & t & K & ->), (syllable_parts c' H') as (l' & v' & t' & K' & ->).
  rewrite !hangul_ok by assumption. intros E. destruct (jamo_inj l v t l' v' t' K K') as (-> & -> & ->); [congruence|reflexivity].
Qed.
Print Assumptions C43_injective.
(** decomposing the syllable in the raw decomposition gives the full one *)
Theorem C43_raw_expands l v t : jamo_ok l v t -> t <> 0 ->
  exists s, rawHangulDecomposition (syllable l v t) = Ok [s; 0x11A7 + t] /\ hangulDecomposition s = Ok [0x1100 + l; 0x1161 + v] /\
    hangulDecomposition (syllable l v t) = Ok ([0x1100 + l; 0x1161 + v] ++ [0x11A7 + t]).
Proof.
  intros K T. exists (syllable l v 0). rewrite rawHangul_ok by exact K. apply Z.eqb_neq in T. rewrite T. split; [reflexivity|].
  rewrite !hangul_ok; [|exact K|unfold jamo_ok in *; lia]. unfold jamo. rewrite T. split; reflexivity.
Qed.
Print Assumptions C43_raw_expands.
(** and with the shipped data these are what the two methods return for every syllable *)
Theorem C43_shipped l v t : jamo_ok l v t -> getDecomposition nfc (syllable l v t) = Ok (Some (jamo l v t)) /\
  getRawDecomposition nfc (syllable l v t) = Ok (Some (if t =? 0 then [0x1100 + l; 0x1161 + v] else [syllable l v 0; 0x11A7 + t])).
Proof.
  intros K. assert (S : is_syllable (syllable l v t) = true) by (unfold is_syllable, syllable, jamo_ok in *; apply andb_true_iff; split; apply Z.leb_le; lia).
  destruct (nfc_cases (syllable l v t)) as [[A _]|[[_ (l' & v' & t' & K' & E & F & R)]|[A _]]]; try congruence.
  - unfold syllable, jamo_ok in *. lia.
  - assert (l = l' /\ v = v' /\ t = t') as (<- & <- & <-) by (unfold syllable, jamo_ok in *; lia). split; assumption.
Qed.
Print Assumptions C43_shipped.
Example C43_case : hangulDecomposition 0xD4DB = Ok [0x1111; 0x1171; 0x11B6] /\ rawHangulDecomposition 0xD4DB = Ok [0xD4CC; 0x11B6] /\
  getDecomposition nfc 0xAC00 = Ok (Some [0x1100; 0x1161]) /\ syllable 17 16 15 = 0xD4DB.
Proof. repeat split; vm_compute; reflexivity. Qed.

(** ** C44: mapping strings *)
Theorem C44_mapping_strings N i text : Forall scalar text -> stored (extraData N) i (utf16s text) ->
  stringFromData N i (zlen (utf16s text)) = Ok text.
Proof. exact (stringFromData_ok N i text). Qed.
Print Assumptions C44_mapping_strings.
Example C44_case : let N := mkNorm2 nfc_trie 0 0 0 0 0 0 (arr_of_list []) (arr_of_list [7; 0x41; 0xD834; 0xDD57; 0x308]) in
  utf16s [0x41; 0x1D157; 0x308] = [0x41; 0xD834; 0xDD57; 0x308] /\ stringFromData N 1 4 = Ok [0x41; 0x1D157; 0x308].
Proof. split; vm_compute; reflexivity. Qed.

(** ** C45: full decomposition is the closure of raw decomposition

    [expands c r]: replacing every character by its raw decomposition again and again,
    starting from [c], ends in the text [r]; there is at most one such text. *)
Theorem C45_closure c : 0 <= c <= 0x10FFFF -> exists r, expands c r /\ (forall r', expands c r' -> r' = r) /\
  (forall x, In x r -> getRawDecomposition nfc x = Ok None) /\
  ((getRawDecomposition nfc c = Ok None /\ getDecomposition nfc c = Ok None /\ r = [c]) \/
   exists l, getRawDecomposition nfc c = Ok (Some l) /\ getDecomposition nfc c = Ok (Some r)).
Proof.
  intros H. destruct (nfc_closure c H) as (r & E & F & D). exists r. split; [exact E|]. split; [intros r' E'; exact (expands_det c r' E' r E)|].
  split; [exact F|]. destruct D as [[[N1 N2] ->]|D]; [left; auto|right; exact D].
Qed.
Print Assumptions C45_closure.
(** so nothing in a decomposition decomposes further, by either method *)
Theorem C45_final c f x : 0 <= c <= 0x10FFFF -> getDecomposition nfc c = Ok (Some f) -> In x f ->
  getRawDecomposition nfc x = Ok None /\ getDecomposition nfc x = Ok None.
Proof.
  intros H F Hx. destruct (nfc_closure c H) as (r & E & Q & [[[_ N] _]|(l & R & F')]); [congruence|].
  assert (r = f) as -> by congruence. specialize (Q x Hx). split; [exact Q|].
  destruct (nfc_results c H) as [[N _]|(r' & f' & _ & F2 & _ & _ & _ & S & _)]; [congruence|].
  assert (f' = f) as -> by congruence. rewrite Forall_forall in S. specialize (S x Hx).
  assert (Hr : 0 <= x <= 0x10FFFF) by (unfold scalar in S; lia).
  destruct (nfc_results x Hr) as [[_ N]|(? & ? & R2 & _)]; [exact N|congruence].
Qed.
Print Assumptions C45_final.
Example C45_case : getRawDecomposition nfc 0x1F84 = Ok (Some [0x1F04; 0x345]) /\ getRawDecomposition nfc 0x1F04 = Ok (Some [0x1F00; 0x301]) /\
  getRawDecomposition nfc 0x1F00 = Ok (Some [0x3B1; 0x313]) /\ getDecomposition nfc 0x1F84 = Ok (Some [0x3B1; 0x313; 0x301; 0x345]) /\
  getRawDecomposition nfc 0x2126 = Ok (Some [0x3A9]) /\ getDecomposition nfc 0x1D15F = Ok (Some [0x1D158; 0x1D165]).
Proof. repeat split; vm_compute; reflexivity. Qed.

(** ** C62: entries of the mapping data, for all data

    An entry [e] has a text, an optional raw mapping (a text of its own, or one
    character that stands for the first two units), an optional word of combining
    classes and some further bits; [entry_words e] is how ICU stores it, and
    [entry_at N ix e] says it is stored with its first unit at [ix]. *)
Theorem C62_full N c v ix e : sane N -> minDecompNoCP N <= c -> getNorm16 N c = Ok v -> mapping_value N v ix -> entry_ok e -> entry_at N ix e ->
  getDecomposition N c = Ok (Some (en_text e)).
Proof. exact (mapping_full N c v ix e). Qed.
Print Assumptions C62_full.
Theorem C62_raw N c v ix e r : sane N -> minDecompNoCP N <= c -> getNorm16 N c = Ok v -> mapping_value N v ix -> entry_ok e -> entry_at N ix e ->
  raw_is e r -> getRawDecomposition N c = Ok (nonempty r).
Proof. exact (mapping_raw N c v ix e r). Qed.
Print Assumptions C62_raw.
(** entries of the shipped data: U+00C5, U+1E08 (raw mapping by its first character), U+1F84 and U+1D160 (with a text) and U+0344 (with a word of classes) *)
Ltac find_entry := intros k Hk; do 16 (try (destruct k; [vm_compute; reflexivity|])); exfalso; vm_compute in Hk; lia.
Ltac entry_case := split; [split; [apply scalars_ok; reflexivity|split; [vm_compute; discriminate|cbn [en_raw en_text]]]|
  eexists _, _; (split; [vm_compute; reflexivity|]); (split; [split; [reflexivity|repeat split; vm_compute; congruence]|]); find_entry].
Definition shipped_entry (c : Z) (e : entry) : Prop := entry_ok e /\ exists v ix, getNorm16 nfc c = Ok v /\ mapping_value nfc v ix /\ entry_at nfc ix e.
Example C62_case_plain : shipped_entry 0xC5 (mkEntry [0x41; 0x30A] NoRaw None 0xE6 false).
Proof. entry_case. exact I. Qed.
Example C62_case_first : let e := mkEntry [0x43; 0x327; 0x301] (RawFirst 0xC7) None 0xE6 false in shipped_entry 0x1E08 e /\ raw_is e [0xC7; 0x301].
Proof. split; [entry_case; split; [lia|]; exists [0x43; 0x327], [0x301]; split; reflexivity|]. exists [0x43; 0x327], [0x301]. repeat split. Qed.
Example C62_case_text : shipped_entry 0x1F84 (mkEntry [0x3B1; 0x313; 0x301; 0x345] (RawText [0x1F04; 0x345]) None 0xF0 false).
Proof. entry_case. split; [apply scalars_ok; reflexivity|vm_compute; discriminate]. Qed.
Example C62_case_long : shipped_entry 0x1D160 (mkEntry [0x1D158; 0x1D165; 0x1D16E] (RawText [0x1D15F; 0x1D16E]) None 0xD8 false).
Proof. entry_case. split; [apply scalars_ok; reflexivity|vm_compute; discriminate]. Qed.
Example C62_case_classes : shipped_entry 0x344 (mkEntry [0x308; 0x301] NoRaw (Some 0xE6E6) 0xE6 false).
Proof. entry_case. exact I. Qed.

(** ** C63: the other kinds of values, and the constructor, for all data *)
Theorem C63_no_decomposition N c v : sane N -> minYesNo N <= limitNoNo N -> getNorm16 N c = Ok v ->
  c < minDecompNoCP N \/ v < minYesNo N \/ minMaybeYes N <= v -> getDecomposition N c = Ok None /\ getRawDecomposition N c = Ok None.
Proof. intros HS HL G [H|H]; [exact (none_small N c v G H)|exact (none_yes N c v HS HL G H)]. Qed.
Print Assumptions C63_no_decomposition.
Theorem C63_lead_surrogates N c : 0xD800 <= c <= 0xDBFF -> 1 < minYesNo N -> sane N -> minYesNo N <= limitNoNo N ->
  getDecomposition N c = Ok None /\ getRawDecomposition N c = Ok None.
Proof. exact (none_lead N c). Qed.
Print Assumptions C63_lead_surrogates.
(** a value between the limit and the maximum stands for a distance *)
Theorem C63_distance_raw N c v delta : aligned N -> sane N -> minYesNo N <= limitNoNo N -> minDecompNoCP N <= c -> getNorm16 N c = Ok v -> delta_value N v delta ->
  limitNoNo N <= v < minMaybeYes N -> v <> minYesNo N -> v <> Z.lor (minYesNoMappingsOnly N) 1 -> 0 <= c + delta <= 0x10FFFF ->
  getRawDecomposition N c = Ok (Some [c + delta]).
Proof. exact (algorithmic_raw N c v delta). Qed.
Print Assumptions C63_distance_raw.
(** the full decomposition is then that of the other character *)
Theorem C63_distance_full N c v delta w : aligned N -> sane N -> minYesNo N <= limitNoNo N -> minDecompNoCP N <= c -> getNorm16 N c = Ok v -> delta_value N v delta ->
  limitNoNo N <= v < minMaybeYes N -> 0 <= c + delta <= 0x10FFFF -> ~ 0xD800 <= c + delta <= 0xDBFF -> minDecompNoCP N <= c + delta ->
  getRawNorm16 N (c + delta) = Ok w -> w < limitNoNo N ->
  getDecomposition N c = (if w <? minYesNo N then Ok (Some [c + delta]) else getDecomposition N (c + delta)).
Proof. exact (algorithmic_other N c v delta w). Qed.
Print Assumptions C63_distance_full.
Theorem C63_constructor trie ix extra m : (forall i, 8 <= i <= 18 -> exists v, aget ix i = Ok v) -> aget ix 13 = Ok m ->
  (m mod 8 = 0 -> exists N, newNormalizer2 trie ix extra = Ok N /\ n_trie N = trie /\ aget ix 8 = Ok (minDecompNoCP N) /\ aget ix 10 = Ok (minYesNo N) /\
    aget ix 12 = Ok (limitNoNo N) /\ aget ix 14 = Ok (minYesNoMappingsOnly N) /\ minMaybeYes N = m /\ aligned N /\
    forall k i l, k = (0xfc00 - m) / 2 -> 0 <= k -> 0 <= i -> k + i + zlen l <= alen extra ->
      (stored (extraData N) i l <-> stored extra (k + i) l)) /\
  (m mod 8 <> 0 -> newNormalizer2 trie ix extra = Err AssertionError).
Proof.
  intros H Hm. split; intros A; [|exact (new_unaligned trie ix extra H m Hm A)].
  destruct (new_ok trie ix extra H m Hm A) as (N & E & P1 & P2 & P3 & P4 & P5 & P6 & P7 & P8 & _). exists N.
  repeat (split; [assumption|]). intros k i l -> Hk Hi L. rewrite P8. apply arr_from_stored; [|exact Hi|exact L]. pose proof (zlen_nonneg l). lia.
Qed.
Print Assumptions C63_constructor.
Example C63_case : createFromHardCodedData = Ok nfc /\ sane nfc /\ aligned nfc /\ minYesNo nfc <= limitNoNo nfc /\
  getNorm16 nfc 0x2000 = Ok 64009 /\ delta_value nfc 64009 2 /\ getRawDecomposition nfc 0x2000 = Ok (Some [0x2002]) /\
  getDecomposition nfc 0x2000 = Ok (Some [0x2002]) /\ getRawNorm16 nfc 0xD800 = Ok 15462 /\ getDecomposition nfc 0xD800 = Ok None.
Proof.
  repeat split; try (vm_compute; reflexivity); try (vm_compute; discriminate). exists 1. split; [lia|]. split; [reflexivity|lia].
Qed.

(** ** C64: the shipped results are well formed *)
Theorem C64_results c : 0 <= c <= 0x10FFFF ->
  (getRawDecomposition nfc c = Ok None /\ getDecomposition nfc c = Ok None) \/
  exists r f, getRawDecomposition nfc c = Ok (Some r) /\ getDecomposition nfc c = Ok (Some f) /\
    192 <= c /\ scalar c /\ Forall scalar r /\ Forall scalar f /\ ~ In c r /\ ~ In c f /\ (zlen r = 1 \/ zlen r = 2) /\ 1 <= zlen f <= 4.
Proof. exact (nfc_results c). Qed.
Print Assumptions C64_results.
Theorem C64_other_integers c : 0x10FFFF < c \/ -7892 <= c < 0 -> getRawDecomposition nfc c = Ok None /\ getDecomposition nfc c = Ok None.
Proof. intros [H|H]; [apply nfc_above; lia|apply nfc_below; lia]. Qed.
Print Assumptions C64_other_integers.
(** below that the trie's data is too short *)
Theorem C64_negative_refuted : exists c, c < 0 /\ getDecomposition nfc c = Err IndexError.
Proof. exists (-10000). split; [lia|vm_compute; reflexivity]. Qed.
Print Assumptions C64_negative_refuted.
Example C64_case : getDecomposition nfc 0x1F84 = Ok (Some [0x3B1; 0x313; 0x301; 0x345]) /\ getDecomposition nfc 0x41 = Ok None /\ getDecomposition nfc (-1) = Ok None.
Proof. repeat split; vm_compute; reflexivity. Qed.

(** ** C65: a pair of characters is the raw decomposition of at most one *)
Theorem C65_pairs c c' x y : 0 <= c <= 0x10FFFF -> 0 <= c' <= 0x10FFFF ->
  getRawDecomposition nfc c = Ok (Some [x; y]) -> getRawDecomposition nfc c' = Ok (Some [x; y]) -> c = c'.
Proof. exact (nfc_pairs c c' x y). Qed.
Print Assumptions C65_pairs.
Example C65_case : getRawDecomposition nfc 0xC5 = Ok (Some [0x41; 0x30A]) /\ getRawDecomposition nfc 0xAC01 = Ok (Some [0xAC00; 0x11A8]).
Proof. split; vm_compute; reflexivity. Qed.

(** ** C66: the characters that decompose are those of the canonical decomposition type (1) *)
Theorem C66_decomposition_type c : 0 <= c <= 0x10FFFF -> (getDecompType icu c = Ok 1 <-> exists f, getDecomposition nfc c = Ok (Some f)).
Proof. exact (canonical_decomposes c). Qed.
Print Assumptions C66_decomposition_type.
Example C66_case : getDecompType icu 0xC5 = Ok 1 /\ getDecompType icu 0xAC00 = Ok 1 /\ getDecompType icu 0xBC = Ok 6 /\ getDecomposition nfc 0xBC = Ok None.
Proof. repeat split; vm_compute; reflexivity. Qed.
