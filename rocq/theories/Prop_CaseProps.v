(** * Properties of UnicodeData/CaseProps.py (C37-C40, C58, C59) *)
From Coq Require Import ZArith List Bool Lia.
From Verif Require Import Py Arr SpecText UTrie2 CharRuns CaseProps CaseFacts CaseShipped.
Import ListNotations.
Open Scope Z_scope.

(** ** C37: exception slots

    An exception [E] has eight optional slots and flags; [exc_words E] is how ICU
    stores it: a word of bits, then the values of the slots that are there, one or
    two words each, then the strings of the full mappings.  [after E k] counts the
    words up to and including slot [k], which is what the second result, the offset
    of the last word read, is for. *)
Theorem C37_slot : forall D E i k v, exc_ok E -> stored (exceptions D) i (exc_words E) -> 0 <= k < 8 -> slot E k = Some v ->
  getSlotValue D (exc_word E) k (i + 1) = Ok (v, after E k - 1).
Proof. intros D E i k v K S. apply (slot_ok D E K i S). Qed.
Print Assumptions C37_slot.
Theorem C37_has_slot : forall E k, exc_ok E -> 0 <= k < 8 -> hasSlot (exc_word E) k = true <-> exists v, slot E k = Some v.
Proof.
  intros E k K Hk. rewrite (hasSlot_ok E k (ok_slots E K) Hk). destruct (slot E k) as [v|]; cbn [is_some]; split; try discriminate.
  - intros _. exists v. reflexivity.
  - reflexivity.
  - intros (v & [=]).
Qed.
Print Assumptions C37_has_slot.
(** the table counts the bits that are set *)
Theorem C37_popcount : forall n, 0 <= n < 256 -> py_get flagsOffset n = Ok (popcount n).
Proof. exact flagsOffset_popcount. Qed.
Print Assumptions C37_popcount.
(** two slots of two words: a title case at 0x10400 and a distance; it is stored at 3 *)
Definition E37 : exc := mkExc [None; None; None; Some 0x10400; Some 0x12345; None; None; None] true false false false false false false false [] [] [] [].
Example C37_case : exc_ok E37 /\ exc_words E37 = [0x118; 1; 0x400; 1; 0x2345] /\
  stored (exceptions (mkCaseData (casePropsTrie icu_case) (arr_of_list ([7; 7; 7] ++ exc_words E37)))) 3 (exc_words E37) /\
  getSlotValue (mkCaseData (casePropsTrie icu_case) (arr_of_list ([7; 7; 7] ++ exc_words E37))) (exc_word E37) 4 4 = Ok (0x12345, 3).
Proof.
  split; [apply exc_okb_ok; reflexivity|]. split; [reflexivity|]. split; [|reflexivity].
  intros k Hk. do 5 (destruct k as [|k]; [reflexivity|]). cbn in Hk. lia.
Qed.

(** ** C38: simple mappings of the shipped tables *)
Theorem C38_simple : forall c, 0 <= c <= 0x10FFFF ->
  idempotent_at (toLower icu_case) c /\ idempotent_at (toUpper icu_case) c /\ idempotent_at (toTitle icu_case) c.
Proof. exact simple_shipped. Qed.
Print Assumptions C38_simple.
(** Characters without case are unchanged: the type in the low two bits of the
    properties word is 0 and bit 3, an exception, is clear. *)
Theorem C38_uncased : forall c p, 0 <= c <= 0x10FFFF -> get (casePropsTrie icu_case) c = Ok p ->
  Z.testbit p 0 = false -> Z.testbit p 1 = false -> Z.testbit p 3 = false -> identity_at c.
Proof.
  intros c p Hc G B0 B1 B3. apply (uncased c p Hc G). apply Z.eqb_eq. apply Z.bits_inj'. intros k Hk. rewrite Z.land_spec, Z.bits_0.
  destruct (Z.eq_dec k 0) as [->|]; [rewrite B0; reflexivity|]. destruct (Z.eq_dec k 1) as [->|]; [rewrite B1; reflexivity|].
  destruct (Z.eq_dec k 3) as [->|]; [rewrite B3; reflexivity|]. destruct (Z.eq_dec k 2) as [->|]; [apply andb_false_r|].
  rewrite (Z.bits_above_log2 0xB k); [apply andb_false_r|lia|change (Z.log2 0xB) with 3; lia].
Qed.
Print Assumptions C38_uncased.
Example C38_case : toLower icu_case 0x1C5 = Ok 0x1C6 /\ toUpper icu_case 0x1C5 = Ok 0x1C4 /\ toTitle icu_case 0x1C6 = Ok 0x1C5 /\
  get (casePropsTrie icu_case) 0x4E00 = Ok 0 /\ toUpper icu_case 0x10428 = Ok 0x10400.
Proof. vm_compute. auto. Qed.

(** ** C39: full mappings of the shipped tables *)
Theorem C39_full : forall c, 0 <= c <= 0x10FFFF ->
  good_full (toFullLower icu_case) (toLower icu_case) c /\ good_full (toFullUpper icu_case) (toUpper icu_case) c /\
  good_full (toFullTitle icu_case) (toTitle icu_case) c.
Proof. exact full_shipped. Qed.
Print Assumptions C39_full.
Theorem C39_lower : forall c, 0 <= c <= 0x10FFFF -> c <> 0x130 -> exists d, toLower icu_case c = Ok d /\ toFullLower icu_case c = Ok [d].
Proof. exact full_lower_shipped. Qed.
Print Assumptions C39_lower.
Example C39_case : toFullUpper icu_case 0xDF = Ok [0x53; 0x53] /\ toFullTitle icu_case 0xDF = Ok [0x53; 0x73] /\
  toFullLower icu_case 0x130 = Ok [0x69; 0x307] /\ toFullUpper icu_case 0x390 = Ok [0x399; 0x308; 0x301].
Proof. vm_compute. auto. Qed.

(** ** C40: ASCII *)
Theorem C40_ascii : forall c, 0 <= c < 128 ->
  toLower icu_case c = Ok (if (0x41 <=? c) && (c <=? 0x5A) then c + 32 else c) /\
  toUpper icu_case c = Ok (if (0x61 <=? c) && (c <=? 0x7A) then c - 32 else c) /\ toTitle icu_case c = toUpper icu_case c /\
  toFullLower icu_case c = Ok [if (0x41 <=? c) && (c <=? 0x5A) then c + 32 else c] /\
  toFullUpper icu_case c = Ok [if (0x61 <=? c) && (c <=? 0x7A) then c - 32 else c] /\ toFullTitle icu_case c = toFullUpper icu_case c.
Proof. exact ascii_shipped. Qed.
Print Assumptions C40_ascii.
Example C40_case : toLower icu_case 0x41 = Ok 0x61 /\ toUpper icu_case 0x7A = Ok 0x5A /\ toLower icu_case 0x5B = Ok 0x5B.
Proof. vm_compute. auto. Qed.

(** ** C58: the mappings follow the stored case information, for all tables

    [has_exc D c ty E]: the word of [c] has type [ty] (1 lower, 2 upper, 3 title) and
    points to the exception [E]; [has_delta D c ty delta]: it has the distance [delta]
    to the other case.  [spec_...] say what ICU documents about them. *)
Theorem C58_exception : forall D c ty E, exc_ok E -> has_exc D c ty E ->
  toLower D c = Ok (spec_lower c ty E) /\ toUpper D c = Ok (spec_upper c ty E) /\ toTitle D c = Ok (spec_title c ty E).
Proof.
  intros D c ty E K H. split; [apply toLower_exc; assumption|]. split; [apply toUpper_exc; assumption|apply toTitle_exc; assumption].
Qed.
Print Assumptions C58_exception.
Theorem C58_full_exception : forall D c ty E, exc_ok E -> has_exc D c ty E -> 0 <= c <= 0x10FFFF ->
  (0 <= spec_lower c ty E <= 0x10FFFF -> toFullLower D c = Ok (spec_full_lower c ty E)) /\
  (0 <= spec_upper c ty E <= 0x10FFFF -> toFullUpper D c = Ok (spec_full_upper c ty E)) /\
  (0 <= spec_title c ty E <= 0x10FFFF -> toFullTitle D c = Ok (spec_full_title c ty E)).
Proof.
  intros D c ty E K H Hc. split; [apply toFullLower_exc; assumption|].
  split; [apply (toUpperOrTitle_exc D c ty E K H true Hc)|apply (toUpperOrTitle_exc D c ty E K H false Hc)].
Qed.
Print Assumptions C58_full_exception.
Theorem C58_delta : forall D c ty delta, has_delta D c ty delta ->
  toLower D c = Ok (if 2 <=? ty then c + delta else c) /\ toUpper D c = Ok (if ty =? 1 then c + delta else c) /\
  toTitle D c = Ok (if ty =? 1 then c + delta else c) /\
  (0 <= c <= 0x10FFFF -> 0 <= c + delta <= 0x10FFFF ->
    toFullLower D c = Ok [if 2 <=? ty then c + delta else c] /\ toFullUpper D c = Ok [if ty =? 1 then c + delta else c] /\
    toFullTitle D c = Ok [if ty =? 1 then c + delta else c]).
Proof.
  intros D c ty delta H. destruct (plain_simple D c ty delta H) as (A & B & C). split; [exact A|]. split; [exact B|]. split; [exact C|].
  apply (plain_full D c ty delta H).
Qed.
Print Assumptions C58_delta.
(** one of the two cases holds for every code point of the shipped tables *)
Theorem C58_shipped : forall c, 0 <= c <= 0x10FFFF -> exists ty,
  (exists E, exc_ok E /\ has_exc icu_case c ty E) \/ (exists delta, has_delta icu_case c ty delta).
Proof. exact case_info. Qed.
Print Assumptions C58_shipped.
(** The strings of the full mappings are UTF-16 text, but are returned unit by unit:
    a table that maps a character to one beyond U+FFFF gives back two surrogates. *)
Theorem C58_utf16_refuted : exists D c ty E, exc_ok E /\ has_exc D c ty E /\ 0 <= c <= 0x10FFFF /\ e_special E = false /\
  e_upper E = concat (map utf16 [0x10400]) /\ toFullUpper D c = Ok [0xD801; 0xDC00].
Proof.
  set (E := mkExc [None; None; None; None; None; None; None; Some 0x200] false false false false false false false false [] [] [0xD801; 0xDC00] []).
  exists (mkCaseData (casePropsTrie icu_case) (arr_of_list (exc_words E))), 0x49, 2, E.
  split; [apply exc_okb_ok; reflexivity|]. split; [|split; [split; discriminate|split; [reflexivity|split; [reflexivity|vm_compute; reflexivity]]]].
  exists 0, 0. split; [discriminate|]. split; [split; [discriminate|reflexivity]|]. split; [split; [discriminate|reflexivity]|].
  split; [vm_compute; reflexivity|]. intros k Hk. do 4 (destruct k as [|k]; [reflexivity|]). cbn in Hk. lia.
Qed.
Print Assumptions C58_utf16_refuted.
Example C58_case : has_delta icu_case 0x41 2 32 /\ exc_ok (parse 75) /\ has_exc icu_case 0x1C5 3 (parse 75) /\
  (spec_lower 0x1C5 3 (parse 75), spec_upper 0x1C5 3 (parse 75), spec_title 0x1C5 3 (parse 75)) = (0x1C6, 0x1C4, 0x1C5).
Proof.
  split; [exists 0, 1; do 4 (split; [split; [discriminate|reflexivity]|]); vm_compute; reflexivity|]. split; [apply exc_okb_ok; vm_compute; reflexivity|].
  split; [|vm_compute; reflexivity]. exists 75, 0. split; [discriminate|]. split; [split; [discriminate|reflexivity]|].
  split; [split; [discriminate|reflexivity]|]. split; [vm_compute; reflexivity|apply storedb_ok; vm_compute; reflexivity].
Qed.

(** ** C59: round trips between the cases of the shipped tables *)
Theorem C59_trips : forall c, 0 <= c <= 0x10FFFF ->
  (then_ (toUpper icu_case) (toLower icu_case) c = toLower icu_case c <->
    ~ In c [181; 305; 383; 837; 962; 976; 977; 981; 982; 1008; 1009; 1013; 7296; 7297; 7298; 7299; 7300; 7301; 7302; 7303; 7304; 7835; 8126]) /\
  (then_ (toLower icu_case) (toUpper icu_case) c = toUpper icu_case c <-> ~ In c [304; 1012; 7838; 8486; 8490; 8491]) /\
  then_ (toTitle icu_case) (toUpper icu_case) c = toUpper icu_case c /\
  (then_ (toTitle icu_case) (toLower icu_case) c = toLower icu_case c <->
    ~ In c [181; 305; 383; 837; 962; 976; 977; 981; 982; 1008; 1009; 1013; 7296; 7297; 7298; 7299; 7300; 7301; 7302; 7303; 7304; 7835; 8126]).
Proof. exact trip_shipped. Qed.
Print Assumptions C59_trips.
Example C59_case : then_ (toUpper icu_case) (toLower icu_case) 0x3C2 = Ok 0x3C3 /\ toLower icu_case 0x3C2 = Ok 0x3C2 /\
  then_ (toUpper icu_case) (toLower icu_case) 0x3C3 = Ok 0x3C3.
Proof. vm_compute. auto. Qed.
