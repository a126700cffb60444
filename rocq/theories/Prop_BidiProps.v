(** * Properties of UnicodeData/BidiProps.py (C33, C41, C42, C60, C61) *)
From Coq Require Import ZArith List Bool Lia.
From Verif Require Import Py Arr UTrie2 Utilities UtilitiesFacts CharProps CharShipped Data_Names BidiProps BidiFacts BidiShipped.
Import ListNotations.
Open Scope Z_scope.

(** ** C33: the getters of BidiProps *)
Theorem C33_bidi : forall c, 0 <= c <= 0x10FFFF ->
  named bidiClassNames (getCharDirection icu_bidi c) /\ named joiningTypeNames (getJoiningType icu_bidi c) /\
  named joiningGroupNames (getJoiningGroup icu_bidi c) /\ (exists t, getPairedBracketType icu_bidi c = Ok t /\ 0 <= t <= 2).
Proof. exact bidi_named. Qed.
Print Assumptions C33_bidi.
Example C33_bidi_case : getCharDirection icu_bidi 0x5D0 = Ok 1 /\ getJoiningType icu_bidi 0x628 = Ok 2 /\ getJoiningGroup icu_bidi 0x628 = Ok 4.
Proof. vm_compute. auto. Qed.

(** ** C41: mirroring *)
Theorem C41_involution : forall c, 0 <= c <= 0x10FFFF -> exists d, getMirror icu_bidi c = Ok d /\ 0 <= d <= 0x10FFFF /\ getMirror icu_bidi d = Ok c /\
  (d <> c -> isMirrored icu_bidi c = Ok true /\ isMirrored icu_bidi d = Ok true).
Proof. exact mirror_shipped. Qed.
Print Assumptions C41_involution.
Example C41_case : getMirror icu_bidi 0x28 = Ok 0x29 /\ getMirror icu_bidi 0xAB = Ok 0xBB /\ getMirror icu_bidi 0x2220 = Ok 0x29A3 /\ getMirror icu_bidi 0x41 = Ok 0x41.
Proof. vm_compute. auto. Qed.

(** ** C42: paired brackets; type 1 opens, type 2 closes *)
Theorem C42_brackets : forall c, 0 <= c <= 0x10FFFF -> exists d t, getPairedBracket icu_bidi c = Ok d /\ getPairedBracketType icu_bidi c = Ok t /\
  0 <= d <= 0x10FFFF /\ getPairedBracket icu_bidi d = Ok c /\ (d = c <-> t = 0) /\
  (t = 1 -> getPairedBracketType icu_bidi d = Ok 2) /\ (t = 2 -> getPairedBracketType icu_bidi d = Ok 1) /\
  (t <> 0 -> getMirror icu_bidi c = Ok d).
Proof. exact bracket_shipped. Qed.
Print Assumptions C42_brackets.
Example C42_case : getPairedBracket icu_bidi 0x28 = Ok 0x29 /\ getPairedBracketType icu_bidi 0x28 = Ok 1 /\ getPairedBracket icu_bidi 0x3C = Ok 0x3C.
Proof. vm_compute. auto. Qed.

(** ** C60: the getters follow the stored words and tables, for all tables

    [encode_word B] lays the fields of [B] out as the comments of BidiProps.py:31-40
    say; every 16 bit word is one.  [table_words t] are the words of a mirror table
    [t] of code points in rising order, each with the position of its partner. *)
Theorem C60_fields : forall D c B, bword_ok B -> get (bidiPropsTrie D) c = Ok (encode_word B) ->
  getCharDirection D c = Ok (b_class B) /\ getJoiningType D c = Ok (b_jt B) /\ getPairedBracketType D c = Ok (b_bpt B) /\
  isJoinControl D c = Ok (b_join B) /\ isBidiControl D c = Ok (b_control B) /\ isMirrored D c = Ok (b_mirrored B).
Proof. exact fields_ok. Qed.
Print Assumptions C60_fields.
Theorem C60_every_word : forall p, 0 <= p < 65536 -> exists B, bword_ok B /\ encode_word B = p.
Proof. intros p H. exists (word_of_bits p). apply word_of_bits_ok. exact H. Qed.
Print Assumptions C60_every_word.
Theorem C60_mirror : forall D t, table_ok t -> mirrors D = table_words t -> forall c B, bword_ok B -> get (bidiPropsTrie D) c = Ok (encode_word B) ->
  getMirror D c = Ok (if b_delta B =? -4 then partner t c else c + b_delta B) /\
  getPairedBracket D c = Ok (if b_bpt B =? 0 then c else if b_delta B =? -4 then partner t c else c + b_delta B).
Proof. intros D t K M c B KB HW. split; [apply (mirror_ok D t K M c B KB HW)|apply (bracket_ok D t K M c B KB HW)]. Qed.
Print Assumptions C60_mirror.
(** if the table points back then mirroring by the table is an involution *)
Theorem C60_table_involution : forall D t, table_ok t -> symmetric t -> mirrors D = table_words t -> forall c B B' d,
  bword_ok B -> bword_ok B' -> b_delta B = -4 -> b_delta B' = -4 -> get (bidiPropsTrie D) c = Ok (encode_word B) ->
  getMirror D c = Ok d -> get (bidiPropsTrie D) d = Ok (encode_word B') -> getMirror D d = Ok c.
Proof.
  intros D t K S M c B B' d KB KB' E E' H Hd H'. rewrite (mirror_ok D t K M c B KB H), E in Hd. rewrite (mirror_ok D t K M d B' KB' H'), E'.
  cbn [Z.eqb Pos.eqb] in *. assert (partner t c = d) by congruence. subst d. f_equal. apply partner_involution; assumption.
Qed.
Print Assumptions C60_table_involution.
Theorem C60_joining_group : forall D s1 l1 s2 l2 c,
  aget (indexes D) 4 = Ok s1 -> aget (indexes D) 5 = Ok (s1 + zlen l1) -> aget (indexes D) 6 = Ok s2 -> aget (indexes D) 7 = Ok (s2 + zlen l2) ->
  (forall i, aget (jgArray D) i = py_get l1 i) -> (forall i, aget (jgArray2 D) i = py_get l2 i) ->
  getJoiningGroup D c =
  Ok (if (s1 <=? c) && (c <? s1 + zlen l1) then nth (Z.to_nat (c - s1)) l1 0
      else if (s2 <=? c) && (c <? s2 + zlen l2) then nth (Z.to_nat (c - s2)) l2 0 else 0).
Proof. exact joining_group. Qed.
Print Assumptions C60_joining_group.
(** the shipped tables meet the hypotheses *)
Theorem C60_shipped : table_ok icu_table /\ symmetric icu_table /\ mirrors icu_bidi = table_words icu_table /\
  forall c, 0 <= c <= 0x10FFFF -> exists B, bword_ok B /\ get (bidiPropsTrie icu_bidi) c = Ok (encode_word B).
Proof.
  split; [exact icu_table_ok|]. split; [exact icu_symmetric|]. split; [exact icu_table_words|]. intros c Hc.
  destruct (bidi_word c Hc) as (B & K & G & _). exists B. auto.
Qed.
Print Assumptions C60_shipped.
Example C60_case : encode_word (mkBWord 10 0 0 false false true (-4)) = 0x900A /\ get (bidiPropsTrie icu_bidi) 0xAB = Ok 0x900A /\
  nth 0 icu_table (0, 0) = (0xAB, 1) /\ nth 1 icu_table (0, 0) = (0xBB, 0).
Proof. vm_compute. auto. Qed.

(** ** C61: the shipped bidi properties fit together and fit the categories

    Class 10 is ON, 17 NSM, 18 BN, 0 L, 1 R, 2 EN, 5 AN; category 20 is Ps, 21 Pe, 6 Mn,
    7 Me, 9 Nd (uchar_h.py). *)
Theorem C61_controls : forall c, 0 <= c <= 0x10FFFF ->
  (isBidiControl icu_bidi c = Ok true <->
    In c [0x61C; 0x200E; 0x200F; 0x202A; 0x202B; 0x202C; 0x202D; 0x202E; 0x2066; 0x2067; 0x2068; 0x2069]) /\
  (isJoinControl icu_bidi c = Ok true <-> c = 0x200C \/ c = 0x200D).
Proof. exact control_shipped. Qed.
Print Assumptions C61_controls.
Theorem C61_categories : forall c, 0 <= c <= 0x10FFFF ->
  (forall t, getPairedBracketType icu_bidi c = Ok t -> t <> 0 -> getCharDirection icu_bidi c = Ok 10 /\ isMirrored icu_bidi c = Ok true /\
    getGeneralCategory icu c = Ok (if t =? 1 then 20 else 21)) /\
  (getCharDirection icu_bidi c = Ok 17 -> getGeneralCategory icu c = Ok 6 \/ getGeneralCategory icu c = Ok 7) /\
  (getGeneralCategory icu c = Ok 9 -> exists d, getCharDirection icu_bidi c = Ok d /\ In d [0; 1; 2; 5]).
Proof. exact cat_shipped. Qed.
Print Assumptions C61_categories.
(** noncharacters are boundary neutral, but for the last one *)
Theorem C61_nonchars_partial : forall c, 0 <= c < 0x10FFFF -> isUnicodeNoncharacter c = true -> getCharDirection icu_bidi c = Ok 18.
Proof. exact nonchar_shipped. Qed.
Print Assumptions C61_nonchars_partial.
Theorem C61_nonchars_refuted : exists c, 0 <= c <= 0x10FFFF /\ isUnicodeNoncharacter c = true /\ getCharDirection icu_bidi c = Ok 0.
Proof. exists 0x10FFFF. split; [split; discriminate|]. vm_compute. auto. Qed.
Print Assumptions C61_nonchars_refuted.
Example C61_case : isBidiControl icu_bidi 0x202A = Ok true /\ getPairedBracketType icu_bidi 0x5B = Ok 1 /\ getGeneralCategory icu 0x5B = Ok 20 /\
  getCharDirection icu_bidi 0x660 = Ok 5 /\ getCharDirection icu_bidi 0xFDD0 = Ok 18.
Proof. vm_compute. auto. Qed.
