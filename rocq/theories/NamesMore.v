(** * CharNames: the item as bytes, unique factored names, extended names, loading again. *)
From Coq Require Import ZArith List Bool Lia ZifyBool Arith Sorting.Sorted String Ascii.
From Verif Require Import Py Bytes Dict Utilities HexFacts Runs CharProps CharShipped ICUDataFile ICUFacts ICUItems CharNames NamesLengths NamesFacts NamesIter NamesFile.
Import ListNotations.
Open Scope Z_scope.
Local Notation length := List.length.
Local Notation concat := List.concat.

(** ** unames.icu written out: the groups one after the other *)
Fixpoint place (off : Z) (gs : list (Z * Z * list bytes)) : list ngroup :=
  match gs with
  | [] => []
  | (msb, pad, ss) :: r => let n := mkNG msb off pad ss in n :: place (off + zlen (ng_bytes n)) r
  end.
Definition names_body (toks : list Z) (strs : bytes) (gs : list (Z * Z * list bytes)) (aps : list (algRange * bytes)) : bytes :=
  let ns := place 0 gs in
  let tso := 18 + 2 * zlen toks in
  let go := tso + zlen strs in
  let gso := go + 2 + 6 * zlen ns in
  let ao := gso + zlen (flat_map ng_bytes ns) in
  pack 4 [tso; go; gso; ao] ++ (pack 2 [zlen toks] ++ pack 2 toks ++ strs) ++ (pack 2 [zlen ns] ++ pack 2 (flat_map ng_entry ns)) ++
  flat_map ng_bytes ns ++ (pack 4 [zlen aps] ++ flat_map alg_bytes aps).
Definition body_ok (toks : list Z) (strs : bytes) (gs : list (Z * Z * list bytes)) (aps : list (algRange * bytes)) : Prop :=
  zlen (names_body toks strs gs aps) < 2 ^ 32 /\ zlen toks < 65536 /\ Forall (fun t => 0 <= t < 65536) toks /\ zlen gs < 65536 /\
  Forall (fun g => 0 <= fst (fst g) < 65536 /\ 0 <= snd (fst g) < 16 /\ zlen (snd g) = 32 /\ Forall (fun s => zlen s <= 75) (snd g)) gs /\ Forall alg_ok aps.

Lemma zlen_flat {A B} (f : A -> list B) k l : (forall x, zlen (f x) = k) -> zlen (flat_map f l) = k * zlen l.
Proof. intros H. induction l as [|x l IH]; [cbn; lia|]. cbn [flat_map]. rewrite zlen_app, H, IH. unfold zlen. cbn [List.length]. lia. Qed.
Lemma zlen_place off gs : zlen (place off gs) = zlen gs.
Proof. revert off. induction gs as [|[[m p] ss] r IH]; intros off; cbn [place]; [reflexivity|]. unfold zlen in *. cbn [List.length]. rewrite !Nat2Z.inj_succ, IH. reflexivity. Qed.
Lemma place_at D start gs : forall off, 0 <= off -> at_pos (fileData D) (start + off) (flat_map ng_bytes (place off gs)) ->
  Forall (fun n => at_pos (fileData D) (start + ng_offset n) (ng_bytes n) /\ 0 <= ng_offset n /\ ng_offset n + zlen (ng_bytes n) <= off + zlen (flat_map ng_bytes (place off gs))) (place off gs).
Proof.
  induction gs as [|[[m p] ss] r IH]; intros off H A; cbn [place]; [constructor|]. cbn [place flat_map] in A. apply at_app in A as [A1 A2].
  set (n := mkNG m off p ss) in *. pose proof (zlen_nonneg (ng_bytes n)) as P.
  assert (P2 := zlen_nonneg (flat_map ng_bytes (place (off + zlen (ng_bytes n)) r))). cbn [flat_map]. rewrite zlen_app. constructor.
  - split; [exact A1|]. change (ng_offset n) with off. lia.
  - eapply Forall_impl; [|apply (IH (off + zlen (ng_bytes n)))]; [|lia|rewrite Z.add_assoc; exact A2]. intros x (X1 & X2 & X3). split; [exact X1|]. lia.
Qed.
Lemma place_ok gs : Forall (fun g => 0 <= fst (fst g) < 65536 /\ 0 <= snd (fst g) < 16 /\ zlen (snd g) = 32 /\ Forall (fun s => zlen s <= 75) (snd g)) gs ->
  forall off, Forall (fun n => 0 <= ng_offset n < 2 ^ 32) (place off gs) -> Forall ng_ok (place off gs).
Proof.
  induction 1 as [|[[m p] ss] r (H1 & H2 & H3 & H4) F IH]; intros off K; cbn [place] in *; [constructor|]. inversion K as [|? ? K1 K2]; subst. constructor; [|apply IH; exact K2].
  unfold ng_ok. cbn [fst snd ng_msb ng_pad ng_strings] in *. auto.
Qed.
Lemma body_layout D base toks strs gs aps : body_ok toks strs gs aps -> at_pos (fileData D) base (names_body toks strs gs aps) ->
  exists tso go gso ao, names_layout D base tso go gso ao toks strs (place 0 gs) aps.
Proof.
  intros (B1 & B2 & B3 & B4 & B5 & B6) A. set (ns := place 0 gs). set (tso := 18 + 2 * zlen toks). set (go := tso + zlen strs).
  set (gso := go + 2 + 6 * zlen ns). set (ao := gso + zlen (flat_map ng_bytes ns)). exists tso, go, gso, ao.
  pose proof (zlen_nonneg toks) as P1. pose proof (zlen_nonneg strs) as P2. pose proof (zlen_nonneg ns) as P3. pose proof (zlen_nonneg (flat_map ng_bytes ns)) as P4.
  pose proof (zlen_nonneg (flat_map alg_bytes aps)) as P5. pose proof (zlen_nonneg aps) as P6.
  assert (LE : zlen (flat_map ng_entry ns) = 3 * zlen ns) by (apply (zlen_flat ng_entry 3); reflexivity).
  unfold names_body in A, B1. cbv zeta in A, B1. fold ns tso go gso ao in A, B1.
  rewrite !zlen_app, !zlen_pack, LE in B1 by lia. change (zlen [tso; go; gso; ao]) with 4 in B1. change (zlen [zlen toks]) with 1 in B1. change (zlen [zlen ns]) with 1 in B1. change (zlen [zlen aps]) with 1 in B1.
  apply at_app in A as [A1 A]. rewrite zlen_pack in A by lia. change (4 * zlen [tso; go; gso; ao]) with 16 in A.
  apply at_app in A as [A2 A]. rewrite !zlen_app, !zlen_pack in A by lia. change (2 * zlen [zlen toks]) with 2 in A.
  replace (base + 16 + (2 + (2 * zlen toks + zlen strs))) with (base + go) in A by (unfold go, tso; lia).
  apply at_app in A as [A3 A]. rewrite !zlen_app, !zlen_pack, LE in A by lia. change (2 * zlen [zlen ns]) with 2 in A.
  replace (base + go + (2 + 2 * (3 * zlen ns))) with (base + gso + 0) in A by (unfold gso; lia).
  apply at_app in A as [A4 A5]. rewrite Z.add_0_r in A5. replace (base + gso + zlen (flat_map ng_bytes ns)) with (base + ao) in A5 by (unfold ao; lia).
  pose proof (place_at D (base + gso) gs 0 ltac:(lia) A4) as PA. fold ns in PA.
  assert (LA : zlen aps <= zlen (flat_map alg_bytes aps)).
  { clear -B6. induction B6 as [|ap r K F IH]; [reflexivity|]. cbn [flat_map]. rewrite zlen_app. unfold alg_bytes at 1. rewrite zlen_app, zlen_pack by lia.
    change (zlen [a_start (fst ap); a_stop (fst ap) - 1]) with 2. unfold zlen in *. cbn [List.length]. lia. }
  constructor; auto; try lia.
  - unfold ns. rewrite zlen_place. exact B4.
  - apply place_ok; [exact B5|]. eapply Forall_impl; [|exact PA]. intros n (_ & N1 & N2). cbv beta. pose proof (zlen_nonneg (ng_bytes n)). fold ns in N2. lia.
  - eapply Forall_impl; [|exact PA]. intros n (N1 & _). exact N1.
Qed.

(** ** When different factored suffixes are different strings: neighbouring tables use different letters *)
Definition letters (t : list str) (x : Z) : Prop := exists e, In e t /\ In x e.
Fixpoint alternating (tables : list (list str)) : Prop :=
  match tables with
  | t :: ((u :: r) as tr) => (forall x, letters t x -> letters u x -> False) /\ (r = [] \/ Forall (fun e => e <> []) u) /\ alternating tr
  | _ => True
  end.
Lemma span_unique (P : Z -> Prop) : forall a b r s, (forall x, In x a -> P x) -> (forall x, In x b -> P x) ->
  (forall x, hd_error r = Some x -> ~ P x) -> (forall x, hd_error s = Some x -> ~ P x) -> a ++ r = b ++ s -> a = b /\ r = s.
Proof.
  induction a as [|x a IH]; intros [|y b] r s Ha Hb Hr Hs E; cbn [app] in E; auto.
  - exfalso. subst r. apply (Hr y eq_refl). apply Hb. left. reflexivity.
  - exfalso. subst s. apply (Hs x eq_refl). apply Ha. left. reflexivity.
  - inversion E as [[E1 E2]]. destruct (IH b r s) as [-> ->]; auto; intros z Hz; [apply Ha|apply Hb]; right; exact Hz.
Qed.
Lemma spell_head t u r ds : alternating (t :: u :: r) -> Forall2 (fun t d => 0 <= d < zlen t) (u :: r) ds ->
  forall x, hd_error (spell (u :: r) ds) = Some x -> ~ letters t x.
Proof.
  intros (A1 & A2 & _) F x Hx L. inversion F as [|? d ? dr Hd F']; subst. cbn [spell] in Hx.
  assert (I : In (nth (Z.to_nat d) u []) u) by (apply nth_In; unfold zlen in *; lia).
  destruct (nth (Z.to_nat d) u []) as [|y e] eqn:N.
  - destruct A2 as [->|A2].
    + cbn in Hx. destruct dr; discriminate.
    + rewrite Forall_forall in A2. exact (A2 [] I eq_refl).
  - cbn in Hx. assert (y = x) as -> by congruence. apply (A1 x L). exists (x :: e). split; [exact I|left; reflexivity].
Qed.
Lemma spell_unique tables : alternating tables -> Forall (@NoDup str) tables -> forall ds ds',
  Forall2 (fun t d => 0 <= d < zlen t) tables ds -> Forall2 (fun t d => 0 <= d < zlen t) tables ds' -> spell tables ds = spell tables ds' -> ds = ds'.
Proof.
  induction tables as [|t tr IH]; intros A N ds ds' F F' E.
  - inversion F; inversion F'; reflexivity.
  - inversion F as [|? d ? dr Hd Fr]; subst. inversion F' as [|? d' ? dr' Hd' Fr']; subst. inversion N as [|? ? N1 N2]; subst. cbn [spell] in E.
    assert (I : In (nth (Z.to_nat d) t []) t) by (apply nth_In; unfold zlen in *; lia).
    assert (I' : In (nth (Z.to_nat d') t []) t) by (apply nth_In; unfold zlen in *; lia).
    assert (Q : nth (Z.to_nat d) t [] = nth (Z.to_nat d') t [] /\ spell tr dr = spell tr dr').
    { apply (span_unique (letters t)); auto.
      - intros x Hx. eexists; eauto.
      - intros x Hx. eexists; eauto.
      - destruct tr as [|u r]; [discriminate|]. apply (spell_head t u r dr A Fr).
      - destruct tr as [|u r]; [discriminate|]. apply (spell_head t u r dr' A Fr'). }
    destruct Q as [Q1 Q2]. f_equal.
    + rewrite NoDup_nth in N1. specialize (N1 (Z.to_nat d) (Z.to_nat d') ltac:(unfold zlen in *; lia) ltac:(unfold zlen in *; lia) Q1). lia.
    + apply IH; auto. destruct tr as [|u r]; [exact I0 || exact Logic.I|]. destruct A as (_ & _ & A). exact A.
Qed.
Theorem factor_unique A tables c d choice : a_type A = 1 -> choice = 0 \/ choice = 2 -> table_ok A tables -> tables <> [] -> alternating tables -> Forall (@NoDup str) tables ->
  charInRange A c = true -> charInRange A d = true -> algName A c choice = algName A d choice -> c = d.
Proof.
  intros H1 H2 H3 H4 H5 H6 Rc Rd E. destruct (factor_ok A tables c choice H1 H2 H3 H4 Rc) as (ds & F & V & Nm). destruct (factor_ok A tables d choice H1 H2 H3 H4 Rd) as (ds' & F' & V' & Nm').
  rewrite Nm, Nm' in E. assert (E' : a_string A ++ spell tables ds = a_string A ++ spell tables ds') by congruence. apply app_inv_head in E'.
  assert (ds = ds') by (apply (spell_unique tables); auto). subst ds'. lia.
Qed.
Theorem hex_unique A c d choice : a_type A = 0 -> choice = 0 \/ choice = 2 -> 0 <= c -> 0 <= d -> algName A c choice = algName A d choice -> c = d.
Proof.
  intros H1 H2 Hc Hd E. rewrite !algName_hex in E by assumption. set (w := if a_variant A =? 4 then 4%nat else if a_variant A =? 5 then 5%nat else 6%nat) in *.
  assert (E' : a_string A ++ formatHex w c = a_string A ++ formatHex w d) by congruence. apply app_inv_head in E'.
  destruct (formatHex_spec w c Hc) as (R1 & _). destruct (formatHex_spec w d Hd) as (R2 & _). congruence.
Qed.

(** ** Extended names *)
Definition outside (N : names) (c : Z) : Prop := forall a, In a (n_ranges N) -> charInRange a c = false.
(** the category and the code point between angle brackets *)
Definition synthetic (cat : str) (c : Z) : str := lit "<" ++ cat ++ lit "-" ++ formatHex 4 c ++ lit ">".
Lemma cat_total c : 0 <= c <= 0x10FFFF -> exists k, getCharCat c = Ok k /\ 0 <= k < 33.
Proof.
  intros H. unfold getCharCat. destruct (isUnicodeNoncharacter c); [exists 30; split; [reflexivity|lia]|].
  destruct (gc_range c H) as (g & E & B). rewrite E. cbn [bind]. eexists. split; [reflexivity|].
  destruct (g =? GC_SURROGATE); [|lia]. destruct (isLead c); unfold GC_LEAD_SURROGATE, GC_TRAIL_SURROGATE, GC_CATEFORY_COUNT; lia.
Qed.
Lemma extended_ok N c : outside N c -> 0 <= c <= 0x10FFFF ->
  exists k cat, getCharCat c = Ok k /\ nth_error charCatNames (Z.to_nat k) = Some cat /\ getCharName N c U_EXTENDED_CHAR_NAME = Ok (synthetic cat c).
Proof.
  intros O H. destruct (cat_total c H) as (k & E & B). exists k.
  destruct (nth_error charCatNames (Z.to_nat k)) as [cat|] eqn:G; [|apply nth_error_None in G; change (length charCatNames) with 33%nat in G; lia].
  exists cat. split; [exact E|]. split; [reflexivity|]. unfold getCharName. rewrite (find_none_all _ _ O). change (U_EXTENDED_CHAR_NAME =? U_EXTENDED_CHAR_NAME) with true. cbv iota.
  unfold getCharCatName. rewrite E. cbn [bind]. change (zlen charCatNames) with 33. replace (k >=? 33) with false by lia. rewrite py_get_pos by lia. rewrite G. cbn [bind].
  unfold synthetic, formatHexInt. replace (c <? 0) with false by lia. reflexivity.
Qed.
Lemma cat_no_dash : Forall (fun s => ~ In 45 s) charCatNames.
Proof.
  apply Forall_forall. intros s Hs. assert (C : forallb (fun s => forallb (fun x => negb (x =? 45)) s) charCatNames = true) by (vm_compute; reflexivity).
  rewrite forallb_forall in C. specialize (C s Hs). rewrite forallb_forall in C. intros I. specialize (C 45 I). discriminate.
Qed.
Lemma synthetic_unique cat cat' c d : ~ In 45 cat -> ~ In 45 cat' -> 0 <= c -> 0 <= d -> synthetic cat c = synthetic cat' d -> c = d.
Proof.
  intros H1 H2 Hc Hd E. unfold synthetic in E. apply app_inv_head in E. destruct (span_unique (fun x => x <> 45) cat cat' (lit "-" ++ formatHex 4 c ++ lit ">") (lit "-" ++ formatHex 4 d ++ lit ">")) as [_ E2]; auto.
  - intros x Hx ->. auto.
  - intros x Hx ->. auto.
  - intros x Hx. cbn in Hx. injection Hx as <-. auto.
  - intros x Hx. cbn in Hx. injection Hx as <-. auto.
  - apply app_inv_head in E2. apply app_inv_tail in E2. destruct (formatHex_spec 4 c Hc) as (R1 & _). destruct (formatHex_spec 4 d Hd) as (R2 & _). congruence.
Qed.

(** ** Loading again: the tables of groups and ranges are then there several times *)
Definition copies {A} (k : nat) (l : list A) : list A := concat (repeat l k).
Definition loaded (k : nat) (N : names) : names := mkNames (n_tokens N) (copies k (n_groups N)) (copies k (n_ranges N)).
Lemma copies_len {A} k (l : list A) : length (copies k l) = (k * length l)%nat.
Proof. induction k as [|k IH]; [reflexivity|]. unfold copies in *. cbn [repeat concat]. rewrite app_length, IH. lia. Qed.
Lemma copies_nth {A} k (l : list A) q j : (q < k)%nat -> (j < length l)%nat -> nth_error (copies k l) (q * length l + j) = nth_error l j.
Proof.
  revert q. induction k as [|k IH]; intros q Hq Hj; [lia|]. unfold copies in *. cbn [repeat concat]. destruct q as [|q].
  - cbn [Nat.mul Nat.add]. apply nth_error_app1. exact Hj.
  - rewrite nth_error_app2 by lia. replace (S q * length l + j - length l)%nat with (q * length l + j)%nat by lia. apply IH; lia.
Qed.
Lemma find_copies {A} (f : A -> bool) k l : find f (copies (S k) l) = find f l.
Proof.
  assert (G : forall m, find f m = None -> forall q, find f (q ++ m) = find f q) by (intros m Hm q; induction q as [|x q IH]; cbn; [exact Hm|destruct (f x); auto]).
  unfold copies. cbn [repeat concat]. destruct (find f l) as [x|] eqn:E.
  - generalize (concat (repeat l k)). intros m. clear G. induction l as [|y l IH]; [discriminate|]. cbn [app find] in *. destruct (f y); auto.
  - rewrite G; [exact E|]. clear G. induction k as [|k IH]; [reflexivity|]. cbn [repeat concat]. revert IH. generalize (concat (repeat l k)). intros m IH.
    induction l as [|y l IHl]; [exact IH|]. cbn [app find] in *. destruct (f y); [discriminate|auto].
Qed.
Theorem loaded_group k N c : groups_sorted (n_groups N) -> n_groups N <> [] -> getGroup (loaded (S k) N) c = Ok (find (fun g => in_block g c) (n_groups N)).
Proof.
  intros HS NE. unfold getGroup, loaded. cbn [n_groups]. set (gs := n_groups N) in *. set (m := Z.shiftr c GROUP_SHIFT). set (n := length gs).
  assert (L0 : (0 < n)%nat) by (unfold n; destruct gs; [congruence|cbn; lia]). set (gk := copies (S k) gs).
  assert (LK : length gk = (S k * n)%nat) by apply copies_len.
  destruct (search_ok gk m (length gk) 0 (length gk)) as (i & E & Hi & L & R); try lia.
  { intros g G. exfalso. assert (nth_error gk (length gk) = None) by (apply nth_error_None; lia). congruence. }
  change (Z.of_nat 0) with 0 in E. change (Z.of_nat (length gk)) with (zlen gk) in E. rewrite E. cbn [bind]. rewrite get_nat.
  set (q := (i / n)%nat). set (j := (i mod n)%nat). assert (Ei : i = (q * n + j)%nat) by (pose proof (Nat.div_mod i n ltac:(lia)); unfold q, j; lia).
  assert (Hj : (j < n)%nat) by (apply Nat.mod_upper_bound; lia). assert (Hq : (q < S k)%nat) by (apply Nat.div_lt_upper_bound; lia).
  assert (G : nth_error gk i = nth_error gs j) by (rewrite Ei; apply copies_nth; assumption).
  rewrite G in *. destruct (nth_error gs j) as [g|] eqn:Gj; [|apply nth_error_None in Gj; fold n in Gj; lia]. cbn [bind]. f_equal.
  assert (Eq : forall l, find (fun g => in_block g c) l = find (fun g => g_msb g =? m) l).
  { induction l as [|x l IH]; cbn [find]; [reflexivity|]. rewrite in_block_msb. fold m. rewrite IH. reflexivity. }
  rewrite Eq. destruct (g_msb g =? m) eqn:Q; symmetry.
  - apply (find_nth gs j g); auto. intros j' g' Hj' G'. pose proof (sorted_nth gs j' j g' g HS Hj' G' Gj). lia.
  - apply find_none_all. intros g' Hin. apply In_nth_error in Hin as (j' & G'). apply Z.eqb_neq. intros Em.
    assert (Hj' : (j' < n)%nat) by (unfold n; apply nth_error_Some; congruence).
    destruct (lt_eq_lt_dec j' j) as [[Lt|Eq2]|Gt].
    + pose proof (sorted_nth gs j' j g' g HS Lt G' Gj). specialize (L g eq_refl ltac:(nia)). lia.
    + subst j'. assert (g' = g) as -> by congruence. lia.
    + assert (Gs : nth_error gk (S i) = nth_error gs (S j)) by (rewrite Ei, <- plus_n_Sm || rewrite Ei; replace (S (q * n + j))%nat with (q * n + S j)%nat by lia; apply copies_nth; unfold n in *; lia).
      destruct (nth_error gs (S j)) as [g2|] eqn:G2; [|apply nth_error_None in G2; fold n in G2; lia]. specialize (R g2 Gs).
      destruct (Nat.eq_dec j' (S j)) as [->|N2]; [assert (g' = g2) as -> by congruence; lia|]. pose proof (sorted_nth gs (S j) j' g2 g' HS ltac:(lia) G2 G'). lia.
Qed.
Theorem loaded_name k N c choice : groups_sorted (n_groups N) -> n_groups N <> [] -> getCharName (loaded (S k) N) c choice = getCharName N c choice.
Proof.
  intros HS NE. unfold getCharName. unfold loaded at 1. cbn [n_ranges]. rewrite find_copies. destruct (find _ (n_ranges N)); [reflexivity|]. destruct (choice =? U_EXTENDED_CHAR_NAME); [reflexivity|].
  unfold groupName. rewrite loaded_group, getGroup_ok by assumption. reflexivity.
Qed.
Lemma copies_snoc {A} k (l : list A) : copies k l ++ l = copies (S k) l.
Proof.
  unfold copies. cbn [repeat concat]. induction k as [|k IH]; [cbn; rewrite app_nil_r; reflexivity|]. cbn [repeat concat]. rewrite <- app_assoc, IH. reflexivity.
Qed.
Lemma tokens_again D a b c T : populateTokens noTokens D a b c = Ok T -> populateTokens T D a b c = Ok T.
Proof. intros E. unfold populateTokens at 1. destruct (zlen (t_tokens T) =? 0); [exact E|reflexivity]. Qed.
(** reading the same file once more appends the same groups and ranges *)
Theorem load_again D N k : populateData noNames D = Ok N -> populateData (loaded (S k) N) D = Ok (loaded (S (S k)) N).
Proof.
  unfold populateData. destruct (getDataOffsetAndHeader D unames) as [[o hd]|e]; cbn [bind]; [|discriminate].
  destruct (unpack 4 4 _) as [[|h1 [|h2 [|h3 [|h4 [|]]]]]|e]; cbn [bind]; try discriminate. cbn [n_tokens noNames loaded].
  destruct (populateTokens noTokens D _ _ _) as [T|e] eqn:ET; cbn [bind]; [|discriminate].
  destruct (unpack 2 1 _) as [[|ng [|]]|e] eqn:EN; cbn [bind]; try discriminate.
  destruct (groupsLoop _ D _ _) as [gs|e] eqn:EG; cbn [bind]; [|discriminate].
  destruct (unpack 4 1 _) as [[|nr [|]]|e] eqn:ER; cbn [bind]; try discriminate.
  destruct (rangesLoop _ D _) as [rs|e] eqn:EA; cbn [bind]; [|discriminate].
  intros Q. injection Q as <-. cbn [n_tokens n_groups n_ranges noNames app]. rewrite (tokens_again _ _ _ _ _ ET). cbn [bind].
  unfold loaded. cbn [n_tokens n_groups n_ranges]. rewrite !copies_snoc. reflexivity.
Qed.
