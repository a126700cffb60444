(** * CharNames: groups, tokens, algorithmic names. *)
From Coq Require Import ZArith List Bool Lia ZifyBool Arith Sorting.Sorted.
From Verif Require Import Py Bytes Dict Utilities UtilitiesFacts HexFacts ICUDataFile ICUFacts CharNames.
Import ListNotations.
Open Scope Z_scope.

(** ** The group search *)
Definition groups_sorted (gs : list group) : Prop := StronglySorted (fun a b => g_msb a < g_msb b) gs.
Definition in_block (g : group) (c : Z) : bool := (g_start g <=? c) && (c <? g_stop g).
Lemma in_block_msb g c : in_block g c = (g_msb g =? Z.shiftr c GROUP_SHIFT).
Proof.
  unfold in_block, g_stop, g_start. change LINES_PER_GROUP with 32. change GROUP_SHIFT with 5. rewrite Z.shiftl_mul_pow2, Z.shiftr_div_pow2 by lia. change (2 ^ 5) with 32.
  pose proof (Z.div_mod c 32 ltac:(lia)). pose proof (Z.mod_pos_bound c 32 ltac:(lia)). lia.
Qed.

Lemma sorted_nth gs i j a b : groups_sorted gs -> (i < j)%nat -> nth_error gs i = Some a -> nth_error gs j = Some b -> g_msb a < g_msb b.
Proof.
  intros S. revert i j. induction S as [|x l S IH F]; intros i j L A B; [destruct i; discriminate|]. destruct j as [|j]; [lia|]. destruct i as [|i].
  - cbn in A, B. rewrite Forall_forall in F. assert (x = a) as <- by congruence. apply F. eapply nth_error_In. exact B.
  - cbn in A, B. apply (IH i j); auto; lia.
Qed.
Lemma get_nat {A} (l : list A) k : py_get l (Z.of_nat k) = match nth_error l k with Some x => Ok x | None => Err IndexError end.
Proof. unfold py_get. replace (Z.of_nat k <? 0) with false by lia. cbv zeta. replace (Z.of_nat k <? 0) with false by lia. rewrite Nat2Z.id. reflexivity. Qed.

Lemma search_ok gs m : forall fuel start limit, (start < limit <= length gs)%nat -> (limit - start <= fuel)%nat ->
  (forall g, nth_error gs start = Some g -> start <> 0%nat -> g_msb g <= m) ->
  (forall g, nth_error gs limit = Some g -> m < g_msb g) ->
  exists k, searchLoop fuel gs m (Z.of_nat start) (Z.of_nat limit) = Ok (Z.of_nat k) /\ (k < length gs)%nat /\
    (forall g, nth_error gs k = Some g -> k <> 0%nat -> g_msb g <= m) /\ (forall g, nth_error gs (S k) = Some g -> m < g_msb g).
Proof.
  induction fuel as [|f IH]; intros start limit H Hf L R; [lia|]. cbn [searchLoop].
  destruct (Z.of_nat start <? Z.of_nat limit - 1) eqn:E; cbn [negb].
  - assert (Em : (Z.of_nat start + Z.of_nat limit) / 2 = Z.of_nat ((start + limit) / 2)).
    { rewrite Nat2Z.inj_div, Nat2Z.inj_add. reflexivity. }
    rewrite Em, get_nat. set (mid := ((start + limit) / 2)%nat) in *.
    assert (Hm : (start < mid < limit)%nat) by (unfold mid; pose proof (Nat.div_mod (start + limit) 2 ltac:(lia)); pose proof (Nat.mod_upper_bound (start + limit) 2 ltac:(lia)); lia).
    destruct (nth_error gs mid) as [g|] eqn:G; [|apply nth_error_None in G; lia]. cbn [bind].
    destruct (m <? g_msb g) eqn:C; apply IH; try lia; auto.
    + intros g' G'. assert (g' = g) as -> by congruence. lia.
    + intros g' G' _. assert (g' = g) as -> by congruence. lia.
  - exists start. split; [reflexivity|]. split; [lia|]. split; [exact L|]. replace (S start) with limit by lia. exact R.
Qed.

Lemma find_none_all {A} (f : A -> bool) l : (forall x, In x l -> f x = false) -> find f l = None.
Proof. intros H. induction l as [|x l IH]; cbn [find]; [reflexivity|]. rewrite (H x (or_introl eq_refl)). apply IH. intros y Hy. apply H. right. exact Hy. Qed.
Lemma find_nth gs k g (f : group -> bool) : nth_error gs k = Some g -> f g = true -> (forall j g', (j < k)%nat -> nth_error gs j = Some g' -> f g' = false) -> find f gs = Some g.
Proof.
  revert k. induction gs as [|x gs IH]; intros k E T H; [destruct k; discriminate|]. destruct k as [|k]; cbn [find].
  - cbn in E. assert (x = g) as -> by congruence. rewrite T. reflexivity.
  - rewrite (H 0%nat x ltac:(lia) eq_refl). apply (IH k E T). intros j g' Hj. apply (H (S j) g'). lia.
Qed.
Theorem getGroup_ok N c : groups_sorted (n_groups N) -> n_groups N <> [] -> getGroup N c = Ok (find (fun g => in_block g c) (n_groups N)).
Proof.
  intros S NE. set (gs := n_groups N) in *. unfold getGroup. fold gs. set (m := Z.shiftr c GROUP_SHIFT).
  assert (L0 : (0 < length gs)%nat) by (destruct gs; [congruence|cbn; lia]).
  destruct (search_ok gs m (length gs) 0 (length gs)) as (k & E & Hk & L & R); try lia.
  { intros g G. exfalso. apply (f_equal (fun x => x)) in G. assert (nth_error gs (length gs) = None) by (apply nth_error_None; lia). congruence. }
  change (Z.of_nat 0) with 0 in E. change (Z.of_nat (length gs)) with (zlen gs) in E. rewrite E. cbn [bind]. rewrite get_nat.
  destruct (nth_error gs k) as [g|] eqn:G; [|apply nth_error_None in G; lia]. cbn [bind]. f_equal.
  assert (Eq : forall l, find (fun g => in_block g c) l = find (fun g => g_msb g =? m) l).
  { induction l as [|x l IH]; cbn [find]; [reflexivity|]. rewrite in_block_msb. fold m. rewrite IH. reflexivity. }
  rewrite Eq. destruct (g_msb g =? m) eqn:Q; symmetry.
  - apply (find_nth gs k g); auto. intros j g' Hj G'. pose proof (sorted_nth gs j k g' g S Hj G' G). lia.
  - apply find_none_all. intros g' Hin. apply In_nth_error in Hin as (j & G').
    destruct (lt_eq_lt_dec j k) as [[Lt|Eq2]|Gt].
    + pose proof (sorted_nth gs j k g' g S Lt G' G). specialize (L g eq_refl ltac:(lia)). lia.
    + subst j. assert (g' = g) as -> by congruence. exact Q.
    + destruct (Nat.eq_dec j (Datatypes.S k)) as [->|N2]; [specialize (R g' G'); lia|].
      destruct (nth_error gs (Datatypes.S k)) as [g2|] eqn:G2.
      * specialize (R g2 eq_refl). pose proof (sorted_nth gs (Datatypes.S k) j g2 g' S ltac:(lia) G2 G'). lia.
      * apply nth_error_None in G2. assert (j < length gs)%nat by (apply nth_error_Some; congruence). lia.
Qed.
Lemma getGroup_empty N c : n_groups N = [] -> getGroup N c = Err IndexError.
Proof. intros E. unfold getGroup. rewrite E. reflexivity. Qed.
Lemma find_block gs g c : groups_sorted gs -> In g gs -> in_block g c = true -> find (fun g => in_block g c) gs = Some g.
Proof.
  intros S Hin B. apply In_nth_error in Hin as (k & G). apply (find_nth gs k g); auto. intros j g' Hj G'.
  pose proof (sorted_nth gs j k g' g S Hj G' G). rewrite in_block_msb in *. lia.
Qed.

(** ** Tokens *)
(** a part of an encoded name: a character, a token of one byte, a token of two bytes *)
Inductive piece := Lit (c : Z) | Tok (c : Z) (text : str) | Tok2 (c d : Z) (text : str).
Definition piece_bytes (p : piece) : bytes := match p with Lit c => [c] | Tok c _ => [c] | Tok2 c d _ => [c; d] end.
Definition piece_text (p : piece) : str := match p with Lit c => [c] | Tok _ s => s | Tok2 _ _ s => s end.
(** [c] stands for itself *)
Definition literal (T : tokens) (c : Z) : Prop := zlen (t_tokens T) <= c \/ nth_error (t_tokens T) (Z.to_nat c) = Some 0xFFFF.
(** token number [k] is the text *)
Definition token_text (T : tokens) (k : Z) (s : str) : Prop :=
  exists t, nth_error (t_tokens T) (Z.to_nat k) = Some t /\ t <> 0xFFFF /\ nonzero s /\ at_pos (t_strings T) t (s ++ [0]).
Definition piece_ok (T : tokens) (p : piece) : Prop :=
  match p with
  | Lit c => 0 <= c < 256 /\ c <> CP_SEMICOLON /\ literal T c
  | Tok c s => 0 <= c < 256 /\ token_text T c s /\ nth_error (t_tokens T) (Z.to_nat c) <> Some 0xFFFE
  | Tok2 c d s => 0 <= c < 256 /\ 0 <= d < 256 /\ nth_error (t_tokens T) (Z.to_nat c) = Some 0xFFFE /\ token_text T (256 * c + d) s
  end.

Lemma py_get_pos {A} (l : list A) k : 0 <= k -> py_get l k = match nth_error l (Z.to_nat k) with Some x => Ok x | None => Err IndexError end.
Proof. intros H. rewrite <- (Z2Nat.id k) at 1 by exact H. apply get_nat. Qed.
Lemma tokenString_ok T t s : nonzero s -> at_pos (t_strings T) t (s ++ [0]) -> tokenString T t = Ok s.
Proof.
  intros N A. unfold tokenString. apply stringFrom_ok; [|exact N|exact A]. destruct A as (p & q & E & _). rewrite E, !app_length. cbn. lia.
Qed.
Lemma lor_shift k c d : 0 <= k -> 0 <= d < 2 ^ k -> Z.lor (Z.shiftl c k) d = 2 ^ k * c + d.
Proof.
  intros Hk Hd. assert (L0 : Z.land (Z.shiftl c k) d = 0).
  { apply Z.bits_inj'. intros n Hn. rewrite Z.land_spec, Z.bits_0, Z.shiftl_spec by lia. destruct (Z_lt_le_dec n k) as [L|L].
    - rewrite (Z.testbit_neg_r c (n - k)) by lia. reflexivity.
    - replace (Z.testbit d n) with false; [apply andb_false_r|]. symmetry. destruct (Z.eq_dec d 0) as [->|]; [apply Z.bits_0|]. apply Z.bits_above_log2; [lia|].
      assert (Z.log2 d < k) by (apply Z.log2_lt_pow2; lia). lia. }
  rewrite <- Z.lxor_lor, <- Z.add_nocarry_lxor by exact L0. rewrite Z.shiftl_mul_pow2 by lia. lia.
Qed.
Lemma lor_byte c d : 0 <= c -> 0 <= d < 256 -> Z.lor (Z.shiftl c 8) d = 256 * c + d.
Proof. intros _ Hd. apply (lor_shift 8 c d); [lia|exact Hd]. Qed.

(** where the field ends: the string does, or there is a semicolon *)
Definition field_end (T : tokens) (tail : bytes) : Prop := tail = [] \/ (exists r, tail = CP_SEMICOLON :: r) /\ literal T CP_SEMICOLON.
Lemma py_chr_byte c : 0 <= c < 256 -> py_chr c = Ok [c].
Proof. intros H. unfold py_chr. replace ((0 <=? c) && (c <=? 0x10FFFF)) with true by lia. reflexivity. Qed.

Lemma expand_pieces T choice ps : Forall (piece_ok T) ps -> forall fuel rest acc, (length (flat_map piece_bytes ps) <= fuel)%nat ->
  expandLoop fuel T (flat_map piece_bytes ps ++ rest) choice acc = expandLoop (fuel - length ps) T rest choice (acc ++ flat_map piece_text ps).
Proof.
  induction 1 as [|p ps Hp F IH]; intros fuel rest acc Hf.
  - cbn [flat_map app length]. rewrite app_nil_r, Nat.sub_0_r. reflexivity.
  - destruct p as [c|c s|c d s]; cbn [flat_map piece_bytes piece_text app length] in *; (destruct fuel as [|m]; [lia|]); cbn [expandLoop Nat.sub].
    + destruct Hp as (Hc & Hs & HL). destruct HL as [HL|HL].
      * replace (c >=? zlen (t_tokens T)) with true by lia. replace (c =? CP_SEMICOLON) with false by lia. cbn [negb]. rewrite py_chr_byte by lia. cbn [bind].
        rewrite IH by lia. rewrite <- app_assoc. reflexivity.
      * assert (Z.to_nat c < length (t_tokens T))%nat by (apply nth_error_Some; congruence). replace (c >=? zlen (t_tokens T)) with false by (unfold zlen; lia).
        rewrite py_get_pos, HL by lia. cbn [bind]. change (0xFFFF =? 0xFFFE) with false. cbn iota. cbn [bind]. change (0xFFFF =? 0xFFFF) with true. cbn iota.
        replace (c =? CP_SEMICOLON) with false by lia. cbn [negb]. rewrite py_chr_byte by lia. cbn [bind]. rewrite IH by lia. rewrite <- app_assoc. reflexivity.
    + destruct Hp as (Hc & (t & HT & Ht & Ns & A) & HE). assert (Z.to_nat c < length (t_tokens T))%nat by (apply nth_error_Some; congruence).
      replace (c >=? zlen (t_tokens T)) with false by (unfold zlen; lia). rewrite py_get_pos, HT by lia. cbn [bind].
      replace (t =? 0xFFFE) with false by (symmetry; apply Z.eqb_neq; intros ->; apply HE; exact HT). cbn [bind]. replace (t =? 0xFFFF) with false by lia.
      rewrite (tokenString_ok T t s Ns A). cbn [bind]. rewrite IH by lia. rewrite <- app_assoc. reflexivity.
    + destruct Hp as (Hc & Hd & H2 & (t & HT & Ht & Ns & A)). assert (Z.to_nat c < length (t_tokens T))%nat by (apply nth_error_Some; congruence).
      replace (c >=? zlen (t_tokens T)) with false by (unfold zlen; lia). rewrite py_get_pos, H2 by lia. cbn [bind].
      change (0xFFFE =? 0xFFFE) with true. cbn iota. rewrite lor_byte, py_get_pos, HT by lia. cbn [bind]. replace (t =? 0xFFFF) with false by lia.
      rewrite (tokenString_ok T t s Ns A). cbn [bind]. rewrite IH by lia. rewrite <- app_assoc. reflexivity.
Qed.
Lemma pieces_len T ps : Forall (piece_ok T) ps -> (length ps <= length (flat_map piece_bytes ps))%nat.
Proof. induction 1 as [|p ps _ _ IH]; cbn [length flat_map]; [lia|]. rewrite app_length. destruct p; cbn; lia. Qed.
Theorem expand_ok T choice ps tail : Forall (piece_ok T) ps -> field_end T tail -> choice <> U_EXTENDED_CHAR_NAME \/ flat_map piece_text ps <> [] \/ zlen (t_tokens T) <= CP_SEMICOLON ->
  expandString T (flat_map piece_bytes ps ++ tail) choice = Ok (flat_map piece_text ps).
Proof.
  intros F E C. unfold expandString. rewrite expand_pieces by (auto; rewrite app_length; lia). cbn [app].
  pose proof (pieces_len T ps F). destruct E as [->|[(r & ->) L]].
  - rewrite app_nil_r. destruct (length (flat_map piece_bytes ps) - length ps)%nat; reflexivity.
  - rewrite app_length. cbn [length]. replace (length (flat_map piece_bytes ps) + S (length r) - length ps)%nat with (S (length (flat_map piece_bytes ps) + length r - length ps)) by lia.
    cbn [expandLoop]. destruct (CP_SEMICOLON >=? zlen (t_tokens T)) eqn:G; [reflexivity|]. destruct L as [L|L]; [lia|].
    rewrite py_get_pos, L by (unfold CP_SEMICOLON; lia). cbn [bind]. change (0xFFFF =? 0xFFFE) with false. cbn iota. cbn [bind]. change (0xFFFF =? 0xFFFF) with true. cbn iota.
    rewrite Z.eqb_refl. cbn [negb]. destruct C as [C|[C|C]]; [|destruct (flat_map piece_text ps) as [|x y]; [congruence|]|lia].
    + replace (choice =? U_EXTENDED_CHAR_NAME) with false by lia. rewrite andb_false_r. reflexivity.
    + rewrite zlen_cons. pose proof (zlen_nonneg y). replace (zlen y + 1 =? 0) with false by lia. reflexivity.
Qed.
(** the extended choice skips empty fields when the semicolon is in the token table *)
Theorem expand_skips T rest : nth_error (t_tokens T) 59 = Some 0xFFFF ->
  expandString T (CP_SEMICOLON :: rest) U_EXTENDED_CHAR_NAME = expandString T rest U_EXTENDED_CHAR_NAME.
Proof.
  intros L. unfold expandString. cbn [length expandLoop]. assert (59 < length (t_tokens T))%nat by (apply nth_error_Some; congruence).
  replace (CP_SEMICOLON >=? zlen (t_tokens T)) with false by (unfold zlen, CP_SEMICOLON; lia).
  change (py_get (t_tokens T) CP_SEMICOLON) with (py_get (t_tokens T) (Z.of_nat 59)). rewrite get_nat, L. reflexivity.
Qed.

(** ** Algorithmic names *)
Lemma algName_hex A c choice : a_type A = 0 -> choice = 0 \/ choice = 2 -> 0 <= c ->
  algName A c choice = Ok (a_string A ++ formatHex (if a_variant A =? 4 then 4 else if a_variant A =? 5 then 5 else 6) c).
Proof.
  intros E C H. unfold algName. rewrite E. unfold formatHexInt. replace (c <? 0) with false by lia.
  destruct C as [->| ->]; reflexivity.
Qed.
Lemma algName_other A c choice : choice <> 0 -> choice <> 2 -> algName A c choice = Ok [].
Proof.
  intros H1 H2. unfold algName. change U_UNICODE_CHAR_NAME with 0. change U_EXTENDED_CHAR_NAME with 2.
  replace (choice =? 0) with false by lia. replace (choice =? 2) with false by lia. reflexivity.
Qed.

(** mixed radix digits, most significant first; the first has no radix *)
Fixpoint radix_value (acc : Z) (fds : list (Z * Z)) : Z := match fds with [] => acc | (f, d) :: r => radix_value (acc * f + d) r end.
Definition product (l : list Z) : Z := fold_right Z.mul 1 l.
Lemma product_pos l : Forall (fun f => 0 < f) l -> 0 < product l.
Proof. induction 1; cbn; [lia|]. fold (product l). nia. Qed.
Lemma product_app a b : product (a ++ b) = product a * product b.
Proof. unfold product. induction a as [|x a IH]; cbn [app fold_right]; [lia|]. rewrite IH. lia. Qed.

Lemma indexesLoop_ok rfs : Forall (fun f => 0 < f) rfs -> forall code acc, 0 <= code ->
  exists d ds, indexesLoop rfs code acc = Ok (d :: ds ++ acc) /\ length ds = length rfs /\ Forall2 (fun f d => 0 <= d < f) (rev rfs) ds /\
    radix_value d (combine (rev rfs) ds) = code /\ d = code / product rfs.
Proof.
  induction 1 as [|f rfs Hf F IH]; intros code acc Hc; cbn [indexesLoop].
  - exists code, []. cbn. rewrite Z.div_1_r. repeat split; constructor.
  - replace (f =? 0) with false by lia. destruct (IH (code / f) (code mod f :: acc)) as (d & ds & E & L & F2 & V & Q); [apply Z.div_pos; lia|].
    exists d, (ds ++ [code mod f]). rewrite E, <- app_assoc. split; [reflexivity|]. split; [rewrite app_length; cbn; lia|]. cbn [rev]. split; [|split].
    + apply Forall2_app; [exact F2|]. constructor; [|constructor]. apply Z.mod_pos_bound. exact Hf.
    + assert (G : forall a b c d x, length a = length b -> radix_value x (combine (a ++ c) (b ++ d)) = radix_value (radix_value x (combine a b)) (combine c d)).
      { induction a as [|y a IHa]; intros [|z b] c e x Q'; cbn [length app combine radix_value] in *; try lia; try reflexivity. apply IHa. lia. }
      rewrite G by (rewrite rev_length; lia). rewrite V. cbn. pose proof (Z.div_mod code f ltac:(lia)). lia.
    + cbn. fold (product rfs). rewrite Q, Z.div_div; [reflexivity|lia|]. apply product_pos. exact F.
Qed.

(** the elements, one list for each factor *)
Definition table_ok (A : algRange) (tables : list (list str)) : Prop :=
  (exists padding, a_elements A = concat tables ++ padding) /\ a_factors A = map (fun t => zlen t) tables /\ Forall (fun t => t <> []) tables /\
  a_stop A - a_start A <= product (a_factors A).
Fixpoint spell (tables : list (list str)) (ds : list Z) : str :=
  match tables, ds with t :: tr, d :: dr => nth (Z.to_nat d) t [] ++ spell tr dr | _, _ => [] end.

Lemma suffix_ok A tables : forall ds pre post suffix, a_elements A = pre ++ concat tables ++ post -> Forall2 (fun t d => 0 <= d < zlen t) tables ds ->
  suffixLoop A (map (fun t => zlen t) tables) ds (zlen pre) suffix = Ok (suffix ++ spell tables ds).
Proof.
  induction tables as [|t tr IH]; intros ds pre post suffix E F; inversion F as [|? d ? dr Hd F']; subst; cbn [map suffixLoop spell].
  - rewrite app_nil_r. reflexivity.
  - cbn [concat] in E. rewrite py_get_pos by (pose proof (zlen_nonneg pre); lia). rewrite E. rewrite nth_error_app2 by (unfold zlen; lia).
    replace (Z.to_nat (zlen pre + d) - length pre)%nat with (Z.to_nat d) by (unfold zlen; lia).
    rewrite <- app_assoc, nth_error_app1 by (unfold zlen in *; lia). rewrite (nth_error_nth' t []) by (unfold zlen in *; lia). cbn [bind].
    replace (zlen pre + d + (zlen t - d)) with (zlen (pre ++ t)) by (rewrite zlen_app; lia).
    rewrite (IH dr (pre ++ t) post); [rewrite <- app_assoc; reflexivity| |exact F']. rewrite E, <- !app_assoc. reflexivity.
Qed.

Theorem factor_ok A tables c choice : a_type A = 1 -> choice = 0 \/ choice = 2 -> table_ok A tables -> tables <> [] -> charInRange A c = true ->
  exists ds, Forall2 (fun t d => 0 <= d < zlen t) tables ds /\
    radix_value 0 (combine (a_factors A) ds) = c - a_start A /\ algName A c choice = Ok (a_string A ++ spell tables ds).
Proof.
  intros E1 EC ((pad & EE) & EF & NE & PR) NT R. unfold charInRange in R.
  assert (EN : algName A c choice = factorSuffix A c) by (unfold algName; rewrite E1; destruct EC as [->| ->]; reflexivity).
  rewrite EN. unfold factorSuffix. destruct tables as [|t tr]; [congruence|]. cbn [map] in EF.
  assert (FP : Forall (fun f => 0 < f) (map (fun t => zlen t) (t :: tr))).
  { apply Forall_map. eapply Forall_impl; [|exact NE]. intros x Hx. destruct x; [congruence|]. rewrite zlen_cons. pose proof (zlen_nonneg x). lia. }
  cbn [map] in FP. inversion FP as [|? ? Ht FR]; subst. set (fr := map (fun t => zlen t) tr) in *. rewrite EF. cbn [tl].
  destruct (indexesLoop_ok (rev fr) (Forall_rev FR) (c - a_start A) []) as (d & ds & E & L & F2 & V & Q); [lia|]. rewrite app_nil_r in E. rewrite rev_involutive in F2, V.
  rewrite E. cbn [bind]. exists (d :: ds).
  assert (PP : product (rev fr) = product fr).
  { clear. induction fr as [|x fr IH]; [reflexivity|]. cbn [rev]. rewrite product_app, IH. cbn. fold (product fr). lia. }
  assert (FD : Forall2 (fun t d => 0 <= d < zlen t) (t :: tr) (d :: ds)).
  { constructor.
    - rewrite Q, PP. pose proof (product_pos fr FR) as P0. split; [apply Z.div_pos; lia|]. apply Z.div_lt_upper_bound; [exact P0|].
      rewrite EF in PR. cbn in PR. fold (product fr) in PR. lia.
    - clear - F2. unfold fr in F2. revert ds F2. induction tr as [|x tr IH]; intros ds F2; inversion F2; subst; constructor; auto. }
  split; [exact FD|]. split.
  - cbn [combine radix_value]. rewrite Z.mul_0_l, Z.add_0_l. exact V.
  - change (zlen t :: fr) with (map (fun t => zlen t) (t :: tr)). change 0 with (zlen (@nil str)).
    apply (suffix_ok A (t :: tr) (d :: ds) [] pad); [exact EE|exact FD].
Qed.
