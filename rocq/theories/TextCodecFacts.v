(** * Facts about the codecs and about commands on files of bytes *)
From Coq Require Import ZArith List Bool Lia ZifyBool String.
From Verif Require Import Py Dict PyStr Utilities CharNames PyText ModuleBuilder HeaderFile BuilderArgs CsvReader Build BuildFacts TextCodec.
Import ListNotations.
Open Scope string_scope.
Open Scope list_scope.
Open Scope Z_scope.
Local Notation length := List.length.
Local Notation concat := List.concat.

(** the Unicode scalar values *)
Definition scalar (c : Z) : Prop := 0 <= c < 0xD800 \/ 0xE000 <= c <= 0x10FFFF.
Definition byte (b : Z) : Prop := 0 <= b <= 0xFF.
(** The Unicode Standard, table 3-6 *)
Definition form (c : Z) : list Z :=
  if c <? 0x80 then [c]
  else if c <? 0x800 then [0xC0 + c / 64; 0x80 + c mod 64]
  else if c <? 0x10000 then [0xE0 + c / 4096; 0x80 + c / 64 mod 64; 0x80 + c mod 64]
  else [0xF0 + c / 262144; 0x80 + c / 4096 mod 64; 0x80 + c / 64 mod 64; 0x80 + c mod 64].

Lemma lor_upto k n : forallb (fun i => Z.lor k (Z.of_nat i) =? k + Z.of_nat i) (seq 0 n) = true -> forall x, 0 <= x < Z.of_nat n -> Z.lor k x = k + x.
Proof.
  intros H x B. rewrite forallb_forall in H. specialize (H (Z.to_nat x)). rewrite Z2Nat.id in H by lia. apply Z.eqb_eq, H, in_seq. lia.
Qed.
Lemma low6 c : Z.land c 0x3F = c mod 64.
Proof. change 0x3F with (Z.ones 6). apply Z.land_ones. lia. Qed.
Lemma bytes_form c : scalar c -> utf8Bytes c = Some (form c).
Proof.
  intros S. unfold scalar in S. unfold utf8Bytes, form. rewrite ?low6, ?Z.shiftr_div_pow2 by lia. change (2 ^ 6) with 64. change (2 ^ 12) with 4096. change (2 ^ 18) with 262144.
  assert (M : forall y, 0 <= y mod 64 < Z.of_nat 64) by (intros y; apply Z.mod_pos_bound; lia).
  destruct (Z.ltb_spec c 0x80); [reflexivity|]. destruct (Z.ltb_spec c 0x800).
  { rewrite (lor_upto 0xC0 32) by (try reflexivity; (split; [apply Z.div_pos; lia|apply Z.div_lt_upper_bound; lia])). rewrite (lor_upto 0x80 64) by (try reflexivity; apply M). reflexivity. }
  destruct (Z.ltb_spec c 0x10000).
  { replace ((0xD800 <=? c) && (c <=? 0xDFFF)) with false by lia.
    rewrite (lor_upto 0xE0 16) by (try reflexivity; (split; [apply Z.div_pos; lia|apply Z.div_lt_upper_bound; lia])). rewrite !(lor_upto 0x80 64) by (try reflexivity; apply M). reflexivity. }
  replace (0x10FFFF <? c) with false by lia. rewrite (lor_upto 0xF0 8) by (try reflexivity; (split; [apply Z.div_pos; lia|apply Z.div_lt_upper_bound; lia])). rewrite !(lor_upto 0x80 64) by (try reflexivity; apply M). reflexivity.
Qed.
Lemma bytes_none c : 0 <= c <= 0x10FFFF -> ~ scalar c -> utf8Bytes c = None.
Proof.
  intros R S. unfold scalar in S. unfold utf8Bytes. destruct (Z.ltb_spec c 0x80); [exfalso; apply S; lia|]. destruct (Z.ltb_spec c 0x800); [exfalso; apply S; lia|].
  destruct (Z.ltb_spec c 0x10000); [|exfalso; apply S; lia]. replace ((0xD800 <=? c) && (c <=? 0xDFFF)) with true by lia. reflexivity.
Qed.
Lemma bytes_some c b : utf8Bytes c = Some b -> scalar c \/ c < 0 /\ b = [c].
Proof.
  unfold utf8Bytes, scalar. destruct (Z.ltb_spec c 0x80); [intros E; injection E as <-; destruct (Z_lt_dec c 0); [right; auto|left; lia]|].
  destruct (Z.ltb_spec c 0x800); [left; lia|]. destruct (Z.ltb_spec c 0x10000).
  - destruct ((0xD800 <=? c) && (c <=? 0xDFFF)) eqn:D; [discriminate|left; lia].
  - destruct (Z.ltb_spec 0x10FFFF c); [discriminate|left; lia].
Qed.
Lemma scalar_dec c : {scalar c} + {~ scalar c}.
Proof.
  unfold scalar. destruct ((0 <=? c) && (c <? 0xD800) || (0xE000 <=? c) && (c <=? 0x10FFFF)) eqn:E; [left|right]; lia.
Qed.

(** one decoded character *)
Lemma tail_ok lo hi b : tail lo hi b = true <-> lo <= b <= hi.
Proof. unfold tail. lia. Qed.
Ltac forms := unfold form; repeat match goal with |- context [?x <? ?y] => destruct (Z.ltb_spec x y) end; try lia.
Lemma two a b : 0xC2 <= a < 0xE0 -> 0x80 <= b <= 0xBF -> let c := Z.shiftl a 6 + b - 0x3080 in scalar c /\ form c = [a; b].
Proof.
  intros A B. rewrite Z.shiftl_mul_pow2 by lia. change (2 ^ 6) with 64. cbv zeta. split; [unfold scalar; lia|]. forms.
  f_equal; [|f_equal]; Z.to_euclidean_division_equations; lia.
Qed.
Lemma three a b c : 0xE0 <= a < 0xF0 -> (if a =? 0xE0 then 0xA0 else 0x80) <= b <= (if a =? 0xED then 0x9F else 0xBF) -> 0x80 <= c <= 0xBF ->
  let x := Z.shiftl a 12 + Z.shiftl b 6 + c - 0xE2080 in scalar x /\ form x = [a; b; c].
Proof.
  intros A B D. rewrite !Z.shiftl_mul_pow2 by lia. change (2 ^ 6) with 64. change (2 ^ 12) with 4096. cbv zeta.
  assert (B' : 0x80 <= b <= 0xBF) by (destruct (a =? 0xE0), (a =? 0xED); lia).
  assert (L : a = 0xE0 -> 0xA0 <= b) by (intros ->; cbn in B; lia). assert (H : a = 0xED -> b <= 0x9F) by (intros ->; cbn in B; lia). clear B.
  assert (Q : forall q r s, 0 <= q -> 0 <= r < 64 -> 0 <= s < 64 -> (q * 4096 + r * 64 + s) / 4096 = q /\ (q * 4096 + r * 64 + s) / 64 mod 64 = r /\ (q * 4096 + r * 64 + s) mod 64 = s).
  { intros q r s H1 H2 H3. Z.to_euclidean_division_equations. lia. }
  destruct (Q (a - 0xE0) (b - 0x80) (c - 0x80)) as (Q1 & Q2 & Q3); [lia..|].
  replace (a * 4096 + b * 64 + c - 0xE2080) with ((a - 0xE0) * 4096 + (b - 0x80) * 64 + (c - 0x80)) by lia.
  split; [unfold scalar; lia|]. forms. rewrite Q1, Q2, Q3. f_equal; [|f_equal; [|f_equal]]; lia.
Qed.
Lemma four a b c d : 0xF0 <= a < 0xF5 -> (if a =? 0xF0 then 0x90 else 0x80) <= b <= (if a =? 0xF4 then 0x8F else 0xBF) -> 0x80 <= c <= 0xBF -> 0x80 <= d <= 0xBF ->
  let x := Z.shiftl a 18 + Z.shiftl b 12 + Z.shiftl c 6 + d - 0x3C82080 in scalar x /\ form x = [a; b; c; d].
Proof.
  intros A B D E. rewrite !Z.shiftl_mul_pow2 by lia. change (2 ^ 6) with 64. change (2 ^ 12) with 4096. change (2 ^ 18) with 262144. cbv zeta.
  assert (B' : 0x80 <= b <= 0xBF) by (destruct (a =? 0xF0), (a =? 0xF4); lia).
  assert (L : a = 0xF0 -> 0x90 <= b) by (intros ->; cbn in B; lia). assert (H : a = 0xF4 -> b <= 0x8F) by (intros ->; cbn in B; lia). clear B.
  assert (Q : forall p q r s, 0 <= p -> 0 <= q < 64 -> 0 <= r < 64 -> 0 <= s < 64 -> let x := p * 262144 + q * 4096 + r * 64 + s in x / 262144 = p /\ x / 4096 mod 64 = q /\ x / 64 mod 64 = r /\ x mod 64 = s).
  { intros p q r s H0 H1 H2 H3 x. split; [unfold x; Z.to_euclidean_division_equations; lia|]. split; [|split; unfold x; Z.to_euclidean_division_equations; lia].
    replace (x / 4096) with (p * 64 + q) by (unfold x; Z.to_euclidean_division_equations; lia). Z.to_euclidean_division_equations; lia. }
  destruct (Q (a - 0xF0) (b - 0x80) (c - 0x80) (d - 0x80)) as (Q1 & Q2 & Q3 & Q4); [lia..|].
  replace (a * 262144 + b * 4096 + c * 64 + d - 0x3C82080) with ((a - 0xF0) * 262144 + (b - 0x80) * 4096 + (c - 0x80) * 64 + (d - 0x80)) by lia.
  split; [unfold scalar; lia|]. forms. rewrite Q1, Q2, Q3, Q4. f_equal; [|f_equal; [|f_equal; [|f_equal]]]; lia.
Qed.
Lemma andRest_some c r s : andRest c r = Some s <-> exists t, r = Some t /\ s = c :: t.
Proof.
  unfold andRest. destruct r as [t|]; split.
  - intros H. injection H as <-. exists t. split; reflexivity.
  - intros (u & E & ->). injection E as <-. reflexivity.
  - discriminate.
  - intros (u & E & _). discriminate.
Qed.
(** what is decoded is encoded to the same bytes *)
Lemma dec_form n : forall bs s, (length bs <= n)%nat -> Forall byte bs -> utf8Dec bs = Some s -> Forall scalar s /\ bs = concat (map form s).
Proof.
  assert (K : forall bs' c t bs r, (Forall byte bs' -> utf8Dec bs' = Some t -> Forall scalar t /\ bs' = concat (map form t)) -> Forall byte bs' -> scalar c -> form c = r -> bs = r ++ bs' -> utf8Dec bs' = Some t ->
    Forall scalar (c :: t) /\ bs = concat (map form (c :: t))).
  { intros bs' c t bs r IH B S F -> E. destruct (IH B E) as [S' E']. split; [constructor; assumption|]. cbn [map concat]. rewrite F, <- E'. reflexivity. }
  induction n as [|n IH]; intros bs s L B E.
  { destruct bs; [|cbn in L; lia]. cbn in E. injection E as <-. split; [constructor|reflexivity]. }
  destruct bs as [|a r]; [cbn in E; injection E as <-; split; [constructor|reflexivity]|]. cbn [List.length] in L. apply Forall_inv in B as BA. apply Forall_inv_tail in B. unfold byte in BA.
  cbn [utf8Dec] in E. destruct (Z.ltb_spec a 0x80).
  { apply andRest_some in E as (t & E & ->). apply (K r a t _ [a]); [intros ? ?; apply IH; [lia|assumption|assumption]|exact B|unfold scalar; lia| |reflexivity|exact E]. forms. reflexivity. }
  destruct (Z.ltb_spec a 0xC2); [discriminate|]. destruct (Z.ltb_spec a 0xE0).
  { destruct r as [|b r]; [discriminate|]. cbn [List.length] in L. apply Forall_inv_tail in B. destruct (tail 0x80 0xBF b) eqn:T; [|discriminate]. apply tail_ok in T. apply andRest_some in E as (t & E & ->).
    destruct (two a b) as [S F]; [lia..|]. apply (K r _ t _ [a; b]); [intros ? ?; apply IH; [lia|assumption|assumption]|exact B|exact S|exact F|reflexivity|exact E]. }
  destruct (Z.ltb_spec a 0xF0).
  { destruct r as [|b [|c r]]; [discriminate..|]. cbn [List.length] in L. do 2 apply Forall_inv_tail in B. destruct (_ && _) eqn:T in E; [|discriminate]. apply andb_true_iff in T as [T1 T2]. apply tail_ok in T1, T2. apply andRest_some in E as (t & E & ->).
    destruct (three a b c) as [S F]; [lia|assumption|assumption|]. apply (K r _ t _ [a; b; c]); [intros ? ?; apply IH; [lia|assumption|assumption]|exact B|exact S|exact F|reflexivity|exact E]. }
  destruct (Z.ltb_spec a 0xF5); [|discriminate].
  destruct r as [|b [|c [|d r]]]; [discriminate..|]. cbn [List.length] in L. do 3 apply Forall_inv_tail in B. destruct (_ && _) eqn:T in E; [|discriminate]. apply andb_true_iff in T as [T1 T3]. apply andb_true_iff in T1 as [T1 T2]. apply tail_ok in T1, T2, T3. apply andRest_some in E as (t & E & ->).
  destruct (four a b c d) as [S F]; [lia|assumption|assumption|assumption|]. apply (K r _ t _ [a; b; c; d]); [intros ? ?; apply IH; [lia|assumption|assumption]|exact B|exact S|exact F|reflexivity|exact E].
Qed.
(** what is encoded is decoded to the same text *)
Lemma form_dec c bs : scalar c -> utf8Dec (form c ++ bs) = andRest c (utf8Dec bs).
Proof.
  intros S. unfold scalar in S. unfold form. destruct (Z.ltb_spec c 0x80).
  { cbn [app utf8Dec]. replace (c <? 0x80) with true by lia. reflexivity. }
  assert (M : 0 <= c mod 64 < 64) by (apply Z.mod_pos_bound; lia). assert (M2 : 0 <= c / 64 mod 64 < 64) by (apply Z.mod_pos_bound; lia). assert (M3 : 0 <= c / 4096 mod 64 < 64) by (apply Z.mod_pos_bound; lia).
  destruct (Z.ltb_spec c 0x800).
  { assert (B : 2 <= c / 64 < 32) by (Z.to_euclidean_division_equations; lia).
    assert (E : c = c / 64 * 64 + c mod 64) by (Z.to_euclidean_division_equations; lia).
    remember (c / 64) as q eqn:Hq. remember (c mod 64) as r eqn:Hr. cbn [app utf8Dec].
    replace (0xC0 + q <? 0x80) with false by lia. replace (0xC0 + q <? 0xC2) with false by lia. replace (0xC0 + q <? 0xE0) with true by lia.
    replace (tail 0x80 0xBF (0x80 + r)) with true by (symmetry; apply tail_ok; lia). rewrite Z.shiftl_mul_pow2 by lia. f_equal. change (2 ^ 6) with 64. lia. }
  destruct (Z.ltb_spec c 0x10000).
  { assert (B : 0 <= c / 4096 < 16) by (Z.to_euclidean_division_equations; lia).
    assert (E : c = c / 4096 * 4096 + c / 64 mod 64 * 64 + c mod 64) by (Z.to_euclidean_division_equations; lia).
    remember (c / 4096) as q eqn:Hq. remember (c / 64 mod 64) as p eqn:Hp. remember (c mod 64) as r eqn:Hr. clear Hq Hp Hr. cbn [app utf8Dec].
    replace (0xE0 + q <? 0x80) with false by lia. replace (0xE0 + q <? 0xC2) with false by lia. replace (0xE0 + q <? 0xE0) with false by lia. replace (0xE0 + q <? 0xF0) with true by lia.
    replace (tail 0x80 0xBF (0x80 + r)) with true by (symmetry; apply tail_ok; lia).
    replace (tail _ _ (0x80 + p)) with true.
    2: { symmetry. apply tail_ok. destruct (Z.eqb_spec (0xE0 + q) 0xE0), (Z.eqb_spec (0xE0 + q) 0xED); lia. }
    rewrite !Z.shiftl_mul_pow2 by lia. cbn [andb]. f_equal. change (2 ^ 6) with 64. change (2 ^ 12) with 4096. lia. }
  assert (B : 0 <= c / 262144 < 5) by (Z.to_euclidean_division_equations; lia).
  assert (E : c = c / 262144 * 262144 + c / 4096 mod 64 * 4096 + c / 64 mod 64 * 64 + c mod 64).
  { assert (E1 : c = c / 64 * 64 + c mod 64) by (Z.to_euclidean_division_equations; lia). assert (E2 : c / 64 = c / 4096 * 64 + c / 64 mod 64) by (Z.to_euclidean_division_equations; lia).
    assert (E3 : c / 4096 = c / 262144 * 64 + c / 4096 mod 64) by (Z.to_euclidean_division_equations; lia). lia. }
  remember (c / 262144) as q eqn:Hq. remember (c / 4096 mod 64) as o eqn:Ho. remember (c / 64 mod 64) as p eqn:Hp. remember (c mod 64) as r eqn:Hr. clear Hq Ho Hp Hr. cbn [app utf8Dec].
  replace (0xF0 + q <? 0x80) with false by lia. replace (0xF0 + q <? 0xC2) with false by lia. replace (0xF0 + q <? 0xE0) with false by lia. replace (0xF0 + q <? 0xF0) with false by lia. replace (0xF0 + q <? 0xF5) with true by lia.
  replace (tail 0x80 0xBF (0x80 + r)) with true by (symmetry; apply tail_ok; lia). replace (tail 0x80 0xBF (0x80 + p)) with true by (symmetry; apply tail_ok; lia).
  replace (tail _ _ (0x80 + o)) with true.
  2: { symmetry. apply tail_ok. destruct (Z.eqb_spec (0xF0 + q) 0xF0), (Z.eqb_spec (0xF0 + q) 0xF4); lia. }
  rewrite !Z.shiftl_mul_pow2 by lia. cbn [andb]. f_equal. change (2 ^ 6) with 64. change (2 ^ 12) with 4096. change (2 ^ 18) with 262144. lia.
Qed.
Lemma forms_dec s : Forall scalar s -> utf8Dec (concat (map form s)) = Some s.
Proof. induction 1 as [|c s S _ IH]; [reflexivity|]. cbn [map concat]. rewrite form_dec by exact S. rewrite IH. reflexivity. Qed.
Lemma encAll_forms s : Forall scalar s -> encAll utf8Bytes s = Some (concat (map form s)).
Proof. induction 1 as [|c s S _ IH]; [reflexivity|]. cbn [map concat encAll]. rewrite bytes_form by exact S. rewrite IH. reflexivity. Qed.
Lemma encAll_scalar s bs : Forall (fun c => 0 <= c <= 0x10FFFF) s -> encAll utf8Bytes s = Some bs -> Forall scalar s.
Proof.
  intros R. revert bs. induction R as [|c s H _ IH]; intros bs E; [constructor|]. cbn [encAll] in E. destruct (scalar_dec c) as [S|S]; [|rewrite bytes_none in E by assumption; discriminate].
  constructor; [exact S|]. destruct (utf8Bytes c); [|discriminate]. destruct (encAll utf8Bytes s) as [b|]; [|discriminate]. exact (IH b eq_refl).
Qed.
Lemma form_bytes c : scalar c -> Forall byte (form c).
Proof.
  intros S. unfold scalar in S. assert (M : forall y, 0 <= y mod 64 < 64) by (intros y; apply Z.mod_pos_bound; lia). pose proof (M c). pose proof (M (c / 64)). pose proof (M (c / 4096)). clear M.
  unfold form. unfold byte. destruct (Z.ltb_spec c 0x80); [repeat constructor; lia|]. destruct (Z.ltb_spec c 0x800).
  { assert (2 <= c / 64 < 32) by (Z.to_euclidean_division_equations; lia). repeat constructor; lia. }
  destruct (Z.ltb_spec c 0x10000).
  { assert (0 <= c / 4096 < 16) by (Z.to_euclidean_division_equations; lia). repeat constructor; lia. }
  assert (0 <= c / 262144 < 5) by (Z.to_euclidean_division_equations; lia). repeat constructor; lia.
Qed.
Lemma utf8_back s bs : encAll utf8Bytes s = Some bs -> utf8Dec bs = Some s.
Proof.
  revert bs. induction s as [|c s IH]; intros bs E; cbn [encAll] in E; [injection E as <-; reflexivity|]. destruct (utf8Bytes c) as [b|] eqn:B; [|discriminate]. destruct (encAll utf8Bytes s) as [b'|]; [|discriminate]. injection E as <-.
  destruct (bytes_some c b B) as [S|[N ->]].
  - rewrite bytes_form in B by exact S. injection B as <-. rewrite form_dec by exact S. rewrite (IH b' eq_refl). reflexivity.
  - cbn [app utf8Dec]. replace (c <? 0x80) with true by lia. rewrite (IH b' eq_refl). reflexivity.
Qed.
