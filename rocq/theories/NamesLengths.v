(** * CharNames: the compressed lengths of the 32 strings of a group. *)
From Coq Require Import ZArith List Bool Lia ZifyBool Arith.
From Verif Require Import Py Bytes Runs ICUDataFile ICUFacts CharNames.
Import ListNotations.
Open Scope Z_scope.

(** ** The encoding: lengths below 12 in one nibble, up to 75 in two; the most significant nibble first *)
Definition nib (l : Z) : list Z := if l <? 12 then [l] else [12 + (l - 12) / 16; (l - 12) mod 16].
Definition nibbles (ls : list Z) : list Z := flat_map nib ls.
Fixpoint nib_bytes (pad : Z) (ns : list Z) : bytes :=
  match ns with [] => [] | [h] => [h * 16 + pad] | h :: l :: r => (h * 16 + l) :: nib_bytes pad r end.
(** sums of the ones before *)
Fixpoint sums (o : Z) (ls : list Z) : list Z := match ls with [] => [] | l :: r => o :: sums (o + l) r end.
Definition len_ok (l : Z) : Prop := 0 <= l <= 75.

Lemma byte_ops b : 0 <= b < 256 -> Z.shiftr b 4 = b / 16 /\ Z.land b 15 = b mod 16 /\ (Z.land (b mod 16) 0xF0 =? 0) = true /\
  (192 <= b -> Z.land b 0x3F = b - 192 /\ (Z.land b 0xF0 =? 0) = false).
Proof.
  intros H. split; [apply Z.shiftr_div_pow2; lia|]. split; [apply (Z.land_ones b 4); lia|].
  assert (C : forallb (fun b => if (Z.land (b mod 16) 0xF0 =? 0) then if b <? 192 then true else (Z.land b 0x3F =? b - 192) && negb (Z.land b 0xF0 =? 0) else false)
    (zrange 0 256) = true) by (vm_compute; reflexivity).
  rewrite forallb_forall in C. specialize (C b). destruct (Z.land (b mod 16) 0xF0 =? 0); [|discriminate C; apply zrange_spec; lia].
  split; [reflexivity|]. intros G. replace (b <? 192) with false in C by lia. specialize (C ltac:(apply zrange_spec; lia)). lia.
Qed.
Lemma carry_ops a b : 0 <= a < 4 -> 0 <= b < 16 -> Z.lor (Z.shiftl (Z.land (12 + a) 3) 4) b = 16 * a + b.
Proof.
  intros Ha Hb. assert (C : forallb (fun a => forallb (fun b => Z.lor (Z.shiftl (Z.land (12 + a) 3) 4) b =? 16 * a + b) (zrange 0 16)) (zrange 0 4) = true) by (vm_compute; reflexivity).
  rewrite forallb_forall in C. specialize (C a ltac:(apply zrange_spec; lia)). rewrite forallb_forall in C. specialize (C b ltac:(apply zrange_spec; lia)). lia.
Qed.
Lemma sums_app o a b : sums o (a ++ b) = sums o a ++ sums (o + fold_right Z.add 0 a) b.
Proof. revert o. induction a as [|x a IH]; intros o; cbn [app sums fold_right]; [rewrite Z.add_0_r; reflexivity|]. rewrite IH, Z.add_assoc. reflexivity. Qed.
Lemma length_sums o ls : length (sums o ls) = length ls.
Proof. revert o. induction ls; intros; cbn; auto. Qed.

Section Decode.
  Variables (D : icuData) (pad : Z).
  Hypothesis Hpad : 0 <= pad < 16.

  (** one round of the loop, from its byte *)
  Definition clean_ok (n : nat) : Prop := forall ls fuel i s o len offs lens, (length ls <= n)%nat -> Forall len_ok ls -> len < 12 ->
    i = 32 - zlen ls -> (length ls <= fuel)%nat -> at_pos (fileData D) s (nib_bytes pad (nibbles ls)) ->
    exists extra, (extra = [] \/ extra = [pad]) /\
    lengthsLoop fuel D i s o len offs lens = Ok (s + zlen (nib_bytes pad (nibbles ls)), offs ++ sums o (ls ++ extra), lens ++ ls ++ extra).
  Definition carry_ok (n : nat) : Prop := forall l ls fuel i s o offs lens, (S (length ls) <= n)%nat -> Forall len_ok ls -> 12 <= l <= 75 ->
    i = 32 - zlen (l :: ls) -> (S (length ls) <= fuel)%nat -> at_pos (fileData D) s (nib_bytes pad ((l - 12) mod 16 :: nibbles ls)) ->
    exists extra, (extra = [] \/ extra = [pad]) /\
    lengthsLoop fuel D i s o (12 + (l - 12) / 16) offs lens =
      Ok (s + zlen (nib_bytes pad ((l - 12) mod 16 :: nibbles ls)), offs ++ sums o (l :: ls ++ extra), lens ++ l :: ls ++ extra).

  (** after the even nibble: the odd one belongs to the next length, or is padding *)
  Lemma odd_nibble n ls m i s o offs lens lb hi : clean_ok n -> carry_ok n -> (length ls <= n)%nat -> Forall len_ok ls ->
    i = 32 - zlen ls -> (length ls <= m)%nat -> 0 <= hi < 16 ->
    at_pos (fileData D) s (nib_bytes pad (hi :: nibbles ls)) ->
    (nib_bytes pad (hi :: nibbles ls) = (hi * 16 + lb) :: tl (nib_bytes pad (hi :: nibbles ls))) ->
    0 <= lb < 16 ->
    exists extra, (extra = [] \/ extra = [pad]) /\
    (if lb <? 12 then lengthsLoop m D (i + 1) (s + 1) (o + lb) lb (offs ++ [o]) (lens ++ [lb]) else lengthsLoop m D i (s + 1) o lb offs lens) =
      Ok (s + zlen (nib_bytes pad (hi :: nibbles ls)), offs ++ sums o (ls ++ extra), lens ++ ls ++ extra).
  Proof.
    intros CL CA Hn F Hi Hm Hhi A E Hlb. destruct ls as [|l ls].
    - cbn [nibbles flat_map nib_bytes tl app] in *. assert (lb = pad) as -> by (pose proof (f_equal (fun x => nth 0 x 0) E) as E'; cbn in E'; lia).
      destruct (pad <? 12).
      + exists [pad]. split; [right; reflexivity|]. rewrite Hi. change (zlen []) with 0.
        destruct m; cbn [lengthsLoop]; change (32 - 0 + 1 <? LINES_PER_GROUP) with false; cbn [negb]; reflexivity.
      + exists []. split; [left; reflexivity|]. rewrite Hi. change (zlen []) with 0. cbn [sums]. rewrite !app_nil_r.
        destruct m; cbn [lengthsLoop]; change (32 - 0 <? LINES_PER_GROUP) with false; cbn [negb]; reflexivity.
    - inversion F as [|? ? Hl F']; subst. unfold len_ok in Hl. destruct (l <? 12) eqn:L.
      + cbn [nibbles flat_map] in *. unfold nib in A, E |- *. rewrite L in A, E |- *. cbn [app nib_bytes tl] in *. fold nib in *. fold (nibbles ls) in *.
        assert (lb = l) as -> by (pose proof (f_equal (fun x => nth 0 x 0) E) as E'; cbn in E'; lia). rewrite L.
        change ((hi * 16 + l) :: nib_bytes pad (nibbles ls)) with ([hi * 16 + l] ++ nib_bytes pad (nibbles ls)) in *. apply at_app in A as [_ A]. change (zlen [hi * 16 + l]) with 1 in A.
        destruct (CL ls m (32 - zlen ls) (s + 1) (o + l) l (offs ++ [o]) (lens ++ [l])) as (extra & X & R); auto; try lia; [cbn in Hn; lia|cbn in Hm; lia|].
        exists extra. split; [exact X|]. rewrite zlen_cons. replace (32 - (zlen ls + 1) + 1) with (32 - zlen ls) by lia. rewrite R.
        rewrite zlen_app. change (zlen [hi * 16 + l]) with 1. cbn [app sums]. rewrite <- !app_assoc, Z.add_assoc. reflexivity.
      + cbn [nibbles flat_map] in *. unfold nib in A, E |- *. rewrite L in A, E |- *. cbn [app] in *. fold nib in *. fold (nibbles ls) in *.
        set (h2 := 12 + (l - 12) / 16) in *. assert (H2 : 12 <= h2 < 16).
        { unfold h2. pose proof (Z.div_pos (l - 12) 16 ltac:(lia) ltac:(lia)). pose proof (Z.div_lt_upper_bound (l - 12) 16 4 ltac:(lia) ltac:(lia)). lia. }
        cbn [nib_bytes tl] in A, E. cbn [nib_bytes].
        assert (lb = h2) as -> by (pose proof (f_equal (fun x => nth 0 x 0) E) as E'; cbn [nth] in E'; lia).
        replace (h2 <? 12) with false by lia.
        change (hi * 16 + h2 :: ?r) with ([hi * 16 + h2] ++ r) in A. apply at_app in A as [_ A]. change (zlen [hi * 16 + h2]) with 1 in A.
        destruct (CA l ls m (32 - zlen (l :: ls)) (s + 1) o offs lens) as (extra & X & R); auto; try lia.
        exists extra. split; [exact X|]. fold h2 in R. rewrite R. change (hi * 16 + h2 :: ?r) with ([hi * 16 + h2] ++ r). rewrite zlen_app. change (zlen [hi * 16 + h2]) with 1.
        rewrite Z.add_assoc. reflexivity.
  Qed.

  (** the byte that starts with nibble [hi] *)
  Lemma first_byte hi r : 0 <= hi < 16 -> Forall len_ok r ->
    exists lb tail, nib_bytes pad (hi :: nibbles r) = (hi * 16 + lb) :: tail /\ 0 <= lb < 16.
  Proof.
    intros H F. destruct r as [|l r]; [exists pad, []; auto|]. inversion F as [|? ? Hl _]; subst. unfold len_ok in Hl. cbn [nibbles flat_map]. unfold nib. destruct (l <? 12) eqn:L; cbn [app nib_bytes].
    - eexists l, _. split; [reflexivity|lia].
    - eexists (12 + (l - 12) / 16), _. split; [reflexivity|].
      pose proof (Z.div_pos (l - 12) 16 ltac:(lia) ltac:(lia)). pose proof (Z.div_lt_upper_bound (l - 12) 16 4 ltac:(lia) ltac:(lia)). lia.
  Qed.
  Lemma slice1 s b tail : at_pos (fileData D) s (b :: tail) -> getData D s (s + 1) = [b].
  Proof. intros A. change (b :: tail) with ([b] ++ tail) in A. apply at_app in A as [A _]. unfold getData. apply at_slice; [exact A|reflexivity]. Qed.

  Lemma decode n : clean_ok n /\ carry_ok n.
  Proof.
    induction n as [|n [CL CA]].
    - split.
      + intros ls fuel i s o len offs lens Hn F Hl Hi Hf A. destruct ls; [|cbn in Hn; lia]. exists []. split; [left; reflexivity|].
        rewrite Hi. change (zlen []) with 0. destruct fuel; cbn [lengthsLoop]; change (32 - 0 <? LINES_PER_GROUP) with false; cbn [negb nibbles flat_map nib_bytes app sums];
          rewrite !app_nil_r; change (zlen []) with 0; rewrite Z.add_0_r; reflexivity.
      + intros l ls fuel i s o offs lens Hn. lia.
    - split.
      + intros ls fuel i s o len offs lens Hn F Hl Hi Hf A. destruct ls as [|l ls].
        { exists []. split; [left; reflexivity|].
          rewrite Hi. change (zlen []) with 0. destruct fuel; cbn [lengthsLoop]; change (32 - 0 <? LINES_PER_GROUP) with false; cbn [negb nibbles flat_map nib_bytes app sums];
          rewrite !app_nil_r; change (zlen []) with 0; rewrite Z.add_0_r; reflexivity. }
        destruct fuel as [|m]; [cbn in Hf; lia|]. inversion F as [|? ? Hll F']; subst. unfold len_ok in Hll. cbn [lengthsLoop].
        change LINES_PER_GROUP with 32. pose proof (zlen_nonneg ls) as P. rewrite zlen_cons. replace (32 - (zlen ls + 1) <? 32) with true by lia. cbn [negb].
        destruct (l <? 12) eqn:L.
        * destruct (first_byte l ls ltac:(lia) F') as (lb & tail & E & Hlb).
          cbn [nibbles flat_map] in A |- *. unfold nib in A |- *. rewrite L in A |- *. cbn [app] in A |- *. fold nib in *. fold (nibbles ls) in *.
          pose proof A as A'. rewrite E in A'. rewrite (slice1 _ _ _ A').
          destruct (byte_ops (l * 16 + lb) ltac:(lia)) as (B1 & B2 & B3 & _). rewrite B1, B2.
          replace (len >=? 12) with false by lia. replace (l * 16 + lb >=? 0xC0) with false by lia.
          rewrite (Z.div_add_l l 16 lb), (Z.div_small lb 16), Z.add_0_r by lia. rewrite B3, (Z.add_comm (l * 16)), Z.mod_add, (Z.mod_small lb 16) by lia.
          destruct (odd_nibble n ls m (32 - zlen ls) s (o + l) (offs ++ [o]) (lens ++ [l]) lb l CL CA) as (extra & X & R); auto; try lia; try (cbn in Hn, Hf; lia).
          { rewrite E. reflexivity. }
          exists extra. split; [exact X|]. replace (32 - (zlen ls + 1) + 1) with (32 - zlen ls) by lia. rewrite R. cbn [app sums]. rewrite <- !app_assoc. reflexivity.
        * set (h := 12 + (l - 12) / 16). set (w := (l - 12) mod 16).
          assert (Hh : 12 <= h < 16 /\ 0 <= w < 16 /\ l - 12 = 16 * (h - 12) + w).
          { unfold h, w. pose proof (Z.div_pos (l - 12) 16 ltac:(lia) ltac:(lia)). pose proof (Z.div_lt_upper_bound (l - 12) 16 4 ltac:(lia) ltac:(lia)).
            pose proof (Z.mod_pos_bound (l - 12) 16 ltac:(lia)). pose proof (Z.div_mod (l - 12) 16 ltac:(lia)). lia. }
          destruct Hh as (Hh & Hw & Hlw).
          assert (E : nib_bytes pad (nibbles (l :: ls)) = [h * 16 + w] ++ nib_bytes pad (nibbles ls)).
          { cbn [nibbles flat_map]. unfold nib at 1. rewrite L. cbn [app nib_bytes]. reflexivity. }
          rewrite E in A |- *. pose proof A as A'. cbn [app] in A'. rewrite (slice1 _ _ _ A'). apply at_app in A as [_ A]. change (zlen [h * 16 + w]) with 1 in A.
          destruct (byte_ops (h * 16 + w) ltac:(lia)) as (_ & _ & _ & B4). destruct (B4 ltac:(lia)) as (B5 & B6). rewrite B5.
          replace (len >=? 12) with false by lia. replace (h * 16 + w >=? 0xC0) with true by lia. rewrite B6.
          replace (h * 16 + w - 192 + 12) with l by lia.
          destruct (CL ls m (32 - zlen ls) (s + 1) (o + l) 0 (offs ++ [o]) (lens ++ [l])) as (extra & X & R); auto; try lia; try (cbn in Hn, Hf; lia).
          exists extra. split; [exact X|]. replace (32 - (zlen ls + 1) + 1) with (32 - zlen ls) by lia. rewrite R. rewrite zlen_app. change (zlen [h * 16 + w]) with 1.
          cbn [app sums]. rewrite <- !app_assoc, Z.add_assoc. reflexivity.
      + intros l ls fuel i s o offs lens Hn F Hl Hi Hf A. destruct fuel as [|m]; [lia|]. cbn [lengthsLoop].
        change LINES_PER_GROUP with 32. pose proof (zlen_nonneg ls) as P. rewrite Hi, zlen_cons. replace (32 - (zlen ls + 1) <? 32) with true by lia. cbn [negb].
        set (w := (l - 12) mod 16) in *. set (a := (l - 12) / 16) in *.
        assert (Hh : 0 <= a < 4 /\ 0 <= w < 16 /\ l - 12 = 16 * a + w).
        { unfold a, w. pose proof (Z.div_pos (l - 12) 16 ltac:(lia) ltac:(lia)). pose proof (Z.div_lt_upper_bound (l - 12) 16 4 ltac:(lia) ltac:(lia)).
          pose proof (Z.mod_pos_bound (l - 12) 16 ltac:(lia)). pose proof (Z.div_mod (l - 12) 16 ltac:(lia)). lia. }
        destruct Hh as (Ha & Hw & Hlw). destruct (first_byte w ls Hw F) as (lb & tail & E & Hlb).
        pose proof A as A'. rewrite E in A'. rewrite (slice1 _ _ _ A').
        destruct (byte_ops (w * 16 + lb) ltac:(lia)) as (B1 & B2 & B3 & _). rewrite B1, B2.
        replace (12 + a >=? 12) with true by lia.
        rewrite (Z.div_add_l w 16 lb), (Z.div_small lb 16), Z.add_0_r by lia. rewrite B3, (Z.add_comm (w * 16)), Z.mod_add, (Z.mod_small lb 16) by lia.
        rewrite carry_ops by lia. replace (16 * a + w + 12) with l by lia.
        destruct (odd_nibble n ls m (32 - zlen ls) s (o + l) (offs ++ [o]) (lens ++ [l]) lb w CL CA) as (extra & X & R); auto; try lia.
        { rewrite E. reflexivity. }
        exists extra. split; [exact X|]. replace (32 - (zlen ls + 1) + 1) with (32 - zlen ls) by lia. rewrite R. cbn [app sums]. rewrite <- !app_assoc. reflexivity.
  Qed.
End Decode.

Theorem lengths_ok D pad s ls : 0 <= pad < 16 -> zlen ls = 32 -> Forall len_ok ls -> at_pos (fileData D) s (nib_bytes pad (nibbles ls)) ->
  exists extra, (extra = [] \/ extra = [pad]) /\
    expandGroupLengths D s = Ok (s + zlen (nib_bytes pad (nibbles ls)), sums 0 (ls ++ extra), ls ++ extra).
Proof.
  intros Hp L F A. destruct (decode D pad Hp 32) as [CL _]. assert (length ls = 32%nat) by (unfold zlen in L; lia).
  destruct (CL ls 32%nat 0 s 0 0 [] []) as (extra & X & R); auto; try lia. exists extra. split; [exact X|]. exact R.
Qed.
