(** * Commands on files of bytes against commands on files of texts *)
From Coq Require Import ZArith List Bool Lia ZifyBool String.
From Verif Require Import Py Dict PyStr Utilities CharNames PyText ModuleBuilder HeaderFile BuilderArgs CsvReader Build BuildFacts BuildRun TextCodec.
Import ListNotations.
Open Scope string_scope.
Open Scope list_scope.
Open Scope Z_scope.
Local Notation length := List.length.
Local Notation concat := List.concat.

(** ** Another look at the contents of all files *)
Section Look.
  Variable t : list Z -> list Z.
  Definition look (f : fs) : fs := mkFs (map (fun '(q, b) => (q, t b)) (files f)) (dirs f).
  Lemma look_lookup f p : lookup (look f) p = option_map t (lookup f p).
  Proof.
    unfold lookup, look. cbn [files]. induction (files f) as [|[q b] l IH]; [reflexivity|]. cbn [map findFile]. destruct (path_eqb q p); [reflexivity|exact IH].
  Qed.
  Lemma look_existsb (g : path -> bool) f : existsb (fun '(q, _) => g q) (files (look f)) = existsb (fun '(q, _) => g q) (files f).
  Proof. unfold look. cbn [files]. induction (files f) as [|[q b] l IH]; [reflexivity|]. cbn [map existsb]. rewrite IH. reflexivity. Qed.
  Lemma look_isDir f p : isDir (look f) p = isDir f p.
  Proof. unfold isDir. destruct p as [|x p]; [reflexivity|]. change (dirs (look f)) with (dirs f). rewrite (look_existsb (fun q => prefix (x :: p) q && negb (path_eqb (x :: p) q))). reflexivity. Qed.
  Lemma look_through f p : throughFile (look f) p = throughFile f p.
  Proof. unfold throughFile. apply (look_existsb (fun q => prefix q p)). Qed.
  Lemma look_set l q c : map (fun '(q, b) => (q, t b)) (setFile l q c) = setFile (map (fun '(q, b) => (q, t b)) l) q (t c).
  Proof. induction l as [|[p b] l IH]; [reflexivity|]. cbn [setFile map]. destruct (path_eqb p q); cbn [map]; [reflexivity|]. rewrite IH. reflexivity. Qed.
  Lemma look_read cwd p f : readRaw cwd p (look f) = (match fst (readRaw cwd p f) with Ok c => Ok (t c) | Err e => Err e end, look f).
  Proof. unfold readRaw. rewrite look_lookup, look_isDir, look_through. destruct (lookup f (resolve cwd p)); [reflexivity|]. cbn [option_map fst]. destruct (_ || _); reflexivity. Qed.
  Lemma look_write q c f : writeAt q (t c) (look f) = let '(r, g) := writeAt q c f in (r, look g).
  Proof.
    unfold writeAt. rewrite !look_isDir, look_through. destruct (isDir f q); [reflexivity|]. destruct (isDir f (removelast q)); [|reflexivity].
    unfold look. cbn [files dirs]. rewrite look_set. reflexivity.
  Qed.
  Lemma look_makedirs cwd p f : makedirs cwd p (look f) = let '(r, g) := makedirs cwd p f in (r, look g).
  Proof. unfold makedirs. rewrite look_through. destruct (throughFile f (resolve cwd p)); reflexivity. Qed.
  Lemma look_copy cwd src dst f : copy cwd src dst (look f) = let '(r, g) := copy cwd src dst f in (r, look g).
  Proof.
    unfold copy, andThen. rewrite look_read. assert (E : snd (readRaw cwd src f) = f) by reflexivity. destruct (readRaw cwd src f) as [[c|e] g]; cbn [fst snd] in *; subst g; [|reflexivity].
    rewrite look_isDir. destruct (path_eqb _ _); [reflexivity|]. apply look_write.
  Qed.
  Lemma look_copyAll cwd ps dst f : copyAll cwd ps dst (look f) = let '(r, g) := copyAll cwd ps dst f in (r, look g).
  Proof.
    revert f. induction ps as [|p ps IH]; intros f; [reflexivity|]. cbn [copyAll]. unfold andThen. rewrite look_copy. destruct (copy cwd p dst f) as [[u|e] g]; [apply IH|reflexivity].
  Qed.
  Lemma look_children f d : children (look f) d = children f d.
  Proof.
    unfold children. f_equal. f_equal. unfold look. cbn [files]. induction (files f) as [|[q b] l IH]; [reflexivity|]. cbn [map flat_map]. rewrite IH. reflexivity.
  Qed.
  Lemma look_install cwd arg f : install cwd arg (look f) = let '(r, g) := install cwd arg f in (r, look g).
  Proof.
    unfold install. unfold andThen at 1. unfold globPy. rewrite look_children. unfold andThen at 1 3. unfold andThen. rewrite look_copyAll.
    destruct (copyAll cwd _ _ f) as [[u|e] g]; [|reflexivity]. rewrite look_copy. destruct (copy cwd _ _ g) as [[v|e] h]; [|reflexivity]. apply look_copy.
  Qed.
End Look.

(** ** The simulation *)
Section Sim.
  Variable C : codec.
  Hypothesis RT : forall s b, enc C s = Some b -> dec C b = Some s.
  (** a file as a text; one that is no text is left as it is *)
  Definition asText (b : list Z) : str := match dec C b with Some s => s | None => b end.
  Definition sim {A} (ins wr outs : path -> Prop) (cB : MB A) (c : M A) : Prop := forall f,
    (forall p, ~ outs p -> lookup (snd (cB f)) p = lookup f p) /\
    match cB f with
    | (inl x, g) => c (look asText f) = (Ok x, look asText g)
    | (inr (Raised e), g) => c (look asText f) = (Err e, look asText g)
    | (inr UnicodeDecodeError, g) => exists p b, ins p /\ lookup g p = Some b /\ dec C b = None
    | (inr UnicodeEncodeError, g) =>
      (** an output is left empty whose text cannot be encoded *)
      exists p s, wr p /\ enc C s = None /\ lookup g p = Some [] /\ lookup (snd (c (look asText f))) p = Some s
    end.
  Lemma sim_bind {A B} ins (wr1 wr2 outs1 outs2 wr outs : path -> Prop) (cB : MB A) c (kB : A -> MB B) k :
    sim ins wr1 outs1 cB c -> (forall x, sim ins wr2 outs2 (kB x) (k x)) -> (forall x, tame outs2 (k x)) ->
    (forall p, wr1 p -> wr p /\ ~ outs2 p) -> (forall p, wr2 p -> wr p) -> (forall p, outs1 p \/ outs2 p -> outs p) ->
    sim ins wr outs (andThenB cB kB) (andThen c k).
  Proof.
    intros S K T W1 W2 O f. unfold andThenB, andThen. destruct (S f) as [F E]. destruct (cB f) as [[x|[e| |]] g]; cbn [snd] in *.
    - rewrite E. destruct (K x g) as [F' E']. split; [intros p N; rewrite F' by (intros H; apply N, O; right; exact H); apply F; intros H; apply N, O; left; exact H|].
      destruct (kB x g) as [[y|[e| |]] h]; try exact E'. destruct E' as (p & s & V & R). exists p, s. split; [apply W2, V|exact R].
    - split; [intros p N; apply F; intros H; apply N, O; left; exact H|]. rewrite E. reflexivity.
    - split; [intros p N; apply F; intros H; apply N, O; left; exact H|exact E].
    - split; [intros p N; apply F; intros H; apply N, O; left; exact H|]. destruct E as (p & s & V & N & L & R). destruct (W1 p V) as [V' NO]. exists p, s. split; [exact V'|]. split; [exact N|]. split; [exact L|].
      destruct (c (look asText f)) as [[x|e] h]; cbn [snd] in *; [|exact R]. rewrite T by exact NO. exact R.
  Qed.
  Definition none (p : path) : Prop := False.
  (** a command that writes no text first *)
  Lemma sim_then {A B} ins (wr outs : path -> Prop) (cB : MB A) c (kB : A -> MB B) k :
    sim ins none outs cB c -> (forall x, sim ins wr outs (kB x) (k x)) -> (forall x, tame outs (k x)) -> sim ins wr outs (andThenB cB kB) (andThen c k).
  Proof. intros S K T. apply (sim_bind ins none wr outs outs); [exact S|exact K|exact T|intros p []|auto|intros p [H|H]; exact H]. Qed.
  Lemma sim_lift {A} ins wr outs (x : res A) : sim ins wr outs (raw (lift x)) (lift x).
  Proof. intros f. unfold raw, lift. split; [reflexivity|]. destruct x; reflexivity. Qed.
  Lemma sim_ret {A} ins wr outs (x : A) : sim ins wr outs (retB x) (ret x).
  Proof. intros f. split; reflexivity. Qed.
  Lemma sim_makedirs ins wr outs cwd p : sim ins wr outs (raw (makedirs cwd p)) (makedirs cwd p).
  Proof.
    intros f. unfold raw. split.
    - intros q N. unfold makedirs. destruct (throughFile f (resolve cwd p)); reflexivity.
    - rewrite look_makedirs. destruct (makedirs cwd p f) as [[u|e] g]; reflexivity.
  Qed.
  Lemma write_frame q c f p : p <> q -> lookup (snd (writeAt q c f)) p = lookup f p.
  Proof. intros N. apply (tame_writeAt (fun x => x = q)); [reflexivity|exact N]. Qed.
  Lemma write_there q c f g : writeAt q c f = (Ok tt, g) -> lookup g q = Some c.
  Proof.
    unfold writeAt. destruct (isDir f q); [discriminate|]. destruct (isDir f (removelast q)); [|destruct (throughFile f (removelast q)); discriminate]. intros E. injection E as <-. unfold lookup. cbn [files].
    induction (files f) as [|[x b] l IH]; cbn [setFile findFile].
    - rewrite path_eqb_refl. reflexivity.
    - destruct (path_eqb x q) eqn:E; cbn [findFile]; rewrite E; [reflexivity|exact IH].
  Qed.
  Lemma sim_copy ins wr (outs : path -> Prop) cwd src dst : outs (resolve cwd dst) -> outs (resolve cwd dst ++ [pathName src]) -> sim ins wr outs (raw (copy cwd src dst)) (copy cwd src dst).
  Proof.
    intros O1 O2 f. unfold raw. split.
    - intros p N. unfold copy, andThen. assert (E : snd (readRaw cwd src f) = f) by reflexivity. destruct (readRaw cwd src f) as [[c|e] g]; cbn [snd] in *; subst g; [|reflexivity].
      set (q := if isDir f (resolve cwd dst) then resolve cwd dst ++ [pathName src] else resolve cwd dst). assert (Q : outs q) by (unfold q; destruct (isDir f (resolve cwd dst)); assumption).
      destruct (path_eqb (resolve cwd src) q); [reflexivity|]. rewrite <- (write_frame q c f p) by congruence. destruct (writeAt q c f) as [r h]. reflexivity.
    - rewrite look_copy. destruct (copy cwd src dst f) as [[u|e] g]; reflexivity.
  Qed.
  Lemma read_sim (ins : path -> Prop) wr outs cwd p : ins (resolve cwd p) -> sim ins wr outs (readDec cwd C p) (readRaw cwd p).
  Proof.
    intros I f. unfold readDec, andThenB, raw. rewrite look_read. unfold readRaw at 1 2 3. destruct (lookup f (resolve cwd p)) as [b|] eqn:L.
    - cbn [outcome]. unfold decoded. unfold readRaw. rewrite L. cbn [fst snd]. unfold asText at 1. split; [reflexivity|]. destruct (dec C b) as [s|] eqn:D; [reflexivity|]. exists (resolve cwd p), b. auto.
    - unfold readRaw. rewrite L. cbn [fst]. destruct (_ || _); cbn [outcome snd]; split; reflexivity.
  Qed.
  Lemma readText_sim (ins : path -> Prop) wr outs cwd p : ins (resolve cwd p) -> sim ins wr outs (readTextB cwd C p) (readText cwd p).
  Proof. intros I. unfold readTextB, readText. apply sim_then; [apply read_sim; exact I|intros s; apply sim_ret|intros s; apply tame_ret]. Qed.
  Lemma write_sim ins (wr outs : path -> Prop) cwd p s : wr (resolve cwd p) -> outs (resolve cwd p) -> sim ins wr outs (writeB cwd C p s) (write cwd p s).
  Proof.
    intros V O f. unfold writeB, write. destruct (enc C s) as [b|] eqn:E.
    - unfold raw. split.
      + intros q N. rewrite <- (write_frame (resolve cwd p) b f q) by congruence. destruct (writeAt (resolve cwd p) b f) as [r h]. reflexivity.
      + pose proof (look_write asText (resolve cwd p) b f) as W. unfold asText at 1 in W. rewrite (RT s b E) in W. destruct (writeAt (resolve cwd p) b f) as [[[]|e] g]; exact W.
    - unfold andThenB, raw. pose proof (write_frame (resolve cwd p) [] f) as F. pose proof (write_there (resolve cwd p) [] f) as T. destruct (writeAt (resolve cwd p) [] f) as [[[]|e] g] eqn:W; cbn [outcome snd] in *.
      + split; [intros q N; apply F; congruence|]. exists (resolve cwd p), s. split; [exact V|]. split; [exact E|]. split; [exact (T g eq_refl)|]. pose proof (write_there (resolve cwd p) s (look asText f)) as T'.
        assert (G : exists h, writeAt (resolve cwd p) s (look asText f) = (Ok tt, h)).
        { clear T'. unfold writeAt in W |- *. rewrite !look_isDir, look_through. destruct (isDir f (resolve cwd p)); [discriminate|].
          destruct (isDir f (removelast (resolve cwd p))); [eexists; reflexivity|destruct (throughFile f (removelast (resolve cwd p))); discriminate]. }
        destruct G as (h & G). rewrite G. cbn [snd]. exact (T' h G).
      + split; [intros q N; apply F; congruence|]. unfold writeAt in W |- *. rewrite !look_isDir, look_through. destruct (isDir f (resolve cwd p)); [injection W as <- <-; reflexivity|].
        destruct (isDir f (removelast (resolve cwd p))); [discriminate|]. injection W as <- <-. reflexivity.
  Qed.
End Sim.
