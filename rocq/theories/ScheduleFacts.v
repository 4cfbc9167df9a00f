(** Proofs of the theorems stated in PropsSchedule.v: Schedules of the command "hpwh run": what the minutes of a schedule hold. *)

From Coq Require Import Reals Lra Lia ZArith String List Bool.
From Verif Require Import Num Base RList Units Types Utils Spec TankM Logic HeatSrc Step Setters Rating Report Cli FNum Example.
Import ListNotations.
Local Open Scope R_scope.
Local Open Scope monad_scope.
(** ** C96: schedules *)

(** the minutes an entry is for: its own, or those of its hour *)
Definition isFor (hours : bool) (m : Z) (i : nat) : Prop := if hours then (60 * m <= Z.of_nat i < 60 * m + 60)%Z else Z.of_nat i = m.
(** [v] is the value at minute [i]: that of the last entry for it, or the default *)
Inductive valueAt (hours : bool) (d : R) (i : nat) : list (Z * R) -> R -> Prop :=
| va_none : valueAt hours d i [] d
| va_this es m v : isFor hours m i -> valueAt hours d i (es ++ [(m, v)]) v
| va_other es m v x : ~ isFor hours m i -> valueAt hours d i es x -> valueAt hours d i (es ++ [(m, v)]) x.
(** the minutes of an entry are all among the first [n] *)
Definition fits (hours : bool) (n : nat) (m : Z) : Prop := (0 <= m)%Z /\ if hours then (60 * m + 60 <= Z.of_nat n)%Z else (m < Z.of_nat n)%Z.
(** the schedule [s] is what the entries say *)
Definition isSchedule (hours : bool) (d : R) (n : nat) (es : list (Z * R)) (s : list R) : Prop :=
  length s = n /\ forall i, (i < n)%nat -> exists x, nth_error s i = Some x /\ valueAt hours d i es x.

Lemma upd_len {A} (l : list A) i x : length (upd l i x) = length l.
Proof. revert i. induction l as [|a l IH]; intros [|i]; cbn; auto. Qed.
Lemma upd_nth {A} (l : list A) i j x : (i < length l)%nat -> nth_error (upd l i x) j = if Nat.eqb j i then Some x else nth_error l j.
Proof.
  revert i j. induction l as [|a l IH]; intros [|i] [|j] Hl; cbn in *; try lia; auto. apply IH. lia.
Qed.
Lemma setAt_ok j (v : R) l : (0 <= j < Z.of_nat (length l))%Z -> setAt j v l = Ok (upd l (Z.to_nat j) v).
Proof. intros Hj. unfold setAt. replace ((0 <=? j) && (j <? Z.of_nat (length l)))%Z%bool with true; [reflexivity|]. symmetry. apply andb_true_intro. split; [apply Z.leb_le|apply Z.ltb_lt]; lia. Qed.
Lemma setAt_ub j (v : R) l : (j < 0 \/ Z.of_nat (length l) <= j)%Z -> exists e, setAt j v l = UB e.
Proof. intros Hj. unfold setAt. replace ((0 <=? j) && (j <? Z.of_nat (length l)))%Z%bool with false; [eauto|]. symmetry. apply andb_false_iff. rewrite Z.leb_gt, Z.ltb_ge. lia. Qed.
Lemma setRange_ok n : forall j (v : R) l, (0 <= j)%Z -> (j + Z.of_nat n <= Z.of_nat (length l))%Z -> exists l', setRange n j v l = Ok l' /\ length l' = length l /\
  forall i, nth_error l' i = if (j <=? Z.of_nat i)%Z && (Z.of_nat i <? j + Z.of_nat n)%Z then Some v else nth_error l i.
Proof.
  induction n as [|n IH]; intros j v l H0 H1.
  - exists l. splits; auto. intros i. replace ((j <=? Z.of_nat i)%Z && (Z.of_nat i <? j + Z.of_nat 0)%Z)%bool with false; [reflexivity|].
    symmetry. apply andb_false_iff. rewrite Z.leb_gt, Z.ltb_ge. lia.
  - cbn [setRange]. rewrite setAt_ok by lia. cbn [obind].
    destruct (IH (j + 1)%Z v (upd l (Z.to_nat j) v)) as (l' & E & L & HN); [lia|rewrite upd_len; lia|]. exists l'. rewrite upd_len in L. splits; auto.
    intros i. rewrite HN, upd_nth by lia.
    destruct (Z.leb_spec (j + 1) (Z.of_nat i)); destruct (Z.ltb_spec (Z.of_nat i) (j + 1 + Z.of_nat n)); destruct (Nat.eqb_spec i (Z.to_nat j));
      destruct (Z.leb_spec j (Z.of_nat i)); destruct (Z.ltb_spec (Z.of_nat i) (j + Z.of_nat (S n))); cbn [andb]; auto; lia.
Qed.
Lemma setRange_ub n : forall j (v : R) l, (j < 0 \/ Z.of_nat (length l) < j + Z.of_nat n)%Z -> (0 < n)%nat -> exists e, setRange n j v l = UB e.
Proof.
  induction n as [|n IH]; intros j v l Hj Hn; [lia|]. cbn [setRange].
  destruct (Z_lt_dec j 0) as [H0|H0]; [destruct (setAt_ub j v l ltac:(lia)) as (e & ->); eexists; reflexivity|].
  destruct (Z_lt_dec j (Z.of_nat (length l))) as [H1|H1]; [|destruct (setAt_ub j v l ltac:(lia)) as (e & ->); eexists; reflexivity].
  rewrite setAt_ok by lia. cbn [obind]. apply IH; [rewrite upd_len; lia|]. lia.
Qed.
Lemma entry_ok h n (d : R) es s m v : isSchedule h d n es s -> fits h n m ->
  exists s', (if h : bool then setRange 60 (m * 60) v s else setAt m v s) = Ok s' /\ isSchedule h d n (es ++ [(m, v)]) s' /\ (m >=? Z.of_nat (length s))%Z = false.
Proof.
  intros [HL HS] [H0 H1]. destruct h.
  - destruct (setRange_ok 60 (m * 60) v s) as (s' & E & L & HN); [lia|lia|]. exists s'. splits; auto; [|rewrite Z.geb_leb; apply Z.leb_gt; lia].
    split; [congruence|]. intros i Hi. rewrite HN. destruct (HS i Hi) as (x & Ex & HX).
    destruct (Z.leb_spec (m * 60) (Z.of_nat i)); destruct (Z.ltb_spec (Z.of_nat i) (m * 60 + Z.of_nat 60)); cbn [andb];
      first [exists v; split; [reflexivity|]; apply va_this; unfold isFor; lia|exists x; split; [auto|]; apply va_other; [unfold isFor; lia|auto]].
  - rewrite setAt_ok by lia. eexists. splits; [reflexivity| |rewrite Z.geb_leb; apply Z.leb_gt; lia].
    split; [rewrite upd_len; auto|]. intros i Hi. rewrite upd_nth by lia. destruct (HS i Hi) as (x & Ex & HX).
    destruct (Nat.eqb_spec i (Z.to_nat m)); [exists v; split; [reflexivity|]; apply va_this; unfold isFor; lia|exists x; split; [auto|]; apply va_other; [unfold isFor; lia|auto]].
Qed.
Lemma entries_ok h n (d : R) rest : forall es1 es0 s, isSchedule h d n es0 s -> Forall (fun e => fits h n (fst e)) es1 ->
  exists s', applyEntries h (es1 ++ rest) s = applyEntries h rest s' /\ isSchedule h d n (es0 ++ es1) s'.
Proof.
  induction es1 as [|[m v] es1 IH]; intros es0 s HS HF; [exists s; rewrite app_nil_r; auto|]. inversion HF; subst. cbn [fst] in *.
  destruct (entry_ok h n d es0 s m v HS H1) as (s1 & E & HS1 & HB). destruct (IH (es0 ++ [(m, v)])%list s1 HS1 H2) as (s' & E' & HS').
  exists s'. rewrite <- app_assoc in HS'. cbn [app] in *. split; [|exact HS']. cbn [applyEntries]. rewrite HB, E. exact E'.
Qed.
Lemma sched_default h n (d : R) : isSchedule h d n [] (repeat d n).
Proof. split; [apply repeat_length|]. intros i Hi. exists d. split; [|constructor]. rewrite (nth_error_nth' _ d) by (rewrite repeat_length; auto). rewrite nth_repeat. reflexivity. Qed.

Lemma C96_schedule_fact : forall h (d : R) n es, Forall (fun e => fits h n (fst e)) es ->
  exists s, readSchedule (Some (mksched (Some d) (Some h) es)) n = Ok (true, s) /\ isSchedule h d n es s.
Proof.
  intros h d n es HF. destruct (entries_ok h n d [] es [] (repeat d n) (sched_default h n d) HF) as (s & E & HS). rewrite app_nil_r in E.
  exists s. cbn. split; auto.
Qed.

Lemma C96_other_files_fact : forall (d : R) f h es n, readSchedule None n = Ok (false, @nil R) /\ readSchedule (Some (mksched None h es)) n = Ok (false, @nil R) /\
  (sf_default f = Some d -> sf_hours f = None -> exists s, readSchedule (Some f) n = Ok (true, s) /\ isSchedule true d n [] s).
Proof.
  intros d f h es n. splits; [reflexivity|reflexivity|]. intros H1 H2. exists (repeat d n). unfold readSchedule. rewrite H1, H2. split; [reflexivity|apply sched_default].
Qed.

Lemma C96_too_late_fact : forall h (d : R) n es1 m v es2, Forall (fun e => fits h n (fst e)) es1 -> (Z.of_nat n <= m)%Z ->
  exists s, readSchedule (Some (mksched (Some d) (Some h) (es1 ++ (m, v) :: es2))) n = Ok (false, s) /\ isSchedule h d n es1 s /\
    forall w : hpwh R, (exists e, needSchedule (Some (mksched (Some d) (Some h) (es1 ++ (m, v) :: es2))) n w = (Err e, w)) /\
                       maySchedule (Some (mksched (Some d) (Some h) (es1 ++ (m, v) :: es2))) n w = (Ok s, w).
Proof.
  intros h d n es1 m v es2 HF HM. destruct (entries_ok h n d ((m, v) :: es2) es1 [] (repeat d n) (sched_default h n d) HF) as (s & E & HS). cbn [app] in HS.
  assert (E' : readSchedule (Some (mksched (Some d) (Some h) (es1 ++ (m, v) :: es2))) n = Ok (false, s)).
  { cbn [readSchedule sf_default sf_hours sf_entries]. rewrite E. cbn [applyEntries].
    replace (m >=? Z.of_nat (length s))%Z with true; [reflexivity|]. symmetry. rewrite Z.geb_leb. apply Z.leb_le. destruct HS. lia. }
  exists s. splits; auto. intros w. unfold needSchedule, maySchedule. rewrite E'. split; [eexists; reflexivity|reflexivity].
Qed.

Lemma C96_rejects_refuted_fact : forall h (d : R) n es1 m v es2, Forall (fun e => fits h n (fst e)) es1 ->
  (m < 0 \/ h = true /\ Z.of_nat n < 60 * m + 60 /\ m < Z.of_nat n)%Z ->
  exists e, readSchedule (Some (mksched (Some d) (Some h) (es1 ++ (m, v) :: es2))) n = UB e.
Proof.
  intros h d n es1 m v es2 HF HM. destruct (entries_ok h n d ((m, v) :: es2) es1 [] (repeat d n) (sched_default h n d) HF) as (s & E & [HL HS]).
  cbn [readSchedule sf_default sf_hours sf_entries]. rewrite E. cbn [applyEntries].
  replace (m >=? Z.of_nat (length s))%Z with false by (symmetry; rewrite Z.geb_leb; apply Z.leb_gt; lia). destruct h.
  - destruct (setRange_ub 60 (m * 60) v s) as (e & ->); [lia|lia|]. eexists. reflexivity.
  - destruct HM as [HM|[HM _]]; [|discriminate]. destruct (setAt_ub m v s) as (e & ->); [lia|]. eexists. reflexivity.
Qed.

Lemma C96_example_fact : (exists s, readSchedule (Some (mksched (Some 10%R) (Some true) [(0%Z, 20); (0%Z, 30)])) 120 = Ok (true, s) /\ nth_error s 59 = Some 30 /\ nth_error s 60 = Some 10) /\
  (exists e, readSchedule (Some (mksched (Some 10%R) (Some true) [(0%Z, 20); (2%Z, 30)])) 120 = UB e).
Proof.
  split.
  - exists (repeat 30 60 ++ repeat 10 60)%list. split; [|split; reflexivity]. generalize 30 20 10. intros a b c. vm_compute. reflexivity.
  - apply (C96_rejects_refuted_fact true 10 120 [(0%Z, 20)] 2 30 []); [repeat constructor; cbn; lia|]. right. cbn. lia.
Qed.
