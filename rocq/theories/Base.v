(** Outcomes, the state monad of the model, and index-based list access. *)

From Coq Require Import ZArith String List Bool Lia.
From Verif Require Import Num.
Import ListNotations.

(** Result of running a piece of C++ code:
    [Err] is an exception thrown by [send_error] (Courier::send_error throws; /repo/src/HPWH.hh
    DefaultCourier), [UB] an access the language leaves undefined (vector index out of range,
    NULL pointer, division by zero at the real instance), [NoFuel] an unbounded loop
    that was cut off by the fuel argument. *)
Inductive outc (A : Type) : Type :=
| Ok (a : A)
| Err (msg : string)
| UB (msg : string)
| NoFuel.
Arguments Ok {A} a.
Arguments Err {A} msg.
Arguments UB {A} msg.
Arguments NoFuel {A}.

Definition obind {A B} (m : outc A) (f : A -> outc B) : outc B :=
  match m with Ok a => f a | Err e => Err e | UB e => UB e | NoFuel => NoFuel end.

(** State monad: the state reached is visible even when an exception is thrown. *)
Definition M (S A : Type) : Type := S -> outc A * S.

Definition ret {S A} (a : A) : M S A := fun s => (Ok a, s).
Definition bind {S A B} (m : M S A) (f : A -> M S B) : M S B :=
  fun s =>
    match m s with
    | (Ok a, s') => f a s'
    | (Err e, s') => (Err e, s')
    | (UB e, s') => (UB e, s')
    | (NoFuel, s') => (NoFuel, s')
    end.
Definition throw {S A} (e : string) : M S A := fun s => (Err e, s).
Definition undef {S A} (e : string) : M S A := fun s => (UB e, s).
Definition nofuel {S A} : M S A := fun s => (NoFuel, s).
Definition get {S} : M S S := fun s => (Ok s, s).
Definition gets {S A} (f : S -> A) : M S A := fun s => (Ok (f s), s).
Definition modify {S} (f : S -> S) : M S unit := fun s => (Ok tt, f s).
Definition put {S} (s : S) : M S unit := fun _ => (Ok tt, s).
Definition lift {S A} (o : outc A) : M S A := fun s => (o, s).

Declare Scope monad_scope.
Delimit Scope monad_scope with monad.
Notation "x <- m ;; k" := (bind m (fun x => k))
  (at level 61, m at next level, right associativity) : monad_scope.
Notation "' p <- m ;; k" := (bind m (fun x => match x with p => k end))
  (at level 61, p pattern, m at next level, right associativity) : monad_scope.
Notation "m ;; k" := (bind m (fun _ => k)) (at level 61, right associativity) : monad_scope.

Definition when {S} (b : bool) (m : M S unit) : M S unit := if b then m else ret tt.

(** for-each loop over a list of indices *)
Fixpoint forM {S A} (l : list A) (body : A -> M S unit) : M S unit :=
  match l with
  | [] => ret tt
  | x :: r => bind (body x) (fun _ => forM r body)
  end.

(** loop whose body says whether to [break] *)
Fixpoint forM_break {S A} (l : list A) (body : A -> M S bool) : M S unit :=
  match l with
  | [] => ret tt
  | x :: r => bind (body x) (fun stop => if stop then ret tt else forM_break r body)
  end.

(** loop carrying a local variable *)
Fixpoint foldM {S A B} (l : list A) (body : A -> B -> M S B) (b : B) : M S B :=
  match l with
  | [] => ret b
  | x :: r => bind (body x b) (fun b' => foldM r body b')
  end.

(** * Partial-correctness triples *)
Definition tri {S A} (P : S -> Prop) (m : M S A) (Q : A -> S -> Prop) : Prop :=
  forall s a s', P s -> m s = (Ok a, s') -> Q a s'.

(** the same, also constraining the state after a throw, an undefined access or running out of fuel *)
Definition triE {S A} (P : S -> Prop) (m : M S A) (Q : A -> S -> Prop) (E : S -> Prop) : Prop :=
  forall s, P s ->
    match m s with
    | (Ok a, s') => Q a s'
    | (_, s') => E s'
    end.

Lemma tri_ret {S A} (P : S -> Prop) (a : A) (Q : A -> S -> Prop) :
  (forall s, P s -> Q a s) -> tri P (ret a) Q.
Proof. intros H s a' s' HP E. inversion E; subst. auto. Qed.

Lemma tri_bind {S A B} (P : S -> Prop) (m : M S A) (f : A -> M S B) (Q : A -> S -> Prop) (R : B -> S -> Prop) :
  tri P m Q -> (forall a, tri (Q a) (f a) R) -> tri P (bind m f) R.
Proof.
  intros H1 H2 s b s' HP E. unfold bind in E.
  destruct (m s) as [[a|e|e|] s1] eqn:Em; try discriminate.
  exact (H2 a s1 b s' (H1 s a s1 HP Em) E).
Qed.

Lemma tri_conseq {S A} (P P' : S -> Prop) (m : M S A) (Q Q' : A -> S -> Prop) :
  tri P' m Q' -> (forall s, P s -> P' s) -> (forall a s, Q' a s -> Q a s) -> tri P m Q.
Proof. intros H HP HQ s a s' Hs E. apply HQ. eapply H; eauto. Qed.

Lemma tri_gets {S A} (P : S -> Prop) (f : S -> A) (Q : A -> S -> Prop) :
  (forall s, P s -> Q (f s) s) -> tri P (gets f) Q.
Proof. intros H s a s' HP E. inversion E; subst; auto. Qed.

Lemma tri_get {S} (P : S -> Prop) (Q : S -> S -> Prop) :
  (forall s, P s -> Q s s) -> tri P get Q.
Proof. intros H s a s' HP E. inversion E; subst; auto. Qed.

Lemma tri_modify {S} (P : S -> Prop) (f : S -> S) (Q : unit -> S -> Prop) :
  (forall s, P s -> Q tt (f s)) -> tri P (modify f) Q.
Proof. intros H s a s' HP E. inversion E; subst; auto. Qed.

Lemma tri_throw {S A} (P : S -> Prop) e (Q : A -> S -> Prop) : tri P (throw e) Q.
Proof. intros s a s' _ E. discriminate E. Qed.
Lemma tri_undef {S A} (P : S -> Prop) e (Q : A -> S -> Prop) : tri P (undef e) Q.
Proof. intros s a s' _ E. discriminate E. Qed.
Lemma tri_nofuel {S A} (P : S -> Prop) (Q : A -> S -> Prop) : tri P nofuel Q.
Proof. intros s a s' _ E. discriminate E. Qed.

Lemma tri_forM {S A} (I : S -> Prop) (l : list A) body :
  (forall x, In x l -> tri I (body x) (fun _ => I)) -> tri I (forM l body) (fun _ => I).
Proof.
  induction l as [|x r IH]; intros H; cbn.
  - apply tri_ret; auto.
  - eapply tri_bind; [apply H; left; reflexivity|].
    intros []. apply IH. intros y Hy; apply H; right; exact Hy.
Qed.

Lemma tri_forM_break {S A} (I : S -> Prop) (l : list A) body :
  (forall x, In x l -> tri I (body x) (fun _ => I)) -> tri I (forM_break l body) (fun _ => I).
Proof.
  induction l as [|x r IH]; intros H; cbn.
  - apply tri_ret; auto.
  - eapply tri_bind; [apply H; left; reflexivity|].
    intros [|]; [apply tri_ret; auto|]. apply IH. intros y Hy; apply H; right; exact Hy.
Qed.

Lemma tri_foldM {S A B} (I : B -> S -> Prop) (l : list A) body :
  (forall x b, In x l -> tri (I b) (body x b) (fun b' => I b')) ->
  forall b, tri (I b) (foldM l body b) (fun b' => I b').
Proof.
  induction l as [|x r IH]; intros H b; cbn.
  - apply tri_ret; auto.
  - eapply tri_bind; [apply H; left; reflexivity|].
    intros b'. apply IH. intros y b'' Hy; apply H; right; exact Hy.
Qed.

(** * Frame relations: what a piece of code can change, whatever its outcome *)
Definition pres {S A} (Rl : S -> S -> Prop) (m : M S A) : Prop := forall s, Rl s (snd (m s)).

Section Pres.
  Context {S : Type} (Rl : S -> S -> Prop).
  Hypothesis Rrefl : forall s, Rl s s.
  Hypothesis Rtrans : forall a b c, Rl a b -> Rl b c -> Rl a c.

  Lemma pres_ret {A} (a : A) : pres Rl (ret a).
  Proof. intros s. apply Rrefl. Qed.
  Lemma pres_throw {A} e : pres Rl (@throw S A e).
  Proof. intros s. apply Rrefl. Qed.
  Lemma pres_undef {A} e : pres Rl (@undef S A e).
  Proof. intros s. apply Rrefl. Qed.
  Lemma pres_nofuel {A} : pres Rl (@nofuel S A).
  Proof. intros s. apply Rrefl. Qed.
  Lemma pres_get : pres Rl get.
  Proof. intros s. apply Rrefl. Qed.
  Lemma pres_gets {A} (f : S -> A) : pres Rl (gets f).
  Proof. intros s. apply Rrefl. Qed.
  Lemma pres_lift {A} (o : outc A) : pres Rl (lift o).
  Proof. intros s. apply Rrefl. Qed.
  Lemma pres_modify f : (forall s, Rl s (f s)) -> pres Rl (modify f).
  Proof. intros H s. apply H. Qed.
  Lemma pres_bind {A B} (m : M S A) (f : A -> M S B) :
    pres Rl m -> (forall a, pres Rl (f a)) -> pres Rl (bind m f).
  Proof.
    intros H1 H2 s. unfold bind. specialize (H1 s). destruct (m s) as [[a|e|e|] s1]; cbn in *; auto.
    eapply Rtrans; [exact H1|]. apply H2.
  Qed.
  Lemma pres_bind_at {A B} (m : M S A) (f : A -> M S B) s :
    Rl s (snd (m s)) -> (forall a, pres Rl (f a)) -> Rl s (snd (bind m f s)).
  Proof.
    intros H1 H2. unfold bind. destruct (m s) as [[a|e|e|] s1]; cbn in *; auto.
    eapply Rtrans; [exact H1|]. apply H2.
  Qed.
  Lemma pres_get_bind {B} (f : S -> M S B) :
    (forall a, Rl a (snd (f a a))) -> pres Rl (bind get f).
  Proof. intros H s. apply H. Qed.
  Lemma pres_when (b : bool) (m : M S unit) : pres Rl m -> pres Rl (when b m).
  Proof. intros H. unfold when. destruct b; auto using pres_ret. Qed.
  Lemma pres_if {A} (b : bool) (m1 m2 : M S A) : pres Rl m1 -> pres Rl m2 -> pres Rl (if b then m1 else m2).
  Proof. destruct b; auto. Qed.
  Lemma pres_forM {A} (l : list A) body : (forall x, pres Rl (body x)) -> pres Rl (forM l body).
  Proof. intros H. induction l; cbn; auto using pres_ret, pres_bind. Qed.
  Lemma pres_forM_break {A} (l : list A) body : (forall x, pres Rl (body x)) -> pres Rl (forM_break l body).
  Proof.
    intros H. induction l; cbn; auto using pres_ret. apply pres_bind; auto. intros []; auto using pres_ret.
  Qed.
  Lemma pres_foldM {A B} (l : list A) (body : A -> B -> M S B) :
    (forall x b, pres Rl (body x b)) -> forall b, pres Rl (foldM l body b).
  Proof. intros H. induction l; intros b; cbn; auto using pres_ret, pres_bind. Qed.
End Pres.

(** * Index-based list access *)
Section Lists.
  Context {T : Type}.

  Fixpoint upd (l : list T) (i : nat) (v : T) : list T :=
    match l, i with
    | [], _ => []
    | _ :: r, O => v :: r
    | x :: r, S i' => x :: upd r i' v
    end.

  (** assign [v] to positions lo, ..., lo+cnt-1 (those that exist) *)
  Fixpoint fillN (l : list T) (lo cnt : nat) (v : T) : list T :=
    match l with
    | [] => []
    | x :: r =>
        match lo, cnt with
        | S lo', _ => x :: fillN r lo' cnt v
        | O, S c => v :: fillN r O c v
        | O, O => l
        end
    end.

  Lemma upd_length l i v : length (upd l i v) = length l.
  Proof. revert i; induction l; intros [|i]; cbn; auto. Qed.
  Lemma fillN_length l lo cnt v : length (fillN l lo cnt v) = length l.
  Proof. revert lo cnt; induction l; intros [|lo] [|cnt]; cbn; auto. Qed.

  Lemma nth_upd l i v k d :
    nth k (upd l i v) d = if (Nat.eqb k i && Nat.ltb i (length l))%bool then v else nth k l d.
  Proof.
    revert i k; induction l; intros [|i] [|k]; cbn; auto.
    - destruct (Nat.eqb k i); reflexivity.
    - rewrite IHl. reflexivity.
  Qed.
  Lemma nth_upd_same l i v d : i < length l -> nth i (upd l i v) d = v.
  Proof.
    intros. rewrite nth_upd, Nat.eqb_refl. apply Nat.ltb_lt in H. rewrite H. reflexivity.
  Qed.
  Lemma nth_upd_other l i k v d : k <> i -> nth k (upd l i v) d = nth k l d.
  Proof. intros. rewrite nth_upd. apply Nat.eqb_neq in H. rewrite H. reflexivity. Qed.

  Lemma nth_fillN l lo cnt v k d : lo + cnt <= length l ->
    nth k (fillN l lo cnt v) d = if (Nat.leb lo k && Nat.ltb k (lo + cnt))%bool then v else nth k l d.
  Proof.
    revert lo cnt k; induction l as [|x r IH]; intros lo cnt k H; cbn in H.
    - assert (lo = 0) by lia. assert (cnt = 0) by lia. subst. cbn. destruct k; reflexivity.
    - destruct lo as [|lo].
      + destruct cnt as [|c]; cbn.
        * destruct k; reflexivity.
        * destruct k; cbn; [reflexivity|].
          rewrite (IH 0 c k) by lia. reflexivity.
      + cbn [fillN]. destruct k; cbn [nth]; [reflexivity|].
        rewrite (IH lo cnt k) by lia. reflexivity.
  Qed.

  Lemma nth_error_upd_same l i v : i < length l -> nth_error (upd l i v) i = Some v.
  Proof. revert i; induction l; intros [|i]; cbn; intros; try lia; auto. apply IHl; lia. Qed.
  Lemma nth_error_upd_other l i k v : k <> i -> nth_error (upd l i v) k = nth_error l k.
  Proof. revert i k; induction l; intros [|i] [|k]; cbn; intros; try lia; auto. Qed.
  Lemma upd_In l i v x : In x (upd l i v) -> x = v \/ In x l.
  Proof.
    revert i; induction l; intros [|i]; cbn; intros; auto.
    - destruct H; auto.
    - destruct H; auto. destruct (IHl _ H); auto.
  Qed.
End Lists.

Section NumLists.
  Context {T : Type} `{Num T}.
  (** vector element; positions are checked by the callers *)
  Definition nget (l : list T) (i : nat) : T := nth i l (nofZ 0).
  (** [double s = 0; for (x : l) s += x;] *)
  Definition nsum (l : list T) : T := fold_left nadd l (nofZ 0).
End NumLists.

Ltac inv_bind H :=
  unfold bind in H; cbn beta in H.
