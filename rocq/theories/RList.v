(** Lemmas about lists of reals: prefix sums, updates, fills. *)

From Coq Require Import ZArith List Bool Reals Lra Lia Morphisms.
From Verif Require Import Num Base Utils Spec.
Import ListNotations.
Local Open Scope R_scope.

(** sum of f 0 .. f (p-1) *)
Fixpoint bsum (f : nat -> R) (p : nat) : R :=
  match p with O => 0 | S p' => bsum f p' + f p' end.

Lemma bsum_ext f g p : (forall k, (k < p)%nat -> f k = g k) -> bsum f p = bsum g p.
Proof. induction p; cbn; intros; auto. rewrite IHp, H by (intros; try apply H; lia). reflexivity. Qed.

Lemma bsum_le f g p : (forall k, (k < p)%nat -> f k <= g k) -> bsum f p <= bsum g p.
Proof.
  induction p; cbn; intros; [lra|].
  assert (bsum f p <= bsum g p) by (apply IHp; intros; apply H; lia).
  assert (f p <= g p) by (apply H; lia). lra.
Qed.
Lemma bsum_plus f g p : bsum (fun k => f k + g k) p = bsum f p + bsum g p.
Proof. induction p; cbn; [lra|]. rewrite IHp; lra. Qed.
Lemma bsum_minus f g p : bsum (fun k => f k - g k) p = bsum f p - bsum g p.
Proof. induction p; cbn; [lra|]. rewrite IHp; lra. Qed.
Lemma bsum_scal c f p : bsum (fun k => c * f k) p = c * bsum f p.
Proof. induction p; cbn; [lra|]. rewrite IHp; lra. Qed.
Lemma bsum_const c p : bsum (fun _ => c) p = INR p * c.
Proof. induction p; cbn [bsum]; [cbn; lra|]. rewrite IHp, S_INR; lra. Qed.
Lemma bsum_0 p : bsum (fun _ => 0) p = 0.
Proof. rewrite bsum_const; lra. Qed.
Lemma bsum_nonneg f p : (forall k, (k < p)%nat -> 0 <= f k) -> 0 <= bsum f p.
Proof. intros. rewrite <- (bsum_0 p). apply bsum_le. exact H. Qed.
Lemma bsum_split f a b : bsum f (a + b) = bsum f a + bsum (fun k => f (a + k)%nat) b.
Proof.
  induction b; cbn [bsum].
  - rewrite Nat.add_0_r. lra.
  - rewrite Nat.add_succ_r. cbn [bsum]. rewrite IHb. lra.
Qed.
Lemma bsum_split_le f a p : (a <= p)%nat ->
  bsum f p = bsum f a + bsum (fun k => f (a + k)%nat) (p - a).
Proof. intros. rewrite <- bsum_split. f_equal. lia. Qed.
Lemma bsum_S_l f p : bsum f (S p) = f 0%nat + bsum (fun k => f (S k)) p.
Proof. change (S p) with (1 + p)%nat. rewrite bsum_split. cbn. lra. Qed.
(** point update *)
Lemma bsum_upd f i v p : (i < p)%nat ->
  bsum (fun k => if Nat.eqb k i then v else f k) p = bsum f p + (v - f i).
Proof.
  induction p; intros; [lia|]. cbn [bsum].
  destruct (Nat.eq_dec i p) as [->|].
  - rewrite Nat.eqb_refl.
    rewrite (bsum_ext (fun k => if Nat.eqb k p then v else f k) f) by
      (intros k Hk; replace (Nat.eqb k p) with false by (symmetry; apply Nat.eqb_neq; lia); reflexivity).
    lra.
  - rewrite IHp by lia. replace (Nat.eqb p i) with false by (symmetry; apply Nat.eqb_neq; lia). lra.
Qed.
Lemma bsum_le_strict f g p j : (j < p)%nat -> (forall k, (k < p)%nat -> f k <= g k) -> f j < g j ->
  bsum f p < bsum g p.
Proof.
  induction p; intros; [lia|]. cbn [bsum].
  destruct (Nat.eq_dec j p) as [->|].
  - assert (bsum f p <= bsum g p) by (apply bsum_le; intros; apply H0; lia). lra.
  - assert (bsum f p < bsum g p) by (apply IHp; auto; try lia; intros; apply H0; lia).
    assert (f p <= g p) by (apply H0; lia). lra.
Qed.
Lemma bsum_ge_elem f p j : (forall k, (k < p)%nat -> 0 <= f k) -> (j < p)%nat -> f j <= bsum f p.
Proof.
  induction p; intros; [lia|]. cbn [bsum].
  assert (0 <= bsum f p) by (apply bsum_nonneg; intros; apply H; lia).
  destruct (Nat.eq_dec j p) as [->|]; [lra|].
  assert (f j <= bsum f p) by (apply IHp; try lia; intros; apply H; lia).
  assert (0 <= f p) by (apply H; lia). lra.
Qed.

(** ** Lists *)
Lemma nofN_R n : nofN n = INR n.
Proof. unfold nofN. num_simpl. symmetry. apply INR_IZR_INZ. Qed.

Lemma nget_node (l : list R) i : nget l i = node l i.
Proof. reflexivity. Qed.
Ltac splits := repeat match goal with |- _ /\ _ => split end.
Ltac gn := change (@nget R RNum) with node in *.

Lemma fold_left_Rplus l a : fold_left Rplus l a = a + Rsum l.
Proof. unfold Rsum; revert a; induction l; cbn; intros; [lra|]. rewrite IHl. lra. Qed.
Lemma nsum_Rsum l : nsum l = Rsum l.
Proof. unfold nsum. num_simpl. rewrite fold_left_Rplus. lra. Qed.

Lemma Rsum_bsum l : Rsum l = bsum (node l) (length l).
Proof.
  induction l; cbn [Rsum fold_right length]; [reflexivity|].
  rewrite bsum_S_l. unfold Rsum in IHl. rewrite IHl. reflexivity.
Qed.
Lemma below_bsum l p : (p <= length l)%nat -> below l p = bsum (node l) p.
Proof.
  intros. unfold below. rewrite Rsum_bsum, firstn_length_le by assumption.
  apply bsum_ext. intros k Hk. unfold node.
  revert p k Hk H. induction l; intros; cbn in *.
  - destruct p; cbn; destruct k; reflexivity.
  - destruct p; [lia|]. cbn. destruct k; auto. apply IHl; lia.
Qed.
Lemma Rsum_app a b : Rsum (a ++ b) = Rsum a + Rsum b.
Proof. unfold Rsum. induction a; cbn; [lra|]. rewrite IHa. lra. Qed.
Lemma Rsum_map_scal c l : Rsum (map (fun x => c * x) l) = c * Rsum l.
Proof. unfold Rsum. induction l; cbn; [lra|]. rewrite IHl. lra. Qed.
Lemma Rsum_map_scal_r c l : Rsum (map (fun x => x * c) l) = Rsum l * c.
Proof. unfold Rsum. induction l; cbn; [lra|]. rewrite IHl. lra. Qed.
Lemma Rsum_map_const c (l : list R) : Rsum (map (fun _ => c) l) = INR (length l) * c.
Proof. unfold Rsum. induction l; cbn [map fold_right length]; [cbn; lra|]. rewrite S_INR, IHl. lra. Qed.
Lemma Rsum_nonneg l : (forall x, In x l -> 0 <= x) -> 0 <= Rsum l.
Proof.
  induction l; cbn; intros; [lra|].
  assert (0 <= a) by (apply H; auto). assert (0 <= Rsum l) by (apply IHl; auto).
  unfold Rsum in *. lra.
Qed.
Lemma Rsum_ge_elem l x : (forall x, In x l -> 0 <= x) -> In x l -> x <= Rsum l.
Proof.
  induction l; cbn; intros; [contradiction|].
  assert (0 <= a) by (apply H; auto). assert (0 <= Rsum l) by (apply Rsum_nonneg; auto).
  unfold Rsum in *. destruct H0; [lra|]. assert (x <= fold_right Rplus 0 l) by (apply IHl; auto). lra.
Qed.

Lemma node_upd l i v k : (i < length l)%nat ->
  node (upd l i v) k = if Nat.eqb k i then v else node l k.
Proof. intros. unfold node. rewrite nth_upd. apply Nat.ltb_lt in H. rewrite H, andb_true_r. reflexivity. Qed.
Lemma node_fillN l lo c v k : (lo + c <= length l)%nat ->
  node (fillN l lo c v) k = if (Nat.leb lo k && Nat.ltb k (lo + c))%bool then v else node l k.
Proof. apply nth_fillN. Qed.

Lemma Rsum_upd l i v : (i < length l)%nat -> Rsum (upd l i v) = Rsum l + (v - node l i).
Proof.
  intros. rewrite !Rsum_bsum, upd_length.
  rewrite (bsum_ext _ (fun k => if Nat.eqb k i then v else node l k))
    by (intros; apply node_upd; assumption).
  apply bsum_upd; assumption.
Qed.

Lemma bsum_fill f lo c v p : (lo + c <= p)%nat ->
  bsum (fun k => if (Nat.leb lo k && Nat.ltb k (lo + c))%bool then v else f k) p
  = bsum f p + (INR c * v - bsum (fun k => f (lo + k)%nat) c).
Proof.
  intros. rewrite (bsum_split_le _ (lo + c) p) by lia. rewrite (bsum_split_le f (lo + c) p) by lia.
  rewrite !bsum_split.
  rewrite (bsum_ext (fun k => if (Nat.leb lo k && Nat.ltb k (lo + c))%bool then v else f k) f lo).
  2:{ intros k Hk. replace (Nat.leb lo k) with false by (symmetry; apply Nat.leb_gt; lia). reflexivity. }
  rewrite (bsum_ext (fun k => if (Nat.leb lo (lo + k) && Nat.ltb (lo + k) (lo + c))%bool then v else f (lo + k)%nat) (fun _ => v) c).
  2:{ intros k Hk. replace (Nat.leb lo (lo + k)) with true by (symmetry; apply Nat.leb_le; lia).
      replace (Nat.ltb (lo + k) (lo + c)) with true by (symmetry; apply Nat.ltb_lt; lia). reflexivity. }
  rewrite (bsum_ext (fun k => if (Nat.leb lo (lo + c + k) && Nat.ltb (lo + c + k) (lo + c))%bool then v else f (lo + c + k)%nat)
             (fun k => f (lo + c + k)%nat)).
  2:{ intros k Hk. replace (Nat.ltb (lo + c + k) (lo + c)) with false by (symmetry; apply Nat.ltb_ge; lia).
      rewrite andb_false_r. reflexivity. }
  rewrite bsum_const. lra.
Qed.

Lemma mapi_from_length i f (l : list R) : length (mapi_from i f l) = length l.
Proof. revert i; induction l; cbn; intros; auto. Qed.
Lemma mapi_length f (l : list R) : length (mapi f l) = length l.
Proof. apply mapi_from_length. Qed.
Lemma node_mapi_from i f l k : (k < length l)%nat -> node (mapi_from i f l) k = f (i + k)%nat (node l k).
Proof.
  revert i k; induction l; cbn; intros; [lia|].
  destruct k; cbn.
  - rewrite Nat.add_0_r. reflexivity.
  - unfold node in IHl. rewrite IHl by lia. f_equal. lia.
Qed.
Lemma node_mapi f l k : (k < length l)%nat -> node (mapi f l) k = f k (node l k).
Proof. intros. unfold mapi. rewrite node_mapi_from by assumption. reflexivity. Qed.

Lemma node_In l k : (k < length l)%nat -> In (node l k) l.
Proof. intros. apply nth_In. assumption. Qed.
Lemma In_node l x : In x l -> exists k, (k < length l)%nat /\ node l k = x.
Proof. intros. destruct (In_nth l x 0 H) as [k [H1 H2]]. exists k; auto. Qed.

Lemma within_node lo hi l : within lo hi l <-> (forall k, (k < length l)%nat -> lo <= node l k <= hi).
Proof.
  split; intros H.
  - intros; apply H, node_In; assumption.
  - intros x Hx. destruct (In_node _ _ Hx) as [k [Hk <-]]. apply H; assumption.
Qed.

Lemma list_eq_node (a b : list R) : length a = length b ->
  (forall k, (k < length a)%nat -> node a k = node b k) -> a = b.
Proof. intros. apply (nth_ext a b 0 0); auto. Qed.

Lemma stratified_from_le lo Ts i j : stratified_from lo Ts -> (lo <= i <= j)%nat -> (j < length Ts)%nat ->
  node Ts i <= node Ts j.
Proof.
  intros H Hij Hj. induction j.
  - replace i with 0%nat by lia. lra.
  - destruct (Nat.eq_dec i (S j)) as [->|]; [lra|].
    eapply Rle_trans; [apply IHj; lia|]. apply H; lia.
Qed.
Lemma stratified_le Ts i j : stratified Ts -> (i <= j)%nat -> (j < length Ts)%nat -> node Ts i <= node Ts j.
Proof. intros. apply (stratified_from_le 0); try lia. intros k _ Hk. apply H; assumption. Qed.
Lemma stratified_is_from Ts : stratified Ts <-> stratified_from 0 Ts.
Proof. split; intros H i; intros; apply H; auto; lia. Qed.

Lemma bsum_window g f lo c p : (lo + c <= p)%nat ->
  bsum (fun k => if (Nat.leb lo k && Nat.ltb k (lo + c))%bool then g k else f k) p
  = bsum f p + (bsum (fun k => g (lo + k)%nat) c - bsum (fun k => f (lo + k)%nat) c).
Proof.
  intros. rewrite (bsum_split_le _ (lo + c) p) by lia. rewrite (bsum_split_le f (lo + c) p) by lia.
  rewrite !bsum_split.
  rewrite (bsum_ext (fun k => if (Nat.leb lo k && Nat.ltb k (lo + c))%bool then g k else f k) f lo).
  2:{ intros k Hk. replace (Nat.leb lo k) with false by (symmetry; apply Nat.leb_gt; lia). reflexivity. }
  rewrite (bsum_ext (fun k => if (Nat.leb lo (lo + k) && Nat.ltb (lo + k) (lo + c))%bool then g (lo + k)%nat else f (lo + k)%nat) (fun k => g (lo + k)%nat) c).
  2:{ intros k Hk. replace (Nat.leb lo (lo + k)) with true by (symmetry; apply Nat.leb_le; lia).
      replace (Nat.ltb (lo + k) (lo + c)) with true by (symmetry; apply Nat.ltb_lt; lia). reflexivity. }
  rewrite (bsum_ext (fun k => if (Nat.leb lo (lo + c + k) && Nat.ltb (lo + c + k) (lo + c))%bool then g (lo + c + k)%nat else f (lo + c + k)%nat)
             (fun k => f (lo + c + k)%nat)).
  2:{ intros k Hk. replace (Nat.ltb (lo + c + k) (lo + c)) with false by (symmetry; apply Nat.ltb_ge; lia).
      rewrite andb_false_r. reflexivity. }
  lra.
Qed.

Lemma Rsum_mapi g l : Rsum (mapi g l) = bsum (fun k => g k (node l k)) (length l).
Proof. rewrite Rsum_bsum, mapi_length. apply bsum_ext. intros; apply node_mapi; auto. Qed.
Lemma node_skipn l b k : node (skipn b l) k = node l (b + k).
Proof.
  unfold node. revert b; induction l; intros [|b]; cbn; auto. destruct k; reflexivity.
Qed.
Lemma node_firstn l c k : (k < c)%nat -> node (firstn c l) k = node l k.
Proof.
  unfold node. revert c k; induction l; intros [|c] [|k]; cbn; intros; auto; try lia. apply IHl; lia.
Qed.
Lemma Rsum_window l b c : (b + c <= length l)%nat ->
  Rsum (firstn c (skipn b l)) = bsum (fun k => node l (b + k)) c.
Proof.
  intros. rewrite Rsum_bsum, firstn_length_le by (rewrite skipn_length; lia).
  apply bsum_ext. intros. rewrite node_firstn by auto. apply node_skipn.
Qed.
Lemma Rsum_map_bsum (g : R -> R) l : Rsum (map g l) = bsum (fun k => g (node l k)) (length l).
Proof.
  rewrite Rsum_bsum, map_length. apply bsum_ext. intros k Hk. unfold node.
  rewrite (nth_indep (map g l) 0 (g 0)) by (rewrite map_length; auto). apply map_nth.
Qed.
Lemma node_map (g : R -> R) l k : (k < length l)%nat -> node (map g l) k = g (node l k).
Proof. intros. unfold node. rewrite (nth_indep (map g l) 0 (g 0)) by (rewrite map_length; auto). apply map_nth. Qed.
