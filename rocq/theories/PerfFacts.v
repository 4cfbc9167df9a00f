(** Proofs of the theorems stated in PropsPerf.v: Properties of performance maps: grids, polynomial sets, defrost *)

From Coq Require Import ZArith String List Bool Reals Lra Lia Permutation Floats Sorting.Sorted.
From Verif Require Import Num FNum Base Units Utils Types TankM Logic HeatSrc Perf Spec.
From Verif Require Import RList FrameProofs SimFrame Example.
Import ListNotations.
Local Open Scope R_scope.
(** ** C60 *)
(** number of entries of a grid with these axis sizes *)
Definition volume (sizes : list nat) : nat := fold_right Nat.mul 1%nat sizes.
(** row-major position of an index tuple *)
Fixpoint flat (sizes idx : list nat) : nat :=
  match sizes, idx with s :: ss, k :: ks => (k * volume ss + flat ss ks)%nat | _, _ => 0%nat end.
Definition inGrid (sizes idx : list nat) : Prop := Forall2 lt idx sizes.
(** the same entry with the places i and j exchanged *)
Definition exchanged {A} (i j : nat) (a b : list A) : Prop :=
  length a = length b /\ nth_error b i = nth_error a j /\ nth_error b j = nth_error a i /\
  forall k, k <> i -> k <> j -> nth_error b k = nth_error a k.

Section Grid.
Local Open Scope nat_scope.
Lemma exchanged_ix {A} i j (a b : list A) : i < length a -> j < length a -> exchanged i j a b -> forall k, nth_error b k = nth_error a (swapIx i j k).
Proof.
  intros HI HJ (HL & H1 & H2 & H3) k. unfold swapIx. destruct (Nat.eqb_spec k i) as [->|N1]; auto. destruct (Nat.eqb_spec k j) as [->|N2]; auto.
Qed.
Lemma swapIx_lt i j n k : i < n -> j < n -> k < n -> swapIx i j k < n.
Proof. unfold swapIx. destruct (Nat.eqb_spec k i); destruct (Nat.eqb_spec k j); lia. Qed.
Lemma swapIx_inv i j k : swapIx i j (swapIx i j k) = k.
Proof. unfold swapIx. destruct (Nat.eqb_spec k i); [destruct (Nat.eqb_spec j i); [lia|]; rewrite Nat.eqb_refl; auto|]. destruct (Nat.eqb_spec k j); [rewrite Nat.eqb_refl; auto|]. destruct (Nat.eqb_spec k i); [lia|]. destruct (Nat.eqb_spec k j); lia. Qed.
Lemma swap_perm i j n : i < n -> j < n -> Permutation (map (swapIx i j) (seq 0 n)) (seq 0 n).
Proof.
  intros HI HJ. apply NoDup_Permutation.
  - apply FinFun.Injective_map_NoDup; [|apply seq_NoDup]. intros a b E. rewrite <- (swapIx_inv i j a), E. apply swapIx_inv.
  - apply seq_NoDup.
  - intros x. rewrite in_map_iff. split.
    + intros (k & <- & HK). apply in_seq in HK. apply in_seq. pose proof (swapIx_lt i j n k HI HJ). lia.
    + intros HX. exists (swapIx i j x). split; [apply swapIx_inv|]. apply in_seq in HX. apply in_seq. pose proof (swapIx_lt i j n x HI HJ). lia.
Qed.

Lemma nth_error_extensional {A} : forall (a b : list A), (forall k, nth_error a k = nth_error b k) -> a = b.
Proof.
  induction a as [|x a IH]; intros [|y b] HE; auto; [specialize (HE 0); discriminate|specialize (HE 0); discriminate|].
  pose proof (HE 0) as E0. cbn in E0. inversion E0; subst. f_equal. apply IH. intros k. apply (HE (S k)).
Qed.
Lemma swapAt_exchanged {A} (l : list A) i j : i < length l -> j < length l -> exchanged i j l (swapAt l i j).
Proof.
  intros HI HJ. unfold swapAt. destruct (nth_error l i) as [x|] eqn:EX; [|apply nth_error_None in EX; lia]. destruct (nth_error l j) as [y|] eqn:EY; [|apply nth_error_None in EY; lia].
  split; [rewrite !upd_length; auto|]. destruct (Nat.eq_dec i j) as [->|N].
  - split; [|split]; [rewrite nth_error_upd_same by (rewrite upd_length; auto); congruence|rewrite nth_error_upd_same by (rewrite upd_length; auto); congruence|].
    intros k N1 N2. rewrite !nth_error_upd_other by auto. auto.
  - split; [|split].
    + rewrite nth_error_upd_other by auto. rewrite nth_error_upd_same by auto. congruence.
    + rewrite nth_error_upd_same by (rewrite upd_length; auto). congruence.
    + intros k N1 N2. rewrite !nth_error_upd_other by auto. auto.
Qed.
Lemma exchanged_unique {A} i j (a b c : list A) : exchanged i j a b -> exchanged i j a c -> b = c.
Proof.
  intros (L1 & A1 & A2 & A3) (L2 & B1 & B2 & B3). apply nth_error_extensional. intros k.
  destruct (Nat.eq_dec k i) as [->|N1]; [congruence|]. destruct (Nat.eq_dec k j) as [->|N2]; [congruence|]. rewrite A3, B3; auto.
Qed.
Lemma exchanged_sym {A} i j (a b : list A) : exchanged i j a b -> exchanged i j b a.
Proof. intros (L1 & A1 & A2 & A3). split; [auto|]. split; [auto|]. split; [auto|]. intros k N1 N2. symmetry. auto. Qed.
Lemma exchanged_map {A B} (f : A -> B) i j a b : exchanged i j a b -> exchanged i j (map f a) (map f b).
Proof.
  intros (L1 & A1 & A2 & A3). split; [rewrite !map_length; auto|]. rewrite !nth_error_map, A1, A2. split; [auto|]. split; [auto|]. intros k N1 N2. rewrite !nth_error_map, A3; auto.
Qed.

(** value of the counter read along a list of axes (Horner form) *)
Definition val (sizes axes idx : list nat) : nat := fold_left (fun acc a => acc * nth a sizes 0 + nth a idx 0) axes 0.
Definition axVol (sizes axes : list nat) : nat := fold_left (fun acc a => acc * nth a sizes 0) axes 1.
Lemma val_ext sizes axes idx idx' : (forall a, In a axes -> nth a idx 0 = nth a idx' 0) -> val sizes axes idx = val sizes axes idx'.
Proof.
  unfold val. assert (G : forall axes acc, (forall a, In a axes -> nth a idx 0 = nth a idx' 0) -> fold_left (fun acc a => acc * nth a sizes 0 + nth a idx 0) axes acc = fold_left (fun acc a => acc * nth a sizes 0 + nth a idx' 0) axes acc).
  { induction axes0 as [|a r IH]; intros acc HE; cbn; auto. rewrite (HE a) by (cbn; auto). apply IH. intros b HB. apply HE. cbn; auto. }
  apply G.
Qed.
Lemma val_snoc sizes A a idx : val sizes (A ++ [a]) idx = val sizes A idx * nth a sizes 0 + nth a idx 0.
Proof. unfold val. rewrite fold_left_app. reflexivity. Qed.
Lemma axVol_snoc sizes A a : axVol sizes (A ++ [a]) = axVol sizes A * nth a sizes 0.
Proof. unfold axVol. rewrite fold_left_app. reflexivity. Qed.
Lemma nextIdx_other sizes : forall axes idx b, ~ In b axes -> nth b (nextIdx sizes axes idx) 0 = nth b idx 0.
Proof.
  induction axes as [|a r IH]; intros idx b HN; cbn [nextIdx]; auto. cbn in HN. cbv zeta. destruct (_ <? _).
  - apply nth_upd_other. intros ->. apply HN. auto.
  - rewrite IH by auto. apply nth_upd_other. intros ->. apply HN. auto.
Qed.
Lemma nextIdx_length sizes : forall axes idx, length (nextIdx sizes axes idx) = length idx.
Proof. induction axes as [|a r IH]; intros idx; cbn [nextIdx]; auto. cbv zeta. destruct (_ <? _); [apply upd_length|rewrite IH; apply upd_length]. Qed.
Definition below (sizes idx : list nat) (axes : list nat) : Prop := forall a, In a axes -> a < length idx /\ nth a idx 0 < nth a sizes 0.
Lemma next_val sizes : forall A idx, NoDup A -> below sizes idx A ->
  below sizes (nextIdx sizes (rev A) idx) A /\ val sizes A idx < axVol sizes A /\ (S (val sizes A idx) < axVol sizes A -> val sizes A (nextIdx sizes (rev A) idx) = S (val sizes A idx)).
Proof.
  induction A as [|a A IH] using rev_ind; intros idx HN HB; [cbn; split; [intros a []|split; lia]|].
  rewrite rev_app_distr. cbn [rev app]. apply NoDup_remove in HN. rewrite app_nil_r in HN. destruct HN as (HN & HA).
  destruct (HB a) as (B1 & B2); [apply in_or_app; cbn; auto|]. cbn [nextIdx]. cbv zeta. rewrite val_snoc, axVol_snoc.
  assert (HBA : below sizes idx A) by (intros x HX; apply HB, in_or_app; auto).
  destruct (IH idx HN HBA) as (_ & HV & _).
  assert (HVV : val sizes A idx * nth a sizes 0 + nth a idx 0 < axVol sizes A * nth a sizes 0) by nia.
  destruct (Nat.ltb_spec (S (nth a idx 0)) (nth a sizes 0)) as [HL|HL].
  - split; [|split; auto].
    + intros x HX. rewrite upd_length. destruct (Nat.eq_dec x a) as [->|NX]; [rewrite nth_upd_same by auto; auto|]. rewrite nth_upd_other by auto. auto.
    + intros _. rewrite val_snoc, nth_upd_same by auto. rewrite (val_ext sizes A (upd idx a _) idx); [lia|]. intros x HX. apply nth_upd_other. intros ->. auto.
  - set (idx1 := upd idx a 0). assert (E1 : val sizes A idx1 = val sizes A idx) by (apply val_ext; intros x HX; apply nth_upd_other; intros ->; auto).
    assert (HB1 : below sizes idx1 A).
    { intros x HX. unfold idx1. rewrite upd_length. rewrite nth_upd_other by (intros ->; auto). apply HBA; auto. }
    destruct (IH idx1 HN HB1) as (C1 & C2 & C3). rewrite E1 in C2, C3.
    assert (EA : nth a (nextIdx sizes (rev A) idx1) 0 = 0).
    { rewrite nextIdx_other by (rewrite <- in_rev; auto). unfold idx1. apply nth_upd_same; auto. }
    split; [|split; auto].
    + intros x HX. apply in_app_or in HX. destruct HX as [HX|[<-|[]]]; [apply C1; auto|]. rewrite EA, nextIdx_length. unfold idx1. rewrite upd_length. split; auto; lia.
    + intros HS. rewrite val_snoc, EA. assert (S (val sizes A idx) < axVol sizes A) by nia. rewrite C3 by auto. nia.
Qed.

Fixpoint iterIdx (k : nat) (sizes axes idx : list nat) : list nat :=
  match k with O => idx | S k => iterIdx k sizes axes (nextIdx sizes (rev axes) idx) end.
Lemma swapOrder_nth sizes axes : forall cnt idx k, k < cnt -> nth_error (swapOrder cnt sizes axes idx) k = Some (elemNew sizes axes (iterIdx k sizes axes idx)).
Proof. induction cnt as [|c IH]; intros idx k HK; [lia|]. destruct k as [|k]; cbn; auto. apply IH. lia. Qed.
Lemma swapOrder_length sizes axes : forall cnt idx, length (swapOrder cnt sizes axes idx) = cnt.
Proof. induction cnt; intros; cbn; auto. Qed.
Lemma iter_val sizes axes : NoDup axes -> forall k idx, below sizes idx axes -> val sizes axes idx + k < axVol sizes axes ->
  below sizes (iterIdx k sizes axes idx) axes /\ val sizes axes (iterIdx k sizes axes idx) = val sizes axes idx + k /\ length (iterIdx k sizes axes idx) = length idx.
Proof.
  intros HN. induction k as [|k IH]; intros idx HB HK; cbn [iterIdx]; [split; auto; split; auto; lia|].
  destruct (next_val sizes axes idx HN HB) as (A1 & A2 & A3). destruct (IH (nextIdx sizes (rev axes) idx) A1) as (B1 & B2 & B3); [rewrite A3 by lia; lia|].
  split; auto. split; [rewrite B2, A3 by lia; lia|]. rewrite B3. apply nextIdx_length.
Qed.
Lemma volume_cons s ss : volume (s :: ss) = s * volume ss.
Proof. reflexivity. Qed.
Lemma horner sizes idx : forall axes acc, fold_left (fun acc a => acc * nth a sizes 0 + nth a idx 0) axes acc =
  acc * volume (map (fun a => nth a sizes 0) axes) + flat (map (fun a => nth a sizes 0) axes) (map (fun a => nth a idx 0) axes).
Proof. induction axes as [|a r IH]; intros acc; cbn [fold_left map flat]; [cbn; lia|]. rewrite IH, volume_cons. lia. Qed.
Lemma val_flat sizes axes idx : val sizes axes idx = flat (map (fun a => nth a sizes 0) axes) (map (fun a => nth a idx 0) axes).
Proof. unfold val. rewrite horner. lia. Qed.
Lemma axVol_volume sizes axes : axVol sizes axes = volume (map (fun a => nth a sizes 0) axes).
Proof.
  unfold axVol. assert (G : forall axes acc, fold_left (fun acc a => acc * nth a sizes 0) axes acc = acc * volume (map (fun a => nth a sizes 0) axes)).
  { induction axes0 as [|a r IH]; intros acc; cbn [fold_left map]; [cbn; lia|]. rewrite IH, volume_cons. lia. }
  rewrite G. lia.
Qed.
Lemma flat_lt : forall sizes idx, inGrid sizes idx -> flat sizes idx < volume sizes.
Proof. intros sizes idx HG. induction HG as [|k s ks ss HL HG IH]; [cbn; lia|]. cbn [flat]. rewrite volume_cons. nia. Qed.
Lemma flat_inj : forall sizes a b, inGrid sizes a -> inGrid sizes b -> flat sizes a = flat sizes b -> a = b.
Proof.
  intros sizes a b HA. revert b. induction HA as [|k s ks ss HL HG IH]; intros b HB E; inversion HB; subst; auto. cbn [flat] in E.
  pose proof (flat_lt _ _ HG). match goal with H : Forall2 lt ?l ss |- _ => lazymatch l with ks => fail | _ => pose proof (flat_lt ss l H) as HF; rename H into HG2 end end.
  assert (k = x) by nia. subst. f_equal. apply IH; auto. lia.
Qed.
Lemma fold_mul : forall l acc, fold_left Nat.mul l acc = acc * volume l.
Proof. induction l as [|x l IH]; intros acc; cbn [fold_left]; [cbn; lia|]. rewrite IH, volume_cons. lia. Qed.
Lemma sum_fold (g : nat -> nat) : forall axes z, fold_left (fun s a => s + g a) axes z = z + list_sum (map g axes).
Proof. induction axes as [|a r IH]; intros z; cbn [fold_left map list_sum fold_right]; [lia|]. rewrite IH. unfold list_sum. lia. Qed.
Lemma list_sum_perm : forall a b, Permutation a b -> list_sum a = list_sum b.
Proof. intros a b HP. induction HP; unfold list_sum in *; cbn [fold_right]; lia. Qed.
Lemma stride_flat : forall sizes idx, length idx = length sizes -> list_sum (map (fun a => stride sizes a * nth a idx 0) (seq 0 (length sizes))) = flat sizes idx.
Proof.
  induction sizes as [|s ss IH]; intros [|k ks] HL; cbn [length] in HL; try lia; auto. cbn [length seq]. rewrite <- seq_shift, map_cons, map_map. cbn [flat].
  specialize (IH ks ltac:(lia)). unfold list_sum in *. cbn [fold_right nth]. f_equal; [|exact IH]. unfold stride. cbn [skipn]. rewrite fold_mul. lia.
Qed.
Lemma elemNew_flat sizes axes idx : Permutation axes (seq 0 (length sizes)) -> length idx = length sizes -> elemNew sizes axes idx = flat sizes idx.
Proof.
  intros HP HL. unfold elemNew. rewrite sum_fold. cbn. rewrite <- (stride_flat sizes idx HL). apply list_sum_perm, Permutation_map, HP.
Qed.
Lemma volume_pos : forall sizes, 0 < volume sizes -> forall a, a < length sizes -> 0 < nth a sizes 0.
Proof.
  induction sizes as [|s ss IH]; intros HV a HA; cbn [length] in HA; [lia|]. rewrite volume_cons in HV. destruct a; cbn [nth]; [nia|]. apply IH; nia.
Qed.
Lemma volume_perm : forall a b, Permutation a b -> volume a = volume b.
Proof. intros a b HP. induction HP; rewrite ?volume_cons; lia. Qed.
Lemma map_nth_seq (l : list nat) : map (fun a => nth a l 0) (seq 0 (length l)) = l.
Proof.
  induction l as [|x l IH]; auto. cbn [length seq map]. f_equal. rewrite <- seq_shift, map_map. cbn [nth]. exact IH.
Qed.
Lemma below_inGrid sizes idx axes : below sizes idx axes -> inGrid (map (fun a => nth a sizes 0) axes) (map (fun a => nth a idx 0) axes).
Proof. induction axes as [|a r IH]; intros HB; cbn; constructor; [apply HB; cbn; auto|]. apply IH. intros x HX. apply HB. cbn; auto. Qed.
Lemma inGrid_below sizes idx : inGrid sizes idx -> forall a, a < length sizes -> a < length idx /\ nth a idx 0 < nth a sizes 0.
Proof.
  intros HG. induction HG as [|k s ks ss HL HG IH]; intros a HA; cbn [length] in *; [lia|]. destruct a; cbn [nth]; [lia|]. destruct (IH a); [lia|]. lia.
Qed.
Lemma inGrid_length sizes idx : inGrid sizes idx -> length idx = length sizes.
Proof. intros HG. induction HG; cbn; lia. Qed.

(** the order computed by the loop *)
Lemma order_spec sizes i j : i < length sizes -> j < length sizes -> forall idx, inGrid sizes idx ->
  let axes := map (swapIx i j) (seq 0 (length sizes)) in
  let k := flat (map (fun a => nth a sizes 0) axes) (map (fun a => nth a idx 0) axes) in
  k < volume sizes /\
  nth_error (swapOrder (volume sizes) sizes axes (repeat 0 (length sizes))) k = Some (flat sizes idx).
Proof.
  intros HI HJ idx HG axes k. pose proof (swap_perm i j (length sizes) HI HJ) as HP. fold axes in HP.
  assert (HN : NoDup axes) by (eapply Permutation_NoDup; [apply Permutation_sym; exact HP|apply seq_NoDup]).
  assert (HA : forall a, In a axes <-> a < length sizes).
  { intros a. split; intros HH; [apply (Permutation_in _ HP), in_seq in HH; lia|]. apply (Permutation_in _ (Permutation_sym HP)), in_seq. lia. }
  assert (HV : volume (map (fun a => nth a sizes 0) axes) = volume sizes).
  { transitivity (volume (map (fun a => nth a sizes 0) (seq 0 (length sizes)))); [apply volume_perm, Permutation_map, HP|rewrite map_nth_seq; auto]. }
  assert (HGA : inGrid (map (fun a => nth a sizes 0) axes) (map (fun a => nth a idx 0) axes)).
  { apply below_inGrid. intros a HH. apply inGrid_below; auto. apply HA; auto. }
  pose proof (flat_lt _ _ HGA) as HK. fold k in HK. rewrite HV in HK. split; auto.
  rewrite swapOrder_nth by auto. f_equal.
  assert (HB0 : below sizes (repeat 0 (length sizes)) axes).
  { intros a HH. apply HA in HH. rewrite repeat_length. split; auto. rewrite nth_repeat. apply volume_pos; auto. lia. }
  assert (HV0 : val sizes axes (repeat 0 (length sizes)) = 0).
  { unfold val. assert (G : forall axes acc, acc = 0 -> fold_left (fun acc a => acc * nth a sizes 0 + nth a (repeat 0 (length sizes)) 0) axes acc = 0).
    { induction axes0 as [|a r IH]; intros acc ->; cbn [fold_left]; auto. apply IH. rewrite nth_repeat. lia. }
    apply G; auto. }
  destruct (iter_val sizes axes HN k (repeat 0 (length sizes)) HB0) as (B1 & B2 & B3); [rewrite HV0, axVol_volume, HV; lia|].
  rewrite HV0 in B2. cbn in B2. rewrite val_flat in B2. rewrite repeat_length in B3. set (it := iterIdx k sizes axes (repeat 0 (length sizes))) in *. clearbody it.
  assert (E : map (fun a => nth a it 0) axes = map (fun a => nth a idx 0) axes) by (eapply flat_inj; [apply below_inGrid; exact B1|exact HGA|exact B2]).
  assert (EI : it = idx).
  { pose proof (inGrid_length _ _ HG) as HL. apply (nth_ext _ _ 0 0); [congruence|]. intros a HHa. rewrite B3 in HHa. apply HA in HHa. clear - E HHa. induction axes as [|b r IH]; [destruct HHa|].
    cbn in E. inversion E. destruct HHa as [->|HHa]; auto. }
  rewrite EI. apply elemNew_flat; auto. apply inGrid_length; auto.
Qed.
Lemma order_bound sizes i j : i < length sizes -> j < length sizes -> forall m,
  In m (swapOrder (volume sizes) sizes (map (swapIx i j) (seq 0 (length sizes))) (repeat 0 (length sizes))) -> m < volume sizes.
Proof.
  intros HI HJ m HM. apply In_nth_error in HM. destruct HM as (k & HM).
  assert (HK : k < volume sizes) by (rewrite <- (swapOrder_length sizes (map (swapIx i j) (seq 0 (length sizes))) (volume sizes) (repeat 0 (length sizes))); apply nth_error_Some; congruence).
  rewrite swapOrder_nth in HM by auto. inversion HM as [E]. clear HM.
  pose proof (swap_perm i j (length sizes) HI HJ) as HP. set (axes := map (swapIx i j) (seq 0 (length sizes))) in *.
  assert (HN : NoDup axes) by (eapply Permutation_NoDup; [apply Permutation_sym; exact HP|apply seq_NoDup]).
  assert (HA : forall a, In a axes <-> a < length sizes).
  { intros a. split; intros HH; [apply (Permutation_in _ HP), in_seq in HH; lia|]. apply (Permutation_in _ (Permutation_sym HP)), in_seq. lia. }
  assert (HV : volume (map (fun a => nth a sizes 0) axes) = volume sizes).
  { transitivity (volume (map (fun a => nth a sizes 0) (seq 0 (length sizes)))); [apply volume_perm, Permutation_map, HP|rewrite map_nth_seq; auto]. }
  assert (HB0 : below sizes (repeat 0 (length sizes)) axes).
  { intros a HH. apply HA in HH. rewrite repeat_length. split; auto. rewrite nth_repeat. apply volume_pos; auto. lia. }
  assert (HV0 : val sizes axes (repeat 0 (length sizes)) = 0).
  { unfold val. assert (G : forall axes acc, acc = 0 -> fold_left (fun acc a => acc * nth a sizes 0 + nth a (repeat 0 (length sizes)) 0) axes acc = 0).
    { induction axes0 as [|a r IH]; intros acc ->; cbn [fold_left]; auto. apply IH. rewrite nth_repeat. lia. }
    apply G; auto. }
  destruct (iter_val sizes axes HN k (repeat 0 (length sizes)) HB0) as (B1 & B2 & B3); [rewrite HV0, axVol_volume, HV; lia|].
  rewrite repeat_length in B3. rewrite elemNew_flat by auto. apply flat_lt. set (it := iterIdx k sizes axes (repeat 0 (length sizes))) in *. clearbody it.
  pose proof (map_nth_seq sizes) as E1. pose proof (map_nth_seq it) as E2. rewrite B3 in E2. rewrite <- E2. rewrite <- E1 at 1. apply below_inGrid. intros a HH. apply in_seq in HH. apply B1, HA. lia.
Qed.
Lemma gather_ok {A} (orig : list A) : forall order, (forall m, In m order -> m < length orig) ->
  exists r, gather orig order = Ok r /\ length r = length order /\ forall k m, nth_error order k = Some m -> nth_error r k = nth_error orig m.
Proof.
  induction order as [|m0 order IH]; intros HO; cbn [gather]; [exists []; split; auto; split; auto; intros [|k] m; discriminate|].
  destruct (nth_error orig m0) as [x|] eqn:E; [|apply nth_error_None in E; specialize (HO m0 (or_introl eq_refl)); lia].
  destruct IH as (r & -> & HL & HR); [intros m HM; apply HO; cbn; auto|]. cbn [obind]. exists (x :: r). split; auto. split; [cbn; lia|].
  intros [|k] m; cbn [nth_error]; [intros EE; inversion EE; subst; auto|apply HR].
Qed.
(** [v'] is the table [v] with the axes i and j of its grid exchanged *)
Definition transposed {A} (sizes : list nat) (i j : nat) (v v' : list A) : Prop :=
  length v' = length v /\
  forall idx idx' sizes', inGrid sizes idx -> exchanged i j idx idx' -> exchanged i j sizes sizes' ->
    nth_error v' (flat sizes' idx') = nth_error v (flat sizes idx).
Lemma exchanged_nth i j (a b : list nat) : i < length a -> j < length a -> exchanged i j a b -> b = map (fun k => nth k a 0) (map (swapIx i j) (seq 0 (length a))).
Proof.
  intros HI HJ HE. pose proof (exchanged_ix i j a b HI HJ HE) as HX. apply nth_error_extensional. intros k. rewrite HX. rewrite !nth_error_map.
  destruct (Nat.lt_ge_cases k (length a)) as [HK|HK].
  - assert (ES : nth_error (seq 0 (length a)) k = Some k) by (rewrite nth_error_nth' with (d := 0) by (rewrite seq_length; auto); rewrite seq_nth by auto; auto).
    rewrite ES. cbn. apply nth_error_nth'. apply swapIx_lt; auto.
  - assert (ES : nth_error (seq 0 (length a)) k = None) by (apply nth_error_None; rewrite seq_length; auto). rewrite ES. cbn. apply nth_error_None. unfold swapIx.
    destruct (Nat.eqb_spec k i); [lia|]. destruct (Nat.eqb_spec k j); lia.
Qed.
End Grid.

Lemma C60_transposes_fact : forall (T : Type) (N : Num T) (grid : list (list T)) v0 v1 rest i j, (i < length grid)%nat -> (j < length grid)%nat ->
  length v0 = volume (map (@length T) grid) -> length v1 = length v0 ->
  exists g' v0' v1', swapGridAxes grid (v0 :: v1 :: rest) i j = Ok (g', v0' :: v1' :: rest) /\ exchanged i j grid g' /\
    transposed (map (@length T) grid) i j v0 v0' /\ transposed (map (@length T) grid) i j v1 v1'.
Proof.
  intros T N grid v0 v1 rest i j HI HJ H0 H1. unfold swapGridAxes.
  rewrite (proj2 (Nat.ltb_lt _ _) HI), (proj2 (Nat.ltb_lt _ _) HJ), (proj2 (Nat.leb_le (length v0) (length v1)) ltac:(lia)).
  cbn [andb]. set (sizes := map (@length T) grid) in *. assert (HL : length sizes = length grid) by (unfold sizes; apply map_length). rewrite <- HL in HI, HJ |- *. rewrite H0.
  pose proof (order_bound sizes i j HI HJ) as HB. pose proof (order_spec sizes i j HI HJ) as HS. cbv zeta in HS.
  pose proof (swapOrder_length sizes (map (swapIx i j) (seq 0 (length sizes))) (volume sizes) (repeat 0%nat (length sizes))) as HOL.
  set (order := swapOrder (volume sizes) sizes _ _) in *. clearbody order.
  destruct (gather_ok v0 order) as (r0 & -> & L0 & R0); [intros m HM; specialize (HB m HM); lia|]. cbn [obind].
  destruct (gather_ok v1 order) as (r1 & -> & L1 & R1); [intros m HM; specialize (HB m HM); lia|]. cbn [obind].
  rewrite <- H0, <- H1, skipn_all, app_nil_r. exists (swapAt grid i j), r0, r1. split; auto. split; [apply swapAt_exchanged; lia|].
  split; (split; [lia|]); intros idx idx' sizes' HG E1 E2; pose proof (inGrid_length _ _ HG) as HGL;
    rewrite (exchanged_nth i j idx idx') by (auto; lia); rewrite (exchanged_nth i j sizes sizes') by auto; rewrite HGL; destruct (HS idx HG) as (_ & HO); auto.
Qed.
Lemma exists_idx : forall sizes k, (k < volume sizes)%nat -> exists idx, inGrid sizes idx /\ flat sizes idx = k.
Proof.
  induction sizes as [|s ss IH]; intros k HK; [cbn in HK; exists []; split; [constructor|cbn; lia]|]. rewrite volume_cons in HK.
  assert (HV : (volume ss <> 0)%nat) by nia. destruct (IH (k mod volume ss)%nat) as (idx & HG & HF); [apply Nat.mod_upper_bound; auto|].
  exists ((k / volume ss)%nat :: idx). split; [constructor; auto; apply Nat.div_lt_upper_bound; auto; nia|]. cbn [flat]. rewrite HF. pose proof (Nat.div_mod k (volume ss) HV). nia.
Qed.
Lemma exchanged_ex {A} i j (l : list A) : (i < length l)%nat -> (j < length l)%nat -> exists l', exchanged i j l l'.
Proof. intros. exists (swapAt l i j). apply swapAt_exchanged; auto. Qed.
Lemma inGrid_exchanged i j sizes sizes' idx idx' : (i < length sizes)%nat -> (j < length sizes)%nat -> inGrid sizes idx -> exchanged i j sizes sizes' -> exchanged i j idx idx' -> inGrid sizes' idx'.
Proof.
  intros HI HJ HG E1 E2. pose proof (inGrid_length _ _ HG) as HL. rewrite (exchanged_nth i j sizes sizes'), (exchanged_nth i j idx idx'), HL by (auto; lia).
  apply below_inGrid. intros a HA. apply in_map_iff in HA. destruct HA as (k & <- & HK). apply in_seq in HK. apply inGrid_below; auto. apply swapIx_lt; lia.
Qed.
Lemma C60_involution_fact : forall (T : Type) (N : Num T) (grid : list (list T)) v0 v1 rest i j g' vs', (i < length grid)%nat -> (j < length grid)%nat ->
  length v0 = volume (map (@length T) grid) -> length v1 = length v0 ->
  swapGridAxes grid (v0 :: v1 :: rest) i j = Ok (g', vs') -> swapGridAxes g' vs' i j = Ok (grid, v0 :: v1 :: rest).
Proof.
  intros T N grid v0 v1 rest i j g' vs' HI HJ H0 H1 E. destruct (C60_transposes_fact T N grid v0 v1 rest i j HI HJ H0 H1) as (g1 & a0 & a1 & E1 & X1 & (LA0 & A0) & (LA1 & A1)).
  rewrite E1 in E. inversion E; subst g1 vs'. clear E. set (sizes := map (@length T) grid) in *. set (sizes' := map (@length T) g').
  pose proof (exchanged_map (@length T) _ _ _ _ X1) as XS. fold sizes sizes' in XS. pose proof XS as (LS & _). pose proof X1 as (LG & _).
  assert (LSg : length sizes = length grid) by (unfold sizes; apply map_length).
  assert (HV : volume sizes' = volume sizes).
  { rewrite (exchanged_nth i j sizes sizes') by (auto; lia). transitivity (volume (map (fun a => nth a sizes 0%nat) (seq 0 (length sizes)))); [|rewrite map_nth_seq; auto].
    apply volume_perm, Permutation_map, swap_perm; lia. }
  destruct (C60_transposes_fact T N g' a0 a1 rest i j) as (g2 & b0 & b1 & E2 & X2 & (LB0 & B0) & (LB1 & B1)); try lia; [fold sizes'; lia|].
  rewrite E2. assert (g2 = grid) by (eapply exchanged_unique; [exact X2|apply exchanged_sym; exact X1]). subst g2.
  assert (HB : forall (v a b : list T), length v = volume sizes -> length a = length v -> length b = length a ->
    (forall idx idx' sz, inGrid sizes idx -> exchanged i j idx idx' -> exchanged i j sizes sz -> nth_error a (flat sz idx') = nth_error v (flat sizes idx)) ->
    (forall idx idx' sz, inGrid sizes' idx -> exchanged i j idx idx' -> exchanged i j sizes' sz -> nth_error b (flat sz idx') = nth_error a (flat sizes' idx)) -> b = v).
  { intros v a b Hv Ha Hb F1 F2. apply nth_error_extensional. intros k. destruct (Nat.lt_ge_cases k (volume sizes)) as [HK|HK].
    - destruct (exists_idx sizes k HK) as (idx & HG & <-). pose proof (inGrid_length _ _ HG) as HGL. destruct (exchanged_ex i j idx) as (idx' & EX); try lia.
      rewrite (F2 idx' idx sizes); [apply F1; auto| |apply exchanged_sym; auto|apply exchanged_sym; auto]. apply (inGrid_exchanged i j sizes sizes' idx idx'); auto; lia.
    - rewrite (proj2 (nth_error_None b k)) by lia. symmetry. apply nth_error_None. lia. }
  rewrite (HB v0 a0 b0), (HB v1 a1 b1); auto; lia.
Qed.
Lemma C60_example_fact : exists g' vs', swapGridAxes (T:=float) [[fofZ 1; fofZ 2]; [fofZ 5; fofZ 6; fofZ 7]] [map fofZ [1; 2; 3; 4; 5; 6]%Z; map fofZ [1; 2; 3; 4; 5; 6]%Z] 0 1 = Ok (g', vs') /\
  vs' = [map fofZ [1; 4; 2; 5; 3; 6]%Z; map fofZ [1; 4; 2; 5; 3; 6]%Z].
Proof. eexists _, _. split; [vm_compute; reflexivity|vm_compute; reflexivity]. Qed.

(** ** C61 *)
Lemma insert_In x : forall l y, In y (insert (T:=R) x l) <-> y = x \/ In y l.
Proof.
  induction l as [|z l IH]; intros y; cbn [insert]; [cbn; intuition|]. destruct (x <? z)%num; cbn [In]; [intuition|]. rewrite IH. intuition.
Qed.
Lemma insert_sorted x : forall l, StronglySorted Rle l -> StronglySorted Rle (insert (T:=R) x l).
Proof.
  induction l as [|z l IH]; intros HS; cbn [insert]; [repeat constructor|]. inversion HS as [|? ? HS' HF]; subst. num_simpl. destruct (Rltb x z) eqn:E; bcase.
  - constructor; auto. constructor; [lra|]. eapply Forall_impl; [|exact HF]. cbn. intros; lra.
  - constructor; auto. rewrite Forall_forall in HF |- *. intros y HY. apply insert_In in HY. destruct HY as [->|HY]; [lra|]. auto.
Qed.
Lemma isort_spec (l : list R) : StronglySorted Rle (isort l) /\ forall y, In y (isort l) <-> In y l.
Proof.
  induction l as [|x l (IH1 & IH2)]; cbn [isort fold_right]; [split; [constructor|reflexivity]|]. fold (isort l). split; [apply insert_sorted; auto|].
  intros y. rewrite insert_In, IH2. cbn. intuition.
Qed.
Lemma skipDup_spec : forall (l : list R) p, StronglySorted Rle l -> (forall x, In x l -> p <= x) ->
  StronglySorted Rlt (skipDup (Some p) l) /\ (forall y, In y (skipDup (Some p) l) <-> In y l /\ p < y).
Proof.
  induction l as [|x l IH]; intros p HS HP; cbn [skipDup]; [split; [constructor|cbn; tauto]|]. inversion HS as [|? ? HS' HF]; subst. rewrite Forall_forall in HF.
  destruct (IH x HS' HF) as (I1 & I2). pose proof (HP x (or_introl eq_refl)) as HX. num_simpl. destruct (Rltb p x) eqn:E; bcase.
  - split; [constructor; auto; rewrite Forall_forall; intros y HY; apply I2 in HY; lra|]. intros y. cbn [In]. rewrite I2. split.
    + intros [<-|(A & B)]; split; auto; lra.
    + intros ([<-|A] & B); auto. destruct (Rlt_le_dec x y); [right; auto|]. specialize (HF y A). left. lra.
  - assert (x = p) by lra. subst x. split; auto. intros y. rewrite I2. cbn [In]. split; [intros (A & B); auto|]. intros ([<-|A] & B); [lra|auto].
Qed.
Lemma C61_arrange_fact : forall v : list R, StronglySorted Rlt (arrangeGridVector v) /\ (forall x, In x (arrangeGridVector v) <-> In x v).
Proof.
  intros v. unfold arrangeGridVector. destruct (isort_spec v) as (S1 & S2). destruct (isort v) as [|x l] eqn:E; [split; [constructor|intros x; rewrite <- S2; reflexivity]|].
  cbn [skipDup]. inversion S1 as [|? ? S1' HF]; subst. rewrite Forall_forall in HF. destruct (skipDup_spec l x S1' HF) as (I1 & I2).
  split; [constructor; auto; rewrite Forall_forall; intros y HY; apply I2 in HY; lra|]. intros y. rewrite <- S2. cbn [In]. rewrite I2. split; [intuition|].
  intros [A|A]; auto. destruct (Rlt_le_dec x y); [auto|]. specialize (HF y A). left. lra.
Qed.
Lemma C61_trim_fact : forall (v : list R) lo hi, StronglySorted Rlt (trimGridVector v lo hi) /\
  (forall x, In x (trimGridVector v lo hi) <-> In x v /\ lo <= x <= hi) /\
  (lo <= hi -> In lo v -> In hi v -> hd 0 (trimGridVector v lo hi) = lo /\ last (trimGridVector v lo hi) 0 = hi).
Proof.
  intros v lo hi. destruct (C61_arrange_fact v) as (S1 & S2). unfold trimGridVector. set (f := fun x : R => _).
  assert (HS : forall l, StronglySorted Rlt l -> StronglySorted Rlt (filter f l)).
  { induction l as [|x l IH]; intros HH; cbn [filter]; [constructor|]. inversion HH as [|? ? HS' HF]; subst. destruct (f x); auto. constructor; auto. rewrite Forall_forall in HF |- *.
    intros y HY. apply filter_In in HY. apply HF. tauto. }
  assert (HI : forall x, In x (filter f (arrangeGridVector v)) <-> In x v /\ lo <= x <= hi).
  { intros x. rewrite filter_In, S2. unfold f. num_simpl. rewrite andb_true_iff, !Rleb_true. tauto. }
  split; [auto|]. split; [exact HI|]. intros HL H1 H2. specialize (HS _ S1). set (r := filter f (arrangeGridVector v)) in *. clearbody r. clear - HS HI HL H1 H2.
  assert (G1 : In lo r) by (apply HI; split; auto; lra). assert (G2 : In hi r) by (apply HI; split; auto; lra). split.
  - destruct r as [|x r]; [destruct G1|]. cbn [hd]. inversion HS as [|? ? HS' HF]; subst. rewrite Forall_forall in HF. destruct (proj1 (HI x) (or_introl eq_refl)). destruct G1 as [->|G1]; auto. specialize (HF _ G1). lra.
  - assert (HX : forall r, StronglySorted Rlt r -> r <> [] -> In (last r 0) r /\ forall y, In y r -> y <= last r 0).
    { clear. induction r as [|x r IH]; intros HS HN; [congruence|]. inversion HS as [|? ? HS' HF]; subst. destruct r as [|z r]; [cbn; split; auto; intros y [<-|[]]; lra|].
      destruct (IH HS') as (A & B); [discriminate|]. change (last (x :: z :: r) 0) with (last (z :: r) 0). split; [right; auto|]. rewrite Forall_forall in HF. intros y [<-|HY]; auto. specialize (HF _ A). lra. }
    destruct (HX r HS) as (A & B); [intros ->; destruct G1|]. apply HI in A. specialize (B _ G2). lra.
Qed.
Lemma C61_example_fact : trimGridVector (T:=float) (map fofZ [20; 5; 5; 40; 10; 35; 5]%Z) (fofZ 5) (fofZ 35) = map fofZ [5; 10; 20; 35]%Z.
Proof. vm_compute. reflexivity. Qed.

(** ** C62 *)
Definition fahrenheit (c : R) : R := 9 / 5 * c + 32.
Definition quadAt (c : list R) (x : R) : R := nth 0 c 0 + nth 1 c 0 * x + nth 2 c 0 * x * x.
(** ascending temperatures, at least two points, three coefficients each *)
Record goodSet (s : list (polyPt R)) : Prop := {
  gs_two : (2 <= length s)%nat;
  gs_asc : StronglySorted (fun a b => pp_T a < pp_T b) s;
  gs_in : Forall (fun a => (3 <= length (pp_in a))%nat) s;
  gs_cop : Forall (fun a => (3 <= length (pp_cop a))%nat) s
}.
(** [p] is the performance on the straight line through the points a and b at temperature t, source temperature x (both in F) *)
Definition onLine (a b : polyPt R) (t x : R) (p : perf R) : Prop :=
  let f := (t - pp_T a) / (pp_T b - pp_T a) in
  p_cop p = (1 - f) * quadAt (pp_cop a) x + f * quadAt (pp_cop b) x /\
  p_in p = (1 - f) * quadAt (pp_in a) x + f * quadAt (pp_in b) x /\
  p_out p = p_cop p * p_in p.
Lemma evalLoop_spec t : forall (s : list (polyPt R)) n i, n = (i + length s)%nat -> s <> [] -> (2 <= n)%nat ->
  exists k, evalLoop s n t i = (Some k, S k) /\ (S k < n)%nat /\ (i <= S k)%nat /\
    (k = 0%nat \/ ((i <= k)%nat -> exists p, nth_error s (k - i) = Some p /\ pp_T p <= t)) /\
    (S k = (n - 1)%nat \/ (exists p, nth_error s (S k - i) = Some p /\ t < pp_T p) \/ (k = 0%nat /\ i = 0%nat /\ exists p, nth_error s 0 = Some p /\ t < pp_T p)).
Proof.
  induction s as [|p s IH]; intros n i HN HNE H2; [congruence|]. cbn [length] in HN. cbn [evalLoop]. num_simpl. destruct (Rltb t (pp_T p)) eqn:E; bcase.
  - destruct i as [|k].
    + exists 0%nat. split; auto. split; [lia|]. split; [lia|]. split; auto. right. right. split; auto. split; auto. exists p. auto.
    + exists k. split; auto. split; [lia|]. split; [lia|]. split; [right; lia|]. right. left. exists p. rewrite Nat.sub_diag. auto.
  - destruct (Nat.eqb_spec i (n - 1)) as [EI|NI].
    + destruct i as [|k]; [lia|]. exists k. split; auto. split; [lia|]. split; [lia|]. split; [right; lia|]. left. lia.
    + destruct s as [|q s]; [cbn in HN; lia|]. destruct (IH n (S i)) as (k & E1 & K1 & K2 & K3 & K4); [lia|discriminate|auto|].
      exists k. split; auto. split; auto. split; [lia|]. split.
      * destruct K3 as [K3|K3]; auto. right. intros HK. destruct (Nat.eq_dec i k) as [->|N0].
        { rewrite Nat.sub_diag. exists p. auto. }
        destruct K3 as (r & R1 & R2); [lia|]. exists r. split; auto. replace (k - i)%nat with (S (k - S i)) by lia. exact R1.
      * destruct K4 as [K4|[(r & R1 & R2)|(K4 & K5 & _)]]; [auto| |lia]. right. left. exists r. split; auto. replace (S k - i)%nat with (S (S k - S i)) by lia. exact R1.
Qed.
Lemma sorted_lt (s : list (polyPt R)) : StronglySorted (fun a b => pp_T a < pp_T b) s -> forall i j a b, (i < j)%nat -> nth_error s i = Some a -> nth_error s j = Some b -> pp_T a < pp_T b.
Proof.
  induction 1 as [|x s HS IH HF]; intros i j a b HL HA HB; [destruct i; discriminate|]. destruct j; [lia|]. cbn in HB. destruct i; cbn in HA.
  - inversion HA; subst. rewrite Forall_forall in HF. apply HF. eapply nth_error_In; eauto.
  - eapply (IH i j); eauto. lia.
Qed.
Lemma quad_ok c (x : R) : (3 <= length c)%nat -> quadratic c x = Ok (quadAt c x).
Proof. destruct c as [|a [|b [|d c]]]; cbn; try lia. intros _. reflexivity. Qed.
(** the pair of points used and the result *)
Lemma polyEval_pair (s : list (polyPt R)) ext src : goodSet s -> exists k a b p, nth_error s k = Some a /\ nth_error s (S k) = Some b /\
  polyEval s ext src = Ok p /\ onLine a b (fahrenheit ext) (fahrenheit src) p /\
  (k = 0%nat \/ pp_T a <= fahrenheit ext) /\ (S k = (length s - 1)%nat \/ fahrenheit ext < pp_T b).
Proof.
  intros [H2 HA HI HC]. assert (HT : C_TO_F ext = fahrenheit ext) by (unfold C_TO_F, FperC, offsetF, fahrenheit; num_simpl; lra).
  assert (HX : C_TO_F src = fahrenheit src) by (unfold C_TO_F, FperC, offsetF, fahrenheit; num_simpl; lra).
  unfold polyEval. rewrite HT, HX. cbv zeta. set (t := fahrenheit ext). set (x := fahrenheit src). clearbody t x.
  destruct (evalLoop_spec t s (length s) 0) as (k & -> & K1 & _ & K3 & K4); auto; [intros ->; cbn in H2; lia|]. rewrite !Nat.sub_0_r in *.
  destruct (nth_error s k) as [a|] eqn:EA; [|apply nth_error_None in EA; lia]. destruct (nth_error s (S k)) as [b|] eqn:EB; [|apply nth_error_None in EB; lia].
  assert (HL : pp_T a < pp_T b) by (eapply (sorted_lt s HA k (S k)); eauto).
  rewrite Forall_forall in HI, HC. pose proof (nth_error_In _ _ EA) as IA. pose proof (nth_error_In _ _ EB) as IB.
  cbn [atPoint]. rewrite EA, EB. cbn [obind]. rewrite !quad_ok by auto. cbn [obind].
  num_simpl.
  exists k, a, b. eexists. split; auto. split; auto. split.
  { destruct (negb (Reqb' (pp_T b - pp_T a) 0)) eqn:ED; [reflexivity|]. exfalso. apply negb_false_iff in ED. revert ED. rdec. lra. }
  split; [|split].
  - unfold onLine, linearInterp. num_simpl. cbn [p_cop p_in p_out]. split; [|split]; auto; field; lra.
  - destruct K3 as [K3|K3]; auto. destruct K3 as (q & Q1 & Q2); [lia|]. assert (q = a) by congruence. subst q. auto.
  - destruct K4 as [K4|[(q & Q1 & Q2)|(-> & _ & q & Q1 & Q2)]]; auto.
    + assert (q = b) by congruence. subst q. auto.
    + assert (q = a) by congruence. subst q. right. lra.
Qed.
Lemma line_at_a a b t x p : pp_T a < pp_T b -> t = pp_T a -> onLine a b t x p -> p_cop p = quadAt (pp_cop a) x /\ p_in p = quadAt (pp_in a) x /\ p_out p = quadAt (pp_cop a) x * quadAt (pp_in a) x.
Proof.
  intros HL -> (A & B & C). replace ((pp_T a - pp_T a) / (pp_T b - pp_T a)) with 0 in * by (field; lra).
  assert (EA : p_cop p = quadAt (pp_cop a) x) by (rewrite A; ring). assert (EB : p_in p = quadAt (pp_in a) x) by (rewrite B; ring).
  rewrite C, EA, EB. auto.
Qed.
Lemma line_at_b a b t x p : pp_T a < pp_T b -> t = pp_T b -> onLine a b t x p -> p_cop p = quadAt (pp_cop b) x /\ p_in p = quadAt (pp_in b) x /\ p_out p = quadAt (pp_cop b) x * quadAt (pp_in b) x.
Proof.
  intros HL -> (A & B & C). replace ((pp_T b - pp_T a) / (pp_T b - pp_T a)) with 1 in * by (field; lra).
  assert (EA : p_cop p = quadAt (pp_cop b) x) by (rewrite A; ring). assert (EB : p_in p = quadAt (pp_in b) x) by (rewrite B; ring).
  rewrite C, EA, EB. auto.
Qed.
Lemma at_a_line a b t x p : pp_T a < pp_T b -> t = pp_T a -> p_cop p = quadAt (pp_cop a) x /\ p_in p = quadAt (pp_in a) x /\ p_out p = quadAt (pp_cop a) x * quadAt (pp_in a) x -> onLine a b t x p.
Proof.
  intros HL -> (A & B & C). unfold onLine. replace ((pp_T a - pp_T a) / (pp_T b - pp_T a)) with 0 by (field; lra). rewrite C, A, B. split; [|split]; ring.
Qed.
Lemma at_b_line a b t x p : pp_T a < pp_T b -> t = pp_T b -> p_cop p = quadAt (pp_cop b) x /\ p_in p = quadAt (pp_in b) x /\ p_out p = quadAt (pp_cop b) x * quadAt (pp_in b) x -> onLine a b t x p.
Proof.
  intros HL -> (A & B & C). unfold onLine. replace ((pp_T b - pp_T a) / (pp_T b - pp_T a)) with 1 by (field; lra). rewrite C, A, B. split; [|split]; ring.
Qed.

Lemma C62_interpolates_fact : forall (s : list (polyPt R)) ext src k a b, goodSet s ->
  nth_error s k = Some a -> nth_error s (S k) = Some b ->
  (k = 0%nat \/ pp_T a <= fahrenheit ext) -> (S (S k) = length s \/ fahrenheit ext <= pp_T b) ->
  exists p, polyEval s ext src = Ok p /\ onLine a b (fahrenheit ext) (fahrenheit src) p.
Proof.
  intros s ext src k a b G HA HB H1 H2. destruct (polyEval_pair s ext src G) as (m & a' & b' & p & MA & MB & E & HL & M1 & M2).
  exists p. split; auto. pose proof (gs_asc s G) as HS. set (t := fahrenheit ext) in *. set (x := fahrenheit src) in *. clearbody t x.
  assert (LK : (S k < length s)%nat) by (apply nth_error_Some; congruence). assert (LM : (S m < length s)%nat) by (apply nth_error_Some; congruence).
  destruct (Nat.lt_trichotomy m k) as [C|[C|C]].
  - destruct M2 as [M2|M2]; [lia|]. assert (pp_T b' <= pp_T a). { destruct (Nat.eq_dec (S m) k) as [<-|N0]; [assert (a = b') by congruence; subst; lra|]. apply Rlt_le. eapply (sorted_lt s HS (S m) k); eauto. lia. }
    destruct H1 as [H1|H1]; [lia|]. lra.
  - subst m. assert (a' = a) by congruence. assert (b' = b) by congruence. subst. auto.
  - destruct M1 as [M1|M1]; [lia|]. destruct H2 as [H2|H2]; [lia|].
    assert (HLab : pp_T a < pp_T b) by (eapply (sorted_lt s HS k (S k)); eauto). assert (HLm : pp_T a' < pp_T b') by (eapply (sorted_lt s HS m (S m)); eauto).
    destruct (Nat.eq_dec (S k) m) as [<-|N0].
    + assert (a' = b) by congruence. subst a'. assert (t = pp_T b) by lra. eapply at_b_line; eauto. eapply line_at_a; eauto.
    + assert (pp_T b < pp_T a'). { eapply (sorted_lt s HS (S k) m); eauto. lia. } lra.
Qed.

Lemma C62_at_points_fact : forall (s : list (polyPt R)) ext src k a, goodSet s ->
  nth_error s k = Some a -> fahrenheit ext = pp_T a ->
  exists p, polyEval s ext src = Ok p /\ p_cop p = quadAt (pp_cop a) (fahrenheit src) /\ p_in p = quadAt (pp_in a) (fahrenheit src) /\
    p_out p = quadAt (pp_cop a) (fahrenheit src) * quadAt (pp_in a) (fahrenheit src).
Proof.
  intros s ext src k a G HA HT. pose proof (gs_two s G) as H2. pose proof (gs_asc s G) as HS. assert (LK : (k < length s)%nat) by (apply nth_error_Some; congruence).
  destruct (nth_error s (S k)) as [b|] eqn:EB.
  - assert (HL : pp_T a < pp_T b) by (eapply (sorted_lt s HS k (S k)); eauto).
    destruct (C62_interpolates_fact s ext src k a b G HA EB) as (p & E & L); [right; lra|right; lra|]. exists p. split; auto. eapply line_at_a; eauto.
  - apply nth_error_None in EB. destruct k as [|k]; [lia|]. destruct (nth_error s k) as [c|] eqn:EC; [|apply nth_error_None in EC; lia].
    assert (HL : pp_T c < pp_T a) by (eapply (sorted_lt s HS k (S k)); eauto).
    destruct (C62_interpolates_fact s ext src k c a G EC HA) as (p & E & L); [right; lra|right; lra|]. exists p. split; auto. eapply line_at_b; eauto.
Qed.

Lemma C62_output_fact : (forall (s : list (polyPt R)) ext src, goodSet s -> exists p, polyEval s ext src = Ok p) /\
  (forall (s : list (polyPt R)) ext src p, polyEval s ext src = Ok p -> p_out p = p_cop p * p_in p) /\
  (forall (q : polyPt R) hot sp ext src p, polySP q hot sp ext src = Ok p -> p_out p = p_cop p * p_in p) /\
  (forall (q : polyPt R) ext src p, polyMP q ext src = Ok p -> p_out p = p_cop p * p_in p).
Proof.
  assert (OI : forall A B (m : outc A) (f : A -> outc B) y, obind m f = Ok y -> exists x, m = Ok x /\ f x = Ok y) by (intros A B m f y; destruct m; cbn; try discriminate; eauto).
  split; [|split; [|split]].
  - intros s ext src G. destruct (polyEval_pair s ext src G) as (k & a & b & p & _ & _ & E & _). eauto.
  - intros s ext src p. unfold polyEval. cbv zeta. destruct (evalLoop s (length s) (C_TO_F ext) 0) as [ip inx]. intros E.
    repeat (apply OI in E; destruct E as (? & _ & E)). destruct (ndivok _); [|discriminate]. inversion E; subst; cbn [p_out p_cop p_in]. reflexivity.
  - intros q hot sp ext src p. unfold polySP. cbv zeta. intros E. repeat (apply OI in E; destruct E as (? & _ & E)). inversion E; subst; cbn [p_out p_cop p_in]. reflexivity.
  - intros q ext src p. unfold polyMP. cbv zeta. intros E. repeat (apply OI in E; destruct E as (? & _ & E)). inversion E; subst; cbn [p_out p_cop p_in]. reflexivity.
Qed.

Lemma C62_single_rejected_fact : forall (a : polyPt R) ext src, (3 <= length (pp_in a))%nat -> (3 <= length (pp_cop a))%nat ->
  polyEval [a] ext src = Err "std::out_of_range" /\ polyEval (@nil (polyPt R)) ext src = Err "std::out_of_range".
Proof.
  intros a ext src HI HC. split; [|reflexivity]. unfold polyEval. cbv zeta. cbn [evalLoop length Nat.sub Nat.eqb].
  destruct (nltb (C_TO_F ext) (pp_T a)); cbn [atPoint nth_error obind]; auto. rewrite quad_ok by auto. reflexivity.
Qed.
Lemma ambLoop_spec t : forall (s : list (polyPt R)) i0 i1 a b, ambLoop s t i0 i1 = (a, b) ->
  (a = i0 /\ b = i1 /\ (s = [] \/ exists p, nth_error s 0 = Some p /\ t < pp_T p)) \/
  (exists j p, a = (i1 + j)%nat /\ b = S a /\ nth_error s j = Some p /\ pp_T p <= t /\ (S j = length s \/ exists q, nth_error s (S j) = Some q /\ t < pp_T q)) \/
  (exists p, nth_error s 0 = Some p /\ pp_T p <= t /\ a = i1 /\ b = S i1 /\ (length s = 1%nat \/ exists q, nth_error s 1 = Some q /\ t < pp_T q)).
Proof.
  induction s as [|p s IH]; intros i0 i1 a b; cbn [ambLoop]; num_simpl.
  - intros E; inversion E; subst. left. auto.
  - destruct (Rltb t (pp_T p)) eqn:E; bcase; intros EQ.
    + inversion EQ; subst. left. split; auto. split; auto. right. exists p. auto.
    + right. destruct (IH _ _ _ _ EQ) as [(-> & -> & H1)|[(j & q & -> & -> & N1 & N2 & N3)|(q & N1 & N2 & -> & -> & N3)]].
      * right. exists p. split; auto. split; auto. split; auto. split; auto. destruct H1 as [->|(q & H1 & H2)]; [left; auto|]. right. exists q. auto.
      * left. exists (S j), q. split; [lia|]. split; [auto|]. split; auto. split; auto. destruct N3 as [N3|N3]; [left; cbn; lia|right; auto].
      * left. exists 1%nat, q. split; [lia|]. split; [auto|]. split; auto. split; auto. destruct N3 as [N3|N3]; [left; cbn; lia|right; auto].
Qed.

Lemma C62_nearest_fact : forall (s : list (polyPt R)) amb, s <> [] -> StronglySorted (fun a b => pp_T a < pp_T b) s ->
  exists a, nth_error s (getAmbientT_index s amb) = Some a /\
    forall b, In b s -> Rabs (pp_T a - fahrenheit amb) <= Rabs (pp_T b - fahrenheit amb) /\
      (Rabs (pp_T a - fahrenheit amb) = Rabs (pp_T b - fahrenheit amb) -> pp_T b <= pp_T a).
Proof.
  intros s amb HN HS. unfold getAmbientT_index. assert (HT : C_TO_F amb = fahrenheit amb) by (unfold C_TO_F, FperC, offsetF, fahrenheit; num_simpl; lra). rewrite HT.
  set (t := fahrenheit amb). clearbody t. destruct (ambLoop s t 0 0) as [i0 i1] eqn:EL.
  assert (CASE : (i0 = 0%nat /\ i1 = 0%nat /\ exists p, nth_error s 0 = Some p /\ t < pp_T p) \/
     (exists p, i1 = S i0 /\ nth_error s i0 = Some p /\ pp_T p <= t /\ (S i0 = length s \/ exists q, nth_error s (S i0) = Some q /\ t < pp_T q))).
  { destruct (ambLoop_spec _ _ _ _ _ _ EL) as [(-> & -> & [H1|H1])|[(j & q & -> & -> & N1 & N2 & N3)|(q & N1 & N2 & -> & -> & N3)]]; [contradiction|left; auto| |].
    - right. exists q. split; [lia|]. auto.
    - right. exists q. split; [lia|]. split; auto. split; auto. destruct N3 as [N3|N3]; auto. }
  clear EL. destruct CASE as [(-> & -> & p & P1 & P2)|(p & -> & P1 & P2 & P3)].
  - replace (if nltb _ _ then 0%nat else 0%nat) with 0%nat by (destruct (nltb _ _); auto). exists p. split; auto. intros b HB.
    assert (pp_T p <= pp_T b). { apply In_nth_error in HB. destruct HB as (j & HB). destruct j; [assert (b = p) by congruence; subst; lra|]. apply Rlt_le. eapply (sorted_lt s HS 0 (S j)); eauto. lia. }
    rewrite !Rabs_right by lra. split; lra.
  - assert (BELOW : forall b j, nth_error s j = Some b -> (j <= i0)%nat -> pp_T b <= pp_T p). { intros b j HB HJ. destruct (Nat.eq_dec j i0) as [->|N0]; [assert (b = p) by congruence; subst; lra|]. apply Rlt_le. eapply (sorted_lt s HS j i0); eauto. lia. }
    destruct P3 as [P3|(q & Q1 & Q2)].
    + rewrite P3, Nat.ltb_irrefl, andb_false_r. num_simpl. rewrite (proj2 (Rltb_true _ _)) by (unfold dec; num_simpl; lra). exists p. split; auto. intros b HB. apply In_nth_error in HB. destruct HB as (j & HB).
      assert (j < length s)%nat by (apply nth_error_Some; congruence). assert (pp_T b <= pp_T p) by (eapply BELOW; eauto; lia).
      rewrite !Rabs_left1 by lra. split; lra.
    + assert (S i0 < length s)%nat by (apply nth_error_Some; congruence). rewrite (proj2 (Nat.ltb_lt i0 (S i0))) by lia. rewrite (proj2 (Nat.ltb_lt (S i0) (length s))) by lia. cbn [andb]. rewrite P1, Q1.
      assert (HL : pp_T p < pp_T q) by lra.
      assert (ABOVE : forall b j, nth_error s j = Some b -> (i0 < j)%nat -> pp_T q <= pp_T b). { intros b j HB HJ. destruct (Nat.eq_dec j (S i0)) as [->|N0]; [assert (b = q) by congruence; subst; lra|]. apply Rlt_le. eapply (sorted_lt s HS (S i0) j); eauto. lia. }
      set (r := ndiv (nsub t (pp_T p)) (nsub (pp_T q) (pp_T p))). assert (HR : r * (pp_T q - pp_T p) = t - pp_T p) by (unfold r; num_simpl; field; lra). clearbody r.
      num_simpl. destruct (Rltb r _) eqn:ER; bcase; unfold dec in *; num_simpl; [exists p|exists q]; (split; [auto|]); intros b HB; apply In_nth_error in HB; destruct HB as (j & HB);
        (destruct (le_lt_dec j i0) as [HJ|HJ]; [pose proof (BELOW b j HB HJ)|pose proof (ABOVE b j HB HJ)]).
      * rewrite !Rabs_left1 by lra. split; lra.
      * rewrite (Rabs_left1 (pp_T p - t)) by lra. rewrite (Rabs_right (pp_T b - t)) by lra. split; nra.
      * rewrite (Rabs_right (pp_T q - t)) by lra. rewrite (Rabs_left1 (pp_T b - t)) by lra. split; nra.
      * rewrite !Rabs_right by lra. split; lra.
Qed.

Definition exSet : list (polyPt R) := [mkpoly 47 [100; 1; 0] [5; 0; 0]; mkpoly 67 [200; 1; 0] [7; 0; 0]; mkpoly 95 [300; 0; 1] [8; 1; 0]].
Lemma C62_example_fact : goodSet exSet /\ (exists p, polyEval exSet (125 / 9) 0 = Ok p /\ p_cop p = 6 /\ p_in p = 182) /\ getAmbientT_index exSet (125 / 9) = 1%nat.
Proof.
  assert (G : goodSet exSet). { constructor; [cbn; lia| | |]; unfold exSet.
    - repeat (constructor; cbn [pp_T]; try lra).
    - repeat (constructor; cbn; try lia).
    - repeat (constructor; cbn; try lia). }
  split; auto. split.
  - destruct (C62_interpolates_fact exSet (125 / 9) 0 0 _ _ G eq_refl eq_refl) as (p & E & A & B & _); [auto|right; cbn; unfold fahrenheit; lra|].
    exists p. split; auto. split; [rewrite A|rewrite B]; unfold fahrenheit, quadAt; cbn [pp_T pp_in pp_cop nth]; lra.
  - assert (HT : C_TO_F (125 / 9) = 57) by (unfold C_TO_F, FperC, offsetF; num_simpl; lra). unfold getAmbientT_index. rewrite HT. unfold exSet. cbn [ambLoop pp_T]. num_simpl.
    rewrite (proj2 (Rltb_false 57 47)) by lra. rewrite (proj2 (Rltb_true 57 67)) by lra. cbn [Nat.ltb Nat.leb length andb nth_error pp_T]. unfold dec. num_simpl.
    rewrite (proj2 (Rltb_false _ _)); [auto|]. lra.
Qed.

(** ** C63 *)
(** the factor by which a COP is derated *)
Definition derateBy (m : list (R * R)) (air f : R) : Prop := forall cop, defrostDerate m cop air = Ok (cop * f).
Lemma defrostPrev_spec air : forall (m : list (R * R)) i, (exists p, In p m /\ air <= fst p) -> (1 <= i)%nat ->
  exists j p, defrostPrev m i air = (i + j - 1)%nat /\ nth_error m j = Some p /\ air <= fst p /\ (forall l q, (l < j)%nat -> nth_error m l = Some q -> fst q < air).
Proof.
  induction m as [|[t f] m IH]; intros i (p & HP & HL) HI; [destruct HP|]. cbn [defrostPrev]. num_simpl. destruct (Rleb air t) eqn:E; bcase.
  - exists 0%nat, (t, f). split; [lia|]. split; auto. split; auto. intros l q; lia.
  - destruct (IH (S i)) as (j & q & E1 & E2 & E3 & E4); [|lia|].
    + destruct HP as [<-|HP]; [cbn in *; lra|]. eauto.
    + exists (S j), q. split; [lia|]. split; auto. split; auto. intros [|l] r HLt HR; [inversion HR; subst; cbn; lra|]. eapply E4; eauto. lia.
Qed.
Lemma asc_lt (s : list (R * R)) : StronglySorted (fun a b => fst a < fst b) s -> forall i j a b, (i < j)%nat -> nth_error s i = Some a -> nth_error s j = Some b -> fst a < fst b.
Proof.
  induction 1 as [|x s HS IH HF]; intros i j a b HL HA HB; [destruct i; discriminate|]. destruct j; [lia|]. cbn in HB. destruct i; cbn in HA.
  - inversion HA; subst. rewrite Forall_forall in HF. apply HF. eapply nth_error_In; eauto.
  - eapply (IH i j); eauto. lia.
Qed.
Lemma last_nth {A} (l : list A) d : l <> [] -> nth_error l (length l - 1) = Some (last l d).
Proof. induction l as [|x l IH]; [congruence|]. intros _. destruct l as [|y l]; auto. cbn [length Nat.sub]. replace (S (length l) ) with (S (length (y :: l) - 1)) by (cbn; lia). cbn [nth_error]. rewrite IH by discriminate. reflexivity. Qed.

Lemma C63_outside_fact : forall (m : list (R * R)) p air, nth_error m 0 = Some p -> (air <= fst p \/ fst (last m (0, 0)) <= air) -> derateBy m air 1.
Proof.
  intros m p air HM HO cop. destruct m as [|[t f] m]; inversion HM; subst. unfold defrostDerate. num_simpl. rewrite Rmult_1_r.
  rewrite (proj2 (orb_true_iff _ _)); auto. destruct HO; [left|right]; apply Rleb_true; auto.
Qed.

Lemma C63_interpolates_fact : forall (m : list (R * R)) k x0 y0 x1 y1 air, StronglySorted (fun a b => fst a < fst b) m ->
  nth_error m k = Some (x0, y0) -> nth_error m (S k) = Some (x1, y1) -> x0 <= air <= x1 ->
  (exists p, nth_error m 0 = Some p /\ fst p < air) -> air < fst (last m (0, 0)) ->
  derateBy m air (y0 + (air - x0) / (x1 - x0) * (y1 - y0)).
Proof.
  intros m k x0 y0 x1 y1 air HS HA HB HI (p & P1 & P2) HLast cop. destruct m as [|[t f] m]; [discriminate|]. cbn in P1; inversion P1; subst p. cbn in P2.
  cbn [defrostDerate]. set (M := (t, f) :: m) in *. num_simpl. rewrite (proj2 (Rleb_false air t)) by lra. rewrite (proj2 (Rleb_false (fst (last M (0, 0))) air)) by lra. cbn [orb].
  assert (HM : M <> []) by discriminate. pose proof (last_nth M (0, 0) HM) as HLN. pose proof (nth_error_In _ _ HLN) as HLI.
  assert (HEX : exists q, In q m /\ air <= fst q). { exists (last M (0, 0)). destruct HLI as [E|HLI]; [rewrite <- E in HLast; cbn [fst] in HLast; lra|]. split; auto; lra. }
  destruct (defrostPrev_spec air m 1 HEX) as (j & q & -> & N1 & N2 & N3); [lia|]. replace (1 + j - 1)%nat with j by lia.
  change (nth_error m j) with (nth_error M (S j)) in N1. assert (exists r, nth_error M j = Some r) as (r & HR).
  { destruct (nth_error M j) eqn:EJ; eauto. apply nth_error_None in EJ. assert (S j < length M)%nat by (apply nth_error_Some; congruence). lia. }
  rewrite HR, N1. destruct r as [xa ya], q as [xb yb]. cbn [fst] in *.
  assert (XA : xa < air). { destruct j; [inversion HR; subst; auto|]. apply (N3 j (xa, ya)); auto. }
  assert (HXL : x0 < x1) by (change (fst (x0, y0) < fst (x1, y1)); eapply (asc_lt M HS k (S k)); eauto).
  f_equal. f_equal. unfold linearInterp. num_simpl.
  destruct (Nat.lt_trichotomy j k) as [C|[C|C]].
  - (* the entry k is at most air, the entry S j at least *)
    assert (xb <= x0). { destruct (Nat.eq_dec (S j) k) as [<-|N0]; [assert (E : (xb, yb) = (x0, y0)) by congruence; inversion E; lra|]. change (fst (xb, yb) <= fst (x0, y0)). apply Rlt_le. eapply (asc_lt M HS (S j) k); eauto. lia. }
    destruct (Nat.eq_dec (S j) k) as [<-|N0].
    + assert (E : (xb, yb) = (x0, y0)) by congruence. inversion E; subst. assert (air = x0) by lra. subst air. field. split; lra.
    + assert (xb < x0); [|lra]. change (fst (xb, yb) < fst (x0, y0)). eapply (asc_lt M HS (S j) k); eauto. lia.
  - subst j. assert (E : (xa, ya) = (x0, y0)) by congruence. assert (E' : (xb, yb) = (x1, y1)) by congruence. inversion E; inversion E'; subst. field. lra.
  - assert (x1 <= xa); [|lra]. destruct (Nat.eq_dec (S k) j) as [<-|N0]; [assert (E : (xa, ya) = (x1, y1)) by congruence; inversion E; lra|]. change (fst (x1, y1) <= fst (xa, ya)). apply Rlt_le. eapply (asc_lt M HS (S k) j); eauto. lia.
Qed.

Lemma C63_range_fact : forall (m : list (R * R)) air lo hi, m <> [] -> StronglySorted (fun a b => fst a < fst b) m ->
  lo <= 1 <= hi -> Forall (fun p => lo <= snd p <= hi) m -> exists f, derateBy m air f /\ lo <= f <= hi.
Proof.
  intros m air lo hi HN HS H1 HF. destruct m as [|[t f] m]; [congruence|]. set (M := (t, f) :: m) in *.
  destruct (Rle_lt_dec air t) as [C|C]. { exists 1. split; auto. apply (C63_outside_fact M (t, f)); auto. }
  destruct (Rle_lt_dec (fst (last M (0, 0))) air) as [C'|C']. { exists 1. split; auto. apply (C63_outside_fact M (t, f)); auto. }
  assert (HEX : exists q, In q m /\ air <= fst q). { pose proof (nth_error_In _ _ (last_nth M (0, 0) HN)) as [E|HI]; [rewrite <- E in C'; cbn in C'; lra|]. exists (last M (0, 0)). split; auto. lra. }
  destruct (defrostPrev_spec air m 1 HEX) as (j & [x1 y1] & _ & N1 & N2 & N3); [lia|]. change (nth_error m j) with (nth_error M (S j)) in N1.
  destruct (nth_error M j) as [[x0 y0]|] eqn:HR; [|apply nth_error_None in HR; assert (S j < length M)%nat by (apply nth_error_Some; congruence); lia].
  assert (XA : x0 < air). { destruct j; [inversion HR; subst; auto|]. apply (N3 j (x0, y0)); auto. } cbn [fst] in *.
  exists (y0 + (air - x0) / (x1 - x0) * (y1 - y0)). split.
  - eapply C63_interpolates_fact; eauto; [lra|]. exists (t, f). auto.
  - rewrite Forall_forall in HF. pose proof (HF _ (nth_error_In _ _ HR)) as B0. pose proof (HF _ (nth_error_In _ _ N1)) as B1. cbn [snd] in *.
    set (u := (air - x0) / (x1 - x0)). assert (HU : u * (x1 - x0) = air - x0) by (unfold u; field; lra). clearbody u. assert (0 <= u <= 1) by (split; nra). split; nra.
Qed.

Lemma C63_standard_fact : forall d air (h : hsrc R), h_defrost h = [] -> exists f, derateBy (h_defrost (setupDefrostMap d h)) air f /\ Rmin d 1 <= f <= Rmax d 1 /\
  (air <= 17 \/ 47 <= air -> f = 1) /\ (air = 35 -> f = d) /\
  (17 <= air <= 35 -> f = 1 - (1 - d) * (air - 17) / 18) /\ (35 <= air <= 47 -> f = 1 - (1 - d) * (47 - air) / 12).
Proof.
  intros d air h HE. unfold setupDefrostMap. wsimpl. rewrite HE. cbn [app]. num_simpl. set (M := [(17, 1); (35, d); (47, 1)]).
  assert (HS : StronglySorted (fun a b : R * R => fst a < fst b) M) by (unfold M; repeat (constructor; cbn [fst]; try lra)).
  pose proof (Rmin_l d 1). pose proof (Rmin_r d 1). pose proof (Rmax_l d 1). pose proof (Rmax_r d 1).
  destruct (Rle_lt_dec air 17) as [A|A]. { exists 1. split; [apply (C63_outside_fact M (17, 1)); auto|]. split; [lra|]. split; auto. split; [lra|]. split; intros; [|lra]. assert (air = 17) by lra. subst. lra. }
  destruct (Rle_lt_dec 47 air) as [B|B]. { exists 1. split; [apply (C63_outside_fact M (17, 1)); auto; right; unfold M; cbn [last fst]; auto|]. split; [lra|]. split; auto. split; [lra|]. split; intros; [lra|]. assert (air = 47) by lra. subst. lra. }
  destruct (Rle_lt_dec air 35) as [C|C].
  - exists (1 - (1 - d) * (air - 17) / 18). split.
    + replace (1 - (1 - d) * (air - 17) / 18) with (1 + (air - 17) / (35 - 17) * (d - 1)) by field. apply (C63_interpolates_fact M 0 17 1 35 d); [auto|reflexivity|reflexivity|lra|exists (17, 1); split; [reflexivity|cbn [fst]; lra]|try unfold M; cbn [last fst]; lra].
    + split; [split; [assert (Rmin d 1 <= 1 - (1 - d) * ((air - 17) / 18)); [|lra]; set (u := (air - 17) / 18); assert (0 <= u <= 1) by (unfold u; lra); clearbody u; destruct (Rle_lt_dec d 1); [rewrite Rmin_left by lra|rewrite Rmin_right by lra]; nra
             |assert (1 - (1 - d) * ((air - 17) / 18) <= Rmax d 1); [|lra]; set (u := (air - 17) / 18); assert (0 <= u <= 1) by (unfold u; lra); clearbody u; destruct (Rle_lt_dec d 1); [rewrite Rmax_right by lra|rewrite Rmax_left by lra]; nra]|].
      split; [lra|]. split; [intros ->; lra|]. split; [auto|]. intros. assert (air = 35) by lra. subst. lra.
  - exists (1 - (1 - d) * (47 - air) / 12). split.
    + replace (1 - (1 - d) * (47 - air) / 12) with (d + (air - 35) / (47 - 35) * (1 - d)) by field. apply (C63_interpolates_fact M 1 35 d 47 1); [auto|reflexivity|reflexivity|lra|exists (17, 1); split; [reflexivity|cbn [fst]; lra]|try unfold M; cbn [last fst]; lra].
    + split; [split; [assert (Rmin d 1 <= 1 - (1 - d) * ((47 - air) / 12)); [|lra]; set (u := (47 - air) / 12); assert (0 <= u <= 1) by (unfold u; lra); clearbody u; destruct (Rle_lt_dec d 1); [rewrite Rmin_left by lra|rewrite Rmin_right by lra]; nra
             |assert (1 - (1 - d) * ((47 - air) / 12) <= Rmax d 1); [|lra]; set (u := (47 - air) / 12); assert (0 <= u <= 1) by (unfold u; lra); clearbody u; destruct (Rle_lt_dec d 1); [rewrite Rmax_right by lra|rewrite Rmax_left by lra]; nra]|].
      split; [lra|]. split; [lra|]. split; [lra|auto].
Qed.

Lemma C63_performance_fact : forall (w : hpwh R) (h : hsrc R) ext cond air f p,
  air = (if (Rltb 0 (h_rdPwr h) && Rltb ext ((h_rdBelow h - 32) * 5 / 9))%bool then ext + h_rdLift h * 5 / 9 else ext) ->
  derateBy (h_defrost h) (fahrenheit air) f ->
  getPerformance w (set_h_doDefrost false h) ext cond = Ok p ->
  exists q, getPerformance w (set_h_doDefrost true h) ext cond = Ok q /\ p_cop q = f * p_cop p /\ p_out q = f * p_out p /\ p_in q = p_in p.
Proof.
  intros w h ext cond air f p HA HD. unfold getPerformance. cbv zeta. wsimpl. cbn [obind].
  assert (EB : F_TO_C (h_rdBelow h) = (h_rdBelow h - 32) * 5 / 9) by (unfold F_TO_C, FperC, offsetF; num_simpl; field).
  assert (EL : dF_TO_dC (h_rdLift h) = h_rdLift h * 5 / 9) by (unfold dF_TO_dC, FperC; num_simpl; field). rewrite EB, EL.
  set (on := (nltb (nofZ 0) (h_rdPwr h) && nltb ext ((h_rdBelow h - 32) * 5 / 9))%bool) in *.
  set (e := if on then nadd ext (h_rdLift h * 5 / 9) else ext). assert (EE : e = air) by (rewrite HA; unfold e, on; num_simpl; reflexivity).
  assert (EF : C_TO_F e = fahrenheit air) by (rewrite EE; unfold C_TO_F, FperC, offsetF, fahrenheit; num_simpl; lra). rewrite EF, HD. cbn [obind].
  intros E; inversion E; subst p; clear E. eexists. split; [reflexivity|]. cbn [p_cop p_out p_in]. clearbody e on. num_simpl. unfold dec. num_simpl. destruct (nneqb (h_airflow h) 1); (split; [ring|split; [ring|destruct on; unfold KW_TO_W; num_simpl; reflexivity]]).
Qed.
Lemma C63_second_setup_ignored_fact : forall d d' cop air (h : hsrc R), h_defrost h = [] ->
  defrostDerate (h_defrost (setupDefrostMap d' (setupDefrostMap d h))) cop air = defrostDerate (h_defrost (setupDefrostMap d h)) cop air.
Proof.
  intros d d' cop air h HE. unfold setupDefrostMap. wsimpl. rewrite HE. cbn [app]. unfold defrostDerate. cbn [last fst]. num_simpl.
  destruct (Rleb air 17) eqn:E1; cbn [orb]; auto. destruct (Rleb 47 air) eqn:E2; auto. bcase. cbn [defrostPrev]. num_simpl. destruct (Rleb air 35) eqn:E3; cbn [nth_error Nat.sub]; auto.
  rewrite (proj2 (Rleb_true air 47)) by lra. reflexivity.
Qed.
Definition exSrc63 : hsrc R := exHS (T:=R) TCompressor false None [(1, 1)] [] [] 0.
Lemma C63_last_setup_wins_refuted_fact : exists (h : hsrc R) d d', h_defrost h = [] /\
  ~ derateBy (h_defrost (setupDefrostMap d' (setupDefrostMap d h))) 35 d'.
Proof.
  exists (set_h_defrost [] exSrc63), (1 / 2), (3 / 4). split; [wsimpl; auto|]. intros HD. specialize (HD 1).
  rewrite C63_second_setup_ignored_fact in HD by (wsimpl; auto).
  destruct (C63_standard_fact (1 / 2) 35 (set_h_defrost [] exSrc63)) as (f & HF & _ & _ & HF' & _); [wsimpl; auto|]. rewrite HF in HD. specialize (HF' eq_refl). inversion HD. lra.
Qed.
Lemma C63_example_fact : derateBy [(17, 1); (35, 8865 / 10000); (47, 1)] 41 (94325 / 100000).
Proof.
  replace (94325 / 100000) with (8865 / 10000 + (41 - 35) / (47 - 35) * (1 - 8865 / 10000)) by lra.
  apply (C63_interpolates_fact _ 1 35 (8865 / 10000) 47 1); [repeat (constructor; cbn [fst]; try lra)|reflexivity|reflexivity|lra|exists (17, 1); split; [reflexivity|cbn [fst]; lra]|try unfold M; cbn [last fst]; lra].
Qed.
