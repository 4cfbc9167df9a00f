(** Weighted distributions, normalisation and the thermal distribution at the reals. *)

From Coq Require Import ZArith List Bool Reals Lra Lia.
From Verif Require Import Num Base Units Utils Types TankM Logic HeatSrc Spec SpecDist RList.
Import ListNotations.
Local Open Scope R_scope.

Ltac mm := unfold Rmin, Rmax in *; repeat match goal with
  | |- context [Rle_dec ?a ?b] => destruct (Rle_dec a b)
  | H : context [Rle_dec ?a ?b] |- _ => destruct (Rle_dec a b) end.

(** ** Overlaps *)
Lemma overlap_nonneg lo hi a b : 0 <= overlap lo hi a b.
Proof. unfold overlap. mm; lra. Qed.
Lemma overlap_add lo hi a b c : lo <= hi -> a <= b -> b <= c -> overlap lo hi a c = overlap lo hi a b + overlap lo hi b c.
Proof. intros. unfold overlap. mm; lra. Qed.
Lemma overlap_full lo hi a b : a <= lo -> lo <= hi -> hi <= b -> overlap lo hi a b = hi - lo.
Proof. intros. unfold overlap. mm; lra. Qed.
Lemma overlap_sym lo hi a b : overlap lo hi a b = overlap a b lo hi.
Proof. unfold overlap. mm; lra. Qed.
Lemma overlap_out_hi lo hi a b : hi <= a -> overlap lo hi a b = 0.
Proof. intros. unfold overlap. mm; lra. Qed.
Lemma overlap_out_lo lo hi a b : b <= lo -> overlap lo hi a b = 0.
Proof. intros. unfold overlap. mm; lra. Qed.

Lemma ascending_top prev w h0 wt0 : ascending prev ((h0, wt0) :: w) -> prev < fst (last ((h0, wt0) :: w) (0, 0)) /\
  h0 <= fst (last ((h0, wt0) :: w) (0, 0)).
Proof.
  revert prev h0 wt0. induction w as [|[h wt] w IH]; intros prev h0 wt0 [H1 H2]; [cbn; lra|].
  change (last ((h0, wt0) :: (h, wt) :: w) (0, 0)) with (last ((h, wt) :: w) (0, 0)).
  destruct (IH _ _ _ H2). lra.
Qed.
Lemma topHeight_pos w : ascending 0 w -> w <> [] -> 0 < topHeight w.
Proof. destruct w as [|[h wt] w]; [congruence|]. intros H _. apply ascending_top in H. apply H. Qed.

Lemma massOver_nonneg H w a b : Forall (fun p => 0 <= snd p) w -> forall prev, 0 <= massOver H prev w a b.
Proof.
  induction 1 as [|[h wt] w Hw HF IH]; intros prev; cbn; [lra|]. specialize (IH h). cbn in Hw.
  pose proof (overlap_nonneg (prev / H) (h / H) a b). nra.
Qed.
Lemma massOver_add H w a b c : 0 < H -> a <= b <= c -> forall prev, ascending prev w ->
  massOver H prev w a c = massOver H prev w a b + massOver H prev w b c.
Proof.
  intros HH Hab. induction w as [|[h wt] w IH]; intros prev HA; cbn; [lra|]. destruct HA as [H1 H2].
  rewrite (IH h H2), (overlap_add (prev / H) (h / H) a b c); try lra.
  apply Rmult_le_compat_r; [left; apply Rinv_0_lt_compat; lra|lra].
Qed.
Lemma massOver_above H w a b : 0 < H -> forall prev, ascending prev w -> b <= prev / H -> massOver H prev w a b = 0.
Proof.
  intros HH. induction w as [|[h wt] w IH]; intros prev HA Hb; cbn; [lra|]. destruct HA as [H1 H2].
  rewrite overlap_out_lo, IH; auto; try lra. apply Rle_trans with (prev / H); auto.
  apply Rmult_le_compat_r; [left; apply Rinv_0_lt_compat; lra|lra].
Qed.
Lemma massOver_empty H w a : 0 < H -> forall prev, ascending prev w -> massOver H prev w a a = 0.
Proof. intros HH prev HA. pose proof (massOver_add H w a a a HH ltac:(lra) prev HA). lra. Qed.

(** ** Normalised weight *)
Lemma div_lt H x y : 0 < H -> x < y -> x / H < y / H.
Proof. intros. apply Rmult_lt_compat_r; auto. apply Rinv_0_lt_compat; auto. Qed.

Lemma normW_loop_eq H a b : 0 < H -> a <= b -> forall w prev res, ascending prev w -> prev / H <= b ->
  wd_normW_loop H a b (Rmax a (prev / H)) res w = res + massOver H prev w a b.
Proof.
  intros HH Hab. induction w as [|[h wt] w IH]; intros prev res HA Hp; cbn [wd_normW_loop massOver]; [lra|].
  destruct HA as [H1 H2]. pose proof (div_lt H _ _ HH H1) as Hlt. num_simpl.
  destruct (Rltb (h / H) a) eqn:E1; bcase.
  - replace (Rmax a (prev / H)) with (Rmax a (h / H)) by (mm; lra). rewrite (IH h); auto; [|lra].
    rewrite overlap_out_hi by lra. lra.
  - destruct (Rltb (Rmax a (prev / H)) (h / H)) eqn:E2; bcase.
    + destruct (Rltb b (h / H)) eqn:E3; bcase.
      * rewrite massOver_above by (auto; lra). replace (overlap (prev / H) (h / H) a b) with (b - Rmax a (prev / H)); [lra|].
        unfold overlap. mm; lra.
      * replace (h / H) with (Rmax a (h / H)) at 1 by (mm; lra). rewrite (IH h); auto.
        replace (overlap (prev / H) (h / H) a b) with (h / H - Rmax a (prev / H)); [lra|]. unfold overlap. mm; lra.
    + replace (h / H) with (Rmax a (h / H)) at 1 by (mm; lra). rewrite (IH h); auto; [|revert E2; mm; lra].
      rewrite overlap_out_hi; [lra|]. revert E2. mm; lra.
Qed.

Lemma totalWeight_fold w : forall prev tot, ascending prev w ->
  fold_left (fun '(total, prevH) '(h, wt) => (nadd total (nmul wt (nsub h prevH)), h)) w (tot, prev) =
  (tot + bsum (fun k => snd (nth k w (0, 0)) * (fst (nth k w (0, 0)) - match k with O => prev | S k' => fst (nth k' w (0, 0)) end)) (length w),
   match w with [] => prev | _ => fst (last w (0, 0)) end).
Proof.
  induction w as [|[h wt] w IH]; intros prev tot HA; cbn [fold_left length]; [cbn; f_equal; lra|].
  destruct HA as [H1 H2]. rewrite IH by auto. num_simpl. f_equal.
  - rewrite bsum_S_l. cbn [nth fst snd]. 
    replace (bsum (fun k => snd (nth k w (0, 0)) * (fst (nth k w (0, 0)) - fst (match k with O => (h, wt) | S m => nth m w (0, 0) end))) (length w))
      with (bsum (fun k => snd (nth k w (0, 0)) * (fst (nth k w (0, 0)) - match k with O => h | S k' => fst (nth k' w (0, 0)) end)) (length w)).
    + lra.
    + apply bsum_ext. intros [|k] _; reflexivity.
  - destruct w; reflexivity.
Qed.

Lemma massOver_full H w : 0 < H -> forall prev, 0 <= prev -> ascending prev w ->
  (forall p, In p w -> fst p <= H) ->
  massOver H prev w 0 1 = bsum (fun k => snd (nth k w (0, 0)) * (fst (nth k w (0, 0)) - match k with O => prev | S k' => fst (nth k' w (0, 0)) end)) (length w) / H.
Proof.
  intros HH. induction w as [|[h wt] w IH]; intros prev Hp HA HL; cbn [massOver length]; [cbn; lra|].
  destruct HA as [H1 H2]. rewrite bsum_S_l. cbn [nth fst snd].
  rewrite (IH h); auto; [|lra|intros; apply HL; right; auto].
  assert (Hh : h <= H) by (apply (HL (h, wt)); left; auto).
  rewrite overlap_full.
  - replace (bsum (fun k => snd (nth k w (0, 0)) * (fst (nth k w (0, 0)) - fst (match k with O => (h, wt) | S m => nth m w (0, 0) end))) (length w))
      with (bsum (fun k => snd (nth k w (0, 0)) * (fst (nth k w (0, 0)) - match k with O => h | S k' => fst (nth k' w (0, 0)) end)) (length w)).
    + field; lra.
    + apply bsum_ext. intros [|k] _; reflexivity.
  - apply Rmult_le_pos; [lra|left; apply Rinv_0_lt_compat; lra].
  - left. apply div_lt; auto.
  - apply Rmult_le_reg_r with H; auto. unfold Rdiv. rewrite Rmult_assoc, Rinv_l by lra. lra.
Qed.

Lemma ascending_le_top w : forall prev, ascending prev w -> forall p, In p w -> fst p <= topHeight w.
Proof.
  induction w as [|[h wt] w IH]; intros prev HA p Hin; [destruct Hin|].
  destruct Hin as [<-|Hin].
  - apply ascending_top in HA. apply HA.
  - destruct HA as [H1 H2]. destruct w as [|q w']; [destruct Hin|]. apply (IH h H2 p Hin).
Qed.

Lemma totalWeight_eq w : ascending 0 w -> w <> [] -> wd_totalWeight w = massOver (topHeight w) 0 w 0 1.
Proof.
  intros HA HN. unfold wd_totalWeight. change (nofZ 0) with 0%R. rewrite totalWeight_fold by auto.
  rewrite massOver_full; auto; try lra.
  - destruct w; [congruence|]. num_simpl. unfold topHeight. rewrite Rplus_0_l. reflexivity.
  - apply topHeight_pos; auto.
  - eapply ascending_le_top; eauto.
Qed.

Lemma normalizedWeight_eq w a b : ascending 0 w -> w <> [] -> 0 <= a <= b -> wd_normalizedWeight w a b = share w a b.
Proof.
  intros HA HN Hab. unfold wd_normalizedWeight, share. rewrite totalWeight_eq by auto.
  change (wd_maxHeight w) with (topHeight w). num_simpl. f_equal.
  pose proof (topHeight_pos w HA HN) as HP.
  assert (E0 : 0 / topHeight w = 0) by (unfold Rdiv; ring).
  replace a with (Rmax a (0 / topHeight w)) at 2 by (rewrite E0; mm; lra).
  rewrite normW_loop_eq; auto; try lra.
Qed.

Lemma massOver_total_pos w : goodDist w -> 0 < massOver (topHeight w) 0 w 0 1.
Proof.
  intros [HN HA HW HS]. pose proof (topHeight_pos w HA HN) as HP.
  assert (HL : forall p, In p w -> fst p <= topHeight w) by (eapply ascending_le_top; eauto).
  revert HP HL. generalize (topHeight w) as H. intros H HP HL. clear HN.
  assert (HG : forall prev, 0 <= prev -> ascending prev w -> 0 < massOver H prev w 0 1); [|apply HG; auto; lra].
  clear HA. induction w as [|[h wt] w IH]; intros prev Hp HA; [inversion HS|].
  inversion HW as [|? ? Hw0 HWr]; subst. destruct HA as [H1' H2']. cbn [massOver]. cbn in Hw0.
  assert (Hh : h <= H) by (apply (HL (h, wt)); left; auto).
  assert (EO : overlap (prev / H) (h / H) 0 1 = h / H - prev / H).
  { apply overlap_full.
    - apply Rmult_le_pos; [lra|left; apply Rinv_0_lt_compat; lra].
    - left; apply div_lt; auto.
    - apply Rmult_le_reg_r with H; auto. unfold Rdiv. rewrite Rmult_assoc, Rinv_l by lra. lra. }
  pose proof (div_lt H _ _ HP H1') as Hd.
  inversion HS as [? ? Hx|? ? Hx]; subst.
  - cbn in Hx. pose proof (massOver_nonneg H w 0 1 HWr h). rewrite EO. nra.
  - assert (0 < massOver H h w 0 1) by (apply IH; auto; [intros; apply HL; right; auto|lra]).
    rewrite EO. nra.
Qed.

Lemma share_nonneg w a b : goodDist w -> 0 <= share w a b.
Proof.
  intros HG. pose proof (massOver_total_pos w HG) as HP. unfold share.
  apply Rmult_le_pos; [apply massOver_nonneg; apply HG|left; apply Rinv_0_lt_compat; auto].
Qed.
Lemma share_add w a b c : goodDist w -> a <= b <= c -> share w a c = share w a b + share w b c.
Proof.
  intros HG Hab. unfold share. rewrite (massOver_add (topHeight w) w a b c); auto; [lra| |apply HG].
  apply topHeight_pos; apply HG.
Qed.
Lemma share_full w : goodDist w -> share w 0 1 = 1.
Proof. intros HG. unfold share. apply Rinv_r. pose proof (massOver_total_pos w HG). lra. Qed.
Lemma share_empty w a : goodDist w -> share w a a = 0.
Proof. intros HG. pose proof (share_add w a a a HG ltac:(lra)). lra. Qed.

(** ** Heat distribution of a source *)
Lemma INR_pos n : (0 < n)%nat -> 0 < INR n.
Proof. intros. apply lt_0_INR; auto. Qed.
Lemma frac_bounds k n : (k <= n)%nat -> (0 < n)%nat -> 0 <= INR k / INR n <= 1.
Proof.
  intros Hk Hn. pose proof (INR_pos n Hn). pose proof (pos_INR k). apply le_INR in Hk.
  split; [apply Rmult_le_pos; [lra|left; apply Rinv_0_lt_compat; lra]|].
  apply Rmult_le_reg_r with (INR n); auto. unfold Rdiv. rewrite Rmult_assoc, Rinv_l; lra.
Qed.
Lemma frac_step k n : (0 < n)%nat -> INR k / INR n <= INR (S k) / INR n.
Proof. intros Hn. pose proof (INR_pos n Hn). apply Rmult_le_compat_r; [left; apply Rinv_0_lt_compat; auto|]. rewrite S_INR. lra. Qed.

Lemma nodeWeights_eq w n : goodDist w -> nodeWeights w n = map (fun i => share w (INR i / INR n) (INR (S i) / INR n)) (seq 0 n).
Proof.
  intros HG. unfold nodeWeights. apply map_ext_in. intros i Hi. apply in_seq in Hi.
  assert (Hn : (0 < n)%nat) by lia.
  pose proof (frac_bounds i n ltac:(lia) Hn). pose proof (frac_step i n Hn).
  num_simpl. rewrite !nofN_R. rewrite <- normalizedWeight_eq; try apply HG; try lra.
  destruct i; [|reflexivity]. f_equal. cbn. unfold Rdiv. ring.
Qed.
Lemma shares_prefix w n : goodDist w -> (0 < n)%nat -> forall k, (k <= n)%nat ->
  Rsum (map (fun i => share w (INR i / INR n) (INR (S i) / INR n)) (seq 0 k)) = share w 0 (INR k / INR n).
Proof.
  intros HG Hn. induction k; intros Hk.
  - cbn. replace (0 / INR n) with 0 by (unfold Rdiv; ring). rewrite share_empty; auto.
  - rewrite seq_S, map_app, Rsum_app, IHk by lia. unfold Rsum at 1. cbn [map fold_right plus Nat.add].
    rewrite (share_add w 0 (INR k / INR n) (INR (S k) / INR n)); auto; [lra|].
    pose proof (frac_bounds k n ltac:(lia) Hn). pose proof (frac_step k n Hn). lra.
Qed.
Lemma nodeWeights_shares w n : goodDist w -> (0 < n)%nat -> shares n (nodeWeights w n).
Proof.
  intros HG Hn. rewrite nodeWeights_eq by auto. split; [|split].
  - rewrite map_length, seq_length. reflexivity.
  - intros x Hx. apply in_map_iff in Hx. destruct Hx as (i & <- & _). apply share_nonneg; auto.
  - rewrite shares_prefix by auto. replace (INR n / INR n) with 1; [apply share_full; auto|].
    field. pose proof (INR_pos n Hn). lra.
Qed.
Lemma calcHeatDist_base_shares w n d : goodDist w -> (0 < n)%nat -> calcHeatDist_base w n = Ok d -> shares n d /\ d = nodeWeights w n.
Proof.
  intros HG Hn. unfold calcHeatDist_base. pose proof (nodeWeights_shares w n HG Hn) as HS.
  rewrite nsum_Rsum. destruct HS as (H1 & H2 & H3). rewrite H3. num_simpl.
  replace (Reqb' 1 0) with false by (symmetry; apply Reqb'_false; lra). cbn. intros E; inversion E; subst.
  assert (EM : map (fun d0 => d0 / 1) (nodeWeights w n) = nodeWeights w n).
  { rewrite <- (map_id (nodeWeights w n)) at 2. apply map_ext. intros; field. }
  rewrite EM. split; [split; auto|reflexivity].
Qed.
Lemma calcHeatDist_base_ok w n : goodDist w -> (0 < n)%nat -> calcHeatDist_base w n = Ok (nodeWeights w n).
Proof.
  intros HG Hn. unfold calcHeatDist_base. pose proof (nodeWeights_shares w n HG Hn) as HS.
  rewrite nsum_Rsum. destruct HS as (H1 & H2 & H3). rewrite H3. num_simpl.
  replace (Reqb' 1 0) with false by (symmetry; apply Reqb'_false; lra). cbn. f_equal.
  rewrite <- (map_id (nodeWeights w n)) at 2. apply map_ext. intros; field.
Qed.

(** ** Normalisation *)
Lemma tol_pos : 0 < (TOL_MINVALUE : R).
Proof. unfold TOL_MINVALUE, dec. num_simpl. lra. Qed.
Lemma tol_val : (TOL_MINVALUE : R) = 1 / 10000.
Proof. reflexivity. Qed.
Definition nz (d : list R) : nat := length (filter (fun x => Rltb 0 x) d).
Definition cut (s x : R) : R := if Rltb (x / s) TOL_MINVALUE then 0 else x / s.
Definition small (s x : R) : bool := (Rltb (x / s) TOL_MINVALUE && Rltb 0 (x / s))%bool.

Lemma pass_eq d : 0 < Rsum d -> normalize_pass d = (map (cut (Rsum d)) d, existsb (small (Rsum d)) d).
Proof. intros HS. unfold normalize_pass. rewrite nsum_Rsum. num_simpl. replace (Rltb 0 (Rsum d)) with true by (symmetry; apply Rltb_true; auto). reflexivity. Qed.
Lemma pass_eq0 d : Rsum d <= 0 -> normalize_pass d = (map (fun _ => 0) d, false).
Proof. intros HS. unfold normalize_pass. rewrite nsum_Rsum. num_simpl. replace (Rltb 0 (Rsum d)) with false by (symmetry; apply Rltb_false; auto). reflexivity. Qed.

Lemma cut_nonneg s x : 0 < s -> 0 <= x -> 0 <= cut s x.
Proof.
  intros. unfold cut. destruct (Rltb _ _); [lra|]. apply Rmult_le_pos; auto. left; apply Rinv_0_lt_compat; auto.
Qed.
Lemma cut_pos_inv s x : 0 < s -> 0 < cut s x -> 0 < x /\ cut s x = x / s.
Proof.
  intros HS. unfold cut. destruct (Rltb _ _) eqn:E; [lra|]. intros HC; split; auto.
  apply Rmult_lt_reg_r with (/ s); [apply Rinv_0_lt_compat; auto|]. unfold Rdiv in HC. lra.
Qed.
Lemma nz_cut_le s d : 0 < s -> (nz (map (cut s) d) <= nz d)%nat.
Proof.
  intros HS. unfold nz. induction d as [|x d IH]; cbn; [lia|].
  destruct (Rltb 0 (cut s x)) eqn:E1; destruct (Rltb 0 x) eqn:E2; cbn; try lia.
  bcase. apply cut_pos_inv in E1; auto. lra.
Qed.
Lemma nz_cut_lt s d : 0 < s -> existsb (small s) d = true -> (nz (map (cut s) d) < nz d)%nat.
Proof.
  intros HS. induction d as [|x d IH]; cbn [existsb]; [discriminate|].
  intros E. apply orb_true_iff in E. pose proof (nz_cut_le s d HS) as HL. unfold nz in *. cbn [map filter].
  destruct (Rltb 0 (cut s x)) eqn:E1; destruct (Rltb 0 x) eqn:E2; cbn [length].
  - destruct E as [E|E]; [|specialize (IH E); lia]. unfold small in E. apply andb_true_iff in E. destruct E as [Ea Eb].
    unfold cut in E1. rewrite Ea in E1. bcase. lra.
  - bcase. apply cut_pos_inv in E1; auto. lra.
  - lia.
  - destruct E as [E|E]; [|specialize (IH E); lia]. unfold small in E. apply andb_true_iff in E. destruct E as [_ Eb].
    bcase. exfalso. assert (x / s <= 0); [|lra].
    apply Rmult_le_reg_r with s; auto. unfold Rdiv. rewrite Rmult_assoc, Rinv_l by lra. lra.
Qed.

Lemma normalize_terminates : forall fuel d, (nz d < fuel)%nat -> exists d', normalize fuel d = Ok d'.
Proof.
  induction fuel as [|fuel IH]; intros d HF; [lia|]. cbn [normalize].
  destruct (Rle_dec (Rsum d) 0) as [H0|H0].
  - rewrite pass_eq0 by auto. eauto.
  - rewrite pass_eq by lra. destruct (existsb _ d) eqn:E; [|eauto].
    apply IH. apply nz_cut_lt in E; [lia|lra].
Qed.

Lemma Rsum_cut s d : 0 < s -> (forall x, In x d -> 0 <= x) -> existsb (small s) d = false -> Rsum (map (cut s) d) = Rsum d / s.
Proof.
  intros HS. induction d as [|x d IH]; intros HN E; [cbn; lra|].
  cbn [existsb] in E. apply orb_false_iff in E. destruct E as [Ea Eb]. cbn [map].
  change (Rsum (cut s x :: map (cut s) d)) with (cut s x + Rsum (map (cut s) d)).
  change (Rsum (x :: d)) with (x + Rsum d). rewrite IH by (auto; intros; apply HN; right; auto).
  assert (Hx : cut s x = x / s); [|rewrite Hx; field; lra].
  unfold cut. unfold small in Ea. destruct (Rltb (x / s) TOL_MINVALUE) eqn:E1; auto. cbn in Ea. bcase.
  assert (0 <= x) by (apply HN; left; auto).
  assert (0 <= x / s) by (apply Rmult_le_pos; auto; left; apply Rinv_0_lt_compat; auto). lra.
Qed.

Lemma Rsum_pos_elem d : (forall x, In x d -> 0 <= x) -> forall x, In x d -> 0 < x -> 0 < Rsum d.
Proof. intros HN x Hi Hx. pose proof (Rsum_ge_elem d x HN Hi). lra. Qed.

(** some entry is at least the mean *)
Lemma exists_ge_mean d : (0 < length d)%nat -> exists x, In x d /\ Rsum d / INR (length d) <= x.
Proof.
  intros HL. set (m := Rsum d / INR (length d)).
  assert (HD : (exists x, In x d /\ m <= x) \/ (forall x, In x d -> x < m)).
  { clearbody m. clear HL. induction d as [|y d IH]; [right; intros x []|].
    destruct (Rle_dec m y); [left; exists y; split; [left|]; auto|].
    destruct IH as [(x & A & B)|IH]; [left; exists x; split; [right|]; auto|].
    right. intros x [<-|Hx]; [lra|auto]. }
  destruct HD as [HD|HD]; auto. exfalso.
  assert (HB : Rsum d < INR (length d) * m).
  { clearbody m. destruct d as [|y d]; [cbn in HL; lia|]. clear HL.
    assert (H1 : Rsum d <= INR (length d) * m).
    { assert (HD' : forall x, In x d -> x < m) by (intros; apply HD; right; auto). clear HD.
      induction d as [|z d IH]; [cbn; lra|]. change (Rsum (z :: d)) with (z + Rsum d). change (length (z :: d)) with (S (length d)).
      rewrite S_INR. assert (z < m) by (apply HD'; left; auto).
      assert (Rsum d <= INR (length d) * m) by (apply IH; intros; apply HD'; right; auto). lra. }
    change (Rsum (y :: d)) with (y + Rsum d). change (length (y :: d)) with (S (length d)). rewrite S_INR.
    assert (y < m) by (apply HD; left; auto). lra. }
  unfold m in HB. replace (INR (length d) * (Rsum d / INR (length d))) with (Rsum d) in HB; [lra|].
  field. pose proof (INR_pos _ HL). lra.
Qed.

Definition cutOff (d : list R) : Prop := forall x, In x d -> x = 0 \/ TOL_MINVALUE <= x.

(** result of a successful normalisation *)
Lemma normalize_spec : forall fuel d d', (forall x, In x d -> 0 <= x) -> normalize fuel d = Ok d' ->
  length d' = length d /\ (forall x, In x d' -> 0 <= x) /\ cutOff d' /\
  (Rsum d' = 1 \/ (forall x, In x d' -> x = 0)) /\
  (0 < Rsum d -> INR (length d) * TOL_MINVALUE <= 1 -> Rsum d' = 1) /\
  (forall j, (j < length d)%nat -> node d j = 0 -> node d' j = 0) /\
  (forall i j, (i < length d)%nat -> (j < length d)%nat -> node d i <= node d j -> node d' i <= node d' j) /\
  (Rsum d <= 0 -> forall x, In x d' -> x = 0).
Proof.
  pose proof tol_pos as HT.
  induction fuel as [|fuel IH]; intros d d' HN E; [discriminate|]. cbn [normalize] in E.
  destruct (Rle_dec (Rsum d) 0) as [H0|H0].
  - rewrite pass_eq0 in E by auto. inversion E; subst. rewrite map_length.
    assert (HZ : forall x, In x (map (fun _ => 0) d) -> x = 0) by (intros x Hx; apply in_map_iff in Hx; destruct Hx as (? & <- & _); auto).
    splits; auto; try lra.
    + intros x Hx. rewrite (HZ x Hx). lra.
    + intros x Hx. left. auto.
    + intros j Hj _. rewrite (node_map (fun _ => 0)); auto.
    + intros i j Hi Hj _. rewrite !(node_map (fun _ => 0)); auto. lra.
  - assert (HS : 0 < Rsum d) by lra. rewrite pass_eq in E by auto.
    assert (HN' : forall x, In x (map (cut (Rsum d)) d) -> 0 <= x).
    { intros x Hx. apply in_map_iff in Hx. destruct Hx as (y & <- & Hy). apply cut_nonneg; auto. }
    assert (HC : cutOff (map (cut (Rsum d)) d)).
    { intros x Hx. apply in_map_iff in Hx. destruct Hx as (y & <- & Hy). unfold cut. destruct (Rltb _ _) eqn:E1; bcase; auto. }
    assert (Hz : forall j, (j < length d)%nat -> node d j = 0 -> node (map (cut (Rsum d)) d) j = 0).
    { intros j Hj HZ. rewrite node_map by auto. rewrite HZ. unfold cut. replace (0 / Rsum d) with 0 by (unfold Rdiv; ring).
      destruct (Rltb _ _); auto. }
    assert (Hm : forall i j, (i < length d)%nat -> (j < length d)%nat -> node d i <= node d j -> node (map (cut (Rsum d)) d) i <= node (map (cut (Rsum d)) d) j).
    { intros i j Hi Hj Hij. rewrite !node_map by auto.
      assert (HD : node d i / Rsum d <= node d j / Rsum d) by (apply Rmult_le_compat_r; auto; left; apply Rinv_0_lt_compat; auto).
      unfold cut. destruct (Rltb (node d i / Rsum d) _) eqn:E1; destruct (Rltb (node d j / Rsum d) _) eqn:E2; bcase; lra. }
    destruct (existsb (small (Rsum d)) d) eqn:E1.
    + destruct (IH _ _ HN' E) as (A1 & A2 & A3 & A4 & A5 & A6 & A7 & A8). rewrite map_length in *.
      splits; auto; try lra.
      * intros _ HL. apply A5; auto.
        assert (HLp : (0 < length d)%nat) by (destruct d; [cbn in HS; lra|cbn; lia]).
        destruct (exists_ge_mean d HLp) as (x & Hx & Hm').
        apply Rsum_pos_elem with (cut (Rsum d) x); auto; [apply in_map; auto|].
        pose proof (INR_pos _ HLp) as HP.
        assert (HG : TOL_MINVALUE <= x / Rsum d).
        { apply Rmult_le_reg_r with (Rsum d); auto. unfold Rdiv. rewrite Rmult_assoc, Rinv_l, Rmult_1_r by lra.
          apply Rle_trans with (Rsum d / INR (length d)); auto.
          apply Rmult_le_reg_r with (INR (length d)); auto. unfold Rdiv. rewrite (Rmult_assoc (Rsum d)), Rinv_l, Rmult_1_r by lra. nra. }
        unfold cut. destruct (Rltb _ _) eqn:E2; bcase; lra.
    + inversion E; subst. rewrite map_length.
      assert (H1 : Rsum (map (cut (Rsum d)) d) = 1) by (rewrite Rsum_cut; auto; field; lra).
      splits; auto; try lra.
Qed.

(** ** Thermal distribution *)
Lemma expit_pos x o : 0 < expitFunc x o.
Proof. unfold expitFunc. num_simpl. pose proof (exp_pos (x - o)). apply Rmult_lt_0_compat; [lra|]. apply Rinv_0_lt_compat. lra. Qed.
Lemma thermalEntry_nonneg s lo Ts sp i : 0 <= thermalEntry s lo Ts sp i.
Proof. unfold thermalEntry. destruct (Nat.leb lo i); num_simpl; [|lra]. cbv zeta. destruct (Rltb _ _) eqn:E; bcase; lra. Qed.
Lemma thermalEntry_zero s lo Ts sp i : ((i < lo)%nat \/ sp <= node Ts i) -> thermalEntry s lo Ts sp i = 0.
Proof.
  intros HH. unfold thermalEntry. destruct (Nat.leb lo i) eqn:E; [|reflexivity]. apply Nat.leb_le in E.
  destruct HH as [HH|HH]; [lia|]. cbv zeta. rewrite !nget_node. num_simpl.
  match goal with |- context [expitFunc ?a ?b] => pose proof (expit_pos a b) as HP; set (e := expitFunc a b) in * end.
  destruct (Rltb _ _) eqn:E1; bcase; auto. nra.
Qed.
Lemma thermalEntry_pos s lo Ts sp i : (lo <= i)%nat -> node Ts i < sp -> 0 < thermalEntry s lo Ts sp i.
Proof.
  intros HL HH. unfold thermalEntry. replace (Nat.leb lo i) with true by (symmetry; apply Nat.leb_le; auto).
  cbv zeta. rewrite !nget_node. num_simpl.
  match goal with |- context [expitFunc ?a ?b] => pose proof (expit_pos a b) as HP; set (e := expitFunc a b) in * end.
  destruct (Rltb _ _) eqn:E1; bcase; nra.
Qed.

Lemma calcThermalDist_spec fuel s lo Ts sp d : (0 < length Ts)%nat -> INR (length Ts) * TOL_MINVALUE <= 1 ->
  calcThermalDist fuel s lo Ts sp = Ok d ->
  shares (length Ts) d /\
  ((exists i, (lo <= i < length Ts)%nat /\ node Ts i < sp) ->
     forall j, (j < length Ts)%nat -> ((j < lo)%nat \/ sp <= node Ts j) -> node d j = 0) /\
  ((forall i, (lo <= i < length Ts)%nat -> sp <= node Ts i) -> forall j, (j < length Ts)%nat -> node d j = 1 / INR (length Ts)).
Proof.
  intros HL HT. unfold calcThermalDist. num_simpl. destruct (negb (Reqb' s 0)); [|discriminate]. cbv zeta.
  rewrite nsum_Rsum. set (d0 := map (thermalEntry s lo Ts sp) (seq 0 (length Ts))).
  assert (L0 : length d0 = length Ts) by (unfold d0; rewrite map_length, seq_length; auto).
  assert (N0 : forall j, (j < length Ts)%nat -> node d0 j = thermalEntry s lo Ts sp j).
  { intros j Hj. unfold d0, node. rewrite nth_indep with (d' := thermalEntry s lo Ts sp 0%nat) by (rewrite map_length, seq_length; auto).
    rewrite map_nth, seq_nth; auto. }
  assert (P0 : forall x, In x d0 -> 0 <= x) by (intros x Hx; apply in_map_iff in Hx; destruct Hx as (i & <- & _); apply thermalEntry_nonneg).
  pose proof (INR_pos _ HL) as HI.
  destruct (Rltb 0 (Rsum d0)) eqn:E1; bcase.
  - intros E. destruct (normalize_spec _ _ _ P0 E) as (A1 & A2 & A3 & A4 & A5 & A6 & _). rewrite L0 in *.
    split; [split; [auto|split; auto]|]. split.
    + intros _ j Hj HZ. apply A6; auto. rewrite N0 by auto. apply thermalEntry_zero; auto.
    + intros HA. exfalso. assert (HZ : Rsum d0 = 0); [|lra].
      rewrite Rsum_bsum, L0, <- (bsum_0 (length Ts)). apply bsum_ext. intros k Hk. rewrite N0 by auto. apply thermalEntry_zero.
      destruct (Nat.lt_ge_cases k lo); auto.
  - intros E. assert (Ed : d = map (fun _ => 1 / INR (length Ts)) d0) by (rewrite <- nofN_R; congruence). subst d.
    assert (NC : forall j, (j < length Ts)%nat -> node (map (fun _ => 1 / INR (length Ts)) d0) j = 1 / INR (length Ts)).
    { intros j Hj. rewrite (node_map (fun _ => 1 / INR (length Ts))) by lia. reflexivity. }
    split; [split; [rewrite map_length; auto|split]|split].
    + intros x Hx. apply in_map_iff in Hx. destruct Hx as (? & <- & _). left. apply Rmult_lt_0_compat; [lra|apply Rinv_0_lt_compat; auto].
    + rewrite Rsum_map_const, L0. field. lra.
    + intros (i & Hi & Hs). exfalso.
      assert (0 < Rsum d0); [|lra]. apply Rsum_pos_elem with (node d0 i); auto; [apply node_In; lia|].
      rewrite N0 by lia. apply thermalEntry_pos; [lia|auto].
    + auto.
Qed.
Lemma calcThermalDist_ok fuel s lo Ts sp : s <> 0 -> (length Ts < fuel)%nat -> exists d, calcThermalDist fuel s lo Ts sp = Ok d.
Proof.
  intros HS HF. unfold calcThermalDist. num_simpl. replace (Reqb' s 0) with false by (symmetry; apply Reqb'_false; auto). cbn [negb]. cbv zeta.
  destruct (Rltb _ _); [|eauto]. apply normalize_terminates.
  set (d0 := map _ _). assert (L0 : length d0 = length Ts) by (unfold d0; rewrite map_length, seq_length; auto).
  unfold nz. clearbody d0. assert (length (filter (fun x => Rltb 0 x) d0) <= length d0)%nat; [|lia].
  clear. induction d0; cbn; [lia|]. destruct (Rltb 0 a); cbn; lia.
Qed.

(** ** The distribution of a source *)
Lemma maxElement_spec d m : maxElement d = Ok m -> In m d /\ (forall x, In x d -> x <= m).
Proof.
  destruct d as [|x d]; [discriminate|]. cbn [maxElement]. intros E. inversion E as [E1]. clear E.
  assert (HG : forall d x, (fold_left (fun m y => if nltb m y then y else m) d x = x \/ In (fold_left (fun m y => if nltb m y then y else m) d x) d) /\
     x <= fold_left (fun m y => if nltb m y then y else m) d x /\ (forall y, In y d -> y <= fold_left (fun m y => if nltb m y then y else m) d x)).
  { clear. induction d as [|y d IH]; intros x; cbn [fold_left]; [splits; auto; [lra|intros ? []]|].
    num_simpl. destruct (Rltb x y) eqn:E; bcase.
    - destruct (IH y) as (A & B & C). splits; [|lra|].
      + right. destruct A as [A|A]; [left|right]; auto.
      + intros z [<-|Hz]; auto.
    - destruct (IH x) as (A & B & C). splits; [|lra|].
      + destruct A as [A|A]; [left|right; right]; auto.
      + intros z [<-|Hz]; [lra|auto]. }
  destruct (HG d x) as (A & B & C). num_simpl. split.
  - destruct A as [A|A]; [left; auto|right; auto].
  - intros y [<-|Hy]; auto.
Qed.
Lemma maxElement_ok d : d <> [] -> exists m, maxElement d = Ok m.
Proof. destruct d; [congruence|]. cbn. eauto. Qed.
Lemma shares_max_pos n d m : shares n d -> maxElement d = Ok m -> 0 < m.
Proof.
  intros (H1 & H2 & H3) E. apply maxElement_spec in E. destruct E as [A B].
  destruct (Rle_dec m 0) as [Hm|]; [|lra]. exfalso.
  assert (Rsum d <= 0); [|lra]. clear - B Hm. induction d as [|x d IH]; [cbn; lra|].
  change (Rsum (x :: d)) with (x + Rsum d). assert (x <= m) by (apply B; left; auto).
  assert (Rsum d <= 0) by (apply IH; intros; apply B; right; auto). lra.
Qed.
