(** Proofs about draws (Tank.cc:424-530). *)

From Coq Require Import ZArith List Bool Reals Lra Lia.
From Verif Require Import Num Base Units Utils Types TankM Spec SpecState RList MixProofs.
Import ListNotations.
Local Open Scope R_scope.

Lemma CP_pos : 0 < CPWATER. Proof. unfold CPWATER, dec; num_simpl; lra. Qed.
Lemma DENS_pos : 0 < DENSITYWATER. Proof. unfold DENSITYWATER, dec; num_simpl; lra. Qed.

Lemma wf_nodeVol_pos t : wf_tank t -> 0 < t_nodeVol t.
Proof.
  intros [H1 H2 H3 H4]. rewrite H3. apply Rdiv_lt_0_compat; auto. apply lt_0_INR; auto.
Qed.
Lemma wf_nodeCp_pos t : wf_tank t -> 0 < t_nodeCp t.
Proof.
  intros H. rewrite (wf_nodeCp _ H). pose proof (wf_nodeVol_pos _ H).
  pose proof CP_pos. pose proof DENS_pos. apply Rmult_lt_0_compat; auto. nra.
Qed.

(** the heat content is the node heat capacity times the sum of the node temperatures *)
Lemma heatContent_sum t : wf_tank t -> heatContent t = t_nodeCp t * Rsum (t_Ts t).
Proof.
  intros H. unfold heatContent, averageT, numNodes. rewrite nofN_R, nsum_Rsum.
  rewrite (wf_nodeCp _ H), (wf_nodeVol _ H). num_simpl.
  assert (0 < INR (length (t_Ts t))) by (apply lt_0_INR; apply (wf_n _ H)). field. lra.
Qed.

Lemma wf_set_Ts t Ts : wf_tank t -> length Ts = length (t_Ts t) -> wf_tank (set_t_Ts Ts t).
Proof. intros [H1 H2 H3 H4] HL. constructor; cbn; rewrite ?HL; auto. Qed.
Lemma wf_set_outlet t x : wf_tank t -> wf_tank (set_t_outletT x t).
Proof. intros [H1 H2 H3 H4]. constructor; cbn; auto. Qed.
Lemma wf_set_stby t x : wf_tank t -> wf_tank (set_t_stby x t).
Proof. intros [H1 H2 H3 H4]. constructor; cbn; auto. Qed.

(** ** Inversion mixing on the tank *)
Lemma mass_pos t : wf_tank t -> 0 < t_volume t / nofN (numNodes t) * DENSITYWATER.
Proof.
  intros H. unfold numNodes. rewrite nofN_R. pose proof (wf_nodeVol_pos _ H) as H1.
  rewrite (wf_nodeVol _ H) in H1. num_simpl. pose proof DENS_pos. apply Rmult_lt_0_compat; auto.
Qed.

Lemma mixed_of_trans A B C : mixed_of A B -> mixed_of B C -> mixed_of A C.
Proof.
  intros HAB HBC.
  assert (L1 := mo_len _ _ HAB). assert (L2 := mo_len _ _ HBC).
  constructor.
  - lia.
  - rewrite <- (mo_sum _ _ HAB), <- L1. apply (mo_sum _ _ HBC).
  - intros p Hp. eapply Rle_trans; [apply (mo_up _ _ HBC); lia|apply (mo_up _ _ HAB); lia].
  - intros p Hp Hlt.
    rewrite (mo_cut _ _ HBC p) by (auto; lia). apply (mo_cut _ _ HAB p); auto.
    assert (bsum (node C) p = bsum (node B) p) by (apply (mo_cut _ _ HBC); auto; lia).
    assert (bsum (node C) (S p) <= bsum (node B) (S p)) by (apply (mo_up _ _ HBC); lia).
    assert (bsum (node C) (p - 1) <= bsum (node B) (p - 1)) by (apply (mo_up _ _ HBC); lia).
    cbn [bsum] in H0. assert (H2 := H). replace p with (S (p - 1)) in H2 at 1 2 by lia.
    cbn [bsum] in H2. lra.
  - intros lo hi Hr k Hk. apply (mo_range _ _ HBC lo hi); try lia.
    intros j Hj. apply (mo_range _ _ HAB lo hi); auto; lia.
Qed.

Lemma mixInversions_ok fuel t t' : wf_tank t -> mixInversions fuel t = (Ok tt, t') ->
  exists Ts', t' = set_t_Ts Ts' t /\ mixed_of (t_Ts t) Ts' /\ (t_doMix t = true -> stratified Ts').
Proof.
  intros Hwf. unfold mixInversions, bind, get, lift, modify, ret.
  destruct (t_doMix t) eqn:Ed.
  - destruct (mixLoop fuel _ (t_Ts t)) as [Ts'|e|e|] eqn:Em; intros E; try discriminate.
    injection E as <-. exists Ts'. num_simpl.
    destruct (mixLoop_spec _ (mass_pos t Hwf) _ _ _ Em). auto.
  - intros E. injection E as <-. exists (t_Ts t). split; [destruct t; reflexivity|].
    split; [apply mixed_of_refl|discriminate].
Qed.

Lemma mixInversions_terminates fuel t : wf_tank t -> (length (t_Ts t) * length (t_Ts t) < fuel)%nat ->
  exists t', mixInversions fuel t = (Ok tt, t').
Proof.
  intros Hwf Hf. unfold mixInversions, bind, get, lift, modify, ret.
  destruct (t_doMix t); [|eauto].
  destruct (mixLoop_bound _ (mass_pos t Hwf) fuel (t_Ts t) Hf) as [Ts' E]. num_simpl. rewrite E. eauto.
Qed.

(** ** The sweep of one draw increment *)
Section Sweep.
  Variables (p : @inlets R) (v : R).

  (** inlet fraction and inlet heat entering at node i *)
  Definition inF (i : nat) : R :=
    (if Z.eqb (Z.of_nat i) (i_hiN p) then i_hiF p else 0) +
    (if Z.eqb (Z.of_nat i) (i_loN p) then i_loF p else 0).
  Definition inQ (i : nat) : R :=
    (if Z.eqb (Z.of_nat i) (i_hiN p) then i_hiF p * i_hiT p else 0) +
    (if Z.eqb (Z.of_nat i) (i_loN p) then i_loF p * i_loT p else 0).

  Definition sweep1 (i : nat) (fr : R) (Ts : list R) : list R :=
    let Ts1 := upd Ts i (node Ts i + v * inQ i) in
    match i with
    | O => Ts1
    | S i' =>
        let tr := v * (1 - (fr + inF i)) * node Ts i' in
        upd (upd Ts1 i (node Ts1 i + tr)) i' (node Ts i' - tr)
    end.

  Lemma upd_id (Ts : list R) i : upd Ts i (node Ts i) = Ts.
  Proof.
    unfold node. revert i; induction Ts; intros [|i]; cbn; auto. f_equal. apply IHTs.
  Qed.
  Lemma upd_upd (Ts : list R) i a b : upd (upd Ts i a) i b = upd Ts i b.
  Proof. revert i; induction Ts; intros [|i]; cbn; auto. f_equal. apply IHTs. Qed.

  Lemma drawSweep_S i fr Ts : (i < length Ts)%nat ->
    drawSweep p v (S i) fr Ts = drawSweep p v i (fr + inF i) (sweep1 i fr Ts).
  Proof.
    intros Hi. cbn [drawSweep]. num_simpl. gn.
    assert (Hgen : forall fr1 Ts1, fr1 = fr + inF i -> Ts1 = upd Ts i (node Ts i + v * inQ i) ->
      drawSweep p v i fr1
       match i with
       | 0%nat => Ts1
       | S i' => upd (upd Ts1 i (node Ts1 i + v * (1 - fr1) * node Ts1 i')) i'
           (node (upd Ts1 i (node Ts1 i + v * (1 - fr1) * node Ts1 i')) i' - v * (1 - fr1) * node Ts1 i')
       end = drawSweep p v i (fr + inF i) (sweep1 i fr Ts)).
    { intros fr1 Ts1 -> ->. unfold sweep1. destruct i as [|i']; [reflexivity|].
      assert (Hn : node (upd Ts (S i') (node Ts (S i') + v * inQ (S i'))) i' = node Ts i').
      { rewrite node_upd by lia. replace (Nat.eqb i' (S i')) with false by (symmetry; apply Nat.eqb_neq; lia). reflexivity. }
      f_equal. rewrite Hn. f_equal.
      rewrite node_upd by (rewrite upd_length; lia).
      replace (Nat.eqb i' (S i')) with false by (symmetry; apply Nat.eqb_neq; lia). rewrite Hn. reflexivity. }
    destruct (Z.eqb (Z.of_nat i) (i_hiN p)) eqn:E1; destruct (Z.eqb (Z.of_nat i) (i_loN p)) eqn:E2;
      apply Hgen; unfold inF, inQ; rewrite ?E1, ?E2; try lra;
      try (rewrite upd_upd; rewrite node_upd by lia; rewrite Nat.eqb_refl; f_equal; lra);
      try (f_equal; lra).
    transitivity (upd Ts i (node Ts i)); [symmetry; apply upd_id|f_equal; lra].
  Qed.

  Lemma sweep1_length i fr Ts : length (sweep1 i fr Ts) = length Ts.
  Proof. unfold sweep1. destruct i; rewrite ?upd_length; reflexivity. Qed.

  Lemma sweep1_sum i fr Ts : (i < length Ts)%nat -> Rsum (sweep1 i fr Ts) = Rsum Ts + v * inQ i.
  Proof.
    intros Hi. unfold sweep1. destruct i as [|i'].
    - rewrite Rsum_upd by lia. lra.
    - rewrite Rsum_upd by (rewrite ?upd_length; lia). rewrite Rsum_upd by (rewrite ?upd_length; lia).
      rewrite Rsum_upd by lia.
      rewrite !node_upd by (rewrite ?upd_length; lia).
      replace (Nat.eqb i' (S i')) with false by (symmetry; apply Nat.eqb_neq; lia).
      rewrite Nat.eqb_refl. lra.
  Qed.

  Lemma drawSweep_length k : forall fr Ts, (k <= length Ts)%nat ->
    length (drawSweep p v k fr Ts) = length Ts.
  Proof.
    induction k; intros; [reflexivity|].
    rewrite drawSweep_S by lia. rewrite IHk by (rewrite sweep1_length; lia). apply sweep1_length.
  Qed.
  Lemma drawSweep_sum k : forall fr Ts, (k <= length Ts)%nat ->
    Rsum (drawSweep p v k fr Ts) = Rsum Ts + v * bsum inQ k.
  Proof.
    induction k; intros fr Ts Hk; [cbn [drawSweep bsum]; lra|].
    rewrite drawSweep_S by lia. rewrite IHk by (rewrite sweep1_length; lia).
    rewrite sweep1_sum by lia. cbn [bsum]. lra.
  Qed.

  (** bounds *)
  Variables (lo hi : R).
  Hypothesis Hv : 0 <= v <= 1.
  Hypothesis HF : forall i, 0 <= inF i.
  Hypothesis HQ : forall i, lo * inF i <= inQ i <= hi * inF i.

  Lemma drawSweep_range k : forall fr Ts, (k <= length Ts)%nat -> 0 <= fr ->
    fr + bsum inF k = 1 ->
    (forall j, (j < length Ts)%nat -> S j <> k -> lo <= node Ts j <= hi) ->
    (forall j, S j = k -> exists x, lo <= x <= hi /\ node Ts j = (1 - v * (1 - fr)) * x) ->
    forall j, (j < length Ts)%nat -> lo <= node (drawSweep p v k fr Ts) j <= hi.
  Proof.
    induction k as [|i IH]; intros fr Ts Hk Hfr Hsum Hoth Hcur j Hj.
    - cbn. apply Hoth; auto.
    - rewrite drawSweep_S by lia. cbn [bsum] in Hsum.
      destruct (Hcur i eq_refl) as [x [Hx Hix]].
      assert (Hb : 0 <= bsum inF i) by (apply bsum_nonneg; intros; apply HF).
      assert (HFi := HF i). assert (HQi := HQ i).
      set (fr' := fr + inF i) in *. assert (Hfr' : 0 <= fr' <= 1) by (unfold fr'; lra).
      apply IH; rewrite ?sweep1_length; try lia.
      + lra.
      + unfold fr'; lra.
      + intros j' Hj' Hne. unfold sweep1. destruct i as [|i'].
        * rewrite node_upd by lia. destruct (Nat.eqb j' 0) eqn:Ej; [|apply Hoth; auto; apply Nat.eqb_neq in Ej; lia].
          cbn [bsum] in Hsum. rewrite Hix.
          assert (Hf1 : inF 0 = 1 - fr) by lra. rewrite Hf1 in *.
          assert (0 <= 1 - v * (1 - fr)) by nra. nra.
        * rewrite node_upd by (rewrite ?upd_length; lia).
          destruct (Nat.eqb j' i') eqn:Ej; [apply Nat.eqb_eq in Ej; lia|].
          rewrite node_upd by (rewrite ?upd_length; lia).
          destruct (Nat.eqb j' (S i')) eqn:Ej2.
          -- rewrite node_upd by lia. rewrite Nat.eqb_refl. fold fr'.
             assert (Hy : lo <= node Ts i' <= hi) by (apply Hoth; lia).
             rewrite Hix. assert (Hfe : inF (S i') = fr' - fr) by (unfold fr'; lra). rewrite Hfe in *.
             assert (0 <= 1 - v * (1 - fr)) by nra. assert (0 <= v * (1 - fr')) by nra.
             set (q := inQ (S i')) in *. set (y := node Ts i') in *.
             set (a := 1 - v * (1 - fr)) in *. set (b := v * (1 - fr')) in *.
             assert (Hw : a + v * (fr' - fr) + b = 1) by (unfold a, b; ring).
             assert (v * (lo * (fr' - fr)) <= v * q <= v * (hi * (fr' - fr))) by nra.
             assert (a * lo <= a * x <= a * hi) by nra.
             assert (b * lo <= b * y <= b * hi) by nra.
             split.
             ++ replace lo with (lo * (a + v * (fr' - fr) + b)) by (rewrite Hw; ring). nra.
             ++ replace hi with (hi * (a + v * (fr' - fr) + b)) by (rewrite Hw; ring). nra.
          -- rewrite node_upd by lia. rewrite Ej2. apply Hoth; auto. apply Nat.eqb_neq in Ej2. lia.
      + intros j' Hj'. subst i. exists (node Ts j'). split; [apply Hoth; lia|].
        unfold sweep1. rewrite node_upd by (rewrite ?upd_length; lia). rewrite Nat.eqb_refl.
        fold fr'. ring.
  Qed.
End Sweep.

(** total inlet fraction/heat of inlets that lie at existing nodes *)
Lemma bsum_point z c n : (0 <= z < Z.of_nat n)%Z ->
  bsum (fun i => if Z.eqb (Z.of_nat i) z then c else 0) n = c.
Proof.
  intros Hz. rewrite (bsum_ext _ (fun k => if Nat.eqb k (Z.to_nat z) then c else 0)).
  - rewrite (bsum_upd (fun _ => 0) (Z.to_nat z) c n) by lia. rewrite bsum_0. lra.
  - intros k Hk. destruct (Z.eqb (Z.of_nat k) z) eqn:E; destruct (Nat.eqb k (Z.to_nat z)) eqn:E2; auto;
      [apply Z.eqb_eq in E; apply Nat.eqb_neq in E2|apply Z.eqb_neq in E; apply Nat.eqb_eq in E2]; lia.
Qed.

Definition inlets_ok (n : nat) (p : @inlets R) : Prop :=
  (0 <= i_hiN p < Z.of_nat n)%Z /\ (0 <= i_loN p < Z.of_nat n)%Z.

Lemma bsum_inF p n : inlets_ok n p -> bsum (inF p) n = i_hiF p + i_loF p.
Proof. intros [H1 H2]. unfold inF. rewrite bsum_plus, !bsum_point by auto. reflexivity. Qed.
Lemma bsum_inQ p n : inlets_ok n p -> bsum (inQ p) n = i_hiF p * i_hiT p + i_loF p * i_loT p.
Proof. intros [H1 H2]. unfold inQ. rewrite bsum_plus, !bsum_point by auto. reflexivity. Qed.

(** one increment *)
Lemma drawIncr_spec p cp v Ts out Ts' : cp <> 0 -> (0 < length Ts)%nat -> inlets_ok (length Ts) p ->
  drawIncr p cp v Ts = (out, Ts') ->
  out = cp * v * node Ts (length Ts - 1) /\ length Ts' = length Ts /\
  Rsum Ts' = Rsum Ts - v * node Ts (length Ts - 1) + v * (i_hiF p * i_hiT p + i_loF p * i_loT p).
Proof.
  intros Hcp Hn Hin E. unfold drawIncr in E. gn. num_simpl. injection E as <- <-.
  splits; auto.
  - rewrite drawSweep_length by (rewrite ?upd_length; lia). apply upd_length.
  - rewrite drawSweep_sum by (rewrite ?upd_length; lia). rewrite upd_length.
    rewrite bsum_inQ by assumption. rewrite Rsum_upd by lia. field. exact Hcp.
Qed.

Definition inlets_range (lo hi : R) (p : @inlets R) : Prop :=
  0 <= i_hiF p /\ 0 <= i_loF p /\ i_hiF p + i_loF p = 1 /\
  (i_hiF p = 0 \/ lo <= i_hiT p <= hi) /\ (i_loF p = 0 \/ lo <= i_loT p <= hi).

Lemma drawIncr_range p cp v Ts out Ts' lo hi : cp <> 0 -> (0 < length Ts)%nat -> inlets_ok (length Ts) p ->
  0 <= v <= 1 -> inlets_range lo hi p -> within lo hi Ts ->
  drawIncr p cp v Ts = (out, Ts') -> within lo hi Ts'.
Proof.
  intros Hcp Hn Hin Hv (F1 & F2 & F3 & R1 & R2) Hw E. unfold drawIncr in E. gn. num_simpl.
  injection E as <- <-. apply within_node. rewrite drawSweep_length by (rewrite ?upd_length; lia).
  rewrite within_node in Hw.
  intros k Hk.
  apply (drawSweep_range p v lo hi); auto; try lra.
  - intros i. unfold inF. destruct (Z.eqb _ _); destruct (Z.eqb _ _); lra.
  - intros i. unfold inF, inQ.
    assert (lo * i_hiF p <= i_hiF p * i_hiT p <= hi * i_hiF p) by (destruct R1 as [->|]; nra).
    assert (lo * i_loF p <= i_loF p * i_loT p <= hi * i_loF p) by (destruct R2 as [->|]; nra).
    destruct (Z.eqb _ _); destruct (Z.eqb _ _); nra.
  - rewrite upd_length. rewrite bsum_inF by assumption. lra.
  - rewrite upd_length. intros j Hj Hne. rewrite node_upd by lia.
    replace (Nat.eqb j (length Ts - 1)) with false by (symmetry; apply Nat.eqb_neq; lia). auto.
  - rewrite upd_length. intros j Hj. exists (node Ts j). split; [apply Hw; lia|].
    replace (length Ts - 1)%nat with j by lia. rewrite node_upd by lia. rewrite Nat.eqb_refl.
    field. exact Hcp.
Qed.

(** ** The loop *)
Lemma mixed_of_sum A B : mixed_of A B -> Rsum B = Rsum A.
Proof. intros H. rewrite !Rsum_bsum, (mo_len _ _ H). apply (mo_sum _ _ H). Qed.
Lemma mixed_of_within A B lo hi : mixed_of A B -> within lo hi A -> within lo hi B.
Proof.
  intros H. rewrite !within_node, (mo_len _ _ H). intros Hw k Hk. apply (mo_range _ _ H); auto.
Qed.

Lemma drawLoop_spec p mixFuel fuel : forall rem exp0 t e t',
  wf_tank t -> inlets_ok (length (t_Ts t)) p -> 0 <= rem ->
  drawLoop fuel mixFuel p rem exp0 t = (Ok e, t') ->
  exists Ts', t' = set_t_Ts Ts' t /\ length Ts' = length (t_Ts t) /\
    t_nodeCp t * Rsum Ts' = t_nodeCp t * Rsum (t_Ts t)
       + t_nodeCp t * rem * (i_hiF p * i_hiT p + i_loF p * i_loT p) - (e - exp0) /\
    (forall lo hi, inlets_range lo hi p -> within lo hi (t_Ts t) ->
        within lo hi Ts' /\ t_nodeCp t * rem * lo <= e - exp0 <= t_nodeCp t * rem * hi) /\
    (t_doMix t = true -> stratified (t_Ts t) -> stratified Ts').
Proof.
  induction fuel as [|fuel IH]; intros rem exp0 t e t' Hwf Hin Hrem E; cbn [drawLoop] in E; num_simpl;
    assert (Hcp := wf_nodeCp_pos _ Hwf).
  - destruct (Rltb 0 rem) eqn:Er; bcase; [discriminate|].
    assert (rem = 0) by lra. unfold ret in E. injection E as <- <-. exists (t_Ts t).
    splits; auto; [destruct t; reflexivity|nra|]. intros lo hi _ Hw. split; auto. nra.
  - destruct (Rltb 0 rem) eqn:Er; bcase.
    2:{ assert (rem = 0) by lra. unfold ret in E. injection E as <- <-. exists (t_Ts t).
        splits; auto; [destruct t; reflexivity|nra|]. intros lo hi _ Hw. split; auto. nra. }
    set (v := if Rltb 1 rem then 1 else rem) in *.
    assert (Hv : 0 <= v <= 1 /\ v <= rem) by (unfold v; rcase; lra). destruct Hv as [Hv Hvr].
    unfold bind, get, modify in E. cbv beta iota in E.
    destruct (drawIncr p (t_nodeCp t) v (t_Ts t)) as [out Ts1] eqn:Ei.
    set (t1 := set_t_Ts Ts1 t) in *.
    destruct (drawIncr_spec p (t_nodeCp t) v (t_Ts t) out Ts1 ltac:(lra) (wf_n _ Hwf) Hin Ei)
      as (Ho & HL1 & HS1).
    assert (Hwf1 : wf_tank t1) by (apply wf_set_Ts; auto).
    destruct (mixInversions mixFuel t1) as [[u|m|m|] t2] eqn:Em; try discriminate. destruct u.
    destruct (mixInversions_ok mixFuel t1 t2 Hwf1 Em) as [Ts2 (Ht2 & Hmix & Hstr)].
    assert (HL2 : length Ts2 = length (t_Ts t)) by (rewrite (mo_len _ _ Hmix); cbn; exact HL1).
    assert (Hwf2 : wf_tank t2) by (rewrite Ht2; apply wf_set_Ts; auto; cbn; lia).
    assert (HS2 : Rsum Ts2 = Rsum Ts1) by (apply (mixed_of_sum _ _ Hmix)).
    assert (Hcp2 : t_nodeCp t2 = t_nodeCp t) by (rewrite Ht2; reflexivity).
    assert (HTs2 : t_Ts t2 = Ts2) by (rewrite Ht2; reflexivity).
    destruct (IH (rem - v) (exp0 + out) t2 e t' Hwf2) as [Ts' (HT' & HL' & HS' & HR' & Hst')]; auto.
    { rewrite HTs2, HL2. exact Hin. }
    { lra. }
    rewrite Hcp2, HTs2 in *.
    exists Ts'. splits.
    + rewrite HT', Ht2. reflexivity.
    + lia.
    + rewrite HS', HS2, HS1, Ho. ring.
    + intros lo hi Hir Hw.
      assert (Hw1 : within lo hi Ts1).
      { eapply (drawIncr_range p (t_nodeCp t) v (t_Ts t) out Ts1); eauto; [lra|apply (wf_n _ Hwf)]. }
      assert (Hw2 : within lo hi Ts2) by (eapply mixed_of_within; [exact Hmix|exact Hw1]).
      destruct (HR' lo hi Hir Hw2) as [Hw' Hb]. split; auto.
      assert (Htop : lo <= node (t_Ts t) (length (t_Ts t) - 1) <= hi).
      { apply Hw, node_In. pose proof (wf_n _ Hwf). lia. }
      rewrite Ho in Hb.
      set (c := t_nodeCp t) in *. set (x := node (t_Ts t) (length (t_Ts t) - 1)) in *.
      assert (c * v * lo <= c * v * x <= c * v * hi).
      { assert (0 <= c * v) by nra. nra. }
      split; nra.
    + intros Hd Hs. apply Hst'; rewrite ?Ht2; auto; apply Hstr; exact Hd.
Qed.

Lemma drawLoop_terminates p mixFuel fuel : forall rem exp0 t,
  wf_tank t -> (length (t_Ts t) * length (t_Ts t) < mixFuel)%nat -> rem <= INR fuel ->
  exists e t', drawLoop fuel mixFuel p rem exp0 t = (Ok e, t').
Proof.
  induction fuel as [|fuel IH]; intros rem exp0 t Hwf Hm Hrem; cbn [drawLoop]; num_simpl.
  - cbn in Hrem. destruct (Rltb 0 rem) eqn:Er; bcase; [lra|]. unfold ret; eauto.
  - destruct (Rltb 0 rem) eqn:Er; bcase; [|unfold ret; eauto].
    set (v := if Rltb 1 rem then 1 else rem) in *.
    unfold bind, get, modify. cbv beta iota.
    destruct (drawIncr p (t_nodeCp t) v (t_Ts t)) as [out Ts1] eqn:Ei.
    set (t1 := set_t_Ts Ts1 t) in *.
    assert (HL1 : length Ts1 = length (t_Ts t)).
    { unfold drawIncr in Ei. gn. injection Ei as _ <-.
      assert (Hgo : forall k fr Ts, (k <= length Ts)%nat -> length (drawSweep p v k fr Ts) = length Ts)
        by (intros; apply drawSweep_length; auto).
      rewrite Hgo by lia. apply upd_length. }
    assert (Hwf1 : wf_tank t1) by (apply wf_set_Ts; auto).
    destruct (mixInversions_terminates mixFuel t1 Hwf1) as [t2 Em]; [cbn; rewrite HL1; exact Hm|].
    rewrite Em.
    destruct (mixInversions_ok mixFuel t1 t2 Hwf1 Em) as [Ts2 (Ht2 & Hmix & _)].
    assert (HL2 : length Ts2 = length (t_Ts t)) by (rewrite (mo_len _ _ Hmix); cbn; exact HL1).
    apply IH.
    + rewrite Ht2; apply wf_set_Ts; auto. cbn. lia.
    + rewrite Ht2. cbn. rewrite HL2. exact Hm.
    + rewrite S_INR in Hrem. unfold v. rcase; [lra|]. pose proof (pos_INR fuel). lra.
Qed.
