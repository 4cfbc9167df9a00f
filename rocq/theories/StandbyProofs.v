(** Proofs about heat-exchanger draws, standby losses and conduction (Tank.cc:465-476, 532-599). *)

From Coq Require Import ZArith List Bool Reals Lra Lia.
From Verif Require Import Num Base Units Utils Types TankM Spec SpecState RList MixProofs DrawProofs TankProofs.
Import ListNotations.
Local Open Scope R_scope.

(** ** Heat exchanger draw *)
Lemma hxDraw_spec dCp nCp eff : dCp <> 0 -> nCp <> 0 -> forall Ts oT Ts' oT',
  hxDraw dCp nCp eff Ts oT = (Ts', oT') ->
  length Ts' = length Ts /\ nCp * Rsum Ts - nCp * Rsum Ts' = dCp * (oT' - oT).
Proof.
  intros Hd Hn Ts. induction Ts as [|x r IH]; intros oT Ts' oT' E; cbn [hxDraw] in E.
  - injection E as <- <-. split; auto. lra.
  - num_simpl.
    destruct (hxDraw dCp nCp eff r (oT + eff * (dCp * (x - oT)) / dCp)) as [r' o] eqn:Er.
    injection E as <- <-. destruct (IH _ _ _ Er) as [H1 H2].
    split; [cbn; lia|]. unfold Rsum in *. cbn [fold_right].
    replace (dCp * (o - oT)) with
      (dCp * (o - (oT + eff * (dCp * (x - oT)) / dCp)) + eff * (dCp * (x - oT))) by (field; auto).
    rewrite <- H2. field. auto.
Qed.
Lemma hxDraw_range dCp nCp eff lo hi : 0 < dCp -> 0 < nCp -> 0 <= eff <= 1 -> forall Ts oT Ts' oT',
  hxDraw dCp nCp eff Ts oT = (Ts', oT') -> within lo hi Ts -> lo <= oT <= hi ->
  lo <= oT' <= hi /\ (eff * dCp <= nCp -> within lo hi Ts').
Proof.
  intros Hd Hn He Ts. induction Ts as [|x r IH]; intros oT Ts' oT' E Hw Ho; cbn [hxDraw] in E.
  - injection E as <- <-. split; auto.
  - num_simpl.
    destruct (hxDraw dCp nCp eff r (oT + eff * (dCp * (x - oT)) / dCp)) as [r' o] eqn:Er.
    injection E as <- <-.
    assert (Hx : lo <= x <= hi) by (apply Hw; left; auto).
    assert (Heq : oT + eff * (dCp * (x - oT)) / dCp = oT + eff * (x - oT)) by (field; lra).
    assert (Ho1 : lo <= oT + eff * (dCp * (x - oT)) / dCp <= hi) by (rewrite Heq; nra).
    destruct (IH _ _ _ Er ltac:(intros y Hy; apply Hw; right; auto) Ho1) as [H1 H2].
    split; auto. intros Hc y [<-|Hy]; [|apply H2; auto].
    assert (0 <= eff * dCp / nCp <= 1).
    { split; [apply Rmult_le_pos; [nra|left; apply Rinv_0_lt_compat; auto]|].
      apply (Rmult_le_reg_r nCp); auto. unfold Rdiv. rewrite Rmult_assoc, Rinv_l by lra. lra. }
    replace (x - eff * (dCp * (x - oT)) / nCp) with (x - (eff * dCp / nCp) * (x - oT)) by (field; lra).
    set (c := eff * dCp / nCp) in *. nra.
Qed.

(** ** Extremes of a mixed profile *)
Lemma mixed_lower A B m : mixed_of A B -> stratified B ->
  (forall p, (p <= length A)%nat -> INR p * m <= bsum (node A) p) ->
  forall k, (k < length A)%nat -> m <= node B k.
Proof.
  intros H SB Hp k Hk. assert (L := mo_len _ _ H).
  apply Rle_trans with (node B 0); [|apply stratified_le; auto; lia].
  (* the first cut *)
  assert (Hq : exists q, (0 < q <= length A)%nat /\ (forall j, (j < q)%nat -> node B j = node B 0) /\
            bsum (node B) q = bsum (node A) q).
  { assert (Hg : forall d, (d < length A)%nat -> (forall j, (j <= d)%nat -> node B j = node B 0) \/
      exists q, (0 < q <= d)%nat /\ (forall j, (j < q)%nat -> node B j = node B 0) /\ node B (q - 1) < node B q).
    { induction d; intros Hd.
      - left. intros j Hj. f_equal. lia.
      - destruct (IHd ltac:(lia)) as [Hf|[q (Q1 & Q2 & Q3)]].
        + destruct (Rlt_le_dec (node B d) (node B (S d))).
          * right. exists (S d). splits; try lia. { intros; apply Hf; lia. }
            replace (S d - 1)%nat with d by lia. auto.
          * left. intros j Hj. destruct (Nat.eq_dec j (S d)) as [->|]; [|apply Hf; lia].
            rewrite <- (Hf d) by lia. assert (node B d <= node B (S d)) by (apply SB; lia). lra.
        + right. exists q. splits; auto; lia. }
    destruct (Hg (length A - 1)%nat ltac:(lia)) as [Hf|[q (Q1 & Q2 & Q3)]].
    - exists (length A). splits; try lia. { intros; apply Hf; lia. } apply (mo_sum _ _ H).
    - exists q. splits; auto; try lia. apply (mo_cut _ _ H); auto; lia. }
  destruct Hq as [q (Q1 & Q2 & Q3)].
  rewrite (bsum_ext (node B) (fun _ => node B 0) q) in Q3 by auto. rewrite bsum_const in Q3.
  assert (0 < INR q) by (apply lt_0_INR; lia).
  assert (Hpq := Hp q ltac:(lia)). rewrite <- Q3 in Hpq.
  apply (Rmult_le_reg_l (INR q)); auto.
Qed.
Lemma mixed_upper A B M : mixed_of A B -> stratified B ->
  (forall p, (p <= length A)%nat -> bsum (node A) (length A) - bsum (node A) p <= INR (length A - p) * M) ->
  forall k, (k < length A)%nat -> node B k <= M.
Proof.
  intros H SB Hp k Hk. assert (L := mo_len _ _ H). set (n := length A) in *.
  apply Rle_trans with (node B (n - 1)); [apply stratified_le; auto; lia|].
  assert (Hq : exists q, (q < n)%nat /\ (forall j, (q <= j < n)%nat -> node B j = node B (n - 1)) /\
            bsum (node B) q = bsum (node A) q).
  { assert (Hg : forall d, (d < n)%nat -> (forall j, (n - 1 - d <= j < n)%nat -> node B j = node B (n - 1)) \/
      exists q, (n - 1 - d < q < n)%nat /\ (forall j, (q <= j < n)%nat -> node B j = node B (n - 1)) /\ node B (q - 1) < node B q).
    { induction d; intros Hd.
      - left. intros j Hj. f_equal. lia.
      - destruct (IHd ltac:(lia)) as [Hf|[q (Q1 & Q2 & Q3)]].
        + destruct (Rlt_le_dec (node B (n - 1 - d - 1)) (node B (n - 1 - d))).
          * right. exists (n - 1 - d)%nat. splits; auto; try lia. 
          * left. intros j Hj. destruct (Nat.eq_dec j (n - 1 - S d)) as [->|]; [|apply Hf; lia].
            rewrite <- (Hf (n - 1 - d)%nat) by lia. replace (n - 1 - S d)%nat with (n - 1 - d - 1)%nat by lia.
            assert (node B (n - 1 - d - 1) <= node B (n - 1 - d)).
            { apply stratified_le; auto; lia. } lra.
        + right. exists q. splits; auto; lia. }
    destruct (Hg (n - 1)%nat ltac:(lia)) as [Hf|[q (Q1 & Q2 & Q3)]].
    - exists 0%nat. splits; auto; try lia. intros; apply Hf; lia.
    - exists q. splits; auto; try lia. apply (mo_cut _ _ H); auto; fold n; lia. }
  destruct Hq as [q (Q1 & Q2 & Q3)].
  assert (Hs := mo_sum _ _ H). fold n in Hs.
  rewrite (bsum_split_le (node B) q n) in Hs by lia.
  rewrite (bsum_ext (fun j => node B (q + j)) (fun _ => node B (n - 1)) (n - q)) in Hs by (intros; apply Q2; lia).
  rewrite bsum_const in Hs.
  assert (0 < INR (n - q)) by (apply lt_0_INR; lia).
  assert (Hpq := Hp q ltac:(lia)).
  apply (Rmult_le_reg_l (INR (n - q))); auto. lra.
Qed.

(** ** Standby losses and conduction *)
Section Standby.
  Variables (t : tank R) (hours amb : R).
  Let Ts := t_Ts t.
  Let n := length Ts.
  Let cp := t_nodeCp t.
  Hypothesis Hn : (0 < n)%nat.
  Hypothesis Hcp : cp <> 0.

  (** loss per degree of an end and of a side, relative to the heat capacity of a node *)
  Definition alphaEnd : R := t_UA t * t_fracTop t * hours / t_nodeCp t.
  Definition alphaSide : R :=
    (t_UA t * t_fracSide t + t_fitUA t) / INR (length (t_Ts t)) * hours / t_nodeCp t.
  Definition alpha (k : nat) : R :=
    (if Nat.eqb k 0 then alphaEnd else 0) + (if Nat.eqb k (length (t_Ts t) - 1) then alphaEnd else 0) + alphaSide.

  Lemma standbyTs_length : length (standbyTs t hours amb) = n.
  Proof. unfold standbyTs. rewrite mapi_length, !upd_length. reflexivity. Qed.

  Lemma standbyTs_node k : (k < n)%nat ->
    node (standbyTs t hours amb) k = node Ts k - alpha k * (node Ts k - amb).
  Proof.
    intros Hk. unfold standbyTs. fold Ts. gn.
    rewrite node_mapi by (rewrite !upd_length; fold Ts n; lia).
    fold Ts. rewrite !node_upd by (rewrite ?upd_length; fold Ts n; lia).
    unfold sideLoss, endLoss, numNodes, alpha, alphaEnd, alphaSide. rewrite nofN_R. num_simpl.
    fold Ts n cp.
    assert (Hni : INR n <> 0) by (apply not_0_INR; lia).
    destruct (Nat.eqb k (n - 1)) eqn:E1.
    - assert (E1' := E1). apply Nat.eqb_eq in E1'. rewrite <- E1'.
      destruct (Nat.eqb k 0) eqn:E2.
      + assert (E2' := E2). apply Nat.eqb_eq in E2'. rewrite E2'. field. split; auto.
      + field. split; auto.
    - destruct (Nat.eqb k 0) eqn:E2.
      + assert (E2' := E2). apply Nat.eqb_eq in E2'. rewrite E2'. field. split; auto.
      + field. split; auto.
  Qed.

  Lemma standbyTs_sum :
    cp * Rsum (standbyTs t hours amb) = cp * Rsum Ts -
      (endLoss t hours amb (node Ts 0) + endLoss t hours amb (node Ts (n - 1))
       + Rsum (map (sideLoss t hours amb) Ts)).
  Proof.
    rewrite !Rsum_bsum, standbyTs_length, map_length. fold n.
    rewrite (bsum_ext (node (standbyTs t hours amb)) (fun k => node Ts k - alpha k * (node Ts k - amb)))
      by (intros; apply standbyTs_node; auto).
    rewrite bsum_minus.
    rewrite (bsum_ext (node (map (sideLoss t hours amb) Ts)) (fun k => cp * (alphaSide * (node Ts k - amb)))).
    2:{ intros k Hk. rewrite node_map by auto. unfold sideLoss, alphaSide, numNodes. rewrite nofN_R. num_simpl.
        fold Ts n cp. field. split; auto. apply not_0_INR; lia. }
    rewrite bsum_scal.
    rewrite (bsum_ext (fun k => alpha k * (node Ts k - amb))
      (fun k => (if Nat.eqb k 0 then alphaEnd * (node Ts 0 - amb) else 0) +
                (if Nat.eqb k (n - 1) then alphaEnd * (node Ts (n - 1) - amb) else 0) +
                alphaSide * (node Ts k - amb))).
    2:{ intros k Hk. unfold alpha. fold Ts n.
        destruct (Nat.eqb k 0) eqn:E1; destruct (Nat.eqb k (n - 1)) eqn:E2;
        try apply Nat.eqb_eq in E1; try apply Nat.eqb_eq in E2; subst; try rewrite <- E2; lra. }
    rewrite !bsum_plus.
    rewrite (bsum_upd (fun _ => 0) 0) by lia. rewrite (bsum_upd (fun _ => 0) (n - 1)) by lia.
    rewrite bsum_0.
    unfold endLoss, alphaEnd. num_simpl. fold cp. field. auto.
  Qed.

  (** conduction *)
  Variable tau : R.
  Definition condDelta (k : nat) : R :=
    (if Nat.ltb k (n - 1) then tau * (node Ts (S k) - node Ts k) else 0) -
    (if Nat.eqb k 0 then 0 else tau * (node Ts k - node Ts (k - 1))).

  Lemma conduct_length next : length next = n -> length (conductTs tau Ts next) = n.
  Proof.
    intros H. unfold conductTs. rewrite mapi_length. destruct (Nat.ltb 1 (length Ts)); rewrite ?upd_length; auto.
  Qed.
  Lemma conduct_node next k : length next = n -> (k < n)%nat ->
    node (conductTs tau Ts next) k = node next k + condDelta k.
  Proof.
    intros HL Hk. unfold conductTs. gn. fold n.
    rewrite node_mapi by (destruct (Nat.ltb 1 n); rewrite ?upd_length; lia).
    unfold condDelta. destruct (Nat.ltb 1 n) eqn:E1.
    - apply Nat.ltb_lt in E1. num_simpl.
      rewrite !node_upd by (rewrite ?upd_length; lia).
      destruct (Nat.eqb k (n - 1)) eqn:E2.
      + apply Nat.eqb_eq in E2. subst k.
        replace (Nat.ltb (n - 1) (n - 1)) with false by (symmetry; apply Nat.ltb_ge; lia).
        rewrite andb_false_r.
        replace (Nat.eqb (n - 1) 0) with false by (symmetry; apply Nat.eqb_neq; lia).
        replace (n - 1 - 1)%nat with (n - 2)%nat by lia. lra.
      + apply Nat.eqb_neq in E2.
        replace (Nat.ltb k (n - 1)) with true by (symmetry; apply Nat.ltb_lt; lia). rewrite andb_true_r.
        destruct (Nat.eqb k 0) eqn:E3.
        * apply Nat.eqb_eq in E3. subst k. cbn [Nat.leb]. lra.
        * apply Nat.eqb_neq in E3. replace (Nat.leb 1 k) with true by (symmetry; apply Nat.leb_le; lia).
          rewrite Nat.add_1_r. lra.
    - apply Nat.ltb_ge in E1. assert (n = 1%nat) by lia. assert (k = 0%nat) by lia. subst k.
      cbn [Nat.leb andb Nat.eqb]. replace (Nat.ltb 0 (n - 1)) with false by (symmetry; apply Nat.ltb_ge; lia). lra.
  Qed.
  Lemma condDelta_prefix p : (p <= n)%nat ->
    bsum condDelta p = if (Nat.eqb p 0 || Nat.eqb p n)%bool then 0 else tau * (node Ts p - node Ts (p - 1)).
  Proof.
    induction p; intros Hp; cbn [bsum]; [reflexivity|].
    rewrite IHp by lia. unfold condDelta. replace (Nat.eqb (S p) 0) with false by reflexivity. cbn [orb].
    replace (Nat.eqb p n) with false by (symmetry; apply Nat.eqb_neq; lia). rewrite orb_false_r.
    replace (S p - 1)%nat with p by lia.
    destruct (Nat.eqb (S p) n) eqn:E1.
    - apply Nat.eqb_eq in E1. replace (Nat.ltb p (n - 1)) with false by (symmetry; apply Nat.ltb_ge; lia).
      destruct (Nat.eqb p 0); lra.
    - apply Nat.eqb_neq in E1. replace (Nat.ltb p (n - 1)) with true by (symmetry; apply Nat.ltb_lt; lia).
      destruct (Nat.eqb p 0); lra.
  Qed.
  Lemma conduct_sum next : length next = n -> Rsum (conductTs tau Ts next) = Rsum next.
  Proof.
    intros HL. rewrite !Rsum_bsum, conduct_length, HL by auto.
    rewrite (bsum_ext _ (fun k => node next k + condDelta k)) by (intros; apply conduct_node; auto).
    rewrite bsum_plus, condDelta_prefix by lia. rewrite Nat.eqb_refl, orb_true_r. lra.
  Qed.

  (** the profile after losses and conduction, before mixing *)
  Definition afterStandby (cond : bool) : list R :=
    if cond then conductTs tau Ts (standbyTs t hours amb) else standbyTs t hours amb.
  Lemma afterStandby_length c : length (afterStandby c) = n.
  Proof. unfold afterStandby. destruct c; [apply conduct_length|]; apply standbyTs_length. Qed.
  Lemma afterStandby_node c k : (k < n)%nat ->
    node (afterStandby c) k = node Ts k - alpha k * (node Ts k - amb) + (if c then condDelta k else 0).
  Proof.
    intros. unfold afterStandby. destruct c.
    - rewrite conduct_node by (auto; apply standbyTs_length). rewrite standbyTs_node by auto. reflexivity.
    - rewrite standbyTs_node by auto. lra.
  Qed.

  Variables (lo hi : R).
  Hypothesis Hs : stratified Ts.
  Hypothesis Hr : within lo hi Ts.
  Hypothesis Ha : lo <= amb <= hi.
  Hypothesis Htau : 0 <= tau.
  Hypothesis Hal : forall k, (k < n)%nat -> 0 <= alpha k.

  (** pointwise bound without mixing *)
  Lemma afterStandby_range (c : bool) :
    (forall k, (k < n)%nat -> (if c then if Nat.ltb 1 n then tau else 0 else 0) + alpha k <= 1) ->
    within lo hi (afterStandby c).
  Proof.
    intros Hb. apply within_node. rewrite afterStandby_length. intros k Hk.
    rewrite afterStandby_node by auto. rewrite within_node in Hr. fold n in Hr.
    assert (Hx := Hr k Hk). assert (Ak := Hal k Hk). assert (Bk := Hb k Hk).
    destruct c.
    - unfold condDelta.
      assert (U : (k < n - 1)%nat -> node Ts k <= node Ts (S k) <= hi).
      { intros. split; [apply Hs; fold n; lia|apply Hr; lia]. }
      assert (D : k <> 0%nat -> lo <= node Ts (k - 1) <= node Ts k).
      { intros. split; [apply Hr; lia|]. apply stratified_le; auto; fold n; lia. }
      set (x := node Ts k) in *. set (a := alpha k) in *.
      destruct (Nat.ltb k (n - 1)) eqn:E1; [apply Nat.ltb_lt in E1; specialize (U E1)|];
      (destruct (Nat.eqb k 0) eqn:E2; [|apply Nat.eqb_neq in E2; specialize (D E2)]).
      + assert (E : (1 < n)%nat) by lia. apply Nat.ltb_lt in E. rewrite E in Bk. split; nra.
      + assert (E : (1 < n)%nat) by lia. apply Nat.ltb_lt in E. rewrite E in Bk. split; nra.
      + assert (a <= 1) by (destruct (Nat.ltb 1 n); lra). split; nra.
      + assert (E : (1 < n)%nat) by lia. apply Nat.ltb_lt in E. rewrite E in Bk. split; nra.
    - split; nra.
  Qed.

  (** with mixing afterwards only the loss fractions matter *)
  Lemma afterStandby_mixed_range c B : (forall k, (k < n)%nat -> alpha k <= 1) ->
    mixed_of (afterStandby c) B -> stratified B -> within lo hi B.
  Proof.
    intros Hb HB SB. assert (L := mo_len _ _ HB). rewrite afterStandby_length in L.
    rewrite within_node in Hr. fold n in Hr.
    assert (Hpref : forall p, (p <= n)%nat -> bsum (node (afterStandby c)) p =
              bsum (fun k => node Ts k - alpha k * (node Ts k - amb)) p + (if c then bsum condDelta p else 0)).
    { intros p Hp. rewrite (bsum_ext _ (fun k => (node Ts k - alpha k * (node Ts k - amb)) + (if c then condDelta k else 0)))
        by (intros; apply afterStandby_node; lia).
      rewrite bsum_plus. f_equal. destruct c; auto. apply bsum_0. }
    assert (Hpt : forall k, (k < n)%nat -> lo <= node Ts k - alpha k * (node Ts k - amb) <= hi).
    { intros k Hk. assert (Hx := Hr k Hk). assert (Ak := Hal k Hk). assert (Bk := Hb k Hk). split; nra. }
    assert (Hflux : forall p, (p <= n)%nat -> 0 <= (if c then bsum condDelta p else 0)).
    { intros p Hp. destruct c; [|lra]. rewrite condDelta_prefix by auto.
      destruct (Nat.eqb p 0 || Nat.eqb p n)%bool eqn:E; [lra|].
      apply orb_false_iff in E. destruct E as [E1 E2]. apply Nat.eqb_neq in E1. apply Nat.eqb_neq in E2.
      apply Rmult_le_pos; auto. assert (node Ts (p - 1) <= node Ts p) by (apply stratified_le; auto; fold n; lia). lra. }
    assert (Hfn : (if c then bsum condDelta n else 0) = 0).
    { destruct c; auto. rewrite condDelta_prefix, Nat.eqb_refl, orb_true_r by lia. reflexivity. }
    apply within_node. rewrite L. intros k Hk. split.
    - apply (mixed_lower (afterStandby c) B); auto; rewrite ?afterStandby_length; auto.
      intros p Hp. rewrite Hpref by auto. rewrite <- bsum_const.
      assert (bsum (fun _ => lo) p <= bsum (fun k => node Ts k - alpha k * (node Ts k - amb)) p)
        by (apply bsum_le; intros; apply Hpt; lia).
      specialize (Hflux p Hp). lra.
    - apply (mixed_upper (afterStandby c) B); auto; rewrite ?afterStandby_length; auto.
      intros p Hp. rewrite !Hpref by auto. rewrite Hfn. specialize (Hflux p Hp).
      rewrite (bsum_split_le (fun k => node Ts k - alpha k * (node Ts k - amb)) p n) by auto.
      rewrite <- bsum_const.
      assert (bsum (fun k => node Ts (p + k) - alpha (p + k) * (node Ts (p + k) - amb)) (n - p) <= bsum (fun _ => hi) (n - p))
        by (apply bsum_le; intros; apply Hpt; lia).
      lra.
  Qed.
End Standby.

(** ** The standby phase as a whole *)
Lemma standbyPhase_ok fuel hours seconds amb t t' : wf_tank t ->
  standbyPhase fuel hours seconds amb t = (Ok tt, t') ->
  exists Ts', t' = set_t_stby (t_stby t') (set_t_Ts Ts' t) /\
    mixed_of (afterStandby t hours amb (condTau t seconds) (t_doCond t)) Ts' /\
    (t_doMix t = true -> stratified Ts') /\
    (t_doMix t = false -> Ts' = afterStandby t hours amb (condTau t seconds) (t_doCond t)) /\
    t_stby t' - t_stby t = t_nodeCp t * Rsum (t_Ts t) - t_nodeCp t * Rsum Ts' /\
    (t_doCond t = true -> condTau t seconds <= 1).
Proof.
  intros Hwf E. unfold standbyPhase, bind, get, modify in E. num_simpl.
  assert (Hn := wf_n _ Hwf). assert (Hcp := wf_nodeCp_pos _ Hwf).
  destruct (t_Ts t) as [|x0 r0] eqn:ET; [cbn in Hn; lia|]. rewrite <- ET in *.
  rewrite nsum_Rsum in E. gn.
  set (L := endLoss t hours amb (node (t_Ts t) 0) + endLoss t hours amb (node (t_Ts t) (length (t_Ts t) - 1))
            + Rsum (map (sideLoss t hours amb) (t_Ts t))) in *.
  destruct ((t_doCond t && Rltb 1 (condTau t seconds))%bool) eqn:Ec; [discriminate|].
  set (next := if t_doCond t then _ else _) in E.
  assert (Hnext : next = afterStandby t hours amb (condTau t seconds) (t_doCond t)) by reflexivity.
  rewrite Hnext in E. clear next Hnext.
  set (next := afterStandby t hours amb (condTau t seconds) (t_doCond t)) in *.
  set (t1 := set_t_stby (t_stby t + L) (set_t_Ts next t)) in *.
  assert (HL : length next = length (t_Ts t)) by (apply afterStandby_length; exact Hn).
  assert (Hwf1 : wf_tank t1) by (apply wf_set_stby, wf_set_Ts; auto).
  destruct (mixInversions_ok fuel t1 t' Hwf1 E) as [Ts' (H1 & H2 & H3)].
  exists Ts'. splits; auto.
  - rewrite H1. reflexivity.
  - intros Hd. clear H2 H3. unfold mixInversions, bind, get in E. cbn [t1 set_t_stby set_t_Ts t_doMix] in E.
    unfold t1 in E. cbn in E. rewrite Hd in E. unfold ret in E. injection E as <-.
    apply (f_equal t_Ts) in H1. cbn in H1. congruence.
  - assert (Hs1 : t_stby t' = t_stby t + L) by (rewrite H1; reflexivity).
    assert (Hs2 : t_nodeCp t * Rsum Ts' = t_nodeCp t * Rsum (t_Ts t) - L).
    { rewrite (mixed_of_sum _ _ H2). cbn. unfold next, afterStandby.
      destruct (t_doCond t).
      - rewrite conduct_sum by (auto; apply standbyTs_length). apply standbyTs_sum; auto; lra.
      - apply standbyTs_sum; auto; lra. }
    lra.
  - intros Hd. rewrite Hd in Ec. cbn [andb] in Ec. bcase. lra.
Qed.
