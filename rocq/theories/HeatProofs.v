(** Proofs about adding heat (Tank.cc:655-771). *)

From Coq Require Import ZArith List Bool Reals Lra Lia.
From Verif Require Import Num Base Units Utils Types TankM Spec RList.
Import ListNotations.
Local Open Scope R_scope.

Lemma equalRun_spec (l : list R) : (0 < length l)%nat ->
  (0 < equalRun l <= length l)%nat /\ (forall j, (j < equalRun l)%nat -> node l j = node l 0).
Proof.
  induction l as [|x r IH]; intros Hl; [cbn in Hl; lia|].
  destruct r as [|y r].
  - cbn. split; [lia|]. intros j Hj. replace j with 0%nat by lia. reflexivity.
  - change (equalRun (x :: y :: r)) with (if nneqb x y then 1%nat else S (equalRun (y :: r))).
    unfold nneqb. num_simpl. destruct (Reqb' x y) eqn:E; bcase; cbn [negb].
    + destruct (IH ltac:(cbn; lia)) as [H1 H2]. split; [cbn [length] in *; lia|].
      intros [|j] Hj; [reflexivity|]. change (node (x :: y :: r) (S j)) with (node (y :: r) j).
      rewrite H2 by lia. cbn. auto.
    + cbn [length]. split; [lia|]. intros j Hj. replace j with 0%nat by lia. reflexivity.
Qed.

Lemma filled_refl nd L Ts : (forall j, (nd <= j < length Ts)%nat -> L <= node Ts j) -> filled nd L Ts Ts.
Proof.
  intros H. split; auto. intros j Hj. destruct (Nat.leb nd j) eqn:E; auto. apply Nat.leb_le in E.
  rewrite Rmax_left; auto.
Qed.
Lemma filled_trans nd L1 L2 A B C : filled nd L1 A B -> filled nd L2 B C -> filled nd (Rmax L1 L2) A C.
Proof.
  intros [H1 H2] [H3 H4]. split; [lia|]. intros j Hj. rewrite H4, H2 by lia.
  destruct (Nat.leb nd j); auto. rewrite Rmax_assoc. reflexivity.
Qed.
Lemma filled_strat nd L A B : filled nd L A B -> stratified_from nd A -> stratified_from nd B.
Proof.
  intros [H1 H2] Hs i Hi Hl. rewrite H1 in Hl. rewrite !H2 by lia.
  replace (Nat.leb nd i) with true by (symmetry; apply Nat.leb_le; lia).
  replace (Nat.leb nd (S i)) with true by (symmetry; apply Nat.leb_le; lia).
  apply Rle_max_compat_r. apply Hs; auto.
Qed.

Lemma filled_fillN nd num L Ts : (nd + num <= length Ts)%nat -> (0 < num)%nat -> stratified_from nd Ts ->
  (forall j, (j < num)%nat -> node Ts (nd + j) <= L) ->
  (forall j, (nd + num <= j < length Ts)%nat -> L <= node Ts j) ->
  filled nd L Ts (fillN Ts nd num L).
Proof.
  intros Hn Hnum Hs H1 H2. split; [apply fillN_length|]. intros j Hj. rewrite node_fillN by auto.
  destruct (Nat.leb nd j) eqn:E1; cbn [andb]; auto. apply Nat.leb_le in E1.
  destruct (Nat.ltb j (nd + num)) eqn:E2.
  - apply Nat.ltb_lt in E2. rewrite Rmax_right; auto. replace j with (nd + (j - nd))%nat by lia. apply H1. lia.
  - apply Nat.ltb_ge in E2. rewrite Rmax_left; auto.
Qed.

Lemma Rsum_fillN Ts nd num L x : (nd + num <= length Ts)%nat ->
  (forall j, (j < num)%nat -> node Ts (nd + j) = x) ->
  Rsum (fillN Ts nd num L) = Rsum Ts + INR num * (L - x).
Proof.
  intros Hn Hx. rewrite !Rsum_bsum, fillN_length.
  rewrite (bsum_ext _ (fun k => if (Nat.leb nd k && Nat.ltb k (nd + num))%bool then L else node Ts k))
    by (intros; apply node_fillN; auto).
  rewrite bsum_fill by auto. rewrite (bsum_ext (fun k => node Ts (nd + k)) (fun _ => x)) by auto.
  rewrite bsum_const. lra.
Qed.

Section AddHeat.
  Variables (cp maxT : R) (nd : nat).
  Hypothesis Hcp : 0 < cp.

  Lemma addHeatLoop_spec k : forall num q Ts q' Ts',
    (0 < num)%nat -> (nd < length Ts)%nat -> 0 <= q -> stratified_from nd Ts ->
    (((k + nd + num = length Ts + 1)%nat /\ (nd + num <= length Ts)%nat /\
      (forall j, (j < num)%nat -> node Ts (nd + j) = node Ts nd))
     \/ maxT <= node Ts nd \/ q = 0) ->
    addHeatLoop k cp maxT nd num q Ts = (q', Ts') ->
    0 <= q' <= q /\
    cp * Rsum Ts' = cp * Rsum Ts + (q - q') /\
    (exists L, filled nd L Ts Ts' /\ (L <= maxT \/ L <= node Ts nd)) /\
    (0 < q' -> maxT <= node Ts' nd).
  Proof.
    induction k as [|k IH]; intros num q Ts q' Ts' Hnum Hnd Hq Hs Hinv E; cbn [addHeatLoop] in E.
    - injection E as <- <-. splits; try lra.
      + exists (node Ts nd). split; [|lra]. apply filled_refl. intros j Hj.
        apply (stratified_from_le nd); auto; lia.
      + destruct Hinv as [(H1 & H2 & _)|[H|H]]; [lia|auto|lra].
    - num_simpl. gn. destruct (Rltb 0 q) eqn:Eq; bcase.
      2:{ injection E as <- <-. splits; try lra.
          exists (node Ts nd). split; [|lra]. apply filled_refl. intros j Hj.
          apply (stratified_from_le nd); auto; lia. }
      set (x := node Ts nd) in *.
      set (heatTo := if Nat.ltb (length Ts - 1) (nd + num) then maxT
                     else if Rltb maxT (node Ts (nd + num)) then maxT else node Ts (nd + num)) in *.
      assert (HhT : heatTo <= maxT) by (unfold heatTo; destruct (Nat.ltb _ _); [lra|]; rcase; lra).
      rewrite !nofN_R in E.
      assert (Hnp : 0 < INR num) by (apply lt_0_INR; auto).
      destruct Hinv as [(K1 & K2 & K3)|[Hsat|]]; [| |lra].
      + (* equal-temperature block *)
        assert (Hle : forall j, (nd + num <= j < length Ts)%nat -> heatTo <= node Ts j).
        { intros j Hj. unfold heatTo.
          replace (Nat.ltb (length Ts - 1) (nd + num)) with false by (symmetry; apply Nat.ltb_ge; lia).
          assert (node Ts (nd + num) <= node Ts j) by (apply (stratified_from_le nd); auto; lia).
          rcase; lra. }
        destruct (Rltb q (INR num * cp * (heatTo - x))) eqn:E1; bcase.
        * (* all heat used *)
          set (L := x + q / cp / INR num) in *.
          assert (HL : q = cp * INR num * (L - x)) by (unfold L; field; lra).
          assert (HLx : x < L < heatTo).
          { split; apply (Rmult_lt_reg_l (cp * INR num)); try nra. }
          assert (Hf : filled nd L Ts (fillN Ts nd num L)).
          { apply filled_fillN; auto.
            - intros j Hj. rewrite K3 by auto. lra.
            - intros j Hj. specialize (Hle j Hj). lra. }
          destruct (IH (S num) 0 (fillN Ts nd num L) q' Ts') as (P1 & P2 & P3 & P4); auto; try lia.
          { rewrite fillN_length; auto. }
          { lra. }
          { eapply filled_strat; eauto. }
          rewrite (Rsum_fillN Ts nd num L x) in P2 by auto.
          splits; try lra.
          -- destruct P3 as [L2 [F2 B2]]. exists (Rmax L L2). split; [eapply filled_trans; eauto|].
             left. apply Rmax_lub; [lra|]. destruct B2 as [B2|B2]; [lra|].
             rewrite (proj2 Hf) in B2 by auto. rewrite Nat.leb_refl in B2. fold x in B2.
             rewrite Rmax_right in B2 by lra. lra.
        * destruct (Rltb 0 (INR num * cp * (heatTo - x))) eqn:E2; bcase.
          -- assert (Hx : x < heatTo) by (apply (Rmult_lt_reg_l (INR num * cp)); nra).
             assert (Hf : filled nd heatTo Ts (fillN Ts nd num heatTo)).
             { apply filled_fillN; auto. intros j Hj. rewrite K3 by auto. lra. }
             assert (Hx' : node (fillN Ts nd num heatTo) nd = heatTo).
             { rewrite (proj2 Hf) by auto. rewrite Nat.leb_refl. fold x. rewrite Rmax_right; lra. }
             destruct (IH (S num) (q - INR num * cp * (heatTo - x)) (fillN Ts nd num heatTo) q' Ts')
               as (P1 & P2 & P3 & P4); auto; try lia.
             { rewrite fillN_length; auto. }
             { lra. }
             { eapply filled_strat; eauto. }
             { rewrite fillN_length, Hx'. unfold heatTo.
               destruct (Nat.ltb (length Ts - 1) (nd + num)) eqn:E3; [right; left; lra|].
               apply Nat.ltb_ge in E3.
               destruct (Rltb maxT (node Ts (nd + num))) eqn:E4; bcase; [right; left; lra|].
               left. split; [lia|]. split; [lia|]. intros j Hj.
               rewrite node_fillN by auto.
               replace (Nat.leb nd (nd + j)) with true by (symmetry; apply Nat.leb_le; lia). cbn [andb].
               destruct (Nat.ltb (nd + j) (nd + num)) eqn:E5; auto.
               apply Nat.ltb_ge in E5. f_equal. lia. }
             rewrite (Rsum_fillN Ts nd num heatTo x) in P2 by auto.
             splits; try lra; auto.
             destruct P3 as [L2 [F2 B2]]. exists (Rmax heatTo L2). split; [eapply filled_trans; eauto|].
             left. apply Rmax_lub; auto. destruct B2 as [B2|B2]; auto. rewrite Hx' in B2. lra.
          -- assert (Hx : heatTo <= x).
             { apply Rnot_lt_le. intros Hc. assert (0 < INR num * cp * (heatTo - x)); [|lra].
               apply Rmult_lt_0_compat; nra. }
             destruct (IH (S num) q Ts q' Ts') as (P1 & P2 & P3 & P4); auto; try lia.
             fold x. unfold heatTo in Hx.
             destruct (Nat.ltb (length Ts - 1) (nd + num)) eqn:E3; [right; left; lra|].
             apply Nat.ltb_ge in E3.
             destruct (Rltb maxT (node Ts (nd + num))) eqn:E4; bcase; [right; left; lra|].
             left. split; [lia|]. split; [lia|]. intros j Hj.
             destruct (Nat.eq_dec j num) as [->|]; [|apply K3; lia].
             assert (node Ts nd <= node Ts (nd + num)) by (apply (stratified_from_le nd); auto; lia).
             fold x in H. unfold x in *. lra.
      + (* saturated *)
        assert (Hle0 : INR num * cp * (heatTo - x) <= 0).
        { assert (0 < INR num * cp) by (apply Rmult_lt_0_compat; auto). assert (heatTo - x <= 0) by lra. nra. }
        assert (E1 : Rltb q (INR num * cp * (heatTo - x)) = false) by (apply Rltb_false; lra).
        assert (E2 : Rltb 0 (INR num * cp * (heatTo - x)) = false) by (apply Rltb_false; lra).
        rewrite E1, E2 in E.
        apply (IH (S num) q Ts q' Ts'); auto; try lia.
  Qed.

  Lemma addHeatAboveNode_spec q Ts q' Ts' : (nd < length Ts)%nat -> 0 <= q -> stratified_from nd Ts ->
    addHeatAboveNode_list cp q nd maxT Ts = (q', Ts') ->
    0 <= q' <= q /\
    cp * Rsum Ts' = cp * Rsum Ts + (q - q') /\
    (exists L, filled nd L Ts Ts' /\ (L <= maxT \/ L <= node Ts nd)) /\
    (0 < q' -> maxT <= node Ts' nd).
  Proof.
    intros Hnd Hq Hs E. unfold addHeatAboveNode_list in E.
    destruct (equalRun_spec (skipn nd Ts)) as [H1 H2]; [rewrite skipn_length; lia|].
    rewrite skipn_length in H1. set (num := equalRun (skipn nd Ts)) in *.
    apply (addHeatLoop_spec (length Ts + 1 - (nd + num)) num q Ts q' Ts'); auto; try lia.
    left. splits; try lia. intros j Hj. specialize (H2 j Hj). rewrite !node_skipn in H2.
    rewrite Nat.add_0_r in H2. exact H2.
  Qed.

  Lemma addExtraLoop_spec k : forall num q Ts q' Ts',
    (0 < num)%nat -> (nd < length Ts)%nat -> 0 <= q -> stratified_from nd Ts ->
    (((k + nd + num = length Ts + 1)%nat /\ (nd + num <= length Ts)%nat /\
      (forall j, (j < num)%nat -> node Ts (nd + j) = node Ts nd)) \/ q = 0) ->
    addExtraLoop k cp nd num q Ts = (q', Ts') ->
    q' = 0 /\ cp * Rsum Ts' = cp * Rsum Ts + q /\ (exists L, filled nd L Ts Ts').
  Proof.
    induction k as [|k IH]; intros num q Ts q' Ts' Hnum Hnd Hq Hs Hinv E; cbn [addExtraLoop] in E.
    - injection E as <- <-. destruct Hinv as [(H1 & H2 & _)|H]; [lia|]. subst q.
      splits; try lra. exists (node Ts nd). apply filled_refl. intros j Hj.
      apply (stratified_from_le nd); auto; lia.
    - num_simpl. gn. destruct (Rltb 0 q) eqn:Eq; bcase.
      2:{ injection E as <- <-. splits; try lra.
          exists (node Ts nd). apply filled_refl. intros j Hj. apply (stratified_from_le nd); auto; lia. }
      destruct Hinv as [(K1 & K2 & K3)|]; [|lra].
      set (x := node Ts nd) in *. rewrite !nofN_R in E.
      assert (Hnp : 0 < INR num) by (apply lt_0_INR; auto).
      destruct (Nat.ltb (length Ts - 1) (nd + num)) eqn:E3.
      + (* no node above the block *)
        apply Nat.ltb_lt in E3.
        set (L := x + q / cp / INR num) in *.
        assert (HL : q = cp * INR num * (L - x)) by (unfold L; field; lra).
        assert (HLx : x < L) by (apply (Rmult_lt_reg_l (cp * INR num)); nra).
        assert (E1 : Rltb q (cp * INR num * (L - x)) = false) by (apply Rltb_false; lra).
        assert (E2 : Rltb 0 (cp * INR num * (L - x)) = true) by (apply Rltb_true; lra).
        rewrite E1, E2 in E.
        assert (Hf : filled nd L Ts (fillN Ts nd num L)).
        { apply filled_fillN; auto.
          - intros j Hj. rewrite K3 by auto. lra.
          - intros j Hj. lia. }
        destruct (IH (S num) (q - cp * INR num * (L - x)) (fillN Ts nd num L) q' Ts') as (P1 & P2 & P3); auto; try lia.
        { rewrite fillN_length; auto. }
        { lra. }
        { eapply filled_strat; eauto. }
        { right. lra. }
        rewrite (Rsum_fillN Ts nd num L x) in P2 by auto.
        splits; try lra. destruct P3 as [L2 F2]. exists (Rmax L L2). eapply filled_trans; eauto.
      + apply Nat.ltb_ge in E3. set (heatTo := node Ts (nd + num)) in *.
        assert (Hge : forall j, (nd + num <= j < length Ts)%nat -> heatTo <= node Ts j)
          by (intros; apply (stratified_from_le nd); auto; lia).
        destruct (Rltb q (cp * INR num * (heatTo - x))) eqn:E1; bcase.
        * set (L := x + q / cp / INR num) in *.
          assert (HL : q = cp * INR num * (L - x)) by (unfold L; field; lra).
          assert (HLx : x < L < heatTo) by (split; apply (Rmult_lt_reg_l (cp * INR num)); nra).
          assert (Hf : filled nd L Ts (fillN Ts nd num L)).
          { apply filled_fillN; auto.
            - intros j Hj. rewrite K3 by auto. lra.
            - intros j Hj. specialize (Hge j Hj). lra. }
          destruct (IH (S num) 0 (fillN Ts nd num L) q' Ts') as (P1 & P2 & P3); auto; try lia.
          { rewrite fillN_length; auto. }
          { lra. }
          { eapply filled_strat; eauto. }
          rewrite (Rsum_fillN Ts nd num L x) in P2 by auto.
          splits; try lra. destruct P3 as [L2 F2]. exists (Rmax L L2). eapply filled_trans; eauto.
        * destruct (Rltb 0 (cp * INR num * (heatTo - x))) eqn:E2; bcase.
          -- assert (Hx : x < heatTo) by (apply (Rmult_lt_reg_l (cp * INR num)); nra).
             assert (Hf : filled nd heatTo Ts (fillN Ts nd num heatTo)).
             { apply filled_fillN; auto. intros j Hj. rewrite K3 by auto. lra. }
             destruct (IH (S num) (q - cp * INR num * (heatTo - x)) (fillN Ts nd num heatTo) q' Ts')
               as (P1 & P2 & P3); auto; try lia.
             { rewrite fillN_length; auto. }
             { lra. }
             { eapply filled_strat; eauto. }
             { left. rewrite fillN_length. split; [lia|]. split; [lia|]. intros j Hj.
               assert (Hx' : node (fillN Ts nd num heatTo) nd = heatTo).
               { rewrite (proj2 Hf) by auto. rewrite Nat.leb_refl. fold x. rewrite Rmax_right; lra. }
               rewrite Hx'. rewrite node_fillN by auto.
               replace (Nat.leb nd (nd + j)) with true by (symmetry; apply Nat.leb_le; lia). cbn [andb].
               destruct (Nat.ltb (nd + j) (nd + num)) eqn:E5; auto.
               apply Nat.ltb_ge in E5. unfold heatTo. f_equal. lia. }
             rewrite (Rsum_fillN Ts nd num heatTo x) in P2 by auto.
             splits; try lra. destruct P3 as [L2 F2]. exists (Rmax heatTo L2). eapply filled_trans; eauto.
          -- assert (Hx : heatTo <= x).
             { apply Rnot_lt_le. intros Hc. assert (0 < cp * INR num * (heatTo - x)); [|lra].
               apply Rmult_lt_0_compat; nra. }
             destruct (IH (S num) q Ts q' Ts') as (P1 & P2 & P3); auto; try lia.
             left. split; [lia|]. split; [lia|]. intros j Hj.
             destruct (Nat.eq_dec j num) as [->|]; [|apply K3; lia].
             assert (node Ts nd <= node Ts (nd + num)) by (apply (stratified_from_le nd); auto; lia).
             unfold x, heatTo in *. lra.
  Qed.

  Lemma addExtra_spec q Ts : (nd < length Ts)%nat -> 0 <= q -> stratified_from nd Ts ->
    let Ts' := snd (addExtraLoop (length Ts + 1 - (nd + equalRun (skipn nd Ts))) cp nd
                      (equalRun (skipn nd Ts)) q Ts) in
    cp * Rsum Ts' = cp * Rsum Ts + q /\ (exists L, filled nd L Ts Ts').
  Proof.
    intros Hnd Hq Hs.
    destruct (equalRun_spec (skipn nd Ts)) as [H1 H2]; [rewrite skipn_length; lia|].
    rewrite skipn_length in H1. set (num := equalRun (skipn nd Ts)) in *.
    destruct (addExtraLoop (length Ts + 1 - (nd + num)) cp nd num q Ts) as [q' Ts'] eqn:E. cbn.
    destruct (addExtraLoop_spec (length Ts + 1 - (nd + num)) num q Ts q' Ts') as (P1 & P2 & P3); auto; try lia.
    left. splits; try lia. intros j Hj. specialize (H2 j Hj). rewrite !node_skipn in H2.
    rewrite Nat.add_0_r in H2. exact H2.
  Qed.
End AddHeat.
