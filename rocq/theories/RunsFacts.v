(** Proofs of the theorems stated in PropsRuns.v: Properties of runs of several steps *)

From Coq Require Import ZArith List Bool Reals Lra Lia Floats.
From Verif Require Import Num FNum Base Units Utils Types TankM Logic HeatSrc Step Spec RList.
From Verif Require Import FrameProofs SimFrame ControlProofs SeqProofs Example.
Import ListNotations.
Local Open Scope R_scope.
(** value of field f of source i in state v *)
Definition field (f : hsrc R -> R) (i : nat) (v : hpwh R) : R :=
  match nth_error (w_hs v) i with Some h => f h | None => 0 end.

Lemma some3 (a b c a' b' c' : R) : a = a' -> b = b' -> c = c' -> Some (a, b, c) = Some (a', b', c').
Proof. congruence. Qed.
Lemma sums_eq (l : list (hpwh R * rowIn)) : forall s,
  let s' := fold_left (fun s '(w, r) => addSums w r s) l s in
  s_env s' = s_env s + Rsum (map (fun p => w_envE (fst p)) l) /\
  s_stby s' = s_stby s + Rsum (map (fun p => w_stbyE (fst p)) l) /\
  s_out s' = s_out s + Rsum (map (fun p => t_outletT (w_tank (fst p)) * r_draw (snd p)) l) /\
  s_draw s' = s_draw s + Rsum (map (fun p => r_draw (snd p)) l) /\
  (Forall (fun p => length (w_hs (fst p)) = length (s_hs s)) l ->
   length (s_hs s') = length (s_hs s) /\
   forall i a b c, nth_error (s_hs s) i = Some (a, b, c) ->
     nth_error (s_hs s') i = Some (a + Rsum (map (fun p => field h_runtime i (fst p)) l),
                                   b + Rsum (map (fun p => field h_eIn i (fst p)) l),
                                   c + Rsum (map (fun p => field h_eOut i (fst p)) l))).
Proof.
  induction l as [|[w r] l IH]; intros s; cbn [fold_left].
  - unfold Rsum; cbn. splits; try lra. intros _. split; auto. intros i a b c E. rewrite E. apply some3; lra.
  - specialize (IH (addSums w r s)). cbv zeta in IH |- *. destruct IH as (A1 & A2 & A3 & A4 & A5).
    assert (HR : forall (f : hpwh R * rowIn -> R), Rsum (map f ((w, r) :: l)) = f (w, r) + Rsum (map f l)) by (intros; reflexivity).
    rewrite A1, A2, A3, A4. rewrite !HR.
    cbn [addSums s_env s_stby s_out s_draw fst snd]. num_simpl. splits; try lra.
    intros HF. inversion HF as [|? ? HL HF']; subst. cbn [fst] in HL.
    assert (HLs : length (s_hs (addSums w r s)) = length (s_hs s)).
    { cbn. rewrite map_length, combine_length, HL. lia. }
    destruct A5 as [B1 B2]. { eapply Forall_impl; [|exact HF']. cbn beta. intros p Hp. rewrite HLs; exact Hp. }
    split; [congruence|]. intros i a b c E.
    assert (Ei : exists h, nth_error (w_hs w) i = Some h).
    { destruct (nth_error (w_hs w) i) eqn:E1; eauto. apply nth_error_None in E1.
      assert (nth_error (s_hs s) i <> None) by congruence. apply nth_error_Some in H. lia. }
    destruct Ei as (h & Eh).
    assert (E2 : nth_error (s_hs (addSums w r s)) i = Some (a + h_runtime h, b + h_eIn h, c + h_eOut h)).
    { cbn [addSums s_hs].
      assert (EC : nth_error (combine (s_hs s) (w_hs w)) i = Some ((a, b, c), h)).
      { revert E Eh. generalize (s_hs s), (w_hs w). clear. revert i. induction i as [|i IHi]; intros [|x l0] [|y l1]; cbn; try discriminate.
        - intros E1 E3. inversion E1; inversion E3; reflexivity.
        - apply IHi. }
      rewrite (map_nth_error _ _ _ EC). reflexivity. }
    rewrite (B2 _ _ _ _ E2), !HR. cbn [fst].
    assert (HFd : forall f, field f i w = f h) by (intros; unfold field; rewrite Eh; reflexivity). rewrite !HFd. apply some3; lra.
Qed.

Lemma nth_init {A B} (l : list A) (c : B) i : (i < length l)%nat -> nth_error (map (fun _ => c) l) i = Some c.
Proof. revert i; induction l; intros [|i] Hi; cbn in *; try lia; auto. apply IHl. lia. Qed.

Lemma map_combine_l {A B C} (f : A -> C) (l : list A) : forall (r : list B), length l = length r ->
  map (fun p => f (fst p)) (combine l r) = map f l.
Proof. induction l; intros [|b r] E; cbn in *; auto; try discriminate. f_equal. apply IHl. lia. Qed.
Lemma map_combine_r {A B C} (f : B -> C) (l : list A) : forall (r : list B), length l = length r ->
  map (fun p => f (snd p)) (combine l r) = map f r.
Proof. induction l; intros [|b r] E; cbn in *; auto; try discriminate. f_equal. apply IHl. lia. Qed.

Lemma runNSteps_inv (T : Type) (N : Num T) fuel rows (w w' : hpwh T) :
  runNSteps fuel rows w = (Ok tt, w') ->
  exists ws wl avg, runs fuel rows w ws wl /\
    let s := fold_left (fun s '(w, r) => addSums w r s) (combine ws rows)
               (mksums (nofZ 0) (nofZ 0) (nofZ 0) (nofZ 0) (map (fun _ => (nofZ 0, nofZ 0, nofZ 0)) (w_hs w))) in
    div_chk (s_out s) (s_draw s) = Ok avg /\
    w' = set_w_hs (map (fun '(h, (a, b, c)) => set_h_eOut c (set_h_eIn b (set_h_runtime a h))) (combine (w_hs wl) (s_hs s)))
           (set_w_tank (set_t_outletT avg (w_tank wl)) (set_w_stbyE (s_stby s) (set_w_envE (s_env s) wl))).
Proof.
  intros E. unfold runNSteps in E.
  apply bind_inv in E. destruct E as (w0 & w0' & E0 & E). apply get_inv in E0. destruct E0 as [-> ->].
  apply bind_inv in E. destruct E as (s & wl & E1 & E). apply foldM_runs in E1. destruct E1 as (ws & HR & Es).
  apply bind_inv in E. destruct E as (avg & wl' & E2 & E). apply lift_inv in E2. destruct E2 as [-> E2].
  apply modify_inv in E. exists ws, wl, avg. split; [exact HR|]. cbv zeta. rewrite <- Es. auto.
Qed.

Lemma C23_sums_fact : forall fuel rows (w w' : hpwh R),
  runNSteps fuel rows w = (Ok tt, w') ->
  exists ws wl, runs fuel rows w ws wl /\
    w_envE w' = Rsum (map w_envE ws) /\ w_stbyE w' = Rsum (map w_stbyE ws) /\
    length (w_hs w') = length (w_hs w) /\
    (forall i h', nth_error (w_hs w') i = Some h' ->
       h_runtime h' = Rsum (map (field h_runtime i) ws) /\
       h_eIn h' = Rsum (map (field h_eIn i) ws) /\
       h_eOut h' = Rsum (map (field h_eOut i) ws) /\
       exists h, nth_error (w_hs wl) i = Some h /\
         h' = set_h_eOut (h_eOut h') (set_h_eIn (h_eIn h') (set_h_runtime (h_runtime h') h))) /\
    w' = set_w_hs (w_hs w') (set_w_tank (set_t_outletT (t_outletT (w_tank w')) (w_tank wl))
           (set_w_stbyE (w_stbyE w') (set_w_envE (w_envE w') wl))).
Proof.
  intros fuel rows w w' E. apply runNSteps_inv in E. destruct E as (ws & wl & avg & HR & E1 & E2). cbv zeta in *.
  set (s := fold_left _ _ _) in *. destruct (runs_nhs _ _ _ _ _ HR) as (L1 & L2 & L3).
  pose proof (sums_eq (combine ws rows) (mksums 0 0 0 0 (map (fun _ => (0, 0, 0)) (w_hs w)))) as HS. cbv zeta in HS. num_simpl.
  change (fold_left _ _ _) with s in HS. destruct HS as (A1 & A2 & _ & _ & A5). cbn [s_env s_stby s_hs] in *.
  rewrite (map_combine_l w_envE) in A1 by auto. rewrite (map_combine_l w_stbyE) in A2 by auto.
  destruct A5 as [B1 B2].
  { rewrite Forall_forall in L1 |- *. intros [v r] Hi. cbn. rewrite map_length. apply L1. apply in_combine_l in Hi. auto. }
  rewrite map_length in B1.
  exists ws, wl. split; [exact HR|].
  assert (HW : w_hs w' = map (fun '(h, (a, b, c)) => set_h_eOut c (set_h_eIn b (set_h_runtime a h))) (combine (w_hs wl) (s_hs s))) by (rewrite E2; reflexivity).
  splits.
  - rewrite E2. wsimpl. lra.
  - rewrite E2. wsimpl. lra.
  - rewrite HW, map_length, combine_length, B1, L2. lia.
  - intros i h' Ei. rewrite HW in Ei.
    assert (Hi : (i < length (w_hs w))%nat).
    { assert (nth_error (map (fun '(h, (a, b, c)) => set_h_eOut c (set_h_eIn b (set_h_runtime a h))) (combine (w_hs wl) (s_hs s))) i <> None) by congruence.
      apply nth_error_Some in H. rewrite map_length, combine_length, B1, L2 in H. lia. }
    specialize (B2 i 0 0 0 (nth_init _ _ _ Hi)).
    rewrite !(map_combine_l (field _ i)) in B2 by auto.
    destruct (nth_error (w_hs wl) i) as [h|] eqn:Eh; [|apply nth_error_None in Eh; lia].
    assert (EC : forall A B (l : list A) (r : list B) i x y, nth_error l i = Some x -> nth_error r i = Some y -> nth_error (combine l r) i = Some (x, y)).
    { clear. induction l; intros [|y r] [|i] ? ?; cbn; try discriminate; auto. intros F1 F2; inversion F1; inversion F2; reflexivity. }
    pose proof (EC _ _ _ _ _ _ _ Eh B2) as E3.
    apply map_nth_error with (f := fun '(h, (a, b, c)) => set_h_eOut c (set_h_eIn b (set_h_runtime a h))) in E3.
    rewrite Ei in E3. inversion E3 as [E4]. splits; try (wsimpl; lra).
    exists h. split; auto.
  - rewrite E2. wsimpl. reflexivity.
Qed.
Lemma C24_outlet_mean_fact : forall fuel rows (w w' : hpwh R),
  runNSteps fuel rows w = (Ok tt, w') ->
  exists ws wl, runs fuel rows w ws wl /\
    t_outletT (w_tank w') * Rsum (map r_draw rows) =
      Rsum (map (fun '(v, r) => t_outletT (w_tank v) * r_draw r) (combine ws rows)) /\
    Rsum (map r_draw rows) <> 0.
Proof.
  intros fuel rows w w' E. apply runNSteps_inv in E. destruct E as (ws & wl & avg & HR & E1 & E2). cbv zeta in *.
  set (s := fold_left _ _ _) in *. destruct (runs_nhs _ _ _ _ _ HR) as (L1 & L2 & L3).
  pose proof (sums_eq (combine ws rows) (mksums 0 0 0 0 (map (fun _ => (0, 0, 0)) (w_hs w)))) as HS. cbv zeta in HS. num_simpl.
  change (fold_left _ _ _) with s in HS. destruct HS as (_ & _ & A3 & A4 & _). cbn [s_out s_draw] in *.
  rewrite (map_combine_r r_draw) in A4 by auto.
  exists ws, wl. split; [exact HR|].
  assert (EA : t_outletT (w_tank w') = avg) by (rewrite E2; reflexivity). rewrite EA.
  unfold div_chk in E1. num_simpl. destruct (Reqb' (s_draw s) 0) eqn:EQ; cbn in E1; [discriminate|]. bcase.
  inversion E1 as [E3]. rewrite A4 in *.
  assert (EM : map (fun '(v, r) => t_outletT (w_tank v) * r_draw r) (combine ws rows) =
               map (fun p => t_outletT (w_tank (fst p)) * r_draw (snd p)) (combine ws rows))
    by (apply map_ext; intros []; reflexivity).
  rewrite EM, A3. split; [field; lra|lra].
Qed.
Lemma C24_succeeds_fact : forall fuel rows (w : hpwh R) ws wl,
  runs fuel rows w ws wl -> Rsum (map r_draw rows) <> 0 -> exists w', runNSteps fuel rows w = (Ok tt, w').
Proof.
  intros fuel rows w ws wl HR HD.
  assert (HF : forall s, foldM rows (fun r s => bind (runOneStepInlet fuel (r_inletT r) (row_step r)) (fun _ => bind get (fun w => ret (addSums w r s)))) s w =
     (Ok (fold_left (fun s '(w, r) => addSums w r s) (combine ws rows) s), wl)).
  { clear HD. induction HR as [w|r rows w w1 ws w' E HR IH]; intros s; cbn [foldM combine fold_left]; [reflexivity|].
    unfold bind at 1. unfold bind at 1. rewrite E. unfold bind at 1, get at 1, ret at 1. apply IH. }
  unfold runNSteps. unfold bind at 1, get at 1. unfold bind at 1. rewrite HF. clear HF.
  pose proof (sums_eq (combine ws rows) (mksums 0 0 0 0 (map (fun _ => (0, 0, 0)) (w_hs w)))) as HS. cbv zeta in HS. num_simpl.
  set (s := fold_left _ _ _) in *. destruct HS as (_ & _ & _ & A4 & _). cbn [s_draw] in A4.
  destruct (runs_nhs _ _ _ _ _ HR) as (_ & _ & L3). rewrite (map_combine_r r_draw) in A4 by auto.
  unfold bind at 1, lift at 1, div_chk. num_simpl. destruct (Reqb' (s_draw s) 0) eqn:EQ; bcase; [lra|].
  cbn [negb]. unfold modify. eauto.
Qed.
Definition exRows (T : Type) (N : Num T) : list (rowIn (T:=T)) :=
  [mkrow (nofZ 10) (nofZ 5) (nofZ 20) (nofZ 20) 0; mkrow (nofZ 10) (nofZ 3) (nofZ 20) (nofZ 20) 0]%Z.
Lemma C23_example_fact : exists w', runNSteps (T:=float) 100 (exRows float FNum) (exUnit (map fofZ [20; 30; 45; 50]%Z)) = (Ok tt, w') /\
  map h_runtime (w_hs w') = map fofZ [0; 0; 2]%Z.
Proof. eexists; split; [vm_compute; reflexivity|vm_compute; reflexivity]. Qed.

Lemma mixInversions_outlet (T : Type) (N : Num T) fuel (t t' : tank T) : mixInversions fuel t = (Ok tt, t') -> t_outletT t' = t_outletT t.
Proof.
  unfold mixInversions, bind, get, lift, modify, ret. destruct (t_doMix t); [|intros E; inversion E; auto].
  destruct (mixLoop fuel _ _); intros E; inversion E; reflexivity.
Qed.
Lemma updateNodes_no_draw (T : Type) (N : Num T) fuel hr sec draw inT amb v2 i2 (t t' : tank T) :
  nltb (nofZ 0) draw = false -> updateNodes fuel hr sec draw inT amb v2 i2 t = (Ok tt, t') -> t_outletT t' = t_outletT t.
Proof.
  intros HD E. unfold updateNodes, drawPhase in E. rewrite HD in E. unfold bind at 1, ret at 1 in E.
  unfold standbyPhase in E. unfold bind at 1, get at 1 in E. destruct (t_Ts t) as [|b r]; [discriminate|].
  cbv zeta in E. destruct (t_doCond t && _)%bool; [discriminate|].
  unfold bind at 1, modify at 1 in E. apply mixInversions_outlet in E. exact E.
Qed.

Lemma C24_no_draw_step_fact : forall (T : Type) (N : Num T) fuel (x : stepIn (T:=T)) (w w' : hpwh T),
  nltb (nofZ 0) (i_draw x) = false -> runOneStep fuel x w = (Ok tt, w') -> t_outletT (w_tank w') = nofZ 0.
Proof.
  intros T N fuel x w w' HD E. apply step_keeps in E. destruct E as (w1 & w2 & a & HP & _ & _ & HK).
  destruct HK as (HK & _). rewrite HK. destruct HP as (l & t & sc & -> & _ & _ & HU & _).
  apply updateNodes_no_draw in HU; auto.
Qed.
Lemma C24_no_draw_run_fact : forall fuel rows (w w' : hpwh float),
  Forall (fun r => r_draw r = 0%float) rows -> runNSteps fuel rows w = (Ok tt, w') ->
  is_nan (t_outletT (w_tank w')) = true.
Proof.
  intros fuel rows w w' HF E. apply runNSteps_inv in E. destruct E as (ws & wl & avg & HR & E1 & E2). cbv zeta in *.
  assert (HS : forall s, s_out s = 0%float -> s_draw s = 0%float ->
     s_out (fold_left (fun s '(w, r) => addSums w r s) (combine ws rows) s) = 0%float /\
     s_draw (fold_left (fun s '(w, r) => addSums w r s) (combine ws rows) s) = 0%float).
  { clear E1 E2. induction HR as [w|r rows w w1 ws w'' E HR IH]; intros s S1 S2; cbn [combine fold_left]; auto.
    inversion HF as [|? ? Hr HF']; subst. unfold runOneStepInlet, bind, modify in E.
    assert (HO : t_outletT (w_tank w1) = nofZ 0) by (eapply C24_no_draw_step_fact; [|exact E]; cbn [row_step i_draw]; rewrite Hr; reflexivity).
    apply IH; auto; unfold addSums; cbn [s_out s_draw]; rewrite Hr, ?HO, ?S1, ?S2; reflexivity. }
  match type of E1 with context [fold_left ?f ?l ?s] => destruct (HS s eq_refl eq_refl) as [H1 H2] end.
  rewrite H1, H2 in E1. unfold div_chk in E1. cbn in E1. inversion E1 as [E3]. rewrite E2. wsimpl. rewrite <- E3. reflexivity.
Qed.
Lemma C24_nan_example_fact : exists w', runNSteps (T:=float) 100 [mkrow (fofZ 10) 0%float (fofZ 20) (fofZ 20) 0%Z] (exUnit (map fofZ [20; 30; 45; 50]%Z)) = (Ok tt, w').
Proof. eexists; vm_compute; reflexivity. Qed.
