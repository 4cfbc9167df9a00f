(** Proofs of the theorems stated in PropsLegacy.v: Properties of the preset units with integrated heat sources *)

From Coq Require Import ZArith QArith Qreals String List Bool Reals Lra Lia Floats Sorting.Sorted.
From Verif Require Import Num FNum Base Units Utils Types TankM Logic HeatSrc Step Setters Config Perf Rating Fitter DataModel Init Legacy LegacyTable Spec SpecState SpecDist SpecEnergy SpecStep.
From Verif Require Import RList FrameProofs SimFrame MixProofs DistProofs TankFacts ControlProofs SeqProofs WholeStep Progress StepProgress EnergyFacts SettersFacts SourcesFacts ConfigFacts PerfFacts InitsFacts InitGenFacts Example.
Import ListNotations.
Local Open Scope R_scope.
(** ** The constants as rational numbers *)
Fixpoint qv (e : lnum) : Q :=
  match e with
  | Lit n d => Qmake n (Z.to_pos d)
  | FtoC x => Qred ((qv x - 32) / (Qmake 9 5))
  | DFtoDC x => Qred (qv x / (Qmake 9 5))
  | Gal x => Qred (qv x * (Qmake 378541 100000))
  | UAfc x => Qred (qv x * (Qmake 18 10) / (Qmake 9478 10000))
  | LAdd x y => Qred (qv x + qv y)
  | LSub x y => Qred (qv x - qv y)
  | LMul x y => Qred (qv x * qv y)
  | LDiv x y => Qred (qv x / qv y)
  end%Q.
Fixpoint qok (e : lnum) : bool :=
  match e with
  | Lit n d => Z.ltb 0 d
  | FtoC x | DFtoDC x | Gal x | UAfc x => qok x
  | LAdd x y | LSub x y | LMul x y => qok x && qok y
  | LDiv x y => qok x && qok y && negb (Qeq_bool (qv y) 0)
  end.
Lemma Q2R_red q : Q2R (Qred q) = Q2R q.
Proof. apply Qeq_eqR, Qred_correct. Qed.
Lemma qv_ok e : qok e = true -> Q2R (qv e) = lval (T:=R) e.
Proof.
  induction e as [n d|x IH|x IH|x IH|x IH|x IHx y IHy|x IHx y IHy|x IHx y IHy|x IHx y IHy]; cbn [qok qv lval]; intros HO.
  - apply Z.ltb_lt in HO. unfold Q2R. cbn [Qnum Qden]. rewrite Z2Pos.id by auto. destruct (Z.eqb_spec d 1) as [->|HN]; num_simpl; [field|]. unfold dec. num_simpl. field. apply not_0_IZR. lia.
  - rewrite Q2R_red, Q2R_div by discriminate. rewrite Q2R_minus, IH by auto. unfold F_TO_C, offsetF, FperC. num_simpl. unfold Q2R. cbn. field.
  - rewrite Q2R_red, Q2R_div by discriminate. rewrite IH by auto. unfold dF_TO_dC, FperC. num_simpl. unfold Q2R. cbn. field.
  - rewrite Q2R_red, Q2R_mult. rewrite IH by auto. unfold GAL_TO_L, L_per_gal, dec. num_simpl. unfold Q2R. cbn. field.
  - rewrite Q2R_red, Q2R_div by discriminate. rewrite Q2R_mult, IH by auto. unfold UAf_TO_UAc, dec. num_simpl. unfold Q2R. cbn. field.
  - apply andb_prop in HO. rewrite Q2R_red, Q2R_plus, IHx, IHy by tauto. reflexivity.
  - apply andb_prop in HO. rewrite Q2R_red, Q2R_minus, IHx, IHy by tauto. reflexivity.
  - apply andb_prop in HO. rewrite Q2R_red, Q2R_mult, IHx, IHy by tauto. reflexivity.
  - apply andb_prop in HO. destruct HO as (HO & HN). apply andb_prop in HO. rewrite Q2R_red. rewrite Q2R_div.
    + rewrite IHx, IHy by tauto. reflexivity.
    + apply Qeq_bool_neq. destruct (Qeq_bool (qv y) 0); [discriminate HN|reflexivity].
Qed.
(** comparisons *)
Definition qlt (a b : Q) : bool := negb (Qle_bool b a).
Lemma qlt_R a b : qlt a b = true -> Q2R a < Q2R b.
Proof. unfold qlt. intros E. apply Qlt_Rlt. apply Qnot_le_lt. intros HL. apply Qle_bool_iff in HL. rewrite HL in E. discriminate. Qed.
Lemma qle_R a b : Qle_bool a b = true -> Q2R a <= Q2R b.
Proof. intros E. apply Qle_Rle, Qle_bool_iff; auto. Qed.
Lemma Q2R_Z z : Q2R (inject_Z z) = IZR z.
Proof. unfold Q2R, inject_Z. cbn. field. Qed.
Lemma Q2R_0 : Q2R 0 = 0. Proof. unfold Q2R; cbn; lra. Qed.

(** ** Heat distributions *)
Lemma nodes_good_from nN s : 0 < nN -> 0 < s -> forall l i, Forall (fun x => 0 <= x) l -> l <> [] ->
  let d := wd_of_nodes_from (T:=R) nN s i l in d <> [] /\ (forall pr, pr < INR (S i) / nN -> ascending pr d) /\ Forall (fun p => 0 <= snd p) d /\ (Exists (fun x => 0 < x) l -> Exists (fun p => 0 < snd p) d).
Proof.
  intros HN HS. induction l as [|x l IH]; intros i HF HL; [congruence|]. inversion HF as [|? ? Hx HF']; subst. cbv zeta in *.
  assert (HW : forall y, 0 <= y -> 0 <= nN * y / s) by (intros y Hy; apply Rmult_le_pos; [nra|left; apply Rinv_0_lt_compat; auto]).
  assert (HP : forall y, 0 < y -> 0 < nN * y / s) by (intros y Hy; apply Rmult_lt_0_compat; [nra|apply Rinv_0_lt_compat; auto]).
  destruct l as [|y l].
  - cbn [wd_of_nodes_from]. rewrite nofN_R. num_simpl. split; [discriminate|]. split; [|split].
    + intros pr HX. cbn [ascending fst]. split; auto.
    + apply Forall_cons; [cbn [snd]; auto|apply Forall_nil].
    + intros HE. inversion HE as [? ? HY|? ? HY]; subst; [|inversion HY]. apply Exists_cons_hd. cbn [snd]. auto.
  - specialize (IH (S i) HF' ltac:(discriminate)). destruct IH as (I1 & I2 & I3 & I4). cbn [wd_of_nodes_from] in *. rewrite !nofN_R in *.
    set (rest := match l with [] => _ | _ :: _ => _ end) in *.
    assert (HI : INR (S i) / nN < INR (S (S i)) / nN) by (apply Rmult_lt_compat_r; [apply Rinv_0_lt_compat; auto|rewrite (S_INR (S i)); lra]).
    unfold nneqb. num_simpl. destruct (Reqb' x y) eqn:E; cbn [negb].
    + apply Reqb'_true in E. subst y. split; auto. split; [|split; auto].
      * intros pr HX. apply I2. lra.
      * intros HE. apply I4. inversion HE as [? ? HY|? ? HY]; subst; auto.
    + split; [discriminate|]. split; [|split].
      * intros pr HX. cbn [ascending fst]. split; auto.
      * apply Forall_cons; auto. cbn [snd]. auto.
      * intros HE. inversion HE as [? ? HY|? ? HY]; subst; [apply Exists_cons_hd; cbn [snd]; auto|apply Exists_cons_tl; auto].
Qed.
Lemma nsum_pos (l : list R) : Forall (fun x => 0 <= x) l -> Exists (fun x => 0 < x) l -> 0 < nsum (T:=R) l.
Proof.
  intros HF HE. rewrite nsum_Rsum. apply Exists_exists in HE. destruct HE as (x & HI & HX). rewrite Forall_forall in HF. apply (Rsum_pos_elem l HF x); auto.
Qed.
Lemma nodes_good (l : list R) : Forall (fun x => 0 <= x) l -> Exists (fun x => 0 < x) l -> goodDist (wd_of_nodes (T:=R) l).
Proof.
  intros HF HE. assert (HL : l <> []) by (destruct HE; discriminate). unfold wd_of_nodes. rewrite nofN_R.
  assert (HN : 0 < INR (length l)) by (apply lt_0_INR; destruct l; [congruence|cbn; lia]).
  destruct (nodes_good_from (INR (length l)) (nsum (T:=R) l) HN (nsum_pos l HF HE) l 0 HF HL) as (A & B & C & D).
  constructor; auto. apply B. cbn [INR]. apply Rmult_lt_0_compat; [lra|apply Rinv_0_lt_compat; auto].
Qed.
(** the number a condenser's shape is shrunk by is at least one if no node receives more than a twelfth of the tank could *)
Lemma shrink_ge (d : wdist R) n : (12 <= n)%nat -> goodDist d -> (forall i, (i < n)%nat -> share d (INR i / INR n) (INR (S i) / INR n) <= 12 / INR n) -> 1 <= findShrinkageT d n.
Proof.
  intros Hn HG HB12. unfold findShrinkageT. assert (Hn' : 0 < INR n) by (apply lt_0_INR; lia).
  assert (H12 : 12 <= INR n) by (replace 12 with (INR 12) by (cbn; lra); apply le_INR; auto).
  set (K := ln (INR n / 12)).
  assert (HK : forall s, 0 < s -> s <= 12 / INR n -> s * K <= - (s * ln s)).
  { intros s H1 H2. assert (HL : ln s <= - K).
    { unfold K. rewrite <- ln_Rinv by (apply Rmult_lt_0_compat; lra). replace (/ (INR n / 12)) with (12 / INR n) by (field; lra).
      destruct (Rle_lt_or_eq_dec s (12 / INR n) H2) as [X|X]; [left; apply ln_increasing; auto|rewrite X; lra]. }
    nra. }
  assert (HL : forall l s ce, K * share d 0 (INR s / INR n) <= ce -> (s + length l <= n)%nat -> l = seq s (length l) ->
    K * share d 0 (INR (s + length l) / INR n) <= fst (fold_left (fun '(ce, fracBegin) i => let fracEnd := ndiv (nofN (S i)) (nofN n) in let dist := wd_normalizedWeight d fracBegin fracEnd in
      ((if nltb (nofZ 0) dist then nsub ce (nmul dist (nln dist)) else ce), fracEnd)) l (ce, INR s / INR n))).
  { induction l as [|i l IH]; intros s ce HC HS HE.
    { cbn [length fold_left fst]. rewrite Nat.add_0_r. exact HC. }
    cbn [length seq] in HE. injection HE as Ei El. subst i. cbn [fold_left].
    assert (HI : INR s < INR (S s)) by (rewrite S_INR; lra). pose proof (pos_INR s) as HP.
    assert (HM : INR (S s) <= INR n) by (apply le_INR; cbn [length] in HS; lia).
    rewrite !nofN_R. num_simpl.
    assert (HD1 : 0 <= INR s / INR n) by (apply Rmult_le_pos; [auto|left; apply Rinv_0_lt_compat; auto]).
    assert (HD2 : INR s / INR n < INR (S s) / INR n) by (apply Rmult_lt_compat_r; [apply Rinv_0_lt_compat; auto|auto]).
    rewrite normalizedWeight_eq; [|apply HG|apply HG|lra].
    pose proof (share_nonneg d (INR s / INR n) (INR (S s) / INR n) HG) as HB0.
    pose proof (HB12 s ltac:(cbn [length] in HS; lia)) as HB1.
    pose proof (share_add d 0 (INR s / INR n) (INR (S s) / INR n) HG ltac:(lra)) as HAd.
    set (sh := share d (INR s / INR n) (INR (S s) / INR n)) in *. clearbody sh.
    replace (s + length (s :: l))%nat with (S s + length l)%nat by (cbn [length]; lia).
    specialize (IH (S s)). num_simpl. rewrite ?(nofN_R n) in *. apply IH; [|cbn [length] in HS; lia|rewrite El at 1; f_equal].
    rewrite HAd. destruct (Rltb 0 sh) eqn:E0; bcase.
    - specialize (HK sh E0 HB1). lra.
    - assert (sh = 0) by lra. subst sh. lra. }
  specialize (HL (seq 0 n) 0%nat 0). rewrite seq_length in HL. replace (INR 0 / INR n) with 0 in HL by (cbn; field; lra). rewrite share_empty in HL by auto.
  replace (INR (0 + n) / INR n) with 1 in HL by (cbn [Nat.add]; field; lra). rewrite share_full in HL by auto.
  specialize (HL ltac:(lra) ltac:(lia) eq_refl).
  change (nofZ 0) with 0 in *. destruct (fold_left _ (seq 0 n) (0, 0)) as [ce fe] eqn:EF. cbn [fst] in HL.
  unfold CONDENSITY_SIZE. rewrite !nofN_R. num_simpl. replace (INR 12) with 12 by (cbn; lra). fold K. lra.
Qed.
(** a distribution whose heights are twelfths of the tank gives both halves of a twelfth the same *)
Definition twelfths (w : wdist R) : Prop := Forall (fun p => exists k : Z, fst p = IZR k / 12) w.
Lemma halves_equal (k : Z) : forall (w : wdist R) p, (exists j : Z, p = IZR j / 12) -> twelfths w -> ascending p w ->
  massOver 1 p w (2 * IZR k / 24) ((2 * IZR k + 1) / 24) = massOver 1 p w ((2 * IZR k + 1) / 24) ((2 * IZR k + 2) / 24).
Proof.
  induction w as [|[h x] w IH]; intros p (j & Ej) HT HA; cbn [massOver]; auto. inversion HT as [|? ? (i & Ei) HT']; subst. cbn [fst] in Ei. cbn [ascending] in HA. destruct HA as (HA & HA').
  rewrite (IH h) by (eauto). f_equal. f_equal. subst h.
  assert (Hji : (j < i)%Z) by (apply lt_IZR; lra).
  unfold overlap. assert (D1 : forall z, z / 1 = z) by (intros z; field). rewrite !D1.
  destruct (Z_le_gt_dec j k) as [L1|L1]; [destruct (Z_lt_ge_dec k i) as [L2|L2]|].
  - assert (A1 : IZR j <= IZR k) by (apply IZR_le; lia). assert (A2 : IZR k + 1 <= IZR i) by (rewrite <- plus_IZR; apply IZR_le; lia).
    unfold Rmax, Rmin. repeat destruct (Rle_dec _ _); lra.
  - assert (A2 : IZR i <= IZR k) by (apply IZR_le; lia). unfold Rmax, Rmin. repeat destruct (Rle_dec _ _); lra.
  - assert (A2 : IZR k + 1 <= IZR j) by (rewrite <- plus_IZR; apply IZR_le; lia). assert (A3 : IZR j < IZR i) by (apply IZR_lt; lia). unfold Rmax, Rmin. repeat destruct (Rle_dec _ _); lra.
Qed.
Lemma half_share (w : wdist R) i : goodDist w -> twelfths w -> topHeight w = 1 -> (i < 24)%nat -> share w (INR i / 24) (INR (S i) / 24) <= 1 / 2.
Proof.
  intros HG HT H1 Hi.
  assert (HH : forall k : Z, (0 <= k < 12)%Z -> share w (2 * IZR k / 24) ((2 * IZR k + 1) / 24) <= 1 / 2 /\ share w ((2 * IZR k + 1) / 24) ((2 * IZR k + 2) / 24) <= 1 / 2).
  { intros k Hk. assert (HK : 0 <= IZR k <= 11) by (split; apply IZR_le; lia).
    assert (EQ : share w (2 * IZR k / 24) ((2 * IZR k + 1) / 24) = share w ((2 * IZR k + 1) / 24) ((2 * IZR k + 2) / 24)).
    { unfold share. rewrite H1. rewrite (halves_equal k w 0); auto; [exists 0%Z; lra|apply HG]. }
    pose proof (share_full w HG) as HF. rewrite (share_add w 0 (2 * IZR k / 24) 1) in HF by (auto; lra).
    rewrite (share_add w (2 * IZR k / 24) ((2 * IZR k + 1) / 24) 1) in HF by (auto; lra). rewrite (share_add w ((2 * IZR k + 1) / 24) ((2 * IZR k + 2) / 24) 1) in HF by (auto; lra).
    pose proof (share_nonneg w 0 (2 * IZR k / 24) HG). pose proof (share_nonneg w ((2 * IZR k + 2) / 24) 1 HG). lra. }
  destruct (Nat.Even_or_Odd i) as [(k & ->)|(k & ->)]; destruct (HH (Z.of_nat k)) as (A & B); try lia; rewrite <- INR_IZR_INZ in A, B; rewrite !S_INR, ?plus_INR, mult_INR; cbn [INR].
  - replace (INR 2 * INR k / 24) with (2 * INR k / 24) by (cbn; field). replace ((1 + 1) * INR k / 24) with (2 * INR k / 24) in * by field.
    replace (((1 + 1) * INR k + 1) / 24) with ((2 * INR k + 1) / 24) by field. auto.
  - replace (((1 + 1) * INR k + 1) / 24) with ((2 * INR k + 1) / 24) by field. replace (((1 + 1) * INR k + 1 + 1) / 24) with ((2 * INR k + 2) / 24) by field. auto.
Qed.
Lemma nodes_twelfths_from nN s (q : Z) : nN * IZR q = 12 -> nN <> 0 -> forall l i, twelfths (wd_of_nodes_from (T:=R) nN s i l) /\
  (l <> [] -> fst (last (wd_of_nodes_from (T:=R) nN s i l) (0, 0)) = INR (i + length l) / nN /\ wd_of_nodes_from (T:=R) nN s i l <> []).
Proof.
  intros HQ HN. induction l as [|x l IH]; intros i; [split; [apply Forall_nil|congruence]|].
  assert (HX : exists k : Z, INR (S i) / nN = IZR k / 12).
  { exists (Z.of_nat (S i) * q)%Z. rewrite mult_IZR, <- INR_IZR_INZ. replace 12 with (nN * IZR q) by auto. field. split; auto. intros E. rewrite E in HQ. lra. }
  destruct l as [|y l].
  - cbn [wd_of_nodes_from]. rewrite nofN_R. num_simpl. split.
    + apply Forall_cons; [exact HX|apply Forall_nil].
    + intros _. cbn [last fst length]. split; [f_equal; f_equal; lia|discriminate].
  - destruct (IH (S i)) as (I1 & I2). destruct (I2 ltac:(discriminate)) as (I3 & I4). cbn [wd_of_nodes_from] in *. rewrite !nofN_R in *.
    set (rest := match l with [] => _ | _ :: _ => _ end) in *. clearbody rest. replace (i + length (x :: y :: l))%nat with (S i + length (y :: l))%nat by (cbn [length]; lia).
    unfold nneqb. num_simpl. destruct (Reqb' x y); cbn [negb].
    + split; auto.
    + split; [apply Forall_cons; auto|]. intros _. split; [|discriminate]. rewrite <- I3. destruct rest; [congruence|reflexivity].
Qed.
Lemma nodes_shrink (l : list R) n : Forall (fun x => 0 <= x) l -> Exists (fun x => 0 < x) l -> n = 12%nat \/ (n = 24%nat /\ In (length l) [1; 2; 3; 4; 6; 12]%nat) -> 1 <= findShrinkageT (wd_of_nodes (T:=R) l) n.
Proof.
  intros HF HE HN. pose proof (nodes_good l HF HE) as HG. assert (HL : l <> []) by (destruct HE; discriminate).
  destruct HN as [->|(-> & HI)]; apply shrink_ge; auto; try lia; intros i Hi.
  - replace (INR 12) with 12 by (cbn; lra). assert (HI : INR i + 1 <= 12) by (rewrite <- S_INR; replace 12 with (INR 12) by (cbn; lra); apply le_INR; lia). pose proof (pos_INR i).
    pose proof (share_full _ HG) as H1. rewrite S_INR. rewrite (share_add _ 0 (INR i / 12) 1) in H1 by (auto; lra). rewrite (share_add _ (INR i / 12) ((INR i + 1) / 12) 1) in H1 by (auto; lra).
    pose proof (share_nonneg _ 0 (INR i / 12) HG). pose proof (share_nonneg _ ((INR i + 1) / 12) 1 HG). lra.
  - replace (INR 24) with 24 by (cbn; lra). replace (12 / 24) with (1 / 2) by field.
    assert (HQ : exists q : Z, INR (length l) * IZR q = 12). { cbn [In] in HI. destruct HI as [<-|[<-|[<-|[<-|[<-|[<-|[]]]]]]]; [exists 12%Z|exists 6%Z|exists 4%Z|exists 3%Z|exists 2%Z|exists 1%Z]; cbn; lra. }
    destruct HQ as (q & HQ). assert (HP : 0 < INR (length l)) by (apply lt_0_INR; destruct l; [congruence|cbn; lia]).
    destruct (nodes_twelfths_from (INR (length l)) (nsum (T:=R) l) q HQ ltac:(lra) l 0) as (T1 & T2). destruct (T2 HL) as (T3 & _).
    unfold wd_of_nodes in *. rewrite nofN_R in *. apply half_share; auto. unfold topHeight. rewrite T3. cbn [Nat.add]. field. lra.
Qed.
(** ** Performance maps *)
Lemma loop_spec (s : list (@polyPt R)) u : (forall k a b, nth_error s k = Some a -> nth_error s (S k) = Some b -> pp_T a < pp_T b) -> (2 <= length s)%nat ->
  forall suf pre, s = pre ++ suf -> suf <> [] -> (forall p, nth_error s (length pre - 1) = Some p -> pre <> [] -> pp_T p <= u) ->
  exists k, evalLoop suf (length s) u (length pre) = (Some k, S k) /\ (S k < length s)%nat /\ (k = 0%nat \/ exists p, nth_error s k = Some p /\ pp_T p <= u) /\
    (S (S k) = length s \/ exists p, nth_error s (S k) = Some p /\ u <= pp_T p).
Proof.
  intros HI HL. induction suf as [|p suf IH]; intros pre ES HN HP; [congruence|]. cbn [evalLoop]. num_simpl.
  assert (Hp : nth_error s (length pre) = Some p) by (rewrite ES, nth_error_app2, Nat.sub_diag by lia; reflexivity).
  assert (HLS : length s = (length pre + S (length suf))%nat) by (rewrite ES, app_length; reflexivity).
  destruct (Rltb u (pp_T p)) eqn:E; bcase.
  - destruct (length pre) as [|k] eqn:EL.
    + exists 0%nat. split; auto. split; [lia|]. split; [auto|]. right. destruct (nth_error s 1) as [q|] eqn:EQ; [|apply nth_error_None in EQ; lia].
      exists q. split; auto. specialize (HI _ _ _ Hp EQ). lra.
    + exists k. split; auto. split; [lia|]. split; [|right; exists p; split; [auto|lra]].
      right. destruct (nth_error s k) as [q|] eqn:EQ; [|apply nth_error_None in EQ; lia]. exists q. split; auto. apply HP; [|destruct pre; [discriminate EL|discriminate]].
      replace (S k - 1)%nat with k by lia. auto.
  - destruct (Nat.eqb_spec (length pre) (length s - 1)) as [EE|EE].
    + destruct (length pre) as [|k] eqn:EL; [lia|]. exists k. split; auto. split; [lia|]. split; [|left; lia].
      right. destruct (nth_error s k) as [q|] eqn:EQ; [|apply nth_error_None in EQ; lia]. exists q. split; auto. apply HP; [|destruct pre; [discriminate EL|discriminate]].
      replace (S k - 1)%nat with k by lia. auto.
    + specialize (IH (pre ++ [p])). rewrite app_length in IH. cbn [length] in IH. replace (length pre + 1)%nat with (S (length pre)) in IH by lia. apply IH.
      * rewrite ES, <- app_assoc. reflexivity.
      * intros ->. cbn [length] in HLS. lia.
      * intros q HQ _. replace (S (length pre) - 1)%nat with (length pre) in HQ by lia. rewrite Hp in HQ. inversion HQ; subst. lra.
Qed.
Definition coefs : Type := Q * Q * Q.
Definition coefsOf (l : list lnum) : coefs := match l with [a; b; c] => (qv a, qv b, qv c) | _ => (0, 0, 0)%Q end.
Definition three (l : list lnum) : bool := match l with [a; b; c] => qok a && qok b && qok c | _ => false end.
(** positive on [xl, xh]: all Bernstein coefficients are *)
Definition bern (c : coefs) (xl xh : Q) : bool :=
  let '(a0, a1, a2) := c in
  qlt 0 (a0 + a1 * xl + a2 * xl * xl) && qlt 0 (a0 + a1 * ((xl + xh) / 2) + a2 * xl * xh) && qlt 0 (a0 + a1 * xh + a2 * xh * xh).
Definition mixc (t1 t2 u : Q) (a b : coefs) : coefs :=
  let '(a0, a1, a2) := a in let '(b0, b1, b2) := b in
  let f x y := Qred (x + (u - t1) * (y - x) / (t2 - t1)) in (f a0 b0, f a1 b1, f a2 b2).
Definition qmax (a b : Q) : Q := if Qle_bool a b then b else a.
Definition qmin (a b : Q) : Q := if Qle_bool a b then a else b.
Definition dfltPt : lnum * list lnum * list lnum := (Lit 0 1, [], []).
Definition segAt (l : list (lnum * list lnum * list lnum)) (ua ub xl xh : Q) (k : nat) : bool :=
  let '(t1, i1, c1) := nth k l dfltPt in let '(t2, i2, c2) := nth (S k) l dfltPt in
  let ul := if Nat.eqb k 0 then ua else qmax ua (qv t1) in
  let uh := if Nat.eqb (S (S k)) (length l) then ub else qmin ub (qv t2) in
  let at_ u := bern (mixc (qv t1) (qv t2) u (coefsOf i1) (coefsOf i2)) xl xh && bern (mixc (qv t1) (qv t2) u (coefsOf c1) (coefsOf c2)) xl xh in
  qlt (qv t1) (qv t2) && (qlt uh ul || (at_ ul && at_ uh)).
Definition mapOK (l : list (lnum * list lnum * list lnum)) (ua ub xl xh : Q) : bool :=
  Nat.leb 2 (length l) && qlt xl xh && forallb (fun '(t, i, c) => qok t && three i && three c) l && forallb (segAt l ua ub xl xh) (seq 0 (length l - 1)).
(** the quadratic in R *)
Definition quadR (c : coefs) (x : R) : R := let '(a0, a1, a2) := c in Q2R a0 + Q2R a1 * x + Q2R a2 * x * x.
Ltac q2r := rewrite ?Q2R_red, ?Q2R_plus, ?Q2R_minus, ?Q2R_mult.
Lemma bern_pos c xl xh x : bern c xl xh = true -> Q2R xl < Q2R xh -> Q2R xl <= x <= Q2R xh -> 0 < quadR c x.
Proof.
  destruct c as [[a0 a1] a2]. unfold bern, quadR. intros HB HL HX. apply andb_prop in HB. destruct HB as (HB & B2). apply andb_prop in HB. destruct HB as (B0 & B1).
  apply qlt_R in B0. apply qlt_R in B1. apply qlt_R in B2. rewrite Q2R_0 in *. rewrite ?Q2R_plus, ?Q2R_mult in *. rewrite Q2R_div in B1 by discriminate. rewrite Q2R_plus in B1.
  replace (Q2R 2) with 2 in B1 by (unfold Q2R; cbn; lra).
  generalize dependent (Q2R a0). generalize dependent (Q2R a1). generalize dependent (Q2R a2). generalize dependent (Q2R xl). generalize dependent (Q2R xh). intros h l HL HX c2 c1 c0 B0 B1 B2.
  assert (HE : (c0 + c1 * x + c2 * x * x) * ((h - l) * (h - l)) = (c0 + c1 * l + c2 * l * l) * ((h - x) * (h - x)) + 2 * (c0 + c1 * ((l + h) / 2) + c2 * l * h) * ((x - l) * (h - x)) + (c0 + c1 * h + c2 * h * h) * ((x - l) * (x - l))) by field.
  assert (H1 : 0 < (h - l) * (h - l)) by nra. assert (H2 : 0 <= (x - l) * (h - x)) by nra.
  assert (H3 : 0 < (c0 + c1 * l + c2 * l * l) * ((h - x) * (h - x)) + (c0 + c1 * h + c2 * h * h) * ((x - l) * (x - l))).
  { destruct (Rle_lt_or_eq_dec l x ltac:(lra)) as [X|X].
    - assert (0 < (c0 + c1 * h + c2 * h * h) * ((x - l) * (x - l))) by (apply Rmult_lt_0_compat; nra). assert (0 <= (c0 + c1 * l + c2 * l * l) * ((h - x) * (h - x))) by (apply Rmult_le_pos; nra). lra.
    - assert (0 < (c0 + c1 * l + c2 * l * l) * ((h - x) * (h - x))) by (apply Rmult_lt_0_compat; nra). assert (0 <= (c0 + c1 * h + c2 * h * h) * ((x - l) * (x - l))) by (apply Rmult_le_pos; nra). lra. }
  assert (H4 : 0 <= 2 * (c0 + c1 * ((l + h) / 2) + c2 * l * h) * ((x - l) * (h - x))) by (apply Rmult_le_pos; lra).
  apply (Rmult_lt_reg_r ((h - l) * (h - l))); auto. rewrite Rmult_0_l, HE. lra.
Qed.
Lemma mixc_R t1 t2 u a b x : ~ (t2 - t1 == 0)%Q -> quadR (mixc t1 t2 u a b) x = quadR a x + (Q2R u - Q2R t1) * (quadR b x - quadR a x) / (Q2R t2 - Q2R t1).
Proof.
  intros HN. destruct a as [[a0 a1] a2], b as [[b0 b1] b2]. unfold mixc, quadR. rewrite !Q2R_red, !Q2R_plus, !Q2R_div, !Q2R_mult, !Q2R_minus by auto.
  field. intros E. apply HN. apply eqR_Qeq. rewrite Q2R_minus, Q2R_0. lra.
Qed.
Lemma seg_pos (A B t1 t2 ul uh u : R) : t1 < t2 -> ul <= u <= uh -> 0 < A + (ul - t1) * (B - A) / (t2 - t1) -> 0 < A + (uh - t1) * (B - A) / (t2 - t1) -> 0 < A + (u - t1) * (B - A) / (t2 - t1).
Proof.
  intros HT HU H1 H2. assert (E : forall z, (z - t1) * (B - A) / (t2 - t1) = (z - t1) * ((B - A) / (t2 - t1))) by (intros; field; lra). rewrite E in *. set (m := (B - A) / (t2 - t1)) in *. clearbody m.
  destruct (Rle_dec 0 m); nra.
Qed.
Lemma qmax_le a b u : Q2R a <= u -> Q2R b <= u -> Q2R (qmax a b) <= u.
Proof. unfold qmax. destruct (Qle_bool a b); auto. Qed.
Lemma qmin_ge a b u : u <= Q2R a -> u <= Q2R b -> u <= Q2R (qmin a b).
Proof. unfold qmin. destruct (Qle_bool a b); auto. Qed.
Lemma quad_ok l x : three l = true -> quadratic (T:=R) (map lval l) x = Ok (quadR (coefsOf l) x).
Proof.
  destruct l as [|a [|b [|c [|d l]]]]; try discriminate. cbn [three coefsOf map quadratic]. intros HO. apply andb_prop in HO. destruct HO as (HO & H3). apply andb_prop in HO. destruct HO as (H1 & H2).
  num_simpl. unfold quadR. rewrite !qv_ok by auto. reflexivity.
Qed.
Lemma lpoly_nth l k t i c : nth_error l k = Some (t, i, c) -> nth_error (lpoly (T:=R) l) k = Some (mkpoly (lval t) (map lval i) (map lval c)).
Proof. intros E. unfold lpoly. rewrite (map_nth_error _ _ _ E). reflexivity. Qed.
Lemma map_pos l ua ub xl xh : mapOK l ua ub xl xh = true -> forall sp air c, Q2R ua <= 9 / 5 * air + 32 <= Q2R ub -> Q2R xl <= 9 / 5 * c + 32 <= Q2R xh ->
  exists i e, polyFun (lpoly l) sp air c = mkperf i (e * i) e /\ 0 < i /\ 0 < e.
Proof.
  unfold mapOK. intros HM sp air c HA HX. apply andb_prop in HM. destruct HM as (HM & HS). apply andb_prop in HM. destruct HM as (HM & HW). apply andb_prop in HM. destruct HM as (HL & HXX).
  apply Nat.leb_le in HL. apply qlt_R in HXX. rewrite forallb_forall in HS, HW. set (u := 9 / 5 * air + 32) in *. set (x := 9 / 5 * c + 32) in *.
  assert (HLL : length (lpoly (T:=R) l) = length l) by (unfold lpoly; apply map_length).
  assert (HK : forall k, (S k < length l)%nat -> exists t1 i1 c1 t2 i2 c2, nth_error l k = Some (t1, i1, c1) /\ nth_error l (S k) = Some (t2, i2, c2) /\
    qok t1 = true /\ qok t2 = true /\ three i1 = true /\ three c1 = true /\ three i2 = true /\ three c2 = true /\ segAt l ua ub xl xh k = true /\ nth k l dfltPt = (t1, i1, c1) /\ nth (S k) l dfltPt = (t2, i2, c2)).
  { intros k Hk. destruct (nth_error l k) as [[[t1 i1] c1]|] eqn:E1; [|apply nth_error_None in E1; lia]. destruct (nth_error l (S k)) as [[[t2 i2] c2]|] eqn:E2; [|apply nth_error_None in E2; lia].
    pose proof (HW _ (nth_error_In _ _ E1)) as W1. pose proof (HW _ (nth_error_In _ _ E2)) as W2. cbn beta iota in W1, W2.
    apply andb_prop in W1. destruct W1 as (W1 & W3). apply andb_prop in W1. destruct W1 as (W1 & W4). apply andb_prop in W2. destruct W2 as (W2 & W5). apply andb_prop in W2. destruct W2 as (W2 & W6).
    exists t1, i1, c1, t2, i2, c2. splits; auto.
    - apply HS. apply in_seq. lia.
    - apply nth_error_nth; auto.
    - apply nth_error_nth; auto. }
  assert (HI : forall k a b, nth_error (lpoly (T:=R) l) k = Some a -> nth_error (lpoly (T:=R) l) (S k) = Some b -> pp_T a < pp_T b).
  { intros k a b Ea Eb. assert (Hk : (S k < length l)%nat) by (rewrite <- HLL; apply nth_error_Some; congruence).
    destruct (HK k Hk) as (t1 & i1 & c1 & t2 & i2 & c2 & E1 & E2 & O1 & O2 & _ & _ & _ & _ & SG & N1 & N2).
    rewrite (lpoly_nth _ _ _ _ _ E1) in Ea. rewrite (lpoly_nth _ _ _ _ _ E2) in Eb. inversion Ea; subst a. inversion Eb; subst b. cbn [pp_T].
    unfold segAt in SG. rewrite N1, N2 in SG. apply andb_prop in SG. destruct SG as (SG & _). apply qlt_R in SG. rewrite !qv_ok in SG by auto. auto. }
  destruct (loop_spec (lpoly l) u HI ltac:(rewrite HLL; auto) (lpoly l) [] eq_refl) as (k & EK & Hk & K1 & K2).
  { intros E. rewrite E in HLL. cbn [length] in HLL. lia. }
  { intros p _ HH. congruence. }
  cbn [length] in EK. rewrite HLL in EK, Hk, K2.
  destruct (HK k Hk) as (t1 & i1 & c1 & t2 & i2 & c2 & E1 & E2 & O1 & O2 & A1 & A2 & A3 & A4 & SG & N1 & N2).
  pose proof (lpoly_nth _ _ _ _ _ E1) as F1. pose proof (lpoly_nth _ _ _ _ _ E2) as F2.
  unfold polyFun, polyEval. unfold C_TO_F, FperC, offsetF. num_simpl. fold u x. rewrite HLL, EK. cbn [atPoint]. rewrite F1, F2. cbn [obind pp_T pp_in pp_cop]. rewrite !quad_ok by auto. cbn [obind].
  unfold segAt in SG. rewrite N1, N2 in SG. apply andb_prop in SG. destruct SG as (ST & SG). apply qlt_R in ST.
  assert (HD : ~ (qv t2 - qv t1 == 0)%Q). { intros HE. apply Qeq_eqR in HE. rewrite Q2R_minus, Q2R_0 in HE. lra. }
  set (ul := if Nat.eqb k 0 then ua else qmax ua (qv t1)) in *. set (uh := if Nat.eqb (S (S k)) (length l) then ub else qmin ub (qv t2)) in *.
  assert (HU : Q2R ul <= u <= Q2R uh).
  { split.
    - unfold ul. destruct (Nat.eqb_spec k 0) as [Z|Z]; [lra|]. apply qmax_le; [lra|]. destruct K1 as [K1|(p & Ep & K1)]; [congruence|]. rewrite F1 in Ep. inversion Ep; subst p. cbn [pp_T] in K1. rewrite qv_ok by auto. auto.
    - unfold uh. destruct (Nat.eqb_spec (S (S k)) (length l)) as [Z|Z]; [lra|]. apply qmin_ge; [lra|]. destruct K2 as [K2|(p & Ep & K2)]; [congruence|]. rewrite F2 in Ep. inversion Ep; subst p. cbn [pp_T] in K2. rewrite qv_ok by auto. auto. }
  clearbody ul uh. rewrite !qv_ok in ST by auto.
  apply orb_prop in SG. destruct SG as [SG|SG]; [apply qlt_R in SG; lra|]. apply andb_prop in SG. destruct SG as (G1 & G2). apply andb_prop in G1. apply andb_prop in G2. destruct G1 as (G1 & G3). destruct G2 as (G2 & G4).
  rewrite (proj2 (Reqb'_false (lval t2 - lval t1) 0)) by lra. cbn [negb]. unfold linearInterp. num_simpl.
  eexists _, _. split; [reflexivity|].
  split; (apply seg_pos with (ul := Q2R ul) (uh := Q2R uh); auto); rewrite <- !(qv_ok t1), <- !(qv_ok t2) by auto; rewrite <- mixc_R by auto; eapply bern_pos; eauto.
Qed.
(** ** Heating logics *)
Definition lgood (l : llogic) : bool :=
  match l with
  | LRange _ a b c d _ _ _ => (0 <? b)%Z && (0 <? d)%Z && (0 <=? a)%Z && (a * d <? c * b)%Z && (c <=? d)%Z
  | LTop _ _ _ _ => true
  | LNodes _ ns _ => if list_eq_dec Z.eq_dec ns [11; 12]%Z then true else false
  end.
Lemma frac_le a b c d : (0 < b)%Z -> (0 < d)%Z -> (a * d < c * b)%Z -> IZR a / IZR b < IZR c / IZR d.
Proof.
  intros Hb Hd HL. assert (Hb' : 0 < IZR b) by (apply IZR_lt; auto). assert (Hd' : 0 < IZR d) by (apply IZR_lt; auto). apply IZR_lt in HL. rewrite !mult_IZR in HL.
  apply (Rmult_lt_reg_r (IZR b * IZR d)); [nra|]. replace (IZR a / IZR b * (IZR b * IZR d)) with (IZR a * IZR d) by (field; lra). replace (IZR c / IZR d * (IZR b * IZR d)) with (IZR c * IZR b) by (field; lra). auto.
Qed.
Lemma range_ok a b c d : ((0 <? b) && (0 <? d) && (0 <=? a) && (a * d <? c * b) && (c <=? d))%Z = true -> 0 <= IZR a / IZR b < IZR c / IZR d /\ IZR c / IZR d <= 1.
Proof.
  intros HO. repeat match goal with H : (_ && _)%bool = true |- _ => apply andb_prop in H; destruct H end. apply Z.ltb_lt in H, H3, H1. apply Z.leb_le in H0, H2.
  assert (Hb' : 0 < IZR b) by (apply IZR_lt; auto). assert (Hd' : 0 < IZR d) by (apply IZR_lt; auto).
  splits.
  - apply Rmult_le_pos; [apply IZR_le; auto|left; apply Rinv_0_lt_compat; auto].
  - apply frac_le; auto.
  - apply (Rmult_le_reg_r (IZR d)); auto. unfold Rdiv. rewrite Rmult_assoc, Rinv_l by lra. apply IZR_le in H0. lra.
Qed.
Lemma nodes_11_12 : nodesDist (T:=R) [11; 12]%Z = mkdist DWeighted [(10, 0); (12, 1)].
Proof.
  unfold nodesDist, LOGIC_SIZE. cbn [Z.eqb Z.of_nat Z.add Pos.eqb last Pos.of_succ_nat Pos.succ Pos.add Pos.add_carry]. rewrite nofN_R. num_simpl. replace (INR 12) with 12 by (cbn; lra).
  rewrite (proj2 (Rltb_true 0 (11 - 1))), (proj2 (Rltb_false (12 - 1 + 1) 12)) by lra. cbn [app]. f_equal. f_equal; [f_equal; lra|]. f_equal. f_equal. lra.
Qed.
Lemma logic_good l : lgood l = true -> exists s d x ab cm, llogicOf (T:=R) l = TempLogic s d x ab cm false false /\ Forall (fun p => 0 <= snd p) (d_w d) /\ (d_type d = DWeighted -> goodDist (d_w d)).
Proof.
  destruct l as [s a b c d x ab cm|s x ab cm|s ns x]; cbn [lgood llogicOf]; intros HO.
  - destruct (range_ok _ _ _ _ HO) as (H1 & H2). unfold rangeLogic. num_simpl. eexists _, _, _, _, _. split; [reflexivity|]. apply range_logic; auto.
  - eexists _, _, _, _, _. split; [reflexivity|]. cbn [d_w d_type]. split; [apply Forall_nil|discriminate].
  - destruct (list_eq_dec Z.eq_dec ns [11; 12]%Z) as [E|E]; [|discriminate HO].
    subst ns. rewrite nodes_11_12. eexists _, _, _, _, _. split; [reflexivity|]. cbn [d_w d_type].
    assert (HG : goodDist [(10, 0); (12, 1)]).
    { constructor; [discriminate|cbn; lra|repeat constructor; cbn; lra|]. apply Exists_cons_tl, Exists_cons_hd. cbn. lra. }
    split; [apply HG|auto].
Qed.
(** the mean height of what a logic looks at *)
Definition lheight (l : llogic) : Q := match l with LRange _ a b c d _ _ _ => Qred ((Qmake a (Z.to_pos b) + Qmake c (Z.to_pos d)) / 2 + Qmake 1 24) | LTop _ _ _ _ => 1 | LNodes _ _ _ => 0 end%Q.
Definition lplain (l : llogic) : bool := match l with LNodes _ _ _ => false | _ => lgood l end.
Lemma frac_Q a b : (0 < b)%Z -> Q2R (Qmake a (Z.to_pos b)) = IZR a / IZR b.
Proof. intros Hb. unfold Q2R. cbn [Qnum Qden]. rewrite Z2Pos.id by auto. reflexivity. Qed.
Lemma range_height (w : hpwh R) s bot top x ab cm : 0 <= bot < top -> top <= 1 -> l_nodeWeightAvgFract w (rangeLogic s bot top x ab cm) = (bot + top) / 2 + 1 / 24.
Proof.
  intros H1 H2. unfold rangeLogic. cbn [l_nodeWeightAvgFract]. unfold rangeDist. cbn [d_type d_w]. num_simpl.
  destruct (Rltb 0 bot) eqn:E1; destruct (Rltb top 1) eqn:E2; bcase; cbn [app fold_left]; unfold LOGIC_SIZE, nofN, dec; num_simpl; cbn [Z.of_nat Pos.of_succ_nat Pos.succ].
  - field. lra.
  - replace top with 1 by lra. field. lra.
  - replace bot with 0 by lra. field. lra.
  - replace top with 1 by lra. replace bot with 0 by lra. field.
Qed.
Lemma logic_height (w : hpwh R) l : lplain l = true -> l_nodeWeightAvgFract w (llogicOf l) = Q2R (lheight l).
Proof.
  destruct l as [s a b c d x ab cm|s x ab cm|s ns x]; cbn [lplain lgood llogicOf lheight]; intros HO; [| |discriminate].
  - destruct (range_ok _ _ _ _ HO) as (H1 & H2). num_simpl. rewrite range_height by auto.
    repeat match goal with H : (_ && _)%bool = true |- _ => apply andb_prop in H; destruct H end. apply Z.ltb_lt in H, H5.
    rewrite Q2R_red, Q2R_plus, Q2R_div, Q2R_plus by discriminate. rewrite !frac_Q by auto. unfold Q2R at 1 2. cbn. field. split; apply not_0_IZR; lia.
  - cbn [l_nodeWeightAvgFract d_type]. num_simpl. unfold Q2R. cbn. field.
Qed.
(** ** Heat sources *)
Definition odef (d : R) (o : option lnum) : R := match o with Some x => lval x | None => d end.
Definition lcfg (c : lcond) : coil := match lc_config c with Some x => x | None => Wrapped end.
Definition ltype (s : lsrc) : hstype := match ls_kind s with LElement _ _ => TResistance | LCondenser _ => TCompressor end.
Definition kindDist (k : lkind) : wdist R := match k with LElement node watts => h_dist (setupRes node (lval watts) (newElement (exHS (T:=R) TResistance false None [] [] [] 0))) | LCondenser _ => [] end.
(** what is known about a source of kind [k] *)
Record kindFacts (k : lkind) (h : hsrc R) : Prop := {
  kf_type : h_type h = match k with LElement _ _ => TResistance | LCondenser _ => TCompressor end;
  kf_on : h_on h = false; kf_standby : h_standby h = None; kf_air : h_airflow h = 1;
  kf_elem : forall node watts, k = LElement node watts -> h_config h = Wrapped /\ h_power h = lval watts / 1000;
  kf_cond : forall c, k = LCondenser c -> h_config h = lcfg c /\ h_minT h = odef (-27315 / 100) (lc_minT c) /\ h_maxT h = odef 100 (lc_maxT c) /\ h_hyst h = odef 0 (lc_hyst c) /\
    h_maxSet h = odef 100 (lc_maxSet c) /\ h_eval h = polyFun (lpoly (lc_poly c)) /\ h_mlAir h = -27315 / 100 /\ h_doDefrost h = false /\ h_shxPump h = 0 /\ h_shxCold h = 0 /\ h_shxHot h = 0 /\
    h_inScale h = 1 /\ h_copScale h = 1 /\ h_rdPwr h = 0
}.
Record srcFacts (s : lsrc) (n : nat) (h : hsrc R) : Prop := {
  sf_kind : kindFacts (ls_kind s) h;
  sf_turnOn : h_turnOn h = map llogicOf (ls_on s); sf_off : h_shutOff h = map llogicOf (ls_off s);
  sf_links : h_backup h = ls_backup s /\ h_companion h = ls_companion s /\ h_followed h = ls_followed s; sf_vip : h_vip h = ls_vip s;
  sf_dist : h_dist h = match ls_shape s with Some l => wd_of_nodes (map lval l) | None => kindDist (ls_kind s) end;
  sf_shrink : h_shrink h = findShrinkageT (h_dist h) n;
  sf_depresses : h_depresses h = match ltype s with TCompressor => true | TResistance => false end
}.
Lemma fresh_comp' j : h_dist (freshCond (T:=R) j) = [] /\ h_minT (freshCond j) = -27315 / 100 /\ h_maxT (freshCond j) = 100 /\ h_hyst (freshCond j) = 0 /\ h_maxSet (freshCond j) = 100 /\ h_config (freshCond j) = Wrapped.
Proof. unfold freshCond, freshHS. wsimpl. unfold dec. num_simpl. splits; reflexivity. Qed.
Lemma kind_facts k (j : hsrc R) : kindFacts k (lkindOf k j) /\ h_dist (lkindOf k j) = kindDist k.
Proof.
  destruct k as [node watts|c]; cbn [lkindOf kindDist].
  - destruct (fresh_plain j) as (T1 & T2 & T3 & T4 & T5 & T6 & T7 & T8 & T9 & T10). generalize dependent (newElement j). intros e T1 T2 T3 T4 T5 T6 T7 T8 T9 T10.
    unfold setupRes. split; [|wsimpl; reflexivity]. constructor; wsimpl; auto.
    + intros nd wt E. inversion E; subst. num_simpl. auto.
    + intros c E. discriminate E.
  - destruct (fresh_comp j) as (T1 & T2 & T3 & T4 & T5 & T6 & T7 & T8 & T9 & T10 & T11 & T12 & T13 & T14 & T15 & T16 & T17). destruct (fresh_comp' j) as (U1 & U2 & U3 & U4 & U5 & U6). cbv zeta in *. generalize dependent (freshCond j). intros f.
    intros. destruct c as [poly mn mx hy cf ms dp]. unfold lcfg. cbn [lc_poly lc_minT lc_maxT lc_hyst lc_config lc_maxSet lc_depress].
    split; [|destruct mn, mx, hy, cf, ms, dp; cbn [option_map assign]; wsimpl; auto].
    constructor.
    1-4: destruct mn, mx, hy, cf, ms, dp; cbn [option_map assign]; wsimpl; auto.
    + intros nd wt E. discriminate E.
    + intros c E. inversion E; subst c. cbn [lc_poly lc_minT lc_maxT lc_hyst lc_config lc_maxSet lc_depress]. clear E.
      destruct mn, mx, hy, cf, ms, dp; cbn [option_map assign odef]; wsimpl; splits; auto.
Qed.
Lemma kind_ext k (h h' : hsrc R) : h_type h' = h_type h -> h_on h' = h_on h -> h_standby h' = h_standby h -> h_airflow h' = h_airflow h -> h_config h' = h_config h -> h_power h' = h_power h ->
  h_minT h' = h_minT h -> h_maxT h' = h_maxT h -> h_hyst h' = h_hyst h -> h_maxSet h' = h_maxSet h -> h_eval h' = h_eval h -> h_mlAir h' = h_mlAir h -> h_doDefrost h' = h_doDefrost h -> h_shxPump h' = h_shxPump h ->
  h_shxCold h' = h_shxCold h -> h_shxHot h' = h_shxHot h -> h_inScale h' = h_inScale h -> h_copScale h' = h_copScale h -> h_rdPwr h' = h_rdPwr h -> kindFacts k h -> kindFacts k h'.
Proof.
  intros A1 A2 A3 A4 A5 A6 A7 A8 A9 A10 A11 A12 A13 A14 A15 A16 A17 A18 A19 [B1 B2 B3 B4 B5 B6]. constructor; [rewrite A1; auto|rewrite A2; auto|rewrite A3; auto|rewrite A4; auto|intros nd wt E; rewrite A5, A6; eauto|].
  intros c E. rewrite A5, A7, A8, A9, A10, A11, A12, A13, A14, A15, A16, A17, A18, A19. auto.
Qed.
Lemma src_facts s (j : hsrc R) n : srcFacts s n (deriveHS n (lsrcOf s j)).
Proof.
  destruct (kind_facts (ls_kind s) j) as (HK & HD). unfold lsrcOf. destruct s as [kd vip shp on off bk cp fl]. cbn [ls_kind ls_vip ls_shape ls_on ls_off ls_backup ls_companion ls_followed] in *.
  generalize dependent (lkindOf kd j). intros k HK HD.
  assert (HT : h_type k = match kd with LElement _ _ => TResistance | LCondenser _ => TCompressor end) by apply HK.
  pose (onl := map (llogicOf (T:=R)) on). pose (offl := map (llogicOf (T:=R)) off). change (map (llogicOf (T:=R)) on) with onl. change (map (llogicOf (T:=R)) off) with offl.
  assert (E1 : onl = map (llogicOf (T:=R)) on) by reflexivity. assert (E2 : offl = map (llogicOf (T:=R)) off) by reflexivity. clearbody onl offl.
  destruct shp as [l|]; cbn [option_map assign]; (constructor; cbn [ls_kind ls_vip ls_shape ls_on ls_off ls_backup ls_companion ls_followed]; unfold deriveHS;
    [eapply kind_ext; [..|exact HK]; wsimpl; reflexivity|..]); wsimpl; auto.
  all: unfold ltype; cbn [ls_kind]; rewrite HT; reflexivity.
Qed.
(** ** The unit *)
Definition startT (p : lpreset) : R := match lp_init p with Some x => lval x | None => lval (lp_setpoint p) end.
Record presetUnit (p : lpreset) (hs : list (hsrc R)) (w : hpwh R) : Prop := {
  pu_hs : w_hs w = hs;
  pu_Ts : t_Ts (w_tank w) = repeat (startT p) (lp_nodes p);
  pu_vol : t_volume (w_tank w) = lval (lp_vol p);
  pu_UA : t_UA (w_tank w) = lval (lp_UA p);
  pu_inlet : t_inlet (w_tank w) = 0%Z /\ t_inlet2 (w_tank w) = 0%Z;
  pu_mix : t_doMix (w_tank w) = true /\ t_doCond (w_tank w) = true;
  pu_draw : t_mixesOnDraw (w_tank w) = lp_mixes p /\ t_mixBelowFrac (w_tank w) = 1 / 3;
  pu_hx : t_hasHX (w_tank w) = (match lp_hx p with Some _ => true | None => false end) /\ t_hxEff (w_tank w) = odef (9 / 10) (lp_hx p);
  pu_fit : t_fitUA (w_tank w) = 0;
  pu_size : t_fixed (w_tank w) = lp_fixed p;
  pu_sp : w_setpoint w = lval (lp_setpoint p) /\ w_setFixed w = false;
  pu_soc : w_usesSoC w = false /\ w_SoC w = 1;
  pu_dep : w_doDepress w = lp_depress p /\ w_locT w = -500;
  pu_step : w_minStep w = 1 /\ w_secStep w = 60 /\ w_hrStep w = 1 / 60;
  pu_dr : w_prevDR w = 0%Z /\ w_timer w = 0 /\ w_timerLimit w = 60;
  pu_model : w_storage w = lp_storage p;
  pu_inlet_T : w_haveInletT w = false /\ w_inletT w = -1;
  pu_heating : w_heating w = false
}.
Lemma map_const_firstn {A B} (c : B) (x : A) n : map (fun _ => c) (firstn n ([] ++ repeat x n)) = repeat c n.
Proof. cbn [app]. induction n; cbn; [auto|f_equal; auto]. Qed.
Lemma legacy_run p junk (w : hpwh R) : exists v, presetUnit p (lsrcs (lp_hs p) 0 junk) v /\ initLegacy p junk w = finishInit v.
Proof.
  unfold initLegacy. rewrite !modify_seq. generalize (lsrcs (lp_hs p) 0 junk). intros hs. unfold ltank, setNumNodes.
  destruct p as [st n sp ini fx vol ua dp mx hx hsl]. cbn [lp_storage lp_nodes lp_setpoint lp_init lp_fixed lp_vol lp_UA lp_depress lp_mixes lp_hx lp_hs].
  assert (HX : forall (x : R) (m : M (hpwh R) unit) u, (m = onTank (setNodeT x) \/ (m = resetTankToSetpoint /\ w_setpoint u = x)) -> bind m (fun _ => finishInit) u = finishInit (set_w_tank (set_t_Ts (map (fun _ => x) (t_Ts (w_tank u))) (w_tank u)) u)).
  { intros x m u [->|(-> & <-)]; [|erewrite bind_ok by apply reset_ok; reflexivity]. reflexivity. }
  match goal with |- exists v, _ /\ bind ?m ?k ?u = _ => rewrite (HX (startT (mklpreset st n sp ini fx vol ua dp mx hx hsl)) m u) end.
  2:{ unfold startT. cbn [lp_init lp_setpoint]. destruct ini as [x|]; [left; reflexivity|right]. split; [reflexivity|]. generalize (setAllDefaults w). intros u. destruct hx; cbn [option_map assign]; wsimpl; reflexivity. }
  clear HX. eexists. split; [|reflexivity].
  unfold setAllDefaults, tankDefaults, stepLength. destruct hx as [e|]; cbn [option_map assign]; (constructor; cbn [lp_storage lp_nodes lp_setpoint lp_init lp_fixed lp_vol lp_UA lp_depress lp_mixes lp_hx lp_hs odef]; wsimpl; auto; try apply map_const_firstn;
    unfold sec_per_min, min_per_hr, UNINITIALIZED_LOCATIONTEMP, dec; num_simpl; splits; try reflexivity; try field).
Qed.
Lemma preset_derived p hs (v : hpwh R) : presetUnit p hs v -> presetUnit p (map (deriveHS (lp_nodes p)) hs) (calcDerivedValues v) /\ w_tank (calcDerivedValues v) = calcSizeConstants (w_tank (calcDerivedValues v)).
Proof.
  intros [A1 A2 A3 A4 A5 A6 A7 A8 A9 A10 A11 A12 A13 A14 A15 A16 A17 A18]. rewrite derived_form, A1. unfold numNodes. rewrite A2, repeat_length. split.
  - rewrite size_form. unfold derivedOf. cbv zeta. generalize (scanHS (mkscan (-1) (-1) (-1) (-1) (nofZ 1) (nofZ 0)) 0 (map (deriveHS (lp_nodes p)) hs)). intros s.
    generalize (sortPos (resPoints (map (deriveHS (lp_nodes p)) hs) 0)). intros r. generalize (map (deriveHS (lp_nodes p)) hs). intros ds.
    unfold sized. cbv zeta. generalize (tankRadius_m (t_volume (w_tank v))). intros rad. generalize (npow (Num:=RNum)). intros pw.
    unfold putDerived, putSize. constructor; wsimpl; auto.
  - destruct (derivedOf_keeps (map (deriveHS (lp_nodes p)) hs) (calcSizeConstants (w_tank v)) v) as (-> & _). rewrite size_idem. reflexivity.
Qed.
Lemma srcs_facts n junk : forall l i, Forall2 (fun s h => srcFacts s n h) l (map (deriveHS n) (lsrcs l i junk)).
Proof. induction l as [|s l IH]; intros i; cbn [lsrcs map]; [constructor|]. apply Forall2_cons; [apply src_facts|apply IH]. Qed.

(** ** What is checked of a preset *)
Definition isElement (s : lsrc) : bool := match ls_kind s with LElement _ _ => true | LCondenser _ => false end.
Definition hasOn (s : lsrc) : bool := match ls_on s with [] => false | _ => true end.
Definition backs (i : nat) (s : lsrc) : bool := match ls_backup s with Some b => Nat.eqb b i | None => false end.
Definition olt (k : nat) (o : option nat) : bool := match o with Some b => Nat.ltb b k | None => true end.
Definition large (l : llogic) : bool := match l with LRange s _ _ _ _ _ _ _ | LTop s _ _ _ | LNodes s _ _ => String.eqb s "large draw" || String.eqb s "larger draw" end.
Definition lowest (s : lsrc) : Q := fold_left (fun a l => qmin (lheight l) a) (ls_on s) 1%Q.
Definition oqok (o : option lnum) : bool := match o with Some x => qok x | None => true end.
Definition oqv (d : Q) (o : option lnum) : Q := match o with Some x => qv x | None => d end.
Definition kindChk (s : lsrc) : bool :=
  match ls_kind s with
  | LElement node watts => (0 <=? node)%Z && (node <? 12)%Z && qok watts && qlt 0 (qv watts)
  | LCondenser c => (match lcfg c with External => false | _ => true end) && forallb lplain (ls_on s) && forallb lplain (ls_off s) &&
      Qle_bool (lowest s) 1 && forallb (fun l => Qle_bool (lowest s) (lheight l)) (ls_on s) && forallb (fun l => large l || Qle_bool (lheight l) (lowest s)) (ls_off s) && Qle_bool 0 (lowest s) &&
      (match ls_shape s with Some _ => true | None => false end) && oqok (lc_minT c) && oqok (lc_maxT c) && oqok (lc_maxSet c)
  end.
Definition shapeChk (n : nat) (s : lsrc) : bool :=
  match ls_shape s with
  | Some l => forallb qok l && forallb (fun x => Qle_bool 0 (qv x)) l && existsb (fun x => qlt 0 (qv x)) l && (Nat.eqb n 12 || (Nat.eqb n 24 && existsb (Nat.eqb (length l)) [1; 2; 3; 4; 6; 12]%nat))
  | None => true
  end.
Definition srcChk (n : nat) (hs : list lsrc) (i : nat) (s : lsrc) : bool :=
  kindChk s && shapeChk n s && forallb lgood (ls_on s) && forallb lgood (ls_off s) &&
  (hasOn s || match find (backs i) hs with Some q => hasOn q | None => false end) &&
  olt (length hs) (ls_backup s) && olt (length hs) (ls_companion s) && olt (length hs) (ls_followed s).
Fixpoint allChk (n : nat) (hs : list lsrc) (i : nat) (l : list lsrc) : bool := match l with [] => true | s :: r => srcChk n hs i s && allChk n hs (S i) r end.
Definition reach (p : lpreset) : bool :=
  match lp_hs p with
  | [] => lp_storage p
  | hs => if existsb isElement hs then Qle_bool (qv (lp_setpoint p)) 100
          else forallb (fun s => match ls_kind s with LCondenser c => Qle_bool (qv (lp_setpoint p)) (oqv 100 (lc_maxSet c)) | _ => false end) hs
  end.
Definition presetChk (p : lpreset) : bool :=
  (Nat.eqb (lp_nodes p) 12 || Nat.eqb (lp_nodes p) 24) && qok (lp_setpoint p) && qok (lp_vol p) && qok (lp_UA p) && oqok (lp_init p) && oqok (lp_hx p) &&
  Qle_bool 100 (qv (lp_vol p)) && Qle_bool 0 (qv (lp_UA p)) && Qle_bool (qv (lp_UA p)) (5 * qv (lp_vol p)) && Qle_bool (oqv (Qmake 9 10) (lp_hx p)) 1 &&
  reach p && allChk (lp_nodes p) (lp_hs p) 0 (lp_hs p) && negb (lp_depress p).
Lemma all_checked (m : lmodel) : presetChk (lpresetOf m) = true.
Proof. destruct m; vm_compute; reflexivity. Qed.
Ltac bsplit := repeat match goal with H : (_ && _)%bool = true |- _ => apply andb_prop in H; destruct H end.
Lemma all_chk n hs l : forall i, allChk n hs i l = true -> forall k s, nth_error l k = Some s -> srcChk n hs (i + k) s = true.
Proof.
  induction l as [|s l IH]; intros i HC k q HQ; [destruct k; discriminate|]. cbn [allChk] in HC. bsplit. destruct k as [|k]; cbn [nth_error] in HQ.
  - inversion HQ; subst. rewrite Nat.add_0_r. auto.
  - replace (i + S k)%nat with (S i + k)%nat by lia. apply IH; auto.
Qed.
Lemma find_nth {A} (f : A -> bool) l a : find f l = Some a -> exists j, nth_error l j = Some a /\ f a = true /\ forall k b, (k < j)%nat -> nth_error l k = Some b -> f b = false.
Proof.
  induction l as [|x l IH]; cbn [find]; [discriminate|]. destruct (f x) eqn:E; intros HF.
  - inversion HF; subst. exists 0%nat. splits; auto. lia.
  - destruct (IH HF) as (j & H1 & H2 & H3). exists (S j). splits; auto. intros [|k] b HK HB; cbn [nth_error] in HB; [inversion HB; subst; auto|]. apply (H3 k); auto. lia.
Qed.
Lemma F2_nth {A B} (P : A -> B -> Prop) l l' : Forall2 P l l' -> forall i b, nth_error l' i = Some b -> exists a, nth_error l i = Some a /\ P a b.
Proof. induction 1; intros [|i] b HB; cbn [nth_error] in *; try discriminate; [inversion HB; subst; eauto|eauto]. Qed.
Lemma F2_nth' {A B} (P : A -> B -> Prop) l l' : Forall2 P l l' -> forall i a, nth_error l i = Some a -> exists b, nth_error l' i = Some b /\ P a b.
Proof. induction 1; intros [|i] b HB; cbn [nth_error] in *; try discriminate; [inversion HB; subst; eauto|eauto]. Qed.
Lemma F2_len {A B} (P : A -> B -> Prop) l l' : Forall2 P l l' -> length l' = length l.
Proof. induction 1; cbn; auto. Qed.
(** a checked source *)
Lemma shape_ok n s l : shapeChk n s = true -> ls_shape s = Some l -> goodDist (wd_of_nodes (T:=R) (map lval l)) /\ 1 <= findShrinkageT (wd_of_nodes (T:=R) (map lval l)) n.
Proof.
  unfold shapeChk. intros HC EL. rewrite EL in HC. bsplit. rename H into A1, H2 into A2, H1 into A3, H0 into A4. rewrite forallb_forall in A1, A2. apply existsb_exists in A3. destruct A3 as (x & HX & A3).
  assert (HF : Forall (fun x => 0 <= x) (map (lval (T:=R)) l)).
  { apply Forall_forall. intros y HY. apply in_map_iff in HY. destruct HY as (e & <- & HE). rewrite <- qv_ok by auto. rewrite <- Q2R_0. apply qle_R. auto. }
  assert (HE : Exists (fun x => 0 < x) (map (lval (T:=R)) l)).
  { apply Exists_exists. exists (lval x). split; [apply in_map; auto|]. rewrite <- qv_ok by auto. rewrite <- Q2R_0. apply qlt_R. auto. }
  split; [apply nodes_good; auto|]. apply nodes_shrink; auto. apply orb_prop in A4. destruct A4 as [A4|A4]; [left; apply Nat.eqb_eq; auto|right]. bsplit. split; [apply Nat.eqb_eq; auto|].
  apply existsb_exists in H0. destruct H0 as (z & HZ & E). apply Nat.eqb_eq in E. rewrite map_length, E. auto.
Qed.
Lemma src_dist n s (h : hsrc R) : srcFacts s n h -> kindChk s = true -> shapeChk n s = true -> goodDist (h_dist h) /\ (h_type h = TCompressor -> 1 <= h_shrink h).
Proof.
  intros [K1 _ _ _ _ D SH _] HK HS. rewrite SH, D, (kf_type _ _ K1). unfold kindChk in HK. destruct (ls_shape s) as [l|] eqn:EL.
  - destruct (shape_ok _ _ _ HS EL). auto.
  - destruct (ls_kind s) as [node watts|c]; [|bsplit; discriminate]. split; [|discriminate]. cbn [kindDist]. bsplit. apply setup_good. apply Z.leb_le in H. apply Z.ltb_lt in H2. lia.
Qed.
Lemma logics_good ls : forallb lgood ls = true -> Forall (fun l => match l with TempLogic _ d _ _ _ _ _ => Forall (fun p => 0 <= snd p) (d_w d) /\ (d_type d = DWeighted -> goodDist (d_w d)) | SoCLogic _ _ _ _ _ _ _ _ => False end) (map (llogicOf (T:=R)) ls).
Proof.
  intros HG. rewrite forallb_forall in HG. apply Forall_forall. intros l HI. apply in_map_iff in HI. destruct HI as (g & <- & HI). destruct (logic_good g (HG g HI)) as (s & d & x & ab & cm & -> & HD). exact HD.
Qed.
Lemma logics_valid ls : forallb lgood ls = true -> Forall validLogic (map (llogicOf (T:=R)) ls).
Proof.
  intros HG. eapply Forall_impl; [|apply logics_good; exact HG]. intros l HL. destruct l; [|contradiction]. destruct HL as (_ & HL). intros HT. apply good_valid; auto.
Qed.
Lemma aqua_ge (w : hpwh R) b ls : forallb lplain ls = true -> (forall l, In l ls -> b <= Q2R (lheight l)) -> forall a, b <= a ->
  b <= fold_left (fun a l => let x := l_nodeWeightAvgFract w l in if nltb x a then x else a) (map llogicOf ls) a.
Proof.
  induction ls as [|l ls IH]; cbn [forallb map fold_left]; intros HP HH a HA; auto. bsplit. rewrite (logic_height w l) by auto. cbv zeta. num_simpl. apply IH; auto; [intros q HQ; apply HH; right; auto|].
  destruct (Rltb _ _); auto. apply HH. left. auto.
Qed.
Lemma large_desc l : large l = (String.eqb (l_desc (llogicOf (T:=R) l)) "large draw" || String.eqb (l_desc (llogicOf (T:=R) l)) "larger draw")%bool.
Proof. destruct l; reflexivity. Qed.
Lemma use_ge (w : hpwh R) b ls : forallb lplain ls = true -> 0 <= b -> (forall l, In l ls -> large l = true \/ Q2R (lheight l) <= b) -> forall a, 1 - b <= a ->
  1 - b <= fold_left (fun a l => let x := if (String.eqb (l_desc l) "large draw" || String.eqb (l_desc l) "larger draw")%bool then nofZ 1 else nsub (nofZ 1) (l_nodeWeightAvgFract w l) in if nltb x a then x else a) (map llogicOf ls) a.
Proof.
  intros HP HB. revert HP. induction ls as [|l ls IH]; cbn [forallb map fold_left]; intros HP HH a HA; auto. bsplit. rewrite (logic_height w l) by auto. rewrite <- large_desc. cbv zeta. num_simpl.
  apply IH; auto; [intros q HQ; apply HH; right; auto|]. destruct (large l) eqn:EL; destruct (Rltb _ _); auto; try lra. destruct (HH l (or_introl eq_refl)); [congruence|lra].
Qed.
Lemma src_sizing (w : hpwh R) n s (h : hsrc R) : srcFacts s n h -> kindChk s = true -> h_type h = TCompressor -> 1 - useFract w h <= aquaFract w h.
Proof.
  intros [K1 T1 T2 _ _ _ _ _] HK HT. rewrite (kf_type _ _ K1) in HT. unfold kindChk in HK. destruct (ls_kind s) as [node watts|c]; [discriminate|]. bsplit.
  unfold aquaFract, useFract. rewrite T1, T2. num_simpl.
  repeat match goal with H : Qle_bool _ _ = true |- _ => apply qle_R in H end. rewrite Q2R_0 in *. replace (Q2R 1) with 1 in * by (unfold Q2R; cbn; lra).
  assert (HA : Q2R (lowest s) <= fold_left (fun a l => let x := l_nodeWeightAvgFract w l in if nltb x a then x else a) (map llogicOf (ls_on s)) 1).
  { apply aqua_ge; auto. intros l HI. match goal with F : forallb (fun l => Qle_bool (lowest s) (lheight l)) _ = true |- _ => rewrite forallb_forall in F; apply qle_R; apply F; auto end. }
  assert (HU : 1 - Q2R (lowest s) <= fold_left (fun a l => let x := if (String.eqb (l_desc l) "large draw" || String.eqb (l_desc l) "larger draw")%bool then nofZ 1 else nsub (nofZ 1) (l_nodeWeightAvgFract w l) in if nltb x a then x else a) (map llogicOf (ls_off s)) 1).
  { apply use_ge; auto; [|lra]. intros l HI. match goal with F : forallb (fun l => large l || _) _ = true |- _ => rewrite forallb_forall in F; specialize (F l HI); apply orb_prop in F; destruct F as [F|F]; [left; auto|right; apply qle_R; auto] end. }
  num_simpl. cbv zeta in *. num_simpl. lra.
Qed.
(** ** Acceptance *)
Lemma chk_facts p : presetChk p = true -> (lp_nodes p = 12%nat \/ lp_nodes p = 24%nat) /\ 100 <= lval (T:=R) (lp_vol p) /\ 0 <= lval (T:=R) (lp_UA p) <= 5 * lval (T:=R) (lp_vol p) /\ odef (9 / 10) (lp_hx p) <= 1 /\
  lp_depress p = false /\ reach p = true /\ qok (lp_setpoint p) = true /\ forall i s, nth_error (lp_hs p) i = Some s -> srcChk (lp_nodes p) (lp_hs p) i s = true.
Proof.
  unfold presetChk. intros HC. bsplit. repeat match goal with H : Qle_bool _ _ = true |- _ => apply qle_R in H end. rewrite ?Q2R_mult, ?Q2R_0 in *. replace (Q2R 100) with 100 in * by (unfold Q2R; cbn; lra). replace (Q2R 5) with 5 in * by (unfold Q2R; cbn; lra). replace (Q2R 1) with 1 in * by (unfold Q2R; cbn; lra).
  repeat match goal with H : context [Q2R (qv ?e)] |- _ => rewrite (qv_ok e) in H by auto end.
  splits; auto.
  - match goal with H : (Nat.eqb _ _ || _)%bool = true |- _ => apply orb_prop in H; destruct H as [H|H]; apply Nat.eqb_eq in H; auto end.
  - match goal with H : Q2R (oqv _ _) <= 1 |- _ => revert H end. destruct (lp_hx p) as [e|]; cbn [oqv odef oqok] in *; [rewrite qv_ok by auto; auto|unfold Q2R; cbn; lra].
  - destruct (lp_depress p); auto.
  - intros i s HI. match goal with H : allChk _ _ _ _ = true |- _ => exact (all_chk _ _ _ _ H _ _ HI) end.
Qed.
Lemma src_chk n hs i s : srcChk n hs i s = true -> kindChk s = true /\ shapeChk n s = true /\ forallb lgood (ls_on s) = true /\ forallb lgood (ls_off s) = true /\
  (hasOn s || match find (backs i) hs with Some q => hasOn q | None => false end)%bool = true /\ (forall b, ls_backup s = Some b \/ ls_companion s = Some b \/ ls_followed s = Some b -> (b < length hs)%nat).
Proof.
  unfold srcChk. intros HC. bsplit. splits; auto. unfold olt in *. intros b HB.
  destruct HB as [E|[E|E]]; rewrite E in *; match goal with H : Nat.ltb b _ = true |- _ => apply Nat.ltb_lt in H; exact H end.
Qed.
Lemma has_on s n (h : hsrc R) : srcFacts s n h -> hasOn s = true -> h_turnOn h <> [].
Proof. intros HF HO. rewrite (sf_turnOn _ _ _ HF). unfold hasOn in HO. destruct (ls_on s); [discriminate|]. cbn [map]. discriminate. Qed.
Lemma preset_startable n l (hs : list (hsrc R)) i s h : Forall2 (fun s h => srcFacts s n h) l hs -> nth_error l i = Some s -> srcFacts s n h ->
  (hasOn s || match find (backs i) l with Some q => hasOn q | None => false end)%bool = true -> startable hs i h.
Proof.
  intros HF HI HS HO. apply orb_prop in HO. destruct HO as [HO|HO]; [left; eapply has_on; eauto|right].
  destruct (find (backs i) l) as [q|] eqn:EF; [|discriminate]. destruct (find_nth _ _ _ EF) as (j & H1 & H2 & H3). destruct (F2_nth' _ _ _ HF _ _ H1) as (g & G1 & G2).
  exists j, g. splits; auto.
  - destruct (sf_links _ _ _ G2) as (-> & _). unfold backs in H2. destruct (ls_backup q); [|discriminate]. apply Nat.eqb_eq in H2. congruence.
  - eapply has_on; eauto.
  - intros k r HK HR. destruct (F2_nth _ _ _ HF _ _ HR) as (a & A1 & A2). specialize (H3 k a HK A1). destruct (sf_links _ _ _ A2) as (-> & _). unfold backs in H3. intros E. rewrite E, Nat.eqb_refl in H3. discriminate.
Qed.
Lemma preset_acceptable p junk (v : hpwh R) : presetChk p = true -> presetUnit p (lsrcs (lp_hs p) 0 junk) v -> acceptable (calcDerivedValues v).
Proof.
  intros HC HU. destruct (preset_derived _ _ _ HU) as (HD & HZ). destruct (chk_facts p HC) as (C1 & C2 & C3 & C4 & C5 & C6 & C7 & C8).
  pose proof (srcs_facts (lp_nodes p) junk (lp_hs p) 0) as HF. generalize dependent (map (deriveHS (lp_nodes p)) (lsrcs (lp_hs p) 0 junk)). intros hs HD HF.
  pose proof (C56_compressor_index_fact v) as XC. pose proof (C56_found_if_present_fact v) as XL. pose proof (C56_lowest_element_fact v) as XM. cbv zeta in XC, XL, XM.
  generalize dependent (calcDerivedValues v). intros d HZ HD XC XL XM. pose proof (pu_hs _ _ _ HD) as EH. rewrite EH in *.
  assert (HE : forall i h, nth_error hs i = Some h -> exists s, nth_error (lp_hs p) i = Some s /\ srcFacts s (lp_nodes p) h /\ kindChk s = true /\ goodDist (h_dist h) /\ srcChk (lp_nodes p) (lp_hs p) i s = true).
  { intros i h HI. destruct (F2_nth _ _ _ HF _ _ HI) as (s & S1 & S2). exists s. pose proof (C8 _ _ S1) as SC. destruct (src_chk _ _ _ _ SC) as (K1 & K2 & _). splits; auto. apply (src_dist _ _ _ S2 K1 K2). }
  constructor.
  - rewrite EH, (pu_model _ _ _ HD). unfold reach in C6. destruct HF; [right; auto|left; discriminate].
  - rewrite EH. intros i h HI. destruct (HE i h HI) as (s & S1 & S2 & S3 & S4 & S5). destruct (src_chk _ _ _ _ S5) as (K1 & K2 & K3 & K4 & K5 & K6). constructor.
    + eapply preset_startable; eauto.
    + rewrite (sf_turnOn _ _ _ S2). apply logics_valid; auto.
    + rewrite (sf_off _ _ _ S2). apply logics_valid; auto.
    + apply good_valid; auto.
    + rewrite (kf_air _ _ (sf_kind _ _ _ S2)). lra.
    + intros HT. pose proof (kf_type _ _ (sf_kind _ _ _ S2)) as KT. rewrite HT in KT. destruct (ls_kind s) as [|c] eqn:EK; [discriminate|]. pose proof (sf_kind _ _ _ S2) as SK. rewrite EK in SK.
      destruct (kf_cond _ _ SK c eq_refl) as (E1 & _ & _ & _ & _ & _ & _ & E8 & E9 & _). unfold kindChk in K1. rewrite EK in K1. bsplit.
      assert (HX : h_config h <> External) by (rewrite E1; destruct (lcfg c); discriminate).
      constructor; intros; try congruence.
  - intros HK. destruct XC as [(E & _)|(i & E & (h & HI & HT) & _)]; [lia|]. unfold getSizingFractions, hasCompressor, compressor. rewrite (proj2 (Z.leb_le _ _) HK). cbn [negb]. destruct (pu_soc _ _ _ HD) as (-> & _).
    rewrite E, EH. replace (Z.of_nat i <? 0)%Z with false by (symmetry; apply Z.ltb_ge; lia). rewrite Nat2Z.id, HI. cbn [obind].
    destruct (HE i h HI) as (s & S1 & S2 & S3 & _). pose proof (src_sizing d _ _ _ S2 S3 HT) as HS. eexists _, _. split; [reflexivity|].
    destruct (nltb _ _); unfold TOL_MINVALUE, dec; num_simpl; lra.
  - pose proof (C6) as HR. unfold reach in HR. destruct (pu_sp _ _ _ HD) as (ES & EX). unfold isNewSetpointPossible, tempToC. cbn [obind]. unfold setpointPossible. rewrite EX, ES, EH. unfold hasCompressor.
    destruct (lp_hs p) as [|s0 l0] eqn:EL.
    + assert (H0 : hs = []) by (inversion HF; reflexivity). rewrite H0 in *.
      assert (N1 : w_compIx d = (-1)%Z). { destruct XC as [(E & _)|(i & _ & (h & HI & _) & _)]; [auto|]. destruct i; discriminate HI. }
      assert (N2 : w_lowIx d = (-1)%Z). { destruct XM as [(E & _)|(i & h & _ & (HI & _) & _)]; [auto|]. destruct i; discriminate HI. }
      rewrite N1, N2. cbn [Z.leb Z.compare obind Z.eqb Pos.eqb andb negb]. rewrite (pu_model _ _ _ HD), HR. cbn [obind tempFromC]. eauto.
    + destruct (existsb isElement (s0 :: l0)) eqn:EE.
      * apply qle_R in HR. rewrite qv_ok in HR by auto. replace (Q2R 100) with 100 in HR by (unfold Q2R; cbn; lra).
        apply existsb_exists in EE. destruct EE as (s & SI & SE). apply In_nth_error in SI. destruct SI as (i & SI). destruct (F2_nth' _ _ _ HF _ _ SI) as (h & HI & S2).
        assert (HT : h_type h = TResistance) by (rewrite (kf_type _ _ (sf_kind _ _ _ S2)); unfold isElement in SE; destruct (ls_kind s); [auto|discriminate]).
        destruct XL as (XL & _); [intros k g (GI & _); destruct (HE k g GI) as (? & _ & _ & _ & G & _); exact G|exists i, h; split; auto|].
        assert (HP : exists r, (if (0 <=? w_compIx d)%Z then match nth_error hs (Z.to_nat (w_compIx d)) with Some g => Ok (negb (nltb (nadd (nsub (h_maxSet g) (h_shxHot g)) tolT) (lval (lp_setpoint p)) && (w_lowIx d =? -1)%Z)%bool, nsub (h_maxSet g) (h_shxHot g)) | None => UB "heatSources index out of range" end else Ok (false, absolute_zeroT)) = Ok r).
        { destruct (Z.leb_spec 0 (w_compIx d)) as [L|L]; [|eauto]. destruct XC as [(E & _)|(k & E & (g & GI & _) & _)]; [lia|]. rewrite E, Nat2Z.id, GI. eauto. }
        destruct HP as ([r mx] & ->). cbn [obind]. rewrite (proj2 (Z.leb_le _ _) XL). unfold tolT, dec. num_simpl. rewrite (proj2 (Rltb_false (100 + _) _)) by lra. cbn [negb obind tempFromC]. eauto.
      * assert (NE : forall i s, nth_error (s0 :: l0) i = Some s -> exists c, ls_kind s = LCondenser c /\ lval (lp_setpoint p) <= odef 100 (lc_maxSet c)).
        { intros i s SI. rewrite forallb_forall in HR. pose proof (HR s (nth_error_In _ _ SI)) as G. destruct (ls_kind s) as [|c] eqn:EK; [discriminate|]. exists c. split; auto. apply qle_R in G. rewrite qv_ok in G by auto.
          pose proof (C8 _ _ SI) as SC. destruct (src_chk _ _ _ _ SC) as (K1 & _). unfold kindChk in K1. rewrite EK in K1. bsplit. destruct (lc_maxSet c) as [e|]; cbn [oqv odef oqok] in *; [rewrite qv_ok in G by auto; auto|]. replace (Q2R 100) with 100 in G by (unfold Q2R; cbn; lra). auto. }
        assert (N2 : w_lowIx d = (-1)%Z).
        { destruct XM as [(E & _)|(i & h & _ & (HI & HT) & _)]; [auto|]. destruct (HE i h HI) as (s & S1 & S2 & _). destruct (NE _ _ S1) as (c & EK & _). rewrite (kf_type _ _ (sf_kind _ _ _ S2)), EK in HT. discriminate. }
        assert (N1 : exists i h, w_compIx d = Z.of_nat i /\ nth_error hs i = Some h /\ h_type h = TCompressor).
        { destruct XC as [(_ & XN)|(i & E & (h & HI & HT) & _)]; [|exists i, h; auto]. exfalso. destruct (NE 0%nat s0 eq_refl) as (c & EK & _). destruct (F2_nth' _ _ _ HF 0%nat s0 eq_refl) as (h & HI & S2).
          apply (XN 0%nat). exists h. split; auto. rewrite (kf_type _ _ (sf_kind _ _ _ S2)), EK. reflexivity. }
        destruct N1 as (i & h & E & HI & HT). rewrite E, N2, Nat2Z.id, HI. replace (0 <=? Z.of_nat i)%Z with true by (symmetry; apply Z.leb_le; lia). cbn [obind Z.leb Z.compare Z.eqb Pos.eqb andb negb].
        destruct (HE i h HI) as (s & S1 & S2 & _). destruct (NE _ _ S1) as (c & EK & G). pose proof (sf_kind _ _ _ S2) as SK. rewrite EK in SK. destruct (kf_cond _ _ SK c eq_refl) as (_ & _ & _ & _ & E5 & _ & _ & _ & _ & _ & E11 & _).
        rewrite E5, E11. unfold tolT, dec. num_simpl. rewrite (proj2 (Rltb_false (_ + _) _)) by lra. cbn [negb obind tempFromC]. eauto.
  - rewrite (pu_UA _ _ _ HD). lra.
  - destruct (pu_hx _ _ _ HD) as (_ & ->). auto.
Qed.
Lemma legacy_ok p junk (w : hpwh R) : presetChk p = true -> exists v, presetUnit p (lsrcs (lp_hs p) 0 junk) v /\ initLegacy p junk w = (Ok tt, calcDerivedValues v).
Proof.
  intros HC. destruct (legacy_run p junk w) as (v & HU & E). exists v. split; auto. rewrite E. rewrite finish_run by (eapply preset_acceptable; eauto).
  destruct (preset_derived _ _ _ HU) as (HD & _). rewrite (pu_hs _ _ _ HD).
  assert (HB : existsb h_on (map (deriveHS (lp_nodes p)) (lsrcs (lp_hs p) 0 junk)) = false).
  { assert (HG : forall n l hs, Forall2 (fun s (h : hsrc R) => srcFacts s n h) l hs -> existsb h_on hs = false).
    { intros n l hs HF. induction HF as [|s h l l' F1 F2 IH]; [reflexivity|]. cbn [existsb]. rewrite (kf_on _ _ (sf_kind _ _ _ F1)). auto. }
    eapply HG. apply srcs_facts. }
  rewrite HB. pose proof (pu_heating _ _ _ HD) as HH. clear HD. generalize dependent (calcDerivedValues v). intros d HH. destruct d. cbn in HH. rewrite HH. reflexivity.
Qed.
(** ** Runs *)
(** the water temperatures (C) up to which, and the air temperatures (C) up to which, the maps are positive *)
Definition waterTop (m : lmodel) : Q := match m with M_AOSmithCAHP120 => 66 | _ => 60 end.
Definition airTopF (m : lmodel) : Q := match m with M_GenericUEF217 => 80 | _ => 212 end.
Definition toF (q : Q) : Q := Qred (Qmake 9 5 * q + 32).
Definition runSrc (sp hi top : Q) (s : lsrc) : bool :=
  match ls_kind s with
  | LElement _ _ => true
  | LCondenser c => mapOK (lc_poly c) (toF (oqv (Qmake (-27315) 100) (lc_minT c))) (qmin (toF (oqv 100 (lc_maxT c))) top) 32 (toF hi) && Qle_bool sp (oqv 100 (lc_maxSet c)) &&
    qlt (Qmake (-27315) 100) (oqv (Qmake (-27315) 100) (lc_minT c))
  end.
Definition runChk (p : lpreset) (hi top : Q) : bool :=
  (match lp_hx p with None => true | Some _ => false end) && Qle_bool (qv (lp_setpoint p)) hi && (match lp_init p with None => true | Some _ => false end) && Qle_bool 0 (qv (lp_setpoint p)) &&
  forallb (runSrc (qv (lp_setpoint p)) hi top) (lp_hs p).
Lemma all_run (m : lmodel) : m <> M_StorageTank -> m <> M_AquaThermAire -> runChk (lpresetOf m) (waterTop m) (airTopF m) = true.
Proof. intros H1 H2. destruct m; try congruence; vm_compute; reflexivity. Qed.
Definition inRange (hi : R) (c : R) : Prop := 0 <= c <= hi.
(** outside air a unit is meant for *)
Definition airFits (top : R) (air : R) (hs : list (hsrc R)) : Prop := air <= top /\ forall c, In c hs -> h_type c = TCompressor -> h_minT c <= air <= h_maxT c.
Lemma toF_R q : Q2R (toF q) = 9 / 5 * Q2R q + 32.
Proof. unfold toF. rewrite Q2R_red, Q2R_plus, Q2R_mult. unfold Q2R at 1 3. cbn. lra. Qed.
Lemma oqv_R d dR o : Q2R d = dR -> oqok o = true -> Q2R (oqv d o) = odef dR o.
Proof. intros E HO. destruct o as [x|]; cbn [oqv odef oqok] in *; auto. apply qv_ok; auto. Qed.
Lemma cond_perf (w : hpwh R) c (h : hsrc R) hi top air cond : kindFacts (LCondenser c) h -> oqok (lc_minT c) = true -> oqok (lc_maxT c) = true ->
  mapOK (lc_poly c) (toF (oqv (Qmake (-27315) 100) (lc_minT c))) (qmin (toF (oqv 100 (lc_maxT c))) top) 32 (toF hi) = true ->
  h_minT h <= air <= h_maxT h -> 9 / 5 * air + 32 <= Q2R top -> inRange (Q2R hi) cond -> exists p, getPerformance w h air cond = Ok p /\ 0 < p_out p /\ 0 < p_in p /\ 0 < p_cop p.
Proof.
  intros HK O1 O2 HM HA HT HI. destruct (kf_cond _ _ HK c eq_refl) as (_ & E2 & E3 & _ & _ & E6 & _ & E8 & _ & E10 & _ & E12 & E13 & E14). pose proof (kf_air _ _ HK) as E0.
  rewrite <- (oqv_R (Qmake (-27315) 100)) in E2 by (auto; unfold Q2R; cbn; lra). rewrite <- (oqv_R 100) in E3 by (auto; unfold Q2R; cbn; lra).
  destruct (map_pos _ _ _ _ _ HM (w_setpoint w) air cond) as (i & e & EP & P1 & P2).
  - split; [rewrite toF_R; lra|apply qmin_ge; [rewrite toF_R; lra|auto]].
  - rewrite toF_R. replace (Q2R 32) with 32 by (unfold Q2R; cbn; lra). destruct HI. lra.
  - unfold getPerformance. rewrite E0, E6, E8, E10, E12, E13, E14. num_simpl. unfold nneqb. num_simpl. rewrite (proj2 (Reqb'_true 1 1)) by lra. cbn [negb].
    rewrite (proj2 (Rltb_false 0 0)) by lra. cbn [andb obind]. rewrite Rplus_0_r, EP. cbn [p_in p_cop p_out]. eexists. split; [reflexivity|]. cbn [p_in p_cop p_out].
    assert (0 < e * i) by (apply Rmult_lt_0_compat; auto). splits; try lra; try nra.
Qed.
Lemma preset_ready p junk (v : hpwh R) hi top air : presetChk p = true -> runChk p hi top = true -> presetUnit p (lsrcs (lp_hs p) 0 junk) v ->
  airFits (5 / 9 * (Q2R top - 32)) air (w_hs (calcDerivedValues v)) ->
  unitReady air (inRange (Q2R hi)) (calcDerivedValues v) /\ unitOK air (inRange (Q2R hi)) (calcDerivedValues v).
Proof.
  intros HC HR HU (HT & HA). destruct (preset_derived _ _ _ HU) as (HD & HZ). destruct (chk_facts p HC) as (C1 & C2 & C3 & C4 & C5 & C6 & C7 & C8). pose proof (preset_acceptable _ _ _ HC HU) as AC.
  pose proof (srcs_facts (lp_nodes p) junk (lp_hs p) 0) as HF. generalize dependent (map (deriveHS (lp_nodes p)) (lsrcs (lp_hs p) 0 junk)). intros hs HD HF.
  pose proof (pu_hs _ _ _ HD) as EH. rewrite EH in HA. destruct (pu_sp _ _ _ HD) as (ES & _). destruct (pu_inlet_T _ _ _ HD) as (EI & _). pose proof (F2_len _ _ _ HF) as HLen.
  unfold runChk in HR. apply andb_prop in HR. destruct HR as (HR & RF). rewrite forallb_forall in RF. clear HR.
  assert (HE : forall h, In h hs -> exists s i, srcFacts s (lp_nodes p) h /\ srcChk (lp_nodes p) (lp_hs p) i s = true /\ kindChk s = true /\ goodDist (h_dist h) /\ (h_type h = TCompressor -> 1 <= h_shrink h) /\ runSrc (qv (lp_setpoint p)) hi top s = true).
  { intros h HI. apply In_nth_error in HI. destruct HI as (i & HI). destruct (F2_nth _ _ _ HF _ _ HI) as (s & S1 & S2). exists s, i. pose proof (C8 _ _ S1) as SC. destruct (src_chk _ _ _ _ SC) as (K1 & K2 & _).
    destruct (src_dist _ _ _ S2 K1 K2). splits; auto. apply RF. eapply nth_error_In; eauto. }
  assert (HP : forall h, In h hs -> h_type h = TCompressor -> h_config h <> External /\ lval (lp_setpoint p) <= h_maxSet h /\ h_mlAir h = -27315 / 100 /\ -27315 / 100 < h_minT h /\
    forall (w : hpwh R) cond, inRange (Q2R hi) cond -> exists q, getPerformance w h air cond = Ok q /\ 0 < p_out q).
  { intros h HI HTy. destruct (HE h HI) as (s & i & S1 & _ & S2 & _ & _ & S5). pose proof (sf_kind _ _ _ S1) as SK. pose proof (kf_type _ _ SK) as KT. rewrite HTy in KT.
    unfold kindChk in S2. unfold runSrc in S5. destruct (ls_kind s) as [|c] eqn:EK; [discriminate|]. bsplit.
    destruct (kf_cond _ _ SK c eq_refl) as (E1 & E2 & _ & _ & E5 & _ & E7 & _). 
    match goal with G : Qle_bool (qv _) (oqv _ _) = true |- _ => apply qle_R in G; rewrite qv_ok in G by auto; rewrite (oqv_R 100 100) in G by (auto; unfold Q2R; cbn; lra); rename G into GM end.
    splits; auto.
    - rewrite E1. destruct (lcfg c); discriminate.
    - lra.
    - match goal with G : qlt _ (oqv _ _) = true |- _ => apply qlt_R in G; rewrite (oqv_R _ (-27315 / 100)) in G by (auto; unfold Q2R; cbn; lra) end. rewrite E2. match goal with G : _ < _ |- _ < _ => revert G end. unfold Q2R at 1. cbn. lra.
    - intros w cond HI'. destruct (cond_perf w c h hi top air cond SK) as (q & EQ & P1 & _); auto; [lra|]. eauto. }
  assert (HG : forall h, In h hs -> match h_type h with TResistance => 0 < h_power h /\ h_config h = Wrapped | TCompressor => True end).
  { intros h HI. destruct (HE h HI) as (s & i & S1 & _ & S2 & _). pose proof (sf_kind _ _ _ S1) as SK. rewrite (kf_type _ _ SK). unfold kindChk in S2. destruct (ls_kind s) as [nd wt|c] eqn:EK; auto. bsplit.
    destruct (kf_elem _ _ SK nd wt eq_refl) as (E1 & E2). split; auto. rewrite E2. match goal with G : qlt 0 _ = true |- _ => apply qlt_R in G; rewrite Q2R_0, qv_ok in G by auto end. lra. }
  destruct (C37_size_constants_fact (w_tank (calcDerivedValues v))) as (S1 & S2 & S3 & S4 & S5 & S6 & S7); [rewrite (pu_vol _ _ _ HD); lra|rewrite (pu_Ts _ _ _ HD); destruct C1 as [-> | ->]; discriminate|]. rewrite <- HZ in S1, S2, S3, S4, S5, S6, S7.
  assert (HN : length (t_Ts (w_tank (calcDerivedValues v))) = lp_nodes p) by (rewrite (pu_Ts _ _ _ HD), repeat_length; reflexivity). rewrite HN, (pu_vol _ _ _ HD) in *.
  assert (HNR : 12 <= INR (lp_nodes p) <= 24) by (destruct C1 as [-> | ->]; cbn; lra).
  split.
  - apply C59_ready_fact; auto.
    + rewrite ES, EH, EI. apply Forall_forall. intros h HI. destruct (HE h HI) as (s & i & F1 & F2 & F3 & F4 & F5 & F6). destruct (src_chk _ _ _ _ F2) as (K1 & K2 & K3 & K4 & K5 & K6). constructor.
      * apply (gd_nonneg _ F4).
      * intros l HL. rewrite (sf_turnOn _ _ _ F1), (sf_off _ _ _ F1) in HL.
        assert (HX : Forall (fun l => match l with TempLogic _ d _ _ _ _ _ => Forall (fun p => 0 <= snd p) (d_w d) /\ (d_type d = DWeighted -> goodDist (d_w d)) | SoCLogic _ _ _ _ _ _ _ _ => False end) (map (llogicOf (T:=R)) (ls_on s) ++ map (llogicOf (T:=R)) (ls_off s))) by (apply Forall_app; split; apply logics_good; auto).
        rewrite Forall_forall in HX. specialize (HX l ltac:(apply in_or_app; auto)). destruct l; [exact (proj1 HX)|contradiction].
      * rewrite (kf_standby _ _ (sf_kind _ _ _ F1)). discriminate.
      * intros b HB. rewrite HLen. destruct (sf_links _ _ _ F1) as (L1 & L2 & L3). apply K6. rewrite L1, L2, L3 in HB. auto.
      * intros HTy. specialize (HG h HI). rewrite HTy in HG. apply HG.
      * intros HTy. destruct (HP h HI HTy) as (P1 & P2 & P3 & P4 & P5). specialize (F5 HTy). destruct (HA h HI HTy). splits; auto; intros; lra.
    + destruct (pu_soc _ _ _ HD) as (-> & _). discriminate.
  - constructor.
    + assert (H12 : INR 12 = 12) by (cbn; lra). assert (H24 : INR 24 = 24) by (cbn; lra). constructor; rewrite ?HN, ?(pu_vol _ _ _ HD); try lra; destruct C1 as [E|E]; rewrite E in *; rewrite ?H12, ?H24 in *; try lra; try lia; auto.
    + unfold ports_ok. rewrite ?HN. destruct (pu_inlet _ _ _ HD) as (-> & ->). destruct C1 as [-> | ->]; cbn; lia.
    + apply HD.
    + rewrite EH, ?HN. apply Forall_forall. intros h HI. destruct (HE h HI) as (s & i & F1 & F2 & F3 & F4 & F5 & F6). specialize (HG h HI).
      assert (HX : h_config h <> External). { destruct (h_type h) eqn:ET; [apply (HP h HI ET)|]. destruct HG as (_ & ->). discriminate. }
      constructor; intros; try congruence; auto; try lra.
      * rewrite H in HG. lra.
      * destruct (HP h HI H) as (_ & _ & _ & _ & P5). destruct (P5 w cond H0) as (q & EQ & P). rewrite EQ in H1. inversion H1; subst. lra.
    + destruct (pu_step _ _ _ HD) as (T1 & _). lra.
Qed.
Lemma preset_conduction p hs (d : hpwh R) : presetChk p = true -> presetUnit p hs d -> w_tank d = calcSizeConstants (w_tank d) -> condTau (w_tank d) (w_secStep d) <= 1.
Proof.
  intros HC HD HS. destruct (chk_facts p HC) as (C1 & C2 & _). destruct (pu_step _ _ _ HD) as (_ & -> & _).
  destruct (C37_size_constants_fact (w_tank d)) as (_ & _ & _ & _ & _ & S6 & _); [rewrite (pu_vol _ _ _ HD); lra|rewrite (pu_Ts _ _ _ HD); destruct C1 as [-> | ->]; discriminate|].
  rewrite <- HS in S6. rewrite (pu_Ts _ _ _ HD), repeat_length, (pu_vol _ _ _ HD) in S6. 
  destruct (C37_one_cylinder_fact (lval (lp_vol p))) as (r & (HR & HCy) & E & _); [lra|]. rewrite E in S6.
  assert (H3 : 1 / 10 <= r). { destruct (Rle_dec (1 / 10) r); auto. exfalso. assert (r * r <= 1 / 100) by nra. assert (r * r * r <= 1 / 1000) by nra. lra. }
  set (nh := t_nodeHeight (w_tank d)) in *.
  assert (HN : 1 / 200 <= nh). { assert (475 / 100 * (1 / 10 / (32808 / 10000)) <= 475 / 100 * (r / (32808 / 10000))) by (apply Rmult_le_compat_l; [lra|]; unfold Rdiv; apply Rmult_le_compat_r; lra).
    destruct C1 as [E1|E1]; rewrite E1 in S6; [replace (INR 12) with 12 in S6 by (cbn; lra)|replace (INR 24) with 24 in S6 by (cbn; lra)]; lra. }
  unfold condTau. fold nh. unfold KWATER, CPWATER, DENSITYWATER, dec. num_simpl. assert (HQ : 1 / 40000 <= nh * nh) by nra.
  set (q := nh * nh) in *. clearbody q. apply (Rmult_le_reg_r q); [lra|].
  match goal with |- ?a / (?b * ?c * q) * ?s * q <= _ => replace (a / (b * c * q) * s * q) with (a / (b * c) * s) by (field; lra) end. lra.
Qed.
Lemma preset_calm p hs (d : hpwh R) lo hi : presetChk p = true -> presetUnit p hs d -> w_tank d = calcSizeConstants (w_tank d) ->
  lo <= startT p <= hi -> lo <= lval (lp_setpoint p) <= hi -> lp_hx p = None -> Forall (fun h => ~ multiPass h) hs -> calmUnit lo hi d.
Proof.
  intros HC HF HS HB HB' HX HM. destruct (chk_facts p HC) as (C1 & C2 & C3 & _ & C5 & _). destruct HF as [A1 A2 A3 A4 A5 A6 A7 A8 A9 A10 A11 A12 A13 A14 A15 A16 A17 A18].
  assert (HN : length (t_Ts (w_tank d)) = lp_nodes p) by (rewrite A2; apply repeat_length).
  destruct (C37_size_constants_fact (w_tank d)) as (S1 & S2 & S3 & S4 & S5 & S6 & S7); [rewrite A3; lra|rewrite A2; destruct C1 as [-> | ->]; discriminate|]. rewrite <- HS in S1, S2, S3, S4, S5, S6, S7. rewrite HN, A3 in *.
  assert (H12 : INR 12 = 12) by (cbn; lra). assert (H24 : INR 24 = 24) by (cbn; lra). destruct A14 as (T1 & T2 & T3). destruct A11 as (A11 & _). num_simpl.
  set (vol := lval (lp_vol p)) in *. set (ua := lval (lp_UA p)) in *.
  destruct (C37_one_cylinder_fact vol) as (r & (HR & HCy) & E & _); [lra|]. rewrite E in S6.
  constructor; rewrite ?T2, ?T3, ?A4, ?A9, ?A11; try lra; auto.
  - destruct A8 as (A8 & _). rewrite A8, HX. reflexivity.
  - intros i Hi. rewrite A2 in *. rewrite repeat_length in Hi. unfold node. rewrite !nth_repeat_in by lia. lra.
  - rewrite A1. exact HM.
  - intros c HI. rewrite A2 in HI. apply repeat_spec in HI. subst c. lra.
  - assert (HP : 0 < 475 / 100 * (r / (32808 / 10000))) by (apply Rmult_lt_0_compat; [lra|]; unfold Rdiv; apply Rmult_lt_0_compat; lra). intros HZ. rewrite HZ in S6. lra.
  - intros ends ->. rewrite HN, S7. set (ft := t_fracTop (w_tank d)) in *. replace (t_fracSide (w_tank d)) with (1 - 2 * ft) by lra. unfold CPWATER, DENSITYWATER, dec. num_simpl.
    destruct C1 as [EN|EN]; rewrite EN in *; cbn [Nat.eqb]; rewrite ?H12, ?H24 in *.
    + replace (t_nodeVol (w_tank d)) with (vol / 12) by lra. assert (EF : ft = 2 / 23) by lra. rewrite EF. apply (Rmult_le_reg_r vol); [lra|]. 
      match goal with |- ?a <= _ => replace a with (ua * (1 / 60 * (2 / 23 + (1 - 4 / 23) / 12) / (418 / 100 * (995 / 1000) / 12))) end; [lra|field; lra].
    + replace (t_nodeVol (w_tank d)) with (vol / 24) by lra. assert (EF : ft = 2 / 23) by lra. rewrite EF. apply (Rmult_le_reg_r vol); [lra|]. 
      match goal with |- ?a <= _ => replace a with (ua * (1 / 60 * (2 / 23 + (1 - 4 / 23) / 24) / (418 / 100 * (995 / 1000) / 24))) end; [lra|field; lra].
Qed.
Lemma preset_runs p junk (v : hpwh R) hi top : presetChk p = true -> runChk p hi top = true -> presetUnit p (lsrcs (lp_hs p) 0 junk) v ->
  forall w', w' = calcDerivedValues v ->
  forall fuel rows, (576 < fuel)%nat ->
  (forall r, In r rows -> 0 <= r_draw r /\ r_draw r * INR (length (t_Ts (w_tank w'))) / t_volume (w_tank w') <= INR fuel /\
    airFits (5 / 9 * (Q2R top - 32)) (r_ext r) (w_hs w') /\ 0 <= r_amb r <= Q2R hi /\ 0 <= r_inletT r <= Q2R hi) -> Rsum (map r_draw rows) <> 0 ->
  exists ws wl w2, SeqProofs.runs fuel rows w' ws wl /\ runNSteps fuel rows w' = (Ok tt, w2) /\ Forall (fun v => within 0 (Q2R hi) (t_Ts (w_tank v))) ws /\
    tankHeat (w_tank w2) = tankHeat (w_tank w')
      + CPWATER * DENSITYWATER * (Rsum (map (fun r => r_draw r * r_inletT r) rows) - t_outletT (w_tank w2) * Rsum (map r_draw rows))
      + 3600 * Rsum (map h_eOut (w_hs w2)) - 3600 * w_stbyE w2.
Proof.
  intros HC HRC HU w' EW fuel rows F1 F2 F3. pose proof (fun air HA => preset_ready p junk v hi top air HC HRC HU HA) as HK. destruct (preset_derived _ _ _ HU) as (HD & HS).
  assert (HM : Forall (fun h => ~ multiPass h) (map (deriveHS (lp_nodes p)) (lsrcs (lp_hs p) 0 junk))).
  { pose proof (srcs_facts (lp_nodes p) junk (lp_hs p) 0) as HF. generalize dependent (map (deriveHS (lp_nodes p)) (lsrcs (lp_hs p) 0 junk)). intros hs _ HF. apply Forall_forall. intros h HI HX. apply In_nth_error in HI. destruct HI as (i & HI). destruct (F2_nth _ _ _ HF _ _ HI) as (s & S1 & S2).
    pose proof (sf_kind _ _ _ S2) as SK. destruct HX as (X1 & X2 & _). pose proof (kf_type _ _ SK) as KT. rewrite X1 in KT. destruct (ls_kind s) as [|c] eqn:EK; [discriminate|]. destruct (kf_cond _ _ SK c eq_refl) as (E1 & _). rewrite E1 in X2.
    destruct (chk_facts p HC) as (_ & _ & _ & _ & _ & _ & _ & C8). destruct (src_chk _ _ _ _ (C8 _ _ S1)) as (K1 & _). unfold kindChk in K1. rewrite EK in K1. bsplit. destruct (lcfg c); discriminate. }
  rewrite <- EW in HK, HD, HS. clear EW HU. generalize dependent (map (deriveHS (lp_nodes p)) (lsrcs (lp_hs p) 0 junk)). intros hs HD HM.
  destruct (chk_facts p HC) as (C1 & C2 & C3 & _ & C5 & _ & C7 & _).
  unfold runChk in HRC. bsplit. assert (HX0 : lp_hx p = None) by (destruct (lp_hx p); [discriminate|auto]). assert (HI0 : lp_init p = None) by (destruct (lp_init p); [discriminate|auto]).
  repeat match goal with G : Qle_bool _ _ = true |- _ => apply qle_R in G end. rewrite Q2R_0 in *. rewrite qv_ok in * by auto.
  assert (HB : startT p = lval (lp_setpoint p)) by (unfold startT; rewrite HI0; reflexivity).
  assert (HCm : calmUnit 0 (Q2R hi) w') by (eapply preset_calm; eauto; rewrite ?HB; lra).
  assert (HN : length (t_Ts (w_tank w')) = lp_nodes p) by (rewrite (pu_Ts _ _ _ HD); apply repeat_length).
  assert (HNR : 12 <= INR (lp_nodes p) <= 24) by (destruct C1 as [-> | ->]; cbn; lra).
  assert (HNN : (lp_nodes p * lp_nodes p <= 576)%nat) by (destruct C1 as [-> | ->]; cbn; lia).
  destruct (C37_size_constants_fact (w_tank w')) as (_ & _ & _ & _ & S1 & _); [rewrite (pu_vol _ _ _ HD); lra|rewrite (pu_Ts _ _ _ HD); destruct C1 as [-> | ->]; discriminate|]. rewrite <- HS, HN, (pu_vol _ _ _ HD) in S1.
  destruct (pu_step _ _ _ HD) as (T1 & T2 & T3). destruct (pu_dep _ _ _ HD) as (D1 & _). rewrite C5 in D1. destruct (pu_draw _ _ _ HD) as (_ & M1).
  assert (HCR : coveredRun (inRange (Q2R hi)) rows w') by (right; exists 0, (Q2R hi); unfold calmRun; splits; auto; intros r HI; destruct (F2 r HI) as (_ & _ & _ & ? & ?); auto).
  assert (HR : forall r, In r rows -> unitOK (r_ext r) (inRange (Q2R hi)) w' /\ unitReady (r_ext r) (inRange (Q2R hi)) w' /\ 0 <= r_draw r /\ r_draw r / t_nodeVol (w_tank w') <= INR fuel).
  { intros r HI. destruct (F2 r HI) as (G1 & G2 & G3 & _). destruct (HK _ G3) as (K1 & K2). splits; auto. rewrite HN, (pu_vol _ _ _ HD) in G2. 
    replace (t_nodeVol (w_tank w')) with (lval (lp_vol p) / INR (lp_nodes p)) by (apply (Rmult_eq_reg_r (INR (lp_nodes p))); [|lra]; unfold Rdiv; rewrite Rmult_assoc, Rinv_l by lra; lra).
    replace (r_draw r / (lval (lp_vol p) / INR (lp_nodes p))) with (r_draw r * INR (lp_nodes p) / lval (lp_vol p)) by (field; lra). auto. }
  destruct (C73_run_completes_fact fuel (inRange (Q2R hi)) rows w') as (w2 & E2); rewrite ?T1, ?D1, ?M1, ?HN; try lra; try lia; auto.
  { intros _. eapply preset_conduction; eauto. }
  destruct (runs_succ fuel (inRange (Q2R hi)) rows w') as (ws & wl & HX); rewrite ?T1, ?D1, ?M1, ?HN; try lra; try lia; auto.
  { intros _. rewrite T2. pose proof (preset_conduction _ _ _ HC HD HS) as HT. rewrite T2 in HT. exact HT. }
  exists ws, wl, w2. splits; auto.
  - apply (C30_run_range_fact fuel (inRange (Q2R hi)) 0 (Q2R hi) rows w' wl ws); auto.
    + intros air HI. apply in_map_iff in HI. destruct HI as (r & <- & HI). apply HR; auto.
    + intros r HI. destruct (F2 r HI) as (_ & _ & _ & ? & ?); auto.
  - apply (C23_run_balance_fact fuel (inRange (Q2R hi)) rows w' w2); auto.
    + intros air [HX'|HI]; [congruence|]. apply in_map_iff in HI. destruct HI as (r & <- & HI). apply HR; auto.
    + apply Forall_forall. intros r HI. apply F2; auto.
Qed.
Lemma cond_getPerf (w : hpwh R) c (h : hsrc R) air cond i e : kindFacts (LCondenser c) h -> polyFun (lpoly (lc_poly c)) (w_setpoint w) air cond = mkperf i (e * i) e ->
  exists q, getPerformance w h air cond = Ok q /\ p_in q = i /\ p_out q = e * i /\ p_cop q = e.
Proof.
  intros HK EP. destruct (kf_cond _ _ HK c eq_refl) as (_ & E2 & E3 & _ & _ & E6 & _ & E8 & _ & E10 & _ & E12 & E13 & E14). pose proof (kf_air _ _ HK) as E0.
  unfold getPerformance. rewrite E0, E6, E8, E10, E12, E13, E14. num_simpl. unfold nneqb. num_simpl. rewrite (proj2 (Reqb'_true 1 1)) by lra. cbn [negb].
  rewrite (proj2 (Rltb_false 0 0)) by lra. cbn [andb obind]. rewrite Rplus_0_r, EP. cbn [p_in p_cop p_out]. eexists. split; [reflexivity|]. cbn [p_in p_cop p_out]. splits; lra.
Qed.
Lemma poly_seg0 t1 i1 c1 t2 i2 c2 rest sp air c : three i1 = true -> three i2 = true -> three c1 = true -> three c2 = true ->
  lval (T:=R) t1 < lval t2 -> rest = [] \/ 9 / 5 * air + 32 < lval t2 ->
  let f a b := a + (9 / 5 * air + 32 - lval t1) * (b - a) / (lval t2 - lval t1) in
  let x := 9 / 5 * c + 32 in let i := f (quadR (coefsOf i1) x) (quadR (coefsOf i2) x) in let e := f (quadR (coefsOf c1) x) (quadR (coefsOf c2) x) in
  polyFun (lpoly ((t1, i1, c1) :: (t2, i2, c2) :: rest)) sp air c = mkperf i (e * i) e.
Proof.
  intros A1 A2 A3 A4 HT HA. cbv zeta. unfold polyFun, polyEval. unfold C_TO_F, FperC, offsetF. num_simpl. set (u := 9 / 5 * air + 32) in *. set (x := 9 / 5 * c + 32) in *.
  assert (EK : evalLoop (lpoly (T:=R) ((t1, i1, c1) :: (t2, i2, c2) :: rest)) (length (lpoly (T:=R) ((t1, i1, c1) :: (t2, i2, c2) :: rest))) u 0 = (Some 0%nat, 1%nat)).
  { destruct HA as [-> |HA]; cbn [lpoly map length Nat.sub evalLoop pp_T Nat.eqb]; num_simpl.
    - destruct (Rltb u (lval t1)); [reflexivity|]. destruct (Rltb u (lval t2)); reflexivity.
    - destruct (Rltb u (lval t1)); [reflexivity|]. rewrite (proj2 (Rltb_true u (lval t2))) by auto. reflexivity. }
  rewrite EK. cbn [lpoly map atPoint nth_error obind pp_T pp_in pp_cop]. rewrite !quad_ok by auto. cbn [obind].
  rewrite (proj2 (Reqb'_false (lval t2 - lval t1) 0)) by lra. cbn [negb]. unfold linearInterp. num_simpl. reflexivity.
Qed.
Lemma cond_seg0 (w : hpwh R) k (h : hsrc R) t1 i1 c1 t2 i2 c2 rest air c : kindFacts (LCondenser k) h -> lc_poly k = (t1, i1, c1) :: (t2, i2, c2) :: rest ->
  (three i1 && three i2 && three c1 && three c2)%bool = true -> lval (T:=R) t1 < lval t2 -> rest = [] \/ 9 / 5 * air + 32 < lval t2 ->
  let f a b := a + (9 / 5 * air + 32 - lval t1) * (b - a) / (lval t2 - lval t1) in
  let x := 9 / 5 * c + 32 in let i := f (quadR (coefsOf i1) x) (quadR (coefsOf i2) x) in let e := f (quadR (coefsOf c1) x) (quadR (coefsOf c2) x) in
  exists q, getPerformance w h air c = Ok q /\ p_in q = i /\ p_out q = e * i.
Proof.
  intros HK EP HB HT HA. bsplit. cbv zeta. destruct (cond_getPerf w k h air c _ _ HK ltac:(rewrite EP; apply poly_seg0; auto)) as (q & A1 & A2 & A3 & _). exists q. auto.
Qed.
Lemma legacy_inv m junk (w w' : hpwh R) : initLegacy (lpresetOf m) junk w = (Ok tt, w') -> exists v, presetUnit (lpresetOf m) (lsrcs (lp_hs (lpresetOf m)) 0 junk) v /\ w' = calcDerivedValues v.
Proof. intros E. destruct (legacy_ok (lpresetOf m) junk w (all_checked m)) as (v & HU & E'). rewrite E' in E. inversion E; subst. eauto. Qed.
Lemma legacy_facts m junk (w w' : hpwh R) : initLegacy (lpresetOf m) junk w = (Ok tt, w') ->
  presetUnit (lpresetOf m) (w_hs w') w' /\ w_tank w' = calcSizeConstants (w_tank w') /\ Forall2 (fun s h => srcFacts s (lp_nodes (lpresetOf m)) h) (lp_hs (lpresetOf m)) (w_hs w').
Proof.
  intros E. destruct (legacy_inv _ _ _ _ E) as (v & HU & ->). destruct (preset_derived _ _ _ HU) as (HD & HS). pose proof (pu_hs _ _ _ HD) as EH. split; [rewrite EH; auto|]. split; [auto|]. rewrite EH. apply srcs_facts.
Qed.
(** highest water and air temperatures (C) of the claims below *)
Definition topWater (m : lmodel) : R := match m with M_AOSmithCAHP120 => 66 | _ => 60 end.
Definition topAir (m : lmodel) : R := match m with M_GenericUEF217 => 80 / 3 | _ => 100 end.
Lemma top_water m : Q2R (waterTop m) = topWater m.
Proof. destruct m; cbn [waterTop topWater]; unfold Q2R; cbn; lra. Qed.
Lemma top_air m : 5 / 9 * (Q2R (airTopF m) - 32) = topAir m.
Proof. destruct m; cbn [airTopF topAir]; unfold Q2R; cbn; lra. Qed.

Lemma C102_accepts_fact : forall m junk (w : hpwh R), exists w', initLegacy (lpresetOf m) junk w = (Ok tt, w').
Proof. intros m junk w. destruct (legacy_ok (lpresetOf m) junk w (all_checked m)) as (v & _ & E). eauto. Qed.

Lemma C102_result_fact : forall m junk (w w' : hpwh R), initLegacy (lpresetOf m) junk w = (Ok tt, w') ->
  (length (t_Ts (w_tank w')) = 12%nat \/ length (t_Ts (w_tank w')) = 24%nat) /\ 100 <= t_volume (w_tank w') /\ t_nodeVol (w_tank w') * INR (length (t_Ts (w_tank w'))) = t_volume (w_tank w') /\
  0 <= t_UA (w_tank w') <= 5 * t_volume (w_tank w') /\
  (exists c, (forall x, In x (t_Ts (w_tank w')) -> x = c) /\ (m <> M_StorageTank -> m <> M_AquaThermAire -> c = w_setpoint w')) /\
  w_minStep w' = 1 /\ w_heating w' = false /\ w_doDepress w' = false /\
  (forall i h, nth_error (w_hs w') i = Some h -> h_on h = false /\ h_config h <> External /\ h_depresses h = (match h_type h with TCompressor => true | TResistance => false end) /\
     (h_turnOn h <> [] \/ exists b, In b (w_hs w') /\ h_backup b = Some i /\ h_turnOn b <> [])).
Proof.
  intros m junk w w' E. destruct (legacy_facts _ _ _ _ E) as (HD & HS & HF). pose proof (all_checked m) as HC.
  assert (HI0 : m <> M_StorageTank -> m <> M_AquaThermAire -> startT (lpresetOf m) = lval (lp_setpoint (lpresetOf m))).
  { intros N1 N2. pose proof (all_run m N1 N2) as HR. unfold runChk in HR. bsplit. unfold startT. destruct (lp_init (lpresetOf m)); [discriminate|auto]. }
  generalize dependent (lpresetOf m). intros p _ HD HF HC HI0. destruct (chk_facts p HC) as (C1 & C2 & C3 & _ & C5 & _ & C7 & C8).
  assert (HN : length (t_Ts (w_tank w')) = lp_nodes p) by (rewrite (pu_Ts _ _ _ HD); apply repeat_length).
  destruct (C37_size_constants_fact (w_tank w')) as (_ & _ & _ & _ & S1 & _); [rewrite (pu_vol _ _ _ HD); lra|rewrite (pu_Ts _ _ _ HD); destruct C1 as [-> | ->]; discriminate|]. rewrite <- HS, HN, (pu_vol _ _ _ HD) in S1.
  rewrite HN, (pu_vol _ _ _ HD), (pu_UA _ _ _ HD).
  split; [auto|]. split; [auto|]. split; [lra|]. split; [auto|]. split; [|split; [apply HD|split; [apply HD|split; [destruct (pu_dep _ _ _ HD) as (-> & _); auto|]]]].
  - exists (startT p). split.
    + intros x HI. rewrite (pu_Ts _ _ _ HD) in HI. apply repeat_spec in HI. auto.
    + intros N1 N2. destruct (pu_sp _ _ _ HD) as (-> & _). auto.
  - intros i h HI. destruct (F2_nth _ _ _ HF _ _ HI) as (s & S2 & S3). pose proof (C8 _ _ S2) as SC. destruct (src_chk _ _ _ _ SC) as (K1 & K2 & K3 & K4 & K5 & K6). pose proof (sf_kind _ _ _ S3) as SK.
    split; [apply SK|]. split; [|split].
    + unfold kindChk in K1. destruct (ls_kind s) as [nd wt|c] eqn:EK.
      * destruct (kf_elem _ _ SK nd wt eq_refl) as (-> & _). discriminate.
      * bsplit. destruct (kf_cond _ _ SK c eq_refl) as (-> & _). destruct (lcfg c); discriminate.
    + rewrite (sf_depresses _ _ _ S3), (kf_type _ _ SK). unfold ltype. destruct (ls_kind s); reflexivity.
    + assert (HO : forall s h, srcFacts s (lp_nodes p) h -> hasOn s = true -> h_turnOn h <> []).
      { intros s' h' F G. rewrite (sf_turnOn _ _ _ F). unfold hasOn in G. destruct (ls_on s'); [discriminate|]. cbn. discriminate. }
      apply orb_prop in K5. destruct K5 as [K5|K5]; [left; eauto|]. destruct (find (backs i) (lp_hs p)) as [q|] eqn:EF; [|discriminate]. apply find_some in EF. destruct EF as (G1 & G2).
      apply In_nth_error in G1. destruct G1 as (k & G1). destruct (F2_nth' _ _ _ HF _ _ G1) as (b & B1 & B2). right. exists b. split; [eapply nth_error_In; eauto|]. split; [|eauto].
      destruct (sf_links _ _ _ B2) as (-> & _). unfold backs in G2. destruct (ls_backup q) as [z|]; [|discriminate]. apply Nat.eqb_eq in G2. congruence.
Qed.

Lemma C102_example_fact : forall junk (w : hpwh R), exists w1 w2,
  initLegacy (lpresetOf M_AOSmithHPTU50) junk w = (Ok tt, w1) /\ length (t_Ts (w_tank w1)) = 24%nat /\ map h_type (w_hs w1) = [TResistance; TResistance; TCompressor] /\ w_setpoint w1 = 475 / 9 /\
  initLegacy (lpresetOf M_restankHugeUA) junk w = (Ok tt, w2) /\ t_volume (w_tank w2) = 120 /\ t_UA (w_tank w2) = 500 /\ map h_type (w_hs w2) = [TResistance; TResistance].
Proof.
  intros junk w. destruct (C102_accepts_fact M_AOSmithHPTU50 junk w) as (w1 & E1). destruct (C102_accepts_fact M_restankHugeUA junk w) as (w2 & E2). exists w1, w2.
  destruct (legacy_facts _ _ _ _ E1) as (D1 & _ & F1). destruct (legacy_facts _ _ _ _ E2) as (D2 & _ & F2).
  assert (HT : forall n l (hs : list (hsrc R)), Forall2 (fun s h => srcFacts s n h) l hs -> map h_type hs = map ltype l).
  { intros n l hs HF. induction HF as [|s h l' hs' G1 G2 IH]; [reflexivity|]. cbn [map]. rewrite IH, (kf_type _ _ (sf_kind _ _ _ G1)). unfold ltype. reflexivity. }
  splits; auto.
  - rewrite (pu_Ts _ _ _ D1), repeat_length. reflexivity.
  - rewrite (HT _ _ _ F1). reflexivity.
  - destruct (pu_sp _ _ _ D1) as (-> & _). rewrite <- qv_ok by reflexivity. replace (Q2R _) with (Q2R (Qmake 475 9)) by (apply Qeq_eqR; vm_compute; reflexivity). unfold Q2R. cbn. lra.
  - rewrite (pu_vol _ _ _ D2). cbn. reflexivity.
  - rewrite (pu_UA _ _ _ D2). cbn. reflexivity.
  - rewrite (HT _ _ _ F2). reflexivity.
Qed.

Lemma C103_maps_fact : forall m junk (w w' : hpwh R), m <> M_StorageTank -> m <> M_AquaThermAire -> initLegacy (lpresetOf m) junk w = (Ok tt, w') ->
  forall (u : hpwh R) c air cond, In c (w_hs w') -> h_type c = TCompressor -> h_minT c <= air <= h_maxT c -> air <= topAir m -> 0 <= cond <= topWater m ->
  exists q, getPerformance u c air cond = Ok q /\ 0 < p_in q /\ 0 < p_cop q /\ p_out q = p_cop q * p_in q.
Proof.
  intros m junk w w' N1 N2 E u c air cond HI HT HA HTop HW. destruct (legacy_facts _ _ _ _ E) as (HD & _ & HF). apply In_nth_error in HI. destruct HI as (i & HI). destruct (F2_nth _ _ _ HF _ _ HI) as (s & S1 & S2). clear E HD HF.
  pose proof (all_run m N1 N2) as HR. unfold runChk in HR. apply andb_prop in HR. destruct HR as (_ & HR). rewrite forallb_forall in HR. specialize (HR s (nth_error_In _ _ S1)).
  destruct (chk_facts _ (all_checked m)) as (_ & _ & _ & _ & _ & _ & _ & C8). destruct (src_chk _ _ _ _ (C8 _ _ S1)) as (K1 & _). pose proof (sf_kind _ _ _ S2) as SK. pose proof (kf_type _ _ SK) as KT. rewrite HT in KT.
  unfold runSrc in HR. unfold kindChk in K1. destruct (ls_kind s) as [|k] eqn:EK; [discriminate|]. bsplit.
  destruct (kf_cond _ _ SK k eq_refl) as (_ & E2 & E3 & _). rewrite <- (oqv_R (Qmake (-27315) 100)) in E2 by (auto; unfold Q2R; cbn; lra). rewrite <- (oqv_R 100) in E3 by (auto; unfold Q2R; cbn; lra).
  rewrite <- top_water in HW. rewrite <- top_air in HTop.
  match goal with G : mapOK _ _ _ _ _ = true |- _ => destruct (map_pos _ _ _ _ _ G (w_setpoint u) air cond) as (a & e & EP & P1 & P2) end.
  - split; [rewrite toF_R; lra|apply qmin_ge; [rewrite toF_R; lra|lra]].
  - rewrite toF_R. replace (Q2R 32) with 32 by (unfold Q2R; cbn; lra). lra.
  - destruct (cond_getPerf u k c air cond a e SK EP) as (q & EQ & Q1 & Q2 & Q3). exists q. rewrite Q1, Q2, Q3. splits; auto.
Qed.

Lemma C103_runs_fact : forall m junk (w w' : hpwh R), m <> M_StorageTank -> m <> M_AquaThermAire -> initLegacy (lpresetOf m) junk w = (Ok tt, w') ->
  forall fuel rows, (576 < fuel)%nat ->
  (forall r, In r rows -> 0 <= r_draw r /\ r_draw r * INR (length (t_Ts (w_tank w'))) / t_volume (w_tank w') <= INR fuel /\ r_ext r <= topAir m /\
    (forall c, In c (w_hs w') -> h_type c = TCompressor -> h_minT c <= r_ext r <= h_maxT c) /\ 0 <= r_amb r <= topWater m /\ 0 <= r_inletT r <= topWater m) -> Rsum (map r_draw rows) <> 0 ->
  exists ws wl w2, SeqProofs.runs fuel rows w' ws wl /\ runNSteps fuel rows w' = (Ok tt, w2) /\ Forall (fun v => within 0 (topWater m) (t_Ts (w_tank v))) ws /\
    tankHeat (w_tank w2) = tankHeat (w_tank w')
      + CPWATER * DENSITYWATER * (Rsum (map (fun r => r_draw r * r_inletT r) rows) - t_outletT (w_tank w2) * Rsum (map r_draw rows))
      + 3600 * Rsum (map h_eOut (w_hs w2)) - 3600 * w_stbyE w2.
Proof.
  intros m junk w w' N1 N2 E fuel rows F1 F2 F3. destruct (legacy_inv _ _ _ _ E) as (v & HU & EW). rewrite <- top_water in *. 
  apply (preset_runs (lpresetOf m) junk v (waterTop m) (airTopF m)); auto.
  - apply all_checked.
  - apply all_run; auto.
  - intros r HI. destruct (F2 r HI) as (G1 & G2 & G3 & G4 & G5 & G6). split; [auto|]. split; [auto|]. split; [unfold airFits; rewrite top_air; auto|auto].
Qed.

Definition limitChk (p : lpreset) (a b : Q) : bool := forallb (fun s => match ls_kind s with LElement _ _ => true | LCondenser c => Qle_bool (oqv (Qmake (-27315) 100) (lc_minT c)) a && Qle_bool b (oqv 100 (lc_maxT c)) end) (lp_hs p).
Lemma limits_ok m a b (hs : list (hsrc R)) : limitChk (lpresetOf m) a b = true -> Forall2 (fun s h => srcFacts s (lp_nodes (lpresetOf m)) h) (lp_hs (lpresetOf m)) hs ->
  forall c, In c hs -> h_type c = TCompressor -> h_minT c <= Q2R a /\ Q2R b <= h_maxT c.
Proof.
  intros HL HF c HI HT. apply In_nth_error in HI. destruct HI as (i & HI). destruct (F2_nth _ _ _ HF _ _ HI) as (s & S1 & S2). unfold limitChk in HL. rewrite forallb_forall in HL. specialize (HL s (nth_error_In _ _ S1)).
  destruct (chk_facts _ (all_checked m)) as (_ & _ & _ & _ & _ & _ & _ & C8). destruct (src_chk _ _ _ _ (C8 _ _ S1)) as (K1 & _). pose proof (sf_kind _ _ _ S2) as SK. pose proof (kf_type _ _ SK) as KT. rewrite HT in KT.
  unfold kindChk in K1. destruct (ls_kind s) as [|k] eqn:EK; [discriminate|]. bsplit. destruct (kf_cond _ _ SK k eq_refl) as (_ & E2 & E3 & _).
  repeat match goal with G : Qle_bool _ _ = true |- _ => apply qle_R in G end. rewrite (oqv_R _ (-27315 / 100)) in * by (auto; unfold Q2R; cbn; lra). rewrite (oqv_R _ 100) in * by (auto; unfold Q2R; cbn; lra). rewrite E2, E3. auto.
Qed.
Lemma C103_example_fact : forall junk (w : hpwh R), exists w' w2, initLegacy (lpresetOf M_Rheem2020Prem50) junk w = (Ok tt, w') /\
  (exists c, In c (w_hs w') /\ h_type c = TCompressor) /\
  runNSteps 600 [mkrow (T:=R) 10 3 20 20 0%Z; mkrow 15 5 20 12 0%Z] w' = (Ok tt, w2).
Proof.
  intros junk w. destruct (C102_accepts_fact M_Rheem2020Prem50 junk w) as (w' & E). destruct (legacy_facts _ _ _ _ E) as (HD & _ & HF).
  assert (HR : forall r, In r [mkrow (T:=R) 10 3 20 20 0%Z; mkrow 15 5 20 12 0%Z] -> 0 <= r_draw r /\ r_draw r * INR (length (t_Ts (w_tank w'))) / t_volume (w_tank w') <= INR 600 /\ r_ext r <= topAir M_Rheem2020Prem50 /\
    (forall c, In c (w_hs w') -> h_type c = TCompressor -> h_minT c <= r_ext r <= h_maxT c) /\ 0 <= r_amb r <= topWater M_Rheem2020Prem50 /\ 0 <= r_inletT r <= topWater M_Rheem2020Prem50).
  { assert (H600 : INR 600 = 600) by (rewrite INR_IZR_INZ; reflexivity). destruct (chk_facts _ (all_checked M_Rheem2020Prem50)) as (_ & C2 & _). intros r HI.
    assert (HB : (r_draw r = 3 \/ r_draw r = 5) /\ 12 <= r_ext r <= 20 /\ r_amb r = 20 /\ 10 <= r_inletT r <= 15) by (cbn [In] in HI; destruct HI as [<-|[<-|[]]]; cbn [r_draw r_ext r_amb r_inletT]; lra). clear HI. destruct HB as (B1 & B2 & B3 & B4).
    rewrite (pu_Ts _ _ _ HD), repeat_length, (pu_vol _ _ _ HD), H600. change (lp_nodes (lpresetOf M_Rheem2020Prem50)) with 12%nat. replace (INR 12) with 12 by (cbn; lra). cbn [topAir topWater].
    split; [lra|]. split; [|split; [lra|split; [|split; lra]]].
    - apply (Rmult_le_reg_r (lval (lp_vol (lpresetOf M_Rheem2020Prem50)))); [lra|]. unfold Rdiv. rewrite Rmult_assoc, Rinv_l by lra. destruct B1 as [-> | ->]; lra.
    - intros c HI HT. destruct (limits_ok M_Rheem2020Prem50 12 20 (w_hs w') ltac:(vm_compute; reflexivity) HF c HI HT) as (L1 & L2). unfold Q2R in L1, L2. cbn in L1, L2. lra. }
  destruct (C103_runs_fact M_Rheem2020Prem50 junk w w' ltac:(discriminate) ltac:(discriminate) E 600 [mkrow (T:=R) 10 3 20 20 0%Z; mkrow 15 5 20 12 0%Z]) as (ws & wl & w2 & _ & E2 & _); [lia|exact HR|cbn; lra|].
  exists w', w2. splits; auto. destruct (F2_nth' _ _ _ HF 2%nat _ eq_refl) as (c & HI & SF). exists c. split; [eapply nth_error_In; eauto|]. rewrite (kf_type _ _ (sf_kind _ _ _ SF)). reflexivity.
Qed.

(** The natural claim, that the compressor of every preset heats wherever its air limits let it run, up to the setpoint the unit starts with, is false: GenericUEF217 cools
    the tank at its own setpoint when the air is at its upper limit of 120 F. *)
Definition heatsAtSetpoint (m : lmodel) : Prop := forall junk (w w' : hpwh R), initLegacy (lpresetOf m) junk w = (Ok tt, w') ->
  forall c air q, In c (w_hs w') -> h_type c = TCompressor -> h_minT c <= air <= h_maxT c -> getPerformance w' c air (w_setpoint w') = Ok q -> 0 < p_out q.
Lemma qnum e a : qok e = true -> (qv e == a)%Q -> lval (T:=R) e = Q2R a.
Proof. intros O E. rewrite <- qv_ok by auto. apply Qeq_eqR. auto. Qed.
Lemma C104_heats_refuted_fact : exists m, ~ heatsAtSetpoint m.
Proof.
  exists M_GenericUEF217. intros HX. pose (w := exUnit (T:=R) [50]). pose (junk := fun _ : nat => exHS (T:=R) TCompressor false None [] [] [] 0).
  destruct (C102_accepts_fact M_GenericUEF217 junk w) as (w' & E). specialize (HX junk w w' E). destruct (legacy_facts _ _ _ _ E) as (HD & _ & HF). clear E.
  destruct (F2_nth' _ _ _ HF 2%nat _ eq_refl) as (c & HI & SF). pose proof (sf_kind _ _ _ SF) as SK. cbn [ls_kind] in SK. 
  match type of SK with kindFacts (LCondenser ?k) _ => pose proof (kf_cond _ _ SK k eq_refl) as (_ & E2 & E3 & _) end. cbn [lc_minT lc_maxT odef] in E2, E3.
  rewrite (qnum _ (Qmake 65 9)) in E2 by (vm_compute; reflexivity). rewrite (qnum _ (Qmake 440 9)) in E3 by (vm_compute; reflexivity).
  destruct (pu_sp _ _ _ HD) as (ES & _). rewrite (qnum _ (Qmake 475 9)) in ES by (vm_compute; reflexivity). unfold Q2R in E2, E3, ES. cbn in E2, E3, ES.
  destruct (cond_seg0 w' _ c _ _ _ _ _ _ _ (440 / 9) (w_setpoint w') SK eq_refl ltac:(vm_compute; reflexivity) ltac:(cbn; lra) (or_introl eq_refl)) as (q & EQ & Q1 & Q2).
  specialize (HX c (440 / 9) q (nth_error_In _ _ HI)). rewrite (kf_type _ _ SK) in HX. specialize (HX eq_refl ltac:(rewrite E2, E3; lra) EQ). rewrite Q2, ES in HX. clear - HX.
  revert HX. unfold quadR, coefsOf. rewrite !qv_ok by (vm_compute; reflexivity). cbn [lval Z.eqb Pos.eqb]. unfold dec. num_simpl. intros HX. field_simplify in HX. lra.
Qed.

Lemma C104_maxSetpoint_refuted_fact : exists m junk (w w' : hpwh R) c q, initLegacy (lpresetOf m) junk w = (Ok tt, w') /\ In c (w_hs w') /\ h_type c = TCompressor /\
  getPerformance w' c (h_minT c) (h_maxSet c) = Ok q /\ 0 < p_in q /\ p_out q < 0.
Proof.
  pose (w := exUnit (T:=R) [50]). pose (junk := fun _ : nat => exHS (T:=R) TCompressor false None [] [] [] 0). destruct (C102_accepts_fact M_Rheem2020Prem50 junk w) as (w' & E). destruct (legacy_facts _ _ _ _ E) as (HD & _ & HF).
  destruct (F2_nth' _ _ _ HF 2%nat _ eq_refl) as (c & HI & SF). pose proof (sf_kind _ _ _ SF) as SK. cbn [ls_kind] in SK.
  match type of SK with kindFacts (LCondenser ?k) _ => pose proof (kf_cond _ _ SK k eq_refl) as (_ & E2 & _ & _ & E5 & _) end. cbn [lc_minT lc_maxSet odef] in E2, E5.
  rewrite (qnum _ (Qmake 25 9)) in E2 by (vm_compute; reflexivity). rewrite (qnum _ (Qmake 640 9)) in E5 by (vm_compute; reflexivity). unfold Q2R in E2, E5. cbn in E2, E5.
  destruct (cond_seg0 w' _ c _ _ _ _ _ _ _ (h_minT c) (h_maxSet c) SK eq_refl ltac:(vm_compute; reflexivity) ltac:(cbn; lra) (or_introl eq_refl)) as (q & EQ & Q1 & Q2).
  exists M_Rheem2020Prem50, junk, w, w', c, q. split; [auto|]. split; [eapply nth_error_In; eauto|]. split; [rewrite (kf_type _ _ SK); reflexivity|]. split; [auto|]. rewrite Q1, Q2, E2, E5. clear.
  unfold quadR, coefsOf. rewrite !qv_ok by (vm_compute; reflexivity). cbn [lval Z.eqb Pos.eqb]. unfold dec. num_simpl. split; lra.
Qed.

Lemma C104_input_refuted_fact : exists m junk (w w' : hpwh R) c air q, initLegacy (lpresetOf m) junk w = (Ok tt, w') /\ In c (w_hs w') /\ h_type c = TCompressor /\ h_minT c <= air <= h_maxT c /\
  getPerformance w' c air 0 = Ok q /\ p_in q < 0.
Proof.
  pose (w := exUnit (T:=R) [50]). pose (junk := fun _ : nat => exHS (T:=R) TCompressor false None [] [] [] 0). destruct (C102_accepts_fact M_AquaThermAire junk w) as (w' & E). destruct (legacy_facts _ _ _ _ E) as (HD & _ & HF).
  destruct (F2_nth' _ _ _ HF 0%nat _ eq_refl) as (c & HI & SF). pose proof (sf_kind _ _ _ SF) as SK. cbn [ls_kind] in SK.
  destruct (cond_seg0 w' _ c _ _ _ _ _ _ _ (-15) 0 SK eq_refl ltac:(vm_compute; reflexivity) ltac:(cbn; lra) ltac:(right; cbn; lra)) as (q & EQ & Q1 & Q2).
  exists M_AquaThermAire, junk, w, w', c, (-15), q. split; [auto|]. split; [eapply nth_error_In; eauto|]. split; [rewrite (kf_type _ _ SK); reflexivity|]. split; [|split; [auto|]].
  - destruct (limits_ok M_AquaThermAire (-15) (-15) (w_hs w') ltac:(vm_compute; reflexivity) HF c (nth_error_In _ _ HI) ltac:(rewrite (kf_type _ _ SK); reflexivity)) as (L1 & L2). unfold Q2R in L1, L2. cbn in L1, L2. lra.
  - rewrite Q1. clear. unfold quadR, coefsOf. rewrite !qv_ok by (vm_compute; reflexivity). cbn [lval Z.eqb Pos.eqb]. unfold dec. num_simpl. lra.
Qed.

Lemma C104_depresses_refuted_fact : ~ (forall m junk (w w' : hpwh R), initLegacy (lpresetOf m) junk w = (Ok tt, w') ->
  forall i s c b h, nth_error (lp_hs (lpresetOf m)) i = Some s -> ls_kind s = LCondenser c -> lc_depress c = Some b -> nth_error (w_hs w') i = Some h -> h_depresses h = b).
Proof.
  intros HX. pose (w := exUnit (T:=R) [50]). pose (junk := fun _ : nat => exHS (T:=R) TCompressor false None [] [] [] 0). destruct (C102_accepts_fact M_Stiebel220E junk w) as (w' & E). specialize (HX _ _ _ _ E). destruct (legacy_facts _ _ _ _ E) as (_ & _ & HF). clear E.
  destruct (F2_nth' _ _ _ HF 0%nat _ eq_refl) as (c & HI & SF). specialize (HX 0%nat _ _ false c eq_refl eq_refl eq_refl HI). rewrite (sf_depresses _ _ _ SF) in HX. discriminate.
Qed.

Lemma C104_sizes_fact : forall junk (w w50 w80 : hpwh R), initLegacy (lpresetOf M_GE2014STDMode_50) junk w = (Ok tt, w50) -> initLegacy (lpresetOf M_GE2014STDMode_80) junk w = (Ok tt, w80) ->
  exists a b, nth_error (w_hs w50) 2 = Some a /\ nth_error (w_hs w80) 2 = Some b /\ h_type a = TCompressor /\ h_type b = TCompressor /\ h_eval a = h_eval b /\ h_minT a = h_minT b /\
    h_maxT a = 440 / 9 /\ h_maxT b = 100 /\ h_hyst a = 10 / 9 /\ h_hyst b = 0.
Proof.
  intros junk w w50 w80 E5 E8. destruct (legacy_facts _ _ _ _ E5) as (_ & _ & F5). destruct (legacy_facts _ _ _ _ E8) as (_ & _ & F8). clear E5 E8.
  destruct (F2_nth' _ _ _ F5 2%nat _ eq_refl) as (a & HA & SA). destruct (F2_nth' _ _ _ F8 2%nat _ eq_refl) as (b & HB & SB). exists a, b. clear F5 F8.
  pose proof (sf_kind _ _ _ SA) as KA. pose proof (sf_kind _ _ _ SB) as KB. cbn [ls_kind] in KA, KB.
  match type of KA with kindFacts (LCondenser ?k) _ => pose proof (kf_cond _ _ KA k eq_refl) as (_ & A2 & A3 & A4 & _ & A6 & _) end.
  match type of KB with kindFacts (LCondenser ?k) _ => pose proof (kf_cond _ _ KB k eq_refl) as (_ & B2 & B3 & B4 & _ & B6 & _) end.
  cbn [lc_minT lc_maxT lc_hyst lc_poly odef] in *. rewrite A2, A3, A4, A6, B2, B3, B4, B6, (kf_type _ _ KA), (kf_type _ _ KB).
  rewrite (qnum (FtoC (Lit 120 1)) (Qmake 440 9)) by (vm_compute; reflexivity). rewrite (qnum (DFtoDC (Lit 2 1)) (Qmake 10 9)) by (vm_compute; reflexivity). unfold Q2R. cbn [Qnum Qden].
  splits; auto; lra.
Qed.
Lemma C104_sizes_example_fact : forall junk (w : hpwh R), exists w50 w80, initLegacy (lpresetOf M_GE2014STDMode_50) junk w = (Ok tt, w50) /\ initLegacy (lpresetOf M_GE2014STDMode_80) junk w = (Ok tt, w80).
Proof. intros junk w. destruct (C102_accepts_fact M_GE2014STDMode_50 junk w) as (a & Ea). destruct (C102_accepts_fact M_GE2014STDMode_80 junk w) as (b & Eb). exists a, b. split; [exact Ea|exact Eb]. Qed.

Lemma C104_threshold_fact : forall junk (w w' : hpwh R), initLegacy (lpresetOf M_GenericUEF217) junk w = (Ok tt, w') ->
  exists b s d, nth_error (w_hs w') 1 = Some b /\ h_turnOn b = [TempLogic s d (140 / 9) false CLess false false] /\ dF_TO_dC 60 = 100 / 3.
Proof.
  intros junk w w' E. destruct (legacy_facts _ _ _ _ E) as (_ & _ & HF). clear E. destruct (F2_nth' _ _ _ HF 1%nat _ eq_refl) as (b & HB & SB).
  assert (ED : lval (T:=R) (FtoC (Lit 60 1)) = 140 / 9) by (rewrite (qnum _ (Qmake 140 9)) by (vm_compute; reflexivity); unfold Q2R; cbn; lra).
  exists b. eexists _, _. split; [auto|]. split.
  - rewrite (sf_turnOn _ _ _ SB). cbn [ls_on map]. unfold lThirdSixth. cbn [llogicOf]. rewrite ED. unfold rangeLogic. reflexivity.
  - unfold dF_TO_dC, FperC. num_simpl. lra.
Qed.
Lemma C104_threshold_example_fact : forall junk (w : hpwh R), exists w', initLegacy (lpresetOf M_GenericUEF217) junk w = (Ok tt, w').
Proof. intros junk w. apply C102_accepts_fact. Qed.
