(** Proofs of the theorems stated in PropsPerfSwap.v: Properties of replacing the performance map of a unit *)

From Coq Require Import ZArith String List Bool Reals Lra Lia.
From Verif Require Import Num Base Units Utils Types TankM Logic HeatSrc Step Setters Config Perf Fitter PerfSwap Spec SpecState.
From Verif Require Import RList FrameProofs SourcesFacts Example.
Import ListNotations.
Local Open Scope R_scope.
Lemma first_none (f : hsrc R -> hsrc R) l : (forall h, In h l -> h_type h <> TCompressor) -> onFirstComp f l = l.
Proof. induction l as [|h l IH]; intros HN; [reflexivity|]. cbn [onFirstComp]. destruct (h_type h) eqn:E; [|rewrite IH; [reflexivity|intros g Hg; apply HN; right; exact Hg]]. exfalso. apply (HN h); [left; reflexivity|exact E]. Qed.
Lemma first_at (f : hsrc R -> hsrc R) : forall l i h, nth_error l i = Some h -> h_type h = TCompressor -> (forall j g, (j < i)%nat -> nth_error l j = Some g -> h_type g <> TCompressor) ->
  nth_error (onFirstComp f l) i = Some (f h) /\ forall j, j <> i -> nth_error (onFirstComp f l) j = nth_error l j.
Proof.
  induction l as [|x l IH]; intros [|i] h HN HT HF; try discriminate HN; cbn [onFirstComp nth_error] in *.
  - injection HN as ->. rewrite HT. split; [reflexivity|]. intros [|j] HJ; [congruence|reflexivity].
  - assert (EX : h_type x = TResistance). { destruct (h_type x) eqn:EX; [|reflexivity]. exfalso. apply (HF 0%nat x); [lia|reflexivity|exact EX]. } rewrite EX.
    destruct (IH i h HN HT) as (H1 & H2). { intros j g HJ HG. apply (HF (S j) g); [lia|exact HG]. } split; [exact H1|]. intros [|j] HJ; [reflexivity|]. cbn [nth_error]. apply H2. congruence.
Qed.
(** a compressor at some place is preceded by or is a first one *)
Lemma first_exists (l : list (hsrc R)) : forall i h, nth_error l i = Some h -> h_type h = TCompressor -> exists k g, (k <= i)%nat /\ nth_error l k = Some g /\ h_type g = TCompressor /\ forall j x, (j < k)%nat -> nth_error l j = Some x -> h_type x <> TCompressor.
Proof.
  induction l as [|x l IH]; intros i h HN HT; [destruct i; discriminate|]. destruct (h_type x) eqn:EX.
  - exists 0%nat, x. split; [lia|]. split; [reflexivity|]. split; [exact EX|]. intros j y HJ; lia.
  - destruct i as [|i]; cbn [nth_error] in HN; [injection HN as ->; congruence|]. destruct (IH i h HN HT) as (k & g & H1 & H2 & H3 & H4). exists (S k), g. split; [lia|]. split; [exact H2|]. split; [exact H3|].
    intros [|j] y HJ HY; cbn [nth_error] in HY; [injection HY as <-; congruence|]. apply (H4 j y); [lia|exact HY].
Qed.
Lemma C111_ignored_fact : forall mk (w : hpwh R), (forall h, In h (w_hs w) -> h_type h <> TCompressor) -> makeCondenserPerformance mk w = w.
Proof. intros mk w HN. unfold makeCondenserPerformance. rewrite first_none by exact HN. destruct w; reflexivity. Qed.
Lemma C111_first_fact : forall mk (w : hpwh R) h, In h (w_hs w) -> h_type h = TCompressor -> exists i g, nth_error (w_hs w) i = Some g /\ h_type g = TCompressor /\ (forall j x, (j < i)%nat -> nth_error (w_hs w) j = Some x -> h_type x = TResistance) /\
  nth_error (w_hs (makeCondenserPerformance mk w)) i = Some (set_h_eval (mk g) g) /\ (forall j, j <> i -> nth_error (w_hs (makeCondenserPerformance mk w)) j = nth_error (w_hs w) j) /\
  makeCondenserPerformance mk w = set_w_hs (w_hs (makeCondenserPerformance mk w)) w.
Proof.
  intros mk w h HI HT. apply In_nth_error in HI. destruct HI as (n & HN). destruct (first_exists _ n h HN HT) as (i & g & H1 & H2 & H3 & H4). exists i, g. destruct (first_at (fun x => set_h_eval (mk x) x) _ i g H2 H3 H4) as (K1 & K2).
  split; [exact H2|]. split; [exact H3|]. split. { intros j x HJ HX. destruct (h_type x) eqn:E; [|reflexivity]. exfalso. exact (H4 j x HJ HX E). }
  unfold makeCondenserPerformance. assert (EH : forall l (u : hpwh R), w_hs (set_w_hs l u) = l) by (intros l u; destruct u; reflexivity). rewrite EH. split; [exact K1|]. split; [exact K2|]. reflexivity.
Qed.
Lemma comp_at (w : hpwh R) i h : w_compIx w = Z.of_nat i -> nth_error (w_hs w) i = Some h -> compressor w = Ok h.
Proof. intros E HN. unfold compressor. rewrite E. replace (Z.of_nat i <? 0)%Z with false by (symmetry; apply Z.ltb_ge; lia). rewrite Nat2Z.id, HN. reflexivity. Qed.
Lemma swap_ix mk (w : hpwh R) : w_compIx (makeCondenserPerformance mk w) = w_compIx w /\ w_hs (makeCondenserPerformance mk w) = onFirstComp (fun h => set_h_eval (mk h) h) (w_hs w).
Proof. unfold makeCondenserPerformance. destruct w; split; reflexivity. Qed.
Lemma C111_single_fact : forall mk (w : hpwh R) i, let v := calcDerivedValues w in isCompAt (w_hs v) i -> (forall j, isCompAt (w_hs v) j -> j = i) ->
  exists h, compressor v = Ok h /\ compressor (makeCondenserPerformance mk v) = Ok (set_h_eval (mk h) h).
Proof.
  intros mk w i v (h & HN & HT) HU. pose proof (C56_compressor_index_fact w) as HI. cbv zeta in HI. change (calcDerivedValues w) with v in HI. clearbody v. destruct HI as [(_ & HX)|(k & HK & HC & _)]; [exfalso; apply (HX i); exists h; auto|].
  assert (k = i) by (apply HU; exact HC). subst k. exists h. split; [apply (comp_at _ i); auto|]. destruct (swap_ix mk v) as (E1 & E2).
  destruct (first_at (fun x => set_h_eval (mk x) x) _ i h HN HT) as (K1 & _). { intros j g HJ HG E. assert (j = i) by (apply HU; exists g; auto). lia. }
  apply (comp_at _ i); [rewrite E1; exact HK|rewrite E2; exact K1].
Qed.
Lemma C111_several_fact : forall mk (w : hpwh R) i j, let v := calcDerivedValues w in isCompAt (w_hs v) i -> isCompAt (w_hs v) j -> (i < j)%nat -> exists h, compressor v = Ok h /\ compressor (makeCondenserPerformance mk v) = Ok h.
Proof.
  intros mk w i j v (h & HN & HT) HJ HL. pose proof (C56_compressor_index_fact w) as HI. cbv zeta in HI. change (calcDerivedValues w) with v in HI. clearbody v. destruct HI as [(_ & HX)|(k & HK & (g & HG & HGT) & HC)]; [exfalso; apply (HX j); exact HJ|].
  assert (HLE : (j <= k)%nat) by (destruct (le_lt_dec j k) as [|HLT]; [auto|exfalso; exact (HC j HLT HJ)]).
  destruct (first_exists _ i h HN HT) as (n & x & H1 & H2 & H3 & H4). destruct (first_at (fun x => set_h_eval (mk x) x) _ n x H2 H3 H4) as (_ & K2). destruct (swap_ix mk v) as (E1 & E2).
  exists g. split; [apply (comp_at _ k); auto|]. apply (comp_at _ k); [rewrite E1; exact HK|]. rewrite E2, K2 by lia. exact HG.
Qed.
Lemma derived_hs (w : hpwh R) : w_hs (calcDerivedValues w) = map (deriveHS (numNodes (w_tank w))) (w_hs w).
Proof. rewrite derived_form. generalize (map (deriveHS (numNodes (w_tank w))) (w_hs w)) (calcSizeConstants (w_tank w)). intros hs t. unfold derivedOf. cbv zeta. generalize (scanHS (mkscan (-1) (-1) (-1) (-1) (nofZ 1) (nofZ 0)) 0 hs) (sortPos (resPoints hs 0)). intros s r. unfold putDerived. destruct w; reflexivity. Qed.
Lemma derived_type n (h : hsrc R) : h_type (deriveHS n h) = h_type h.
Proof. reflexivity. Qed.
Lemma comp_derived (w : hpwh R) i : isCompAt (w_hs (calcDerivedValues w)) i <-> isCompAt (w_hs w) i.
Proof.
  rewrite derived_hs. unfold isCompAt. split.
  - intros (h & HN & HT). rewrite nth_error_map in HN. destruct (nth_error (w_hs w) i) as [g|]; [|discriminate]. cbn [option_map] in HN. injection HN as <-. exists g. split; [reflexivity|]. rewrite derived_type in HT. exact HT.
  - intros (h & HN & HT). exists (deriveHS (numNodes (w_tank w)) h). split; [rewrite nth_error_map, HN; reflexivity|]. rewrite derived_type. exact HT.
Qed.
Lemma ex_types : map h_type (exSources (T:=R)) = [TResistance; TResistance; TCompressor].
Proof. reflexivity. Qed.
Lemma comp_types (l : list (hsrc R)) i : isCompAt l i <-> nth_error (map h_type l) i = Some TCompressor.
Proof.
  rewrite nth_error_map. unfold isCompAt. destruct (nth_error l i) as [g|]; cbn [option_map]; split; try (intros (h & E & T1); injection E as <-; rewrite T1; reflexivity); try (intros E; injection E as E; exists g; auto); try (intros (h & E & _); discriminate E). discriminate.
Qed.
Lemma ex_one (u : hpwh R) : w_hs u = exSources -> exists i, isCompAt (w_hs (calcDerivedValues u)) i /\ forall j, isCompAt (w_hs (calcDerivedValues u)) j -> j = i.
Proof.
  intros E. exists 2%nat. split; [apply comp_derived; rewrite E; apply comp_types; rewrite ex_types; reflexivity|]. intros j HJ. rewrite comp_derived, E, comp_types, ex_types in HJ.
  destruct j as [|[|[|j]]]; cbn [nth_error] in HJ; [discriminate HJ|discriminate HJ|reflexivity|destruct j; discriminate HJ].
Qed.
Lemma ex_two (u : hpwh R) : w_hs u = exSources ++ exSources -> exists i j, (i < j)%nat /\ isCompAt (w_hs (calcDerivedValues u)) i /\ isCompAt (w_hs (calcDerivedValues u)) j.
Proof. intros E. exists 2%nat, 5%nat. split; [lia|]. split; apply comp_derived; rewrite E; apply comp_types; rewrite map_app, ex_types; reflexivity. Qed.
Lemma set_hs l (u : hpwh R) : w_hs (set_w_hs l u) = l.
Proof. destruct u; reflexivity. Qed.
Lemma ex_hs Ts : w_hs (exUnit (T:=R) Ts) = exSources.
Proof. reflexivity. Qed.
Lemma C111_example_fact : (exists i, isCompAt (w_hs (calcDerivedValues (exUnit (repeat 50 12)))) i /\ forall j, isCompAt (w_hs (calcDerivedValues (exUnit (repeat 50 12)))) j -> j = i) /\
  exists i j, (i < j)%nat /\ isCompAt (w_hs (calcDerivedValues (set_w_hs (exSources ++ exSources) (exUnit (repeat 50 12))))) i /\ isCompAt (w_hs (calcDerivedValues (set_w_hs (exSources ++ exSources) (exUnit (repeat 50 12))))) j.
Proof. exact (conj (ex_one _ (ex_hs _)) (ex_two _ (set_hs _ _))). Qed.
