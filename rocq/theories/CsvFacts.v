(** Proofs of the theorems stated in PropsCsv.v: Tables of results: what the columns of the CSV output hold. *)

From Coq Require Import Reals Lra Lia ZArith String List Bool FinFun.
From Verif Require Import Num Base RList Units Types Utils Spec SpecDist SpecState TankM Logic HeatSrc Step Setters Rating Report DistFacts FNum Example.
Import ListNotations.
Local Open Scope R_scope.
Local Open Scope monad_scope.
(** ** C95: the CSV tables *)

(** the columns a table has, by unit and options *)
Definition listed (ip mp soc : bool) (n : nat) (c : col) : Prop :=
  match c with
  | ColMinutes | ColTa | ColSetpoint | ColInlet | ColDraw | ColDR => True
  | ColCondIn | ColCondOut | ColExtVol => mp = true
  | ColTarget | ColSoC => soc = true
  | ColIn i | ColOut i => (1 <= i <= n)%nat
  | ColTC i f => (1 <= i <= 6)%nat /\ f = ip
  | ColOutlet f => f = ip
  end.
(** litres of a gallon *)
Definition gallon : R := L_per_gal (T:=R).
(** what the field [x] of a column must hold for the record [td] of a minute and the state [w] at the time of writing *)
Definition shows (td : testData (T:=R)) (w : hpwh R) (c : col) (x : cell R) : Prop :=
  let drawn v := if Rlt_dec 0 (td_draw td) then x = CNum v else x = CEmpty in
  let temp (f : bool) t := if f then 9 / 5 * t + 32 else t in
  match c with
  | ColMinutes => x = CInt (td_time td)
  | ColTa => x = CNum (td_amb td)
  | ColSetpoint => x = CNum (td_setpoint td)
  | ColInlet => drawn (td_inlet td)
  | ColDraw => drawn (td_draw td / gallon)
  | ColCondIn => x = CNum (w_condIn w)
  | ColCondOut => x = CNum (w_condOut w)
  | ColExtVol => x = CNum (w_extVol w / gallon)
  | ColTarget => x = CNum (w_targetSoC w)
  | ColSoC => x = CNum (w_SoC w)
  | ColDR => x = CInt (w_prevDR w)
  | ColIn i => exists e, nth_error (td_in td) (i - 1) = Some e /\ x = CNum (1000 * e)
  | ColOut i => exists e, nth_error (td_out td) (i - 1) = Some e /\ x = CNum (1000 * e)
  | ColTC i f => exists t, nth_error (td_tc td) (i - 1) = Some t /\ x = CNum (temp f t)
  | ColOutlet f => drawn (temp f (td_outlet td))
  end.

Lemma emit_run {A} (l s : list A) : emit l s = (Ok tt, (s ++ l)%list).
Proof. reflexivity. Qed.
Lemma bind_emit {A B} (l s : list A) (k : unit -> M (list A) B) : bind (emit l) k s = k tt (s ++ l)%list.
Proof. reflexivity. Qed.
Lemma bind_lift {S A B} (o : outc A) (a : A) (k : A -> M S B) s : o = Ok a -> bind (lift o) k s = k a s.
Proof. intros ->. reflexivity. Qed.
Lemma forM_emit {A I} (f : I -> M (list A) unit) (g : I -> list A) l : (forall i s, In i l -> f i s = (Ok tt, (s ++ g i)%list)) ->
  forall s, forM l f s = (Ok tt, (s ++ flat_map g l)%list).
Proof.
  induction l as [|i l IH]; intros HF s; cbn [forM flat_map].
  - rewrite app_nil_r. reflexivity.
  - unfold bind. rewrite HF by (left; reflexivity). rewrite IH by (intros; apply HF; right; auto). rewrite app_assoc. reflexivity.
Qed.
Definition headCols (ip mp soc : bool) (n : nat) : list col :=
  ([ColMinutes; ColTa; ColSetpoint; ColInlet; ColDraw] ++ (if mp then [ColCondIn; ColCondOut; ColExtVol] else []) ++ (if soc then [ColTarget; ColSoC] else [])
   ++ [ColDR] ++ sourceCols n ++ tcCols 6 ip ++ [ColOutlet ip])%list.
Lemma heading_run o (w : hpwh R) mp : isExternalMultipass w = Ok mp -> csvHeading o w [] = (Ok tt, headCols (csv_has CSVOPT_IPUNITS o) mp (w_usesSoC w) (numHS w)).
Proof.
  intros E. unfold csvHeading. cbv zeta. rewrite bind_emit. erewrite bind_lift by exact E. rewrite !bind_emit, emit_run. unfold headCols. rewrite <- !app_assoc. reflexivity.
Qed.
Lemma in_sourceCols n c : In c (sourceCols n) <-> exists i, (1 <= i <= n)%nat /\ (c = ColIn i \/ c = ColOut i).
Proof.
  unfold sourceCols. rewrite in_flat_map. split.
  - intros (i & HI & HC). apply in_seq in HI. exists (S i). split; [lia|]. cbn in HC. destruct HC as [<-|[<-|[]]]; auto.
  - intros (i & HI & HC). exists (i - 1)%nat. rewrite in_seq. split; [lia|]. replace (S (i - 1)) with i by lia. cbn. destruct HC as [->| ->]; auto.
Qed.
Lemma in_tcCols n ip c : In c (tcCols n ip) <-> exists i, (1 <= i <= n)%nat /\ c = ColTC i ip.
Proof.
  unfold tcCols. rewrite in_map_iff. split.
  - intros (i & <- & HI). apply in_seq in HI. exists (S i). split; [lia|auto].
  - intros (i & HI & ->). exists (i - 1)%nat. rewrite in_seq. replace (S (i - 1)) with i by lia. split; [auto|lia].
Qed.
Lemma headCols_listed ip mp soc n c : In c (headCols ip mp soc n) <-> listed ip mp soc n c.
Proof.
  unfold headCols. rewrite !in_app_iff, in_sourceCols, in_tcCols. split.
  - intros [HC|[HC|[HC|[HC|[(i & HI & HC)|[(i & HI & ->)|HC]]]]]].
    + cbn in HC. decompose [or] HC; subst; cbn; auto; contradiction.
    + destruct mp; cbn in HC; decompose [or] HC; subst; cbn; auto; contradiction.
    + destruct soc; cbn in HC; decompose [or] HC; subst; cbn; auto; contradiction.
    + cbn in HC. decompose [or] HC; subst; cbn; auto; contradiction.
    + destruct HC as [->| ->]; cbn; auto.
    + cbn. auto.
    + cbn in HC. decompose [or] HC; subst; cbn; auto; contradiction.
  - destruct c; cbn [listed]; intros HL; try (left; cbn; tauto).
    + right; left. rewrite HL. cbn. tauto.
    + right; left. rewrite HL. cbn. tauto.
    + right; left. rewrite HL. cbn. tauto.
    + right; right; left. rewrite HL. cbn. tauto.
    + right; right; left. rewrite HL. cbn. tauto.
    + do 3 right; left. cbn. tauto.
    + do 4 right; left. eauto.
    + do 4 right; left. eauto.
    + do 5 right; left. destruct HL as [HL ->]. eauto.
    + do 6 right. rewrite HL. cbn. tauto.
Qed.
Lemma nodup_sourceCols n : NoDup (sourceCols n).
Proof.
  unfold sourceCols. assert (HH : forall l : list nat, NoDup l -> NoDup (flat_map (fun i => [ColIn (S i); ColOut (S i)]) l)).
  { induction l as [|i l IH]; intros HN; [constructor|]. inversion HN as [|? ? HI HN']; subst. cbn [flat_map app].
    assert (HX : forall c, In c (flat_map (fun i => [ColIn (S i); ColOut (S i)]) l) -> exists j, In j l /\ (c = ColIn (S j) \/ c = ColOut (S j))).
    { intros c HC. apply in_flat_map in HC. destruct HC as (j & HJ & HC). exists j. split; auto. cbn in HC. decompose [or] HC; auto; contradiction. }
    constructor; [|constructor]; auto.
    - intros [HC|HC]; [discriminate|]. destruct (HX _ HC) as (j & HJ & [E|E]); [|discriminate]. inversion E; subst. auto.
    - intros HC. destruct (HX _ HC) as (j & HJ & [E|E]); [discriminate|]. inversion E; subst. auto. }
  apply HH. apply seq_NoDup.
Qed.
Lemma nodup_app {A} (l1 l2 : list A) : NoDup l1 -> NoDup l2 -> (forall x, In x l1 -> ~ In x l2) -> NoDup (l1 ++ l2).
Proof.
  induction l1 as [|x l1 IH]; intros H1 H2 HD; [auto|]. inversion H1; subst. cbn. constructor.
  - rewrite in_app_iff. intros [HX|HX]; [auto|]. apply (HD x); [left; auto|auto].
  - apply IH; auto. intros y HY. apply HD. right; auto.
Qed.
Lemma headCols_nodup ip mp soc n : NoDup (headCols ip mp soc n).
Proof.
  unfold headCols. repeat (apply nodup_app); try apply nodup_sourceCols.
  all: try (unfold tcCols; apply FinFun.Injective_map_NoDup; [intros x y E; inversion E; auto|apply seq_NoDup]).
  all: try (destruct mp; repeat constructor; cbn; intuition discriminate).
  all: try (destruct soc; repeat constructor; cbn; intuition discriminate).
  all: try (repeat constructor; cbn; intuition discriminate).
  all: intros c HC HC'; rewrite ?in_app_iff, ?in_sourceCols, ?in_tcCols in *.
  all: repeat match goal with
       | H : _ \/ _ |- _ => destruct H
       | H : exists _, _ |- _ => destruct H
       | H : _ /\ _ |- _ => destruct H
       | H : In _ (if ?b then _ else _) |- _ => destruct b
       | H : In _ _ |- _ => cbn [In] in H
       | H : False |- _ => destruct H
       | H : _ = _ |- _ => first [discriminate H | subst; discriminate]
       end.
Qed.

Definition rowCells (ip mp soc : bool) (td : testData (T:=R)) (w : hpwh R) : list (cell R) :=
  let drawn v := if Rltb 0 (td_draw td) then CNum v else CEmpty in
  ([CInt (td_time td); CNum (td_amb td); CNum (td_setpoint td); drawn (td_inlet td); drawn (L_TO_GAL (td_draw td))]
   ++ (if mp then [CNum (w_condIn w); CNum (w_condOut w); CNum (L_TO_GAL (w_extVol w))] else []) ++ (if soc then [CNum (w_targetSoC w); CNum (w_SoC w)] else [])
   ++ [CInt (w_prevDR w)]
   ++ flat_map (fun i => [CNum (nth i (td_in td) 0 * 1000); CNum (nth i (td_out td) 0 * 1000)]) (seq 0 (numHS w))
   ++ flat_map (fun i => [CNum (if ip then C_TO_F (nth i (td_tc td) 0) else nth i (td_tc td) 0)]) (seq 0 6)
   ++ [drawn (if ip then C_TO_F (td_outlet td) else td_outlet td)])%list.
Lemma at_in (l : list R) i : (i < length l)%nat -> at_ l i = Ok (nth i l 0).
Proof. intros HI. unfold at_. rewrite (nth_error_nth' l 0 HI). reflexivity. Qed.
Lemma row_run o td (w : hpwh R) mp : isExternalMultipass w = Ok mp -> (numHS w <= length (td_in td))%nat -> (numHS w <= length (td_out td))%nat -> (6 <= length (td_tc td))%nat ->
  csvRow td o w [] = (Ok tt, rowCells (csv_has CSVOPT_IPUNITS o) mp (w_usesSoC w) td w).
Proof.
  intros E HI HO HT. unfold csvRow. cbv zeta. num_simpl. rewrite !bind_emit. erewrite bind_lift by exact E.
  assert (HM : forall s, (if mp then ci <- lift (getCondInletTemp U_C w);; emit [CNum ci];; co <- lift (getCondOutletTemp U_C w);; emit [CNum co];; v <- lift (getExternalVolumeHeated U_GAL w);; emit [CNum v] else ret tt)%monad s
     = (Ok tt, (s ++ if mp then [CNum (w_condIn w); CNum (w_condOut w); CNum (L_TO_GAL (w_extVol w))] else [])%list)).
  { intros s. destruct mp; [|rewrite app_nil_r; reflexivity]. erewrite bind_lift by reflexivity. rewrite bind_emit. erewrite bind_lift by reflexivity. rewrite bind_emit. erewrite bind_lift by reflexivity. rewrite emit_run, <- !app_assoc. reflexivity. }
  unfold bind at 1. rewrite HM. rewrite !bind_emit.
  unfold bind at 1. rewrite (forM_emit _ (fun i => [CNum (nth i (td_in td) 0 * 1000); CNum (nth i (td_out td) 0 * 1000)])).
  2: { intros i s HH. apply in_seq in HH. unfold sourceCells. erewrite bind_lift by (apply at_in; lia). erewrite bind_lift by (apply at_in; lia). num_simpl. reflexivity. }
  unfold bind at 1. rewrite (forM_emit _ (fun i => [CNum (if csv_has CSVOPT_IPUNITS o then C_TO_F (nth i (td_tc td) 0) else nth i (td_tc td) 0)])).
  2: { intros i s HH. apply in_seq in HH. unfold tcCell. erewrite bind_lift by (apply at_in; lia). reflexivity. }
  rewrite emit_run. unfold rowCells. cbv zeta. rewrite <- !app_assoc. reflexivity.
Qed.
Lemma Forall2_flat {I A B} (P : A -> B -> Prop) (f : I -> list A) (g : I -> list B) l : (forall i, In i l -> Forall2 P (f i) (g i)) -> Forall2 P (flat_map f l) (flat_map g l).
Proof. induction l as [|i l IH]; intros HF; cbn; [constructor|]. apply Forall2_app; [apply HF; left; auto|apply IH; intros; apply HF; right; auto]. Qed.
Lemma map_flat {I A} (f : I -> A) l : map f l = flat_map (fun i => [f i]) l.
Proof. induction l; cbn; congruence. Qed.
Lemma toF x : C_TO_F (T:=R) x = 9 / 5 * x + 32.
Proof. unfold C_TO_F, FperC, offsetF. num_simpl. unfold dec. num_simpl. lra. Qed.
Lemma row_shows ip mp soc n td (w : hpwh R) : numHS w = n -> (n <= length (td_in td))%nat -> (n <= length (td_out td))%nat -> (6 <= length (td_tc td))%nat ->
  Forall2 (shows td w) (headCols ip mp soc n) (rowCells ip mp soc td w).
Proof.
  intros HN HI HO HT. unfold headCols, rowCells. cbv zeta. rewrite HN.
  assert (HD : forall v c, (forall x, shows td w c x <-> if Rlt_dec 0 (td_draw td) then x = CNum v else x = CEmpty) -> shows td w c (if Rltb 0 (td_draw td) then CNum v else CEmpty)).
  { intros v c HC. apply HC. destruct (Rltb 0 (td_draw td)) eqn:E; [apply Rltb_true in E|apply Rltb_false in E]; destruct (Rlt_dec 0 (td_draw td)); auto; lra. }
  apply Forall2_app.
  { repeat constructor; try reflexivity. - apply (HD (td_inlet td)). reflexivity. - apply (HD (L_TO_GAL (td_draw td))). intros x. unfold shows, L_TO_GAL, gallon. num_simpl. reflexivity. }
  apply Forall2_app. { destruct mp; repeat constructor. }
  apply Forall2_app. { destruct soc; repeat constructor. }
  apply Forall2_app. { repeat constructor. }
  apply Forall2_app.
  { unfold sourceCols. apply Forall2_flat. intros i Hi. apply in_seq in Hi. constructor; [|constructor; [|constructor]].
    - exists (nth i (td_in td) 0). replace (S i - 1)%nat with i by lia. split; [apply nth_error_nth'; lia|]. f_equal. lra.
    - exists (nth i (td_out td) 0). replace (S i - 1)%nat with i by lia. split; [apply nth_error_nth'; lia|]. f_equal. lra. }
  apply Forall2_app.
  { unfold tcCols. rewrite map_flat. apply Forall2_flat. intros i Hi. apply in_seq in Hi. constructor; [|constructor].
    exists (nth i (td_tc td) 0). replace (S i - 1)%nat with i by lia. split; [apply nth_error_nth'; lia|]. rewrite toF. destruct ip; reflexivity. }
  constructor; [|constructor]. apply HD. intros x. unfold shows. rewrite toF. destruct ip; reflexivity.
Qed.

Lemma C95_table_fact : forall options (w0 w : hpwh R) mp, isExternalMultipass w0 = Ok mp -> isExternalMultipass w = Ok mp -> w_usesSoC w = w_usesSoC w0 -> length (w_hs w) = length (w_hs w0) ->
  exists cols, csvHeading options w0 [] = (Ok tt, cols) /\ NoDup cols /\
    (forall c, In c cols <-> listed (Z.odd options) mp (w_usesSoC w0) (length (w_hs w0)) c) /\
    forall td, (length (w_hs w0) <= length (td_in td))%nat -> (length (w_hs w0) <= length (td_out td))%nat -> (6 <= length (td_tc td))%nat ->
      exists cells, csvRow td options w [] = (Ok tt, cells) /\ Forall2 (shows td w) cols cells.
Proof.
  intros o w0 w mp E0 E1 ES EL.
  assert (HO : csv_has CSVOPT_IPUNITS o = Z.odd o).
  { unfold csv_has, CSVOPT_IPUNITS. change 1%Z with (Z.ones 1). rewrite Z.land_ones by lia. change (2 ^ 1)%Z with 2%Z. rewrite Zmod_odd. destruct (Z.odd o); reflexivity. }
  exists (headCols (Z.odd o) mp (w_usesSoC w0) (length (w_hs w0))). split; [|split; [|split]].
  - rewrite (heading_run _ _ mp E0), HO. reflexivity.
  - apply headCols_nodup.
  - intros c. apply headCols_listed.
  - intros td H1 H2 H3. exists (rowCells (Z.odd o) mp (w_usesSoC w0) td w). split.
    + rewrite (row_run _ _ _ mp E1), HO, ES by (unfold numHS; lia). reflexivity.
    + apply row_shows; unfold numHS; auto.
Qed.

Lemma C95_no_compressor_fact : forall options td (w : hpwh R),
  ((w_compIx w < 0)%Z -> (exists e, csvHeading options w [] = (Err e, [ColMinutes; ColTa; ColSetpoint; ColInlet; ColDraw])) /\
     exists e cells, csvRow td options w [] = (Err e, cells) /\ length cells = 5%nat) /\
  (forall h, (0 <= w_compIx w)%Z -> nth_error (w_hs w) (Z.to_nat (w_compIx w)) = Some h -> isExternalMultipass w = Ok (h_multipass h && match h_config h with External => true | _ => false end)%bool).
Proof.
  intros o td w. split.
  - intros HC. assert (EM : isExternalMultipass w = noCompressor) by (unfold isExternalMultipass, hasCompressor; replace (0 <=? w_compIx w)%Z with false by (symmetry; apply Z.leb_gt; lia); reflexivity).
    split.
    + eexists. unfold csvHeading. cbv zeta. rewrite bind_emit. unfold bind, lift. rewrite EM. reflexivity.
    + eexists _, _. unfold csvRow. cbv zeta. rewrite !bind_emit. unfold bind, lift. rewrite EM. unfold noCompressor. split; reflexivity.
  - intros h HC HN. unfold isExternalMultipass, hasCompressor, compressor. replace (0 <=? w_compIx w)%Z with true by (symmetry; apply Z.leb_le; lia). replace (w_compIx w <? 0)%Z with false by (symmetry; apply Z.ltb_ge; lia). rewrite HN. reflexivity.
Qed.

Lemma C95_short_record_fact : forall options td (w : hpwh R) mp, isExternalMultipass w = Ok mp ->
  (length (td_in td) < length (w_hs w) \/ length (td_out td) < length (w_hs w) \/ length (td_tc td) < 6)%nat -> exists e cells, csvRow td options w [] = (UB e, cells).
Proof.
  intros o td w mp E HS. unfold csvRow. cbv zeta. rewrite !bind_emit. erewrite bind_lift by exact E.
  assert (HM : forall s, exists s', (if mp then ci <- lift (getCondInletTemp U_C w);; emit [CNum ci];; co <- lift (getCondOutletTemp U_C w);; emit [CNum co];; v <- lift (getExternalVolumeHeated U_GAL w);; emit [CNum v] else ret tt)%monad s
     = (Ok tt, s')) by (intros s; destruct mp; eexists; reflexivity).
  unfold bind at 1. edestruct HM as (s' & ->). rewrite !bind_emit.
  assert (HL : forall (n k : nat) s, (length (td_in td) < k + n \/ length (td_out td) < k + n)%nat -> (k <= length (td_in td))%nat -> (k <= length (td_out td))%nat -> exists e s', forM (seq k n) (sourceCells td) s = (UB e, s')).
  { induction n as [|n IH]; intros k s HX HA HB; [lia|]. cbn [seq forM]. unfold bind at 1. destruct (sourceCells td k s) as (r & s1) eqn:ES. revert ES. unfold sourceCells, bind, lift, at_.
    destruct (nth_error (td_in td) k) as [a|] eqn:EA; [|intros ES; inversion ES; eauto]. destruct (nth_error (td_out td) k) as [b|] eqn:EB; [|intros ES; inversion ES; eauto].
    intros ES. inversion ES. apply IH; [lia| |]; [apply nth_error_Some|apply nth_error_Some]; congruence. }
  assert (HK : forall (n k : nat) s, (length (td_tc td) < k + n)%nat -> (k <= length (td_tc td))%nat -> exists e s', forM (seq k n) (tcCell (csv_has CSVOPT_IPUNITS o) td) s = (UB e, s')).
  { induction n as [|n IH]; intros k s HX HA; [lia|]. cbn [seq forM]. unfold bind at 1. destruct (tcCell (csv_has CSVOPT_IPUNITS o) td k s) as (r & s1) eqn:ES. revert ES. unfold tcCell, bind, lift, at_.
    destruct (nth_error (td_tc td) k) as [a|] eqn:EA; [|intros ES; inversion ES; eauto]. intros ES. inversion ES. apply IH; [lia|]. apply nth_error_Some. congruence. }
  match goal with |- context [bind (forM ?l ?f) ?k ?s] => set (K := k); set (S := s) end. unfold numHS.
  destruct (lt_dec (length (td_in td)) (length (w_hs w))) as [L1|L1]; [|destruct (lt_dec (length (td_out td)) (length (w_hs w))) as [L2|L2]].
  - unfold bind. destruct (HL (length (w_hs w)) 0%nat S) as (e & s2 & ->); [lia|lia|lia|]. eauto.
  - unfold bind. destruct (HL (length (w_hs w)) 0%nat S) as (e & s2 & ->); [lia|lia|lia|]. eauto.
  - unfold bind at 1. rewrite (forM_emit _ (fun i => [CNum (nth i (td_in td) 0 * 1000); CNum (nth i (td_out td) 0 * 1000)])).
    2: { intros i s HH. apply in_seq in HH. unfold sourceCells. erewrite bind_lift by (apply at_in; lia). erewrite bind_lift by (apply at_in; lia). num_simpl. reflexivity. }
    unfold K. unfold bind. edestruct (HK 6%nat 0%nat) as (e & s2 & ->); [lia|lia|]. eauto.
Qed.

Lemma C95_preamble_fact : forall pre pre' nTC options (w : hpwh R), length pre = length pre' -> wf_tank (w_tank w) ->
  exists es ts, csvRow' pre' nTC options w [] = (Ok tt, pre' ++ CInt (w_prevDR w) :: es ++ ts ++
      [if Z.testbit options 1 then CNum (if Z.odd options then 9 / 5 * t_outletT (w_tank w) + 32 else t_outletT (w_tank w)) else CEmpty])%list /\
    (length pre' + S (length es + length ts + 1) = length (csvHeading' pre nTC options w))%nat /\
    length es = (2 * length (w_hs w))%nat /\ length ts = Z.to_nat nTC /\
    (forall i h, nth_error (w_hs w) i = Some h -> nth_error es (2 * i) = Some (CNum (h_eIn h * 1000)) /\ nth_error es (2 * i + 1) = Some (CNum (h_eOut h * 1000))) /\
    (forall k, (k < Z.to_nat nTC)%nat -> exists t, nthThermocouple (Z.of_nat (S k)) nTC (w_tank w) = Ok t /\ nth_error ts k = Some (CNum (if Z.odd options then 9 / 5 * t + 32 else t))).
Proof.
  intros pre pre' nTC o w HP HW.
  assert (HO : csv_has CSVOPT_IPUNITS o = Z.odd o).
  { unfold csv_has, CSVOPT_IPUNITS. change 1%Z with (Z.ones 1). rewrite Z.land_ones by lia. change (2 ^ 1)%Z with 2%Z. rewrite Zmod_odd. destruct (Z.odd o); reflexivity. }
  assert (HO2 : csv_has CSVOPT_IS_DRAWING o = Z.testbit o 1).
  { unfold csv_has, CSVOPT_IS_DRAWING. destruct (Z.land o 2 =? 0)%Z eqn:EZ; cbn [negb].
    - apply Z.eqb_eq in EZ. assert (HB : Z.testbit (Z.land o 2) 1 = false) by (rewrite EZ; reflexivity). rewrite Z.land_spec in HB. change (Z.testbit 2 1) with true in HB. rewrite andb_true_r in HB. auto.
    - destruct (Z.testbit o 1) eqn:EB; auto. exfalso. apply Z.eqb_neq in EZ. apply EZ. apply Z.bits_inj'. intros n Hn. rewrite Z.land_spec, Z.bits_0. destruct (Z.eq_dec n 1) as [->|NE]; [rewrite EB; reflexivity|].
      replace 2%Z with (2 ^ 1)%Z by reflexivity. rewrite Z.pow2_bits_false by lia. apply andb_false_r. }
  pose (tc k := match nthThermocouple (Z.of_nat k + 1) nTC (w_tank w) with Ok t => t | _ => 0 end).
  pose (el := fun i : nat => match nth_error (w_hs w) i with Some h => [CNum (h_eIn h * 1000); CNum (h_eOut h * 1000)] | None => [] end : list (cell R)).
  assert (HT : forall k, (k < Z.to_nat nTC)%nat -> nthThermocouple (Z.of_nat k + 1) nTC (w_tank w) = Ok (tc k)).
  { intros k HK. unfold tc. destruct (C42_thermocouple_fact (w_tank w) (Z.of_nat k + 1) nTC HW) as (t & -> & _); [lia|]. reflexivity. }
  exists (flat_map el (seq 0 (length (w_hs w)))), (flat_map (fun k => [CNum (if Z.odd o then 9 / 5 * tc k + 32 else tc k)]) (seq 0 (Z.to_nat nTC))).
  assert (L1 : forall (l : list nat), (forall i, In i l -> (i < length (w_hs w))%nat) -> length (flat_map el l) = (2 * length l)%nat).
  { induction l as [|i l IH]; intros HF; [reflexivity|]. cbn [flat_map]. rewrite app_length, IH by (intros; apply HF; right; auto). unfold el. destruct (nth_error (w_hs w) i) eqn:EN; [cbn; lia|]. apply nth_error_None in EN. specialize (HF i (or_introl eq_refl)). lia. }
  assert (L1' : length (flat_map el (seq 0 (length (w_hs w)))) = (2 * length (w_hs w))%nat) by (rewrite L1, seq_length; [auto|intros i HI; apply in_seq in HI; lia]).
  assert (L2 : length (flat_map (fun k => [CNum (if Z.odd o then 9 / 5 * tc k + 32 else tc k)]) (seq 0 (Z.to_nat nTC))) = Z.to_nat nTC) by (rewrite <- map_flat, map_length, seq_length; auto).
  split; [|split; [|split; [auto|split; [auto|split]]]].
  - unfold csvRow'. cbv zeta. rewrite !bind_emit. rewrite HO, HO2. unfold bind at 1. rewrite (forM_emit _ el).
    2: { intros i s HI. apply in_seq in HI. assert (HJ : exists h, nth_error (w_hs w) i = Some h) by (destruct (nth_error (w_hs w) i) eqn:EN; [eauto|apply nth_error_None in EN; unfold numHS in HI; lia]). destruct HJ as (h & EN).
         assert (ES : nthSource (Z.of_nat i) w = Ok h).
         { unfold nthSource. replace (Z.of_nat i >=? Z.of_nat (length (w_hs w)))%Z with false by (symmetry; rewrite Z.geb_leb; apply Z.leb_gt; unfold numHS in HI; lia). replace (Z.of_nat i <? 0)%Z with false by (symmetry; apply Z.ltb_ge; lia). cbn [orb]. rewrite Nat2Z.id, EN. reflexivity. }
         unfold getNthEnergyInput, getNthEnergyOutput. rewrite ES. cbn [obind energyFromKWH]. erewrite bind_lift by reflexivity. erewrite bind_lift by reflexivity. rewrite emit_run. unfold el. rewrite EN. num_simpl. reflexivity. }
    unfold bind at 1. rewrite (forM_emit _ (fun k => [CNum (if Z.odd o then 9 / 5 * tc k + 32 else tc k)])).
    2: { intros k s HI. apply in_seq in HI. erewrite bind_lift by (apply HT; lia). destruct (Z.odd o); (erewrite bind_lift by reflexivity); rewrite emit_run; [rewrite toF|]; reflexivity. }
    rewrite emit_run. cbn [app]. rewrite <- !app_assoc. cbn [app]. rewrite toF. reflexivity.
  - rewrite L1', L2. unfold csvHeading'. cbv zeta. rewrite !app_length. cbn [length]. unfold tcCols. rewrite map_length, seq_length.
    assert (LS : forall l : list nat, length (flat_map (fun i => [ColIn (S i); ColOut (S i)]) l) = (2 * length l)%nat) by (induction l as [|? ? IH]; [reflexivity|]; cbn [flat_map app length]; rewrite IH; lia).
    unfold sourceCols. rewrite LS, seq_length. unfold numHS. lia.
  - intros i h HN. assert (HG : forall n k j, nth_error (w_hs w) (k + j) = Some h -> (j < n)%nat -> (forall i, (k <= i < k + n)%nat -> (i < length (w_hs w))%nat) ->
       nth_error (flat_map el (seq k n)) (2 * j) = Some (CNum (h_eIn h * 1000)) /\ nth_error (flat_map el (seq k n)) (2 * j + 1) = Some (CNum (h_eOut h * 1000))).
    { induction n as [|n IH]; intros k j HN' HJ HR; [lia|]. cbn [seq flat_map]. destruct j as [|j].
      - rewrite Nat.add_0_r in HN'. unfold el at 1 3. rewrite HN'. split; reflexivity.
      - assert (HK : exists a b, el k = [a; b]) by (unfold el; destruct (nth_error (w_hs w) k) eqn:EK; [eauto|]; apply nth_error_None in EK; specialize (HR k ltac:(lia)); lia). destruct HK as (a & b & ->).
        replace (2 * S j)%nat with (S (S (2 * j))) by lia. replace (S (S (2 * j)) + 1)%nat with (S (S (2 * j + 1))) by lia. cbn [app nth_error]. apply IH; [|lia|].
        + rewrite <- HN'. f_equal. lia.
        + intros i' HI'. apply HR. lia. }
    apply (HG (length (w_hs w)) 0%nat i); auto; [|intros; lia]. apply nth_error_Some. congruence.
  - intros k HK. exists (tc k). split; [replace (Z.of_nat (S k)) with (Z.of_nat k + 1)%Z by lia; auto|]. rewrite <- map_flat. erewrite map_nth_error; [reflexivity|]. rewrite (nth_error_nth' _ 0%nat) by (rewrite seq_length; auto). rewrite seq_nth by auto. reflexivity.
Qed.

Lemma Forall2_len {A B} (P : A -> B -> Prop) l l' : Forall2 P l l' -> length l = length l'.
Proof. induction 1; cbn; auto. Qed.
Definition exData : testData (T:=R) := mkdata 7 20 50 10 8 0 [1; 2; 3] [4; 5; 6] [20; 25; 30; 35; 40; 45] 48.
Lemma C95_example_fact : exists cols cells, csvHeading 1 (exUnit (T:=R) [20; 30; 45; 50]) [] = (Ok tt, cols) /\ csvRow exData 1 (exUnit (T:=R) [20; 30; 45; 50]) [] = (Ok tt, cells) /\
  Forall2 (shows exData (exUnit (T:=R) [20; 30; 45; 50])) cols cells /\ length cells = 19%nat.
Proof.
  pose (w := exUnit (T:=R) [20; 30; 45; 50]).
  assert (E : isExternalMultipass w = Ok false) by reflexivity.
  destruct (C95_table_fact 1 w w false E E eq_refl eq_refl) as (cols & E1 & _ & _ & HT). destruct (HT exData) as (cells & E2 & HF); [cbn; lia|cbn; lia|cbn; lia|].
  exists cols, cells. split; [exact E1|]. split; [exact E2|]. split; [exact HF|]. rewrite <- (Forall2_len _ _ _ HF).
  rewrite (heading_run 1 w false E) in E1. injection E1 as <-. reflexivity.
Qed.
