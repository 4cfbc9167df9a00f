(** Proofs of the theorems stated in PropsStandin.v: Properties of what heats in place of a locked-out heat source *)

From Coq Require Import ZArith String List Bool Reals Lra Lia Floats.
From Verif Require Import Num FNum Base Units Utils Types TankM Logic HeatSrc Step SpecLock.
From Verif Require Import RList FrameProofs SimFrame ControlProofs ChoiceProofs SeqProofs Example.
Import ListNotations.
Lemma lo_refl {T} (w : hpwh T) : locksOnly w w.
Proof. split; [destruct w; reflexivity|]. induction (w_hs w) as [|h l IH]; constructor; [destruct h; reflexivity|exact IH]. Qed.
Lemma lo_trans {T} (a b c : hpwh T) : locksOnly a b -> locksOnly b c -> locksOnly a c.
Proof.
  intros (A1 & A2) (B1 & B2). split; [rewrite B1, A1; destruct a; reflexivity|]. clear A1 B1. revert B2. generalize (w_hs c). induction A2 as [|h h' l l' E _ IH]; intros lc B2; inversion B2; subst; constructor; [|apply IH; assumption].
  match goal with H : ?y = set_h_locked _ h' |- _ => rewrite H; rewrite E; destruct h; reflexivity end.
Qed.
Lemma lo_nth {T} (w w' : hpwh T) i h : locksOnly w w' -> nth_error (w_hs w) i = Some h -> exists b, nth_error (w_hs w') i = Some (set_h_locked b h).
Proof.
  intros (_ & F) . revert i. induction F as [|x x' l l' E _ IH]; intros [|i] HN; try discriminate HN; cbn [nth_error] in *; [|apply IH; exact HN]. injection HN as <-. exists (h_locked x'). rewrite <- E. reflexivity.
Qed.
Lemma lo_vip {T} (w w' : hpwh T) : locksOnly w w' -> w_vipIx w' = w_vipIx w.
Proof. intros (E & _). rewrite E. destruct w; reflexivity. Qed.
Lemma lo_list {T} (l : list (hsrc T)) : Forall2 (fun h h' => h' = set_h_locked (h_locked h') h) l l.
Proof. induction l as [|y k IK]; constructor; [destruct y; reflexivity|exact IK]. Qed.
Lemma lo_upd {T} (b : bool) : forall (l : list (hsrc T)) i h, nth_error l i = Some h -> Forall2 (fun h h' => h' = set_h_locked (h_locked h') h) l (upd l i (set_h_locked b h)).
Proof.
  induction l as [|x l IH]; intros [|i] h HN; try discriminate HN; cbn [nth_error upd] in *.
  - injection HN as <-. constructor; [destruct x; reflexivity|apply lo_list].
  - constructor; [destruct x; reflexivity|apply IH; exact HN].
Qed.
Section S.
  Context {T : Type} {N : Num T}.
  Notation LO := (locksOnly (T:=T)).
  Lemma lo_mod i b : pres LO (modHS i (set_h_locked b)).
  Proof.
    intros w. unfold modHS, modify. cbn [snd]. split; [destruct w; reflexivity|]. unfold updHS. destruct (nth_error (w_hs w) i) as [h|] eqn:E; [|destruct w; apply lo_list].
    pose proof (lo_upd b _ _ _ E) as HF. destruct w; exact HF.
  Qed.
  Lemma lo_getHS i : pres LO (getHS i).
  Proof. intros w. unfold getHS. destruct (nth_error (w_hs w) i); apply lo_refl. Qed.
  Lemma lo_ask {A} i (q : hpwh T -> hsrc T -> outc A) : pres LO (askHS i q).
  Proof. unfold askHS. apply (pres_bind LO lo_trans); [apply lo_getHS|]. intros h. apply (pres_bind LO lo_trans); [apply (pres_get LO lo_refl)|]. intros w. apply (pres_lift LO lo_refl). Qed.
  Lemma lo_toLock i amb : pres LO (toLockOrUnlock i amb).
  Proof.
    unfold toLockOrUnlock. repeat (apply (pres_bind LO lo_trans); [first [apply lo_ask|apply (pres_when LO lo_refl); apply lo_mod|apply lo_getHS]|intros ?]). apply (pres_ret LO lo_refl).
  Qed.
  Lemma toLock_val i amb w w1 b : toLockOrUnlock i amb w = (Ok b, w1) -> exists h, nth_error (w_hs w1) i = Some h /\ h_locked h = b.
  Proof.
    unfold toLockOrUnlock. intros E. do 4 (apply bind_inv in E; destruct E as (? & ? & _ & E)). apply bind_inv in E. destruct E as (h & w2 & E2 & E). apply getHS_inv in E2. destruct E2 as [-> E2]. apply ret_inv in E. destruct E as [-> <-]. exists h. auto.
  Qed.
  Lemma getHS_at i (w : hpwh T) h : nth_error (w_hs w) i = Some h -> getHS i w = (Ok h, w).
  Proof. intros E. unfold getHS. rewrite E. reflexivity. Qed.
  Lemma bind_ok {A B} (m : M (hpwh T) A) (f : A -> M (hpwh T) B) w a w1 : m w = (Ok a, w1) -> bind m f w = f a w1.
  Proof. intros E. unfold bind. rewrite E. reflexivity. Qed.
  Definition lockedOut dr amb i (w : hpwh T) (h : hsrc T) := shouldDRLockOut (h_type h) dr = true \/ shouldDRLockOut (h_type h) dr = false /\ h_type h = TCompressor /\ exists w1, toLockOrUnlock i amb w = (Ok true, w1).
  Lemma lock_locked dr amb i w h b : nth_error (w_hs w) i = Some h -> h_backup h = Some b -> lockedOut dr amb i w h -> exists w1, lockOne dr amb i w = (Ok tt, w1) /\ LO w w1 /\ nth_error (w_hs w1) i = Some (set_h_locked true h).
  Proof.
    intros HN HB HL. unfold lockOne. rewrite (bind_ok _ _ _ _ _ (getHS_at i w h HN)). destruct HL as [HD|(HD & HT & w1 & HL)]; rewrite HD.
    - set (w1 := set_w_hs (updHS (w_hs w) i (set_h_locked true)) w). assert (E1 : modHS i (set_h_locked true) w = (Ok tt, w1)) by reflexivity. assert (LO w w1) by exact (lo_mod i true w).
      assert (E2 : nth_error (w_hs w1) i = Some (set_h_locked true h)). { unfold w1. replace (w_hs (set_w_hs (updHS (w_hs w) i (set_h_locked true)) w)) with (updHS (w_hs w) i (set_h_locked true)) by (destruct w; reflexivity). apply nth_updHS_same. exact HN. }
      clearbody w1. exists w1. rewrite (bind_ok _ _ _ _ _ E1). rewrite (bind_ok _ _ _ _ _ (getHS_at i w1 _ E2)). replace (h_backup (set_h_locked true h)) with (h_backup h) by (destruct h; reflexivity). rewrite HB. auto.
    - rewrite HT. assert (LO w w1) by (pose proof (lo_toLock i amb w) as HP; rewrite HL in HP; exact HP). destruct (toLock_val _ _ _ _ _ HL) as (h1 & E1 & E1'). destruct (lo_nth w w1 i h H HN) as (c & E2). rewrite E1 in E2. injection E2 as ->.
      assert (c = true) by (destruct h; exact E1'). subst c. exists w1. assert (E3 : bind (toLockOrUnlock i amb) (fun _ => ret tt) w = (Ok tt, w1)) by (rewrite (bind_ok _ _ _ _ _ HL); reflexivity).
      rewrite (bind_ok _ _ _ _ _ E3). rewrite (bind_ok _ _ _ _ _ (getHS_at i w1 _ E1)). replace (h_backup (set_h_locked true h)) with (h_backup h) by (destruct h; reflexivity). rewrite HB. auto.
  Qed.
End S.
Lemma sl_on {T} c (h : hsrc T) : h_on (set_h_locked c h) = h_on h. Proof. destruct h; reflexivity. Qed.
Lemma sl_type {T} c (h : hsrc T) : h_type (set_h_locked c h) = h_type h. Proof. destruct h; reflexivity. Qed.
Lemma sl_backup {T} c (h : hsrc T) : h_backup (set_h_locked c h) = h_backup h. Proof. destruct h; reflexivity. Qed.
Lemma sl_locked {T} c (h : hsrc T) : h_locked (set_h_locked c h) = c. Proof. destruct h; reflexivity. Qed.
Lemma C112_nothing_fact : forall (T : Type) (N : Num T) fuel dr amb i b v m (w : hpwh T) h hb,
  nth_error (w_hs w) i = Some h -> h_backup h = Some b -> nth_error (w_hs w) b = Some hb -> h_type hb = TResistance ->
  (shouldDRLockOut (h_type h) dr = true \/ shouldDRLockOut (h_type h) dr = false /\ h_type h = TCompressor /\ exists w1, toLockOrUnlock i amb w = (Ok true, w1)) ->
  h_on h = false \/ h_on hb = true \/ shouldDRLockOut TResistance dr = true \/ w_vipIx w = Z.of_nat v /\ (exists hv, nth_error (w_hs w) v = Some hv /\ h_on hv = true) ->
  exists w', heatOne fuel dr amb i m w = (Ok m, w') /\ locksOnly w w'.
Proof.
  intros T N fuel dr amb i b v m w h hb HN HB HNB HTB HL HC. destruct (lock_locked dr amb i w h b HN HB HL) as (w1 & E1 & L1 & E2). exists w1. split; [|exact L1].
  unfold heatOne. rewrite (bind_ok _ _ _ _ _ E1), (bind_ok _ _ _ _ _ (getHS_at i w1 _ E2)), sl_on. destruct (h_on h) eqn:EO; [|reflexivity].
  assert (HH : heatTarget dr amb i w1 = (Ok None, w1)); [|rewrite (bind_ok _ _ _ _ _ HH); reflexivity].
  unfold heatTarget. rewrite (bind_ok _ _ _ _ _ (getHS_at i w1 _ E2)), sl_backup, HB, sl_locked. destruct (lo_nth _ _ _ _ L1 HNB) as (c & EB). rewrite (bind_ok _ _ _ _ _ (getHS_at b w1 _ EB)), sl_on, !sl_type, HTB. cbv zeta.
  assert (HK : exists k, match h_type h with TCompressor => ret false | TResistance => resLock i end w1 = (Ok k, w1)). { destruct (h_type h); [exists false; reflexivity|]. unfold resLock. exists true. rewrite (bind_ok _ _ _ _ _ (getHS_at i w1 _ E2)), sl_locked. reflexivity. }
  destruct HK as (k & HK). rewrite (bind_ok _ _ _ _ _ HK). destruct HC as [HC|[HC|[HC|(HV & hv & HNV & HOV)]]]; [discriminate HC|rewrite HC; reflexivity|rewrite HC, orb_true_r; reflexivity|].
  destruct (((h_on hb || shouldDRLockOut TResistance dr) || k)%bool); [reflexivity|]. unfold get at 1. rewrite (bind_ok _ _ w1 w1 w1) by reflexivity. rewrite (lo_vip _ _ L1), HV. replace (Z.leb 0 (Z.of_nat v)) with true by (symmetry; apply Z.leb_le; lia). rewrite Nat2Z.id.
  destruct (lo_nth _ _ _ _ L1 HNV) as (c2 & EV). assert (E3 : bind (getHS v) (fun x => ret (h_on x)) w1 = (Ok true, w1)) by (rewrite (bind_ok _ _ _ _ _ (getHS_at v w1 _ EV)), sl_on, HOV; reflexivity). rewrite (bind_ok _ _ _ _ _ E3). reflexivity.
Qed.
Lemma C112_stands_in_fact : forall (T : Type) (N : Num T) fuel dr amb i b m (w : hpwh T) h hb,
  nth_error (w_hs w) i = Some h -> h_backup h = Some b -> nth_error (w_hs w) b = Some hb -> h_type hb = TResistance ->
  (shouldDRLockOut (h_type h) dr = true \/ shouldDRLockOut (h_type h) dr = false /\ h_type h = TCompressor /\ exists w1, toLockOrUnlock i amb w = (Ok true, w1)) ->
  h_on h = true -> h_on hb = false -> shouldDRLockOut TResistance dr = false ->
  (w_vipIx w < 0)%Z \/ (exists v hv, w_vipIx w = Z.of_nat v /\ nth_error (w_hs w) v = Some hv /\ h_on hv = false) ->
  exists w1, locksOnly w w1 /\ forall w2 hb2, addHeatParent fuel b amb m w1 = (Ok tt, w2) -> nth_error (w_hs w2) b = Some hb2 -> nltb (h_runtime hb2) m = false -> heatOne fuel dr amb i m w = (Ok m, w2).
Proof.
  intros T N fuel dr amb i b m w h hb HN HB HNB HTB HL HO HOB HD HV. destruct (lock_locked dr amb i w h b HN HB HL) as (w1 & E1 & L1 & E2). exists w1. split; [exact L1|]. intros w2 hb2 EA EB2 ER.
  assert (HT : h_type h = TCompressor). { destruct (h_type h) eqn:ET; [reflexivity|]. exfalso. destruct HL as [HL|(_ & HL & _)]; congruence. }
  unfold heatOne. rewrite (bind_ok _ _ _ _ _ E1), (bind_ok _ _ _ _ _ (getHS_at i w1 _ E2)), sl_on, HO.
  assert (HH : heatTarget dr amb i w1 = (Ok (Some b), w1)); [|rewrite (bind_ok _ _ _ _ _ HH), (bind_ok _ _ _ _ _ EA), (bind_ok _ _ _ _ _ (getHS_at b w2 _ EB2)), ER; reflexivity].
  unfold heatTarget. rewrite (bind_ok _ _ _ _ _ (getHS_at i w1 _ E2)), sl_backup, HB, sl_locked. destruct (lo_nth _ _ _ _ L1 HNB) as (c & EB). rewrite (bind_ok _ _ _ _ _ (getHS_at b w1 _ EB)), sl_on, !sl_type, HTB, HT, HOB, HD. cbv zeta.
  rewrite (bind_ok (ret false) _ w1 false w1) by reflexivity. cbn [orb]. unfold get at 1. rewrite (bind_ok _ _ w1 w1 w1) by reflexivity. rewrite (lo_vip _ _ L1). destruct HV as [HV|(v & hv & HV & HNV & HOV)].
  - replace (Z.leb 0 (w_vipIx w)) with false by (symmetry; apply Z.leb_gt; lia). reflexivity.
  - rewrite HV. replace (Z.leb 0 (Z.of_nat v)) with true by (symmetry; apply Z.leb_le; lia). rewrite Nat2Z.id.
    destruct (lo_nth _ _ _ _ L1 HNV) as (c2 & EV). assert (E3 : bind (getHS v) (fun x => ret (h_on x)) w1 = (Ok false, w1)) by (rewrite (bind_ok _ _ _ _ _ (getHS_at v w1 _ EV)), sl_on, HOV; reflexivity). rewrite (bind_ok _ _ _ _ _ E3). reflexivity.
Qed.
Lemma C112_example_fact : let u vip := set_w_hs (updHS (updHS exSources 0 (set_h_on vip)) 2 (set_h_on true)) (exUnit (T:=float) (map fofZ [20; 30; 45; 50]%Z)) in
  (exists w1, toLockOrUnlock 2 (fofZ (-10)) (u true) = (Ok true, w1)) /\ (exists w', heatOne 100 0 (fofZ (-10)) 2 (fofZ 1) (u true) = (Ok (fofZ 1), w') /\ map h_runtime (w_hs w') = [fofZ 0; fofZ 0; fofZ 0]) /\
  (exists w1, toLockOrUnlock 2 (fofZ (-10)) (u false) = (Ok true, w1)) /\ exists w', heatOne 100 0 (fofZ (-10)) 2 (fofZ 1) (u false) = (Ok (fofZ 1), w') /\ map h_runtime (w_hs w') = [fofZ 0; fofZ 1; fofZ 0].
Proof. cbv zeta. split; [eexists; vm_compute; reflexivity|]. split; [eexists; split; vm_compute; reflexivity|]. split; [eexists; vm_compute; reflexivity|]. eexists; split; vm_compute; reflexivity. Qed.
Definition exBeside : hpwh float :=
  set_w_hs (updHS (updHS exSources 0 (fun h => set_h_turnOn [exOn exUpper (fofZ 4)] (set_h_companion (Some 2%nat) h))) 2 (fun h => set_h_shutOff [exOff (fofZ 50)] (set_h_maxSet (fofZ 50) h))) (exUnit (repeat (dec 499 10) 4)).
Lemma C112_beside_vip_refuted_fact : exists (w w' : hpwh float) v b c, Forall (fun h => h_on h = false) (w_hs w) /\ w_vipIx w = 0%Z /\ runOneStep 100 (exIn (fofZ 0) (fofZ 20) 0) w = (Ok tt, w') /\ w_hs w' = [v; b; c] /\
  h_vip v = true /\ h_on v = true /\ nltb (fofZ 0) (h_eIn v) = true /\ h_type b = TResistance /\ h_turnOn b = [] /\ h_on b = true /\ nltb (fofZ 0) (h_eIn b) = true /\ h_type c = TCompressor /\ h_backup c = Some 1%nat.
Proof.
  exists exBeside. eexists _, _, _, _. split; [repeat constructor|]. split; [reflexivity|]. split; [vm_compute; reflexivity|]. split; [vm_compute; reflexivity|]. repeat split; vm_compute; reflexivity.
Qed.
