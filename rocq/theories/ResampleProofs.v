(** Resampling at the reals: every new value is the mean of the sampled profile over its slice. *)

From Coq Require Import ZArith List Bool Reals Lra Lia.
From Verif Require Import Num Base Units Utils Types TankM Spec SpecDist RList DistProofs.
Import ListNotations.
Local Open Scope R_scope.

(** ** Floors *)
Lemma Rfloor_spec x : IZR (Rfloor x) <= x < IZR (Rfloor x) + 1.
Proof. unfold Rfloor. destruct (base_Int_part x). lra. Qed.
Lemma Rceil_spec x : x <= IZR (Rceil x) < x + 1.
Proof. unfold Rceil. destruct (base_Int_part (- x)). rewrite opp_IZR. lra. Qed.
Lemma Rfloor_nonneg x : 0 <= x -> (0 <= Rfloor x)%Z.
Proof.
  intros H. destruct (Rfloor_spec x) as [_ H2]. apply Z.lt_succ_r. apply lt_IZR.
  unfold Z.succ. rewrite plus_IZR. lra.
Qed.
Lemma Rceil_nonneg x : 0 <= x -> (0 <= Rceil x)%Z.
Proof. intros H. destruct (Rceil_spec x) as [H2 _]. apply le_IZR. lra. Qed.
Lemma Rtrunc_pos x : 0 <= x -> Rtrunc x = Rfloor x.
Proof. intros H. unfold Rtrunc, Rltb. destruct (Rlt_dec x 0); [lra|auto]. Qed.
Lemma Rfloor_nat x : 0 <= x -> INR (Z.to_nat (Rfloor x)) <= x < INR (Z.to_nat (Rfloor x)) + 1.
Proof.
  intros H. rewrite INR_IZR_INZ, Z2Nat.id by (apply Rfloor_nonneg; auto). apply Rfloor_spec.
Qed.
Lemma Rceil_nat x : 0 <= x -> x <= INR (Z.to_nat (Rceil x)) < x + 1.
Proof.
  intros H. rewrite INR_IZR_INZ, Z2Nat.id by (apply Rceil_nonneg; auto). apply Rceil_spec.
Qed.
Lemma Rfloor_IZR z : Rfloor (IZR z) = z.
Proof.
  destruct (Rfloor_spec (IZR z)) as [H1 H2]. apply le_IZR in H1.
  rewrite <- plus_IZR in H2. apply lt_IZR in H2. lia.
Qed.

Lemma div_le_l a b m : 0 < m -> a <= b * m -> a / m <= b.
Proof. intros Hm H. apply Rmult_le_reg_r with m; auto. unfold Rdiv. rewrite Rmult_assoc, Rinv_l; lra. Qed.
Lemma div_le_r a b m : 0 < m -> b * m <= a -> b <= a / m.
Proof. intros Hm H. apply Rmult_le_reg_r with m; auto. unfold Rdiv. rewrite Rmult_assoc, Rinv_l; lra. Qed.

(** ** Profiles *)
Lemma step_le m k : 0 < m -> INR k / m <= INR (S k) / m.
Proof. intros. apply Rmult_le_compat_r; [left; apply Rinv_0_lt_compat; auto|]. rewrite S_INR. lra. Qed.
Lemma step_eq m k : 0 < m -> INR (S k) / m = INR k / m + 1 / m.
Proof. intros. rewrite S_INR. field. lra. Qed.
Lemma idx_le m j k : 0 < m -> (j <= k)%nat -> INR j / m <= INR k / m.
Proof. intros. apply Rmult_le_compat_r; [left; apply Rinv_0_lt_compat; auto|]. apply le_INR; auto. Qed.

Lemma profileInt_add m s a b c : 0 < m -> a <= b <= c -> forall k,
  profileInt m k s a c = profileInt m k s a b + profileInt m k s b c.
Proof.
  intros Hm Hab. induction s as [|x r IH]; intros k; cbn [profileInt]; [lra|].
  rewrite IH, (overlap_add _ _ a b c); try lra. apply step_le; auto.
Qed.
Lemma profileInt_above m s a b : 0 < m -> forall k, b <= INR k / m -> profileInt m k s a b = 0.
Proof.
  intros Hm. induction s as [|x r IH]; intros k Hk; cbn [profileInt]; auto.
  rewrite overlap_out_lo by lra. rewrite IH; [lra|]. pose proof (step_le m k Hm). lra.
Qed.
Lemma profileInt_empty m s a : 0 < m -> forall k, profileInt m k s a a = 0.
Proof.
  intros Hm. induction s as [|x r IH]; intros k; cbn [profileInt]; auto.
  rewrite IH. assert (overlap (INR k / m) (INR (S k) / m) a a = 0) as -> by (unfold overlap; mm; lra). lra.
Qed.
Lemma profileInt_skip m a b : 0 < m -> forall j s k, INR (k + j) / m <= a ->
  profileInt m k s a b = profileInt m (k + j) (skipn j s) a b.
Proof.
  intros Hm. induction j; intros s k H.
  - rewrite Nat.add_0_r. reflexivity.
  - destruct s as [|x r]; [reflexivity|]. cbn [profileInt skipn].
    rewrite overlap_out_hi.
    + rewrite (IHj r (S k)); [|replace (S k + j)%nat with (k + S j)%nat by lia; auto].
      replace (S k + j)%nat with (k + S j)%nat by lia. lra.
    + apply Rle_trans with (2 := H). apply idx_le; auto. lia.
Qed.
Lemma profileInt_inside m s j a b : 0 < m -> (j < length s)%nat -> INR j / m <= a -> a <= b -> b <= INR (S j) / m ->
  profileInt m 0 s a b = node s j * (b - a).
Proof.
  intros Hm Hj Ha Hab Hb. rewrite (profileInt_skip m a b Hm j s 0) by (cbn [plus]; auto). cbn [plus].
  assert (HN : node (skipn j s) 0 = node s j) by (rewrite node_skipn, Nat.add_0_r; auto).
  destruct (skipn j s) as [|x r] eqn:E.
  - apply (f_equal (@length R)) in E. rewrite skipn_length in E. cbn in E. lia.
  - cbn [profileInt]. rewrite profileInt_above by auto. unfold node in HN. cbn in HN. fold (node s j) in HN.
    rewrite <- HN.
    assert (overlap (INR j / m) (INR (S j) / m) a b = b - a) as -> by (unfold overlap; mm; lra). lra.
Qed.
Lemma profileInt_full m s : 0 < m -> forall k, profileInt m k s (INR k / m) (INR (k + length s) / m) = Rsum s / m.
Proof.
  intros Hm. induction s as [|x r IH]; intros k; cbn [profileInt length].
  - unfold Rsum. cbn. field. lra.
  - replace (k + S (length r))%nat with (S k + length r)%nat by lia.
    rewrite overlap_full; try lra; [|apply step_le; auto|apply idx_le; auto; lia].
    rewrite (profileInt_add m r (INR k / m) (INR (S k) / m)); auto.
    + rewrite profileInt_above by lra. rewrite IH. unfold Rsum. cbn [fold_right].
      rewrite step_eq by auto. field. lra.
    + split; [apply step_le; auto|]. apply idx_le; auto. lia.
Qed.
Lemma profileInt_bounds m lo hi s a b : 0 < m -> within lo hi s -> a <= b -> forall k,
  INR k / m <= a -> b <= INR (k + length s) / m ->
  lo * (b - a) <= profileInt m k s a b <= hi * (b - a).
Proof.
  intros Hm. revert a. induction s as [|x r IH]; intros a Hw Hab k Hk Hb; cbn [profileInt].
  - cbn in Hb. rewrite Nat.add_0_r in Hb. assert (a = b) by lra. subst. lra.
  - assert (Hx : lo <= x <= hi) by (apply Hw; left; auto).
    assert (Hw' : within lo hi r) by (intros y Hy; apply Hw; right; auto).
    cbn [length] in Hb. replace (k + S (length r))%nat with (S k + length r)%nat in Hb by lia.
    destruct (Rle_dec b (INR (S k) / m)) as [H1|H1].
    + rewrite (profileInt_above m r) by auto.
      assert (overlap (INR k / m) (INR (S k) / m) a b = b - a) as -> by (unfold overlap; mm; lra). nra.
    + destruct (Rle_dec a (INR (S k) / m)) as [H2|H2].
      * rewrite (profileInt_add m r a (INR (S k) / m) b) by (auto; lra).
        rewrite (profileInt_above m r a) by lra.
        assert (overlap (INR k / m) (INR (S k) / m) a b = INR (S k) / m - a) as -> by (unfold overlap; mm; lra).
        specialize (IH (INR (S k) / m) Hw' ltac:(lra) (S k) ltac:(lra) Hb). nra.
      * rewrite overlap_out_hi by lra. specialize (IH a Hw' Hab (S k) ltac:(lra) Hb). lra.
Qed.

(** ** getResampledValue *)
Lemma resampled_loop_eq m e : 0 < m -> forall vals index prev tv tw,
  INR (index + length vals) = m ->
  INR index / m <= prev <= INR (S index) / m -> prev <= e -> e <= 1 ->
  resampled_loop m e vals index prev prev tv tw
  = Ok (tv + profileInt m index vals prev e, tw + (e - prev)).
Proof.
  intros Hm. induction vals as [|x r IH]; intros index prev tv tw HL Hp He H1; cbn [resampled_loop profileInt].
  - rewrite Nat.add_0_r in HL. rewrite HL in Hp. replace (m / m) with 1 in Hp by (field; lra).
    num_simpl. destruct (Rltb prev e) eqn:E; bcase; [lra|]. f_equal. f_equal; lra.
  - num_simpl. destruct (Rltb prev e) eqn:E; bcase.
    + rewrite nofN_R. destruct (Rltb e (INR (S index) / m)) eqn:E2; bcase.
      * assert (HT : resampled_loop m e r (S index) e e (tv + (e - prev) * x) (tw + (e - prev))
                     = Ok (tv + (e - prev) * x, tw + (e - prev))).
        { destruct r; cbn [resampled_loop]; num_simpl; destruct (Rltb e e) eqn:E3; bcase; auto; lra. }
        rewrite HT. rewrite profileInt_above by lra.
        assert (overlap (INR index / m) (INR (S index) / m) prev e = e - prev) as -> by (unfold overlap; mm; lra).
        f_equal. f_equal; lra.
      * assert (HS : INR (S index) / m <= INR (S (S index)) / m) by (apply step_le; auto).
        rewrite IH; auto; try lra.
        -- assert (overlap (INR index / m) (INR (S index) / m) prev e = INR (S index) / m - prev) as ->
             by (unfold overlap; mm; lra).
           rewrite (profileInt_add m r prev (INR (S index) / m) e) by (auto; lra).
           rewrite (profileInt_above m r prev) by lra. f_equal. f_equal; lra.
        -- cbn [length] in HL. rewrite <- HL. f_equal. lia.
    + assert (e = prev) by lra. subst e. rewrite profileInt_empty by auto.
      assert (overlap (INR index / m) (INR (S index) / m) prev prev = 0) as ->.
      { unfold overlap. mm; lra. }
      f_equal. f_equal; lra.
Qed.

Lemma getResampledValue_eq s b e : s <> [] -> 0 <= b -> b < e -> e <= 1 ->
  getResampledValue s b e = Ok (meanOver s b e).
Proof.
  intros Hs Hb Hbe He.
  assert (Hm : 0 < INR (length s)) by (apply lt_0_INR; destruct s; [congruence|cbn; lia]).
  unfold getResampledValue. rewrite nofN_R. num_simpl.
  destruct (Rltb e b) eqn:E1; bcase; [lra|].
  destruct (Rltb b 0) eqn:E2; bcase; [lra|].
  destruct (Rltb 1 e) eqn:E3; bcase; [lra|].
  rewrite Rtrunc_pos by nra.
  assert (HI := Rfloor_nat (b * INR (length s)) ltac:(nra)).
  set (j := Z.to_nat (Rfloor (b * INR (length s)))) in *. clearbody j.
  assert (Hj : (j < length s)%nat) by (apply INR_lt; nra).
  assert (Hj1 : INR j / INR (length s) <= b) by (apply div_le_l; lra).
  rewrite resampled_loop_eq; auto.
  - cbn [obind]. num_simpl. destruct (Rltb 0 (0 + (e - b))) eqn:E4; bcase; [|lra].
    unfold meanOver. rewrite (profileInt_skip _ b e Hm j s 0) by (cbn [plus]; auto). cbn [plus].
    f_equal. f_equal; lra.
  - f_equal. rewrite skipn_length. lia.
  - split; auto. apply div_le_r; auto. rewrite S_INR. lra.
Qed.

(** ** resample *)
Definition slice (s : list R) (n i : nat) : R := meanOver s (INR i / INR n) (INR (S i) / INR n).

Lemma slice_inside s n i j : (0 < n)%nat -> (j < length s)%nat ->
  INR j <= INR i * (INR (length s) / INR n) -> INR (S i) * (INR (length s) / INR n) <= INR (S j) ->
  slice s n i = node s j.
Proof.
  intros Hn Hj H1 H2. assert (Hn' : 0 < INR n) by (apply lt_0_INR; auto).
  assert (Hm : 0 < INR (length s)) by (apply lt_0_INR; lia).
  unfold slice, meanOver. rewrite (profileInt_inside _ s j); auto.
  - rewrite step_eq by auto. field. lra.
  - apply div_le_l; auto. apply Rle_trans with (1 := H1). right. field. lra.
  - apply step_le; auto.
  - apply div_le_r; auto. apply Rle_trans with (2 := H2). right. field. lra.
Qed.

Lemma resample_loop_eq n s : (0 < n)%nat -> s <> [] -> forall fuel index values,
  let r := INR (length s) / INR n in
  length values = n -> (index <= n)%nat -> (n - index <= fuel)%nat ->
  (forall i, (i < index)%nat -> node values i = slice s n i) ->
  exists vs, resample_loop fuel r (Z.to_nat (Rtrunc (1 / r))) s index (INR index / INR n) values = Ok vs /\
    length vs = n /\ (forall i, (i < n)%nat -> node vs i = slice s n i).
Proof.
  intros Hn Hs fuel index values r. revert index values.
  assert (Hn' : 0 < INR n) by (apply lt_0_INR; auto).
  assert (Hm : 0 < INR (length s)) by (apply lt_0_INR; destruct s; [congruence|cbn; lia]).
  assert (Hr : 0 < r) by (apply Rdiv_lt_0_compat; auto).
  assert (Hrn : r * INR n = INR (length s)) by (unfold r; field; lra).
  induction fuel; intros index values HL Hi Hf Hv.
  { exists values. cbn [resample_loop]. rewrite HL. destruct (Nat.ltb_spec index n); [lia|].
    splits; auto. intros i Hi'. apply Hv. lia. }
  cbn [resample_loop]. rewrite HL. destruct (Nat.ltb_spec index n) as [HI|HI].
  2:{ exists values. splits; auto. intros i Hi'. apply Hv. lia. }
  rewrite !nofN_R. num_simpl.
  assert (Hi1 : INR index + 1 <= INR n) by (rewrite <- S_INR; apply le_INR; lia).
  assert (Hi0 : 0 <= INR index) by apply pos_INR.
  assert (HJ := Rfloor_nat (INR index * r) ltac:(nra)).
  set (j := Z.to_nat (Rfloor (INR index * r))) in *. clearbody j.
  assert (Hj : (j < length s)%nat) by (apply INR_lt; nra).
  destruct (Rltb (INR j + 1) ((INR index + 1) * r)) eqn:EB; bcase.
  - assert (HG : getResampledValue s (INR index / INR n) (INR (S index) / INR n) = Ok (slice s n index)).
    { apply getResampledValue_eq; auto.
      - apply div_le_r; lra.
      - rewrite step_eq by auto. assert (0 < 1 / INR n) by (apply Rdiv_lt_0_compat; lra). lra.
      - apply div_le_l; auto. rewrite S_INR. lra. }
    rewrite HG. cbn [obind]. apply IHfuel; rewrite ?upd_length; auto; try lia.
    intros i Hlt. rewrite node_upd by lia. destruct (Nat.eq_dec i index) as [->|HN].
    + rewrite Nat.eqb_refl. reflexivity.
    + destruct (Nat.eqb_spec i index); [contradiction|]. destruct (Nat.eqb_spec index i); [congruence|]. apply Hv. lia.
  - assert (Hr1 : r <= 1) by lra.
    assert (HB : (1 <= Z.to_nat (Rtrunc (1 / r)))%nat).
    { rewrite Rtrunc_pos by (apply div_le_r; lra).
      assert (H1 : 1 <= 1 / r) by (apply div_le_r; lra).
      destruct (Rfloor_nat (1 / r) ltac:(lra)) as [_ H2].
      apply INR_lt. cbn [INR]. apply Rplus_lt_reg_r with 1. replace (0 + 1) with 1 by lra.
      apply Rle_lt_trans with (1 := H1). auto. }
    set (bs := Z.to_nat (Rtrunc (1 / r))) in *. clearbody bs.
    destruct (Nat.ltb_spec 1 bs) as [H2|H2].
    + assert (Hjr : 0 <= INR j / r) by (apply div_le_r; [auto|]; pose proof (pos_INR j); lra).
      assert (HC := Rceil_nat (INR j / r) Hjr).
      assert (Hcz := Rceil_nonneg (INR j / r) Hjr).
      assert (Hjr' : 0 <= INR (S j) / r) by (apply div_le_r; [auto|]; pose proof (pos_INR (S j)); lra).
      assert (HF := Rfloor_nat (INR (S j) / r) Hjr').
      assert (Hfz := Rfloor_nonneg (INR (S j) / r) Hjr').
      rewrite <- minus_IZR.
      assert (Hbi : (Z.to_nat (Rceil (INR j / r)) <= index)%nat).
      { apply Nat.lt_succ_r. apply INR_lt. rewrite S_INR.
        assert (INR j / r <= INR index) by (apply div_le_l; lra). lra. }
      assert (Hie : (S index <= Z.to_nat (Rfloor (INR (S j) / r)))%nat).
      { apply Nat.lt_succ_r. apply INR_lt. rewrite (S_INR (Z.to_nat _)).
        assert (INR (S index) <= INR (S j) / r) by (apply div_le_r; auto; rewrite !S_INR; lra). lra. }
      assert (Hen : (Z.to_nat (Rfloor (INR (S j) / r)) <= n)%nat).
      { apply INR_le. assert (INR (S j) / r <= INR n); [|lra].
        apply div_le_l; auto. rewrite Rmult_comm, Hrn. apply le_INR. lia. }
      set (zc := Rceil (INR j / r)) in *. set (zf := Rfloor (INR (S j) / r)) in *. clearbody zc zf.
      assert (Hzz : (zc <= zf)%Z) by lia.
      rewrite Rtrunc_pos by (apply IZR_le; lia). rewrite Rfloor_IZR.
      assert (Hadj : (Z.to_nat zc + Z.to_nat (zf - zc) = Z.to_nat zf)%nat) by lia.
      destruct (Nat.leb_spec (length s) j); [lia|]. cbv beta iota zeta. rewrite Hadj.
      destruct (Nat.ltb_spec n (Z.to_nat zf)); [lia|].
      rewrite nofN_R. apply IHfuel; rewrite ?fillN_length; auto; try lia.
      intros i Hlt. rewrite node_fillN by lia. gn.
      destruct (Nat.leb_spec (Z.to_nat zc) i) as [HH|HH]; cbn [andb].
      * destruct (Nat.ltb_spec i (Z.to_nat zc + Z.to_nat (zf - zc))); [|lia].
        symmetry. apply slice_inside; auto; fold r.
        -- assert (INR j / r <= INR i).
           { apply Rle_trans with (INR (Z.to_nat zc)); [lra|]. apply le_INR; auto. }
           assert (HX : INR j / r * r = INR j) by (field; lra). nra.
        -- assert (INR (S i) <= INR (S j) / r).
           { apply Rle_trans with (INR (Z.to_nat zf)); [apply le_INR; lia|lra]. }
           assert (HX : INR (S j) / r * r = INR (S j)) by (field; lra). nra.
      * apply Hv. lia.
    + assert (bs = 1%nat) by lia. subst bs.
      destruct (Nat.leb_spec (length s) j); [lia|]. cbv beta iota zeta.
      destruct (Nat.ltb_spec n (index + 1)); [lia|].
      rewrite nofN_R. apply IHfuel; rewrite ?fillN_length; auto; try lia.
      intros i Hlt. rewrite node_fillN by lia. gn.
      destruct (Nat.leb_spec index i) as [HH|HH]; cbn [andb].
      * destruct (Nat.ltb_spec i (index + 1)); [|lia]. assert (i = index) by lia. subst i.
        symmetry. apply slice_inside; auto; fold r; [apply HJ|rewrite !S_INR; exact EB].
      * apply Hv. lia.
Qed.

Lemma resample_eq values s : s <> [] -> exists vs, resample values s = Ok vs /\ length vs = length values /\
  (forall i, (i < length values)%nat -> node vs i = slice s (length values) i).
Proof.
  intros Hs. unfold resample. destruct s as [|x r]; [congruence|]. rewrite !nofN_R. num_simpl.
  destruct (Nat.eq_dec (length values) 0) as [H0|H0].
  - exists values. rewrite H0. cbn [resample_loop]. rewrite H0. splits; auto. intros i Hi. inversion Hi.
  - assert (H : 0 = INR 0 / INR (length values)) by (cbn; field; apply not_0_INR; auto).
    assert (HN : x :: r <> []) by congruence.
    assert (G := resample_loop_eq (length values) (x :: r) ltac:(lia) HN (length values) 0 values eq_refl
                   ltac:(lia) ltac:(lia) ltac:(intros i Hi; inversion Hi)).
    cbv zeta in G. rewrite <- H in G. exact G.
Qed.

(** ** Consequences *)
Lemma scale_le n q x p : 0 < n -> n * q = 1 -> x * q <= p -> x <= n * p.
Proof. intros. replace x with (n * (x * q)) by (replace (n * (x * q)) with (x * (n * q)) by ring; rewrite H0; ring).
  apply Rmult_le_compat_l; lra. Qed.
Lemma scale_ge n q x p : 0 < n -> n * q = 1 -> p <= x * q -> n * p <= x.
Proof. intros. replace x with (n * (x * q)) by (replace (n * (x * q)) with (x * (n * q)) by ring; rewrite H0; ring).
  apply Rmult_le_compat_l; lra. Qed.
Lemma slice_int s n i : (0 < n)%nat -> slice s n i =
  INR n * profileInt (INR (length s)) 0 s (INR i / INR n) (INR (S i) / INR n).
Proof.
  intros Hn. assert (Hn' : 0 < INR n) by (apply lt_0_INR; auto).
  unfold slice, meanOver. rewrite (step_eq (INR n) i Hn').
  replace (INR i / INR n + 1 / INR n - INR i / INR n) with (1 / INR n) by lra. field. lra.
Qed.

Lemma slice_within lo hi s n i : s <> [] -> (i < n)%nat -> within lo hi s -> lo <= slice s n i <= hi.
Proof.
  intros Hs Hi Hw. assert (Hn' : 0 < INR n) by (apply lt_0_INR; lia).
  assert (Hm : 0 < INR (length s)) by (apply lt_0_INR; destruct s; [congruence|cbn; lia]).
  rewrite slice_int by lia.
  assert (H := profileInt_bounds (INR (length s)) lo hi s (INR i / INR n) (INR (S i) / INR n) Hm Hw
                 (step_le _ _ Hn') 0).
  assert (H1 : INR 0 / INR (length s) <= INR i / INR n).
  { cbn [INR]. unfold Rdiv at 1. rewrite Rmult_0_l. apply div_le_r; auto. pose proof (pos_INR i). lra. }
  assert (H2 : INR (S i) / INR n <= INR (0 + length s) / INR (length s)).
  { cbn [plus]. replace (INR (length s) / INR (length s)) with 1 by (field; lra).
    apply div_le_l; auto. rewrite Rmult_1_l. apply le_INR. lia. }
  specialize (H H1 H2).
  assert (HX : INR n * (1 / INR n) = 1) by (field; lra).
  assert (HY : INR (S i) / INR n - INR i / INR n = 1 / INR n) by (rewrite step_eq by auto; ring). rewrite HY in H.
  assert (HQ : 0 < 1 / INR n) by (apply Rdiv_lt_0_compat; lra).
  split; [eapply scale_le|eapply scale_ge]; eauto; lra.
Qed.

Lemma bsum_slice s n k : s <> [] -> (0 < n)%nat -> (k <= n)%nat ->
  bsum (slice s n) k = INR n * profileInt (INR (length s)) 0 s 0 (INR k / INR n).
Proof.
  intros Hs Hn. assert (Hn' : 0 < INR n) by (apply lt_0_INR; lia).
  assert (Hm : 0 < INR (length s)) by (apply lt_0_INR; destruct s; [congruence|cbn; lia]).
  induction k; intros Hk; cbn [bsum].
  - cbn [INR]. unfold Rdiv. rewrite Rmult_0_l, profileInt_empty by auto. lra.
  - rewrite IHk by lia. rewrite slice_int by auto.
    rewrite (profileInt_add _ s 0 (INR k / INR n) (INR (S k) / INR n)); auto; [lra|].
    split; [|apply step_le; auto]. apply div_le_r; auto. pose proof (pos_INR k). lra.
Qed.

Lemma slices_mean s n : s <> [] -> (0 < n)%nat -> bsum (slice s n) n / INR n = Rsum s / INR (length s).
Proof.
  intros Hs Hn. assert (Hn' : 0 < INR n) by (apply lt_0_INR; lia).
  assert (Hm : 0 < INR (length s)) by (apply lt_0_INR; destruct s; [congruence|cbn; lia]).
  rewrite bsum_slice by auto.
  assert (H := profileInt_full (INR (length s)) s Hm 0). cbn [plus INR] in H.
  replace (0 / INR (length s)) with 0 in H by (field; lra).
  replace (INR (length s) / INR (length s)) with 1 in H by (field; lra).
  replace (INR n / INR n) with 1 by (field; lra). rewrite H. field. lra.
Qed.

Lemma slice_same s i : (i < length s)%nat -> slice s (length s) i = node s i.
Proof.
  intros Hi. assert (Hm : 0 < INR (length s)) by (apply lt_0_INR; lia).
  apply slice_inside; auto; try lia; replace (INR (length s) / INR (length s)) with 1 by (field; lra); lra.
Qed.

Lemma slice_mono s n i : s <> [] -> stratified s -> (S i < n)%nat -> slice s n i <= slice s n (S i).
Proof.
  intros Hs Hst Hi. assert (Hn' : 0 < INR n) by (apply lt_0_INR; lia).
  assert (Hm : 0 < INR (length s)) by (apply lt_0_INR; destruct s; [congruence|cbn; lia]).
  (* the sample at the common boundary bounds both slices *)
  set (c := INR (S i) / INR n).
  assert (Hc : 0 <= c < 1).
  { unfold c. split; [apply div_le_r; auto; pose proof (pos_INR (S i)); lra|].
    apply Rmult_lt_reg_r with (INR n); auto. unfold Rdiv. rewrite Rmult_assoc, Rinv_l, Rmult_1_l, Rmult_1_r by lra.
    apply lt_INR; auto. }
  assert (HJ := Rfloor_nat (c * INR (length s)) ltac:(nra)).
  set (j := Z.to_nat (Rfloor (c * INR (length s)))) in *. clearbody j.
  assert (Hj : (j < length s)%nat) by (apply INR_lt; nra).
  assert (HB : forall a b, 0 <= a -> a <= b -> b <= c -> profileInt (INR (length s)) 0 s a b <= node s j * (b - a)).
  { intros a b Ha Hab Hb.
    assert (G : forall l k, (forall q, (q < length l)%nat -> node l q = node s (k + q)) -> (k + length l = length s)%nat ->
              profileInt (INR (length s)) k l a b <= profileInt (INR (length s)) k (map (fun _ => node s j) l) a b).
    { induction l as [|x r IH]; intros k HN HL; cbn [profileInt map]; [lra|].
      cbn [length] in HL. assert (Hx : x = node s k).
      { specialize (HN 0%nat ltac:(cbn; lia)). rewrite Nat.add_0_r in HN. exact HN. }
      specialize (IH (S k)). 
      assert (IH' : profileInt (INR (length s)) (S k) r a b
                    <= profileInt (INR (length s)) (S k) (map (fun _ => node s j) r) a b).
      { apply IH; [|lia]. intros q Hq. specialize (HN (S q) ltac:(cbn; lia)). cbn [node nth] in HN.
        unfold node in HN. cbn [nth] in HN. fold (node r q) in HN. rewrite HN. unfold node. f_equal. lia. }
      destruct (Nat.le_gt_cases k j) as [Hkj|Hkj].
      - assert (x <= node s j) by (subst x; apply stratified_le; auto).
        pose proof (overlap_nonneg (INR k / INR (length s)) (INR (S k) / INR (length s)) a b). nra.
      - rewrite overlap_out_lo; [lra|]. apply Rle_trans with (1 := Hb).
        apply div_le_r; auto. apply Rle_trans with (INR j + 1); [lra|]. rewrite <- S_INR. apply le_INR. lia. }
    assert (HW : within (node s j) (node s j) (map (fun _ => node s j) s)).
    { intros x Hx. apply in_map_iff in Hx. destruct Hx as (? & <- & _). lra. }
    assert (G1 := G s 0%nat (fun q _ => eq_refl) eq_refl).
    assert (G2 := profileInt_bounds (INR (length s)) (node s j) (node s j) (map (fun _ => node s j) s) a b Hm HW Hab 0).
    rewrite map_length in G2. cbn [plus INR] in G2.
    replace (INR (length s) / INR (length s)) with 1 in G2 by (field; lra).
    unfold Rdiv in G2. rewrite Rmult_0_l in G2. specialize (G2 Ha ltac:(lra)). lra. }
  assert (HB2 : forall a b, c <= a -> a <= b -> b <= 1 -> node s j * (b - a) <= profileInt (INR (length s)) 0 s a b).
  { intros a b Ha Hab Hb.
    assert (G : forall l k, (forall q, (q < length l)%nat -> node l q = node s (k + q)) -> (k + length l = length s)%nat ->
              profileInt (INR (length s)) k (map (fun _ => node s j) l) a b <= profileInt (INR (length s)) k l a b).
    { induction l as [|x r IH]; intros k HN HL; cbn [profileInt map]; [lra|].
      cbn [length] in HL. assert (Hx : x = node s k).
      { specialize (HN 0%nat ltac:(cbn; lia)). rewrite Nat.add_0_r in HN. exact HN. }
      specialize (IH (S k)). 
      assert (IH' : profileInt (INR (length s)) (S k) (map (fun _ => node s j) r) a b
                    <= profileInt (INR (length s)) (S k) r a b).
      { apply IH; [|lia]. intros q Hq. specialize (HN (S q) ltac:(cbn; lia)).
        unfold node in HN. cbn [nth] in HN. fold (node r q) in HN. rewrite HN. unfold node. f_equal. lia. }
      destruct (Nat.le_gt_cases j k) as [Hkj|Hkj].
      - assert (node s j <= x) by (subst x; apply stratified_le; auto; lia).
        pose proof (overlap_nonneg (INR k / INR (length s)) (INR (S k) / INR (length s)) a b). nra.
      - rewrite overlap_out_hi; [lra|]. apply Rle_trans with (2 := Ha).
        apply div_le_l; auto. apply Rle_trans with (INR j); [apply le_INR; lia|lra]. }
    assert (HW : within (node s j) (node s j) (map (fun _ => node s j) s)).
    { intros x Hx. apply in_map_iff in Hx. destruct Hx as (? & <- & _). lra. }
    assert (G1 := G s 0%nat (fun q _ => eq_refl) eq_refl).
    assert (G2 := profileInt_bounds (INR (length s)) (node s j) (node s j) (map (fun _ => node s j) s) a b Hm HW Hab 0).
    rewrite map_length in G2. cbn [plus INR] in G2.
    replace (INR (length s) / INR (length s)) with 1 in G2 by (field; lra).
    unfold Rdiv in G2. rewrite Rmult_0_l in G2. specialize (G2 ltac:(lra) ltac:(lra)). lra. }
  assert (H1 : slice s n i <= node s j).
  { rewrite slice_int by lia. fold c.
    specialize (HB (INR i / INR n) c). assert (0 <= INR i / INR n) by (apply div_le_r; auto; pose proof (pos_INR i); lra).
    assert (Hstep : c = INR i / INR n + 1 / INR n) by (unfold c; apply step_eq; auto).
    assert (HX : INR n * (1 / INR n) = 1) by (field; lra).
    assert (0 < 1 / INR n) by (apply Rdiv_lt_0_compat; lra).
    specialize (HB ltac:(lra) ltac:(lra) ltac:(lra)).
    replace (c - INR i / INR n) with (1 / INR n) in HB by lra.
    eapply scale_ge; eauto. }
  assert (H2 : node s j <= slice s n (S i)).
  { rewrite slice_int by lia. fold c.
    specialize (HB2 c (INR (S (S i)) / INR n)).
    assert (Hstep : INR (S (S i)) / INR n = c + 1 / INR n) by (unfold c; apply step_eq; auto).
    assert (HX : INR n * (1 / INR n) = 1) by (field; lra).
    assert (0 < 1 / INR n) by (apply Rdiv_lt_0_compat; lra).
    assert (INR (S (S i)) / INR n <= 1) by (apply div_le_l; auto; rewrite Rmult_1_l; apply le_INR; lia).
    specialize (HB2 ltac:(lra) ltac:(lra) ltac:(lra)).
    rewrite Hstep in *.
    replace (c + 1 / INR n - c) with (1 / INR n) in HB2 by lra.
    eapply scale_le; eauto. }
  lra.
Qed.

Lemma resampleExtensive_eq values s : s <> [] -> (0 < length values)%nat ->
  exists vs, resampleExtensive values s = Ok vs /\ length vs = length values /\
  (forall i, (i < length values)%nat ->
     node vs i = INR (length s) * profileInt (INR (length s)) 0 s (INR i / INR (length values)) (INR (S i) / INR (length values))) /\
  Rsum vs = Rsum s.
Proof.
  intros Hs Hn. destruct (resample_eq values s Hs) as (vs & H1 & H2 & H3).
  assert (Hn' : 0 < INR (length values)) by (apply lt_0_INR; lia).
  assert (Hm : 0 < INR (length s)) by (apply lt_0_INR; destruct s; [congruence|cbn; lia]).
  unfold resampleExtensive. rewrite H1. cbn [obind]. rewrite !nofN_R. num_simpl.
  eexists. splits; [reflexivity|rewrite map_length; auto| |].
  - intros i Hi. rewrite node_map by (rewrite H2; auto). rewrite H3 by auto. rewrite slice_int by auto. field. lra.
  - rewrite Rsum_map_scal_r, Rsum_bsum, H2.
    rewrite (bsum_ext (node vs) (slice s (length values))) by auto.
    assert (H := slices_mean s (length values) Hs Hn).
    apply Rmult_eq_reg_r with (/ INR (length s)); [|apply Rinv_neq_0_compat; lra].
    change (Rsum s * / INR (length s)) with (Rsum s / INR (length s)). rewrite <- H. field. lra.
Qed.
