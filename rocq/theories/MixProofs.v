(** Proofs about inversion mixing (Tank.cc:374-416). *)

From Coq Require Import ZArith List Bool Reals Lra Lia.
From Verif Require Import Num Base Utils Types TankM Spec RList.
Import ListNotations.
Local Open Scope R_scope.

(** sum of f over lo, ..., lo+c-1 *)
Definition seg (f : nat -> R) (lo c : nat) : R := bsum (fun k => f (lo + k)%nat) c.

Lemma seg_S f lo c : seg f lo (S c) = f lo + seg f (S lo) c.
Proof.
  unfold seg. rewrite bsum_S_l. rewrite Nat.add_0_r. f_equal.
  apply bsum_ext. intros. f_equal. lia.
Qed.
Lemma seg_1 f lo : seg f lo 1 = f lo.
Proof. unfold seg. cbn. rewrite Nat.add_0_r. lra. Qed.

(** the scan stops at the first node that is colder than the mixture above it *)
Lemma mixScan_spec Ts mass i : 0 < mass -> forall m Tm mm,
  (m <= i)%nat ->
  Tm = mass * seg (node Ts) (S m) (i - m) -> mm = mass * INR (i - m) ->
  forall m0 A, mixScan Ts mass m Tm mm = (m0, A) ->
  (m0 <= m)%nat /\ A * INR (i - m0 + 1) = seg (node Ts) m0 (i - m0 + 1) /\
  (m0 = 0%nat \/ node Ts (m0 - 1) < A) /\
  (forall k, (m0 < k <= m)%nat -> seg (node Ts) k (i - k + 1) <= node Ts (k - 1) * INR (i - k + 1)).
Proof.
  intros Hmass m. induction m as [|m IH]; intros Tm mm Hm HT Hmm m0 A E.
  - cbn [mixScan] in E. injection E as <- <-.
    assert (Hs : Tm + node Ts 0 * mass = mass * seg (node Ts) 0 (i - 0 + 1)).
    { rewrite HT. replace (i - 0 + 1)%nat with (S (i - 0)) by lia. rewrite seg_S. lra. }
    assert (Hc : mm + mass = mass * INR (i - 0 + 1)).
    { rewrite Hmm, plus_INR. cbn. lra. }
    assert (0 < INR (i - 0 + 1)) by (apply lt_0_INR; lia).
    num_simpl. gn. rewrite Hs, Hc.
    split; [lia|]. split; [|split; [left; reflexivity|intros; lia]].
    field. lra.
  - cbn [mixScan] in E.
    assert (Hs : Tm + node Ts (S m) * mass = mass * seg (node Ts) (S m) (i - S m + 1)).
    { rewrite HT. replace (i - S m + 1)%nat with (S (i - S m)) by lia. rewrite seg_S. lra. }
    assert (Hc : mm + mass = mass * INR (i - S m + 1)).
    { rewrite Hmm, plus_INR. cbn. lra. }
    assert (Hpos : 0 < INR (i - S m + 1)) by (apply lt_0_INR; lia).
    num_simpl. gn. rewrite Hs, Hc in E.
    set (a := mass * seg (node Ts) (S m) (i - S m + 1) / (mass * INR (i - S m + 1))) in *.
    assert (Ha : a * INR (i - S m + 1) = seg (node Ts) (S m) (i - S m + 1)) by (unfold a; field; lra).
    destruct (Rltb (node Ts m) a) eqn:Ec; bcase.
    + injection E as <- <-. split; [lia|]. split; [exact Ha|]. split; [|intros; lia].
      right. replace (S m - 1)%nat with m by lia. exact Ec.
    + assert (Hm' : (m <= i)%nat) by lia.
      replace (i - S m + 1)%nat with (i - m)%nat in * by lia.
      destruct (IH _ _ Hm' eq_refl eq_refl m0 A E) as (H1 & H2 & H3 & H4).
      split; [lia|]. split; [exact H2|]. split; [exact H3|].
      intros k Hk. destruct (Nat.eq_dec k (S m)) as [->|]; [|apply H4; lia].
      replace (i - S m + 1)%nat with (i - m)%nat by lia.
      replace (S m - 1)%nat with m by lia. rewrite <- Ha.
      apply Rmult_le_compat_r; lra.
Qed.

(** ** One mixed window, as functions *)
Section Window.
  Variables (f : nat -> R) (m i : nat) (A : R).
  Hypothesis Hmi : (m < i)%nat.
  Hypothesis HA : A * INR (i - m + 1) = seg f m (i - m + 1).
  Hypothesis Hm0 : m = 0%nat \/ f (m - 1)%nat < A.
  Hypothesis Hk : forall k, (m < k <= i)%nat -> seg f k (i - k + 1) <= f (k - 1)%nat * INR (i - k + 1).
  Hypothesis Hinv : f i < f (i - 1)%nat.

  Let f' (k : nat) : R := if (Nat.leb m k && Nat.ltb k (m + (i - m + 1)))%bool then A else f k.

  Lemma win_in k : (m <= k <= i)%nat -> f' k = A.
  Proof.
    intros. unfold f'. replace (Nat.leb m k) with true by (symmetry; apply Nat.leb_le; lia).
    replace (Nat.ltb k (m + (i - m + 1))) with true by (symmetry; apply Nat.ltb_lt; lia). reflexivity.
  Qed.
  Lemma win_out k : (k < m \/ i < k)%nat -> f' k = f k.
  Proof.
    intros. unfold f'. destruct H.
    - replace (Nat.leb m k) with false by (symmetry; apply Nat.leb_gt; lia). reflexivity.
    - replace (Nat.ltb k (m + (i - m + 1))) with false by (symmetry; apply Nat.ltb_ge; lia).
      rewrite andb_false_r. reflexivity.
  Qed.

  (** averages from k to i only grow as k goes down *)
  Lemma win_avg_up k : (m <= k <= i)%nat -> seg f k (i - k + 1) <= A * INR (i - k + 1).
  Proof.
    (* from k = m upward *)
    remember (k - m)%nat as d. revert k Heqd. induction d; intros k Hd Hk'.
    - replace k with m by lia. lra.
    - assert (IH := IHd (k - 1)%nat ltac:(lia) ltac:(lia)).
      assert (H2 := Hk k ltac:(lia)).
      replace (i - (k - 1) + 1)%nat with (S (i - k + 1)) in IH by lia.
      rewrite seg_S in IH. replace (S (k - 1)) with k in IH by lia.
      rewrite S_INR in IH.
      assert (Hp : 0 < INR (i - k + 1)) by (apply lt_0_INR; lia).
      set (s := seg f k (i - k + 1)) in *. set (c := INR (i - k + 1)) in *.
      assert (f (k-1)%nat <= A * (c + 1) - s) by lra.
      assert (s <= (A * (c + 1) - s) * c) by nra.
      assert (s * (1 + c) <= A * c * (1 + c)) by nra.
      nra.
  Qed.
  Lemma win_top_rises : f i < A.
  Proof.
    assert (H1 := win_avg_up (i - 1) ltac:(lia)).
    replace (i - (i - 1) + 1)%nat with 2%nat in H1 by lia.
    rewrite seg_S in H1. replace (S (i - 1)) with i in H1 by lia. rewrite seg_1 in H1.
    change (INR 2) with 2 in H1. lra.
  Qed.
  Lemma win_bottom : A <= f m.
  Proof.
    assert (H1 := win_avg_up (S m) ltac:(lia)).
    pose proof HA as H2. replace (i - m + 1)%nat with (S (i - S m + 1)) in H2 by lia.
    rewrite seg_S, S_INR in H2.
    set (s := seg f (S m) (i - S m + 1)) in *. set (c := INR (i - S m + 1)) in *. nra.
  Qed.
  (** heat moves up *)
  Lemma win_prefix p : bsum f' p <= bsum f p.
  Proof.
    destruct (le_lt_dec p m) as [Hp|Hp].
    - right. apply bsum_ext. intros; apply win_out; lia.
    - destruct (le_lt_dec p i) as [Hpi|Hpi].
      + rewrite (bsum_split_le f' m p) by lia. rewrite (bsum_split_le f m p) by lia.
        rewrite (bsum_ext f' f m) by (intros; apply win_out; lia).
        rewrite (bsum_ext (fun k => f' (m + k)%nat) (fun _ => A) (p - m)) by (intros; apply win_in; lia).
        rewrite bsum_const.
        assert (H1 := win_avg_up p ltac:(lia)).
        assert (H2 : seg f m (i - m + 1) = bsum (fun k => f (m + k)%nat) (p - m) + seg f p (i - p + 1)).
        { unfold seg. rewrite (bsum_split_le _ (p - m) (i - m + 1)) by lia.
          f_equal. replace (i - m + 1 - (p - m))%nat with (i - p + 1)%nat by lia.
          apply bsum_ext. intros. f_equal. lia. }
        rewrite <- HA in H2.
        assert (H3 : INR (i - m + 1) = INR (p - m) + INR (i - p + 1)).
        { rewrite <- plus_INR. f_equal. lia. }
        rewrite H3 in H2. lra.
      + right. unfold f'. rewrite bsum_fill by lia. rewrite <- Rplus_0_r at 1.
        fold (seg f m (i - m + 1)). rewrite <- HA. lra.
  Qed.
  Lemma win_prefix_eq p : (p <= m \/ i < p)%nat -> bsum f' p = bsum f p.
  Proof.
    intros [Hp|Hp].
    - apply bsum_ext. intros; apply win_out; lia.
    - unfold f'. rewrite bsum_fill by lia. rewrite <- Rplus_0_r at 1.
      fold (seg f m (i - m + 1)). rewrite <- HA. lra.
  Qed.
  (** no strict step appears *)
  Lemma win_noB p : (0 < p)%nat -> f' (p - 1)%nat < f' p ->
    f (p - 1)%nat < f p /\ (p <= m \/ i < p)%nat.
  Proof.
    intros Hp H.
    destruct (le_lt_dec p m) as [H1|H1].
    - split; [|lia]. destruct (Nat.eq_dec p m) as [->|].
      + destruct Hm0 as [|Hm0']; [lia|]. pose proof win_bottom. lra.
      + rewrite !win_out in H by lia. exact H.
    - destruct (le_lt_dec p i) as [H2|H2].
      + rewrite !win_in in H by lia. lra.
      + split; [|lia]. destruct (Nat.eq_dec p (S i)) as [->|].
        * replace (S i - 1)%nat with i in * by lia. rewrite win_in in H by lia.
          rewrite win_out in H by lia. pose proof win_top_rises. lra.
        * rewrite !win_out in H by lia. exact H.
  Qed.
  Lemma win_range lo hi n : (i < n)%nat -> (forall k, (k < n)%nat -> lo <= f k <= hi) ->
    forall k, (k < n)%nat -> lo <= f' k <= hi.
  Proof.
    intros Hn Hr k Hk'. destruct (le_lt_dec m k) as [H1|H1]; [|rewrite win_out by lia; auto].
    destruct (le_lt_dec k i) as [H2|H2]; [|rewrite win_out by lia; auto].
    rewrite win_in by lia. pose proof win_bottom. pose proof win_top_rises.
    destruct (Hr m ltac:(lia)). destruct (Hr i ltac:(lia)). lra.
  Qed.

  (** *** The measure: N for every strict step up, N - p for every inversion at p *)
  Definition wt (N : nat) (g : nat -> R) (p : nat) : nat :=
    if Rltb (g (p - 1)%nat) (g p) then N else if Rltb (g p) (g (p - 1)%nat) then (N - p)%nat else 0%nat.
  Fixpoint mu (N : nat) (g : nat -> R) (p : nat) : nat :=
    match p with O => 0 | S p' => (mu N g p' + wt N g (S p'))%nat end.

  Lemma wt_lt N g p : g (p - 1)%nat < g p -> wt N g p = N.
  Proof. intros. unfold wt. apply Rltb_true in H. rewrite H. reflexivity. Qed.
  Lemma wt_gt N g p : g p < g (p - 1)%nat -> wt N g p = (N - p)%nat.
  Proof.
    intros. unfold wt. assert (H' := H). apply Rlt_le, Rltb_false in H. rewrite H.
    apply Rltb_true in H'. rewrite H'. reflexivity.
  Qed.
  Lemma wt_eq N g p : g p = g (p - 1)%nat -> wt N g p = 0%nat.
  Proof. intros. unfold wt. rewrite H. repeat rcase; auto; lra. Qed.

  Lemma win_wt_other N p : (0 < p)%nat -> p <> i -> p <> S i -> (wt N f' p <= wt N f p)%nat.
  Proof.
    intros Hp H1 H2.
    destruct (le_lt_dec p m) as [Hm|Hm].
    - destruct (Nat.eq_dec p m) as [->|].
      + destruct Hm0 as [|Hm0']; [lia|]. pose proof win_bottom.
        rewrite (wt_lt N f m) by lra. unfold wt. repeat rcase; lia.
      + unfold wt. rewrite !win_out by lia. lia.
    - destruct (le_lt_dec p i) as [Hi|Hi].
      + rewrite wt_eq; [lia|]. rewrite !win_in by lia. reflexivity.
      + unfold wt. rewrite !win_out by lia. lia.
  Qed.
  Lemma win_wt_i N : wt N f' i = 0%nat.
  Proof. apply wt_eq. rewrite !win_in by lia. reflexivity. Qed.
  Lemma win_wt_i1 N : (S i <= N)%nat -> (wt N f' (S i) <= wt N f (S i) + (N - S i))%nat.
  Proof.
    intros HN. unfold wt. replace (S i - 1)%nat with i by lia.
    rewrite win_in by lia. rewrite (win_out (S i)) by lia. pose proof win_top_rises.
    repeat rcase; try lia; exfalso; lra.
  Qed.
  Lemma mu_pos N g p : (0 < p)%nat -> mu N g p = (mu N g (p - 1) + wt N g p)%nat.
  Proof. destruct p; [lia|]. intros _. cbn [mu]. replace (S p - 1)%nat with p by lia. reflexivity. Qed.
  Lemma win_mu_below N p : (p < i)%nat -> (mu N f' p <= mu N f p)%nat.
  Proof.
    induction p; cbn [mu]; intros; [lia|].
    assert (mu N f' p <= mu N f p)%nat by (apply IHp; lia).
    assert (wt N f' (S p) <= wt N f (S p))%nat by (apply win_wt_other; lia). lia.
  Qed.
  Lemma win_mu_above N p : (i <= p < N)%nat ->
    (mu N f' p + (if Nat.eqb p i then N - i else 1) <= mu N f p)%nat.
  Proof.
    intros [H1 H2]. remember (p - i)%nat as d. revert p Heqd H1 H2. induction d; intros p Hd H1 H2.
    - replace p with i in * by lia. rewrite Nat.eqb_refl.
      rewrite (mu_pos N f' i), (mu_pos N f i) by lia.
      rewrite win_wt_i, (wt_gt N f i) by exact Hinv.
      assert (mu N f' (i - 1) <= mu N f (i - 1))%nat by (apply win_mu_below; lia). lia.
    - destruct p as [|p]; [lia|]. cbn [mu].
      replace (Nat.eqb (S p) i) with false by (symmetry; apply Nat.eqb_neq; lia).
      assert (IH := IHd p ltac:(lia) ltac:(lia) ltac:(lia)).
      destruct (Nat.eq_dec p i) as [->|].
      + rewrite Nat.eqb_refl in IH. assert (H3 := win_wt_i1 N ltac:(lia)). lia.
      + replace (Nat.eqb p i) with false in IH by (symmetry; apply Nat.eqb_neq; lia).
        assert (wt N f' (S p) <= wt N f (S p))%nat by (apply win_wt_other; lia). lia.
  Qed.
  Lemma win_mu N : (i < N)%nat -> (mu N f' (N - 1) < mu N f (N - 1))%nat.
  Proof.
    intros. assert (H1 := win_mu_above N (N - 1) ltac:(lia)).
    destruct (Nat.eqb (N - 1) i) eqn:E; [apply Nat.eqb_eq in E|]; lia.
  Qed.
End Window.

Lemma wt_bound N g p : (wt N g p <= N)%nat.
Proof. unfold wt. repeat rcase; lia. Qed.
Lemma mu_bound N g p : (mu N g p <= p * N)%nat.
Proof. induction p; cbn [mu]; [lia|]. pose proof (wt_bound N g (S p)). lia. Qed.
Lemma wt_ext N f g p : f (p-1)%nat = g (p-1)%nat -> f p = g p -> wt N f p = wt N g p.
Proof. intros H1 H2. unfold wt. rewrite H1, H2. reflexivity. Qed.
Lemma mu_ext N f g p : (forall k, (k <= p)%nat -> f k = g k) -> mu N f p = mu N g p.
Proof.
  induction p; cbn [mu]; intros; auto. rewrite IHp by (intros; apply H; lia).
  f_equal. apply wt_ext; apply H; lia.
Qed.

(** what a sequence of mixes does to a profile (relative to the initial profile Ts0) *)
Record mixed_of (Ts0 Ts : list R) : Prop := {
  mo_len : length Ts = length Ts0;
  mo_sum : bsum (node Ts) (length Ts0) = bsum (node Ts0) (length Ts0);
  mo_up : forall p, (p <= length Ts0)%nat -> bsum (node Ts) p <= bsum (node Ts0) p;
  mo_cut : forall p, (0 < p < length Ts0)%nat -> node Ts (p - 1) < node Ts p ->
           bsum (node Ts) p = bsum (node Ts0) p;
  mo_range : forall lo hi, (forall k, (k < length Ts0)%nat -> lo <= node Ts0 k <= hi) ->
             forall k, (k < length Ts0)%nat -> lo <= node Ts k <= hi
}.

Lemma mixed_of_refl Ts : mixed_of Ts Ts.
Proof. constructor; auto. intros; lra. Qed.

(** one mix *)
Lemma mix_one Ts mass i m A : 0 < mass -> (0 < i < length Ts)%nat ->
  node Ts i < node Ts (i - 1) -> mixScan Ts mass i 0 0 = (m, A) ->
  let Ts' := fillN Ts m (i - m + 1) A in
  (forall Ts0, mixed_of Ts0 Ts -> mixed_of Ts0 Ts') /\
  (mu (length Ts) (node Ts') (length Ts - 1) < mu (length Ts) (node Ts) (length Ts - 1))%nat.
Proof.
  intros Hmass Hi Hinv E Ts'.
  destruct (mixScan_spec Ts mass i Hmass i 0 0 (le_n i)) with (m0 := m) (A := A)
    as (H1 & H2 & H3 & H4); auto.
  { rewrite Nat.sub_diag. unfold seg. cbn. lra. }
  { rewrite Nat.sub_diag. cbn. lra. }
  assert (Hmi : (m < i)%nat).
  { destruct (Nat.eq_dec m i) as [->|]; [|lia]. exfalso.
    replace (i - i + 1)%nat with 1%nat in H2 by lia. rewrite seg_1 in H2. cbn in H2.
    destruct H3 as [|H3]; [lia|]. lra. }
  set (f' := fun k => if (Nat.leb m k && Nat.ltb k (m + (i - m + 1)))%bool then A else node Ts k).
  assert (Hlen : length Ts' = length Ts) by apply fillN_length.
  assert (Hf : forall k, node Ts' k = f' k) by (intros; unfold Ts'; apply node_fillN; lia).
  assert (Hbs : forall p, bsum (node Ts') p = bsum f' p) by (intros; apply bsum_ext; auto).
  split.
  - intros Ts0 [L1 L2 L3 L4 L5]. constructor.
    + rewrite Hlen; exact L1.
    + rewrite Hbs, <- L2. apply (win_prefix_eq (node Ts) m i A); auto. lia.
    + intros p Hp. rewrite Hbs. eapply Rle_trans; [|apply L3; exact Hp].
      apply (win_prefix (node Ts) m i A); auto.
    + intros p Hp Hlt. rewrite !Hf in Hlt.
      destruct (win_noB (node Ts) m i A) with (p := p) as [Hb Hout]; auto; try lia.
      rewrite Hbs. etransitivity; [apply (win_prefix_eq (node Ts) m i A); auto|]. apply L4; auto.
    + intros lo hi Hr k Hk. rewrite Hf.
      apply (win_range (node Ts) m i A) with (n := length Ts0); auto; lia.
  - rewrite (mu_ext _ (node Ts') f') by auto.
    apply (win_mu (node Ts) m i A); auto; lia.
Qed.

Lemma mixPass_spec mass : 0 < mass -> forall i Ts inv Ts' inv',
  (i < length Ts)%nat ->
  mixPass mass i Ts inv = (Ts', inv') ->
  (forall Ts0, mixed_of Ts0 Ts -> mixed_of Ts0 Ts') /\ length Ts' = length Ts /\
  (mu (length Ts) (node Ts') (length Ts - 1) <= mu (length Ts) (node Ts) (length Ts - 1))%nat /\
  ((inv' = inv /\ Ts' = Ts /\ forall k, (0 < k <= i)%nat -> node Ts (k - 1) <= node Ts k) \/
   (inv' = true /\
    (mu (length Ts) (node Ts') (length Ts - 1) < mu (length Ts) (node Ts) (length Ts - 1))%nat)).
Proof.
  intros Hmass i. induction i as [|i IH]; intros Ts inv Ts' inv' Hi E; cbn [mixPass] in E.
  - injection E as <- <-. splits; auto. left. splits; auto. intros; lia.
  - num_simpl. gn.
    destruct (Rltb (node Ts (S i)) (node Ts i)) eqn:Ec; bcase.
    + destruct (mixScan Ts mass (S i) 0 0) as [m A] eqn:Es.
      assert (Hone := mix_one Ts mass (S i) m A Hmass ltac:(lia)).
      replace (S i - 1)%nat with i in Hone by lia. specialize (Hone Ec Es).
      cbv zeta in Hone. destruct Hone as [Ho1 Ho2].
      set (Ts1 := fillN Ts m (S i - m + 1) A) in *.
      assert (Hlen : length Ts1 = length Ts) by apply fillN_length.
      destruct (IH Ts1 true Ts' inv' ltac:(lia) E) as (P1 & P2 & P3 & P4).
      rewrite Hlen in *. splits; auto; try lia.
      right. split; [|lia]. destruct P4 as [[-> _]|[-> _]]; reflexivity.
    + destruct (IH Ts inv Ts' inv' ltac:(lia) E) as (P1 & P2 & P3 & P4).
      splits; auto. destruct P4 as [(Q1 & Q2 & Q3)|Q]; [left|right; exact Q].
      splits; auto. intros k Hk. destruct (Nat.eq_dec k (S i)) as [->|]; [|apply Q3; lia].
      replace (S i - 1)%nat with i by lia. lra.
Qed.

Lemma stratified_alt Ts : stratified Ts <->
  forall k, (0 < k <= length Ts - 1)%nat -> node Ts (k - 1) <= node Ts k.
Proof.
  split; intros H k.
  - intros Hk. specialize (H (k - 1)%nat). replace (S (k - 1)) with k in H by lia. apply H. lia.
  - intros Hk. specialize (H (S k)). replace (S k - 1)%nat with k in H by lia. apply H. lia.
Qed.

Lemma mixLoop_spec mass : 0 < mass -> forall fuel Ts Ts',
  mixLoop fuel mass Ts = Ok Ts' -> mixed_of Ts Ts' /\ stratified Ts'.
Proof.
  intros Hmass. assert (Hgen : forall fuel Ts0 Ts Ts', mixed_of Ts0 Ts ->
    mixLoop fuel mass Ts = Ok Ts' -> mixed_of Ts0 Ts' /\ stratified Ts').
  2:{ intros fuel Ts Ts' E. eapply Hgen; [apply mixed_of_refl|exact E]. }
  induction fuel as [|fuel IH]; intros Ts0 Ts Ts' H0 E; cbn [mixLoop] in E; [discriminate|].
  destruct Ts as [|x r].
  - cbn in E. injection E as <-. split; auto. intros i Hi. cbn in Hi. lia.
  - destruct (mixPass mass (length (x :: r) - 1) (x :: r) false) as [Ts1 inv] eqn:Ep.
    destruct (mixPass_spec mass Hmass (length (x :: r) - 1) (x :: r) false Ts1 inv ltac:(cbn; lia) Ep)
      as (P1 & P2 & P3 & P4).
    destruct inv.
    + eapply IH; [apply P1; exact H0|exact E].
    + injection E as <-. split; [apply P1; exact H0|].
      destruct P4 as [(_ & -> & Q)|(Q & _)]; [|discriminate].
      apply stratified_alt. exact Q.
Qed.

Lemma mixLoop_terminates mass : 0 < mass -> forall fuel Ts,
  (mu (length Ts) (node Ts) (length Ts - 1) < fuel)%nat -> exists Ts', mixLoop fuel mass Ts = Ok Ts'.
Proof.
  intros Hmass. induction fuel as [|fuel IH]; intros Ts Hf; [lia|]. cbn [mixLoop].
  destruct Ts as [|x r]; [cbn; eauto|].
  destruct (mixPass mass (length (x :: r) - 1) (x :: r) false) as [Ts1 inv] eqn:Ep.
  destruct (mixPass_spec mass Hmass (length (x :: r) - 1) (x :: r) false Ts1 inv ltac:(cbn; lia) Ep)
    as (P1 & P2 & P3 & P4).
  destruct inv; [|eauto].
  destruct P4 as [(Q & _)|(_ & Q)]; [discriminate|].
  apply IH. rewrite P2. lia.
Qed.

(** a bound on the number of passes: (number of nodes)^2 + 1 *)
Lemma mixLoop_bound mass : 0 < mass -> forall fuel Ts, (length Ts * length Ts < fuel)%nat ->
  exists Ts', mixLoop fuel mass Ts = Ok Ts'.
Proof.
  intros Hmass fuel Ts Hf. apply mixLoop_terminates; auto.
  pose proof (mu_bound (length Ts) (node Ts) (length Ts - 1)).
  assert ((length Ts - 1) * length Ts <= length Ts * length Ts)%nat by (apply Nat.mul_le_mono_r; lia).
  lia.
Qed.

(** a stratified profile is left alone *)
Lemma mixPass_strat (mass : R) i Ts inv : (i < length Ts)%nat -> stratified Ts ->
  mixPass mass i Ts inv = (Ts, inv).
Proof.
  intros Hi Hs. induction i; cbn [mixPass]; auto.
  num_simpl. gn.
  assert (node Ts i <= node Ts (S i)) by (apply Hs; lia).
  destruct (Rltb (node Ts (S i)) (node Ts i)) eqn:E; bcase; [lra|]. apply IHi; lia.
Qed.
Lemma mixLoop_strat (mass : R) fuel Ts : stratified Ts -> mixLoop (S fuel) mass Ts = Ok Ts.
Proof.
  intros Hs. cbn [mixLoop]. destruct Ts as [|x r]; [reflexivity|].
  rewrite mixPass_strat by (auto; cbn; lia). reflexivity.
Qed.

(** ** Uniqueness of the mixed profile *)
Record mixed_core (Ts0 Ts : list R) : Prop := {
  mc_len : length Ts = length Ts0;
  mc_sum : bsum (node Ts) (length Ts0) = bsum (node Ts0) (length Ts0);
  mc_up : forall p, (p <= length Ts0)%nat -> bsum (node Ts) p <= bsum (node Ts0) p;
  mc_cut : forall p, (0 < p < length Ts0)%nat -> node Ts (p - 1) < node Ts p ->
           bsum (node Ts) p = bsum (node Ts0) p
}.

Lemma mixed_unique Ts0 A B : mixed_core Ts0 A -> stratified A -> mixed_core Ts0 B -> stratified B -> A = B.
Proof.
  intros HA SA HB SB.
  assert (LA := mc_len _ _ HA). assert (LB := mc_len _ _ HB).
  set (n := length Ts0) in *.
  (* prefix sums of A never exceed those of B, and conversely *)
  assert (Hle : forall X Y, mixed_core Ts0 X -> stratified X -> mixed_core Ts0 Y -> stratified Y ->
            forall p, (p <= n)%nat -> bsum (node X) p <= bsum (node Y) p).
  { intros X Y HX SX HY SY.
    assert (LX := mc_len _ _ HX). assert (LY := mc_len _ _ HY). fold n in LX, LY.
    (* suppose at p: S_X > S_Y ; extend right while Y is flat at the level and left; use convexity *)
    (* Claim: for all p <= n, S_X p <= S_Y p.  Between consecutive cuts of Y, S_Y is affine and S_X convex,
       and at the cuts S_X <= S_0 = S_Y. *)
    assert (Hcut : forall p, (p <= n)%nat -> (p = 0%nat \/ p = n \/ node Y (p - 1) < node Y p) ->
              bsum (node X) p <= bsum (node Y) p).
    { intros p Hp [->|[->|Hc]].
      - cbn. lra.
      - unfold n. rewrite (mc_sum _ _ HX), (mc_sum _ _ HY). lra.
      - destruct (Nat.eq_dec p 0) as [->|]; [cbn; lra|].
        destruct (Nat.eq_dec p n) as [->|].
        + unfold n. rewrite (mc_sum _ _ HX), (mc_sum _ _ HY). lra.
        + rewrite (mc_cut _ _ HY p) by (fold n; auto; lia). apply (mc_up _ _ HX). fold n. exact Hp. }
    (* D p = S_X p - S_Y p.  Take p with D p > 0; walk right: D increasing impossible at the end *)
    intros p Hp. apply Rnot_lt_le. intros Hgt.
    (* Left part: there is q < p with q a cut (or 0) and Y flat on [q, p); right part r *)
    assert (Hleft : exists q, (q <= p)%nat /\ (q = 0%nat \/ node Y (q - 1) < node Y q) /\
              forall k, (q <= k < p)%nat -> node Y k = node Y (p - 1)).
    { clear Hgt. induction p as [|p IH].
      - exists 0%nat. splits; auto. intros; lia.
      - destruct (Nat.eq_dec p 0) as [->|Hp0].
        + exists 0%nat. splits; auto. intros k Hk. f_equal. lia.
        + destruct (Rlt_le_dec (node Y (p - 1)) (node Y p)) as [Hc|Hc].
          * exists p. splits; auto. intros k Hk. f_equal; lia.
          * destruct IH as [q (Q1 & Q2 & Q3)]; [lia|].
            assert (node Y (p - 1) <= node Y p).
            { specialize (SY (p - 1)%nat). replace (S (p - 1)) with p in SY by lia. apply SY. lia. }
            exists q. splits; auto. intros k Hk.
            replace (S p - 1)%nat with p by lia.
            destruct (Nat.eq_dec k p) as [->|]; auto. rewrite Q3 by lia. lra. }
    assert (Hright : exists r, (p <= r <= n)%nat /\ (r = n \/ node Y (r - 1) < node Y r) /\
              (forall k, (p <= k < r)%nat -> node Y k <= node Y (p - 1) \/ p = 0%nat)).
    { remember (n - p)%nat as d. clear Hgt Hleft. revert p Hp Heqd. induction d; intros p Hp Hd.
      - exists p. splits; auto; try (intros; lia).
      - destruct (Nat.eq_dec p 0) as [->|Hp0].
        + destruct (IHd 1%nat ltac:(lia) ltac:(lia)) as [r (R1 & R2 & R3)].
          exists r. splits; auto; lia.
        + destruct (Rlt_le_dec (node Y (p - 1)) (node Y p)) as [Hc|Hc].
          * exists p. splits; auto; try (intros; lia).
          * destruct (IHd (S p) ltac:(lia) ltac:(lia)) as [r (R1 & R2 & R3)].
            exists r. splits; auto; try lia. intros k Hk. left.
            destruct (Nat.eq_dec k p) as [->|]; auto.
            destruct (R3 k ltac:(lia)) as [R|]; [|lia].
            replace (S p - 1)%nat with p in R by lia. lra. }
    destruct Hleft as [q (Q1 & Q2 & Q3)]. destruct Hright as [r (R1 & R2 & R3)].
    assert (Hq := Hcut q ltac:(lia) ltac:(tauto)).
    assert (Hr := Hcut r ltac:(lia) ltac:(tauto)).
    destruct (Nat.eq_dec q p) as [->|Hqp]; [lra|].
    destruct (Nat.eq_dec r p) as [->|Hrp]; [lra|].
    set (y := node Y (p - 1)) in *.
    assert (HYl : bsum (node Y) p = bsum (node Y) q + INR (p - q) * y).
    { rewrite (bsum_split_le _ q p) by lia. f_equal. rewrite <- bsum_const.
      apply bsum_ext. intros; apply Q3; lia. }
    assert (HYr : bsum (node Y) r <= bsum (node Y) p + INR (r - p) * y).
    { rewrite (bsum_split_le _ p r) by lia. apply Rplus_le_compat_l. rewrite <- bsum_const.
      apply bsum_le. intros k Hk. destruct (R3 (p + k)%nat ltac:(lia)); [auto|lia]. }
    (* X: the last temperature before p bounds both sides *)
    set (x := node X (p - 1)) in *.
    assert (HXl : bsum (node X) p <= bsum (node X) q + INR (p - q) * x).
    { rewrite (bsum_split_le _ q p) by lia. apply Rplus_le_compat_l. rewrite <- bsum_const.
      apply bsum_le. intros k Hk. unfold x. apply stratified_le; auto; lia. }
    assert (HXr : bsum (node X) p + INR (r - p) * x <= bsum (node X) r).
    { rewrite (bsum_split_le _ p r) by lia. apply Rplus_le_compat_l. rewrite <- bsum_const.
      apply bsum_le. intros k Hk. unfold x. apply stratified_le; auto; lia. }
    assert (0 < INR (p - q)) by (apply lt_0_INR; lia).
    assert (0 < INR (r - p)) by (apply lt_0_INR; lia).
    assert (y < x) by nra. nra. }
  assert (Heq : forall p, (p <= n)%nat -> bsum (node A) p = bsum (node B) p).
  { intros p Hp. apply Rle_antisym; apply Hle; auto. }
  apply list_eq_node; [lia|]. intros k Hk.
  assert (H1 := Heq (S k) ltac:(lia)). assert (H2 := Heq k ltac:(lia)). cbn [bsum] in H1. lra.
Qed.

Lemma mixed_isotonic A B : mixed_of A B -> stratified B -> isotonic_of A B.
Proof.
  intros H Hs. assert (L := mo_len _ _ H). constructor; auto.
  - rewrite !Rsum_bsum, L. apply (mo_sum _ _ H).
  - intros p Hp. rewrite !below_bsum by lia. apply (mo_up _ _ H); auto.
  - intros p Hp Hlt. rewrite !below_bsum by lia. apply (mo_cut _ _ H); auto.
Qed.
Lemma isotonic_core A B : isotonic_of A B -> mixed_core A B.
Proof.
  intros H. assert (L := io_len _ _ H). constructor; auto.
  - rewrite <- !below_bsum by lia. unfold below. rewrite <- L at 1. rewrite !firstn_all. apply (io_sum _ _ H).
  - intros p Hp. rewrite <- !below_bsum by lia. apply (io_up _ _ H); auto.
  - intros p Hp Hlt. rewrite <- !below_bsum by lia. apply (io_cut _ _ H); auto.
Qed.
Lemma isotonic_unique Ts0 A B : isotonic_of Ts0 A -> isotonic_of Ts0 B -> A = B.
Proof.
  intros HA HB. apply (mixed_unique Ts0); try apply isotonic_core; auto; [apply (io_strat _ _ HA)|apply (io_strat _ _ HB)].
Qed.
