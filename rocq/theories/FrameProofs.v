(** What the tank operations can change, for every number type and every outcome. *)

From Coq Require Import ZArith List Bool Lia.
From Verif Require Import Num Base Units Utils Types TankM.
Import ListNotations.

Section Frame.
  Context {T : Type} `{Num T}.

  (** only node temperatures (not their number), standby losses and outlet temperature may differ *)
  Definition tframe (t t' : tank T) : Prop :=
    length (t_Ts t') = length (t_Ts t) /\
    t' = set_t_stby (t_stby t') (set_t_outletT (t_outletT t') (set_t_Ts (t_Ts t') t)).
  Lemma tframe_refl t : tframe t t.
  Proof. split; auto. destruct t; reflexivity. Qed.
  Lemma tframe_trans a b c : tframe a b -> tframe b c -> tframe a c.
  Proof. intros [H1 H2] [H3 H4]. split; [congruence|]. rewrite H4, H2. reflexivity. Qed.
  Lemma tframe_Ts t Ts : length Ts = length (t_Ts t) -> tframe t (set_t_Ts Ts t).
  Proof. intros. split; auto. Qed.

  Lemma mixPass_length mass i : forall Ts inv, length (fst (mixPass mass i Ts inv)) = length Ts.
  Proof.
    induction i; intros Ts inv; cbn [mixPass]; auto.
    destruct (nltb _ _); auto. destruct (mixScan _ _ _ _ _). rewrite IHi. apply fillN_length.
  Qed.
  Lemma mixLoop_length mass fuel : forall Ts Ts', mixLoop fuel mass Ts = Ok Ts' -> length Ts' = length Ts.
  Proof.
    induction fuel; intros Ts Ts' E; cbn [mixLoop] in E; [discriminate|].
    pose proof (mixPass_length mass (length Ts - 1) Ts false) as HL.
    destruct (mixPass _ _ _ _) as [Ts1 []]; cbn in HL.
    - rewrite (IHfuel _ _ E); auto.
    - congruence.
  Qed.
  Lemma mixLoop_no_err mass fuel : forall Ts,
    (exists Ts', mixLoop fuel mass Ts = Ok Ts') \/ mixLoop fuel mass Ts = NoFuel.
  Proof.
    induction fuel; intros Ts; cbn [mixLoop]; auto. destruct (mixPass _ _ _ _) as [Ts1 []]; eauto.
  Qed.
  Lemma mixInversions_frame fuel : pres tframe (mixInversions fuel).
  Proof.
    intros t. unfold mixInversions, bind, get, lift, modify, ret.
    destruct (t_doMix t); [|apply tframe_refl].
    destruct (mixLoop fuel _ (t_Ts t)) eqn:E; try apply tframe_refl.
    apply tframe_Ts. eapply mixLoop_length; eauto.
  Qed.
  Lemma mixInversions_no_err fuel t :
    (exists t', mixInversions fuel t = (Ok tt, t')) \/ mixInversions fuel t = (NoFuel, t).
  Proof.
    unfold mixInversions, bind, get, lift, modify, ret. destruct (t_doMix t); eauto.
    match goal with |- context [mixLoop fuel ?m ?Ts] => destruct (mixLoop_no_err m fuel Ts) as [[Ts' ->]| ->] end; eauto.
  Qed.

  Lemma drawSweep_len p v k : forall fr Ts, length (drawSweep p v k fr Ts) = length Ts.
  Proof.
    induction k; intros fr Ts; cbn [drawSweep]; auto.
    destruct (Z.eqb (Z.of_nat k) (i_hiN p)); destruct (Z.eqb (Z.of_nat k) (i_loN p)); rewrite IHk;
      destruct k; rewrite ?upd_length; auto.
  Qed.
  Lemma drawIncr_len p cp v Ts : length (snd (drawIncr p cp v Ts)) = length Ts.
  Proof. unfold drawIncr. cbn. rewrite drawSweep_len, upd_length. reflexivity. Qed.
  Lemma hxDraw_len dCp nCp eff : forall Ts o, length (fst (hxDraw dCp nCp eff Ts o)) = length Ts.
  Proof.
    induction Ts; intros o; cbn [hxDraw]; auto.
    match goal with |- context [hxDraw dCp nCp eff Ts ?o'] => specialize (IHTs o'); destruct (hxDraw dCp nCp eff Ts o') end.
    cbn in *. congruence.
  Qed.

  Local Hint Resolve tframe_refl tframe_trans mixInversions_frame tframe_Ts : frame.

  Lemma drawLoop_frame fuel mf p : forall rem e, pres tframe (drawLoop fuel mf p rem e).
  Proof.
    induction fuel; intros rem e t; cbn [drawLoop].
    - destruct (nltb _ _); apply tframe_refl.
    - destruct (nltb _ _); [|apply tframe_refl].
      unfold bind at 1, get at 1. cbv beta iota.
      pose proof (drawIncr_len p (t_nodeCp t) (if nltb (nofZ 1) rem then nofZ 1 else rem) (t_Ts t)) as HL.
      destruct (drawIncr _ _ _ _) as [o Ts1]; cbn in HL.
      unfold bind at 1, modify at 1. cbv beta iota.
      eapply tframe_trans; [apply (tframe_Ts t Ts1 HL)|].
      apply (pres_bind tframe tframe_trans); auto with frame.
  Qed.

  Lemma tframe_outlet t x : tframe t (set_t_outletT x t).
  Proof. split; auto. Qed.
  Lemma tframe_stby t x : tframe t (set_t_stby x t).
  Proof. split; auto. Qed.
  Lemma mapi_from_len (f : nat -> T -> T) l : forall i, length (mapi_from i f l) = length l.
  Proof. induction l; intros i; cbn; auto. Qed.
  Lemma mapi_len (f : nat -> T -> T) l : length (mapi f l) = length l.
  Proof. apply mapi_from_len. Qed.

  Lemma drawPhase_frame fuel draw inT v2 inT2 : pres tframe (drawPhase fuel draw inT v2 inT2).
  Proof.
    intros t. unfold drawPhase. destruct (nltb _ draw); [|apply tframe_refl].
    destruct (nltb draw v2); [apply tframe_refl|].
    unfold bind at 1, get at 1. cbv beta iota.
    apply (pres_bind_at tframe tframe_trans).
    - destruct (t_hasHX t).
      + pose proof (hxDraw_len (nmul (nmul CPWATER DENSITYWATER) draw) (t_nodeCp t) (t_nodeHxEff t) (t_Ts t) inT) as HL.
        destruct (hxDraw _ _ _ (t_Ts t) inT) as [Ts o]. cbn in HL |- *. split; auto.
      + destruct (t_Ts t); [apply tframe_refl|].
        apply (pres_bind_at tframe tframe_trans); [apply drawLoop_frame|]. intros. intros s. apply tframe_outlet.
    - intros []. intros u. unfold bind, get. destruct (t_mixesOnDraw u); [|apply tframe_refl].
      destruct (Z.ltb _ _); [apply tframe_refl|]. apply tframe_Ts. cbn. apply mapi_len.
  Qed.

  Lemma standbyTs_len t hours amb : length (standbyTs t hours amb) = length (t_Ts t).
  Proof. unfold standbyTs. rewrite mapi_len, !upd_length. reflexivity. Qed.
  Lemma conductTs_len tau Ts next : length (conductTs tau Ts next) = length next.
  Proof. unfold conductTs. rewrite mapi_len. destruct (Nat.ltb _ _); rewrite ?upd_length; reflexivity. Qed.
  Lemma standbyPhase_frame fuel hours seconds amb : pres tframe (standbyPhase fuel hours seconds amb).
  Proof.
    intros t. unfold standbyPhase. unfold bind at 1, get at 1. cbv beta iota.
    destruct (t_Ts t) as [|x r] eqn:E; [apply tframe_refl|]. rewrite <- E.
    destruct (t_doCond t && _)%bool; [apply tframe_refl|].
    apply (pres_bind_at tframe tframe_trans).
    - split; [|reflexivity]. cbn [set_t_stby set_t_Ts t_Ts modify snd]. destruct (t_doCond t); rewrite ?conductTs_len, standbyTs_len; reflexivity.
    - intros []. apply mixInversions_frame.
  Qed.
  Lemma updateNodes_frame fuel hours seconds draw inT amb v2 inT2 :
    pres tframe (updateNodes fuel hours seconds draw inT amb v2 inT2).
  Proof.
    apply (pres_bind tframe tframe_trans); [apply drawPhase_frame|]. intros []. apply standbyPhase_frame.
  Qed.

  Lemma addHeatLoop_len k cp maxT nd : forall num q Ts, length (snd (addHeatLoop k cp maxT nd num q Ts)) = length Ts.
  Proof.
    induction k; intros num q Ts; cbn [addHeatLoop]; auto. destruct (nltb _ q); auto.
    repeat match goal with |- context [if ?c then (_, _) else _] => destruct c end; rewrite IHk, ?fillN_length; auto.
  Qed.
  Lemma addHeatAboveNode_frame q nd maxT : pres tframe (addHeatAboveNode q nd maxT).
  Proof.
    intros t. unfold addHeatAboveNode, bind, get, addHeatAboveNode_list.
    match goal with |- context [addHeatLoop ?k ?cp ?m ?nd ?num ?q ?Ts] =>
      pose proof (addHeatLoop_len k cp m nd num q Ts) as HL; destruct (addHeatLoop k cp m nd num q Ts) as [q' Ts'] end.
    cbn in *. apply tframe_Ts; auto.
  Qed.
  Lemma addExtraLoop_len k cp nd : forall num q Ts, length (snd (addExtraLoop k cp nd num q Ts)) = length Ts.
  Proof.
    induction k; intros num q Ts; cbn [addExtraLoop]; auto. destruct (nltb _ q); auto.
    match goal with |- context [if nltb q ?a then (?x, ?y) else ?z] => destruct (nltb q a) end;
      [|match goal with |- context [if nltb (nofZ 0) ?a then (?x, ?y) else ?z] => destruct (nltb (nofZ 0) a) end];
      rewrite IHk, ?fillN_length; auto.
  Qed.
  Lemma addExtraHeatAboveNode_frame q nd : pres tframe (addExtraHeatAboveNode q nd).
  Proof. intros t. apply tframe_Ts. apply addExtraLoop_len. Qed.
End Frame.
