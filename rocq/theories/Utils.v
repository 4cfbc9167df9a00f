(** Distributions and vector utilities.
    Models /repo/src/HPWH.hh:357-529 (WeightedDistribution, Distribution) and
    /repo/src/HPWHUtils.cc:14-248. *)

From Coq Require Import ZArith String List Bool.
From Verif Require Import Num Base Units Types.
Import ListNotations.
Local Open Scope string_scope.

(** checked division: a zero divisor is a distinct outcome at the real instance; at the
    double instance the IEEE quotient (infinity or NaN) is produced, as in the code *)
Definition div_chk {T} `{Num T} (a b : T) : outc T :=
  if ndivok b then Ok (ndiv a b) else UB "division by zero".

Section Utils.
  Context {T : Type} `{Num T}.
  Local Open Scope num_scope.

  (** loop [for (i) v[i] = f(i, v[i])] touching only position i in iteration i *)
  Fixpoint mapi_from (i : nat) (f : nat -> T -> T) (l : list T) : list T :=
    match l with
    | [] => []
    | x :: r => f i x :: mapi_from (S i) f r
    end.
  Definition mapi (f : nat -> T -> T) (l : list T) : list T := mapi_from 0 f l.

  (** ** WeightedDistribution *)

  (** HPWH.hh:373-384, constructor from heights and weights: pairs up to the shorter length *)
  Definition wd_make (heights weights : list T) : wdist T := combine heights weights.

  (** HPWH.hh:387-408, constructor from a node distribution *)
  Fixpoint wd_of_nodes_from (nN : T) (node_sum : T) (i : nat) (l : list T) : wdist T :=
    match l with
    | [] => []
    | [x] => [(nofN (S i) / nN, nN * x / node_sum)]
    | x :: ((y :: _) as r) =>
        let pt := (nofN (S i) / nN, nN * x / node_sum) in
        let rest := wd_of_nodes_from nN node_sum (S i) r in
        if nneqb x y then pt :: rest else rest
    end.
  Definition wd_of_nodes (l : list T) : wdist T :=
    wd_of_nodes_from (nofN (length l)) (nsum l) 0 l.

  (** HPWH.hh:410 maximumHeight: back().height (meaningless on an empty distribution) *)
  Definition wd_maxHeight (w : wdist T) : T := fst (last w (#0, #0)).

  (** HPWH.hh:412-418 *)
  Definition wd_maxWeight (w : wdist T) : T :=
    fold_left (fun res p => nmax (snd p) res) w #0.

  (** HPWH.hh:421-433 *)
  Definition wd_totalWeight (w : wdist T) : T :=
    let '(total, prevH) :=
      fold_left (fun '(total, prevH) '(h, wt) => (total + wt * (h - prevH), h)) w (#0, #0) in
    total / prevH.

  (** HPWH.hh:436-437 *)
  Definition wd_fractionalHeight (w : wdist T) (i : nat) : T :=
    fst (nth i w (#0, #0)) / wd_maxHeight w.
  Definition wd_fractionalWeight (w : wdist T) (i : nat) : T :=
    snd (nth i w (#0, #0)) / wd_maxWeight w.

  (** HPWH.hh:439-452 *)
  Definition wd_isValid (w : wdist T) : bool :=
    let '(hasW, sorted, _) :=
      fold_left (fun '(hasW, sorted, prevH) '(h, wt) =>
                   (hasW || (wt >? #0), sorted && (h >? prevH), h)%bool) w (false, true, #0) in
    (match w with [] => false | _ => true end && hasW && sorted)%bool.

  (** HPWH.hh:455-477; [maxH] is maximumHeight() *)
  Fixpoint wd_normW_loop (maxH beginF endF prevF res : T) (w : wdist T) : T :=
    match w with
    | [] => res
    | (h, wt) :: r =>
        let frac := h / maxH in
        if frac <? beginF then wd_normW_loop maxH beginF endF prevF res r
        else if frac >? prevF then
          if frac >? endF then res + wt * (endF - prevF)
          else wd_normW_loop maxH beginF endF frac (res + wt * (frac - prevF)) r
        else wd_normW_loop maxH beginF endF frac res r
    end.
  Definition wd_normalizedWeight (w : wdist T) (beginF endF : T) : T :=
    wd_normW_loop (wd_maxHeight w) beginF endF beginF #0 w / wd_totalWeight w.

  (** HPWH.hh:480-490 *)
  Fixpoint wd_lowest_loop (maxH prevH : T) (w : wdist T) : T :=
    match w with
    | [] => #0
    | (h, wt) :: r => if wt >? #0 then prevH / maxH else wd_lowest_loop maxH h r
    end.
  Definition wd_lowestNormalizedHeight (w : wdist T) : T :=
    wd_lowest_loop (wd_maxHeight w) #0 w.

  (** ** Resampling *)

  (** HPWHUtils.cc:34-45, the loop of getResampledValue; [vals] = sampleValues from [index] on *)
  Fixpoint resampled_loop (nN endF : T) (vals : list T) (index : nat)
           (prevF nextF totV totW : T) : outc (T * T) :=
    if nextF <? endF then
      match vals with
      | [] => UB "sampleValues[index] out of range"
      | x :: r =>
          let nextF1 := nofN (S index) / nN in
          let nextF2 := if nextF1 >? endF then endF else nextF1 in
          let weight := nextF2 - prevF in
          resampled_loop nN endF r (S index) nextF2 nextF2 (totV + weight * x) (totW + weight)
      end
    else Ok (totV, totW).

  (** HPWHUtils.cc:15-50 getResampledValue *)
  Definition getResampledValue (vals : list T) (beginF0 endF0 : T) : outc T :=
    let '(b1, e1) := if beginF0 >? endF0 then (endF0, beginF0) else (beginF0, endF0) in
    let b := if b1 <? #0 then #0 else b1 in
    let e := if e1 >? #1 then #1 else e1 in
    let nN := nofN (length vals) in
    let beginIndex := Z.to_nat (ntrunc (b * nN)) in
    obind (resampled_loop nN e (skipn beginIndex vals) beginIndex b b #0 #0)
          (fun '(totV, totW) => Ok (if totW >? #0 then totV / totW else #0)).

  (** HPWHUtils.cc:62-87, the while loop of resample; every iteration must advance [index], which
      the fuel (number of values) accounts for *)
  Fixpoint resample_loop (fuel : nat) (sizeRatio : T) (binSize : nat) (samples : list T)
           (index : nat) (beginF : T) (values : list T) : outc (list T) :=
    if Nat.ltb index (length values) then
      match fuel with
      | O => NoFuel
      | S fuel' =>
          let actualSize := nofN (length values) in
          let value := nofN index in
          let sampleIndex := Z.to_nat (nfloor (value * sizeRatio)) in
          if (nofN sampleIndex + #1) <? ((value + #1) * sizeRatio) then
            let endF := nofN (S index) / actualSize in
            obind (getResampledValue samples beginF endF) (fun v =>
            resample_loop fuel' sizeRatio binSize samples (S index) endF (upd values index v))
          else
            let '(beginIndex, adj) :=
              if Nat.ltb 1 binSize then
                (Z.to_nat (nceil (nofN sampleIndex / sizeRatio)),
                 Z.to_nat (ntrunc (nofZ (nfloor (nofN (S sampleIndex) / sizeRatio))
                                   - nofZ (nceil (nofN sampleIndex / sizeRatio)))))
              else (index, binSize) in
            if Nat.leb (length samples) sampleIndex then UB "sampleValues[sampleIndex] out of range"
            else if Nat.ltb (length values) (beginIndex + adj) then UB "fill_n past the end"
            else
              let values' := fillN values beginIndex adj (nget samples sampleIndex) in
              let index' := (beginIndex + adj)%nat in
              resample_loop fuel' sizeRatio binSize samples index' (nofN index' / actualSize) values'
      end
    else Ok values.

  (** HPWHUtils.cc:53-88 resample (= resampleIntensive, HPWH.hh) *)
  Definition resample (values samples : list T) : outc (list T) :=
    match samples with
    | [] => Ok values
    | _ =>
        let actualSize := nofN (length values) in
        let sizeRatio := nofN (length samples) / actualSize in
        let binSize := Z.to_nat (ntrunc (#1 / sizeRatio)) in
        resample_loop (length values) sizeRatio binSize samples 0 #0 values
    end.

  (** HPWHUtils.cc:91-97 *)
  Definition resampleExtensive (values samples : list T) : outc (list T) :=
    obind (resample values samples) (fun vs =>
    let scale := nofN (length samples) / nofN (length values) in
    Ok (map (fun v => v * scale) vs)).

  (** ** Normalisation and thermal distribution *)

  (** HPWHUtils.cc:100-105 *)
  Definition expitFunc (x offset : T) : T := #1 / (#1 + nexp (x - offset)).

  (** HPWHUtils.cc:117-145, one pass of the while loop; the flag is normalization_needed *)
  Definition normalize_pass (d : list T) : list T * bool :=
    let s := nsum d in
    if s >? #0 then
      (map (fun x => let y := x / s in if y <? TOL_MINVALUE then #0 else y) d,
       existsb (fun x => let y := x / s in (y <? TOL_MINVALUE) && (y >? #0))%bool d)
    else (map (fun _ => #0) d, false).
  (** HPWHUtils.cc:108-147 normalize *)
  Fixpoint normalize (fuel : nat) (d : list T) : outc (list T) :=
    match fuel with
    | O => NoFuel
    | S fuel' =>
        let '(d', again) := normalize_pass d in
        if again then normalize fuel' d' else Ok d'
    end.

  (** HPWHUtils.cc:150-159 findLowestNode.  [j / numTankNodes] is an integer division and is
      therefore 0 for every j in the loop *)
  Fixpoint findLowest_loop (w : wdist T) (n : nat) (j : nat) (k : nat) : nat :=
    match k with
    | O => 0%nat
    | S k' =>
        if wd_normalizedWeight w (nofN (Nat.div j n)) ((nofN j + #1) / nofN n) >? #0 then j
        else findLowest_loop w n (S j) k'
    end.
  Definition findLowestNode (w : wdist T) (n : nat) : nat := findLowest_loop w n 0 n.

  (** HPWHHeatSource.hh CONDENSITY_SIZE *)
  Definition CONDENSITY_SIZE : nat := 12.

  (** HPWHUtils.cc:162-182 findShrinkageT_C *)
  Definition findShrinkageT (w : wdist T) (n : nat) : T :=
    let '(condentropy, _) :=
      fold_left (fun '(ce, fracBegin) i =>
                   let fracEnd := nofN (S i) / nofN n in
                   let dist := wd_normalizedWeight w fracBegin fracEnd in
                   (if dist >? #0 then ce - dist * nln dist else ce, fracEnd))
                (seq 0 n) (#0, #0) in
    let size_factor := nofN n / nofN CONDENSITY_SIZE in
    #1 + (condentropy - nln size_factor) * #2.

  (** HPWHUtils.cc:198-207, the entry of node i *)
  Definition thermalEntry (shrink : T) (lowest : nat) (Ts : list T) (setpoint : T) (i : nat) : T :=
    if Nat.leb lowest i then
      let offset := (#5 / dec 18 10) / #1 in
      let dist := expitFunc ((nget Ts i - nget Ts lowest) / shrink) offset in
      let dist := dist * (setpoint - nget Ts i) in
      if dist <? #0 then #0 else dist
    else #0.

  (** HPWHUtils.cc:185-220 calcThermalDist.  Simplified: a zero [shrink] (division by zero) is the
      outcome UB at the real instance even if no node is at or above [lowest]. *)
  Definition calcThermalDist (fuel : nat) (shrink : T) (lowest : nat) (Ts : list T) (setpoint : T)
    : outc (list T) :=
    if ndivok shrink then
      let d := map (thermalEntry shrink lowest Ts setpoint) (seq 0 (length Ts)) in
      let tot := nsum d in
      if tot >? #0 then normalize fuel d
      else Ok (map (fun _ => #1 / nofN (length Ts)) d)
    else UB "division by zero".

  (** HPWHUtils.cc:223-232 *)
  Definition scaleVector (c : list T) (f : T) : list T :=
    if nneqb f #1 then map (fun x => x * f) c else c.

  (** HPWHUtils.cc:235-242 *)
  Definition getChargePerNode (tCold tMix tHot : T) : T :=
    if tHot <? tMix then #0 else (tHot - tCold) / (tMix - tCold).

  (** HPWHUtils.cc:245-248 *)
  Definition linearInterp (xnew x0 x1 y0 y1 : T) : T :=
    y0 + (xnew - x0) * (y1 - y0) / (x1 - x0).
End Utils.
