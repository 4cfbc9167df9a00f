(** Tables of results: what the columns of the CSV output hold..  Statements only; proofs in CsvFacts.v. *)

From Coq Require Import Reals Lra Lia ZArith String List Bool FinFun.
From Verif Require Import Num Base RList Units Types Utils Spec SpecDist SpecState TankM Logic HeatSrc Step Setters Rating Report DistFacts FNum Example.
From Verif Require Import CsvFacts.
Import ListNotations.
Local Open Scope R_scope.
Local Open Scope monad_scope.

(** C95: if the unit has a compressor, the heading lists each column that applies once, and every row has one field for
    each of them, holding the quantity of that column: temperatures in the heading's unit for thermocouples and outlet only, energies in Wh, draws in gallons,
    draw, inlet and outlet empty when nothing is drawn.  The columns of condenser, state of charge and signal show the state at the time of writing
    rather than that of the record; "externalVolGPM" is a volume, not a flow. *)
Theorem C95_table : forall options (w0 w : hpwh R) mp, isExternalMultipass w0 = Ok mp -> isExternalMultipass w = Ok mp -> w_usesSoC w = w_usesSoC w0 -> length (w_hs w) = length (w_hs w0) ->
  exists cols, csvHeading options w0 [] = (Ok tt, cols) /\ NoDup cols /\
    (forall c, In c cols <-> listed (Z.odd options) mp (w_usesSoC w0) (length (w_hs w0)) c) /\
    forall td, (length (w_hs w0) <= length (td_in td))%nat -> (length (w_hs w0) <= length (td_out td))%nat -> (6 <= length (td_tc td))%nat ->
      exists cells, csvRow td options w [] = (Ok tt, cells) /\ Forall2 (shows td w) cols cells.
Proof. exact C95_table_fact. Qed.
Print Assumptions C95_table.

(** Whether the columns of multi-pass units are there is decided by the compressor; a unit without one cannot be written: the heading stops
    after five titles, each row after five fields. *)
Theorem C95_no_compressor : forall options td (w : hpwh R),
  ((w_compIx w < 0)%Z -> (exists e, csvHeading options w [] = (Err e, [ColMinutes; ColTa; ColSetpoint; ColInlet; ColDraw])) /\
     exists e cells, csvRow td options w [] = (Err e, cells) /\ length cells = 5%nat) /\
  (forall h, (0 <= w_compIx w)%Z -> nth_error (w_hs w) (Z.to_nat (w_compIx w)) = Some h -> isExternalMultipass w = Ok (h_multipass h && match h_config h with External => true | _ => false end)%bool).
Proof. exact C95_no_compressor_fact. Qed.
Print Assumptions C95_no_compressor.

(** A record with too few energies or thermocouples is not noticed: the row reads beyond the end of its lists. *)
Theorem C95_short_record : forall options td (w : hpwh R) mp, isExternalMultipass w = Ok mp ->
  (length (td_in td) < length (w_hs w) \/ length (td_out td) < length (w_hs w) \/ length (td_tc td) < 6)%nat -> exists e cells, csvRow td options w [] = (UB e, cells).
Proof. exact C95_short_record_fact. Qed.
Print Assumptions C95_short_record.

(** The writers that take a preamble: rows fit under the heading if the preambles have equally many fields, for every number of thermocouples. *)
Theorem C95_preamble : forall pre pre' nTC options (w : hpwh R), length pre = length pre' -> wf_tank (w_tank w) ->
  exists es ts, csvRow' pre' nTC options w [] = (Ok tt, pre' ++ CInt (w_prevDR w) :: es ++ ts ++
      [if Z.testbit options 1 then CNum (if Z.odd options then 9 / 5 * t_outletT (w_tank w) + 32 else t_outletT (w_tank w)) else CEmpty])%list /\
    (length pre' + S (length es + length ts + 1) = length (csvHeading' pre nTC options w))%nat /\
    length es = (2 * length (w_hs w))%nat /\ length ts = Z.to_nat nTC /\
    (forall i h, nth_error (w_hs w) i = Some h -> nth_error es (2 * i) = Some (CNum (h_eIn h * 1000)) /\ nth_error es (2 * i + 1) = Some (CNum (h_eOut h * 1000))) /\
    (forall k, (k < Z.to_nat nTC)%nat -> exists t, nthThermocouple (Z.of_nat (S k)) nTC (w_tank w) = Ok t /\ nth_error ts k = Some (CNum (if Z.odd options then 9 / 5 * t + 32 else t))).
Proof. exact C95_preamble_fact. Qed.
Print Assumptions C95_preamble.

Example C95_example : exists cols cells, csvHeading 1 (exUnit (T:=R) [20; 30; 45; 50]) [] = (Ok tt, cols) /\ csvRow exData 1 (exUnit (T:=R) [20; 30; 45; 50]) [] = (Ok tt, cells) /\
  Forall2 (shows exData (exUnit (T:=R) [20; 30; 45; 50])) cols cells /\ length cells = 19%nat.
Proof. exact C95_example_fact. Qed.
