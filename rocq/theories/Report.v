(** Tables of results: the CSV writers.  Models /repo/src/HPWH.cc:675-818 and 2277-2285.

    A line is the list of its fields, without the separators.  Column titles are constructors, numbered
    columns start at 1 as in the source.  A number in a field stands for its decimal notation; the number
    of decimals (two or six) is left out.  A writer yields what it has written before it threw. *)

From Coq Require Import ZArith String List Bool.
From Verif Require Import Num Base Units Types Utils TankM Logic HeatSrc Step Setters Rating.
Import ListNotations.
Local Open Scope string_scope.

(** HPWH.cc:688-698, 749-769: the titles; [f] tells (F) from (C) *)
Inductive col : Set :=
| ColMinutes | ColTa | ColSetpoint | ColInlet | ColDraw
| ColCondIn | ColCondOut | ColExtVol | ColTarget | ColSoC | ColDR
| ColIn (i : nat) | ColOut (i : nat) | ColTC (i : nat) (f : bool) | ColOutlet (f : bool).

(** HPWH.hh:350-355 enum CSVOPTIONS, a bit set *)
Definition CSVOPT_IPUNITS : Z := 1.
Definition CSVOPT_IS_DRAWING : Z := 2.
Definition csv_has (b o : Z) : bool := negb (Z.eqb (Z.land o b) 0).

Section Report.
  Context {T : Type} `{Num T}.
  Local Open Scope num_scope.
  Notation W := (hpwh T).

  (** a field of a row *)
  Inductive cell : Type := CInt (z : Z) | CNum (x : T) | CEmpty.

  (** the writers append to a stream: the state of this monad *)
  Definition emit {A} (l : list A) : M (list A) unit := modify (fun s => (s ++ l)%list).

  (** HPWH.cc:2277-2285 isCompressorExternalMultipass, Condenser.cc:1279-1282 *)
  Definition isExternalMultipass (w : W) : outc bool :=
    if negb (hasCompressor w) then noCompressor
    else obind (compressor w) (fun h => Ok (h_multipass h && match h_config h with External => true | _ => false end)%bool).

  Local Open Scope monad_scope.

  (** HPWH.cc:754-768 *)
  Definition sourceCols (n : nat) : list col := flat_map (fun i => [ColIn (S i); ColOut (S i)]) (seq 0 n).
  Definition tcCols (n : nat) (ip : bool) : list col := map (fun i => ColTC (S i) ip) (seq 0 n).

  (** HPWH.cc:745-770 writeCSVHeading(std::ostream*, int) *)
  Definition csvHeading (options : Z) (w : W) : M (list col) unit :=
    let ip := csv_has CSVOPT_IPUNITS options in
    emit [ColMinutes; ColTa; ColSetpoint; ColInlet; ColDraw] ;;
    mp <- lift (isExternalMultipass w) ;;
    emit (if mp : bool then [ColCondIn; ColCondOut; ColExtVol] else []) ;;
    emit (if w_usesSoC w then [ColTarget; ColSoC] else []) ;;
    emit [ColDR] ;;
    emit (sourceCols (numHS w)) ;;
    emit (tcCols 6 ip) ;;
    emit [ColOutlet ip].

  (** std::vector operator[] *)
  Definition at_ (l : list T) (i : nat) : outc T :=
    match nth_error l i with Some x => Ok x | None => UB "vector index out of range" end.

  (** HPWH.cc:801-807 *)
  Definition sourceCells (td : testData (T:=T)) (i : nat) : M (list cell) unit :=
    a <- lift (at_ (td_in td) i) ;;
    b <- lift (at_ (td_out td) i) ;;
    emit [CNum (a * #1000); CNum (b * #1000)].
  (** HPWH.cc:809-815 *)
  Definition tcCell (ip : bool) (td : testData (T:=T)) (i : nat) : M (list cell) unit :=
    x <- lift (at_ (td_tc td) i) ;;
    emit [CNum (if ip then C_TO_F x else x)].

  (** HPWH.cc:772-818 writeCSVRow(std::ostream*, TestData&, int).  Time, weather, draw, energies and
      temperatures come from [td]; condenser, state of charge and signal from the simulator. *)
  Definition csvRow (td : testData (T:=T)) (options : Z) (w : W) : M (list cell) unit :=
    let ip := csv_has CSVOPT_IPUNITS options in
    let drawing := td_draw td >? #0 in
    emit [CInt (td_time td); CNum (td_amb td); CNum (td_setpoint td)] ;;
    emit [if drawing then CNum (td_inlet td) else CEmpty] ;;
    emit [if drawing then CNum (L_TO_GAL (td_draw td)) else CEmpty] ;;
    mp <- lift (isExternalMultipass w) ;;
    (if mp : bool then
       ci <- lift (getCondInletTemp U_C w) ;;
       emit [CNum ci] ;;
       co <- lift (getCondOutletTemp U_C w) ;;
       emit [CNum co] ;;
       v <- lift (getExternalVolumeHeated U_GAL w) ;;
       emit [CNum v]
     else ret tt) ;;
    emit (if w_usesSoC w then [CNum (w_targetSoC w); CNum (w_SoC w)] else []) ;;
    emit [CInt (w_prevDR w)] ;;
    forM (seq 0 (numHS w)) (sourceCells td) ;;
    forM (seq 0 6) (tcCell ip td) ;;
    emit [if drawing then CNum (if ip then C_TO_F (td_outlet td) else td_outlet td) else CEmpty].

  (** HPWH.cc:677-702 writeCSVHeading(std::ofstream&, const char*, int, int); the preamble is the list of
      fields it contains, each followed by its separator *)
  Definition csvHeading' (preamble : list col) (nTC : Z) (options : Z) (w : W) : list col :=
    let ip := csv_has CSVOPT_IPUNITS options in
    (preamble ++ [ColDR] ++ sourceCols (numHS w) ++ tcCols (Z.to_nat nTC) ip ++ [ColOutlet ip])%list.

  (** HPWH.cc:704-742 writeCSVRow(std::ofstream&, const char*, int, int) *)
  Definition csvRow' (preamble : list cell) (nTC : Z) (options : Z) (w : W) : M (list cell) unit :=
    let ip := csv_has CSVOPT_IPUNITS options in
    emit preamble ;;
    emit [CInt (w_prevDR w)] ;;
    forM (seq 0 (numHS w)) (fun i =>
      a <- lift (getNthEnergyInput (Z.of_nat i) U_KWH w) ;;
      b <- lift (getNthEnergyOutput (Z.of_nat i) U_KWH w) ;;
      emit [CNum (a * #1000); CNum (b * #1000)]) ;;
    forM (seq 0 (Z.to_nat nTC)) (fun i =>
      x <- lift (nthThermocouple (Z.of_nat i + 1) nTC (w_tank w)) ;;
      x' <- lift (tempFromC x (if ip then U_F else U_C)) ;;
      emit [CNum x']) ;;
    emit [if csv_has CSVOPT_IS_DRAWING options
         then CNum (if ip then C_TO_F (t_outletT (w_tank w)) else t_outletT (w_tank w)) else CEmpty].
End Report.
Arguments cell T : clear implicits.
