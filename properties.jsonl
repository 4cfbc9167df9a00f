{"id": "C01", "title": "Inversion mixing terminates, stratifies and conserves heat", "statement": "For every temperature profile of n nodes, mixing inversions finishes after at most n*n+1 passes, leaves every node at least as warm as the node below it, and leaves the stored heat (and the reported heat content) unchanged.", "quantifier": "every number of nodes, every profile of node temperatures, every positive volume", "why_tests_cant": "the loop repeats until no inversion is left and a mix can create a new inversion above itself; no finite set of profiles shows that this always stops", "anchors": ["src/Tank.cc: Tank::mixInversions"]}
{"id": "C02", "title": "Inversion mixing moves heat only upward and only as far as needed", "statement": "After mixing inversions, the heat stored above any level is at least what it was before, and no heat has crossed a level at which the mixed profile still has a strict temperature step. Together with C01 this determines the result uniquely, independent of the order in which inversions are processed.", "quantifier": "every number of nodes, every profile, every level", "why_tests_cant": "the claim characterises the result for all profiles; a test only compares one profile with one hand-computed result", "anchors": ["src/Tank.cc: Tank::mixInversions"]}
{"id": "C03", "title": "Inversion mixing respects the temperature range and leaves stratified tanks alone", "statement": "Mixing never produces a node hotter than the hottest or colder than the coldest node before mixing, and a tank that is already stratified is left exactly as it is (so mixing twice equals mixing once).", "quantifier": "every profile", "why_tests_cant": "universally quantified over profiles", "anchors": ["src/Tank.cc: Tank::mixInversions"]}
{"id": "C04", "title": "A draw conserves energy", "statement": "The reported heat content is the heat stored in the nodes. For a tank without heat exchanger, the heat content after the draw phase of a step equals the heat content before, plus the heat of the inlet water (both inlets, by volume), minus the heat of the drawn volume at the reported outlet temperature.", "quantifier": "every profile, draw volume (including several tank volumes), inlet heights, inlet temperatures and inlet-2 volume not exceeding the draw", "why_tests_cant": "energy conservation over an arbitrary number of one-node increments interleaved with mixing", "anchors": ["src/Tank.cc: Tank::updateNodes"]}
{"id": "C05", "title": "Draws cannot create temperature extremes", "statement": "For a tank without heat exchanger whose inlets are at existing nodes, after the draw phase every node temperature and the reported outlet temperature lie between the least and the greatest of the previous node temperatures and the temperatures of the inlets in use.", "quantifier": "every profile, volume, inlet configuration", "why_tests_cant": "a maximum principle over all inputs", "anchors": ["src/Tank.cc: Tank::updateNodes"]}
{"id": "C06", "title": "Draw phase: no draw, and over-large second inlet", "statement": "With a draw volume of zero (or negative) the draw phase leaves the tank and the outlet temperature untouched; a second-inlet volume larger than a positive draw is rejected with an error before any node is changed.", "quantifier": "every tank state and every argument value, including non-finite floating-point values", "why_tests_cant": "all argument values including NaN", "anchors": ["src/Tank.cc: Tank::updateNodes"]}
{"id": "C07", "title": "The draw loop terminates", "statement": "In exact arithmetic the draw loop finishes for every draw volume within ceil(volume / node volume) increments.  In double precision it does not: for a draw of 2^54 node volumes the loop never ends.", "quantifier": "every draw volume and profile", "why_tests_cant": "termination", "anchors": ["src/Tank.cc: Tank::updateNodes"]}
{"id": "C08", "title": "Heat-exchanger draws conserve energy and stay in range", "statement": "For a tank with a heat exchanger, the heat lost by the nodes during a draw equals the heat gained by the drawn water between inlet and outlet; the outlet temperature lies between the inlet temperature and the extreme node temperatures, and as long as one node's exchange does not exceed its heat capacity no node leaves that range either.", "quantifier": "every profile, volume, effectiveness in [0,1]", "why_tests_cant": "conservation over every profile", "anchors": ["src/Tank.cc: Tank::updateNodes", "src/Tank.cc: Tank::calcSizeConstants"]}
{"id": "C09", "title": "Standby losses and conduction balance exactly", "statement": "The standby phase of a step changes the tank heat content by exactly minus the reported standby losses; conduction between nodes moves heat but neither creates nor destroys it.", "quantifier": "every profile, UA, fittings UA, ambient temperature, step length, with and without conduction", "why_tests_cant": "conservation over all states", "anchors": ["src/Tank.cc: Tank::updateNodes"]}
{"id": "C10", "title": "Standby phase respects the temperature range of a stratified tank", "statement": "Starting from a stratified profile, if the conduction number plus the per-step loss fractions of an end node do not exceed one, no node ends up hotter than the hottest of nodes and ambient or colder than the coldest. The stability check made by the code (conduction number at most one) alone does not guarantee this: there is an accepted configuration in which a node leaves the range.", "quantifier": "every stratified profile and every parameter set within the stated limit; plus one witness outside it", "why_tests_cant": "maximum principle", "anchors": ["src/Tank.cc: Tank::updateNodes"]}
{"id": "C11", "title": "Partial mixing at the bottom conserves heat, range and order", "statement": "Mixing the bottom fraction of the tank on a draw conserves heat content, stays within the range of the mixed nodes and keeps a stratified tank stratified, for every mixing fraction in [0,1]; only nodes below the mixing level change.", "quantifier": "every profile, mixing level and factor in [0,1]", "why_tests_cant": "all profiles", "anchors": ["src/Tank.cc: Tank::mixNodes"]}
{"id": "C12", "title": "Adding heat above a node: conservation, limit and leftover", "statement": "For a profile that is stratified from the heated node upward, adding heat returns a leftover between zero and the offered heat; the heat content rises by exactly offered minus leftover; no node ends above the larger of its old temperature and the limit; no node cools down; nodes below the heated node are untouched; and the tank stays stratified.", "quantifier": "every profile, node, offered heat and limit", "why_tests_cant": "all profiles and heats", "anchors": ["src/Tank.cc: Tank::addHeatAboveNode"]}
{"id": "C13", "title": "Adding heat fills from below like water", "statement": "Under the conditions of C12 the result is the water-filling solution: there is one level such that every node at or above the heated node ends at the larger of its old temperature and that level, the level does not exceed the limit if it raises anything, and heat is left over only if every node from the heated one upward is at or above the limit.", "quantifier": "every profile, node, offered heat and limit", "why_tests_cant": "functional characterisation for all inputs", "anchors": ["src/Tank.cc: Tank::addHeatAboveNode"]}
{"id": "C14", "title": "Adding heat to an inverted profile does not conserve energy", "statement": "If inversion mixing is disabled and the profile is inverted above the heated node, adding heat can change the heat content by an amount different from offered minus leftover.", "quantifier": "existence of a profile; shown for the public entry point", "why_tests_cant": "finding by proof search, documents a limit of C12", "anchors": ["src/Tank.cc: Tank::addHeatAboveNode"]}
{"id": "C15", "title": "Distributing a heating capacity over the tank conserves energy", "statement": "When a heat source distributes its capacity over the tank, the heat content rises by exactly capacity minus the returned leftover, the leftover is between zero and the capacity, and no node is heated beyond the smaller of the source's maximum and the setpoint.", "quantifier": "every stratified profile, every non-negative heat distribution summing to one, every capacity", "why_tests_cant": "interaction of withheld, carried and leftover heat over all nodes", "anchors": ["src/HPWHHeatSource.cc: HeatSource::heat", "src/HPWH.cc: HPWH::addHeatAboveNode"]}
{"id": "C16", "title": "Resistance heating accounts for energy and time", "statement": "Over one heating call of a resistance element of positive power: run time is between zero and the time allowed, output equals input equals power times run time, the stored heat rises by exactly that, no node is heated beyond the setpoint, and the element stops early only if a node within its reach is at the setpoint. With power zero the run time is 0/0 (not a number in double precision). With negative power a negative energy output is reported although the water keeps its heat.", "quantifier": "every stratified profile, setpoint, power and duration; negative or zero power included as separate cases", "why_tests_cant": "all states", "anchors": ["src/Resistance.cc: Resistance::addHeat", "src/HPWHHeatSource.cc: HeatSource::heat"]}
{"id": "C17", "title": "Integrated compressor heating accounts for energy and time", "statement": "Over one heating call of a wrapped or submerged condenser: run time is between zero and the time allowed, reported output and input are the output and input power (at the tank temperature the condenser sees) times run time, the stored heat rises by exactly the reported output, and no node is heated beyond the smaller of setpoint and compressor maximum.", "quantifier": "every stratified profile, setpoint and duration; every performance function whose output is not negative at the water temperatures of the profile", "why_tests_cant": "performance map is an arbitrary function", "anchors": ["src/Condenser.cc: Condenser::addHeat"]}
{"id": "C18", "title": "External single-pass heating accounts for energy, volume and time", "statement": "Over one heating call of an external single-pass compressor: the stored heat rises by exactly the reported output energy, heating time never exceeds the time allowed, node temperatures stay within every range that contains the old profile and the delivered temperature, and the volume reported as heated is at least the heat divided by what one litre takes up between the coldest node and the delivered temperature. The reported input lies between the least and the greatest of (compressor input power plus pump power of the secondary heat exchanger) times run time, and likewise the output.", "quantifier": "every profile; every performance function whose output is not negative at the water temperatures between the coldest node and the hotter of the hottest node and the delivered temperature", "why_tests_cant": "loop of arbitrary length with shut-off fractions", "anchors": ["src/Condenser.cc: Condenser::addHeatExternal"]}
{"id": "C19", "title": "External multi-pass heating accounts for energy, volume and time", "statement": "Over one heating call of an external multi-pass compressor: the stored heat rises by exactly the reported output energy, the heating time never exceeds the time allowed, no node ends colder than the coldest before, and the volume reported as heated is the flow rate times the run time. The reported input lies between the least and the greatest of (compressor input power plus pump power) times run time, and likewise the output.", "quantifier": "every profile and flow rate; every performance function whose output is not negative at water temperatures from the coldest node up", "why_tests_cant": "loop of arbitrary length", "anchors": ["src/Condenser.cc: Condenser::addHeatExternalMP"]}
{"id": "C20", "title": "Extra heat is fully delivered", "statement": "User-supplied extra heat with a positive total, or without negative entries, raises the stored heat by exactly its total power times the step length, and the extra-energy output reports the same amount. Extra heat with a negative total is reported as negative energy although the water keeps its heat; entries of both signs that sum to zero heat the water although no energy is reported.", "quantifier": "every stratified profile, every non-negative distribution of any length; witness for the negative part", "why_tests_cant": "all distributions", "anchors": ["src/HPWH.cc: HPWH::addExtraHeat", "src/Tank.cc: Tank::addExtraHeatAboveNode", "src/Tank.cc: Tank::modifyHeatDistribution"]}
{"id": "C21", "title": "A whole simulation step balances energy", "statement": "For a model with resistance elements and integrated or external condensers, after one step the tank heat content equals the previous one plus inlet water heat minus outlet water heat plus heat-source output plus extra heat minus standby losses.", "quantifier": "every tank state with inversion mixing on, every control state, every demand-response signal, every draw; every performance function whose output is not negative at the water temperatures that can occur in the step (those between the coldest and the hottest of old profile, inlets, ambient air and setpoint, or all of them)", "why_tests_cant": "covers every path through source selection, lock-outs, back-ups and followers", "anchors": ["src/HPWH.cc: HPWH::runOneStep"]}
{"id": "C22", "title": "The built-in energy balance check never raises a false alarm", "statement": "Directly after a step (under the conditions of C21) the energy balance check succeeds for every tolerance, zero included; and it fails exactly when the imbalance exceeds the tolerance times the larger of the previous heat content and 1 kJ.", "quantifier": "every state and input under C21", "why_tests_cant": "completeness of the checker over all steps", "anchors": ["src/HPWH.cc: HPWH::isEnergyBalanced", "src/HPWH.cc: HPWH::runOneStep"]}
{"id": "C23", "title": "Multi-step runs report exact sums", "statement": "Running N steps reports, for each heat source, the sums over the steps of run time, input and output energy, and the sums of standby losses and energy removed from the environment; the heat balance of C21 telescopes over the run.", "quantifier": "every N and every sequence of inputs; performance functions as in C21", "why_tests_cant": "induction over histories of any length", "anchors": ["src/HPWH.cc: HPWH::runNSteps"]}
{"id": "C24", "title": "Multi-step outlet temperature is the volume average; undefined without draws", "statement": "The outlet temperature reported by a multi-step run is the draw-volume-weighted mean of the per-step outlet temperatures whenever the total draw is positive; if no water is drawn the reported value is not a number (0/0) although a single step would report 0.", "quantifier": "every sequence of inputs", "why_tests_cant": "all histories; NaN witness", "anchors": ["src/HPWH.cc: HPWH::runNSteps"]}
{"id": "C25", "title": "Full demand-response lock-out stops all heating", "statement": "If the signal contains both compressor and resistance lock-out, then after the step no heat source is on, the unit reports not heating, every run time, output energy and resistance input energy is zero, and compressor input is at most its standby draw.", "quantifier": "every model, state, input and signal containing both lock-out bits; floating-point semantics included", "why_tests_cant": "all control states", "anchors": ["src/HPWH.cc: HPWH::runOneStep", "src/HPWH.cc: HPWH::shouldDRLockOut"]}
{"id": "C26", "title": "Compressor lock-out: no compressor ever adds heat", "statement": "If the signal contains the compressor lock-out bit, every compressor reports zero run time and zero output energy for the step, whatever its companions, back-ups, followers and top-off requests.", "quantifier": "every model, state, input and signal with that bit", "why_tests_cant": "all control paths", "anchors": ["src/HPWH.cc: HPWH::runOneStep"]}
{"id": "C27", "title": "Resistance lock-out: no resistance element ever adds heat", "statement": "If the signal contains the resistance lock-out bit, every resistance element reports zero run time, zero input and zero output energy for the step. A side effect: while a VIP element calls for heat, the compressor is switched off even though the element is locked out, so nothing heats.", "quantifier": "every model, state, input and signal with that bit", "why_tests_cant": "all control paths", "anchors": ["src/HPWH.cc: HPWH::runOneStep"]}
{"id": "C28", "title": "Top-off timer", "statement": "After every step the top-off timer is zero unless the signal contained a top-off bit; while the timer runs, further top-off bits force nothing; with the timed top-off bit the timer is always below the limit after a step (if it was before and the step length is positive); with top-off-once held continuously the timer grows by one step length per step, so a top-off is forced only in the first step.", "quantifier": "every sequence of signals", "why_tests_cant": "histories of any length", "anchors": ["src/HPWH.cc: HPWH::runOneStep", "src/HPWH.cc: HPWH::resetTopOffTimer"]}
{"id": "C29", "title": "Run time never exceeds the step for sources that run at most once", "statement": "After each step every heat source reports a run time between zero and the step length. But a back-up element can be run twice for the same minutes, once on behalf of a compressor that cannot reach the setpoint and once on its own: it then reports twice as much energy as its power times its reported run time.", "quantifier": "every state and input; performance functions as in C21", "why_tests_cant": "all control paths", "anchors": ["src/HPWH.cc: HPWH::runOneStep", "src/HPWH.cc: HPWH::addHeatParent"]}
{"id": "C30", "title": "No node is heated beyond what the inputs allow", "statement": "Over a whole step without extra heat, without heat exchanger and without external multi-pass condensers, every node stays within every range that contains the previous node temperatures, the temperatures of the inlets in use, the ambient temperature and, on the upper side, the setpoint (if the standby losses of a step do not exceed the heat capacity of a node).", "quantifier": "every state and input", "why_tests_cant": "maximum principle over all control paths", "anchors": ["src/HPWH.cc: HPWH::runOneStep"]}
{"id": "C31", "title": "Setpoint changes are all-or-nothing", "statement": "Setting the setpoint either stores exactly the requested value (in Celsius) or raises an error and leaves the setpoint unchanged; it succeeds exactly when the units are C or F and the feasibility query says so; reading it back in the same units returns the value in exact arithmetic.", "quantifier": "every model and every requested value and unit", "why_tests_cant": "all inputs", "anchors": ["src/HPWH.cc: HPWH::setSetpoint", "src/HPWH.cc: HPWH::isNewSetpointPossible", "src/HPWH.cc: HPWH::getSetpoint"]}
{"id": "C32", "title": "Setpoint feasibility query", "statement": "If the query refuses a setpoint for a model whose setpoint is not fixed and which has a compressor or an element, the maximum it reports is itself accepted and every lower setpoint is accepted too; the query never changes the model. A model with neither reports absolute zero as its maximum and refuses that too.", "quantifier": "every model and requested value", "why_tests_cant": "all inputs", "anchors": ["src/HPWH.cc: HPWH::isNewSetpointPossible"]}
{"id": "C33", "title": "Fixed setpoints stay fixed", "statement": "For a model with fixed setpoint no sequence of setpoint changes, simulation steps or capacity queries changes the setpoint.", "quantifier": "every sequence of operations", "why_tests_cant": "histories", "anchors": ["src/HPWH.cc: HPWH::setSetpoint", "src/HPWH.cc: HPWH::addHeatParent", "src/HPWH.cc: HPWH::getCompressorCapacity"]}
{"id": "C34", "title": "Setters with unsupported units are rejected without effect", "statement": "Each unit-taking setter (setpoint, tank size, UA, fittings UA, tank temperatures, resistance capacity, maximum depression) called with units it does not support raises an error; all but the maximum-depression setter leave the model unchanged, and that one stores the value first.", "quantifier": "every model, value and unit", "why_tests_cant": "all combinations", "anchors": ["src/HPWH.cc: HPWH::setUA", "src/HPWH.cc: HPWH::setTankSize", "src/HPWH.cc: HPWH::setMaxTempDepression", "src/HPWH.cc: HPWH::setResistanceCapacity"]}
{"id": "C35", "title": "Unit conversions are inverse pairs", "statement": "C/F, C/K, kWh/kJ, kWh/BTU, gallon/litre, ft/m, ft2/m2, gpm/lps and dC/dF conversions are mutually inverse and order preserving; absolute conversion of a difference equals the difference conversion. The kJ/(h C) to BTU/(h F) UA conversions of setter and getter are inverse to each other.", "quantifier": "every real value", "why_tests_cant": "all values", "anchors": ["src/HPWH.hh: F_TO_C etc.", "src/HPWH.cc: HPWH::setUA", "src/HPWH.cc: HPWH::getUA"]}
{"id": "C36", "title": "Temperature differences given in Fahrenheit", "statement": "Setting the maximum temperature depression in Fahrenheit converts the value as an absolute temperature, so a 4.5 F depression is stored as a negative number of degrees; consequently a running compressor then raises the tracked location temperature instead of lowering it.", "quantifier": "every value below 32 F; witness 4.5 F", "why_tests_cant": "finding; quantified over all values", "anchors": ["src/HPWH.cc: HPWH::setMaxTempDepression"]}
{"id": "C37", "title": "Tank geometry", "statement": "Surface area and radius derived from the volume are those of one cylinder with the fixed aspect ratio; both increase with volume; top, bottom and side area fractions sum to one. The radius reported in feet is smaller than the true one by the square of the feet-per-metre factor.", "quantifier": "every positive volume", "why_tests_cant": "all volumes", "anchors": ["src/Tank.cc: Tank::getRadius_m", "src/Tank.cc: Tank::getSurfaceArea_m2", "src/Tank.cc: Tank::calcSizeConstants", "src/HPWH.cc: HPWH::getTankRadius"]}
{"id": "C38", "title": "Resizing with UA adjustment keeps U", "statement": "Changing the tank size with UA adjustment keeps UA divided by surface area constant for positive volumes, is rejected (leaving volume and UA unchanged) for fixed-size models unless forced and for non-positive volumes, and leaves the node temperatures alone.", "quantifier": "every model and volume", "why_tests_cant": "all inputs", "anchors": ["src/Tank.cc: Tank::setVolumeAndAdjustUA", "src/Tank.cc: Tank::setVolume_L"]}
{"id": "C39", "title": "Fractional heights always name an existing node", "statement": "Setting an inlet or external port by fraction either fails (fraction outside [0,1], no change) or selects a node between 0 and the top node, monotonically in the fraction, with 0 the bottom and 1 the top.", "quantifier": "every fraction and number of nodes", "why_tests_cant": "all inputs", "anchors": ["src/Tank.cc: Tank::setNodeNumFromFractionalHeight", "src/HPWH.cc: HPWH::setNodeNumFromFractionalHeight"]}
{"id": "C40", "title": "Setting layer temperatures: resampling is exact averaging", "statement": "Setting the tank from any number of layer temperatures gives each node the exact average of the layer profile over the node's height, whatever the two resolutions; in particular the overall mean is preserved and the values stay within the range of the layers.", "quantifier": "every list of layer temperatures and every number of nodes", "why_tests_cant": "all pairs of resolutions, binning special cases included", "anchors": ["src/HPWHUtils.cc: HPWH::resample", "src/HPWHUtils.cc: HPWH::getResampledValue", "src/Tank.cc: Tank::setNodeTs_C"]}
{"id": "C41", "title": "Extensive resampling preserves totals", "statement": "Resampling an extensive quantity preserves its sum for every pair of resolutions.", "quantifier": "every list and target size", "why_tests_cant": "all pairs of resolutions", "anchors": ["src/HPWHUtils.cc: HPWH::resampleExtensive"]}
{"id": "C42", "title": "Simulated thermocouples", "statement": "The i-th of n simulated thermocouples is the exact mean of the node profile over its slice, lies within the node temperature range, the n thermocouples average to the tank mean, and out-of-range indices are rejected.", "quantifier": "every profile and every n", "why_tests_cant": "all inputs", "anchors": ["src/Tank.cc: Tank::getNthSimTcouple"]}
{"id": "C43", "title": "Normalisation terminates and normalises", "statement": "Normalising a non-negative distribution terminates and yields either a distribution that sums to one with every entry zero or at least the cut-off, or all zeros if the sum was not positive; entries keep their relative order.", "quantifier": "every non-negative list", "why_tests_cant": "termination and post-condition over all lists", "anchors": ["src/HPWHUtils.cc: HPWH::normalize"]}
{"id": "C44", "title": "Thermal distribution", "statement": "The thermal heat distribution has one non-negative entry per node and sums to one; unless every candidate node is already at or above the setpoint, entries below the lowest heated node and at nodes at or above setpoint are zero. If all candidate nodes are at setpoint, heat is spread uniformly over all nodes, including those below the condenser.", "quantifier": "every profile of up to 9999 nodes, shrinkage, lowest node, setpoint", "why_tests_cant": "all inputs, transcendental function", "anchors": ["src/HPWHUtils.cc: HPWH::calcThermalDist"]}
{"id": "C45", "title": "Weighted distributions are piecewise integrals", "statement": "The normalised weight of a valid distribution over a height range is additive over adjacent ranges, non-negative for non-negative weights, and equals one over the full height.", "quantifier": "every valid distribution and range in [0,1]", "why_tests_cant": "all inputs", "anchors": ["src/HPWH.hh: WeightedDistribution::normalizedWeight"]}
{"id": "C46", "title": "Distribution-averaged tank temperature", "statement": "The tank temperature averaged with a valid non-negative weighted distribution is the exact weighted mean of the node profile and therefore lies within the range of the nodes carrying weight.", "quantifier": "every profile and valid distribution", "why_tests_cant": "all resolutions of both", "anchors": ["src/Tank.cc: Tank::getAverageNodeT_C"]}
{"id": "C47", "title": "Lowest heated node", "statement": "The lowest node reported for a valid non-negative distribution is the first node that receives positive weight; no node below it does.", "quantifier": "every valid distribution and node count", "why_tests_cant": "all inputs", "anchors": ["src/HPWHUtils.cc: HPWH::findLowestNode"]}
{"id": "C48", "title": "State of charge", "statement": "For mains below minimum useful below maximum temperature, state of charge is 0 when every node is below the minimum useful temperature, 1 when every node is at the maximum, and never decreases when nodes get warmer; it lies in [0,1] if no node exceeds the maximum.", "quantifier": "every profile and temperature triple", "why_tests_cant": "all inputs", "anchors": ["src/Tank.cc: Tank::calcSoCFraction", "src/HPWHUtils.cc: HPWH::getChargePerNode"]}
{"id": "C49", "title": "State-of-charge control has a dead band", "statement": "After switching to state-of-charge controls with non-negative hysteresis the turn-on and shut-off conditions of the compressor are never true at the same time, and re-targeting keeps this.", "quantifier": "every state of charge, target and hysteresis", "why_tests_cant": "all values", "anchors": ["src/HPWH.cc: HPWH::switchToSoCControls", "src/HPWH.cc: HPWH::setTargetSoCFraction", "src/HPWHHeatingLogic.cc: SoCBasedHeatingLogic"]}
{"id": "C50", "title": "Temperature logic decisions follow the setpoint", "statement": "A relative temperature logic compares the averaged tank temperature with setpoint minus its decision value, an absolute one with the decision value; raising the setpoint can only turn a relative turn-on condition from false to true and absolute conditions are unaffected.", "quantifier": "every profile, setpoint, logic", "why_tests_cant": "all inputs", "anchors": ["src/HPWHHeatingLogic.cc: TempBasedHeatingLogic::getComparisonValue"]}
{"id": "C51", "title": "A heat source that should heat does not immediately shut off", "statement": "Whenever a heat source is judged to need heat, its shut-off condition is false, in particular the bottom node is below setpoint; a tank whose bottom node is at or above setpoint never starts heating.", "quantifier": "every state", "why_tests_cant": "all states", "anchors": ["src/HPWHHeatSource.cc: HeatSource::shouldHeat", "src/HPWHHeatSource.cc: HeatSource::shutsOff"]}
{"id": "C52", "title": "Idle units stay idle", "statement": "If no heat source is on, none should heat and the signal forces no top-off, a step adds no heat: all run times and output energies are zero and the unit remains not heating.", "quantifier": "every state and input", "why_tests_cant": "all control paths", "anchors": ["src/HPWH.cc: HPWH::runOneStep"]}
{"id": "C53", "title": "Compressor lock-out hysteresis", "statement": "The compressor is locked whenever it is maxed out or the external temperature is outside its operating range by more than the hysteresis margin of its state; it is unlocked whenever it is not maxed out and the temperature is inside the range by more than that margin; in between the previous lock is kept. At a constant temperature the lock of a compressor that is not maxed out changes at most once.", "quantifier": "every temperature history", "why_tests_cant": "histories", "anchors": ["src/Condenser.cc: Condenser::toLockOrUnlock", "src/Condenser.cc: Condenser::shouldLockOut", "src/Condenser.cc: Condenser::shouldUnlock"]}
{"id": "C54", "title": "Temperature depression converges and stays bounded", "statement": "With temperature depression on, the tracked location temperature always stays between the goal values seen so far (ambient and ambient minus depression), and under constant conditions the gap to the goal shrinks by the same factor every minute, so it converges without overshoot.", "quantifier": "every sequence of ambient temperatures and compressor activity", "why_tests_cant": "histories of unbounded length", "anchors": ["src/HPWH.cc: HPWH::runOneStep"]}
{"id": "C55", "title": "Energy removed from the environment", "statement": "After each step the reported energy removed from the environment equals the sum over heat sources of output minus input energy.", "quantifier": "every state and input", "why_tests_cant": "all control paths", "anchors": ["src/HPWH.cc: HPWH::runOneStep"]}
{"id": "C56", "title": "Derived indices name what they should", "statement": "After configuration the compressor index is the last compressor (or -1), the lowest element index is a resistance element none of which is lower, the highest is one none of which is higher, and the VIP index is the first VIP resistance element.", "quantifier": "every list of heat sources", "why_tests_cant": "all configurations", "anchors": ["src/HPWH.cc: HPWH::calcDerivedHeatingValues"]}
{"id": "C57", "title": "Resistance elements are addressed from bottom to top", "statement": "The element map built at configuration lists each resistance element exactly once, sorted by height; setting the capacity of the which-th element changes exactly the elements at that height and nothing else, and reading it back returns the number of such elements times the power set.", "quantifier": "every list of heat sources, every which, every power", "why_tests_cant": "all configurations", "anchors": ["src/HPWH.cc: HPWH::mapResRelativePosToHeatSources", "src/HPWH.cc: HPWH::setResistanceCapacity", "src/HPWH.cc: HPWH::getResistanceCapacity"]}
{"id": "C58", "title": "Setting the compressor capacity round-trips", "statement": "For a scalable model, setting the compressor output capacity at given temperatures makes the capacity query at those temperatures return the value set; scaling multiplies input and capacity by the same factor and leaves COP unchanged. A capacity query leaves the setpoint unchanged if the current setpoint is itself feasible; otherwise it replaces it by the queried outlet temperature.", "quantifier": "every linear-scaling performance function, capacity and temperatures", "why_tests_cant": "performance function arbitrary", "anchors": ["src/HPWH.cc: HPWH::setCompressorOutputCapacity", "src/HPWH.cc: HPWH::getCompressorCapacity", "src/HPWH.cc: HPWH::setScaleCapacityCOP"]}
{"id": "C59", "title": "Configuration check", "statement": "The configuration check accepts a model exactly if: it has a heat source (or is a storage tank); every source has a turn-on logic or backs up a source that has one; logics and heat distributions have ascending positive heights and some positive weight (state-of-charge targets are not negative); air flow freedom is in (0,1]; defrost needs an external compressor and a map of three points; external compressors have one shut-off logic and ports at existing nodes, others no external pump; the shut-off logics are not beneath the turn-on logics; the setpoint is possible; UA is not negative and heat-exchanger effectiveness at most one. Every other model is rejected with an error (never undefined behaviour), keeping its tank temperatures; models under state-of-charge control are rejected. A configured model has its tank at the setpoint, is marked heating exactly if a source is on, and configuring it again changes nothing. The check does not look at volume, element power or the sign of weights, so an accepted model can still fail in its first step; with those conditions added an accepted model with integrated condensers is ready to run (C73).", "quantifier": "every model", "why_tests_cant": "all configurations", "anchors": ["src/HPWH.cc: HPWH::checkInputs"]}
{"id": "C60", "title": "Swapping performance-grid axes", "statement": "Swapping two grid axes swaps the two axis vectors and permutes the table so that looking up transposed coordinates in the new grid returns the old entry; swapping twice restores grid and table.", "quantifier": "every grid of any dimension and sizes", "why_tests_cant": "all dimensions", "anchors": ["src/HPWHUtils.cc: HPWH::swapGridAxes"]}
{"id": "C61", "title": "Grid vector clean-up", "statement": "Arranging a grid vector yields a strictly increasing vector with the same set of values; trimming keeps exactly the values of the requested range (both ends included) and stays strictly increasing.", "quantifier": "every list", "why_tests_cant": "all lists", "anchors": ["src/Condenser.cc: Condenser arrangeGridVector/trimGridVector"]}
{"id": "C62", "title": "Polynomial performance set interpolates its points", "statement": "Evaluating a performance set at the temperature of one of its points returns that point's polynomials; between two points the COP and input power lie on the straight line through them (so they are continuous across points), and beyond the first or last point on the line through the nearest two; output power is always COP times input power. The point chosen for fitting is one nearest to the ambient temperature, of two equally near ones the warmer. A set with a single point is rejected.", "quantifier": "every sorted point set and temperatures", "why_tests_cant": "all inputs", "anchors": ["src/HPWH.cc: PerformancePolySet::evaluate"]}
{"id": "C63", "title": "Defrost derating", "statement": "The defrost derate multiplies COP and output power, not input power, by a factor that is one at and outside the ends of the table, linear between neighbouring table points and between the least and greatest fraction of the table (one included); with the standard table it is one up to 17 F and from 47 F and the given fraction at 35 F. Setting up the table a second time appends to it and has no effect on the factor: the first fraction stays in force.", "quantifier": "every temperature", "why_tests_cant": "all inputs", "anchors": ["src/Condenser.cc: Condenser::defrostDerate"]}
{"id": "C64", "title": "24-hour test draws what the pattern prescribes", "statement": "In a completed 24-hour test the draws of the minutes 0 to 1440 carry out the pattern of the designation in order: a draw starts in the first minute not before its scheduled time in which the previous draw is over and followed by a minute without drawing, takes its flow rate (at most the tank volume) in every minute but the last and its volume in total. Before any minute no more has been drawn than the draws scheduled before it amount to. If the tank holds a quarter gallon or more, every draw is completed and the total is 10, 38, 55 or 84 gallons; a tank of less than a 1441st of that never completes the pattern.", "quantifier": "every tank volume and designation", "why_tests_cant": "1441-step loop over every volume", "anchors": ["src/HPWH.cc: HPWH::run24hrTest", "src/HPWH.cc: drawPatterns"]}
{"id": "C65", "title": "First-hour-rating designation", "statement": "The designation is a monotone step function of first-hour volume with thresholds 18, 51 and 75 gallons, boundary values belonging to the larger class. The volume is the minute rate (1.5 or 3 gallons, at most the tank volume) times the minutes of drawing, without the minute in which a draw ends, the last draw being weighted; a unit whose first draw is not interrupted for an hour is in the largest class (if it holds 1.25 gallons). The weight of the last draw uses the average outlet temperature of everything drawn since the start, because the sums are not reset between draws.", "quantifier": "every volume", "why_tests_cant": "all values", "anchors": ["src/HPWH.cc: HPWH::findFirstHourRating"]}
{"id": "C66", "title": "Fitting a parameter to a metric", "statement": "The secant search ends after at most 19 evaluations with the last argument tried (or the closer guess): success means within tolerance, other codes mean 19 evaluations or a level function; a straight line is solved with one evaluation. A one-parameter fit reports an error only for a level function: it silently accepts non-convergence, and if the second guess meets the target it reports success but leaves the parameter at the first guess. A two-parameter fit that reports no error meets the target to a millionth of the metric's tolerance, and whether it reports an error or not the parameters are no further from the target than before; its damped inverse solves the damped normal equations.", "quantifier": "every function", "why_tests_cant": "the function is arbitrary", "anchors": ["src/HPWHFitter.cc: secant"]}
{"id": "C67", "title": "Temperature logic survives serialisation", "statement": "Writing a temperature logic (weighted, top or bottom) to the data model and reading it back yields a logic that is met in the same states, has the same limit and asks for the same fraction of a step; its mark as an entering-water high-temperature shut-off is lost. A state-of-charge logic is not kept: whatever its settings, the logic read back has target 0, a limit of -0.05 and the comparison less-than, so it is never met at a charge of at least zero.", "quantifier": "every logic", "why_tests_cant": "all logics", "anchors": ["src/HPWHHeatingLogic.cc: HeatingLogic::make", "src/HPWHHeatingLogic.cc: TempBasedHeatingLogic::to", "src/HPWHHeatingLogic.cc: SoCBasedHeatingLogic::to"]}
{"id": "C68", "title": "Tank survives serialisation", "statement": "Writing the tank to the data model and reading it back preserves volume, UA, fittings UA and heat exchanger in exact arithmetic; the tank read mixes on draws exactly if the written one does and its mixing fraction is positive, with the same fraction. The fraction of a tank that does not mix is not kept. In double precision the volume of a 67-gallon tank changes.", "quantifier": "every tank", "why_tests_cant": "all tanks", "anchors": ["src/Tank.cc: Tank::to", "src/Tank.cc: Tank::from"]}
{"id": "C69", "title": "External port heights survive serialisation for common node counts", "statement": "Writing a central system stores the port heights of the compressor as fractions of the node count and reading it back truncates: in exact arithmetic the compressor read has the same ports for every node count; in double precision for every port height with the node counts up to 21, 24, 48, 96 and others listed, but not with all counts: with 22 nodes a port at node 15 is read back at node 14.", "quantifier": "every port height and node count", "why_tests_cant": "rounding; all heights", "anchors": ["src/HPWH.cc: HPWH::to(CentralWaterHeatingSystem)", "src/HPWH.cc: HPWH::from(HPWHSimInput)"]}
{"id": "C70", "title": "Copies of a simulator share state", "statement": "Copying a simulator object does not give a second simulator: after `d = s` (or copy construction) both objects have one tank and one list of heat sources, in every later sequence of calls on either, so whatever is done through one shows in the temperatures, stored heat, energies and run times the other reports; the copy takes over setpoint, last reported figures, location temperature, demand-response and depression flags, but keeps its own top-off timer, step length, inlet temperature, state of charge, setpoint and scaling permissions and compressor/element indices (for a copy-constructed object these are whatever its storage held). The heating logics keep pointing to the original for ever and tank and sources point to the last copy: the thermostat of the copy compares with the original's setpoint, the standby losses of the original go by the copy's step length, neither is ever again on its own, and once one of the two is destroyed the other's next step is undefined. Assigning single heat sources fails exactly when they have backups, companions or followers (having overwritten part of the target), an assigned condenser keeps its own defrost switch, and an assigned tank of another node capacity is inconsistent.", "quantifier": "every model", "why_tests_cant": "aliasing", "anchors": ["src/HPWH.cc: HPWH::operator="]}
{"id": "C71", "title": "Heat-source choice: first come and VIP", "statement": "When nothing is heating and no source is VIP, the choice loop engages exactly the first source that should heat (one without companion) and changes nothing else; the only VIP source, if it should heat and is not locked out by the signal, ends up the only source on, whatever was on before.", "quantifier": "every state and signal", "why_tests_cant": "all control states", "anchors": ["src/HPWH.cc: HPWH::runOneStep"]}
{"id": "C72", "title": "Sizing fractions", "statement": "For a model with sound temperature logics the aquastat fraction is the least fraction of a turn-on logic and lies in (0,1]; the fraction of a weighted logic is its mean height plus half a twelfth; the usable fraction lies in [-1/24,1], and in [0,1] unless a shut-off logic puts its weight into the uppermost half twelfth of the tank (in which case it can be negative). Models without a compressor or with state-of-charge control are rejected.", "quantifier": "every model", "why_tests_cant": "all configurations", "anchors": ["src/HPWH.cc: HPWH::getSizingFractions", "src/HPWHHeatingLogic.cc: nodeWeightAvgFract"]}
{"id": "C73", "title": "A ready unit always completes its step", "statement": "A unit that is ready (sizes consistent, ports at existing nodes, links between sources valid, logics evaluable, positive element power and compressor output, condensers wrapped or submerged and able to reach the setpoint) completes every step without raising an error, accessing anything out of range, dividing by zero or looping forever, whatever its control state and the demand-response signal; so does every run of steps in which some water is drawn.", "quantifier": "every ready unit, every profile, draw, signal and air temperature above the low-temperature limit of the compressors; compressor output positive at the water temperatures that can occur (a range containing profile, inlets, ambient air and setpoint is enough, so polynomial performance maps are included); runs of any length", "why_tests_cant": "absence of failure on all paths", "anchors": ["src/HPWH.cc: HPWH::runOneStep", "src/HPWH.cc: HPWH::runNSteps"]}
{"id": "C74", "title": "External multi-pass heating always finishes", "statement": "The heating loop of an external multi-pass condenser with positive flow and output ends after at most one pass per node volume pumped, with and without shut-off logics.", "quantifier": "every profile, flow, duration and shut-off logics; output positive at water temperatures from the coldest node up", "why_tests_cant": "termination", "anchors": ["src/Condenser.cc: Condenser::addHeatExternalMP"]}
{"id": "C75", "title": "Record and totals of the 24-hour test", "statement": "A completed 24-hour test records at least sixty minutes without draws, ending with no heat source engaged and numbered up to minute -1, and then the minutes 0 to 1440; each row is what can be read off the unit after a one-minute step with that row's draw. The volume removed, heat delivered, energy used and (draw-weighted) average outlet temperature of the summary are sums over the rows from minute 0, the average inlet temperature is that of the test, all energy is counted as electricity, and the test qualifies only if the unit heated in some minute. The lock-out of heating in the last hour that the code provides for is never applied: the demand-response mode is 0 in every row.", "quantifier": "every unit, test condition and designation for which the test completes", "why_tests_cant": "loop of 1441 steps over every state", "anchors": ["src/HPWH.cc: HPWH::run24hrTest"]}
{"id": "C76", "title": "First recovery period of the 24-hour test", "statement": "The first recovery period ends in a minute that is not heating and comes after a heating one; its volume, energy and delivered heat are the sums over the minutes up to that one, its stored heat is that of warming the tank from before minute 0 to before the last minute, and the recovery efficiency is stored plus delivered heat per energy used (0 if none is used). If the period never ends, nothing counts as stored or delivered and the efficiency is 0.", "quantifier": "every completed test", "why_tests_cant": "loop of 1441 steps over every state", "anchors": ["src/HPWH.cc: HPWH::run24hrTest"]}
{"id": "C77", "title": "Efficiency figures of the 24-hour test", "statement": "The energy consumed is the energy used less the tank's heat gain at the recovery efficiency; the modified consumption replaces the heating energy by that of the standard rise of 75 F and adjusts for ambient temperature (no adjustment under the conditions of the uniform energy factor); the energy factor times the modified consumption is the heat of the standard rise. The annual energy is not 365 days of warming the day's water by 67 F at the energy factor but 35/67 of it, because 67 F is converted as a temperature instead of a difference.", "quantifier": "every completed test", "why_tests_cant": "arithmetic over every outcome of the test", "anchors": ["src/HPWH.cc: HPWH::run24hrTest"]}
{"id": "C78", "title": "Standby period of the 24-hour test", "statement": "If the first recovery ends in minute r, the standby period begins in minute r+6, whatever the unit does then, and lasts at most 480 minutes; its energy is that of its minutes after the first, and the standby loss times the duration is that energy less the tank's heat gain at the recovery efficiency. The duration reported is a minute less than the time between first and last minute, so it can be minus one minute; if no period begins it is reported as 1439 minutes with a start temperature of 0. A draw that takes a single minute does not end the period.", "quantifier": "every completed test", "why_tests_cant": "loop of 1441 steps over every state", "anchors": ["src/HPWH.cc: HPWH::run24hrTest"]}
{"id": "C79", "title": "Units without heat sources cannot be tested", "statement": "For a unit without heat sources, such as a storage tank, the preparation for a test never completes, so the first-hour rating and the 24-hour test never return, however many minutes are simulated.", "quantifier": "every unit without heat sources, any number of minutes", "why_tests_cant": "non-termination", "anchors": ["src/HPWH.cc: HPWH::prepareForTest", "src/HPWH.cc: HPWH::findFirstHourRating", "src/HPWH.cc: HPWH::run24hrTest"]}
{"id": "C80", "title": "Setpoint across steps and tests", "statement": "A completed step leaves a setpoint above absolute zero as it was, although a compressor that limits its outlet temperature in cold air changes it within the step. A completed first-hour rating or 24-hour test leaves the unit at the setpoint of the test: 125 F if the unit accepts it, else the highest setpoint it accepts, else the old one; every row of the test reports that setpoint. The setpoint the user had is not restored.", "quantifier": "every unit, signal and test condition", "why_tests_cant": "all paths through a step", "anchors": ["src/Condenser.cc: Condenser::addHeat", "src/HPWH.cc: HPWH::findFirstHourRating", "src/HPWH.cc: HPWH::run24hrTest"]}
{"id": "C81", "title": "Generic models meet an energy factor", "statement": "When makeGenericEF succeeds, only the constant COP coefficient of the point nearest to the configuration's ambient temperature has changed, in the caller's set and in the compressor; the COP at this ambient temperature is not negative at the highest setpoint and not lower at 0 C. The summary returned is that of a 24-hour test with this set and its EF is within 1e-12 of the target - unless 19 trial values were not enough, which is not reported, or the first or second guess already meets the target: then the set is unchanged and the summary is that of the coefficient raised by 1e-9.", "quantifier": "every unit, polynomial set, target and test configuration; doubles and reals", "why_tests_cant": "each trial is a simulated day; the search is iterative", "anchors": ["src/HPWH.cc: HPWH::makeGenericEF", "src/HPWHFitter.cc: HPWH::Fitter::fit"]}
{"id": "C82", "title": "Generic models shift every point alike", "statement": "When makeGenericUEF succeeds, the constant COP coefficient of every point has changed by the same amount and nothing else has. The summary returned is that of a test made before the other points were shifted; with points at 50, 67.5 and 95 F the final set performs at 67.5 F exactly as the tested one.", "quantifier": "every unit, polynomial set and target", "why_tests_cant": "each trial is a simulated day", "anchors": ["src/HPWH.cc: HPWH::makeGenericUEF"]}
{"id": "C83", "title": "Fits at three conditions do not disturb each other", "statement": "With points at 50, 67.5 and 95 F makeGenericE50_UEF_E95 changes at most the constant COP coefficients of the three points, and at each configuration's ambient temperature the final set performs exactly as the set left by this configuration's own fit.", "quantifier": "every unit, set of quadratics at these points and targets", "why_tests_cant": "each trial is a simulated day", "anchors": ["src/HPWH.cc: HPWH::makeGenericE50_UEF_E95"]}
{"id": "C84", "title": "Integrated units survive serialisation", "statement": "An integrated unit with distinct non-empty names, at most one VIP source, valid logics and distributions and a compressor with a sensible range can be written to the data model and read into any simulator. The unit read has the same heat sources in the same order with the same names, types, associations, VIP status, heat distributions, limits and logic decisions (state-of-charge logics excepted, C67), and the same setpoint, tank size, losses and compressor; writing leaves the simulator as it was.", "quantifier": "every such unit and every simulator read into, exact arithmetic", "why_tests_cant": "all units; composition of many writers and readers", "anchors": ["src/HPWH.cc: HPWH::to", "src/HPWH.cc: HPWH::from", "src/HPWHHeatSource.cc: HeatSource::to", "src/HPWHHeatSource.cc: HeatSource::from", "src/Condenser.cc: Condenser::to", "src/Condenser.cc: Condenser::from"]}
{"id": "C85", "title": "Performance map of integrated units in the data model", "statement": "The map written for an integrated compressor spans its operating range and keeps every point of its own grid within that range; with an interpolator that is exact at grid points the unit read has there, at any setpoint, the input power and capacity the written unit had at its setpoint. A defrost derating is not written, so the unit read never has one.", "quantifier": "every integrated unit, grid and setpoint", "why_tests_cant": "all maps", "anchors": ["src/Condenser.cc: Condenser::to", "src/Condenser.cc: Condenser::from"]}
{"id": "C86", "title": "Writing and the simulator's state", "statement": "Writing a simulator to the data model changes nothing but possibly its setpoint, whatever the outcome; without an external compressor described by a grid a successful writing changes nothing at all. With one, the simulator is left at the setpoint of the last grid point, so writing twice gives two different descriptions.", "quantifier": "every unit; doubles and reals", "why_tests_cant": "all units and paths", "anchors": ["src/Condenser.cc: Condenser::to", "src/HPWH.cc: HPWH::setSetpointT"]}
{"id": "C87", "title": "Names in the data model", "statement": "In whatever description is read, a name given as backup, follower or companion stands for the last heat source with that name; a name that no heat source has is not an error but stands for the first heat source. The heat sources with the name given as primary get priority; without a primary source every heat source with an empty name does. Writing names only the last of several priority sources as primary, so the others lose their priority in a round trip.", "quantifier": "every description and every unit", "why_tests_cant": "all descriptions", "anchors": ["src/HPWH.cc: HPWH::from", "src/HPWH.cc: HPWH::to"]}
{"id": "C88", "title": "Central systems survive serialisation", "statement": "What was written for a central system with one external compressor, distinct names and at most one VIP can be read into any simulator. The system read has the same heat sources in order with the same names, associations, priority, heat distributions and logic decisions; the compressor has the same ports, single- or multi-pass mode and flow, secondary heat exchanger, operating limits, low-temperature limit, resistance defrost and defrost setting (the default derating being used); setpoint, tank size and losses are the same. With an interpolator that is exact at grid points the compressor performs at every point of the written grid as the original one does there, the outlet axis being the setpoint plus the difference of the secondary heat exchanger.", "quantifier": "every such system and every simulator read into, exact arithmetic", "why_tests_cant": "all systems; composition of many writers and readers", "anchors": ["src/HPWH.cc: HPWH::to", "src/HPWH.cc: HPWH::from", "src/Condenser.cc: Condenser::to", "src/Condenser.cc: Condenser::from"]}
{"id": "C89", "title": "What a resistance tank can be set up with", "statement": "initResistanceTank succeeds exactly for a lower power of at least 550 W, a non-negative upper power, a positive energy factor and a positive volume; in all other cases it reports an error. The result does not depend on how the simulator was used before: twelve nodes at the setpoint of 127 F, steps of one minute, no heat exchanger, no demand response in force, and one or two elements of the given powers, all off, the upper one with priority and followed by the lower one.", "quantifier": "every volume, energy factor and powers; every simulator", "why_tests_cant": "all parameter combinations and all earlier states", "anchors": ["src/HPWHpresets.cc: HPWH::initResistanceTank", "src/HPWH.cc: HPWH::setAllDefaults"]}
{"id": "C90", "title": "Losses follow from the energy factor", "statement": "The heat loss coefficient of a resistance tank solves the relation between energy factor, recovery efficiency 0.98 and the power of the lower element; an energy factor of 0.98 or more gives no losses and only such a one does; a higher energy factor never gives higher losses.", "quantifier": "every accepted parameters", "why_tests_cant": "a relation between real parameters", "anchors": ["src/HPWHpresets.cc: HPWH::initResistanceTank"]}
{"id": "C91", "title": "Tanks of elements always run", "statement": "A resistance tank of a litre or more, once set up, completes every step whatever air temperatures, draw and signal, and every run of steps in which water is drawn; the heat of its water changes by what the elements delivered less the losses and the drawn heat; in runs with ambient and inlet temperatures within a range that contains 127 F all water stays within the range. A step needs no inlet temperature to have been given: drawn water is then replaced by water of -1 C.", "quantifier": "every accepted parameters with at least one litre, every input, runs of every length", "why_tests_cant": "all inputs; invariants over runs", "anchors": ["src/HPWHpresets.cc: HPWH::initResistanceTank", "src/HPWH.cc: HPWH::runOneStep", "src/HPWH.cc: HPWH::runNSteps"]}
{"id": "C92", "title": "A rejected set-up is not undone", "statement": "When initResistanceTank rejects its parameters, the simulator has lost its heat sources, and its nodes too unless the volume was the reason, but still answers that it has a compressor if it had one before; asking for the highest setpoint of the compressor or whether a setpoint is possible then reads a heat source that does not exist.", "quantifier": "every rejected parameters and every simulator", "why_tests_cant": "a property of every error path", "anchors": ["src/HPWHpresets.cc: HPWH::initResistanceTank", "src/HPWH.cc: HPWH::isNewSetpointPossible", "src/HPWH.cc: HPWH::getMaxCompressorSetpoint"]}
{"id": "C93", "title": "Generic resistance tanks", "statement": "initResistanceTankGeneric succeeds exactly for non-negative powers that are not both zero, a positive R-value and a positive volume, otherwise it reports an error. The heat loss coefficient times the R-value is the surface of the tank; there is an element for each positive power; the size may be changed; the unit can run at every air temperature.", "quantifier": "every volume, R-value and powers; every simulator", "why_tests_cant": "all parameter combinations", "anchors": ["src/HPWHpresets.cc: HPWH::initResistanceTankGeneric", "src/Tank.cc: Tank::getSurfaceArea"]}
{"id": "C94", "title": "The generic heat pump", "statement": "initGeneric sets up a tank for every positive volume and every energy factor but -1.92, at which COPs are divided by zero; a volume that is not positive is reported and leaves three heat sources without links. The energy factor changes the COP (70% of the underlying map at 2, 95% at 3.4, linear) and the input power, never the heating capacity. Energy factors below -1.92 are accepted and give a compressor that heats with negative power. With air within 45-120 F and ambient and inlet water within 0-60 C, every run of a unit of a litre or more in which water is drawn completes, keeps all water within 0-60 C, and balances.", "quantifier": "every volume, energy factor and resistance-use threshold; every simulator; all air and water temperatures; all runs", "why_tests_cant": "all energy factors, and runs of any length and draw pattern", "anchors": ["src/HPWHpresets.cc: HPWH::initGeneric", "src/Condenser.cc: Condenser::getPerformance"]}
{"id": "C95", "title": "Tables of results", "statement": "For a unit with a compressor the CSV heading lists each applicable column once and every row has exactly one field per column, holding that column's quantity: energies in Wh, draws in gallons, thermocouples and outlet in the heading's unit, other temperatures always in C, inlet, draw and outlet empty when nothing is drawn. Columns of condenser, state of charge and demand-response signal show the simulator at the time of writing, not at that of the record, and externalVolGPM is a volume. A unit without compressor cannot be written: heading and rows stop after five fields. A record with too few energies or thermocouples is read out of range unnoticed.", "quantifier": "every simulator, record and options", "why_tests_cant": "all combinations of units, options and records", "anchors": ["src/HPWH.cc: HPWH::writeCSVHeading", "src/HPWH.cc: HPWH::writeCSVRow", "src/HPWH.cc: HPWH::isCompressorExternalMultipass"]}
{"id": "C96", "title": "Schedules", "statement": "When every entry of a schedule file is for minutes of the simulation, reading succeeds and every minute holds the value of the last entry for it (or for its hour), or the default. A missing file or default is an error. An entry numbered beyond the number of minutes is an error that keeps the entries before it; for the setpoint and state-of-charge schedules that error is ignored. Hour files are only checked against the number of minutes: hours after the end, and negative numbers, write outside the array.", "quantifier": "every file and simulation length", "why_tests_cant": "all entry lists and lengths; memory safety", "anchors": ["src/hpwh/run.cpp: readSchedule", "src/hpwh/run.cpp: run"]}
{"id": "C97", "title": "The run command completes", "statement": "For every unit with a compressor that is ready to be simulated, and schedules that can occur, the command's loop completes for every length below 500000 minutes: no minute reports an unbalanced tank or a heat source that ran for too long; the file is a heading and one row per minute, each showing the record of the state after that minute's step, whose heat balances. A unit without compressor can never be run; state-of-charge control needs a schedule for every minute.", "quantifier": "every ready unit, schedule and length; every unit without compressor", "why_tests_cant": "runs of every length", "anchors": ["src/hpwh/run.cpp: run", "src/HPWH.cc: HPWH::runOneStep", "src/HPWH.cc: HPWH::isEnergyBalanced"]}
{"id": "C98", "title": "Daily totals", "statement": "Runs of 500000 minutes or more write one line per whole day holding for each source the sums in Wh of the energies of that day's 1440 minutes; the minutes of an unfinished last day are not written. At exactly 500000 minutes the heading is that of the table of minutes. A unit with more than three heat sources writes outside the arrays of sums in the first minute.", "quantifier": "every ready unit and schedules, every length from 500000 minutes on", "why_tests_cant": "sums over hundreds of thousands of steps", "anchors": ["src/hpwh/run.cpp: run"]}
{"id": "C99", "title": "Settings of a run", "statement": "Given only length and the five schedules the command completes for every ready unit, in particular for every generic heat pump of a litre or more within the temperature range of C94. A file of measured temperatures can never be used: reading fails for every file and leaves the unit unchanged. Without a positive setpoint in the settings, initial temperatures and that file are ignored. The argument air_temp_C is converted from Fahrenheit.", "quantifier": "every unit, file and settings", "why_tests_cant": "all files and settings", "anchors": ["src/hpwh/run.cpp: run", "src/HPWH.cc: HPWH::setTankFromMeasured", "src/HPWHpresets.cc: HPWH::initGeneric"]}
{"id": "C100", "title": "Single-pass heating ends", "statement": "A heating call of an external single-pass condenser over the whole height of a tank of at least twelve nodes, whose shut-off logics stop it when water is hot, completes, after a number of passes bounded by the node count and the distance to the setpoint. With a shut-off logic that stops it when water is cold it never ends if that water is at the logic's value or less than a ten thousandth of a degree above, and in double precision a call of one minute can cool the tank, with a negative run time. With fewer than twelve nodes it never ends, even with a logic that stops it when water is hot, if the logic looks at the top node, its value is not below the setpoint and only the bottom node is colder, if the time allowed would suffice to heat it.", "quantifier": "every profile, duration, map that is positive between the coldest node and the setpoint, and shut-off logics of the kind named", "why_tests_cant": "termination for all profiles; the endless cases hang a test", "anchors": ["src/Condenser.cc: Condenser::addHeatExternal", "src/HPWHHeatingLogic.cc: HPWH::TempBasedHeatingLogic::getFractToMeetComparisonExternal", "src/HPWH.hh: HPWH::HeatSource::fractToMeetComparisonExternal"]}
{"id": "C101", "title": "Units with external condensers complete their steps and runs", "statement": "A step of a sound and ready unit whose compressor heats the water outside the tank completes and leaves the setpoint unchanged, and so does a run of any number of steps, with the heat balance of C23, and the run command with the table of C97: for multi-pass units with ports inside the tank, outlet not above inlet, and for single-pass units over the whole height of at least twelve nodes whose shut-off logics stop them when water is hot and which stay between some temperature and the setpoint.", "quantifier": "every profile, draw, signal, number of steps and performance map that is positive at the water temperatures that can occur", "why_tests_cant": "termination of nested loops for all profiles, inputs and maps", "anchors": ["src/Condenser.cc: Condenser::addHeatExternal, Condenser::addHeatExternalMP", "src/HPWH.cc: HPWH::runOneStep, HPWH::addHeatParent", "src/hpwh/run.cpp: run"]}
{"id": "C102", "title": "Integrated presets are accepted and start as described", "statement": "Selecting any of the 64 preset models without external heat pump succeeds whatever the object was before and whatever its new heat sources' unset members hold. The result is a tank of 12 or 24 equal nodes and at least 100 litres, all at one temperature (the setpoint, except for StorageTank and AquaThermAire), a step of one minute, nothing on; no condenser is external; each source can be engaged by its own logic or as the backup of one that can.", "quantifier": "all 64 models, every previous state of the object, every content of uninitialised members", "why_tests_cant": "one test per model starts from one fresh object and looks at a few values", "anchors": ["src/HPWHpresets.cc: HPWH::initLegacy", "src/HPWH.cc: HPWH::calcDerivedValues, HPWH::checkInputs"]}
{"id": "C103", "title": "Integrated presets heat and complete their runs", "statement": "For each preset with heat sources except AquaThermAire, the compressor (if it has one) turns positive input into positive heat at every air temperature between its limits (for GenericUEF217 only up to 80 F) and every water temperature from 0 to 60 C (66 C for AOSmithCAHP120), so every run with such air, inlet and ambient temperatures and bounded draws completes, keeps the water in that range and satisfies the heat balance.", "quantifier": "the 62 models, every previous object state, runs of any length, every draw, signal and temperature in the ranges", "why_tests_cant": "positivity over a range of two continuous variables and termination over all schedules", "anchors": ["src/HPWHpresets.cc: HPWH::initLegacy", "src/HPWH.cc: HPWH::PerformancePolySet::evaluate, HPWH::runNSteps"]}
{"id": "C104", "title": "Preset data that defeat their purpose", "statement": "The compressor of GenericUEF217 has a negative COP at its own setpoint when the air is at its upper limit, that of Rheem2020Prem50 at its highest setpoint with air at its lower limit, and AquaThermAire a negative input power with water at 0 C; disabling the temperature depression of Stiebel220E's compressor has no effect; GE2014STDMode_80 lacks the upper air limit and hysteresis its 50-gallon version with the same map has; the bottom element of GenericUEF217 starts 15.6 K below the setpoint because its threshold of 60 F is converted as a temperature instead of a difference.", "quantifier": "every previous object state and uninitialised content; for the refutations one reachable state each", "why_tests_cant": "tests record the results of these presets as reference values", "anchors": ["src/HPWHpresets.cc: HPWH::initLegacy", "src/HPWH.cc: HPWH::calcDerivedValues"]}
{"id": "C105", "title": "External presets are accepted and are what they say", "statement": "initPreset succeeds for every preset with an external heat pump (Colmac, Nyle, Rheem HPHD, Mitsubishi QAHV, Sanco, the scalable ones), whatever the performance map, whatever state the object was in and whatever the uninitialised members of the new heat sources hold. The result has 24 or 96 nodes, all at the setpoint; the setpoint lies between 50 and 65 C and is one the unit itself accepts; exactly one compressor, which takes water from the bottom node and returns it at the top (single-pass) or, on 24 nodes, at the eighth node (multi-pass). A preset that resizes its tank has the volume it names in gallons and the heat loss per surface of the tank before. The sizing fractions reported are 1/3 and 11/12 (single-pass), 2/3 and 11/12 (three of the Sanco units), 1/3 and 2/3 + 0.0001 (multi-pass).", "quantifier": "For all forty-four presets, performance maps, previous states and uninitialised contents.", "why_tests_cant": "A test of a preset uses one map and one previous state; acceptance depends on relations between logics, ports, limits and setpoints that a change to one of forty-four branches can break.", "anchors": ["src/HPWHpresets.cc:725-2171", "src/HPWHpresets.cc:3796-3977", "src/HPWH.cc:2361-2417", "src/HPWH.cc:2881-3046", "src/Tank.cc:167-215"]}
{"id": "C106", "title": "Runs of external presets complete", "statement": "For every preset with an external heat pump: where the performance map predicts positive input power and COP, the compressor delivers heat (defrost derating, the defrost preheater and the secondary heat exchanger included, the map being asked up to 5 F and 10 K above the given temperatures). A run of a single-pass preset, with any draws, completes if the compressor delivers heat at the outside temperatures of the run and at every water temperature from a lower bound up to the setpoint, the outside air is above the temperature at which the outlet is limited, and ambient and inlet temperatures lie between the bound and the setpoint; all water temperatures stay between them in every minute, and stored heat changes by exactly inlet minus outlet water, heat delivered and standby losses. A run of a multi-pass preset completes with the same balance if the compressor delivers heat at every water temperature. The four Sanco presets, with the map they come with, complete every run with outside temperatures from -17 F to 156 F and ambient and inlet temperatures from 0 to 65 C; but at -25 F, their lowest operating temperature, and water at the setpoint their map gives a negative COP: the compressor would take heat from the water.", "quantifier": "For all forty-four presets, maps, previous states, run lengths, draws and temperatures within the ranges given.", "why_tests_cant": "Completion depends on a loop whose length has no a-priori bound; a test run shows that it ended once, for one map and one weather file, and cold days at which the map turns negative are not in the test data.", "anchors": ["src/HPWHpresets.cc:725-2171", "src/HPWHpresets.cc:3796-3977", "src/Condenser.cc: addHeatExternal", "src/HPWH.cc: runNSteps"]}
{"id": "C107", "title": "Queries about the compressor and single nodes", "statement": "After initialising any external preset, the coil configuration query says external; the flow rate query answers exactly for the multi-pass ones, in gallons per minute with the number the preset is written with, and is an error for the single-pass ones. In any object the compressor queries (coil configuration, multi-pass, external, external multi-pass, flow rate, minimum run time) are errors if there is no compressor and otherwise describe the compressor; the flow rate in L/s and gal/min agree; the minimum run time is 10 min, 600 s or 1/6 h; every other unit is an error. The temperature of an existing node, and of a virtual thermocouple, is given in either scale. Asking for a node that does not exist, above the top as below the bottom, is undefined behaviour and not an error.", "quantifier": "For all presets, maps, previous states, objects, node indices and units.", "why_tests_cant": "Tests ask a few presets in the default units; the missing range check shows only in memory contents.", "anchors": ["src/HPWH.cc:1766-1796", "src/HPWH.cc:2257-2295", "src/HPWH.cc:2317-2359", "src/Tank.cc:216-224"]}
{"id": "C108", "title": "What the name of a preset selects", "statement": "Each name of the list of presets has its own number and is found again by it, and no other name has a number. The number of each preset selects the branch of initLegacy written for it. Initialising by name through initLegacy succeeds for every listed name except the five whose branch is missing (BradfordWhiteAeroThermRE2HP50, -65, -80, IceAirccHPWH275D, -550D): for these it fails after the heat sources of the object have been removed; an unlisted name fails and changes nothing. The numeric ranges that configure and the table set-up compare with pick out families by name: the shut-off by entering water is set exactly for the single-pass (_SP) and Sanco units, the setpoint fixed exactly for the Sanco units, scaling allowed exactly for the scalable ones; outside its table the outside-temperature axis keeps the last value exactly for the Mitsubishi and multi-pass Nyle units and is continued linearly for all others. A table with fewer than two axes is undefined behaviour. Data read from a file under an unlisted name silently lose all this: the Mitsubishi's own data under another name are interpolated by cubics, extrapolated linearly, and lose the entering-water shut-off.", "quantifier": "For all names, numbers, coil configurations, tables, maps and previous states.", "why_tests_cant": "Tests cover listed names that work; that ranges of numbers contain exactly the right models, and that no listed model lacks a branch, is a statement about the whole enumeration, which is edited in another file.", "anchors": ["src/HPWHpresets.cc:331-357", "src/HPWHpresets.cc:4350-4353", "src/HPWH.cc:3048-3168", "src/Condenser.cc:1287-1358"]}
{"id": "C109", "title": "Performance maps of the Colmac and Nyle single-pass presets", "statement": "For each of the seventeen presets the regression map it is given predicts positive input power and COP at every setpoint from 100 F to the highest its compressor reaches, every outside temperature from the lowest at which it operates to 120 F and water from 0 C to that highest setpoint; output power is their product. At the setpoint of 135 F, air from 40 F to 120 F and water from 0 C to the setpoint, of two presets of the same maker the larger delivers more heat. Every run of such a preset at its setpoint of 135 F completes, with any draws, if the outside air is in that range (above 40 F for those with a cold weather package, below which the outlet is limited) and ambient and inlet temperatures are between 0 C and the setpoint; water stays between those, heat balances, and every state of the run has the setpoint at which the map was read. Finding: the two largest Nyle presets accept a setpoint of 70 F, at which their map predicts negative input power for air of 120 F, still within their range, and water of 0 C.", "quantifier": "For all presets of the two families, setpoints, air and water temperatures in the ranges, previous states, run lengths and draws.", "why_tests_cant": "A fitted polynomial is checked by tests at some points only; that it has no negative pocket anywhere in the operating range, and that runs therefore end, is a statement over a continuum.", "anchors": ["src/HPWHpresets.cc:725-971", "src/HPWHpresets.cc:1164-1436", "src/HPWH.cc:4513-4545", "src/HPWH.cc: runNSteps"]}
{"id": "C110", "title": "Performance maps of the Colmac multi-pass presets", "statement": "For each of the six presets the regression map it is given predicts positive input power and COP at every outside temperature at which the compressor operates (from its minimum to 105 F) and for water from 0 C to the highest setpoint it reaches; output power is their product. In a unit made from such a preset the compressor therefore delivers heat wherever it operates, derating by defrost included. From 40 F to 105 F, with water from 0 C to the setpoint of 135 F, the larger of two of these presets delivers more heat.", "quantifier": "For all six presets, all previous states, and all air and water temperatures in the ranges.", "why_tests_cant": "A fitted polynomial is checked by tests at some points only; that it has no negative pocket in the operating range and that two maps do not cross are statements over a continuum.", "anchors": ["src/HPWHpresets.cc:973-1162", "src/HPWH.cc:4520-4525", "src/HPWH.cc:4547-4561"]}
{"id": "C111", "title": "Replacing the performance map of a unit", "statement": "Replacing the performance map of a unit without a compressor is ignored. Otherwise the map of the first compressor is replaced and nothing else of the unit changes. In a unit with one compressor whose indices are computed, that is the compressor the queries and the simulation know by its index; with two or more it is not, and the compressor known by the index keeps its old map.", "quantifier": "every unit, any list of heat sources, every map (also one that depends on the condenser)", "why_tests_cant": "the first compressor and the compressor index (the last) agree in every preset; tests use presets only", "anchors": ["src/HPWH.cc:1802-1833", "src/HPWH.hh"]}
{"id": "C112", "title": "What heats in place of a locked-out source", "statement": "When a source with a resistance back-up is locked out, by the signal or by its operating range, nothing is heated in its place while the VIP element is on, while the back-up is already on by itself, while resistance is locked out by the signal, or if the source is off; then nothing of the unit but locks changes and the time left stays what it was. In every other case the back-up element heats in its place: if it runs for all the time left, the outcome is that of heating with it. The VIP element is only asked about for locked-out sources: the back-up of a compressor that reaches its maximum within the step does run beside the VIP element.", "quantifier": "every unit, source, air temperature, signal and remaining time; both number types", "why_tests_cant": "needs the combination of lock-out, back-up and VIP element in every order; presets have few of them", "anchors": ["src/HPWH.cc:385-460"]}
