(** The gas index: sblib/src/i2c/sensirion_gas_index_algorithm.cpp, called by SGP4x.cpp.
    Floats as in Flt_Model (multiples of 2^-149, every operation rounded). A result which is not finite (overflow, division by zero, root of a negative number) ends the calculation: None.
    expf and sqrtf come from the C library and are arbitrary functions here.
    Left out: the tuning parameters (160-190, the driver never sets them), get_sampling_interval (136-139), the copies of a sigmoid's parameters (447-453: they are set directly before each use and passed as arguments here). *)
From Verif Require Export Base Flt_Model Sfc_Model.
Open Scope Z_scope.

(** math.h of the C library *)
Record clib := mkLib { expf : Z -> Z; sqrtf : Z -> Z }.
(** IEEE 754: finite results only *)
Definition fin (x : Z) : option Z := if Z.abs x <? 2 ^ 277 then Some x else None.
Definition both (f : Z -> Z -> option Z) (a b : option Z) : option Z := match a, b with Some a, Some b => f a b | _, _ => None end.
(** C: a + b, a - b, a * b, a / b in floats *)
Definition oadd := both (fun a b => fin (fadd a b)).
Definition osub := both (fun a b => fin (fsub a b)).
Definition omul := both (fun a b => fin (fmul a b)).
Definition odiv := both (fun a b => if b =? 0 then None else if b <? 0 then fin (fdiv (- a) (- b)) else fin (fdiv a b)).
(** C: expf(a), sqrtf(a) *)
Definition oexp (E : clib) (a : option Z) : option Z := match a with Some a => fin (expf E a) | None => None end.
Definition osqrt (E : clib) (a : option Z) : option Z := match a with Some a => if a <? 0 then None else fin (sqrtf E a) | None => None end.
(** a literal n / d *)
Definition K (n d : Z) : option Z := Some (lit n d).
Notation "'let*' x ':=' e 'in' k" := (match e with Some x => k | None => None end) (at level 200, x pattern, e at level 200, k at level 200, right associativity).

(** sensirion_gas_index_algorithm.h:117-159 GasIndexAlgorithmParams, in parts: what the type of gas determines (and the tuning); *)
Record cfg := mkCfg { isNox : bool; interval : Z; indexOffset : Z; srawMinimum : Z; gatingMax : Z; initMean : Z; initVariance : Z; gatingThreshold : Z; indexGain : Z; tauMean : Z; tauVariance : Z; stdInitial : Z }.
(** ... m_Mean_Variance_Estimator__; [constX]: ___Gamma_X, [gammaX]: __Gamma_X *)
Record est := mkEst { einit : bool; emean : Z; eoffset : Z; estd : Z; constMean : Z; constVariance : Z; constInitMean : Z; constInitVariance : Z; gammaMean : Z; gammaVariance : Z; uptimeGamma : Z; uptimeGating : Z; gatingMinutes : Z }.
(** ... m_Mox_Model__ *)
Record mox := mkMox { moxStd : Z; moxMean : Z }.
(** ... m_Sigmoid_Scaled__ *)
Record sigm := mkSigm { sigK : Z; sigX0 : Z; sigDefault : Z }.
(** ... m_Adaptive_Lowpass__ *)
Record lowpass := mkLow { lowA1 : Z; lowA2 : Z; linit : bool; lowX1 : Z; lowX2 : Z; lowX3 : Z }.
(** ... all *)
Record gas := mkGas { gcfg : cfg; uptime : Z; sraw : Z; gasIndex : Z; gest : est; gmox : mox; gsig : sigm; glow : lowpass }.

(** sensirion_gas_index_algorithm.cpp:235-275 *)
Definition estimatorSetParameters (C : cfg) : option est :=
  let si := Some (interval C) in
  let hours := odiv si (K 3600 1) in
  let* gm := odiv (omul (omul (K 8 1) (K 64 1)) hours) (oadd (Some (tauMean C)) hours) in
  let* gv := odiv (omul (K 64 1) hours) (oadd (Some (tauVariance C)) hours) in
  let* gim := if isNox C then odiv (omul (omul (K 8 1) (K 64 1)) si) (oadd (K 1200 1) si) else odiv (omul (omul (K 8 1) (K 64 1)) si) (oadd (K 20 1) si) in
  let* giv := odiv (omul (K 64 1) si) (oadd (K 2500 1) si) in
  Some (mkEst false 0 0 (stdInitial C) gm gv gim giv 0 0 0 0 0).
(** sensirion_gas_index_algorithm.cpp:277-285 *)
Definition estimatorSetStates (e : est) (mean std uptime_gamma : Z) : est :=
  mkEst true mean (eoffset e) std (constMean e) (constVariance e) (constInitMean e) (constInitVariance e) (gammaMean e) (gammaVariance e) uptime_gamma (uptimeGating e) (gatingMinutes e).
(** sensirion_gas_index_algorithm.cpp:287-291 *)
Definition getStd (e : est) : Z := estd e.
(** sensirion_gas_index_algorithm.cpp:293-298 *)
Definition getMean (e : est) : option Z := oadd (Some (emean e)) (Some (eoffset e)).
(** sensirion_gas_index_algorithm.cpp:455-469 *)
Definition sigmoidProcess (E : clib) (X0 k sample : option Z) : option Z :=
  let* x := omul k (osub sample X0) in
  if x <? lit (-50) 1 then K 1 1 else if lit 50 1 <? x then K 0 1 else odiv (K 1 1) (oadd (K 1 1) (oexp E (Some x))).
(** sensirion_gas_index_algorithm.cpp:306-393; [index]: mGas_Index *)
Definition calculateGamma (E : clib) (C : cfg) (index : Z) (e : est) : option est :=
  let si := Some (interval C) in
  let* limit := osub (K 32767 1) si in
  let* ugamma := if uptimeGamma e <? limit then oadd (Some (uptimeGamma e)) si else Some (uptimeGamma e) in
  let* ugating := if uptimeGating e <? limit then oadd (Some (uptimeGating e)) si else Some (uptimeGating e) in
  let* sgm := sigmoidProcess E (Some (initMean C)) (K 1 100) (Some ugamma) in
  let gm := oadd (Some (constMean e)) (omul (osub (Some (constInitMean e)) (Some (constMean e))) (Some sgm)) in
  let threshold := Some (gatingThreshold C) in
  let* gtm := oadd threshold (omul (osub (K 510 1) threshold) (sigmoidProcess E (Some (initMean C)) (K 1 100) (Some ugating))) in
  let* sgatm := sigmoidProcess E (Some gtm) (K 9 100) (Some index) in
  let* gammaM := omul (Some sgatm) gm in
  let* sgv := sigmoidProcess E (Some (initVariance C)) (K 1 100) (Some ugamma) in
  let gv := oadd (Some (constVariance e)) (omul (osub (Some (constInitVariance e)) (Some (constVariance e))) (osub (Some sgv) (Some sgm))) in
  let* gtv := oadd threshold (omul (osub (K 510 1) threshold) (sigmoidProcess E (Some (initVariance C)) (K 1 100) (Some ugating))) in
  let* sgatv := sigmoidProcess E (Some gtv) (K 9 100) (Some index) in
  let* gammaV := omul (Some sgatv) gv in
  let* minutes := oadd (Some (gatingMinutes e)) (omul (odiv si (K 60 1)) (osub (omul (osub (K 1 1) (Some sgatm)) (oadd (K 1 1) (K 3 10))) (K 3 10))) in
  let minutes := if minutes <? 0 then 0 else minutes in
  let ugating := if gatingMax C <? minutes then 0 else ugating in
  Some (mkEst (einit e) (emean e) (eoffset e) (estd e) (constMean e) (constVariance e) (constInitMean e) (constInitVariance e) gammaM gammaV ugamma ugating minutes).
(** sensirion_gas_index_algorithm.cpp:395-445 *)
Definition estimatorProcess (E : clib) (C : cfg) (index : Z) (e : est) (sraw : Z) : option est :=
  if negb (einit e) then
    Some (mkEst true 0 sraw (estd e) (constMean e) (constVariance e) (constInitMean e) (constInitVariance e) (gammaMean e) (gammaVariance e) (uptimeGamma e) (uptimeGating e) (gatingMinutes e))
  else
    let far := (lit 100 1 <=? emean e) || (emean e <=? lit (-100) 1) in
    let* offset := if far then oadd (Some (eoffset e)) (Some (emean e)) else Some (eoffset e) in
    let mean := if far then 0 else emean e in
    let* sraw := osub (Some sraw) (Some offset) in
    let* g := calculateGamma E C index e in
    let* delta := odiv (osub (Some sraw) (Some mean)) (K 64 1) in
    let* c := if delta <? 0 then osub (Some (estd e)) (Some delta) else oadd (Some (estd e)) (Some delta) in
    let* scaling := if lit 1440 1 <? c then omul (odiv (Some c) (K 1440 1)) (odiv (Some c) (K 1440 1)) else K 1 1 in
    let* std := omul (osqrt E (omul (Some scaling) (osub (K 64 1) (Some (gammaVariance g)))))
                     (osqrt E (oadd (omul (Some (estd e)) (odiv (Some (estd e)) (omul (K 64 1) (Some scaling)))) (omul (odiv (omul (Some (gammaVariance g)) (Some delta)) (Some scaling)) (Some delta)))) in
    let* mean := oadd (Some mean) (odiv (omul (Some (gammaMean g)) (Some delta)) (K 8 1)) in
    Some (mkEst true mean offset std (constMean g) (constVariance g) (constInitMean g) (constInitVariance g) (gammaMean g) (gammaVariance g) (uptimeGamma g) (uptimeGating g) (gatingMinutes g)).
(** sensirion_gas_index_algorithm.cpp:479-493 *)
Definition moxProcess (C : cfg) (m : mox) (sraw : Z) : option Z :=
  if isNox C then omul (odiv (osub (Some sraw) (Some (moxMean m))) (K 2000 1)) (Some (indexGain C))
  else omul (odiv (osub (Some sraw) (Some (moxMean m))) (omul (K (-1) 1) (oadd (Some (moxStd m)) (K 220 1)))) (Some (indexGain C)).
(** sensirion_gas_index_algorithm.cpp:503-532 *)
Definition sigmoidScaled (E : clib) (C : cfg) (s : sigm) (sample : Z) : option Z :=
  let* x := omul (Some (sigK s)) (osub (Some sample) (Some (sigX0 s))) in
  if x <? lit (-50) 1 then K 500 1
  else if lit 50 1 <? x then K 0 1
  else if 0 <=? sample then
    let* shift := if sigDefault s =? lit 1 1 then omul (odiv (K 500 1) (K 499 1)) (osub (K 1 1) (Some (indexOffset C)))
                  else odiv (osub (K 500 1) (omul (K 5 1) (Some (indexOffset C)))) (K 4 1) in
    osub (odiv (oadd (K 500 1) (Some shift)) (oadd (K 1 1) (oexp E (Some x)))) (Some shift)
  else omul (odiv (Some (indexOffset C)) (Some (sigDefault s))) (odiv (K 500 1) (oadd (K 1 1) (oexp E (Some x)))).
(** sensirion_gas_index_algorithm.cpp:534-544; X1 to X3 keep what they are *)
Definition lowpassSetParameters (C : cfg) (l : lowpass) : option lowpass :=
  let si := Some (interval C) in
  let* a1 := odiv si (oadd (K 20 1) si) in
  let* a2 := odiv si (oadd (K 500 1) si) in
  Some (mkLow a1 a2 false (lowX1 l) (lowX2 l) (lowX3 l)).
(** sensirion_gas_index_algorithm.cpp:546-582: ((1 - a) * X) + (a * sample) *)
Definition mixed (a x sample : Z) : option Z := oadd (omul (osub (K 1 1) (Some a)) (Some x)) (omul (Some a) (Some sample)).
(** sensirion_gas_index_algorithm.cpp:546-582 *)
Definition lowpassProcess (E : clib) (C : cfg) (l : lowpass) (sample : Z) : option (lowpass * Z) :=
  let '(x1, x2, x3) := if linit l then (lowX1 l, lowX2 l, lowX3 l) else (sample, sample, sample) in
  let* x1 := mixed (lowA1 l) x1 sample in
  let* x2 := mixed (lowA2 l) x2 sample in
  let* delta := osub (Some x1) (Some x2) in
  let* delta := if delta <? 0 then omul (K (-1) 1) (Some delta) else Some delta in
  let* F1 := oexp E (omul (K (-2) 10) (Some delta)) in
  let* tau := oadd (omul (osub (K 500 1) (K 20 1)) (Some F1)) (K 20 1) in
  let* a3 := odiv (Some (interval C)) (oadd (Some (interval C)) (Some tau)) in
  let* x3 := mixed a3 x3 sample in
  Some (mkLow (lowA1 l) (lowA2 l) true x1 x2 x3, x3).
(** sensirion_gas_index_algorithm.cpp:116-134 *)
Definition initInstances (C : cfg) (l : lowpass) (up raw index : Z) : option gas :=
  let* e := estimatorSetParameters C in
  let* mean := getMean e in
  let s := if isNox C then mkSigm (lit (-101) 10000) (lit 614 1) (lit 1 1) else mkSigm (lit (-65) 10000) (lit 213 1) (lit 100 1) in
  let* l := lowpassSetParameters C l in
  Some (mkGas C up raw index e (mkMox (getStd e) mean) s l).
(** sensirion_gas_index_algorithm.cpp:109-114 *)
Definition reset (g : gas) : option gas := initInstances (gcfg g) (glow g) 0 0 0.
(** sensirion_gas_index_algorithm.cpp:72-101 (before the reset); sensirion_gas_index_algorithm.h:58-98 *)
Definition config (nox : bool) (sampling_interval : Z) : cfg :=
  if nox then mkCfg true sampling_interval (lit 1 1) 10000 (fmul (lit 60 1) (lit 12 1)) (fmul (lit 3600 1) (lit 475 100)) (fmul (lit 3600 1) (lit 570 100)) (lit 30 1) (lit 230 1) (lit 12 1) (lit 12 1) (lit 50 1)
  else mkCfg false sampling_interval (lit 100 1) 20000 (fmul (lit 60 1) (lit 3 1)) (fmul (lit 3600 1) (lit 75 100)) (fmul (lit 3600 1) (lit 145 100)) (lit 340 1) (lit 230 1) (lit 12 1) (lit 12 1) (lit 50 1).
(** sensirion_gas_index_algorithm.cpp:72-101; [l]: what the memory held before *)
Definition initWithSamplingInterval (nox : bool) (sampling_interval : Z) (l : lowpass) : option gas := initInstances (config nox sampling_interval) l 0 0 0.
(** sensirion_gas_index_algorithm.cpp:141-147 *)
Definition getStates (g : gas) : option (Z * Z) := let* m := getMean (gest g) in Some (m, getStd (gest g)).
(** sensirion_gas_index_algorithm.cpp:149-158 *)
Definition setStates (g : gas) (state0 state1 : Z) : option gas :=
  let e := estimatorSetStates (gest g) state0 state1 (fmul (lit 3 1) (lit 3600 1)) in
  let* mean := getMean e in
  Some (mkGas (gcfg g) (uptime g) state0 (gasIndex g) e (mkMox (getStd e) mean) (gsig g) (glow g)).
(** sensirion_gas_index_algorithm.cpp:198-205: the reading as it is used *)
Definition takeSraw (C : cfg) (old value : Z) : Z :=
  if (0 <? value) && (value <? 65000) then
    let v := if value <? srawMinimum C + 1 then srawMinimum C + 1 else if srawMinimum C + 32767 <? value then srawMinimum C + 32767 else value in
    ofInt (v - srawMinimum C)
  else old.
(** sensirion_gas_index_algorithm.cpp:206-217: the index before the low pass *)
Definition rawIndex (E : clib) (g : gas) (raw : Z) : option Z :=
  if negb (isNox (gcfg g)) || einit (gest g) then
    let* x := moxProcess (gcfg g) (gmox g) raw in
    sigmoidScaled E (gcfg g) (gsig g) x
  else Some (indexOffset (gcfg g)).
(** sensirion_gas_index_algorithm.cpp:222-230: learning *)
Definition learn (E : clib) (g : gas) (raw index : Z) : option (est * mox) :=
  if 0 <? raw then
    let* e := estimatorProcess E (gcfg g) index (gest g) raw in
    let* mean := getMean e in
    Some (e, mkMox (getStd e) mean)
  else Some (gest g, gmox g).
(** sensirion_gas_index_algorithm.cpp:231 *)
Definition shown (index : Z) : option Z := let* x := oadd (Some index) (K 5 10) in toInt x.
(** sensirion_gas_index_algorithm.cpp:192-233 *)
Definition process (E : clib) (g : gas) (value : Z) : option (gas * Z) :=
  if uptime g <=? lit 45 1 then
    let* up := oadd (Some (uptime g)) (Some (interval (gcfg g))) in
    let* n := shown (gasIndex g) in
    Some (mkGas (gcfg g) up (sraw g) (gasIndex g) (gest g) (gmox g) (gsig g) (glow g), n)
  else
    let raw := takeSraw (gcfg g) (sraw g) value in
    let* i := rawIndex E g raw in
    let* (l, i) := lowpassProcess E (gcfg g) (glow g) i in
    let index := if i <? lit 5 10 then lit 5 10 else i in
    let* (e, m) := learn E g raw index in
    let* n := shown index in
    Some (mkGas (gcfg g) (uptime g) raw index e m (gsig g) l, n).
(** SGP4x.cpp:184-187, once per measurement: the indices reported *)
Fixpoint indices (E : clib) (g : gas) (values : list Z) : option (gas * list Z) :=
  match values with
  | [] => Some (g, [])
  | v :: values =>
      let* (g, n) := process E g v in
      let* (g, ns) := indices E g values in
      Some (g, n :: ns)
  end.
