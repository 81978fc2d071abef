# Formal model of arkottke/pygmm in Rocq (Coq 8.16.1)

## 1. Layout

| file(s) in `rocq/theories` | content |
|---|---|
| `Flt.v` | numbers: `flt = Fin R \| PInf \| NInf \| NaN`, exact real arithmetic with explicit IEEE special values |
| `Py.v` | Python values (`None`, number, str, bool), exceptions, emitted warnings (a monad), dictionaries |
| `Np.v`, `ArgMin.v` | `np.interp`, `scipy interp1d`, `np.select`, `np.clip`, `argmin`, indexing |
| `Framework.v`, `Heap.v`, `M_arrays.v`, `M_warn.v` | `model.py`: `Scenario`, `Parameter.check`, `Model.__init__`, accessors of `GroundMotionModel`; heap of scenario objects and histories; heap of the arrays that properties return; the interpreter's record of warnings already shown |
| `Data_*.v` | coefficient tables, exact rationals, generated from the CSV/JSON files of the package by `tools/gen_data.py`, `gen_json.py`, `gen_pr24.py` |
| `M_*.v` | one module of `/repo/src/pygmm` each, function by function; every definition cites its lines |
| `Spec_*.v`, `SpecNga.v`, `Nga.v`, `Outs.v`, `Outs1.v`, `Cont*.v` | vocabulary of the statements: published formulas over `R`, scenarios, observable outputs, continuity |
| `P_*.v`, `Anal.v`, `NpProofs.v`, `FrameworkProofs.v`, `FrameworkProps.v`, `GmmLib.v` | proofs |
| `Properties_*.v` | the theorems `Cxx_*` of the manifest, each with a non-vacuity `Example Cxx_nonvacuous*` |

How to read a theorem: `xxx src` is the constructor call `Xxx(Scenario(**src))` with a dictionary `src`; `nga_gives src a`
(`dbc_gives`, ...) says which values `src` holds; `gmm_out (xxx src) o` says that construction succeeds and that the accessors
(`spec_accels`, `pga`, `pgv`, `ln_stds`, `ln_std_pga`, `ln_std_pgv`) return `o`; `reports` additionally fixes the periods.
Published formulas in `Spec_*.v` never mention the model's functions; they share with it only the tables and the scenario records.

## 2. Trusted base

* Coq 8.16.1's kernel (with its `vm_compute` and primitive 63-bit integers and floats).
* Axioms, all of Coq's standard library, as listed by `Print Assumptions` (`ASSUMPTIONS.md` has the list for each theorem,
  `Print Assumptions` follows the theorems in the sources):
  * `ClassicalDedekindReals.sig_forall_dec`, `ClassicalDedekindReals.sig_not_dec`,
    `FunctionalExtensionality.functional_extensionality_dep` (the real numbers);
  * `Classical_Prop.classic` (library lemmas on derivatives, `ln`, `Rpower`);
  * `ClassicalEpsilon.constructive_indefinite_description` (Coquelicot's proofs of its lemmas);
  * the primitive-integer and float specifications (`Uint63.*`, `PrimInt63.*`, `PrimFloat.*`, `FloatAxioms.*`) where the
    `interval` tactic evaluates with primitive floats.
  No axioms of this development; no functors, module types or section-less variables.
* The translation from Python to Gallina by reading (comments cite the lines) and from the data files to rationals by
  `tools/gen_*.py` (decimal literals, read exactly).
* Arithmetic: rounding, overflow, underflow and the sign of zero are not modelled. `exp` never overflows, a sum is exact.
  Consequently a theorem says that the *formula computed by the code* has a property; nearly equal values may compare
  otherwise in binary64. NaN, infinities, division by zero, logarithms and powers outside their domain follow NumPy,
  i.e. inputs are taken as NumPy scalars. Plain Python numbers differ from them at two reachable places, both modelled
  separately: a fractional power of a negative number (TP05, `M_tp05c.v`) and a zero divisor (AB06, `M_ab06z.v`).

## 3. What is modelled and what is not

All modules of `/repo/src/pygmm` are modelled except `tools.py` and `types.py` (no behaviour). Per module, what is left out:

* `model.py`: NumPy scalar/array inputs of scenarios (numbers are scalars), text formatting of warnings (kept as fragments),
  loading of data files (the tables are constants).
* `abrahamson_gregor_addo_2016.py`: `adjust_c4`/`ADJUST_C1` variants are modelled where read; the unused keyword is left out.
* `gulerce_abrahamson_2011.py`: the fallback without `pga_ref` is modelled up to its first statement, which raises `TypeError`.
* `abrahamson_silva_1996.py`: integer arrays (truncation on in-place update) and Python scalars; float arrays are heap objects.
* `kishida_2017.py`: `np.linalg.inv` is any function that returns an inverse when there is one (`inv_spec`).
* `hermkes_kuehn_riggelsen_2014.py`: `NearestNDInterpolator` is any function that returns the value of a nearest event
  (`nearest_spec`); a missing data file (`OSError`) is represented by `EValue`.
* `bayless_abrahamson_2018.py`: attributes of the record array other than those read.
* `pinilla_ramos_et_al_2023.py`: scalars only; ties of `argmin` in exact arithmetic.
* `pinilla_ramos_et_al_2024.py`: `warnings.warn` texts.
* `stafford_2017.py`: label-based indexing of pandas objects (positions are used).
* `atkinson_boore_2006.py`: all modelled; stress adjustment and nonlinear slope are specified as coded (C111).

Not expressible in this model: binary64 rounding, run time; thread interleavings only for the one module variable the library writes after import (C131), with the interpreter's switch points at the accesses to it.

## 4. Plan per property

| property | modelled by | proved by |
|---|---|---|
| C01, C02 | `Scenario.__init__`, `copy_with` over dictionaries | induction over the key lists |
| C03, C12 | heap of scenarios; histories of constructor calls, reads, writes | invariant over histories (frame property) |
| C127-C130 | continuity of BSSA14, CB14, CY14, ASK14 along any continuous path of magnitude, distances, site velocity (P_ngacont.v), and the three places where it fails | Coquelicot continuity of the published equations (Spec files) composed with the `*_published` theorems; the jumps by contradiction with explicit ratios |
| C133 | CB14 without the published floor at short periods | the published equations (C114), closed by interval arithmetic |
| C134, C135 | hanging wall and style of faulting in the NGA-West2 models | the median is monotone in the source and path terms (nonlinear site response included), so each comparison reduces to the sign of one term; signs of the table columns decided over the rationals |
| C136 | the `kind` argument of the period interpolation (M_interp.v) | induction over the knots for the step kinds; the splines of order 2 and 3 are a parameter required only to pass through its points; period tables checked by computation. A negative or NaN period is outside the model for kinds other than linear/slinear |
| C137 | depth_1_0 and depth_2_5 in BSSA14, CY14, ASK14, CB14 (P_basin.v; vocabulary Spec_basin.v) | the basin term isolated in the published median (C112-C115), its sign per period range checked over the coefficient rows |
| C138 | programs that construct models, read array properties and write into the arrays (M_arrays.v: a heap of arrays; class arrays PERIODS and FREQS at fixed locations; Spec_arrays.v) | noninterference: simulation between the run with and without the writes, invariant that variables not obtained from the three sharing properties never point to an array an object or class owns; then direct runs for the violations |
| C139 | sessions of constructions and `warnings.simplefilter` calls over the interpreter's `__warningregistry__` (M_warn.v; every warning of the framework is attributed to the same line, so its text is the key; Spec_warn.v says which values a construction remarks on) | NoDup and membership invariant of the texts shown; the second model's texts are a subset of those shown; 'error' accepts iff the emitted list is empty iff all values are unremarkable |
| C140 | the reported ln_stds of the four NGA-West2 models for two magnitudes of one scenario (Spec_sigma.v `compares_std`) | the published forms of the deviations (C113-C115, C112), a sum of two squared ramps in one variable is convex so it falls when it falls at the end, coefficient facts over all rows by vm_compute; the rises by the same forms at the stated magnitudes |
| C141 | the reported medians of the four NGA-West2 models for two velocities of one scenario, relative to the same scenario on rock (Spec_site.v `pga_is`, `compares3`) | the published forms (C112-C115); u exp(-u) <= exp(-1) bounds the slope of the BSSA14/CY14 nonlinear term against ln v, a weighted-mean inequality for the exponential bounds the ASK14/CB14 one; rational bounds of the exponentials per row, checked over all rows by vm_compute |
| C142 | every constructor of the GroundMotionModel subclasses but HKR14, run on an arbitrary source dictionary (and options) | lengths of the row-wise maps equal the lengths of the class tables; index bounds decided on the class | 
| C143 | the reported accelerations of C03, TP05, PZT11, ASB14, AGA16 and COP14 for two magnitudes of one scenario | the published forms (C107-C109, C33, C37, C73); derivative signs, with interval bounds of the slopes and coefficient facts over all rows by vm_compute; ASB14 on soil by comparing the slope of the site term in ln PGA with the row's own slope |
| C144 | the 21 constructors on arbitrary source dictionaries, against tables transcribed from the PARAMS lists (Spec_asks.v) | a general theorem about the parameter checks (model_init depends on the checks only; the texts determine the parameter), and one walk through each constructor showing that nothing after the checks emits such a text |
| C145 | BSSA14, CY14, CB14: the checks after the parameter checks | the checks emit no such text, the calculation is silent, the step between decides by the mechanism |
| C146 | C03, TP05, PZT11, I14 medians and standard deviations along curves of magnitude, distance (and velocity) | composition of continuous functions on the published equations (C107–C110); jump lemma for one-condition rows, coefficient tables checked row by row |
| C147 | ASB14, AGA16, COP14 along joint curves | the row formulas of C33, C37, C73 as compositions of continuous functions; the site terms rewritten with minima and maxima |
| C148 | Softer sites in ASB14, AGA16, COP14 | the site terms as functions of the velocity at fixed rock PGA: derivative signs from one table-wide inequality per coefficient set; the rock PGA is that of the same scenario at the reference velocity |
| C149 | Durations along joint curves | the real-valued duration formulas of C42, C43, C44, C79, C103 as compositions of continuous functions; branches rewritten with minima and maxima; the AS16 hinge excluded |
| C150 | Joint curves for DBC14, GA11, I14, BA19 on rock | the network, ratio, table and term formulas of C77, C74, C110 and C52 as compositions of continuous functions; at 760 m/s and above the non-linear term of BA19 is zero |
| C151 | Taking entries out | the UserDict/MutableMapping methods as functions on the scenario (M_scen.v, M_scenops.v); the effect on models through the tables of C144 |
| C152 | ASK14 aftershocks | the aftershock term added to the published source terms of C107; signs of its coefficients by computation over the table; the site response preserves the order (as in C134) |
| C153 | AGA16: back-arc sites | the two medians differ by the back-arc term, through the monotone site response for PGA (as in C71) and the linear one from 1086 m/s; its signs by computation over the table and bounds on the logarithm |
| C154 | Deeper earthquakes | the depth terms of the published source terms of C112, C114, C115 and C37; signs of their coefficients by computation over the tables (and bounds on cosh in CY14); the site response preserves the order (as in C134) |
| C155 | Regions attenuate differently | the anelastic terms of the published source terms (C112–C115), region by region; signs and ordering of the regional coefficients by computation over the tables; the site response preserves the order (as in C134) |
| C156 | AB06 grows with magnitude | the quadratic reference relation against the fall of the stress adjustment (a fixed convex combination of table rows, each at most 0.2 times a capped exponential): slope bounds on [3, 7.25] and [7.25, 8] by computation over the table; the nonlinear site slope stays above -0.65 |
| C157 | ASK14 in Taiwan and Japan | from 960 m/s the site response does not depend on the shaking, so the medians differ by the published regional term; its sign by computation over the table |
| C131, C132 | HKR14 constructions as five-step threads over the module variable and the file (`hkr14_step`, `hkr14_sched`, M_hkr14.v) | invariant over schedules; variant for progress |
| C122-C124, C126 | `repr`, `getattr`/`hasattr`, deep copy, pickling, merge operators, call arguments (M_scen.v; names of UserDict as in CPython 3.11) | case analysis on the lookups; invariant over histories; induction on the recursion limit |
| C04-C08 | `Parameter.check`, `_check_inputs` for arbitrary parameter lists | induction over the parameter list |
| C09-C11 | accessors, period interpolation for arbitrary tables | list induction; linear interpolation between neighbours |
| C13 | `PARAMS` of the 21 scenario-based models | evaluation over the lists, lifted to every scenario by C04 |
| C14, C15, C107 | Campbell 2003 | reduction to a real formula; derivative signs; table conditions by `forallb` |
| C16, C55, C108 | Tavakoli & Pezeshk 2005 | domain of the powers; exact NaN set; complex values of Python floats bounded away from the reals; hinge |
| C17, C109 | Pezeshk et al. 2011 | monotone pieces in distance |
| C18, C19, C110 | Idriss 2014 | monotonicity in each argument; branch joins |
| C20-C22, C56, C111, C125 | Atkinson & Boore 2006 | interpolation over period, jumps evaluated by `interval` |
| C23, C24, C61-C63, C114, C117 | Campbell & Bozorgnia 2014 | real form of all terms; quadratic form of the sigma |
| C25-C27, C59, C60, C113, C116 | Boore et al. 2014 | same |
| C28, C29, C58, C64-C69, C115, C119 | Abrahamson et al. 2014 | same; NaN reference eliminated |
| C30-C32, C57, C58, C112, C118 | Chiou & Youngs 2014 | same; `cosh` bounds |
| C33, C34, C70 | Akkar et al. 2014 | metric precedence by cases; continuity by limits |
| C37, C38, C71, C72 | Abrahamson, Gregor & Addo 2016 | same |
| C73 | Coppersmith & Bommer 2014 (built on AGA16) | same |
| C39, C40, C74-C76 | Gulerce & Abrahamson 2011 | real form, interpolation lemmas |
| C35, C77, C78 | Derras et al. 2014 (neural network) | `tanh` bounds; interval bounds on weights |
| C41, C79, C80 | Abrahamson & Silva 1996, heap of arrays | heap reasoning; monotonicity |
| C42, C81 | Kempton & Stewart 2006 | domain of the logarithm; monotonicity |
| C43, C82-C84 | Afshari & Stewart 2016 | same |
| C44, C45, C98, C99 | Pinilla-Ramos et al. 2023 | continuity, monotonicity, `argmin` |
| C46, C103-C106 | Pinilla-Ramos et al. 2024 | same; arrays as lists |
| C47, C48, C85-C87, C120 | Baker & Jayaram 2008 | algebra, monotone pieces; positive definiteness by an integral representation |
| C49, C88, C121 | Kishida 2017 | matrix algebra over lists, any inverse; block inverse and Schur complement of any size |
| C50, C89, C90 | Bayless & Abrahamson 2018 | matrix entries; `tanh` monotonicity |
| C51, C52, C94-C97 | Bayless & Abrahamson 2019 | row forms; NaN propagation |
| C53, C100-C102 | Stafford 2017 | matrix entries; exponentials |
| C36, C91-C93 | Hermkes et al. 2014, class-level cache | invariant over call histories; nearest neighbour |
| C54 | Abrahamson & Bhasin 2020 | case analysis on the constructor |

Violations (a property a user would expect and the code breaks) are stated as theorems too, universally quantified where
possible: C08, C15, C20, C22, C23, C25, C39, C41, C42, C45, C51, C53, C54, C55, C60, C61, C62, C64, C68, C76, C80, C83, C84, C90,
C93, C100, C102, C105, C106, C116, C117, C118, C119, C122-C126, C128-C131, C133, C134, C138, C139, C140, C142, C143. The property text then gives the expectation and how the code departs from it.

## 5. Tests of the theorems

`tools/mutate.py FILE` applies realistic bugs to the model in a scratch copy and rebuilds; `seeded/LOG.jsonl` has one line per
attempt: the edit, the claim it breaks, the manifest theorems that no longer prove (`failed`), internal lemmas
(`failed_lemmas`) and the theorems that were tightened or added because of it (`tightened`).

## 6. Tests of the model

`tools/golden.py` extracts the model to OCaml in a scratch directory (binary64 for the reals, libm for the functions) and
compares it with the reference values of `/repo/tests/data` under the tolerances of the project's own tests: 1075 calls, about
8000 numbers, for ASK14, BSSA14, CB14, CY14, I14, ASB14, AGA16, CoppersmithBommer2014, DBC14, GA11, AS96, BJ08, Kishida 2017,
BA19, PR23 and PR24; all agree. No code of `/repo` is run. Nothing in the proofs depends on this. (The project has no
reference values for AB06, C03, TP05, PZT11, KS06, AS16, BA18, Stafford 2017 or AB20 - its Stafford test is disabled, and the
model's correlations exceed one as C102 states - and HKR14 needs a data file that is not in the repository.)
