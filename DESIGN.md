# Formal model of SqLatticePercolation_py

Everything is in Rocq (Coq 8.16.1), directory `rocq/theories`, logical name `Verif`.

## Code that is modelled

| model file | code in /repo |
|---|---|
| `Py.v` | the Python layer: exceptions as values, list indexing with negative indices, `range`, `remove`, `max`/`min`, loops whose body may raise, symbolic float expressions |
| `Lattice.v` | `source_py/simulation/{element,index,site,bond,lattice}.py` |
| `Cluster.v` | `source_py/simulation/cluster.py` |
| `Perc.v` | `source_py/simulation/percolation_sq_lattice.py`, `..._L0.py`, `..._L1L2.py`, `..._shortest_path.py` |
| `Run.v` | `run_py/ensemble.py`, `run_py/rsbd_percolatioin_run.py`, `run_py/shortest_path_run.py` (loops, averages, columns, labels, file names, worker pools), the recording and replaying of cross-check files, `source_py/analyze/lines.py`, `main.py: print_duration` |
| `TestSuite.v` | `test_py/test_percolation_L0.py`, `..._L1.py`, `..._L2.py`, `test_percolation_sq_lattice_shortest_path.py` (the tests as programs; `test_lattice.py` and `test_data_json.py` check what C68, C72 and C65 prove) |
| `Programs.v` | the demonstration functions at the end of `percolation_sq_lattice.py`, `..._L0.py`, `..._L1L2.py` and `lattice.py`, `test_py/test_lattice.py`, the programs in `shortest_path_run.py`, `run_simulation_threads_v3`, `run_simulations` and the call in `main.py`, as programs returning what they print; length and seed are parameters |
| `Element.v` | site, bond, element and index classes used on their own: all methods, any arguments |
| `Bare.v` | the classes `Percolation` and `BondPercolation`: lattice and pool calls by the user, with the state left by failing calls |
| `Raw.v` | the lattice with its integer placeholders, for every integer length |
| `Break.v` | the simulation methods again, one statement at a time, for calls that are broken off |
| `BreakMore.v` | the custom-sequence setters, `swap_ids` and `test_run_once` again, one statement at a time |
| `World.v` | the classes again, several objects in one process drawing from the one generator of `random` |
| `Shared.v` | the classes again, id lists as list objects that several simulations may hold |
| `Arrays.v` | the curve getters, curves as list objects that the caller may keep and write into |
| `Heap.v` | cluster objects, their lists and index objects as objects in a store |
| `Extra.v` | small methods the library itself does not call (`merge_clusters`, `get_site_gids`, `is_root`, `add_sites`, ...) |
| `Float.v` | the arithmetic of CPython's `float` (binary64, round to nearest even) applied to the recorded expressions |

The model is a function-by-function transcription.  Every definition carries the
file and the lines it models; simplifications are in the same comment.

* A method is a function `perc -> perc * res A`: the object after the call plus
  a value or an exception.  The object is returned also when the call raises, so
  histories can continue after an exception.
* `while` loops take fuel; running out of fuel is a separate error `OutOfFuel`.
  Termination theorems show enough fuel always exists and how much is needed.
* Randomness: `e_draw : nat -> Z` is an arbitrary stream of words; `randint` maps
  a word into the range, `shuffle` is the Fisher-Yates loop of CPython.  Theorems
  quantify over all streams, hence over all outcomes.
* Iteration order of Python sets: `e_ord`, any function that returns the distinct
  elements of its argument in some order (`env_ok`).  Theorems quantify over it.
* Floating point: recorded values are the *expressions* the code evaluates
  (`fexpr`), interpreted in exact real arithmetic by `feval` (`Real.v`) and in binary64
  with round to nearest even by `fl` (`Float.v`, on Flocq's `round`).  C80 and C81 relate
  the two; the other statements about entropies are about exact arithmetic.  Ratios of
  integers (order parameters, occupation probability, pc) are stated through their
  integer numerator and denominator.
* Object identity: one alias matters for users, the custom id list, which the
  object shares with the caller; it is modelled (`user_list`, `ids_shared`), and for
  several objects holding one list by a store (`Shared.v`).  Cluster objects, their lists and
  relative indices are values in `Perc.v`; `Heap.v` models them as objects and C114_refines
  shows that both give the same answers.

## Not modelled

Logging and debug printing inside other methods (the viewing and listing methods of the
lattice and the cluster pool are modelled by the text they print, `View.v`), the disk (the names and the text of
the files are modelled; of the text the date, the time of day and the sign of a negative zero are not), the clock (time stamps are parameters), `arguments.py` (experiments with argv),
processes/threads as such (each worker is an independent run), plotting,
`print_hi` in `main.py` (it calls `lattice.test` and `lattice.test_neighbors`, which do
not exist, so it would raise `AttributeError`), `init_logging`, the generator behind
`random.seed` (a seed is the stream it starts),
floating-point overflow and the digits of floats printed to the console, memory.

## Specification

`Spec.v` defines, without reference to the model, the torus (row/column
arithmetic), neighbours, bonds and their ends, walks through occupied sites, net
displacement, connectivity and wrapping loops.  `History.v` defines what the API
shows of an object (occupied sites, labels, cluster contents) and the histories
(`reachable`: constructor followed by any list of API calls, exceptions
included; `tracked`: histories in which detection follows each placement).

## Proof plan per property

Geometry (C01-C09, C29): closed form of the constructed lattice by induction over
the construction loops (`Geometry.v`).

Invariants over all histories (C07, C10-C16, C20-C22, C26-C28, C30, C37, C38,
C47, C55): one inductive invariant (`Inv.v`): static geometry; pool characterised
by the labels; occupied site's bonds carry its label; equal labels imply equality
or an occupied end; same-label sites are joined by a walk whose displacement is
the difference of relative indices; tracker of the largest cluster; wrapping
record.  `Merge.v` shows `merge_clusters_v2` preserves it by induction over its
loops.

Entropy (C17-C19): exact real arithmetic over the characterised pool (`Entropy.v`).

Wrapping (C22-C25, C27): soundness from the walk invariant; completeness from
unit offsets while unwrapped plus congruence mod L (`Wrap.v`).

Selection rules (C33-C36, C44, C45): potential function (empty sites + remaining
neighbour counters) decreasing by exactly one per iteration (`Cand*.v`).

Runs, sequences, custom lists (C31, C32, C38-C43, C48-C52, C54): induction over
the run loop (`RunBase.v`, `RunProps*.v`,
`Cycle.v`, `Stop.v`, `Normal.v`).

Independence of set order and of the way sites were chosen (C46, C53, C60): a
simulation relation between two objects, preserved by every call (`Order.v`: the
physical part; `Sim.v`: same random words, different set orders; `Replay.v`: equal
event logs, and an L1 run in lockstep with the replaying object; `Exact.v`: with the
same set order, also equal labels and the same floating-point expression).

Recorded realizations (C65): lockstep of the recorded run and the replaying object
(`Files.v`).

Labels (C66, C67): the choice loop of a merge keeps the last largest cluster
(`Label.v`, induction over the loop); with the invariant "a bond relabelled n times
lies in a cluster of at least 2^n bonds, or in the wrapping cluster" along the small
steps of `Micro.v`.

Self-checks, printing, re-initialisation (C68-C73): `edited` lattices (`LatSpec.v`, any
sequence of setter calls) keep the static geometry, so each check loop reduces to a
condition on labels and displacements (`SelfTest.v`); printed texts are shown to be lists
of lines without newlines, and each line is read back with `ints` (`ViewSpec.v`,
`ViewProps.v`); the initialisers are folded over their nested loops (`Reinit.v`).  The
failing row scan is a computed 4x4 history (`SelfWitness.v`).

Where wrapping happens and the loops of the scripts (C74-C78): a set of sites with a free
row or column direction cannot be surrounded, so more than L^2 - L sites leave a full row
(`Critical.v`); the invariant "the site recorded at detection completed the first loop" is
carried through all calls (`PcI`, `PcP`); the script loops (`Script.v`) are compared with
`run_once` step by step (`Drive.v`); the counters follow by induction over place/detect
histories (`Summary.v`).  C79 is a computed 5x5 history (`TwoRows.v`).

Floating point (C80, C81): rounding is monotone and two different ratios with a common
denominator up to 2^49 stay apart, so order and equality survive (`FloatProps.v`); for the
entropy every operation adds at most half a unit in the last place, the placements are
summed by induction over the history (`FloatEnt.v`).  The accuracy of the C library's
logarithm is a hypothesis of C81, met by the correctly rounded logarithm.

Curves (C82): the recorded rows are observations of a chain of states joined by
place/detect calls, so C18-C21 give the shape of one run; pc is compared with the first
positive row by induction over the loop; means preserve all of it (`Curves.v`,
specification `CurveSpec.v`).

Shortest-path ensembles (C83) reuse the realization lemmas of C56/C57 with C50.  Late
detection (C84): while nothing wraps, the relative indices of every cluster are a
potential whether or not detection ran, so the verdict after the next placement is exact;
the rule that stops recording indices only fires once wrapping was found.  Growing lists
(C85): an invariant on the placement pointer and the sequence, with the shuffle as a
permutation.  The shipped tests (C86, C87) are modelled as programs (`TestSuite.v`) and
their outcome is derived from C44, C50, C51, C77, C84 and a decidable potential (`flat_listb`) that
excludes loops in the partly filled fixed configurations.

Demonstration programs (C88 to C92): the printing loops are induction over the remaining
placements (`ProgProps.v`); the placement at which detection first succeeds is found by
induction along the trace and tied to `get_pc` with the lemmas of C77.

Reported values as functions of the placed sites (C93) and symmetry (C94, C95): the
invariant `Dx` says that the occupied sites are exactly the placed list, `Hx` remembers
the split of the list at the site that closed the first loop; both are carried through
tracked histories (`Describe.v`) and give the records `described` and `loop_described` of
`SymSpec.v`.  A symmetry carries walks to walks, turns displacements by an invertible
linear map and permutes the bonds, so two described objects with corresponding lists
agree (`Symmetry.v`).

Equal shares (C96, C97): by C61 the vectors of random indices correspond one to one to
the orders of the sites, so counting vectors is counting permutations.  Orders with a
given beginning or a given entry are counted by removing it; the closing site is counted
by translating the order, which moves the closing site (C94) and is injective, so all
sites have the same count and the counts sum to all orders (`Chance.v`).  Not covered:
the two classes that choose between candidates.

Crash points (C98-C100): `Break.v` is a second model of the simulation methods, one
statement at a time, with a budget of statements after which the execution is cut; it
also knows that an attribute can be missing between `del` and the next assignment.
`BreakFacts.v` and `BreakReset.v` prove that with enough budget it does what `Perc.v`
says (so both models describe the same method), `BreakKeep.v` which part of the object
survives a cut anywhere (geometry, list of sites, bookkeeping of the inverse list),
`BreakProps.v` that this part is all `reset` needs.  Statements that raise inside the
interpreter (MemoryError in the middle of an `append`) are not covered.

Pools and roots (C101-C104): `Extra.v` models the remaining small methods, among them
the first merging step `merge_clusters`, which nothing calls.  `Root.v` adds to the
invariant of the histories that each cluster contains a site with relative index (0,0)
(unique because two such sites would be joined by a walk with displacement (0,0)).
`MergeV1.v` folds the loop of `merge_clusters` with an invariant that tracks labels and
sizes.  `PoolProps.v` proves an invariant of pools used without a percolation object
(`PoolSpec.v`), where clusters may hold any sites and bonds.

Chances under L1 and L2 (C105, C106): `L1ChanceSpec.v` conditions the shares of
`ChanceSpec.v` on the draws made after construction.  `L1Chance.v` shows that translating
the shuffled sequence translates the whole L1 run (a simulation that follows occupation,
rejection counters and the candidate list), and counts: translations permute the orders, so
counts are the same for all sites.  `L2Chance.v` computes three calls of the L2 rule.

What broken-off calls leave behind (C107, `BreakPoints.v`): over `Break.v`, for each
attribute, a compositional predicate "once changed, final" and one "never changed" for
actions; detection is followed statement by statement, and its consequences for later calls
come from the fact that no call but `reset` touches the loop data of an object whose flag is set.

Several objects in one process (C108, `World.v`, `WorldSpec.v`, `WorldProps.v`): a world is
a list of objects and one generator (the words it will produce and how many were taken).
Every method uses only the words from its position on and as many as it takes
(compositional predicate `local`), so the words an object took, concatenated, are a stream
with which it is alone.  Calls that draw nothing commute.  The two counterexamples are computed.

One list held by several objects (C109, `Shared.v`, `SharedSpec.v`, `SharedProps.v`): id
lists are cells of a store, objects refer to cells; a call is executed on the object with
its cell's contents, and what the single-object model says has become of the caller's list
is written back.  Invariant of the store: every object with its cell satisfies the
single-object invariant (cells keep length and consist of site ids).  A second predicate
(`obliv`) shows that methods do not depend on who else sees the list, a third (`reads_exec`)
which calls leave the cell alone.

Curves kept by the caller (C110, `Arrays.v`, `ArraysSpec.v`, `ArraysProps.v`): the four
curve lists are cells of a store, the caller may write into any cell.  Two predicates are
carried through all methods: every call but reset extends the curves (`gw`), and no method
depends on what the curves contain (`obv`).  Invariant of the store: the four current lists
are distinct existing cells and the object satisfies the single-object invariant.

Independent, equally distributed realizations (C111, `IidSpec.v`, `Iid.v`): no new model.
A relation between two objects (`indep`) is carried through all calls of a realization: they
report the same when their sequences and the set order agree, whatever else differs, and they
draw nothing.  Counting is moved from index vectors to orders of the sites (bijection of
C61), and joint counts are products by induction over the plan.

The law of L1 and L2 realizations (C112, `RulesLawSpec.v`, `Couple.v`, `RulesLaw.v`,
`RulesJoint.v`): no new model.  Two objects whose remaining candidates are permutations of each
other are coupled: each draw of one is answered by the draw that picks the same site in the
other, so that the words are mapped one to one and both report the same.  Independence: the
words a realization does not take are free for the next one; the words are rearranged one
to one so that those taken come first, and counts are products by induction over the plan.

Symmetry of the L1 and L2 growth (C113, `RulesSymSpec.v`, `RulesSym.v`): no new model.  A state and
a state that is its image under a lattice symmetry are coupled: the word for a candidate is
answered by the word that picks the image candidate, the word for a direction by the word for
the image direction.  This maps the word sequences one to one onto themselves such that the
order of placements becomes the image order; what is reported then follows from C93.

Kept objects (C114, `Heap.v`, `HeapSpec.v`, `HeapFacts.v` to `HeapProps.v`): the methods that make,
change or hand on cluster objects, their lists and index objects are transcribed a second time
on a store in which these have addresses.  `load` forgets the addresses.  Each method is
proved to commute with `load` (so `Perc.v`, which treats the objects as values, is a sound
reading of the code), together with what it may do to the store: old lists are only extended,
absorbed clusters get two new lists, index objects are never written, reset uses new addresses
only.  The statements follow by induction over the calls.

Averages (C115, `AverageSpec.v`, `Average.v`, `AverageProps.v`): an average over streams is a
mean over a duplicate-free list of everything that can be drawn.  `Average.v` proves mean
and variance of the mean of n values over all n-tuples and transfers this to any family of
streams in which tuples of values occur as often as independence demands.  The laws of C111
and C112 say just that of realizations.  C56 turns the file entries into such means;
Chebyshev's inequality gives convergence.

Any call broken off (C116, `BreakMore.v`, `BreakMoreSpec.v`, `BreakMoreFacts.v`,
`BreakMoreProps.v`): the remaining methods that change an object, one statement at a time.
What every cut leaves intact is weaker than in C98 (the sequence may be any non-empty list of
sites, the count of placements anything), and `reset` reads neither the count nor the
selection, so it still succeeds.  Installing a sequence and exchanging two sites are followed
assignment by assignment; a sequence with a repeated site makes every full run hit the
assertion at the second occurrence.

Elements on their own (C117, C118, `Element.v`, `ElementSpec.v`, `ElementProps.v`): sites,
bonds and index objects with any arguments and any order of calls, including the branches the
lattice never uses, what is printed, and ids that are not set yet.  The bonds of a site are
compared with a description of which offers are taken (`gathered`), by induction over the calls.

Plain objects (C119, `Bare.v`, `BareSpec.v`, `BareProps.v`): a lattice and a pool without any
placing method, driven by the user; calls that raise keep what they wrote.  The geometry is an
invariant of every call; the label loops are compared with the list of ids before the first bad
one, by induction over the list.

Placeholders (C120, `Raw.v`, `RawSpec.v`, `RawProps.v`): the lattice with entries that are the
integer 0 or an object.  For lengths from 0 on it is `Lattice.v` with every entry an object, which
justifies the simplification there; a negative length leaves only placeholders.

Uniform sets (C121, `CanonSpec.v`, `Canon.v`, `Thin.v`): a set of m sites is an increasing list;
the orders that begin with a set are counted with the lemmas of C96, and the sets through the
orders.  `Thin.v` shows that of the sets of exactly L sites only the rows and columns wrap: a loop
meets every row or every column, so there is one site in each and no step can leave the line.

Averages over sets (C122, `MeanSpec.v`, `Mean.v`): every set of m sites is reached by the same number of
choice lists (C121), so an average over the choices of something that depends on the occupied sites
only is the average over the sets; the entries of a run are matched with the pairs of placement and
detection (C31), and the threshold is written as a sum of indicators of not having wrapped (C82).

Critical values (C123, `CritSpec.v`, `Crit.v`): the rows of the file are the realizations of C56 and C83;
the sampling lemmas behind C115 are applied to any function of a row.  The threshold is the number of
placements until wrapping is first reported (`wrap_moment` in `Mean.v`), so "threshold at most m/N" is
"wrapped after m placements", whose chance C121 gives.

Text of the files (C124, `Savetxt.v`, `SavetxtSpec.v`, `SavetxtProps.v`, `SavetxtCrit.v`): `%.10e` is
modelled digit by digit from the binary64 value, together with the header and the rows as
`np.savetxt` lays them out.  A separate reader (`read_number`, `read_table`) is defined by splitting
text; what it returns is Flocq's rounding to eleven decimal digits, whose error bound gives the rest.

Averages in floating point (C125, `FloatMeanSpec.v`, `FloatMean.v`, `SavetxtMean.v`): the cells of the file are
shown to be literally ((x1 + x2) + ...)/n in the expressions of the code; a general bound for such
sums in binary64 is combined with C80/C81 for one realization and with C124 for the text.

Sample sizes (C126, `SampleSpec.v`, `Sample.v`): a value in an interval of length r has variance at most
r^2/4; with the variance of the averages (C115, C123) Chebyshev's inequality bounds the share of bad
random choices, and C124/C125 carry the bound to the numbers read from the text of the files.

Shape of the estimated curves (C127, `Expected.v`): the order and bounds of C82, which hold for each
realization, are carried to the averages over all choices, and by C122/C123 to the sets of sites.

Unbiased shuffling (C61): injectivity and surjectivity of the Fisher-Yates loop as a
function of its draws, by induction on the loop (`Unbiased.v`).

Drivers (C56, C57, C62, C64): induction over the ensemble loop with the accumulated
sums as invariant (`Ens.v`), injectivity of the file-name format (`Util.v`,
`Drivers.v`), C46 applied to every realization (`Seeded.v`).

Utilities (C58, C59, C63): induction over lists, rational arithmetic (`Util.v`).

Refuted expectations (C08 second half, C09, C24, C25, C36 boundary, C41, C49
second half, C50 minimality, C52, C57 labels, C65 for the L2 rule, C69 after wrapping, C79, C99, C100, C102, C106, C109, C116 for cut sequence calls) are stated as theorems with witnesses computed
by the kernel, or for all L where possible.

Theorems are collected in `Props_*.v`, one per property, with `Print Assumptions`
and an example meeting the hypotheses.

## Trusted base

Coq's kernel; the axioms listed by `Print Assumptions` under each theorem (none
for the integer theorems; the real-number axioms of the standard library for the
entropy theorems); the faithfulness of the model files to the Python source as
cited.

* `Props_Geometry`, `Props_State`, `Props_Wrap`, `Props_Run`, `Props_Cand`,
  `Props_Normal`, `Props_Shuffle`, `Props_Util`, `Props_Label`, `Props_View`, `Props_Drive`, `Props_Suite`, `Props_Chance`, `Props_Break` (except C98_resume), `Props_Canon` (except C121_largest), `Props_Raw`, `Props_Bare`, `Props_Element`, `Props_BreakMore` (except C116_resume), `Props_Pool`, `Props_Later`, `Props_World`, `Props_Arrays`, `Props_Iid`, `Props_GeomMore`, `Props_RulesLaw`, `Props_Heap`, `Props_RulesSym` (C113_symmetries, C113_orders, C113_L1), `Props_Shared` (only C109_undisturbed_refuted), `Props_Program` (except C92_drivers): "Closed under the global context".
* `Props_Entropy` (C17, C18, C19, C32), `Props_Order` (C46, C53, C60),
  `Props_Ens` (C56, C57, C64_set_orders), `Props_Files` (C65_files_replay), `Props_Float` (C80, C81), `Props_Curve` (C82), `Props_Symmetry` (except C94_symmetries), C92_drivers, C122_curves, C122_threshold, C123_rows, C123_threshold, C123_wrapping, C125_accuracy, C125_text, C126_curves, C126_threshold, C126_wrapping, C127_curves, C127_threshold, C124_number, C124_order, C124_integer, C124_fraction, C124_table, C124_critical, C121_largest, C98_resume, C116_resume, C109_safe, C109_as_alone, C113_values, C113_loops, `Props_Average` (except C115_streams, which uses none): the standard library's
  `ClassicalDedekindReals.sig_not_dec`, `ClassicalDedekindReals.sig_forall_dec`,
  `FunctionalExtensionality.functional_extensionality_dep` and
  `Classical_Prop.classic`, all through `Coq.Reals`.

`coqchk -o` also lists seven declarations `Coq.ssr.ssrunder.Under_rel.*`; they come
from a file of the standard library that is loaded transitively and no theorem
depends on them.  It further lists the opaque module implementations
`Coq.Reals.Rdefinitions.RbaseSymbolsImpl.*` and `RinvImpl.*`, which are how the
standard library seals the definition of the real operations.

## Validation of the model against recorded runs

`/repo/data_pytest` holds runs recorded by the original program.  `FilesWitness.v`
replays the 5x5 and 10x10 files inside Coq (`recorded_5`, `recorded_10`): pc, cluster
counts and both order-parameter lists come out as recorded.
`validation/replay_reference.py` does the same for the 5x5, 10x10 and 25x25 files with
sets iterating as CPython iterates small sets of ints, evaluates the entropy
expressions of the model in double precision and compares with `==`: all values of all
steps agree bit for bit.  These are tests of the model, not proofs.
