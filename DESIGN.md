# Formal model of `unyts` in Rocq (Coq 8.16.1) — design

## 1. Approach

The code is modelled as total Gallina functions that mirror the Python functions
branch by branch; every definition of the model cites the file and lines it stands for.

* **Exceptions** are values (`res A := Ok a | Err e`); the mutable module state
  (`units_network`, `unyts_parameters_`, `dictionary`, the disk) is an explicit record threaded
  through a state monad in which the state *survives* an exception, as in Python.
* **Loops** become structural recursion, or recursion on explicit fuel.  Running out of fuel
  is an exception of its own (`OutOfFuel`), which the theorems exclude (C13, C16, C29: it does
  not happen) or which makes a hypothesis false.
* **Strings** are lists of Unicode code points (`str := list N`).
* **Numbers**: the converter is parametrised by an arithmetic (class `Arith`).  Structural
  theorems (searches, memory, frames, exceptions) hold for every arithmetic, IEEE doubles
  included; algebraic theorems (round trip, sums, definitions…) are about exact rationals (`Qc`).
  C80 bounds what rounding changes in the answers of the shipped database.
* **Conversion functions** stored in the network are an AST (`conv`) with an evaluator;
  functions returned or remembered by the converter are defunctionalised closures (`fn`).
* **The network** is the insertion-ordered list of entries `(name, children, conversions)` of
  the Python dict; nodes are compared by identity there, so two nodes with one name can coexist
  and are kept.
* **The shipped tables** (`Dict.v`) are generated from `/repo` by `tools/gen_dict.py`; the
  network they make is computed by the kernel (`vm_compute`) and checked against a certificate
  (`ShippedCert.v`), and the check is proved to imply the statements for all paths and values.
* **The disk** is a map from paths to contents.  A write is a list of elementary steps (empty
  the file, append one character), so that a crash can be placed between any two.
* **Threads** (hybrid search): small-step interleaving semantics over all schedules.

Statements live in `Props*.v`, one theorem per claim, each proved by `exact` of a lemma; their
vocabulary is in the small `*Spec.v` files, which do not use the model's helpers.  Beside each
theorem a concrete case meets its hypotheses (`Example`s and `…_example` theorems).  A property
found false of the code is kept in view: a `…_refuted` theorem exhibits the witness, and the
strongest positive theorem is named `…_partial` when something of the claim is missing.

## 2. Files (`rocq/theories`)

| group | model | specification | lemmas | theorems |
|---|---|---|---|---|
| Python strings, results | `Py` | | | |
| unit strings (`helpers/multi_split.py`, `helpers/unit_string_tools.py`) | `StrTools` | `StrSpec` | `StrFacts`–`StrFacts3` | `PropsStr` |
| network and searches (`network.py`, `searches.py`) | `Network`, `Search`, `Hybrid`, `Conv` | `SearchSpec` | `NetworkFacts`, `SearchFacts`, `SearchFacts2`, `DescFacts`, `HybridFacts`, `ConvFacts`, `NetFacts2` | `PropsNet` |
| engine (`converter.py`) | `Converter` | `EngineSpec`, `ConsistSpec`, `CompositeSpec` | `EngineFacts`–`EngineFacts10`, `EngineInv`, `EngineExc`, `ConsistFacts`, `CleanFacts`, `Affine`, `Demo` | `PropsEngine`, `PropsEngine2`, `PropsEngine3`, `PropsErrors` |
| names of powers and products (`operations.py`) | `Operations` | `OpsSpec` | `OpsFacts`–`OpsFacts4` | `PropsOps` |
| shipped tables (`dictionaries.py`, `database.py`) | `Dict` (generated), `Database`, `Shipped` | `ShippedSpec`, `RegionSpec` | `FastDb`, `RegionFacts`, `SymAffine`, `ShippedCert` (generated), `ShippedCheck`, `ShippedFacts`–`ShippedFacts5`, `KindFacts` | `PropsShipped` |
| quantities (`unit_class.py`, `units/*.py`, `helpers/is_unit.py`) | `Units`, `Dates` | `UnitsSpec`–`UnitsSpec3`, `IsUnitSpec` | `UnitsFacts`–`UnitsFacts11`, `NumFacts`, `IsUnitFacts`, `IsUnitFacts2` | `PropsUnits`–`PropsUnits7`, `PropsUser`, `PropsDates` (lemmas `DateFacts`) |
| settings (`parameters.py`, parts of `database.py`, `network.py`; json) | `Json`, `Params` | `ParamsSpec` | `JsonFacts`, `JsonFacts2`, `ParamsFacts`, `ParamsFacts2`, `SwitchFacts` | `PropsParams` |
| numbers in texts (`helpers/caster.py`) | `Caster` | `CasterSpec` | `CasterFacts`–`CasterFacts3` | `PropsCaster` |
| the window (`gui.py`), the text of a path (`searches.print_path`) | `Gui`, `GuiEngine`, `PathText` | `GuiSpec` | `GuiFacts`–`GuiFacts4`, `PathFacts`, `GuiDemo` | `PropsGui`, `PropsGui2`, `PropsPath`, `PropsPath2`, `PropsElapsed` |
| arrays (NumPy, pandas: their elements) | `NumPy` | `NumPySpec` | `EngineInv`, `NumPyFacts` | `PropsNumPy` |
| quantities of arrays | `ArrQty`, `ArrMul` | `PropsArr` (`array_quantity`), `PropsArr2` (`element_wise`) | `ArrQtyFacts`, `ArrMulFacts` | `PropsArr`, `PropsArr2` |
| numbers that round | `NumPy.nmap` (the network over another number type) | `RoundSpec`, `RoundSpec2` | `RoundCheck`, `RoundFacts`, `RoundFacts2`, `RoundFacts3`, `RoundFacts4` | `PropsRound`, `PropsRound2`, `PropsRound3`, `PropsRound4` |
| quantities as objects, sharing, assignment, text (`unit_class.py:101-111, 580-603, 626-639`, `unitless.py:32-68`) | `Objects` | `PropsObjects` (`new_quantity`, `assigns`) | `ObjectsFacts` | `PropsObjects` |
| the network's own methods (`network.py:135-159, 201-231`) | `Direct` | `PropsDirect` (`chain`) | | `PropsDirect` |
| `unitary.py` | `Unitary` | `ShippedSpec.constants` | | `PropsUnitary` |
| questions to the user (dialogs and menus of `gui.py`, prompts of `parameters.py`, `database.py`, `network.py`) | `Dialogs` | `DialogSpec` | `DialogFacts` | `PropsDialogs`, `PropsPrompts` |
| start of a session (`dictionaries.py` end, `database.py` end, `__init__.py`, pickle files) | `Startup` | `StartSpec` | `StartFacts`–`StartFacts4` | `PropsStart`, `PropsWindow` |

`tools/`: `gen_dict.py` and `gen_cert.py` generate `Dict.v` and `ShippedCert.v`; `sim_db.py` is
an independent simulation used to find the certificate (not trusted: the kernel re-checks);
`manifest.py` writes `MANIFEST.json`; `mutate.py` runs the seeded bugs of `seeded/LOG.jsonl`.

## 3. Property by property

Status and exact theorem names are in `MANIFEST.json`; here: what is modelled and how it is proved.

| id | modelled | how it is proved |
|---|---|---|
| C01, C02 | `multi_split`, literally (bubble sort of the separators by length, index loop) | induction on the scan: the parts concatenate to the input, no part but a separator contains one; order independence because two different separators of one length cannot match at one place |
| C03 | `reduce_parentheses` | denotation `atom -> Z` (signed occurrences) as separate specification; full claim refuted (inversion flag never reset), proved for well placed groups by induction on the group structure |
| C04 | same | `ValueError` iff the counts or the nesting are unbalanced; loop measure = number of parentheses |
| C05 | `reduce_units` | denotation; refuted in general, proved when no name occurs more than twice; the result has no common factor, for all strings |
| C06, C07 | `unit_base_power`, `unit_power`, `unit_inverse`, `int()`/`float()`/`complex()` acceptance, `str(int)` | printing/reading of decimals proved inverse; case analysis on the last characters |
| C08 | `unit_product`, `unit_division` over the engine's `convertible` | frame of the engine (C20) plus the laws of C06; all histories |
| C09 | same with the shipped `unitless_names`, `unit_addition` | evaluation of the name list, then induction on the string |
| C10, C11 | `UDigraph.add_node/add_edge`, automatic reverse | invariant over all sequences of registrations; algebra of `x -> k*x` |
| C12–C14 | `BFS`, `print_path`, `DFS` on arbitrary networks | invariants on queue and visited list; a shortest path by the levels of the queue; termination measure |
| C15, C16 | `_get_descendants`, `lean_BFS` | descendants = units within the limit, by induction on generations; pruning keeps every path |
| C17 | two workers, polling loop | all interleavings of a small-step semantics; invariant on the shared list |
| C18–C21, C24, C25, C28, C30, C46–C48, C51 | `convert`, `_convert`, `_converter`, `_get_conversion`, `_lambda_loop`, `convertible`, `convert_for_SimPandas`, `_clean_input`, memory | invariant of the memory over any history of public calls ("what is remembered is what a fresh search gives"), by induction on the engine's fuel |
| C22, C23, C49 | same, exact arithmetic | potential argument: a network is *consistent* when every unit has an affine map to a common quantity and every edge commutes with it |
| C26 | composite branch | the factors convert one by one; induction on the list of factors |
| C27 | `set_conversion` | a new node's only edges are the new ones |
| C29 | recursion of `_converter` | the recursive equation has exactly one total solution (well-founded measure: budget) |
| C31 | density branch | computation of the branch for every density |
| C32–C34, C52, C53 | the tables and loader of `dictionaries.py`, `database.py` | certificate checked in the kernel (`check_true`), lifted by the consistency theorems; contradictory conversions listed in `ShippedSpec` |
| C35–C40 | quantities: constructors, `+ - * / // % ** @`, comparisons, `round`, `units()`, `is_unit` | the operations only convert and name user units (frame), plus the scales of C32 for every kind |
| C59–C61 | `//`, `%`, `round`, `.round`, `.equals`, `**` of quantities | what the operation returns as an expression of the scales of C32, then rational arithmetic (`NumFacts`: floors, nearest multiples of 10^-n) |
| C62, C63 | `is_unit`, `valid_unit`, the constructors | texts cut at their signs; the dictionary of a moment is the shipped one but for the user's names, which only grow; a predicate on names that all the `_create_…` functions preserve |
| C41, C42, C54–C57 | `parameters.py`, `set_fvf`, `delete_cache` | invariants over any sequence of calls; case analysis on the argument |
| C43 | JSON text as written and read by the standard library | reader ∘ writer = identity, by induction on the value; no proper prefix of an object is readable |
| C44 | saving as elementary disk steps | every prefix of the steps; refuted between the ends |
| C64 | `caster`, `to_number` (its nested `cleaner`, `validate`, `check`) | texts built from digits, groups and separators; what `split`, `replace` and `count` do with a one-character separator, by induction on the text |
| C65 | `_get_from`, `_get_to`, `_calculate`, `_rcalculate`, `_display_path` over any converter and any number reader | case analysis of what the boxes hold; the two sides are exchanged by a symmetry lemma; with the converter of the package, any history of the window is a history of its calls |
| C66 | the timers of tkinter as identifiers that may fire at any moment | invariant over all events: at most one pending timer; the position of the text is a walk up and down |
| C70 | `print_path`, the path kept by `convert` and by the memory | invariant of the memory extended with the path of each entry; text by induction |
| C69 | `unitary.py`, assignment by assignment | each `units(1, x)` by C40, induction on the list of assignments |
| C71 | a value is a number or the list of the elements of an array; the arithmetic works on elements | invariant of the whole engine (`EngineInv`): every function stored or remembered works element by element |
| C72 | the operators with a number or a tuple at the other side, `__rtruediv__`, `@`, `bool` | the constructors on listed names; the names x-1 are checked against the dictionary (`check_inverse`); products by the engine's conversions |
| C73 | the overrides of `__mul__` and `__truediv__` in energy.py and time.py | tables of laws in UnitsSpec3.v; case analysis of `.to`; products of other kinds by the engine's conversions (UnitsFacts9.v) |
| C74 | opening and closing the window, its file dialogs (`Window.v`) over the model of the start (`Startup.v`) | invariant `resting` of the disk between processes, kept by every window session |
| C75 | `_calculation_time` (`Elapsed.v`), exact rationals | rounding error bounds |
| C76 | `Date` (`Dates.v`), NumPy's `datetime64` as a count of a unit and the Gregorian calendar; counts beyond 64 bits are any function | the calendar of the model against `DatesSpec.next_day`, divisibility of the units |
| C77 | `__mul__`, `__truediv__`, `__add__`, `__sub__`, `__pow__` with `Dimensionless` and `Percentage` (`Units.v`) | membership in the class lists; kinds are disjoint (C33) |
| C78 | `UserUnits`, `set_conversion` with the engine after it (`Units.v`, `Converter.v`) | C25/C27/C28 on the state after the registration |
| C79 | quantities whose value is an array: `__getitem__`, `__len__`, `__iter__`, `to`, `+`, `-`, multiples, comparisons (`ArrQty.v`), `*`, `/`, `//`, `%` and sums of any two kinds (`ArrMul.v`), the operators with numbers, powers and rounding (`ArrNum.v`), `*` and `/` with the laws between kinds of C73 (`ArrLaw.v`), on the engine over arrays of C71 | C71's invariant: the conversion that the engine finds works on elements, so the operator does; on single numbers the operators are compared with those of `Units.v` |
| C80 | the shipped network over any number type (`nmap`, `RoundSpec`: each operation and literal exact but for a relative error ≤ e) | every conversion of the kinds concerned is a chain of at most 14 roundings (`RoundCheck.check_shapes`, computed in the kernel with `check_db` by the one lemma `check_true`), a simple path has at most 2 700 steps; relative errors multiply, Bernoulli; between temperatures each step is `x·a + k` with a > 0 and the errors, measured in the unit of reference, grow as `g·(E + s) - s` with s the size of the exact quantity and of the offsets (`check_temperatures`); products and ratios of units: factor by factor (C26), the errors of the factors multiplied, by induction on the list (`RoundFacts4.near_fold`), at most 37804 roundings per factor |
| C81 | `UDigraph.convert`, `conversion`, `list_nodes`, `__str__`, `Conversion` (`Direct.v`) | C10/C11 for the lookups, C32's scale for the agreement with `convert()`; `get_fvf` is the value or exception it gives at that moment |
| C82 | programs over objects: a memory of quantities and arrays, the commands make, convert, combine, assign, write (`Objects.v`, over the values of `ArrQty.v`, `ArrMul.v`) | commands that do not assign only extend the memory; every reference stands for an array (invariant of all programs); the array of a result is the place after the last |
| C83 | the attribute `value` when it is a list or a tuple (`ListVals.v`: Python's operators on lists, NumPy's on a list and an array), the quantity's methods on it | the operators on a list and an array are those on two arrays; what is converted is an array (C71's invariant); the rest is refuted by what Python's lists do |
| C67 | the loops of the two dialogs over the list of what the user answers; the marks of the menus | induction on the answers (a refused one is skipped), on the clicks (the marks are right) |
| C68 | the four loops on `input()` over the list of answers | induction on the answers; the accepted texts are specified as words, commas and parentheses |
| C50, C58 | `import unyts`: reading and writing of the five cache files | invariant on the disk ("every file is absent, right or cut") over all histories of sessions, ended or killed |

## 4. Trusted base

* **Coq's kernel** (8.16.1), including its virtual machine (`vm_compute`, `vm_cast_no_check`
  in `ShippedFacts.check_true`).
* **Axioms**: none.  `Print Assumptions` says *Closed under the global context* for every
  theorem of every `Props*.v` (each file ends with the commands).  Loading the standard
  library makes `Coq.ssr.ssrunder`'s module-local axioms visible to a checker that lists the
  whole environment; no theorem uses them.
* **The transcription**: that the definitions say what the cited lines do.
* **Facts about CPython taken into the model**
  * `float(repr(x)) == x`: a float is kept as its `repr` text wherever it is only stored,
    written or read (settings).
  * `dict` keeps insertion order; assignment to an old key keeps its place.
  * The text files are written in order, character by character, into a truncated file
    (a crash leaves a prefix); one write does not alter another file.  Re-ordering of writes by
    the operating system is not modelled, so `C44`/`C50` are about process death.
  * `pickle`/`cloudpickle`: functions `dump`/`undump` with `undump (dump x) = Ok x`, `dump x`
    not empty, and `undump` of a proper prefix raises.
  * tkinter: `after` gives a new identifier, `after_cancel` of a timer that has fired does nothing, `StringVar.set(x)`
    keeps `str(x)`; `stringthings` (`is_numeric`, `get_number`): the conditions of `GuiSpec.sane`, stated as a hypothesis
    and met by whole numbers (`GuiDemo`).
  * `json` writes a tuple and a list alike.
  * `tuple(set(l))` (`_complete_products`) is modelled by `l` itself: repetitions and order do
    not matter where it is read (membership).
* **Exact rationals instead of floats** in the algebraic theorems.  C80 is about any arithmetic
  whose operations have a bounded relative error: the range of floats (overflow, underflow,
  infinities, NaN) is not modelled, and a literal of the source counts as one number (one rounding).

The code is modelled from its text.  One slip: `helpers/caster.py` (standard library only) was once
executed on fifteen strings to compare with the model; no theorem or definition rests on it.

### What is modelled

`helpers/multi_split.py`, `helpers/unit_string_tools.py`, `helpers/is_unit.py`,
`helpers/caster.py`, `network.py`, `searches.py` (with `hybrid_BFS`), `converter.py`, `operations.py`,
`dictionaries.py` (all tables, `_load_dictionary`, the start), `database.py` (all tables,
`_load_network`, the `_create_…` functions, `_complete_products`, `_clean_network`,
`_rebuild_units`, `delete_cache`, `set_fvf`, the start), `unit_class.py`, `units/*.py` (all
constructors and operators on scalars), `gui.py` (the form and the text under it, `UnytsApp`, the dialogs for FVF and density, the marks of the menus, the files of the window, the time shown), `unitary.py`, `parameters.py`, `__init__.py` (`save`, `load`, start),
json and the pickle files (as above).

### What is not modelled

NumPy, pandas and SimPandas containers beyond the list of their elements (shapes, dtypes, indexes; for
conversions only: the value of a quantity is one number) and complex values;
NaT and the texts of dates (`units/date.py`: a date is made from year, month and day or a count); the rest of `gui.py` (the layout, help links); `pyinstaller`/installer files, `Empty.py`;
`network_to_frame` and other uses of pandas;
logging and printed text (the converter itself does not wait for the keyboard: what would be answered is part of its state); errors of the operating system (full disk, permissions); Unicode case mappings
beyond ASCII, Latin-1 and Greek; Python's limit on the digits of an `int` and on its own
recursion depth (other than the settings' `recursion_limit`); `eval` of texts that are not a
plain literal (a parameter of the model: any function).

## 5. Findings (claims refuted by a theorem)

Names are in `MANIFEST.json`; the most consequential ones:

* a group after a division inverts everything that follows (C03); one divisor cancels two
  factors (C05); `'m3/hr'` is read as base `m/hr`, power −3 (C06); `b⁻¹/bⁿ = b^(1+n)` (C08);
* a unit declared twice loses its descendants, so `lean_BFS` fails where BFS succeeds (C15, C16);
* the hybrid search can poll for ever when one worker raises (C17);
* a failure met with `recursion_limit(0)` is remembered for ever, even for `convert(x, a, a)` (C18);
* composite units: extra units are ignored, other exceptions escape, answers depend on earlier
  calls (C21, C26, C28); weights never convert to volumes (C31);
* a later change of the formation volume factor is not seen by ratios (C48);
* 16 disagreeing conversions, all about gauge pressures and their kinds (C32); Celsius converts
  to Farad (C33); `Km2` is 1000 m2 (C34); light year, British gill, kilogram mass are wrong (C52);
  RPM does not convert to Hz (C53); order is reversed by API degrees (C49);
* `0 °C + 32 °F ≠ 32 °F + 0 °C`, seconds times seconds raises `NameError`, a sum of percentages
  is a hundredth of the right amount, user units compare as bare numbers (C35–C39);
  half of some ounces of volume is no volume (C37); `7 ft // 2` is not `84 in // 2` (C59);
  rounding a percentage divides it by 100, `equals` is not symmetric (C60); `q ** 0` is no
  dimensionless quantity (C61);
* a crash while saving the settings prevents every later start (C44); `set_user_folder` stores
  a wrong folder (C45); a death inside the network file prevents every later start (C50);
  without cloudpickle the second start fails (C50); a saved memory is not loaded (C58);
* `set_fvf(0)` and `set_fvf('x')` are taken (C54); `set_density` of an array corrupts the
  settings file (C55);
* `'/'` is a unit and `'m / s'` is not, `valid_unit` never knows the user's names (C62); `' m'` is a
  valid unit and no `Length` (C63);
* `1 mA * 1 kV` is in `mA*kV` and no power, while `kV * mA` is asked to be in Watt (C73);
* the first window of an installation deletes the cache that its own start has written (C74); two minutes are shown as `2.0:118.0 minutes:seconds` (C75);
* a Date plus `1 day` raises TypeError, the difference of two Dates is None, and two Dates cannot be compared or printed (C76);
* `Dimensionless(2) + Length(3,'ft')` raises WrongUnitsError while the reverse is 5 feet; `Dimensionless(2) ** Length(3,'ft')` is 8 feet (C77);
* a user unit converted to metres is still a user unit: it cannot be added to, or compared with, a Length (C78);
* after `q.values = [2, 3]`, `q + q` has the four values 2, 3, 2, 3 and so has `q * 2`; `-q` raises AttributeError and `q / 2` TypeError (C83);
* `len(Length(3, 'm'))` is 1 but `Length(3, 'm')[0]` raises TypeError; iterating over a quantity of an array gives numbers without unit (C79);
* `60 / (1 min)` asked `.to('Hz')` is returned in `min-1`, unchanged (C72); `3 m - 2 kg` is the pair `(3 m, 2 kg)`; `bool(0 m)` is True, `bool(5 dimensionless)` False;
* `convert` of a Series returns an ndarray (C71), `convert('abc', 'm', 'm')` is not rejected (a text has `__iter__`, C46);
* cancelling the dialog "Set density" stores `False`, after which every volume weighs nothing; a refused FVF may
  leave the factor 1 (C67); '1,5' at the prompt of a density is 1 in the unit '5' (C68);
* `to_number('1,234.5')` is 1.2345 (C64);
* the window never says "wrong number format", it writes "None" into the boxes (C65); an older timer overwrites the
  message of a failed conversion, and a long path may be shown as an empty text (C66); with `raise_error` off a failed
  conversion shows "None" with the path of the conversion before it (C70); a product is told without its sign, `km > m > 1 kg > g` (C70).
