# Design: a Rocq model of pyodrx

## Approach

`/repo/pyodrx` is modelled function by function as a **shallow, executable heap machine** in Gallina.

* Python objects that the API can alias or mutate (Lane, LaneSection, Lanes, LaneLinker entries, geometry
  primitives, PlanView, Road, Connection, Junction, Signal/Object, OpenDrive) live in typed stores (`gmap nat _`)
  of one `heap` record; API functions take references. Immutable values (`_Link`, `RoadMark`, `RoadLine`, exported
  `_Geometry` records) are plain values.
* Every function is `heap -> res A * heap`; an exception is a value (`Err ValueError` ...) **and keeps the heap at the
  point of the raise**, so "changes nothing when it raises" is a real statement.
* Arithmetic is abstract: `Class Num (F)` only lists the operations numpy/scipy/Python provide (`fadd`, `fcos`,
  `ffresnel`, `fstr` ...), with no law at all. Theorems about the *logic* (placement, linking, ids, XML) are proved for
  every `Num F`, hence also for IEEE doubles with whatever rounding. Theorems about *geometry* are proved for the
  instance `RNum` (exact reals, Coquelicot integrals for Fresnel/`quad`). A third instance, `QNum` (F = Z, angles in quarter
  turns), makes the model run under `vm_compute` for examples and refutation witnesses.
* `while` loops are fuelled functions which return `Err OutOfFuel` when exhausted; theorems show the fuel given is
  always enough.
* `Model/Api.v` has one `op` per public call and `run : heap -> list op -> heap`; a *reachable* state is one that any finite
  sequence of calls with any arguments (also calls that raise) leads to. Properties over histories quantify over these.
* `Spec/*.v` state what each property means in terms of observable fields and mathematics only; `Properties/*.v`
  contain the theorems, each followed by `Print Assumptions`, with `Example`s beside them showing that a concrete case meets the
  hypotheses, and `..._refuted` theorems where the natural claim is false of the code. `Proof/*.v` have the lemmas.

## Plan per property

File names are under `rocq/theories/Properties`. "any `Num`": proved for every arithmetic. The exact theorem names are in
`MANIFEST.json`.

| id | file | modelled | how proved |
|----|------|----------|------------|
| C01 | PGeometry | `Line.get_end_data` | R instance; constant integrand |
| C02 | PGeometry | `Arc` with its cached fields | R instance; trig + FTC; witness for the first evaluation |
| C03 | PGeometry | `Spiral`, `EulerSpiral.calc` (complex arithmetic as pairs), Fresnel as integrals | substitution in Coquelicot `RInt` |
| C04 | PGeometry | `get_start_data` of the four primitives | from C01-C03 + reversal of integrals; ParamPoly3 refuted |
| C05 | PGeometry | `ParamPoly3.get_end_data`, `arctan2` | R instance, atan2 lemma |
| C06 | PPlanView | `PlanView.adjust_geometries()` on the heap | induction on the raw geometry list, any `Num` |
| C07 | PPlanView | same + export | C06 + C01-C03 |
| C08, C09, C10 | PPlanView | `adjust_geometries(from_end=True)` | induction; C09 refuted by witness, exact positive part proved |
| C11, C12 | PPlanView | constructors | case analysis |
| C13-C18 | PNetwork | `adjust_startpoints`, `adjust_road_wrt_neighbour` | invariants over the sweep loop, any `Num` |
| C19 | PNetwork | same | invariant (never succeeds); refutation witness for every id |
| C20 | PNetwork | same | frame invariant over the monad |
| C21, C22 | PHistory | Road link methods; API `op`/`step`/`run` | invariant over all histories |
| C23, C24 | PHistory | LaneSection, Lanes, LaneLinker | induction over call sequences and histories |
| C25-C28 | PLaneLinks | `create_lane_links` and helpers | pointwise effect of the emitted links; witnesses |
| C29 | PHistory | Junction/Connection | induction over histories; witness for mixed ids |
| C30, C31 | PJunction | `create_junction` | induction over the list of connecting roads; witness |
| C32 | PJunctionRoads, PJunctionRoadsReal | `create_junction_roads` | induction over the pairs of roads |
| C33-C35 | PHistory | `_update_id`, add_object/add_signal, id tables | invariant over histories; pigeonhole on injective `str` |
| C36 | PObjects | `add_object_roadside` | induction over lane sections |
| C37 | PMarks | `RoadMark.__init__` | case analysis; witness |
| C38 | PMarks | enumerations, `enum2str` | exhaustive over the finite types |
| C39-C41 | PXml | `get_element` of every class, ElementTree as a datatype | a strict reader in the specification inverts every element; histories |
| C42-C44 | PGenerators | generators | induction on lane counts |
| C45 | PGenerators, PGeneratorsReal | `create_cloth_arc_cloth` | R instance for the heading change |
| C46 | PGenerators, PJunctionPairs | `get_lanes_offset`, and `create_junction_roads` for all pairs | case analysis; refuted; the lane sections of old objects stay while the roads are made (`Proof/Frame.v`) |
| C47 | PPlanView | geometry caches | invariant over evaluation histories |
| C48, C49 | PObjects | Object/Signal constructors, attributes, repeat | case analysis, histories; witness |
| C50, C52 | PAgain | second call of `adjust_roads_and_lanes`; `Road.get_end_point` | invariants of the placement; witnesses |
| C51 | PRoadChain | whole pipeline on chains of n roads | induction on the chain, C15, C25, C07 |
| C53, C54 | PWrite | `write_xml`, `printToFile`, the XML writer and parser of the standard library | the parser inverts the writers, by induction on trees; C40 |
| C55 | PLayout | `adjust_startpoints` over R | C15, driving is determined by either end pose up to full turns, induction over the placement order |
| C56 | PLinkOrder | `create_lane_links`, `adjust_roads_and_lanes` | lane linking is a fixed list of additions determined by roads, sections and lane numbers (a `static` computation, closed under the monad); pairs are symmetric except the two named cases; permutation of the sum over pairs |
| C57 | PFrame | every call of the API | a frame rule for the monad (an unchanged-outside-a-set judgement, closed under bind and loops), with the invariant that the structure read by loops does not change under way; by cases on the call, then induction on histories. `touches` (Spec/SpecFrame.v) says which objects a call is about |
| C58 | PFrame | `get_element` of roads, OpenDrive, junctions; `write_xml` | the writer reads parts only; C57 and induction on histories |
| C59 | PFloat | `adjust_geometries` with IEEE doubles (Flocq's binary64), library functions as parameters | C06/C08; addition rounds monotonically and with relative error; induction on the list |
| C60 | PKeeps | all objects and calls; `SpecKeeps.state_keeps` lists, kind by kind, what is kept | every call is a sequence of atomic changes (`Reach`), each of which keeps it; induction over histories |
| C61 | PGetters | the getter loops of `_Links`; `Road.add_successor/predecessor`, `Lane.add_link`, `create_lane_links` | the loop returns the last match (induction); C21, C25 |
| C62, C63 | PCreate | the constructors; the methods that add or set one item | direct, with the freshness invariant (`no_dangling`); `SpecCreate` says "everything else is the same" kind by kind |
| C64 | PLocal, PLocalAny | two runs of a call from states that agree on the objects it is about (and, for calls that construct or give ids, on the next address and the id table); schedules of two scripts (`SpecLocal`: `works_on`, `uses`, `stays_in`, `works_in`, `interleaving`) | a relational judgement (same outcome, still agreeing) by recursion over each call, together with the frame of C57; schedules by induction over the interleaving |
| C65 | PFail | every call of the API, with its exceptions; `SpecFail` names the calls that may stop halfway or after constructing some objects | a "raises only before it changes anything" judgement, call by call; the frame of C57 for the rest; an example per named call of what it leaves behind |
| C66 | PFail | every call of the API; `SpecFail.may_raise` is the table of exceptions | a "raises only these" judgement closed under bind, loops and the dictionary accesses, using the reachable-state invariants (lane ids are set); a table of histories that raise each entry |
| C67 | PByHand | `adjust_road_wrt_neighbour` as a call; `SpecByHand.performs` says which calls a placement consists of | C65's refusals, C15 for the placed pose; a "does nothing but these calls" judgement over the loops of `adjust_startpoints`, pairs by induction |
| C68 | PLookup | `get_road_by_id`, `are_roads_consecutive` | induction on the list; the id invariant of networks; C60 for later histories |
| C69 | PRun | `run_road` on posix (`Model/Run.v`): `os.path.join`, the order of print, write and `os.system`, the command | C53/C54 for the file; the words of the command by the shell's rules for characters without a meaning (`Spec/SpecRun.v`) |
| C70 | PSchema | all `get_element` functions (`Model/Xml.v`) against an independent schema (`Spec/SpecSchema.v`: content models and attribute tables) | for each element: valid iff the conditions on the object; words of enums by cases; invariants of reachable states (objects' repeat dictionaries, links without bare text); PSchemaOrder: the links that a lane gets from all pairs of roads, in the order of the pairs (`Proof/LinkKinds.v`), so that the order of adding roads decides (C70_lane_order, an equivalence) and C70_adjusted states the conditions before `adjust_roads_and_lanes` |
| C71 | PRefs | references in the written document (`Spec/SpecRefs.v`: a property of element trees alone) and of objects | document closed iff objects closed, for every state; C32 and C30 composed for intersections; adjusting keeps roads, junctions and connections |
| C72 | PFlow, PFlowCrossing | networks that flow forwards (`Spec/SpecFlow.v`): every road is laid out from its start, every geometry gets position and length, the file is valid | induction over the sweeps: a road that is there in time is placed before its successor can place it backwards; C70 for the document; C32 and C30 composed for intersections; the first sweep fails at a road that names no road and that no road before it places; for intersections placing succeeds exactly if that does not happen |
| C73 | PSucceeds | one sweep places every road → `adjust_startpoints` succeeds (`Spec/SpecFlow.v`, `one_sweep`); adjusting succeeds iff placing does and every pair can be linked in the state before | induction over the sweep, keeping that every road that is in time is placed (`Proof/FlowRun.v`); the lane linking of a pair does not depend on the links added before (`Proof/LinkOrder.v`) |

All properties listed can be expressed in the model; those whose natural statement is false of the code are stated and proved
as the exact truth together with a refutation witness (see "Findings").

## Trusted base

* **Coq's kernel** (8.16.1), including `vm_compute` (used in examples and witnesses only).
* **Axioms.** No axiom is declared. `Print Assumptions`, for every theorem listed in `MANIFEST.json`:
  * "Closed under the global context" for all theorems except those below;
  * `ClassicalDedekindReals.sig_forall_dec`, `ClassicalDedekindReals.sig_not_dec`,
    `FunctionalExtensionality.functional_extensionality_dep` and `Classical_Prop.classic` (the standard library's axioms for the real
    numbers) for the theorems over the reals: C01_line_end, C02_arc_end, C02_arc_first_use, C02_first_use_refuted, C03_spiral_end,
    C04_reverse_inverts, C04_parampoly3_refuted, C05_parampoly3_end, C07_forward_consistent, C08_backward_consistent,
    C10_total_length, C10_recorded_lengths, C15_lateral, C32_line_length, C32_real, C45_turns, C45_exact, C47_stable,
    C50_length_doubles, C51_joined, C51_one_curve, C55_found, C55_links_fit, C55_connected, C55_order, C59_measures, C59_ascending, C59_error, C59_whole,
    C59_refuted_arc (Flocq's definitions; Flocq itself adds no axiom).
* **The model** agrees with the code: read and compared by hand, with the lines cited at each definition. Nothing in Coq checks this.
  The text layer (`Model/Write.v`) was compared with the output of the installed Python's standard library on sample trees.

### Modelled

* `geometry.py`: PlanView, `_Geometry`, Line, Arc, Spiral, EulerSpiral, ParamPoly3 - constructors, caches, end/start data, adjustment in both
  directions, total length, elements (`Model/Geometry.v`, `Model/Xml.v`).
* `lane.py`: Lanes, LaneSection, Lane, RoadMark, RoadLine (`Model/Lane.v`), `links.py`: `_Link(s)`, LaneLinker, Connection, Junction,
  `create_lane_links` and helpers (`Model/Links.v`), `signals_objects.py`: Signal, Object, ids, `repeat` (`Model/SignalsObjects.v`), Dependency (`Model/Xml.v`).
* `opendrive.py`: Road, OpenDrive - links, objects, roadside objects, placement, lane linking, header, elements, `write_xml`
  (`Model/Road.v`, `Model/OpenDrive.v`, `Model/Xml.v`, `Model/Write.v`).
* `generators.py`: all functions (`Model/Generators.v`). `enumerations.py`, `exceptions.py` (`Model/Enums.v`, `Model/Py.v`).
  `helpers.py`: `enum2str`, `prettyprint`, `printToFile` (`Model/Write.v`), `run_road` on posix (`Model/Run.v`).
* Of the libraries: Python dict order, list indexing with negative and out-of-range indices, `str` of ints, exceptions for `None`
  operands, `copy.deepcopy` of an object, `==` on enum members and on str/int ids, `ElementTree.tostring/write`, minidom's parser (on
  element-only documents) and `toprettyxml`.

### Not modelled

* `helpers.run_road` on Windows, and what esmini does; the `print` of lane ids to stdout, the `examples` directory.
* Floating-point rounding is modelled for + - * / abs, sqrt and comparisons (`Inst/Float.v`: Flocq's binary64; cos, sin, atan2, fresnel,
  quad, ** and str are parameters) and used in C59. Theorems for any `Num` hold for floats as they use no law; theorems over R are about
  exact arithmetic.
  ZeroDivisionError is raised where Python divides plain numbers (spirals of length 0, junctions of radius 0); the divisions done by
  numpy, overflow and NaN give whatever the `Num` operations return. Given numbers are Python ints and floats (numpy's never raise).
* The text of numbers: `fstr` is abstract (injectivity is never assumed; the readers give back the text of a number).
* `Spec/SpecSchema.v` was transcribed from knowledge of OpenDRIVE 1.5 (no copy of the .xsd is available here). Ranges of numbers and the date
  pattern are not expressed; lane links are unbounded per direction; center lanes may have widths, as in the .xsd's common lane type. C70 assumes that
  no number is written as `None` (shown for the arithmetic of the examples, true of Python's `str`).
* The date in the header is a parameter. Errors of the operating system on opening or writing a file.
* Strings are sequences of characters below 256. XML features that the library never writes (text, comments, namespaces...) are not
  accepted by the modelled parser.
* Attributes set from outside the API (e.g. `road.successor = ...`), subclasses made by the user, arguments of wrong types (except the
  cases the code itself tests for). Concurrency: the library has none.

## Findings (deviations of the code from what a user would expect, each with a machine-checked witness)

1. `adjust_geometries(from_end=True)` with two or more geometries: only the record made last gets an s coordinate (C09).
2. `ParamPoly3.get_start_data` is not the inverse of `get_end_data` (C04).
3. A new Arc given by angle reports no length before its first evaluation (C02, C43); Arc/Spiral with zero length/angle are refused (C12).
4. A junction as predecessor/successor is looked up among the roads: KeyError (C19).
5. `_create_links_roads` compares with the last section of the successor road; right lanes ignore the sign; an omitted contact point gives
   sign -1 (C25, C26).
6. `_get_related_lanesection` ignores the element type: a junction whose id is a road's id counts as that road (C28).
7. Connecting roads with several sections, without predecessor, or leading back to the same road (C27).
8. Automatic connection ids collide with explicit ones (C29).
9. `create_junction` puts the lane offset on the wrong side at the successor (C31).
10. `generators.get_lanes_offset` raises NameError, and looks at the far section (C46).
11. `create_road` raises TypeError for geometries that do not know their length (C43).
12. RoadMark writes the length as space for other types, and replaces explicit zeros (C37).
13. `Object.repeat` writes heights "None" (C49).
14. The same object added twice is written twice with one id (C35). An Object among the signals is written as object (C39).
15. A second `adjust_roads_and_lanes` duplicates the geometry of the roots and raises for networks of several roads (C17, C50).
16. `Road.get_end_point` of a road placed from its end is the reversed start pose (C52).
17. The lateral shift for lane offsets hard-codes lane width 3 (C15).
18. Pretty-printed files lose tabs and newlines in values; control characters make the file unreadable or raise ExpatError; links
    without a type are lost (C53, C54).
19. Of two connecting roads one after the other only the one given first gets lane links (C56_refuted_connecting); in a ring of two
   ordinary roads the lane numbers of the links depend on the order (C56_refuted_ring).
20. Rounding makes an arc longer (or shorter) each time it is evaluated: the written length is not the given one and the next geometry does not
    start where the arc ends (C59_refuted_arc).
21. `adjust_geometries`, `create_lane_links`, `adjust_startpoints`, `adjust_roads_and_lanes` and `create_junction_roads` leave half of their work
    done when they raise (C65); undocumented TypeError, IndexError, ZeroDivisionError, UnboundLocalError, NameError, AttributeError (C66).
22. `run_road` does not quote the path: with a space in it the viewer is not started (C69_refuted_spaces).
23. The written file breaks the OpenDRIVE schema (C70): a road with signals and objects (signals are written first), a road with a neighbor,
    a successor given before the predecessor, a signal value without unit and a repetition without height (both written as "None"),
    geometries without position; and links of lanes in the wrong order, depending on the order in which roads are added (C70_refuted_chain;
    exactly when: C70_lane_order). A road with two lane sections joined by a LaneLinker and with a predecessor road is always written
    with its lane links in the wrong order (C70_refuted_sections), and so are roads with several geometries placed from the end (C70_refuted_from_end).
24. Loose links of roads placed first (or fixed) and forgotten junctions are written without any error (C71_refuted_loose, C71_refuted_junction).
25. An intersection of the generators whose roads are added in their natural order (roads, then connecting roads) raises KeyError on adjusting unless
    a road has the id of the junction; the default junction id 1 hides this (C72_intersection, C72_refuted_blocked, C72_natural_example).
26. A connecting road with more lanes on a side than the road it joins makes lane linking raise IndexError; so every intersection of the generators
    whose roads have fewer right than left lanes can be made and placed, but not adjusted (C27_refuted_fewer, C72_intersection, C72_lopsided_example).
27. Roads without left lanes (one-way roads) cannot be joined: get_lanes_offset takes the width of the first left lane and raises IndexError
    (C46_nothing, C46_iff, C46_first_two, C46_all_pairs, C46_one_way).

## Tests of the theorems

`seeded/LOG.jsonl`: realistic bugs seeded into a scratch copy of the model, the claims they break and the theorems that failed.

`theories/Tests/RepoTests.v` and `RepoGeometry.v`: the scenarios of the repository's own unit tests (`tests/test_*.py` of pyodrx) and two of its
example programs, run in the model: what they assert, or what the programs print, holds of the model's result. These are tests of the model, not proofs.
