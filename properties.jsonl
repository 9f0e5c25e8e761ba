{"id": "C01", "title": "Line end point is exact", "statement": "Line(length).get_end_data(x,y,h) returns the point reached by travelling `length` along constant heading h from (x,y) (the integral of (cos h, sin h)), heading h and length `length`, and does not change the Line.", "quantifier": "all lengths and start poses (exact real arithmetic)", "why_tests_cant": "infinitely many poses; the unit tests sample five", "anchors": ["pyodrx/geometry.py:Line.get_end_data"]}
{"id": "C02", "title": "Arc end point is exact", "statement": "After it has been placed once, Arc(curvature, length=L) (L>0) or Arc(curvature, angle=a) (a<>0) reports the pose reached by travelling its reported length along constant curvature `curvature` (the integral of the unit tangent), and its reported length is L resp. |a/curvature|.", "quantifier": "all curvatures <>0, all lengths/angles, all poses (exact real arithmetic)", "why_tests_cant": "trigonometric identity over all reals; tests sample 16 triples", "anchors": ["pyodrx/geometry.py:Arc.get_end_data", "pyodrx/geometry.py:Arc.__init__"]}
{"id": "C03", "title": "Spiral end point is the exact clothoid", "statement": "Spiral(k0,k1,...).get_end_data(x,y,h) returns (x,y) + the integral over [0,L] of (cos t(u), sin t(u)) with t(u)=h+k0 u+(k1-k0)u^2/(2L), and heading h+(k0+k1)L/2, whatever the signs of the curvatures and in the degenerate straight-line and arc cases.", "quantifier": "all curvature pairs, all lengths <>0, all poses (exact real arithmetic, Fresnel integrals exact)", "why_tests_cant": "an identity between Fresnel integrals and a line integral for all reals; tests sample 21 tuples", "anchors": ["pyodrx/geometry.py:Spiral.get_end_data", "pyodrx/geometry.py:EulerSpiral.calc"]}
{"id": "C04", "title": "Reverse evaluation inverts forward evaluation", "statement": "For Line, Arc and Spiral: evaluating the start from the reversed end pose (x',y',h'+pi) gives back (x,y) and heading h+pi, and the same length.", "quantifier": "all valid primitives and start poses", "why_tests_cant": "tests check 38 tuples; property is over all reals", "anchors": ["pyodrx/geometry.py:Line.get_start_data", "pyodrx/geometry.py:Arc.get_start_data", "pyodrx/geometry.py:Spiral.get_start_data", "pyodrx/geometry.py:ParamPoly3.get_start_data"]}
{"id": "C05", "title": "ParamPoly3 end pose", "statement": "ParamPoly3.get_end_data(x,y,h) returns (x,y) plus the local point (u(p),v(p)) rotated by h, and a heading whose direction relative to h is the direction of the derivative (u'(p),v'(p)), with p=1 (normalized) or p=length (arcLength).", "quantifier": "all coefficients with non-zero derivative, all poses", "why_tests_cant": "single test tuple; property over all reals", "anchors": ["pyodrx/geometry.py:ParamPoly3.get_end_data"]}
{"id": "C06", "title": "Forward adjustment yields a contiguous chain", "statement": "After PlanView.adjust_geometries() succeeds on a not-yet-adjusted planview without heading overrides, there is exactly one exported geometry per added geometry, in the order they were added; the first starts at the start point, each next starts exactly at the reported end pose of the previous one, each s equals the previous s plus the previous length, the recorded start/end points are the first start / last end, and the planview is marked adjusted.", "quantifier": "every list of geometries, every start pose, every arithmetic (also IEEE floats)", "why_tests_cant": "unbounded list length and arbitrary numbers", "anchors": ["pyodrx/geometry.py:PlanView.adjust_geometries", "pyodrx/geometry.py:_Geometry"]}
{"id": "C07", "title": "Exported planview is geometrically consistent", "statement": "For a planview of Lines, Arcs and Spirals, each exported geometry record (x,y,hdg,length and its curvatures), evaluated by the OpenDRIVE definition (integrate the curvature), ends exactly at the pose of the next exported record, and the last ends at the recorded end point.", "quantifier": "every list of valid lines/arcs/spirals, every start pose (exact reals)", "why_tests_cant": "needs all lengths of lists and all reals", "anchors": ["pyodrx/geometry.py:PlanView.adjust_geometries", "pyodrx/geometry.py:PlanView.get_element"]}
{"id": "C08", "title": "Adjustment from the end places the end point", "statement": "After adjust_geometries(from_end=True) on Lines/Arcs/Spirals the road's recorded end point is the requested position with heading reversed; the records, read from the last exported to the first, form a geometrically consistent chain from the recorded start point to that end point.", "quantifier": "every list of valid lines/arcs/spirals, every end pose (exact reals)", "why_tests_cant": "needs all list lengths and all reals", "anchors": ["pyodrx/geometry.py:PlanView.adjust_geometries", "pyodrx/geometry.py:_Geometry.get_start_data"]}
{"id": "C09", "title": "s coordinates after adjustment from the end", "statement": "After adjust_geometries(from_end=True) the exported records are in increasing s order with s = sum of the lengths of the records before. (False of the code for two or more geometries: all records but the one exported last get s=None, and they are exported in reverse order.)", "quantifier": "every list of geometries", "why_tests_cant": "holds on all one-geometry tests, fails on longer lists", "anchors": ["pyodrx/geometry.py:PlanView.adjust_geometries"]}
{"id": "C10", "title": "Total length is the sum of geometry lengths", "statement": "get_total_length() after a successful adjustment (either direction) of a fresh planview equals the sum of the lengths of its geometries.", "quantifier": "every list of geometries and both directions", "why_tests_cant": "unbounded lists", "anchors": ["pyodrx/geometry.py:PlanView.get_total_length", "pyodrx/geometry.py:PlanView.adjust_geometries"]}
{"id": "C11", "title": "PlanView start point is all-or-nothing", "statement": "PlanView(x,y,h) with all three values is marked fixed and starts there; with none it is not fixed and starts at 0,0,0; with one or two it raises NotEnoughInputArguments.", "quantifier": "all 8 presence patterns and all values", "why_tests_cant": "all values", "anchors": ["pyodrx/geometry.py:PlanView.__init__"]}
{"id": "C12", "title": "Geometry constructors validate their optional arguments", "statement": "Spiral accepts exactly the calls with exactly one of length/angle/cdot, Arc exactly one of length/angle and curvature<>0, ParamPoly3 refuses arcLength without length; each refusal is the documented exception.", "quantifier": "all argument combinations and values", "why_tests_cant": "all values", "anchors": ["pyodrx/geometry.py:Spiral.__init__", "pyodrx/geometry.py:Arc.__init__", "pyodrx/geometry.py:ParamPoly3.__init__"]}
{"id": "C13", "title": "Placing the road network always terminates", "statement": "adjust_startpoints() terminates for every set of roads, links and geometries (returns or raises), after at most as many sweeps as there are roads.", "quantifier": "every road network and every prior state", "why_tests_cant": "a loop bound over unbounded networks, including ill-formed ones", "anchors": ["pyodrx/opendrive.py:OpenDrive.adjust_startpoints"]}
{"id": "C14", "title": "On success every road is placed exactly once", "statement": "If no road was adjusted before, the roads use distinct PlanViews and adjust_startpoints() returns, every road is marked adjusted and every road's planview holds exactly one exported geometry per added geometry.", "quantifier": "every road network", "why_tests_cant": "unbounded networks and orders", "anchors": ["pyodrx/opendrive.py:OpenDrive.adjust_startpoints"]}
{"id": "C15", "title": "Every placed road is attached to an already placed neighbour", "statement": "After a successful adjust_startpoints() on a network none of whose roads was adjusted, there is an order of the roads such that every road is either fixed / the first road and laid out from its own start point, or laid out from the start/end pose of a road earlier in the order that it is linked to (its predecessor or successor, or the connecting road that names it), forwards or backwards as the contact point implies and shifted sideways by 3 per lane of lane offset.", "quantifier": "every road network and insertion order", "why_tests_cant": "history property over unbounded networks", "anchors": ["pyodrx/opendrive.py:OpenDrive.adjust_startpoints", "pyodrx/opendrive.py:OpenDrive.adjust_road_wrt_neighbour"]}
{"id": "C16", "title": "Fixed roads stay where the user put them", "statement": "A road whose PlanView was given a start point has, after a successful adjust_startpoints(), exactly that start point.", "quantifier": "every road network", "why_tests_cant": "depends on the whole schedule of placements", "anchors": ["pyodrx/opendrive.py:OpenDrive.adjust_startpoints", "pyodrx/geometry.py:PlanView.__init__"]}
{"id": "C17", "title": "UndefinedRoadNetwork is raised only for disconnected networks", "statement": "If adjust_startpoints(), called on a network none of whose roads is adjusted yet and whose roads have distinct PlanViews, raises UndefinedRoadNetwork, then some road is unplaced, every fixed road (or the first road when none is fixed) is placed, and no unplaced road has a road-type predecessor or successor that is placed. (Deviation, proved: on an already placed network of two or more roads a second call raises UndefinedRoadNetwork although every road is placed.)", "quantifier": "every road network", "why_tests_cant": "unbounded networks", "anchors": ["pyodrx/opendrive.py:OpenDrive.adjust_startpoints"]}
{"id": "C18", "title": "Connected networks are placed", "statement": "If no road is adjusted yet, every link names an existing road with a contact point, geometries can be evaluated, connecting roads name ordinary roads only, and every road can be reached from a fixed road (or the first road when none is fixed) through its own road-type links or through the links of a connecting road that is itself reached, adjust_startpoints() returns normally, whatever the insertion order.", "quantifier": "every such network and insertion order", "why_tests_cant": "reachability over unbounded graphs", "anchors": ["pyodrx/opendrive.py:OpenDrive.adjust_startpoints"]}
{"id": "C19", "title": "Junction ids need not be road ids", "statement": "Linking a road to a junction should not require a road with the junction's id. False of the code, and proved so: adjust_startpoints() never succeeds if a road that is neither fixed/first nor named by a connecting road has a junction as predecessor whose id is not also the id of a road; in a two-road network it raises KeyError for every such junction id.", "quantifier": "every junction id", "why_tests_cant": "passes in all examples by the coincidence that junction ids are road ids", "anchors": ["pyodrx/opendrive.py:OpenDrive.adjust_startpoints"]}
{"id": "C20", "title": "Placement touches only geometry", "statement": "adjust_startpoints() changes nothing but planviews and geometry caches: lanes, lane links, road links, objects, signals, ids and junctions are unchanged, even when it raises.", "quantifier": "every network, every outcome", "why_tests_cant": "frame property over all states", "anchors": ["pyodrx/opendrive.py:OpenDrive.adjust_startpoints"]}
{"id": "C21", "title": "At most one successor and one predecessor per road", "statement": "For every sequence of API calls a road has at most one successor link and at most one predecessor link; a second add_successor/add_predecessor raises ValueError and changes nothing.", "quantifier": "all call histories", "why_tests_cant": "unbounded histories", "anchors": ["pyodrx/opendrive.py:Road.add_successor", "pyodrx/opendrive.py:Road.add_predecessor"]}
{"id": "C22", "title": "At most two neighbours per road", "statement": "For every sequence of API calls a road has at most two neighbor links, each with a direction; the third add_neighbor, or one without direction, raises ValueError and changes nothing.", "quantifier": "all call histories", "why_tests_cant": "unbounded histories", "anchors": ["pyodrx/opendrive.py:Road.add_neighbor", "pyodrx/links.py:_Link.__init__"]}
{"id": "C23", "title": "Lane ids in a lane section", "statement": "After any sequence of add_left_lane/add_right_lane calls with distinct lanes, the left lanes have ids 1,2,..., the right lanes -1,-2,... from the centre outwards, the centre lane 0.", "quantifier": "all interleavings and numbers of lanes", "why_tests_cant": "unbounded call sequences", "anchors": ["pyodrx/lane.py:LaneSection.add_left_lane", "pyodrx/lane.py:LaneSection.add_right_lane", "pyodrx/lane.py:LaneSection.__init__"]}
{"id": "C24", "title": "LaneLinker links are applied exactly once and in both directions", "statement": "However often a LaneLinker is passed to add_lanesection, each of its links adds exactly one successor link to the predecessor lane and one predecessor link to the successor lane, naming each other's lane ids; nothing else changes in the lanes.", "quantifier": "all sequences of add_lanesection calls and linkers", "why_tests_cant": "unbounded call sequences", "anchors": ["pyodrx/lane.py:Lanes.add_lanesection", "pyodrx/links.py:LaneLinker.add_link"]}
{"id": "C25", "title": "Lane links between consecutive roads are reciprocal", "statement": "For two ordinary roads where the first names the second as successor (contact start), the second names the first as predecessor, and the second's successor link, if any, does not carry the first road's id: if the touching sections, and the last section of the second road, have equal lane counts and no lane is shared, create_lane_links gives the i-th lane on each side of the first road's last section a successor link to the i-th lane on that side of the second road's first section, and back as predecessor; nothing else changes; the argument order does not matter. Deviation, with a witness: without contact point the left lanes are linked with the wrong sign.", "quantifier": "all lane counts, all states of the rest of the network", "why_tests_cant": "unbounded lane counts and arbitrary aliasing-free states", "anchors": ["pyodrx/links.py:create_lane_links", "pyodrx/links.py:_create_links_roads", "pyodrx/links.py:_get_related_lanesection"]}
{"id": "C26", "title": "Lane linking raises only when lanes differ at the joint", "statement": "For two consecutive roads, the second of whose touching sections has the lanes to link to, create_lane_links raises NotSameAmountOfLanesError exactly when the lane counts of the first road's touching section and of the LAST section of the second road differ, and succeeds otherwise; it changes nothing if the left counts differ, and never anything but lanes of the touching sections. So for single-section successors it raises exactly when the counts at the joint differ. (For roads of several sections the natural claim 'exactly when the touching sections differ' is false of the code both ways, with witnesses.)", "quantifier": "all lane-section lists", "why_tests_cant": "tests only use single-section roads", "anchors": ["pyodrx/links.py:_create_links_roads"]}
{"id": "C27", "title": "Lane links of connecting roads", "statement": "create_lane_links between a connecting road and an ordinary road it names with a contact point (and does not name at its other end) gives the i-th lane of each side of the connecting road's touching section a link of the right kind to the i-th lane of the ordinary road, with the sign flipped exactly when the directions oppose, shifted by the lane offset, provided the ordinary road's section with the same index (first or last, as on the connecting road) has at least as many lanes on each side; nothing else changes; if the connecting road names the ordinary road at neither end nothing changes at all. Deviations, proved: if that section has fewer lanes on a side, linking raises in either order; without predecessor link it raises AttributeError; roads of several sections can raise IndexError; a connecting road returning to the road it comes from is only linked at its end.", "quantifier": "all lane counts, contact points and offsets", "why_tests_cant": "tests use one lane per side", "anchors": ["pyodrx/links.py:_create_links_connecting_road", "pyodrx/links.py:_get_related_lanesection"]}
{"id": "C28", "title": "Roads that are not linked to each other are left alone by lane linking", "statement": "create_lane_links changes nothing if the two roads are ordinary roads that do not name each other, by links of type road, as successor and predecessor, even when a link to a junction carries the other road's id. Deviation, with witnesses: for consecutive roads a junction link with the other road's id, or a second road link (a ring of two roads), is taken for the connecting link, and the lanes get links of the wrong kind.", "quantifier": "all networks", "why_tests_cant": "needs id collisions absent from the tests", "anchors": ["pyodrx/links.py:_get_related_lanesection", "pyodrx/links.py:_create_links_roads"]}
{"id": "C29", "title": "Junction connection ids", "statement": "After any sequence of add_connection calls with distinct connections, the junction lists them in order, a connection without explicit id has got its position in the junction as id, explicit ids are kept, and ids never change later; they are pairwise distinct as written if the explicit ones are and none of them is the text of a position. (Without the last condition the claim is false of the code, with a witness.)", "quantifier": "all call sequences", "why_tests_cant": "unbounded call sequences", "anchors": ["pyodrx/links.py:Junction.add_connection", "pyodrx/links.py:Connection._set_id"]}
{"id": "C30", "title": "create_junction connects both ends of every connecting road", "statement": "If every connecting road starts at and ends at roads of the given list (with contact points) and has lanes, create_junction returns a new junction of the given id and changes no existing object; it has, for each connecting road in order, one connection for its successor (contact end) and one for its predecessor (contact start), numbered 0,1,2,..., each naming the road met as incoming road and having one lane link per left or right lane of the connecting road at that end.", "quantifier": "all lists of connecting roads, all lane counts", "why_tests_cant": "unbounded lists", "anchors": ["pyodrx/generators.py:create_junction", "pyodrx/generators.py:_create_junction_links"]}
{"id": "C31", "title": "Junction lane links agree with lane-level links", "statement": "For every connecting road, a junction lane link (from,to) pairs the incoming road's lane with the connecting-road lane that the lane-level link made by create_lane_links pairs it with. Proved on the predecessor side for every lane offset, on the successor side when end meets end, or the offset is 0. Deviation, proved: on the successor side with contact start the two differ by twice the offset.", "quantifier": "all lane counts, offsets, contact points", "why_tests_cant": "tests never compare the two tables", "anchors": ["pyodrx/generators.py:create_junction", "pyodrx/links.py:_create_links_connecting_road"]}
{"id": "C32", "title": "create_junction_roads connects every pair of roads once", "statement": "For n>=2 different roads whose first and last lane sections all have the same lane counts (at least one left lane), the first without successor and the others without predecessor, create_junction_roads returns n(n-1)/2 new connecting roads with consecutive ids from startnum, one for each pair i<j in order, whose predecessor is road i (contact end for the first road, start otherwise) and successor road j (contact start), with as many lanes on BOTH sides as the given roads have left lanes, and a line (if the angles differ by pi) or a clothoid-arc-clothoid as course; the first road gets the junction as successor and every other as predecessor; no other existing object changes; no two of the new roads have the planview or a lane in common.", "quantifier": "all n and angle lists", "why_tests_cant": "unbounded n", "anchors": ["pyodrx/generators.py:create_junction_roads"]}
{"id": "C33", "title": "Object and signal ids are unique", "statement": "For every sequence of additions of distinct objects/signals to any roads, all objects ever added have pairwise different ids (as written in the XML), and so have all signals; an unused user-chosen id is kept.", "quantifier": "all histories of add_object/add_signal over all roads", "why_tests_cant": "unbounded histories and adversarial user ids", "anchors": ["pyodrx/signals_objects.py:_SignalObjectBase._update_id", "pyodrx/opendrive.py:Road.add_object", "pyodrx/opendrive.py:Road.add_signal"]}
{"id": "C34", "title": "Id generation terminates", "statement": "The search for a free automatic id always terminates, after at most as many steps as there are used ids, and yields an unused decimal id.", "quantifier": "every set of used ids and every counter value", "why_tests_cant": "pigeonhole over unbounded sets", "anchors": ["pyodrx/signals_objects.py:_SignalObjectBase._update_id"]}
{"id": "C35", "title": "Written object ids repeat only if the same object was added twice", "statement": "The ids of the objects written for any list of roads are pairwise distinct as long as no object was added twice. Deviation, proved for every state: adding the same object to a road twice writes it twice, with the same id.", "quantifier": "all histories", "why_tests_cant": "aliasing", "anchors": ["pyodrx/opendrive.py:Road.add_object", "pyodrx/signals_objects.py:_SignalObjectBase._update_id"]}
{"id": "C36", "title": "Roadside objects", "statement": "add_object_roadside on an adjusted road adds exactly one fresh copy of the prototype per lane section and requested side, left before right, at t = +-(sum of the lane widths on that side + tOffset), s = sOffset + section start, heading pi/0, with a repeat entry covering the rest of the road; the prototype is unchanged; on a road that is not adjusted it raises RoadsAndLanesNotAdjusted and changes nothing.", "quantifier": "all numbers of sections and lanes, all offsets", "why_tests_cant": "unbounded lists", "anchors": ["pyodrx/opendrive.py:Road.add_object_roadside"]}
{"id": "C37", "title": "RoadMark defaults keep given values", "statement": "RoadMark writes a line exactly when a non-zero length, space or toffset or a rule is given; the line carries every given non-zero value and the documented defaults otherwise (length 3 for broken and solid, else 0; space 3 for broken, else 0; width 0.2; tOffset 0; rule none), and the mark its own attributes. Deviations of the code: for types other than broken and solid the written space is the length instead of the given space, and an explicit zero is replaced by the default.", "quantifier": "all types and values", "why_tests_cant": "all combinations of values", "anchors": ["pyodrx/lane.py:RoadMark.__init__"]}
{"id": "C38", "title": "Enum members stay distinguishable in XML", "statement": "For every enumeration, different members are written as different strings, without underscores, and no two marks, lanes, links, signals or objects that differ in an enumeration-valued property (type, weight, color, lane change, rule, element type, contact point, direction, dynamic, orientation) are written as the same element.", "quantifier": "all members of all enumerations, all elements", "why_tests_cant": "finite but exhaustive proof over every enumeration", "anchors": ["pyodrx/helpers.py:enum2str", "pyodrx/enumerations.py"]}
{"id": "C39", "title": "Road element structure", "statement": "Road.get_element() is a road element whose children are link, planView, lanes in this order, then signals and objects exactly when there are any. A strict reader that looks up attributes and children by name and refuses unknown or repeated ones recovers from it exactly the id, junction, length, name and rule of the road, every link, every exported geometry with its pose and shape, every lane section with all its lanes, every signal and every object with its repeat entries, in order. (The road must carry Signals as signals and Objects as objects: the code does not check this.) A Dependency is written as an element with its id and type.", "quantifier": "every road in every reachable state", "why_tests_cant": "all states", "anchors": ["pyodrx/opendrive.py:Road.get_element", "pyodrx/opendrive.py:Road.get_attributes"]}
{"id": "C40", "title": "OpenDRIVE element structure", "statement": "After any sequence of add_road/add_junction calls on a new OpenDrive, OpenDrive.get_element() contains the header, then one road element per distinct road id in order of first insertion showing the last road added with that id, then all junctions in order; a strict reader recovers the content of all of them. In every reachable state the written road ids are pairwise different.", "quantifier": "every sequence of add_road/add_junction, every reachable state", "why_tests_cant": "unbounded histories", "anchors": ["pyodrx/opendrive.py:OpenDrive.get_element", "pyodrx/opendrive.py:OpenDrive.add_road"]}
{"id": "C41", "title": "A lane without id is never written", "statement": "get_element() of a lane (or section, road, OpenDrive containing one) raises ValueError if a lane has no id and otherwise succeeds; every written lane carries its id, type, links, width polynomial and mark. Lanes in lane sections always have ids, so an OpenDrive built through the API can always be written.", "quantifier": "every lane state, every reachable state", "why_tests_cant": "all states", "anchors": ["pyodrx/lane.py:Lane.get_attributes", "pyodrx/lane.py:Lane.get_element"]}
{"id": "C42", "title": "create_road builds the requested cross-section", "statement": "create_road(geometry list, id, l, r) yields an unlinked road of the given id and type with one lane section at s=0 holding l left and r right fresh lanes of the given width with ids 1..l and -1..-r, where exactly the outermost lane of each side has the solid mark; its planview holds the geometries in order.", "quantifier": "all l, r, widths and geometry lists", "why_tests_cant": "unbounded counts", "anchors": ["pyodrx/generators.py:create_road", "pyodrx/generators.py:standard_lane"]}
{"id": "C43", "title": "create_road accepts every geometry", "statement": "create_road succeeds on every list of geometries that know their length, and raises TypeError, changing no existing object, when one does not. So it does not accept every constructed geometry: a new Arc given by its angle, or a new ParamPoly3 without length, is always refused.", "quantifier": "all geometries", "why_tests_cant": "depends on constructor history", "anchors": ["pyodrx/generators.py:create_road"]}
{"id": "C44", "title": "create_straight_road", "statement": "create_straight_road(id,length,junction,n,w) yields a road with one Line of that length and n left and n right lanes of width w with ids 1..n / -1..-n.", "quantifier": "all n, lengths, widths", "why_tests_cant": "unbounded n", "anchors": ["pyodrx/generators.py:create_straight_road"]}
{"id": "C45", "title": "create_cloth_arc_cloth turns by the requested angle", "statement": "The road made by create_cloth_arc_cloth consists of a clothoid, an arc and a clothoid with continuous curvature. Wherever and from whichever end it is placed, its heading changes by |arc_angle| + 2(1+cloth_start/arc_curv)|cloth_angle| (so by exactly arc_angle + 2 cloth_angle for cloth_start=0 and positive arguments), to the left exactly when arc_curv and cloth_angle are both positive (|cloth_start| <= |arc_curv|, non-zero angles).", "quantifier": "all curvatures and angles of consistent sign", "why_tests_cant": "all reals", "anchors": ["pyodrx/generators.py:create_cloth_arc_cloth", "pyodrx/geometry.py:Spiral.__init__"]}
{"id": "C46", "title": "Mismatching junction roads raise NotSameAmountOfLanesError", "statement": "get_lanes_offset/create_junction_roads on roads with different lane counts should raise NotSameAmountOfLanesError. False of the code, and proved so: neither ever raises it; get_lanes_offset raises NameError exactly when the lane counts of the first section of the second road and of one section of the first road differ, and that section is the one at the far end (first section for contact end, last for contact start). It succeeds, giving the number of left lanes and the width of the innermost one, exactly if these two sections exist, have equally many lanes on each side, and at least one on the left: roads without left lanes (one-way roads) raise IndexError and cannot be joined by create_junction_roads. create_junction_roads succeeds only if this holds of every two of its roads (the first section of the first road, the last sections of the later ones, and the first section of the later road of the two), as they were before the call.", "quantifier": "all pairs of roads", "why_tests_cant": "error branch never executed by the tests", "anchors": ["pyodrx/generators.py:get_lanes_offset"]}
{"id": "C47", "title": "Placed geometries are stable under re-evaluation", "statement": "Once evaluated, a Line, Arc or Spiral gives the same end data for the same pose however often and in whatever direction it is evaluated in between, so sharing a geometry object between planviews is harmless.", "quantifier": "all evaluation histories", "why_tests_cant": "unbounded histories of calls that mutate cached fields", "anchors": ["pyodrx/geometry.py:Arc.get_end_data", "pyodrx/geometry.py:Arc.get_start_data"]}
{"id": "C48", "title": "Object dimension attributes are exclusive", "statement": "A written Object has a radius attribute and neither length nor width, or both length and width and no radius, or none of them: the radius if one was given to the constructor, otherwise width and length with 0 for the missing one. This holds after any later calls.", "quantifier": "all constructor arguments, all later histories", "why_tests_cant": "all combinations", "anchors": ["pyodrx/signals_objects.py:Object.__init__", "pyodrx/signals_objects.py:Object.get_attributes"]}
{"id": "C49", "title": "Repeat entries are complete", "statement": "Each call of Object.repeat appends one repeat entry with length and distance as given, s, tStart, tEnd, zOffsetStart, zOffsetEnd, heightStart and heightEnd taken from the arguments or else from the object, and the optional width, length and radius attributes exactly when given; every repeat element ever written has all nine required attributes. Deviation of the code: when neither the call nor the object has a height, the required heights are written as the text None.", "quantifier": "all arguments, all objects, all histories", "why_tests_cant": "all combinations", "anchors": ["pyodrx/signals_objects.py:Object.repeat"]}
{"id": "C50", "title": "A second adjustment lays the root roads out again and nothing else", "statement": "After adjust_roads_and_lanes() succeeded on a network, a second call lays out exactly the roads that are placed without looking at a neighbour (the fixed ones, or else the first inserted) once more, from where they end: their new geometry records follow the old ones, so the written length of such a road doubles; no other road changes its geometry; and if there is any other road the call raises UndefinedRoadNetwork and links no lanes. (So the natural claim that a second call changes nothing is false of the code, with a witness.)", "quantifier": "all networks built by any calls, all geometries", "why_tests_cant": "tests never call it twice", "anchors": ["pyodrx/opendrive.py:OpenDrive.adjust_roads_and_lanes", "pyodrx/geometry.py:PlanView.adjust_geometries"]}
{"id": "C51", "title": "A chain of roads is placed end to end", "statement": "For any n, n ordinary roads linked successor/predecessor, end to start, without lane offset, are placed by adjust_roads_and_lanes() so that each road starts, in position and heading, where the one before it ends; in exact arithmetic the records of all roads together form one path without gaps from the first start to the last end. If the touching lane sections have equal lane counts, then every lane of the i-th road gets exactly one successor link (in the last section, if there is a next road) and one predecessor link (in the first section, if there is a previous road) to the lane of the same number, and no other lane changes.", "quantifier": "all n, all geometry lists, all insertion orders that keep r1 first or fixed", "why_tests_cant": "unbounded chains", "anchors": ["pyodrx/opendrive.py:OpenDrive.adjust_roads_and_lanes"]}
{"id": "C52", "title": "Road.get_end_point is the end of the road", "statement": "Road.get_end_point() after adjustment returns the end pose of the road if it was laid out forwards, which is the case for every road that was not attached by its end to an already placed neighbour; for the others it returns the reversed start pose. (So the natural claim that it always returns the end pose is false of the code, with a witness.)", "quantifier": "all placements", "why_tests_cant": "direction of placement is a schedule matter", "anchors": ["pyodrx/opendrive.py:Road.get_end_point"]}
{"id": "C53", "title": "A reader of the written file finds the network", "statement": "For every network built by any calls, OpenDrive.write_xml(filename, prettyprint) writes, under the given name or else under the network's name followed by .xodr and to no other file, a text that an XML parser accepts and from which a strict reader recovers exactly the content of the network (header, roads, lanes, links, objects, junctions), in both forms, whatever characters the names and strings contain as long as none is a control character; in the plain form also with tabs, newlines and returns. So networks with different content give different files. The written links of lanes must be predecessor or successor links. Deviations, with witnesses: the pretty form turns tabs, newlines and returns in values into spaces; a lane link without type, which create_lane_links makes between two connecting roads of which only one names the other, is lost.", "quantifier": "every network in every reachable state, all strings, both forms, all previous file contents", "why_tests_cant": "all strings and all trees; tests only look at the printed text", "anchors": ["pyodrx/opendrive.py:OpenDrive.write_xml", "pyodrx/helpers.py:printToFile"]}
{"id": "C54", "title": "When writing a file fails", "statement": "OpenDrive.write_xml never raises an exception of the library for a network built through the API; it would raise a ValueError, writing nothing, if a lane of a section had no id. With prettyprint it succeeds, writing what prettyprint would print, exactly when no string of the network has a control character other than tab, newline and return, and otherwise raises the parser's ExpatError and leaves all files as they are. Without prettyprint it always writes, but then a network with such a character gives a file that no XML parser accepts.", "quantifier": "every network in every reachable state, all strings", "why_tests_cant": "all strings", "anchors": ["pyodrx/opendrive.py:OpenDrive.write_xml", "pyodrx/helpers.py:printToFile", "pyodrx/helpers.py:prettyprint"]}
{"id": "C55", "title": "If the links of a network fit together, the layout in which they do is found", "statement": "In exact arithmetic, for networks of lines, arcs and spirals without heading overrides: if there is any layout (a start and an end pose for every road, headings up to full turns) in which every road has its shape, the fixed roads (or else the first) are where they are told to be and all links fit (with the lane offsets of width 3), then adjust_startpoints(), when it succeeds, puts every road where that layout has it. So all links fit in the result, also those not used for placing (rings close), and the result does not depend on the order in which the roads were added. For connected networks (C18) it does succeed.", "quantifier": "all networks, all layouts, all insertion orders (exact reals)", "why_tests_cant": "quantifies over all networks and the order of the search", "anchors": ["pyodrx/opendrive.py:OpenDrive.adjust_startpoints", "pyodrx/opendrive.py:OpenDrive.adjust_road_wrt_neighbour"]}
{"id": "C56", "title": "Lane links do not depend on the order in which roads are given or added", "statement": "create_lane_links(a, b) and create_lane_links(b, a) have the same outcome and add the same links, unless a and b are two connecting roads one of which names the other, or two ordinary roads that form a ring. Consequently, if the same roads are added to two OpenDrive objects in different orders and both can be placed, adjust_roads_and_lanes succeeds for both or for neither, and when it succeeds every lane has the same links (in some order). Linking only ever appends links, and which links it appends does not depend on the links lanes already have. The two exceptions are real: for two connecting roads only the road given first gets lane links, and in a ring of two the numbers depend on who comes first.", "quantifier": "all networks, all insertion orders, all pairs of roads and all links already present", "why_tests_cant": "a test fixes one insertion order; there are n! orders of n roads and any lane layout", "anchors": ["pyodrx/links.py: create_lane_links, _create_links_connecting_road, _get_related_lanesection, _create_links_roads, are_roads_consecutive", "pyodrx/opendrive.py: OpenDrive.adjust_roads_and_lanes, OpenDrive.add_road"]}
{"id": "C57", "title": "No action at a distance", "statement": "A call changes no existing object but those it is about: constructors and generators change nothing that exists (except that LaneSection numbers its centre lane and create_junction_roads links the roads it is given); add_* methods change their receiver and, where ids are given out, the added objects; add_object_roadside does not change its prototype; a LaneLinker changes only itself and the lanes of its pairs; create_lane_links only lanes of the two roads; adjusting an OpenDrive only planviews, primitives and lanes of its own roads. Only adding objects and signals changes the table of used ids. Hence an object that no call of a history is about is unchanged at its end.", "quantifier": "every call with any arguments, succeeding or raising, in every reachable state; every object; every history", "why_tests_cant": "it is a statement about all objects that are not mentioned, in all states", "anchors": ["pyodrx/opendrive.py", "pyodrx/links.py", "pyodrx/lane.py", "pyodrx/geometry.py", "pyodrx/signals_objects.py", "pyodrx/generators.py"]}
{"id": "C58", "title": "Networks that share no parts do not influence each other's files", "statement": "What is written for a road or an OpenDrive (get_element, write_xml in both forms) depends only on the objects it consists of: its roads, their planviews, primitives, lanes, sections, objects and signals, its junctions and connections. A history of calls that changes none of them leaves the written file exactly as it was. In particular, adding roads and junctions to one OpenDrive and adjusting it does not change the file of another OpenDrive with which it has no part in common, even if their road ids coincide.", "quantifier": "all reachable states, all networks, all histories that leave the parts of the network alone", "why_tests_cant": "all histories and all pairs of networks", "anchors": ["pyodrx/opendrive.py:OpenDrive.get_element, OpenDrive.write_xml, Road.get_element", "pyodrx/lane.py", "pyodrx/geometry.py", "pyodrx/links.py:Junction.get_element"]}
{"id": "C59", "title": "Distances along a road in floating point", "statement": "In IEEE double precision, whatever the C library functions do: after adjusting a PlanView the written s values and the length of the road are running sums of the lengths its primitives report; if those lengths are 0 or more (as they are for lines, spirals, arcs and parametric polynomials with arguments that make sense) the written s values never decrease, none is negative and none exceeds the length of the road; the length of a road of n primitives equals the exact sum of the lengths up to n roundings (relative error (1 +- 2^-53)^n); lines of whole numbers of metres are added exactly below 2^53. (False: that an arc is written with the length it was given and the next geometry starts at s + length: Arc(0.03, length=29) is written with 29.000000000000004 and the next geometry starts at 29.000000000000007.)", "quantifier": "all planviews with any number of primitives, all double values, all library functions", "why_tests_cant": "all lists of doubles; rounding behaves differently for each", "anchors": ["pyodrx/geometry.py:PlanView.adjust_geometries, PlanView.get_total_length, Line, Arc.get_end_data, Spiral, ParamPoly3"]}
{"id": "C60", "title": "Objects keep what they were given", "statement": "Once a geometry, plan view, lane, lane section, road, connection, junction, object, signal, lane linker or OpenDrive exists, no later call — on this or any other object, successful or failing — removes it or takes away what was given to it: ids, names, types, widths, the links, geometries, placed poses, lanes, connections, lane links, objects, signals, repeat entries and junctions it has stay, in their order, and are only added to; the successor and predecessor of a road, once set, stay the same; the ids of an OpenDrive's roads stay in their order.", "quantifier": "every reachable state and every later sequence of API calls", "why_tests_cant": "it is a statement about every pair of moments of every history; tests look at a few calls", "anchors": ["pyodrx/opendrive.py: Road, OpenDrive", "pyodrx/geometry.py: PlanView", "pyodrx/lane.py: Lane, LaneSection, Lanes", "pyodrx/links.py: Junction, Connection, LaneLinker", "pyodrx/signals_objects.py"]}
{"id": "C61", "title": "The link getters report the links that were added", "statement": "get_predecessor_id/type/contact_point and get_successor_id/type/contact_point of a links object report the last link of their kind and None when there is none. On a road they always agree with the attributes successor and predecessor; after a successful add_successor (add_predecessor) they report the given id, element type and contact point for ever after. On a lane they report the most recently added link of their kind, other getters and other lanes are unaffected; after create_lane_links on two consecutive roads with equal lane counts, the getters of two touching lanes report each other's lane number.", "quantifier": "every list of links, every reachable state, every later sequence of calls, every number of lanes", "why_tests_cant": "the agreement must hold for every history of links added in any order, to roads and lanes", "anchors": ["pyodrx/links.py: _Links.get_predecessor_id, get_successor_id, get_predecessor_type, get_successor_type, get_predecessor_contact_point, get_successor_contact_point", "pyodrx/opendrive.py: Road.add_successor, Road.add_predecessor", "pyodrx/lane.py: Lane.add_link"]}
{"id": "C62", "title": "Constructors store exactly what they are given", "statement": "Constructing a Line, Spiral, Arc, ParamPoly3, PlanView, Lane, LaneSection, Lanes, LaneLinker, Connection, Junction, Road, OpenDrive, Signal or Object creates one new object that holds the given arguments (and the documented empty defaults for the rest) and changes no other object (a LaneSection numbers its centre lane 0); the argument combinations that are refused (spiral given by none or several of length/angle/cdot, arc by none or both of length/angle or with curvature 0, arc-length ParamPoly3 without length, partial start point) raise the documented exception and change nothing.", "quantifier": "every reachable state and all arguments", "why_tests_cant": "all argument combinations in all states; tests construct a few objects", "anchors": ["pyodrx/geometry.py: Line, Spiral, Arc, ParamPoly3, PlanView", "pyodrx/lane.py: Lane, LaneSection, Lanes", "pyodrx/links.py: LaneLinker, Connection, Junction", "pyodrx/signals_objects.py: Signal, Object", "pyodrx/opendrive.py: Road, OpenDrive"]}
{"id": "C63", "title": "A method that adds one thing changes one thing", "statement": "add_geometry, set_start_point, Lane.add_link, add_roadmark, LaneLinker.add_link, add_lanelink, add_road and add_junction succeed (a lane refuses links of kind 'neighbor' with ValueError), change exactly the one attribute of the one object — appending the given item, or setting it — and leave every other attribute and every other object as it was. A road added under an id the OpenDrive already has takes the place of the earlier road; otherwise it is put last.", "quantifier": "every reachable state and all arguments", "why_tests_cant": "the frame (nothing else changes) ranges over all objects of all states", "anchors": ["pyodrx/geometry.py: PlanView.add_geometry, PlanView.set_start_point", "pyodrx/lane.py: Lane.add_link, Lane.add_roadmark", "pyodrx/links.py: LaneLinker.add_link, Connection.add_lanelink", "pyodrx/opendrive.py: OpenDrive.add_road, OpenDrive.add_junction"]}
{"id": "C64", "title": "Work on different objects does not interfere, in any order", "statement": "What an in-place call (one that constructs nothing and hands out no ids: adding to, linking, moving and adjusting planviews, lanes, roads, junctions and networks) returns or raises, and what it makes of the objects it is about, depends on those objects only: the ones named in the call and the parts of the named planview, roads or network. Two scripts of such calls that work on different objects can therefore be interleaved in every possible way: each call has the same outcome as when its script runs alone, each script's objects end up as if it had run alone, and all schedules end in the very same state. In particular two calls on different objects commute, and two networks without common parts can be adjusted in either order. One of the two scripts may make any calls at all - construct objects, run the generators, put objects on roads and thereby give out ids: with the new objects counted as its own, the same holds of every schedule with an in-place script on other objects.", "quantifier": "every reachable state, every script of calls of any kind and every script of in-place calls on disjoint sets of objects, every interleaving of them", "why_tests_cant": "it ranges over all schedules, all scripts and all states; a hidden dependency (a shared default, a cache, a class attribute) shows up only in particular ones", "anchors": ["pyodrx/geometry.py: PlanView.adjust_geometries", "pyodrx/links.py: create_lane_links", "pyodrx/opendrive.py: OpenDrive.adjust_startpoints, OpenDrive.adjust_roads_and_lanes", "pyodrx/lane.py: Lanes.add_lanesection, LaneSection.add_left_lane", "pyodrx/generators.py", "pyodrx/opendrive.py: Road.add_object_roadside", "pyodrx/signals_objects.py: _SignalObjectBase._update_id"]}
{"id": "C65", "title": "A call that raises leaves the model as it was", "statement": "When a call raises, nothing has changed: no object has been changed, added or lost and no id handed out, so the program can catch the exception and go on as if it had not called. For add_object_roadside, create_road, create_cloth_arc_cloth and create_junction, which construct several objects, new unreferenced objects may remain, but every object that existed, and the ids, are as before. Only adjust_geometries, create_lane_links, adjust_startpoints, adjust_roads_and_lanes and create_junction_roads can stop halfway; also then everything but the objects the call is about, and the ids, are as before.", "quantifier": "every reachable state, every call of the API with all arguments, every exception it raises", "why_tests_cant": "ranges over all failure points of all calls in all states; tests check that an exception is raised, not what it leaves behind", "anchors": ["pyodrx/geometry.py: PlanView.adjust_geometries, Spiral, Arc", "pyodrx/links.py: _Links.add_link, create_lane_links", "pyodrx/opendrive.py: Road.add_successor, Road.add_predecessor, Road.add_object_roadside, OpenDrive.adjust_startpoints, OpenDrive.adjust_roads_and_lanes", "pyodrx/generators.py: create_road, create_junction_roads, create_junction"]}
{"id": "C66", "title": "The exceptions each call can raise", "statement": "Each call of the API can raise only the exceptions of a fixed table (for example add_successor only ValueError; create_lane_links only NotSameAmountOfLanesError, AttributeError and IndexError; adjust_startpoints only UndefinedRoadNetwork, KeyError, UnboundLocalError, TypeError, IndexError and ZeroDivisionError), and the calls not in the table (constructors of Line, Lane, Road, Junction, ..., add_geometry, add_road, add_object, add_lanesection, add_connection, create_straight_road, ...) never raise. Every entry of the table is raised by some history.", "quantifier": "every reachable state, every call of the API on existing objects with all arguments of the documented types", "why_tests_cant": "that no other exception is possible ranges over all inputs and states", "anchors": ["pyodrx/exceptions.py", "pyodrx/geometry.py", "pyodrx/lane.py", "pyodrx/links.py", "pyodrx/opendrive.py", "pyodrx/generators.py", "pyodrx/signals_objects.py"]}
{"id": "C67", "title": "Placing roads by hand, and what the automatic placement calls", "statement": "adjust_road_wrt_neighbour changes nothing when it raises for an unknown road (KeyError), a missing contact point (UnboundLocalError) or a neighbour that offers no pose, and does nothing for a link kind other than 'predecessor' and 'successor'; otherwise it lays the road out starting (predecessor) or ending (successor) at the pose the neighbour offers at the contact point, moved sideways by the lane offset times 3, and marks it adjusted (that nothing but the road's plan view and geometries changes is C57). adjust_startpoints does nothing but a sequence of such calls, each for a road not yet placed at a neighbour already placed to which it is linked, and adjust_geometries on root roads; adjust_roads_and_lanes then calls create_lane_links exactly once for every pair of roads of the network.", "quantifier": "every reachable state, network, pair of road ids, contact point and link kind", "why_tests_cant": "the decomposition must hold for every network, in every order of its roads, including runs that raise half way", "anchors": ["pyodrx/opendrive.py: OpenDrive.adjust_road_wrt_neighbour, adjust_startpoints, adjust_roads_and_lanes"]}
{"id": "C68", "title": "Looking up roads and consecutive roads", "statement": "get_road_by_id returns the first road of the list with the id and None if there is none, and among the roads of a network it returns exactly the road with that id; are_roads_consecutive is true exactly when the first road's successor and the second road's predecessor are road links to each other; in a network at most one road follows and at most one precedes a road; consecutive roads stay consecutive through every later history; adding the two links, in either order, makes two roads consecutive.", "quantifier": "every list of roads, id, reachable state and later history", "why_tests_cant": "uniqueness and persistence range over all networks and all histories", "anchors": ["pyodrx/links.py: are_roads_consecutive", "pyodrx/generators.py: get_road_by_id"]}
{"id": "C69", "title": "Running the network in the viewer", "statement": "run_road(opendrive, esminipath, density) on a posix system prints the directory esminipath/resources/xodr, then writes the network pretty-printed to the file pythonroad.xodr in it (no other file changes; the file reads back as exactly the network), and only then runs, through the shell, the program esminipath/bin/odrviewer (relative to the current directory unless the path is absolute) with --odr and exactly that file, the fixed window options and --density and the density. If the file cannot be written (ExpatError), nothing is run and no file changes. The path is not quoted: with a space in it the file is written but neither the viewer nor the file is named by a word of the command.", "quantifier": "every reachable state and network with links of a direction and values of plain characters, every esmini path of characters the shell takes literally (with spaces for the refutation), every density and previous content of the file system", "why_tests_cant": "the command and the written file must agree for every path and every network; tests cannot start the viewer for all of them", "anchors": ["pyodrx/helpers.py: run_road", "pyodrx/opendrive.py: OpenDrive.write_xml"]}
{"id": "C70", "title": "Written networks and the OpenDRIVE schema", "statement": "write_xml writes a document that satisfies the OpenDRIVE 1.5 schema (which elements stand in which, in which order and how often, which attributes an element must and may have, their kinds and words) exactly if the network is one of those described by plain conditions on its objects: it has a road; every road has geometries with positions and lengths and a lane section; a road has at most one predecessor and one successor, the predecessor given first, no neighbor, all with element type; the links of each lane list predecessors before successors; a signal has a country code and, if it has a value, a unit; repetitions have heights; no road has both signals and objects; every junction has a connection. In particular the order in which roads are added to the OpenDrive decides whether the same network is written well. Before adjust_roads_and_lanes: if no lane has links yet, no lane is shared by two roads and, for every road, its predecessor was added before its successor, then the linked network is written well exactly if the remaining conditions hold; and for a lane that is linked on both sides the order of adding those two roads decides. A lane that a LaneLinker linked to the next section of its road and that then gets a predecessor is never written well.", "quantifier": "every state reachable by API calls, every network and road in it, any arithmetic in which no number is written as None, both file formats (for strings without control characters)", "why_tests_cant": "validity must hold for every combination of optional arguments, every order of calls and every shape of network; tests validate a few files, and the equivalence also says that no other network is written well", "anchors": ["pyodrx/opendrive.py: OpenDrive.get_element, Road.get_element, _Header", "pyodrx/lane.py: Lanes, LaneSection, Lane, RoadMark, RoadLine get_element/get_attributes", "pyodrx/links.py: _Links, _Link, Connection, Junction get_element", "pyodrx/signals_objects.py: Signal, Object get_element", "pyodrx/geometry.py: PlanView, _Geometry get_element", "pyodrx/enumerations.py"]}
{"id": "C71", "title": "No dangling references in the written file", "statement": "The file of a network has no reference to an element that is not in it (links of roads to roads and junctions, the junction a road belongs to, incoming and connecting roads of connections, connecting roads belonging to their junction) exactly if the objects of the network have none; adjusting the network does not change this; and an intersection made with create_junction_roads and create_junction from roads with distinct ids, of which all roads, connecting roads and the junction are added in any order, has none, before and after adjust_roads_and_lanes. Nothing is checked on adjusting and writing: a loose link of the first road and a forgotten junction are written silently.", "quantifier": "every network in every state; every list of at least two roads with free ends and equal lane counts, all angles, radii, proportions and start numbers, every order (and repetition) of adding", "why_tests_cant": "closure must hold for any number of roads (the number of connecting roads grows quadratically), any ids and any order of adding; tests look at single intersections", "anchors": ["pyodrx/opendrive.py: OpenDrive.add_road, add_junction, adjust_roads_and_lanes, get_element", "pyodrx/generators.py: create_junction_roads, create_junction", "pyodrx/links.py: Connection, Junction"]}
{"id": "C72", "title": "Networks that flow forwards are placed completely and written validly", "statement": "Call a network flowing forwards if every road with a successor road is a root (a fixed road, or the first road if none is fixed), or is named by its predecessor or by a connecting road that is placed before its turn comes, or has a predecessor that is placed before; and connecting roads end where their successors start. When adjust_roads_and_lanes succeeds on such a network of roads that have not been adjusted, every road is laid out from its start, every geometry gets its position and its length, and (with the conditions on links, lanes, marks and objects that C70 lists) the file that is written satisfies the OpenDRIVE schema. Networks in which every road continues, with its predecessor, a road added before it flow forwards. So does every intersection that create_junction_roads and create_junction make from at least two unlinked roads, whatever way the given roads and the connecting roads are mixed when they are added, as long as both keep their order and the first road comes first; its file is valid if adjusting succeeds. For intersections adjusting succeeds exactly in these cases: a road has the id of the junction, or every road without start point, but the first, is added after the connecting road from the first road to it (given primitives that can be evaluated and numbered lanes), and the roads have at least as many lanes on the right as on the left: otherwise linking the lanes fails. In general it cannot succeed if a road that is not a root continues an id that is no road's, and no connecting road added before it leads to it.", "quantifier": "every network of every reachable state, any number of roads, junctions and shared successors, any arithmetic (in which no number is written as None, for the schema)", "why_tests_cant": "the sweeps of adjust_startpoints place roads in an order that depends on the whole graph, and a road that is laid out from its end is written without positions; tests look at a few graphs", "anchors": ["pyodrx/opendrive.py: OpenDrive.adjust_startpoints, _adjust_road_wrt_neighbour, adjust_roads_and_lanes, get_element", "pyodrx/geometry.py: PlanView.adjust_geometries, get_element"]}
{"id": "C73", "title": "When adjusting a network succeeds", "statement": "adjust_startpoints succeeds on every network of roads that have not been adjusted, whose geometries can be evaluated and whose connecting roads join ordinary roads, if one sweep places every road: each road is placed by the end of the first sweep, and when its turn comes it is placed already, or it can be placed from its predecessor (a placed road, with a contact point; a connecting road's successor then being a road), or all its links name roads. Roads whose link to a junction names no road do not matter, as long as a connecting road places them before their turn. In particular it succeeds if every road continues, with its predecessor and a contact point, a road added before it, and connecting roads end at roads. adjust_roads_and_lanes succeeds if and only if adjust_startpoints does and create_lane_links succeeds, in the state before the call, for every two roads of the network, taken in the order in which they were added.", "quantifier": "every state, any number of roads, junctions and lanes, any arithmetic", "why_tests_cant": "whether the placing gets stuck depends on the order of the roads and on the whole graph, and the lane linking looks at all pairs of roads in a state that earlier pairs have changed; tests look at a few networks", "anchors": ["pyodrx/opendrive.py: OpenDrive.adjust_startpoints, adjust_roads_and_lanes", "pyodrx/links.py: create_lane_links"]}
