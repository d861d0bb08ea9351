{"id": "C01", "title": "Site id and site index determine each other", "statement": "For a lattice of length L the ids 0..L^2-1 and the indices (row, column) with 0 <= row, column < L are in bijection: the site with id i reports id i and index (i div L, i mod L); looking a site up by that index, or computing the id from the index, gives i back.", "quantifier": "every lattice length L >= 1, every site id, every in-range index", "why_tests_cant": "Infinitely many lattice sizes; a test fixes a handful of L.", "anchors": ["source_py/simulation/lattice.py: init_lattice, get_site_by_id, get_site_by_index, get_id_from_index, calculate_id_from_index"]}
{"id": "C02", "title": "Bond id and (type, row, column) determine each other", "statement": "For a lattice of length L the ids 0..2L^2-1 and the triples (horizontal/vertical, row, column) are in bijection: the bond with id i reports id i, type i div L^2, row (i mod L^2) div L and column i mod L, and get_bond_by_index of that triple returns that bond.", "quantifier": "every lattice length L >= 1, every bond id, every in-range triple", "why_tests_cant": "Infinitely many lattice sizes.", "anchors": ["source_py/simulation/lattice.py: init_lattice, get_bond_by_id, get_bond_by_index"]}
{"id": "C03", "title": "Coordination numbers: four bonds per site, two sites per bond", "statement": "Every site has exactly 4 connecting bonds and every bond exactly 2 connected sites; for L >= 2 the four bonds are distinct and the two sites are distinct. For L = 1 the single site has bonds [0,1,0,1] and both bonds are self-loops.", "quantifier": "every lattice length L >= 1, every site and bond", "why_tests_cant": "Infinitely many lattice sizes; the construction is two nested loops with order-dependent appends.", "anchors": ["source_py/simulation/lattice.py: init_ids, get_neighbor_bonds, get_neighbor_sites", "source_py/simulation/site.py: add_connecting_bond", "source_py/simulation/bond.py: add_connected_site"]}
{"id": "C04", "title": "Bonds join torus neighbours and incidence is symmetric", "statement": "The horizontal bond at (r,c) joins (r,c) with (r,c+1 mod L) and the vertical bond at (r,c) joins (r,c) with (r+1 mod L,c), nothing else; a site lists a bond iff the bond lists the site.", "quantifier": "every lattice length L >= 1, every site/bond pair", "why_tests_cant": "Infinitely many lattice sizes; edges and corners wrap around.", "anchors": ["source_py/simulation/lattice.py: find_neighbor_bonds, top_bond_of_site, left_bond_of_site, init_ids"]}
{"id": "C05", "title": "Neighbour queries return right, bottom, left, top", "statement": "get_all_neighbor_sites(s) (and get_site_neighbor_of_site(s)) never raises for a valid id and returns, in this order, the sites at (r,c+1), (r+1,c), (r,c-1), (r-1,c) modulo L; t is a neighbour of s iff s is a neighbour of t.", "quantifier": "every lattice length L >= 1, every site", "why_tests_cant": "Infinitely many lattice sizes.", "anchors": ["source_py/simulation/lattice.py: get_all_neighbor_sites, get_site_neighbor_of_site"]}
{"id": "C06", "title": "Construction succeeds exactly for positive lengths", "statement": "Creating a percolation object succeeds for every length L >= 1, with every site unoccupied, 2L^2 singleton bond clusters and the id sequence a permutation of 0..L^2-1; length 0 raises ValueError and a negative length raises AttributeError.", "quantifier": "every integer length, every class, every random stream", "why_tests_cant": "All lengths and all random streams.", "anchors": ["source_py/simulation/percolation_sq_lattice.py: SitePercolation.__init__, init_clusters, shuffle", "source_py/simulation/lattice.py: Lattice.__init__"]}
{"id": "C07", "title": "The lattice geometry is never altered", "statement": "Whatever is called, ids, indices, bond types and incidence lists of sites and bonds stay those of the freshly built lattice.", "quantifier": "every lattice length, every selection rule (base/L0, L1, L2, shortest path), every random stream, every set-iteration order and every finite history of API calls, including calls that raised", "why_tests_cant": "Lists are shared and mutated in place (remove, append); only an invariant over all histories shows they are never damaged.", "anchors": ["source_py/simulation/lattice.py", "source_py/simulation/percolation_sq_lattice.py: get_neighbor_site, merge_clusters_v2", "source_py/simulation/cluster.py"]}
{"id": "C08", "title": "Distance between adjacent sites", "statement": "distance_btn_sites of two adjacent sites is (0,1) or (1,0) for every L >= 2, including across the periodic boundary; it is symmetric. For non-adjacent sites it is not the periodic distance: on L = 5 the columns 0 and 3 are reported at distance 3. Exactly: it is never less than the periodic distance, and it equals it in a coordinate if and only if L is not 1 and the difference is at most L/2 or equal to L-1; on a 1x1 lattice the site has distance (1,1) from itself.", "quantifier": "every L and every pair of sites", "why_tests_cant": "All sizes and all pairs.", "anchors": ["source_py/simulation/lattice.py: distance_btn_sites"]}
{"id": "C09", "title": "get_four_neighbor_sites raises on boundary sites", "statement": "SitePercolationL1.get_four_neighbor_sites(s) does not return the four neighbours for every site, because it removes from the list it iterates over: for L >= 3 it raises AssertionError exactly for the sites of the first row outside column 0, the first site of the last row, and the sites of the last column above the last row; for every other site it returns the four neighbours. The same holds for L = 2; for L = 1 it returns the site four times.", "quantifier": "every L and every site", "why_tests_cant": "Existing tests only use get_all_neighbor_sites; the failure depends on position and order.", "anchors": ["source_py/simulation/percolation_sq_lattice_L1L2.py: get_four_neighbor_sites"]}
{"id": "C10", "title": "A successful placement occupies exactly one empty site", "statement": "When place_one_site returns True with selection flag SUCESS, exactly one site changes from unoccupied to occupied (the selected one), no site becomes unoccupied and the occupied count grows by one. When it returns True with CURRENT_SITE_NOT_EMPTY, or False, no site, bond or cluster changes.", "quantifier": "every lattice length, every selection rule (base/L0, L1, L2, shortest path), every random stream, every set-iteration order and every finite history of API calls, including calls that raised followed by one more place_one_site", "why_tests_cant": "Merging relabels arbitrarily large clusters; all cluster shapes must be covered.", "anchors": ["source_py/simulation/percolation_sq_lattice.py: place_one_site, select_site, merge_clusters_v2", "source_py/simulation/percolation_sq_lattice_L1L2.py: select_site"]}
{"id": "C11", "title": "Occupation probability counts occupied sites", "statement": "occupied_site_count always equals the number of sites with a cluster label, and occupation_prob() is that number divided by L^2, between 0 and 1.", "quantifier": "every lattice length, every selection rule (base/L0, L1, L2, shortest path), every random stream, every set-iteration order and every finite history of API calls, including calls that raised", "why_tests_cant": "Counter and lattice are updated in different places; all histories.", "anchors": ["source_py/simulation/percolation_sq_lattice.py: select_site, occupation_prob, reset"]}
{"id": "C12", "title": "Every bond is in exactly one cluster; sizes sum to 2L^2", "statement": "At all times each bond appears exactly once in exactly one cluster, the one named by its label; every other cluster that was merged away is empty; cluster bond counts sum to 2L^2.", "quantifier": "every lattice length, every selection rule (base/L0, L1, L2, shortest path), every random stream, every set-iteration order and every finite history of API calls, including calls that raised", "why_tests_cant": "Depends on merge order, stale cluster contents and label rewriting across all histories.", "anchors": ["source_py/simulation/cluster.py: merge_cluster_with, clear_cluster", "source_py/simulation/percolation_sq_lattice.py: merge_clusters_v2, init_clusters"]}
{"id": "C13", "title": "Every occupied site is in exactly one cluster", "statement": "At all times each occupied site appears exactly once in exactly one cluster, the one named by its label, unoccupied sites appear in none, and cluster site counts sum to the number of occupied sites.", "quantifier": "every lattice length, every selection rule (base/L0, L1, L2, shortest path), every random stream, every set-iteration order and every finite history of API calls, including calls that raised", "why_tests_cant": "As for bonds.", "anchors": ["source_py/simulation/cluster.py: add_sites, merge_cluster_with, clear_cluster", "source_py/simulation/percolation_sq_lattice.py: merge_clusters_v2"]}
{"id": "C14", "title": "Site clusters are the connected components", "statement": "Two occupied sites carry the same cluster label iff they are joined by a path of occupied nearest neighbours on the periodic lattice.", "quantifier": "every lattice length, every selection rule (base/L0, L1, L2, shortest path), every random stream, every set-iteration order and every finite history of API calls, including calls that raised", "why_tests_cant": "Connectivity over all configurations; no finite test set covers it.", "anchors": ["source_py/simulation/percolation_sq_lattice.py: merge_clusters_v2, uniqe_gid_bond_neighbors"]}
{"id": "C15", "title": "Bond clusters are the connected bond components", "statement": "Two different bonds carry the same cluster label iff each touches an occupied site and those sites are joined by a path of occupied sites; an occupied site's four bonds carry the site's label.", "quantifier": "every lattice length, every selection rule (base/L0, L1, L2, shortest path), every random stream, every set-iteration order and every finite history of API calls, including calls that raised", "why_tests_cant": "As above.", "anchors": ["source_py/simulation/percolation_sq_lattice.py: merge_clusters_v2", "source_py/simulation/cluster.py"]}
{"id": "C16", "title": "Largest cluster is tracked correctly", "statement": "largest_cluster() is 0 when nothing is occupied and otherwise the maximum bond count over all clusters, and largest_cluster_id names a cluster of that size.", "quantifier": "every lattice length, every selection rule (base/L0, L1, L2, shortest path), every random stream, every set-iteration order and every finite history of API calls, including calls that raised", "why_tests_cant": "The tracker only looks at the last merged cluster; that this never misses the maximum needs an invariant.", "anchors": ["source_py/simulation/percolation_sq_lattice.py: track_largest_cluster, largest_cluster"]}
{"id": "C17", "title": "Running entropy equals the entropy computed from scratch", "statement": "In exact arithmetic entropy_v2() (incremental) equals entropy_v1() (sum over all clusters of -mu log mu with mu = bonds/2L^2).", "quantifier": "every lattice length, every selection rule (base/L0, L1, L2, shortest path), every random stream, every set-iteration order and every finite history of API calls, including calls that raised", "why_tests_cant": "The incremental update must telescope over every merge history.", "anchors": ["source_py/simulation/percolation_sq_lattice.py: entropy_subtract, entropy_add, entropy_v1, entropy_v2"]}
{"id": "C18", "title": "Entropy bounds", "statement": "In exact arithmetic 0 <= entropy() <= log(2L^2); it equals log(2L^2) on a fresh or reset object and 0 when every site is occupied.", "quantifier": "every lattice length, every selection rule (base/L0, L1, L2, shortest path), every random stream, every set-iteration order and every finite history of API calls, including calls that raised", "why_tests_cant": "All histories; real-valued inequality.", "anchors": ["source_py/simulation/percolation_sq_lattice.py: entropy, max_entropy"]}
{"id": "C19", "title": "Entropy never increases as sites are placed", "statement": "In exact arithmetic a call of place_one_site never increases entropy().", "quantifier": "every lattice length, every selection rule (base/L0, L1, L2, shortest path), every random stream, every set-iteration order and every finite history of API calls, including calls that raised followed by one placement", "why_tests_cant": "Needs superadditivity of x log x for all sizes.", "anchors": ["source_py/simulation/percolation_sq_lattice.py: entropy_subtract, entropy_add"]}
{"id": "C20", "title": "Largest-cluster order parameter", "statement": "order_param_largest_clstr() is the largest bond count divided by 2L^2, lies in [0,1], never decreases under placements, and is 1 when all sites are occupied.", "quantifier": "every lattice length, every selection rule (base/L0, L1, L2, shortest path), every random stream, every set-iteration order and every finite history of API calls, including calls that raised", "why_tests_cant": "All histories.", "anchors": ["source_py/simulation/percolation_sq_lattice.py: order_param_largest_clstr, track_largest_cluster"]}
{"id": "C21", "title": "Wrapping order parameter", "statement": "order_param_wrapping() is 0 until wrapping is detected, afterwards it is the bond count of the wrapping cluster over 2L^2; it lies in [0,1], is at most the largest-cluster order parameter and never decreases under placements.", "quantifier": "every lattice length, every selection rule (base/L0, L1, L2, shortest path), every random stream, every set-iteration order and every finite history of API calls, including calls that raised", "why_tests_cant": "The wrapping cluster must survive every later merge as the root.", "anchors": ["source_py/simulation/percolation_sq_lattice.py: order_param_wrapping, merge_clusters_v2"]}
{"id": "C22", "title": "Wrapping detection is sound", "statement": "If detect_wrapping() returns True (or wrapping was recorded) then the occupied sites of the recorded wrapping cluster contain a closed nearest-neighbour walk with non-zero net displacement, i.e. a non-contractible loop around the torus.", "quantifier": "every lattice length, every selection rule (base/L0, L1, L2, shortest path), every random stream, every set-iteration order and every finite history of API calls, including calls that raised, even if detect_wrapping is called rarely", "why_tests_cant": "Topological statement over all configurations.", "anchors": ["source_py/simulation/percolation_sq_lattice.py: detect_wrapping, relabel_relative_indices, get_relative_index"]}
{"id": "C23", "title": "Wrapping detection is complete for L >= 3", "statement": "If detect_wrapping() is called after every successful placement (as run_once does) and L >= 3, then wrapping is recorded iff the occupied sites contain a non-contractible loop.", "quantifier": "every L >= 3, every rule, random stream, set order and every history in which each successful placement is followed by detect_wrapping", "why_tests_cant": "Topological statement over all configurations; false negatives would need a rare geometry.", "anchors": ["source_py/simulation/percolation_sq_lattice.py: detect_wrapping, run_once"]}
{"id": "C24", "title": "Skipping a detection call can lose the wrapping event", "statement": "detect_wrapping only looks at the last placed site: there is a history in which the occupied sites wrap but detect_wrapping() returns False because it was not called right after the closing placement.", "quantifier": "existence (witness)", "why_tests_cant": "Documents the exact domain of the completeness property.", "anchors": ["source_py/simulation/percolation_sq_lattice.py: detect_wrapping"]}
{"id": "C25", "title": "On 1x1 and 2x2 lattices wrapping is never detected", "statement": "For L = 1 and L = 2 detect_wrapping() never returns True, even on the full lattice where every row wraps; get_pc() stays 0 and order_param_wrapping() stays 0.", "quantifier": "L in {1,2}; every rule, random stream, set order and history", "why_tests_cant": "Shows the L >= 3 restriction is sharp, for all histories.", "anchors": ["source_py/simulation/percolation_sq_lattice.py: detect_wrapping, wrapping_correction_relative_index"]}
{"id": "C26", "title": "Wrapping, once recorded, is permanent until reset", "statement": "After wrapping is recorded, every later placement or detection keeps it recorded, keeps the same wrapping cluster id, and the wrapping cluster keeps all its sites.", "quantifier": "every lattice length, every selection rule (base/L0, L1, L2, shortest path), every random stream, every set-iteration order and every finite history of API calls, including calls that raised after detection", "why_tests_cant": "All continuations.", "anchors": ["source_py/simulation/percolation_sq_lattice.py: merge_clusters_v2, detect_wrapping"]}
{"id": "C27", "title": "Values at the critical point are frozen", "statement": "get_pc(), get_site_count_wrapping_cluster_pc() and get_bond_count_wrapping_cluster_pc() do not change after wrapping is recorded until reset, and are 0 before. When recorded, L <= site count <= occupied count, so 1/L <= get_pc() <= 1.", "quantifier": "every lattice length, every selection rule (base/L0, L1, L2, shortest path), every random stream, every set-iteration order and every finite history of API calls, including calls that raised", "why_tests_cant": "The lower bound is a statement about all wrapping clusters.", "anchors": ["source_py/simulation/percolation_sq_lattice.py: get_pc, get_site_count_wrapping_cluster_pc, get_bond_count_wrapping_cluster_pc, detect_wrapping"]}
{"id": "C28", "title": "Relative indices are walk displacements", "statement": "For two occupied sites of one cluster the difference of relative indices is the net displacement of some walk of occupied sites between them, so it is congruent mod L to the difference of their positions; while no wrapping has been recorded (detection after every placement, L >= 3) adjacent occupied sites differ exactly by their lattice offset.", "quantifier": "every lattice length, every selection rule (base/L0, L1, L2, shortest path), every random stream, every set-iteration order and every finite history of API calls, including calls that raised", "why_tests_cant": "Relabelling shifts whole clusters; all merge histories.", "anchors": ["source_py/simulation/percolation_sq_lattice.py: relabel_relative_indices, get_relative_index, get_change_in_relative_index"]}
{"id": "C29", "title": "Neighbour offset computation", "statement": "For adjacent sites get_relative_index(c, n) is c's relative index plus the unit lattice step from c to n, for every L >= 3, including across the boundary; wrapping_correction_relative_index is the identity on offsets of size at most 1.", "quantifier": "every L >= 3, every adjacent pair, every stored relative index", "why_tests_cant": "All sizes and positions.", "anchors": ["source_py/simulation/percolation_sq_lattice.py: get_relative_index, wrapping_correction_relative_index"]}
{"id": "C30", "title": "The library's own consistency checks pass at all times", "statement": "test_lattice() (neighbour counts, relative indices, bond and site scans) never fails on a partly filled lattice of length L >= 2.", "quantifier": "every lattice length, every selection rule (base/L0, L1, L2, shortest path), every random stream, every set-iteration order and every finite history of API calls, including calls that raised with L >= 2", "why_tests_cant": "Checks are asserted on a few runs only.", "anchors": ["source_py/simulation/percolation_sq_lattice.py: test_lattice", "source_py/simulation/lattice.py: test_relative_index, test_neighbor_count, scan_sites, scan_bonds"]}
{"id": "C31", "title": "run_once of the base/L0 rule terminates and fills the lattice", "statement": "From a fresh object run_once returns after exactly L^2 successful placements without raising; each of the four recorded arrays has L^2 entries and the k-th occupation probability is k/L^2.", "quantifier": "every L >= 1, every random stream and set order", "why_tests_cant": "Termination for all inputs.", "anchors": ["source_py/simulation/percolation_sq_lattice.py: run_once, place_one_site"]}
{"id": "C32", "title": "End state of a full run", "statement": "After a full run all sites and bonds are in one cluster, the entropy is 0, P_largest = 1, and for L >= 3 that cluster is the wrapping cluster, P_wrapping = 1 and test_clusters() and test_lattice() pass.", "quantifier": "every L, rule, random stream, set order", "why_tests_cant": "All runs.", "anchors": ["source_py/simulation/percolation_sq_lattice.py: run_once, test_clusters, test_lattice"]}
{"id": "C33", "title": "L1 rule terminates after exactly 5L^2 iterations", "statement": "With the L1 rule place_one_site returns True exactly 5L^2 times (L^2 of them successful) and then False forever; all sites are then occupied and no call raises.", "quantifier": "every L >= 1, random stream, set order", "why_tests_cant": "Randomised termination argument for every random stream.", "anchors": ["source_py/simulation/percolation_sq_lattice_L1L2.py: SitePercolationL1.select_site", "source_py/simulation/site.py: reduce_1st_nn, is_removable"]}
{"id": "C34", "title": "L2 rule terminates after exactly 5L^2 iterations", "statement": "The same with the L2 rule and its second-neighbour counter.", "quantifier": "every L >= 1, random stream, set order", "why_tests_cant": "Randomised termination argument for every random stream.", "anchors": ["source_py/simulation/percolation_sq_lattice_L1L2.py: SitePercolationL2.select_site", "source_py/simulation/site.py: reduce_2st_directional_nn"]}
{"id": "C35", "title": "L1 selection rule", "statement": "A site selected by the L1 rule was unoccupied and is either a remaining candidate, or a nearest neighbour of an occupied remaining candidate.", "quantifier": "every history of an L1 object and every random stream", "why_tests_cant": "All configurations.", "anchors": ["source_py/simulation/percolation_sq_lattice_L1L2.py: SitePercolationL1.select_site"]}
{"id": "C36", "title": "L2 selection rule and its boundary defect", "statement": "A site selected by the L2 rule was unoccupied and is a remaining candidate X, a neighbour Y of an occupied candidate X, or the site two steps from X through an occupied Y when X, Y do not straddle the boundary. Across the boundary the second site computed is X itself, so the next site in that direction is never selected.", "quantifier": "every L >= 3, every history of an L2 object and every random stream", "why_tests_cant": "All configurations.", "anchors": ["source_py/simulation/percolation_sq_lattice_L1L2.py: SitePercolationL2.select_site, correct_index_for_periodicity", "source_py/simulation/index.py: normalize"]}
{"id": "C37", "title": "reset gives a fresh lattice", "statement": "After reset() the lattice, clusters, counters, entropy and wrapping data equal those of a newly constructed object of the same length; only the sequence, the random stream and the 'first run' bookkeeping may differ.", "quantifier": "every lattice length, every selection rule (base/L0, L1, L2, shortest path), every random stream, every set-iteration order and every finite history of API calls, including calls that raised", "why_tests_cant": "All histories before the reset.", "anchors": ["source_py/simulation/percolation_sq_lattice.py: reset", "source_py/simulation/lattice.py: reset", "source_py/simulation/cluster.py: reset", "source_py/simulation/percolation_sq_lattice_L1L2.py: reset", "source_py/simulation/percolation_sq_lattice_shortest_path.py: reset"]}
{"id": "C38", "title": "The id sequence stays a permutation", "statement": "Without custom lists, get_site_id_sequence() of a base/L0/shortest-path object is a permutation of 0..L^2-1 at all times, and reverse_ids_indices is its inverse.", "quantifier": "every L, random stream and history without custom lists", "why_tests_cant": "All random streams.", "anchors": ["source_py/simulation/percolation_sq_lattice.py: shuffle, get_site_id_sequence, reset"]}
{"id": "C39", "title": "Invalid custom lists are rejected without effect", "statement": "set_custome_site_id_list / set_custome_site_index_list with an entry outside 0..L^2-1 change nothing; an empty list raises ValueError and changes nothing.", "quantifier": "every lattice length, every selection rule (base/L0, L1, L2, shortest path), every random stream, every set-iteration order and every finite history of API calls, including calls that raised; every list", "why_tests_cant": "All lists.", "anchors": ["source_py/simulation/percolation_sq_lattice.py: set_custome_site_id_list, set_custome_site_index_list"]}
{"id": "C40", "title": "Custom lists are followed in order", "statement": "After reset and set_custome_site_id_list(l) with distinct valid ids and no shuffling (base/L0), the k-th placement occupies l[k], get_site_id_sequence() is l, place_one_site returns False after len(l) placements; the index form does the same for the corresponding indices, and get_index_sequence() returns them.", "quantifier": "every L, every duplicate-free valid list", "why_tests_cant": "All lists.", "anchors": ["source_py/simulation/percolation_sq_lattice.py: set_custome_site_id_list, set_custome_site_index_list, select_site, get_index_sequence"]}
{"id": "C41", "title": "Out-of-range columns are silently aliased", "statement": "set_custome_site_index_list accepts (0, L) and treats it as (1, 0) for every L >= 2.", "quantifier": "every L >= 2", "why_tests_cant": "Shows where validation stops.", "anchors": ["source_py/simulation/percolation_sq_lattice.py: set_custome_site_index_list", "source_py/simulation/lattice.py: calculate_id_from_index"]}
{"id": "C42", "title": "A repeated custom id blocks the run", "statement": "If the next custom id is already occupied, place_one_site raises AssertionError, leaves lattice, clusters and counters unchanged, and will raise again on every later call until reset or a new list.", "quantifier": "every lattice length, every selection rule (base/L0, L1, L2, shortest path), every random stream, every set-iteration order and every finite history of API calls, including calls that raised", "why_tests_cant": "All histories.", "anchors": ["source_py/simulation/percolation_sq_lattice.py: select_site"]}
{"id": "C43", "title": "The caller's custom list is aliased", "statement": "With do_shuffle=True, set_custome_site_id_list reorders the caller's own list object in place (a permutation of it); every later reset of a base/L0 object reorders it again.", "quantifier": "every valid list and random stream", "why_tests_cant": "Aliasing is invisible to value-based tests.", "anchors": ["source_py/simulation/percolation_sq_lattice.py: set_custome_site_id_list, shuffle, reset"]}
{"id": "C44", "title": "Short custom lists never finish under L1/L2", "statement": "With a custom list shorter than L^2 the L1 and L2 rules never report completion: place_one_site never returns False, it ends by raising.", "quantifier": "every L, every short list, random stream", "why_tests_cant": "All random streams.", "anchors": ["source_py/simulation/percolation_sq_lattice_L1L2.py: select_site"]}
{"id": "C45", "title": "Recorded L1 sequence is the occupation order", "statement": "For an L1 object get_index_sequence() lists the indices of the occupied sites in the order of occupation, each exactly once.", "quantifier": "every history of an L1 object without custom lists", "why_tests_cant": "All random streams.", "anchors": ["source_py/simulation/percolation_sq_lattice_L1L2.py: get_index_sequence, select_site"]}
{"id": "C46", "title": "Results do not depend on set iteration order", "statement": "Two runs with the same site sequence but different iteration orders of Python sets give the same occupied sites, cluster partition, cluster sizes, largest size, order parameters, wrapping verdict and critical values (and, in exact arithmetic, entropy), at every step.", "quantifier": "every L, every sequence, every two set-iteration orders", "why_tests_cant": "CPython fixes one order per build; tests see only that one.", "anchors": ["source_py/simulation/percolation_sq_lattice.py: get_bond_gids, merge_clusters_v2, entropy_subtract"]}
{"id": "C47", "title": "No exceptions in normal use", "statement": "In histories without custom lists and without swap_ids no call of place_one_site, run_once, reset, or the order-parameter and entropy queries raises, and detect_wrapping raises only if called before the first placement.", "quantifier": "every L >= 1, rule, random stream, set order, history without custom lists or swap_ids", "why_tests_cant": "All histories.", "anchors": ["source_py/simulation/percolation_sq_lattice.py", "source_py/simulation/percolation_sq_lattice_L1L2.py", "source_py/simulation/percolation_sq_lattice_shortest_path.py"]}
{"id": "C48", "title": "detect_wrapping before any placement", "statement": "On a new object detect_wrapping() raises TypeError; after reset of a used object it returns False although nothing has been placed.", "quantifier": "every L, rule, random stream, set order", "why_tests_cant": "Depends on stale attributes after reset.", "anchors": ["source_py/simulation/percolation_sq_lattice.py: detect_wrapping, reset"]}
{"id": "C49", "title": "Recorded arrays stay aligned", "statement": "Repeated reset/run_once cycles without custom lists always leave four arrays of equal length L^2, so get_data_array() succeeds with columns p, entropy, P_largest, P_wrapping. If a custom list of another length is installed after the first run the lengths differ and get_data_array() raises ValueError.", "quantifier": "every L, random stream and number of cycles", "why_tests_cant": "All histories.", "anchors": ["source_py/simulation/percolation_sq_lattice.py: run_once, reset, get_data_array"]}
{"id": "C50", "title": "Shortest-path run: what p* means", "statement": "ShortestPathAfter_pc.run_once stops with p* > 0 only when the last placed site completes a full row or column inside the wrapping cluster, and for L >= 3 and a full sequence it always stops with p* > 0. It is not always the first moment at which the wrapping cluster contains a full row or column.", "quantifier": "every L >= 3, random stream, set order; refutation by witness for minimality", "why_tests_cant": "All runs; the missed case needs an unusual merge order.", "anchors": ["source_py/simulation/percolation_sq_lattice_shortest_path.py: run_once, scan_row_col_of_selected_site, scan_all_rows, scan_all_cols"]}
{"id": "C51", "title": "Line scans are exact", "statement": "scan_all_rows()/scan_all_cols() return True iff wrapping is recorded and some full column/row of sites carries the wrapping label; scan_row_col_of_selected_site(r,c) reports exactly whether row r and column c are full of wrapping-cluster sites.", "quantifier": "every lattice length, every selection rule (base/L0, L1, L2, shortest path), every random stream, every set-iteration order and every finite history of API calls, including calls that raised", "why_tests_cant": "All configurations.", "anchors": ["source_py/simulation/percolation_sq_lattice_shortest_path.py: scan_all_rows, scan_all_cols, scan_row_col_of_selected_site"]}
{"id": "C52", "title": "test_run_once rejects tight wrapping", "statement": "test_run_once raises AssertionError exactly when, at the first wrapping, all occupied sites belong to the wrapping cluster; this is reachable.", "quantifier": "every L >= 3, sequence, set order", "why_tests_cant": "Depends on the random sequence.", "anchors": ["source_py/simulation/percolation_sq_lattice.py: test_run_once"]}
{"id": "C53", "title": "Replaying a recorded L1 sequence", "statement": "Running a base/L0 object with the index sequence recorded from an L1 run reproduces the L1 run's order parameters, entropies and critical values.", "quantifier": "every L, random streams, set orders", "why_tests_cant": "All random streams.", "anchors": ["source_py/simulation/percolation_sq_lattice_L1L2.py: site_id_sequence_record", "source_py/simulation/percolation_sq_lattice.py: set_custome_site_index_list"]}
{"id": "C54", "title": "swap_ids keeps sequence and inverse consistent", "statement": "If the id sequence is a permutation with its inverse table, swap_ids(a,b) exchanges the positions of a and b and keeps the table inverse.", "quantifier": "every L, every pair of ids", "why_tests_cant": "All pairs.", "anchors": ["source_py/simulation/percolation_sq_lattice.py: swap_ids"]}
{"id": "C55", "title": "Cluster sizes are tied to site counts", "statement": "A cluster with n >= 1 sites has at least 2n and at most 3n+1 bonds; a cluster without sites has exactly one bond or none.", "quantifier": "every lattice length, every selection rule (base/L0, L1, L2, shortest path), every random stream, every set-iteration order and every finite history of API calls, including calls that raised", "why_tests_cant": "Combinatorial bound over all shapes.", "anchors": ["source_py/simulation/percolation_sq_lattice.py: merge_clusters_v2", "source_py/simulation/cluster.py"]}
{"id": "C56", "title": "Ensemble averages divide by the ensemble size", "statement": "run_ensemble_entropy_order averages each column entrywise over the realizations; with thread pools the number of realizations is threads * (ensembleSize // threads), so a remainder is dropped; ensembleSize 0 fails.", "quantifier": "every ensemble size, thread count and list of realizations", "why_tests_cant": "All sizes.", "anchors": ["run_py/ensemble.py: run_ensemble_entropy_order, run_ensemble_entropy_order_threads", "run_py/rsbd_percolatioin_run.py"]}
{"id": "C57", "title": "Output columns and their labels", "statement": "The data written by write_entropy_order has column order p, H, P_largest, P_wrapping while its header labels the third column as wrapping and the fourth as largest.", "quantifier": "every run", "why_tests_cant": "The label swap is invisible to numeric tests.", "anchors": ["run_py/ensemble.py: write_entropy_order", "source_py/simulation/percolation_sq_lattice.py: get_data_array"]}
{"id": "C58", "title": "find_intersection returns the first strongest sign change", "statement": "find_intersection returns the first index at which the sign of y1-y2 jumps the most; if there is a strict crossing the returned index is the first strict crossing; with no sign change it returns 0, and fewer than two points raise ValueError.", "quantifier": "all pairs of sequences", "why_tests_cant": "All inputs.", "anchors": ["source_py/analyze/lines.py: find_intersection"]}
{"id": "C59", "title": "print_duration decomposes elapsed time", "statement": "The hours, minutes and seconds printed recombine exactly to the elapsed time, with hours >= 0, 0 <= minutes < 60 and 0 <= seconds < 60 (before formatting to 4 decimals).", "quantifier": "every non-negative duration", "why_tests_cant": "All durations.", "anchors": ["main.py: print_duration"]}
{"id": "C60", "title": "Physical results depend only on what was placed and when detection ran", "statement": "Two objects of any classes, random streams and set orders that place the same sites in the same order, with detect_wrapping and reset called at the same moments, agree on occupied sites, cluster partition and sizes, displacements inside clusters, counters, order parameters, wrapping verdict, critical values and (in exact arithmetic) entropy; if sets iterate in the same order they also agree on every cluster label and on the entropy to the last bit.", "quantifier": "every L, all pairs of objects and step-by-step call histories", "why_tests_cant": "Ranges over pairs of histories.", "anchors": ["source_py/simulation/percolation_sq_lattice.py: place_one_site, detect_wrapping, reset", "source_py/simulation/percolation_sq_lattice_L1L2.py", "source_py/simulation/percolation_sq_lattice_L0.py"]}
{"id": "C61", "title": "Shuffling is unbiased", "statement": "Over the random indices the shuffle draws, every order of the sites (at construction, at reset for the sequential rules, and for a custom list with shuffling) is obtained from exactly one list of draws; so with uniform draws all L^2! orders are equally likely.", "quantifier": "every L, class, random stream, every history before a reset or custom list", "why_tests_cant": "Statistical tests cannot show that every one of L^2! orders is reachable and equally often.", "anchors": ["source_py/simulation/percolation_sq_lattice.py: shuffle, reset, set_custome_site_id_list"]}
{"id": "C62", "title": "Output files of different runs do not collide", "statement": "File names identify class, lattice length, time stamp, worker and kind of data: in one pool no two files of any workers share a name, and runs of any driver with time stamps of equal length that differ in class, length, time or worker never write the same file. Two serial runs of the same class and length started in the same second do share their file names, so the second overwrites the first.", "quantifier": "every class, length (any integer), time stamps of equal length, number of workers, ensemble size, random stream, set order", "why_tests_cant": "Ranges over all pairs of runs and all integers in the names.", "anchors": ["run_py/ensemble.py: write_entropy_order, write_critical_values, run_ensemble_entropy_order_threads, run_ensemble_entropy_order_threads_v2", "run_py/shortest_path_run.py: write_p_p_star, run_simulation_shortest_path_threads", "run_py/rsbd_percolatioin_run.py: run_simulation_threads_v4"]}
{"id": "C63", "title": "Straight-line helpers", "statement": "draw_vertical_line_at and draw_horizontal_line_at return size equal coordinates and size equally spaced ones from the first to the last value of the range; draw_horizontal_line_at called without its range always raises IndexError. A range of fewer than two values raises IndexError, a negative size ValueError; size 0 gives two empty lists and size 1 the first value of the range.", "quantifier": "every position, every range, every size", "why_tests_cant": "All sizes and ranges.", "anchors": ["source_py/analyze/lines.py: draw_vertical_line_at, draw_horizontal_line_at"]}
{"id": "C64", "title": "Seeded ensembles are reproducible", "statement": "With a seed, the files of run_ensemble_entropy_order_threads_v2 and ensemble_shortest_path_v2_thread depend only on class, length, ensemble size, worker, time stamp and seed, not on what was drawn before; with a different set iteration order the critical values are identical and the averages equal in exact arithmetic.", "quantifier": "every class, length, ensemble size, worker, seed stream, earlier use of the random module, set order", "why_tests_cant": "All earlier states of the global random module.", "anchors": ["run_py/ensemble.py: run_ensemble_entropy_order_threads_v2", "run_py/shortest_path_run.py: ensemble_shortest_path_v2_thread", "source_py/simulation/percolation_sq_lattice.py: __init__"]}
{"id": "C65", "title": "Recorded realizations replay from their files", "statement": "The file written by single_realization for the base, L0 or L1 rule, replayed the way the cross-check does it (new L0 object, recorded site indices, run_once), gives exactly the recorded pc, site and bond counts and both order-parameter lists, and the recorded entropies (exactly if sets iterate in the same order, and in exact arithmetic otherwise). A file written for the L2 rule can list a site twice; its replay raises AssertionError.", "quantifier": "every L, class, random stream, set order", "why_tests_cant": "Ranges over all runs; the shipped test replays five recorded files.", "anchors": ["run_py/rsbd_percolatioin_run.py: single_realization", "test_py/test_data_json.py: test_L0_for_all_files", "source_py/simulation/percolation_sq_lattice.py: set_custome_site_index_list, run_once, get_index_sequence"]}
{"id": "C66", "title": "Which label a merged cluster gets", "statement": "A successful placement changes the labels of exactly the clusters that meet at the placed site: they all get one of their own labels. It is the label of the wrapping cluster if wrapping was detected and that cluster is among them; otherwise it is the label of a largest one (by bonds), the last one among equals in the iteration order of the set of labels.", "quantifier": "every L, class, random stream, set order, every reachable state", "why_tests_cant": "Ranges over all histories.", "anchors": ["source_py/simulation/percolation_sq_lattice.py: place_one_site, merge_clusters_v2, uniqe_gid_bond_neighbors", "source_py/simulation/cluster.py: merge_cluster_with"]}
{"id": "C67", "title": "A bond is relabelled at most logarithmically often", "statement": "Between two resets the label of any bond changes at most log2(2 L^2) + 1 times, whatever is called and in whatever order; so the total relabelling work of a run is O(L^2 log L).", "quantifier": "every L, class, random stream, set order, every reachable state and every sequence of calls without reset, every bond", "why_tests_cant": "A complexity bound over all histories and sizes.", "anchors": ["source_py/simulation/percolation_sq_lattice.py: merge_clusters_v2", "source_py/simulation/cluster.py: merge_cluster_with"]}
{"id": "C68", "title": "Structural self-checks accept exactly the good lattices", "statement": "On a lattice of length L >= 2 whose labels and displacements were changed in any way through the setters, test_neighbor_count, scan_sites and scan_bonds always pass; test_relative_index passes if and only if every labelled site with a labelled neighbour has a labelled neighbour whose stored displacement differs from its own by 1 or L-1 in some coordinate, and raises AssertionError otherwise; test_lattice(g) passes if and only if all sites and bonds carry the label g, and raises AssertionError otherwise.", "quantifier": "every L >= 2, every sequence of setter calls, every g", "why_tests_cant": "Ranges over all edits and all sizes; a check that accepts too much or too little can only be seen on all lattices.", "anchors": ["source_py/simulation/lattice.py: test_neighbor_count, scan_sites, scan_bonds, test_relative_index, test_lattice, set_site_gid_by_id, set_bond_gid_by_id, set_relative_index, init_relative_index, reset"]}
{"id": "C69", "title": "The row scan passes while nothing wraps", "statement": "test_rwo_col_scan passes in every reachable state without a wrapping cluster. On any lattice whatever the setters did to it, it passes if and only if any two horizontally adjacent sites of one row with the same label have stored displacements differing by 1 or L-1 in the column coordinate, and raises AssertionError otherwise. After wrapping it can raise AssertionError although the lattice is consistent (test_relative_index passes).", "quantifier": "every L, class, random stream, set order, every reachable state", "why_tests_cant": "Ranges over all histories.", "anchors": ["source_py/simulation/lattice.py: test_rwo_col_scan"]}
{"id": "C70", "title": "viewLattice shows the state", "statement": "viewLattice never fails, and what it prints is the state of the lattice: format 4 prints in row r the labels of the sites of row r, format 3 the labels and relative indices, format 1 label and id of each site and of its right bond and on the next line of its lower bond, format 2 ids and positions, other non-negative formats the positions; a negative format prints only a message.", "quantifier": "every L, class, random stream, set order, every reachable state, every format", "why_tests_cant": "Ranges over all states, sizes and formats.", "anchors": ["source_py/simulation/percolation_sq_lattice.py: viewLattice", "source_py/simulation/lattice.py: view, view_relative_index, view_site_gids, get_row_str, get_row_v_str", "source_py/simulation/site.py: get_str", "source_py/simulation/bond.py: get_str"]}
{"id": "C71", "title": "viewCluster lists every cluster once", "statement": "viewCluster prints one block for each label carried by some bond, in increasing order of labels and nothing else; the block shows the label twice, the number and the ids of exactly the sites with that label, and the number and the ids of exactly the bonds with that label, without repetition; the last line gives the number of blocks.", "quantifier": "every L, class, random stream, set order, every reachable state", "why_tests_cant": "Ranges over all histories.", "anchors": ["source_py/simulation/percolation_sq_lattice.py: viewCluster", "source_py/simulation/cluster.py: ClusterPool.view, OneCluster.view, is_empty"]}
{"id": "C72", "title": "Listings show every site and bond with its neighbours", "statement": "list_all_sites, list_all_bonds, print_sites and print_bonds print one line per site or bond in order of id, with the current label, the position, the displacement (list_all_sites), and exactly the four bonds touching the site or the two ends of the bond; no warning is printed.", "quantifier": "every L > 0, every sequence of setter calls", "why_tests_cant": "Ranges over all edits and sizes.", "anchors": ["source_py/simulation/lattice.py: list_all_sites, list_all_bonds, print_sites, print_bonds"]}
{"id": "C73", "title": "Initialising a lattice again", "statement": "Calling init_ids on an existing lattice changes nothing (no duplicated neighbours); calling init_lattice and then init_ids gives the lattice a new constructor call would give, whatever had been stored in it.", "quantifier": "every L > 0, every sequence of setter calls", "why_tests_cant": "Ranges over all edits and sizes.", "anchors": ["source_py/simulation/lattice.py: init_ids, init_lattice", "source_py/simulation/site.py: add_connecting_bond", "source_py/simulation/bond.py: add_connected_site"]}
{"id": "C74", "title": "get_pc is the occupation at which wrapping first appeared", "statement": "If detection ran after every placement and wrapping was found on a lattice with L >= 3, then there is a set of placed sites and one more placed site such that the first set contains no non-contractible loop, adding the one site creates one, and get_pc is their number divided by L^2, whatever was placed afterwards.", "quantifier": "every L >= 3, class, random stream, set order, every call history with detection after every placement", "why_tests_cant": "Ranges over all histories.", "anchors": ["source_py/simulation/percolation_sq_lattice.py: get_pc, detect_wrapping, place_one_site"]}
{"id": "C75", "title": "Range of the critical occupation", "statement": "More than L^2 - L occupied sites always contain a non-contractible loop; with detection after every placement (L >= 3) it has then been found, and get_pc always lies between L/L^2 and (L^2-L+1)/L^2.", "quantifier": "every L, class, random stream, set order, every history", "why_tests_cant": "A geometric bound for all sizes and configurations.", "anchors": ["source_py/simulation/percolation_sq_lattice.py: get_pc, detect_wrapping, occupation_prob"]}
{"id": "C76", "title": "The loop place, detect, stop at wrapping", "statement": "The loop 'while place_one_site(): if detect_wrapping(): break' on a new or reset object ends within 5 L^2 iterations. For L >= 3 it ends with detected wrapping caused by the last placed site: without it nothing wraps; get_pc equals the current occupation_prob and also the pc run_once would report. For L <= 2 it ends with a full lattice and no detection.", "quantifier": "every class, L, random stream, set order", "why_tests_cant": "Ranges over all runs.", "anchors": ["source_py/simulation/percolation_sq_lattice.py: test_large", "source_py/simulation/percolation_sq_lattice_L0.py: test_detect_wrapping, test_large"]}
{"id": "C77", "title": "The loop place, detect until nothing is left", "statement": "The loop 'while place_one_site(): detect_wrapping()' ends after exactly L^2 iterations (base, L0, shortest path) or 5 L^2 iterations (L1, L2, although only L^2 sites exist) with every site occupied, both order parameters 1 (L >= 3), the self-checks passing, and in the state run_once leaves except for the recorded arrays.", "quantifier": "every class, L, random stream, set order", "why_tests_cant": "Ranges over all runs.", "anchors": ["test_py/test_percolation_L0.py", "test_py/test_percolation_L1.py", "source_py/simulation/percolation_sq_lattice_L1L2.py: test_L1, test_L2"]}
{"id": "C78", "title": "What occupied_summary counts", "statement": "For the L1 and L2 classes the first number printed by occupied_summary counts exactly the iterations in which the candidate drawn was already occupied, that is the rejected iterations plus those placements that did not take the first candidate; so it lies between rejections and rejections + placements - 1; the second number (L2), labelled as second neighbours selected, is exactly the number of rejected iterations, in which nothing was selected. After run_once the second number is 4 L^2 and the first between 4 L^2 and 5 L^2 - 1.", "quantifier": "every L, random stream, set order, every place/detect history", "why_tests_cant": "Ranges over all histories.", "anchors": ["source_py/simulation/percolation_sq_lattice_L1L2.py: occupied_summary, select_site"]}
{"id": "C79", "title": "The recorded wrapping cluster need not be the largest one", "statement": "The wrapping order parameter refers to the first cluster found wrapping: there are histories with detection after every placement in which another cluster wraps as well, is larger, and the wrapping order parameter is smaller than the largest-cluster order parameter.", "quantifier": "existence of a history (refutes equality of the two order parameters after wrapping)", "why_tests_cant": "A counterexample to an expectation users may have.", "anchors": ["source_py/simulation/percolation_sq_lattice.py: order_param_wrapping, order_param_largest_clstr, detect_wrapping"]}
{"id": "C80", "title": "Floating-point ratios keep the exact order", "statement": "The double-precision values of occupation_prob, get_pc and the two order parameters lie in [0,1], are within 2^-53 of the exact ratio, and compare exactly as the exact ratios do: two of them are equal, or one is smaller, precisely when the exact ratios are (occupation_prob and get_pc with each other; the order parameters with each other), also between different objects of the same size. So float comparisons such as pc <= p or P_wrapping <= P_largest are decided correctly.", "quantifier": "every L up to 2^24, class, random stream, set order, every two reachable states", "why_tests_cant": "Ranges over all states and roundings.", "anchors": ["source_py/simulation/percolation_sq_lattice.py: occupation_prob, get_pc, order_param_largest_clstr, order_param_wrapping"]}
{"id": "C81", "title": "Accumulated rounding error of the entropy", "statement": "The double-precision value of the running entropy (entropy_v2) differs from the Shannon entropy of the clusters by at most (occupied sites + 1) * 2^-53 * (72 + 2 ln(2L^2)), and that of the recomputed entropy (entropy_v1) by at most 2L^2 * 2^-53 * (10 + ln(2L^2)), provided the library logarithm is accurate to 2^-51; the double-precision running entropy never rises by more than that many roundings along any history without reset, resets leave no error behind.", "quantifier": "every L up to 2^20, class, random stream, set order, every reachable state, every logarithm of the stated accuracy", "why_tests_cant": "Ranges over all histories; the error accumulates over the whole run.", "anchors": ["source_py/simulation/percolation_sq_lattice.py: entropy_v1, entropy_v2, entropy_add, entropy_subtract"]}
{"id": "C82", "title": "Shape of the recorded and averaged curves", "statement": "The columns recorded by a complete run, and the averages written by the ensemble drivers, form a percolation curve: as sites are added the entropy never rises and both order parameters never fall; 0 <= H <= ln(2L^2), 0 <= P_wrapping <= P_largest <= 1 and P_largest > 0 in every row; the last row has H = 0, P_largest = 1 and, for L >= 3, P_wrapping = 1. For one run P_wrapping is positive exactly in the rows with p >= get_pc, and get_pc lies in [L/L^2, (L^2-L+1)/L^2]; in an averaged file it is positive exactly from the smallest pc of the realizations on.", "quantifier": "every class with run_once, L, ensemble size, random stream, set order, first and later runs", "why_tests_cant": "Ranges over all runs and ensembles.", "anchors": ["source_py/simulation/percolation_sq_lattice.py: run_once, get_data_array", "run_py/ensemble.py: run_ensemble_entropy_order, run_ensemble_entropy_order_threads, run_ensemble_entropy_order_threads_v2"]}
{"id": "C83", "title": "What a shortest-path ensemble file contains", "statement": "A shortest-path worker writes one row per realization, in order, with columns pc and p*: the first is get_pc of that realization, the second the occupation when it stopped. For L >= 3 they are m/L^2 <= q/L^2 with L <= m <= L^2-L+1 and q <= L^2, q is the number of occupied sites at the stop and some full row or column of the wrapping cluster is occupied; for L <= 2 both are 0.", "quantifier": "every L, ensemble size, random stream, set order, worker number", "why_tests_cant": "Ranges over all runs and ensemble sizes.", "anchors": ["run_py/shortest_path_run.py: ensemble_shortest_path_v2_thread", "source_py/simulation/percolation_sq_lattice_shortest_path.py: run_once"]}
{"id": "C84", "title": "Detection calls may be skipped while nothing wraps", "statement": "If no non-contractible loop exists yet, then whatever detection calls were made or skipped before, detect_wrapping right after the next successful placement answers True exactly if that placement created a loop, and then get_pc is the occupation at that moment.", "quantifier": "every L >= 3, class, random stream, set order, every history of calls (detection optional)", "why_tests_cant": "Ranges over all histories with and without detection.", "anchors": ["source_py/simulation/percolation_sq_lattice.py: detect_wrapping, place_one_site, get_pc"]}
{"id": "C85", "title": "Custom site lists can be shuffled and extended during a run", "statement": "Setting a custom list (base, L0, shortest path) makes the site sequence a permutation of that list, the list itself when not shuffling, and the caller's list is left in the same order; after any number of placements, setting that order extended by further new sites changes nothing already placed and placement continues in the extended order.", "quantifier": "every duplicate-free list of site ids, every extension, every interleaving of placements and detections, every random stream", "why_tests_cant": "Ranges over all lists and moments of extension.", "anchors": ["source_py/simulation/percolation_sq_lattice.py: set_custome_site_id_list, place_one_site"]}
{"id": "C86", "title": "The shipped simulation tests pass exactly for L >= 3", "statement": "The simulation tests (seeded, with reset, with other lengths, parametrized) pass for every class, every random stream and every set order if L >= 3, and fail with AssertionError if L <= 2, where wrapping is never detected.", "quantifier": "every L >= 1, base/L0/L1/L2 class, random stream, set order", "why_tests_cant": "A test run fixes one seed and a few lengths; the claim is about all of them.", "anchors": ["test_py/test_percolation_L0.py", "test_py/test_percolation_L1.py", "test_py/test_percolation_L2.py"]}
{"id": "C87", "title": "The shipped fixed-configuration tests", "statement": "The first fixed configuration, the shortest-path custom lattice and the large-lattice test pass for every random stream and set order; the second fixed configuration passes for base, L0 and the shortest-path class and raises ValueError for L1 and L2.", "quantifier": "every random stream, set order, and for the large lattice every L", "why_tests_cant": "A test run fixes one seed and one set order.", "anchors": ["test_py/test_percolation_L0.py", "test_py/test_percolation_sq_lattice_shortest_path.py"]}
{"id": "C88", "title": "When the demonstrations announce wrapping", "statement": "The relative-index demonstrations print one view per placement until the lattice is full and, from one placement m on, the line 'Wrapping detected' after each view; m/L^2 is the critical occupation the object reports at the end. For L <= 2 the line never appears. After the reset the second half prints the same pattern for its own m.", "quantifier": "every L >= 1, random stream, set order", "why_tests_cant": "Ranges over all shuffles and set orders; a demonstration shows one seed.", "anchors": ["source_py/simulation/percolation_sq_lattice_L0.py: test_relative_index, test_reset_relative_index"]}
{"id": "C89", "title": "Demonstrations without detection print a zero order parameter", "statement": "The base demonstrations fill the lattice completely; the value listing has L^2 lines with p = n/L^2 and order parameter 0 in every line, since detection is never called; the view demonstrations print exactly one view per placement (14 with a second format from the twelfth on) and the final tables of the full lattice; the L2 demonstration prints 5 L^2 views, its two counters, a view and the clusters.", "quantifier": "every L >= 1, random stream, set order", "why_tests_cant": "Ranges over all runs.", "anchors": ["source_py/simulation/percolation_sq_lattice.py: test_site_percolation, test_relative_index, test_detect_wrapping", "source_py/simulation/percolation_sq_lattice_L1L2.py: test_L2"]}
{"id": "C90", "title": "Printed order parameters lag one placement behind detection", "statement": "The L0 demonstration prints one line per placement up to the one at which wrapping is detected, all with wrapping order parameter 0 (values are printed before detection), then the critical line with p = m/L^2 and stops; for L <= 2 it prints all L^2 lines and no critical line. The L1 demonstrations run through 5 L^2 placements: the printed order parameter is 0 up to and including the detecting placement and positive afterwards, and the printed tc is the occupation at detection.", "quantifier": "every L >= 1, random stream, set order", "why_tests_cant": "Ranges over all runs.", "anchors": ["source_py/simulation/percolation_sq_lattice_L0.py: test_detect_wrapping", "source_py/simulation/percolation_sq_lattice_L1L2.py: test_L1, test_detect_wrapping_L1L2"]}
{"id": "C91", "title": "What the shortest-path programs print", "statement": "The shortest-path ensemble program prints one line per iteration, numbered from 1, with the p* of that realization; the single-run program prints the final view and p* = q/L^2 where q is the number of occupied sites, reached when the last site completes a loop through a full line (0 for L <= 2).", "quantifier": "every L >= 1, ensemble size, random stream, set order", "why_tests_cant": "Ranges over all runs and sizes.", "anchors": ["run_py/shortest_path_run.py: run_shortest_path, ensemble_shortest_path_v1"]}
{"id": "C92", "title": "The lattice programs and the run scripts", "statement": "The lattice demonstrations and tests succeed for every length (the neighbour test for L >= 2) and print the ids L+2 and 3L+2; the third worker-pool driver equals the fourth without interaction; the seeded simulation gives the same files whatever the global generator did before; the main script starts two L1 workers with 50 realizations each, whose files contain their averages and critical rows.", "quantifier": "every L >= 1; every random stream, set order and clock of every worker", "why_tests_cant": "Ranges over all lengths, streams and worker environments.", "anchors": ["source_py/simulation/lattice.py: mTest_neighbors", "test_py/test_lattice.py", "run_py/rsbd_percolatioin_run.py: run_simulation_threads_v3, run_simulations", "main.py"]}
{"id": "C93", "title": "Everything reported is determined by the list of placed sites", "statement": "Let xs be the sites placed since the last reset, in order. Then the occupied sites are xs, p is |xs|/L^2, two sites share a cluster iff a walk through xs joins them, the largest cluster is the largest number of bonds joined through xs, and the entropy is minus the mean over all bonds of ln(n_b/2L^2), n_b being the number of bonds joined with b. If detection follows each placement and L >= 3: wrapping is reported iff xs contains a non-contractible loop, and if x is the site that closed the first loop after ys, then pc is (|ys|+1)/L^2, the recorded site and bond counts are those connected to x at that moment, and the wrapping order parameter is the fraction of bonds connected to x now.", "quantifier": "every class, L >= 1, call history, random stream and set order", "why_tests_cant": "Ranges over all histories; a test compares numbers for one.", "anchors": ["source_py/simulation/percolation_sq_lattice.py: place_one_site, detect_wrapping, occupation_prob, entropy_v2, order_param_wrapping, order_param_largest_clstr, get_pc", "source_py/simulation/cluster.py"]}
{"id": "C94", "title": "Translated, reflected and transposed runs report the same", "statement": "If the sites placed in one history are the images of those placed in another under a symmetry of the torus (translations, transposition, reflections and their compositions), both objects report the same occupation, cluster structure, largest cluster, entropy and wrapping; if the order corresponds as well, also the same pc, critical cluster sizes and wrapping order parameter. No row, column or boundary is special.", "quantifier": "every pair of classes, histories, random streams and set orders; every symmetry; every L >= 1 (wrapping: L >= 3)", "why_tests_cant": "Ranges over all pairs of histories and all symmetries.", "anchors": ["source_py/simulation/percolation_sq_lattice.py: place_one_site, detect_wrapping, get_relative_index", "source_py/simulation/lattice.py: get_site_neighbor_of_site, get_neighbor_bonds"]}
{"id": "C95", "title": "The order of placement does not matter for the configuration reached", "statement": "Two histories that placed the same set of sites, in whatever order, by whatever class, report the same clusters of sites and bonds, largest cluster, entropy and occupation, and (with detection after each placement, L >= 3) agree on whether the system wraps. The critical values may differ.", "quantifier": "every pair of classes, histories, random streams and set orders; every L >= 1", "why_tests_cant": "Ranges over all pairs of orders.", "anchors": ["source_py/simulation/percolation_sq_lattice.py: place_one_site, merge_clusters_v2, track_largest_cluster"]}
{"id": "C96", "title": "Every site is equally likely at every moment", "statement": "Of the (L^2)! vectors of indices the constructor can draw, exactly (L^2 - m)! make the object place a given list of m different sites first, in that order. Hence each site is the j-th one placed for exactly 1/L^2 of the choices, and after m placements each site is occupied for exactly m/L^2 of them: the occupation fraction is the occupation probability of every single site.", "quantifier": "every L >= 1, class without selection rule, list of sites, site, position and number of placements", "why_tests_cant": "A probability over (L^2)! choices cannot be established by sampling.", "anchors": ["source_py/simulation/percolation_sq_lattice.py: SitePercolation.__init__, shuffle, select_site, place_one_site"]}
{"id": "C97", "title": "The first loop closes equally often at every site", "statement": "For L >= 3, a given site is the one whose placement first makes detection report wrapping for exactly 1/L^2 of the choices, and this is so separately for every number of placed sites m: the place where the first loop closes is uniform and independent of the critical occupation. No row, column or boundary of the stored lattice attracts or repels it.", "quantifier": "every L >= 3, class without selection rule, site and moment", "why_tests_cant": "A statement about the exact distribution over all choices.", "anchors": ["source_py/simulation/percolation_sq_lattice.py: detect_wrapping, get_relative_index, place_one_site, shuffle"]}
{"id": "C98", "title": "After any calls broken off anywhere, reset makes the object usable again", "statement": "Let calls of place_one_site, detect_wrapping, run_once and reset be broken off (KeyboardInterrupt, a signal handler) between any two statements, any number of times. As long as the three lists that reset deletes and recreates exist (always, if no reset was among the broken-off calls), reset succeeds and restores every attribute to the value it has in a new object of the same length; the order of the sites is still a permutation of the old one (the full list for the two selection classes). The next placement does not depend on what the broken-off call had selected, and everything the object reports from then on is the right function of the sites placed. A call that is not broken off has exactly the effect the other properties describe.", "quantifier": "every class, length, history, series of calls and number of statements executed of each", "why_tests_cant": "Crash points: each call has hundreds of them and they combine.", "anchors": ["source_py/simulation/percolation_sq_lattice.py: SitePercolation.reset, place_one_site, detect_wrapping, run_once, select_site, merge_clusters_v2, shuffle", "source_py/simulation/cluster.py: ClusterPool", "source_py/simulation/percolation_sq_lattice_L1L2.py: select_site, reset", "source_py/simulation/percolation_sq_lattice_shortest_path.py: run_once, reset"]}
{"id": "C99", "title": "A reset broken off at the wrong moment is final", "statement": "Every call of reset passes a point where entropy_list has been deleted and not yet recreated and later a point of this kind for each of the two order-parameter lists. If it is broken off at any of the three, no later sequence of placements, detections, runs and resets, complete or broken off, ever brings the list back, and no later reset completes: it raises AttributeError at the del statement. Only a new object helps.", "quantifier": "every class, length, history and continuation", "why_tests_cant": "Concerns one statement boundary and all continuations.", "anchors": ["source_py/simulation/percolation_sq_lattice.py: SitePercolation.reset"]}
{"id": "C100", "title": "Going on after a broken-off placement without reset is not safe", "statement": "The wish that an object can simply be used further after a broken-off place_one_site is false: the site being placed may already be counted but not be in any cluster. A following run_once finishes normally, reports occupation probability 1 and leaves a site unoccupied.", "quantifier": "existence of a break point (L = 3)", "why_tests_cant": "Needs one particular statement boundary.", "anchors": ["source_py/simulation/percolation_sq_lattice.py: place_one_site, select_site, run_once"]}
{"id": "C101", "title": "Every cluster has exactly one root site, and relative indices are counted from it", "statement": "In every cluster of occupied sites exactly one site reports is_root(). The relative index of any site of the cluster is the net displacement of a walk through occupied sites from that root to the site. A site that is not occupied has relative index (0, 0) and therefore also reports is_root().", "quantifier": "every class, environment, length and history of calls", "why_tests_cant": "The root moves whenever clusters merge; uniqueness must survive every order of merging.", "anchors": ["source_py/simulation/site.py: Site.is_root, Site.set_relative_index", "source_py/simulation/percolation_sq_lattice.py: relabel_relative_indices, merge_clusters_v2"]}
{"id": "C102", "title": "What the unused merge_clusters does", "statement": "merge_clusters(bonds) on a non-empty list of existing bonds succeeds and returns the label of a largest of the clusters named. All bonds and sites of the named clusters get that label and nothing else changes its label. The absorbed clusters are not emptied, so the cluster sizes add up to 2L^2 only if all the bonds had the same label already, and to more otherwise: the method must not replace merge_clusters_v2. On the empty list it returns 0 and changes nothing.", "quantifier": "every history of calls and every list of bonds", "why_tests_cant": "The method is never called; the loss is visible only in the total over all clusters.", "anchors": ["source_py/simulation/percolation_sq_lattice.py: SitePercolation.merge_clusters", "source_py/simulation/cluster.py: ClusterPool.merge_cluster_with"]}
{"id": "C103", "title": "Label queries return exactly the labels, each once", "statement": "get_bond_gids(bonds) returns each label carried by one of the given bonds once and no other; get_site_gids(sites) the same for sites, with -1 standing for unoccupied sites.", "quantifier": "every history of calls, every list of ids (with repetitions) and every order in which Python lists a set", "why_tests_cant": "Depends on set iteration order.", "anchors": ["source_py/simulation/percolation_sq_lattice.py: get_bond_gids, get_site_gids"]}
{"id": "C104", "title": "A cluster pool can be used directly", "statement": "Start from a new lattice and an empty pool and use create_new_cluster on sites and bonds that belong to no cluster, and merge_cluster_with(a, b) followed by clear_cluster(b) on two different clusters that have not been absorbed. No such call fails; a new cluster gets the next id; joining appends b's contents to a's and relabels exactly those. At every moment each cluster lists exactly the sites and bonds carrying its id, without repetition, an absorbed cluster is empty, and every label names a cluster that has not been absorbed. Outside this use: merging a cluster with itself doubles its lists, merging without clearing leaves the contents listed twice, and merging into an absorbed cluster labels everything -1, that is as belonging to no cluster. get_cluster returns None for ids from the number of clusters on, counts negative ids from the end (IndexError below minus the number) and otherwise returns the cluster whose contents and sizes the other queries report; add_sites and add_bonds extend one list of one cluster.", "quantifier": "every length and every sequence of such calls", "why_tests_cant": "Quantifies over all sequences of pool operations.", "anchors": ["source_py/simulation/cluster.py: ClusterPool.create_new_cluster, merge_cluster_with, clear_cluster, get_sites, get_bonds, get_cluster, add_sites, add_bonds"]}
{"id": "C105", "title": "The L1 rule treats all sites alike", "statement": "Fix the random numbers drawn after construction. If two L1 objects differ only in that the shuffled site sequence of one is that of the other moved by some rows and columns, then every sequence of placements and detections places the moved sites in the same order. Therefore, over all random choices of the constructor: at every moment all sites are equally often occupied, all sites are equally often the j-th one placed (each for exactly 1/L^2 of the choices once 5L^2 placements were tried), and for L >= 3 each site closes the first loop for exactly 1/L^2 of the choices, also among the choices for which this happens at a given call.", "quantifier": "every L, every sequence of later draws, every sequence of placement and detection calls, every set order", "why_tests_cant": "A statement about the whole distribution of runs; a test sees single samples.", "anchors": ["source_py/simulation/percolation_sq_lattice_L1L2.py: SitePercolationL1.select_site", "source_py/simulation/percolation_sq_lattice.py: __init__, place_one_site, detect_wrapping"]}
{"id": "C106", "title": "The L2 rule favours some sites from the third call on", "statement": "Fix the random numbers drawn after construction, L >= 3. Over all random choices of the constructor, the first and the second site placed are each every site for exactly 1/L^2 of the choices. The third call is different: there is a direction such that the sites two steps from a site at the border in that direction are placed by the third call at most as often as the others, all of which are placed equally often; and for each of the four directions there are later draws for which the former are never placed by the third call and each of the others for 1/L^2 of the choices (for the direction right the sites left out are those of column 1). The wish that L2 treats all sites alike, as L1 does, is false.", "quantifier": "every L >= 3 and every sequence of later draws", "why_tests_cant": "The bias concerns shares over all shuffles.", "anchors": ["source_py/simulation/percolation_sq_lattice_L1L2.py: SitePercolationL2.select_site", "source_py/simulation/index.py: Index.normalize, Index.__sub__"]}
{"id": "C107", "title": "A broken-off call never leaves a counter in between, but it can leave two of them contradicting each other", "statement": "If place_one_site is broken off between any two statements, each of the selected id, current site, status flag, position in the sequence, number of occupied sites, largest cluster's size and id, record and rejection counters has its value from before the call or the value the complete call gives it, and everything about wrapping and the recorded curves is untouched. The same holds for the counters and curves when reset is broken off. The size and the id of the largest cluster may however belong to different moments. detect_wrapping sets, in this order, the flag, the wrapping cluster's id, the number of occupied sites and the cluster's bond and site count. Broken off after the first or second of these, the object claims that it has wrapped and no later call except reset makes up for the rest: get_pc is 0 and both cluster counts are 0 for ever. Broken off right after the flag, order_param_wrapping reports the relative size of the last cluster (id 2L^2-1) instead of the wrapping one.", "quantifier": "every class, length, history and number of statements executed, and every continuation", "why_tests_cant": "Crash points: the values between two statements cannot be observed by a test that runs calls to the end.", "anchors": ["source_py/simulation/percolation_sq_lattice.py: place_one_site, select_site, track_largest_cluster, detect_wrapping, reset, get_pc, order_param_wrapping"]}
{"id": "C108", "title": "Several simulations in one process do not disturb each other except through the one random generator", "statement": "Whatever objects of whatever classes and lengths exist, in whatever order their constructors and methods are called, and however other code draws from or reseeds the generator in between, each object is in the state, and has given the answers, of an object alone in its process to which the same calls were made, for some stream of random words; so everything proved for single objects holds for each of them. Placement and runs without the L1/L2 rule, detection and swap_ids draw nothing: interleaved in any order they give the same objects, answers and generator. An object constructed with a seed is exactly the seeded object alone in its process as long as the others only make such calls. The seed is however the process's, not the object's: constructing another object in between, with or without a seed, changes what the first one draws at its next reset.", "quantifier": "every set of classes and lengths, every interleaving of constructors, calls and foreign draws, every stream", "why_tests_cant": "Schedules: tests use one object at a time or one interleaving.", "anchors": ["source_py/simulation/percolation_sq_lattice.py: __init__, reset, place_one_site, run_once", "source_py/simulation/percolation_sq_lattice_L1L2.py: select_site, reset"]}
{"id": "C109", "title": "One id list given to several simulations: results stay right, sequences do not", "statement": "set_custome_site_id_list keeps the caller's list, so one list may be held by several objects (also the list another object returned from get_site_id_sequence). Whatever lists are passed to whatever objects of one length, in whatever order constructors and calls are made, every object's reported clusters, labels, sizes, entropy and order parameters are the right functions of its own occupied sites, a recorded wrapping cluster really wraps, and its sequence consists of site ids. If nobody but the object itself writes into its list (others sharing it only place or run without the L1/L2 rule, detect, set other lists, or reset when told not to shuffle), the object is exactly as if it were alone, and answers every call the same. Otherwise not: when another holder is reset (which shuffles the common list) or runs under the L1 rule (which moves entries), the next placement of the first object can raise AssertionError, although alone it would succeed.", "quantifier": "every set of objects and lists, every sharing pattern and interleaving, every stream", "why_tests_cant": "Aliasing and schedules: tests pass a list to one object.", "anchors": ["source_py/simulation/percolation_sq_lattice.py: set_custome_site_id_list, get_site_id_sequence, shuffle, reset, place_one_site", "source_py/simulation/percolation_sq_lattice_L1L2.py: select_site, reset"]}
{"id": "C110", "title": "Curves that the caller keeps: live until the next reset, then final", "statement": "The four curve getters return the object's own lists. As long as the caller only reads them: at any time they contain the curves recorded so far; between two resets each getter returns the same list, so a list once obtained follows the recording; every list ever returned only grows by appending; reset gives the object new, empty entropy, wrapping and largest-cluster lists, and the lists returned before keep their contents for ever, whatever is called afterwards; the occupation-probability list is renewed by reset only before the first completed run, and afterwards it is the same list with the same contents for the rest of the object's life. If the caller writes into returned lists: nothing but those lists is affected, every method returns the same result and every other attribute has the same value as without the writes. But get_data_array is not protected: clearing the occupation-probability list after the first run makes get_data_array raise ValueError after every later realization, reset or not.", "quantifier": "every class, lattice, stream, history of calls and of writes by the caller into any of the lists", "why_tests_cant": "Aliasing over unbounded histories of reads, writes and resets; tests read the arrays once.", "anchors": ["source_py/simulation/percolation_sq_lattice.py: get_occupation_prob_array, get_entropy_array, get_order_param_wrapping_array, get_order_param_largest_array, get_data_array, reset, run_once"]}
{"id": "C111", "title": "Realizations of one object are independent and have the law of a new object", "statement": "Ensembles are made by reset between runs of one object, never by new objects. For the plain, L0 and shortest-path classes this is statistically the same. Same law: for every question about a realization (lattice, clusters, entropy, order parameters, threshold, curves, ...) the number of index vectors drawn by the shuffle in reset for which the answer is yes equals the number drawn by the constructor's shuffle of a new object for which it is yes, whatever the object did before. Independence: for any number of realizations with resets in between, each with its own calls and question, the number of joint choices of indices for which all answers are yes is the product of the single numbers; no realization uses random numbers outside its own shuffle. So exactly one joint choice gives any prescribed list of site orders.", "quantifier": "every lattice size, every history before the reset, every number of realizations, every calls and every questions that depend on the realization only", "why_tests_cant": "A statement about distributions and joint distributions over all random choices; a test sees single samples.", "anchors": ["source_py/simulation/percolation_sq_lattice.py: reset, shuffle, run_once, place_one_site", "run_py/ensemble.py: run_ensemble_entropy_order"]}
{"id": "C112", "title": "Realizations of one L1 or L2 object are independent and have the law of a new object", "statement": "For the L1 and L2 classes, whose growth draws random words at every placement, an ensemble made by reset of one object is statistically the same as one made of new objects. Same law: for every question about a realization (lattice, clusters, selections, entropy, order parameters, threshold, curves, ...) the number of word sequences for which the answer is yes is the same for a new object, for one reset after any history, and for one that was given the site ids in another order. So the shuffle in the constructor, reset to an unshuffled list, and a custom order of all sites have no effect on the statistics. Independence: for any number of realizations with resets in between, each with its own calls and question, the number of word sequences for which all answers are yes is the product of the single numbers, times the words the resets use up, although realizations take different numbers of words.", "quantifier": "every lattice size, every history before the reset, every order of the site ids, every number of realizations, every calls and every questions that do not look at the order of the stored candidates", "why_tests_cant": "A statement about distributions and joint distributions over all random streams; a test sees single samples.", "anchors": ["source_py/simulation/percolation_sq_lattice_L1L2.py: SitePercolationL1.select_site, SitePercolationL2.select_site, reset", "source_py/simulation/percolation_sq_lattice.py: reset, run_once, place_one_site"]}
{"id": "C113", "title": "L1 and L2 growth have no preferred direction, and L1 growth no preferred place", "statement": "Started from any list of all sites, shuffled or not, the random growth of the L1 class treats all places and directions of the torus alike: for every translation and reflection of the lattice, the number of random word sequences for which a picture comes out equals the number for which the moved picture comes out, for the order of placements, the occupied sites, the clusters and the wrapping cluster. In particular the n-th site placed is each of the L*L sites equally often, and every site is occupied equally often, although after reset the candidate list is not shuffled. For L2 the same holds for the symmetries of the square that map the edge of the index range onto itself (reflection in the diagonal, left to right, and what is made from them); a translation is not such a symmetry because L2 treats steps across the edge differently (C106).", "quantifier": "every lattice size, every start (new, reset after any history, custom order of all sites), every sequence of placements and wrapping checks, every symmetry, every question about the picture", "why_tests_cant": "A statement about the distribution over all random streams; a test sees samples and could only estimate it.", "anchors": ["source_py/simulation/percolation_sq_lattice_L1L2.py: SitePercolationL1.select_site, SitePercolationL2.select_site, reset", "source_py/simulation/percolation_sq_lattice.py: place_one_site, detect_wrapping"]}
{"id": "C114", "title": "Cluster objects, their lists and relative indices that a caller has kept", "statement": "get_cluster, get_sites, get_bonds and get_relative_index hand out the library's own objects. A cluster object the caller has kept stays the one get_cluster returns for that number, and shows the current sites and bonds, until reset; after reset it is in no pool any more and shows for ever what it showed just before. A kept list of sites or bonds is live while its cluster is not absorbed: it is only ever extended, never shortened or reordered; from the placement that absorbs its cluster on it keeps what it contained before that placement (the cluster object then shows new, empty lists). No two clusters and no two kinds share a list. A kept relative index never changes: a new displacement is a new object, always of class RelativeIndex, and no two sites share one. The other way round the objects are exposed: normalising a kept index changes that site's displacement and nothing else, extending a kept list changes that cluster's list and nothing else (labels do not follow).", "quantifier": "every class, lattice size and history, every later sequence of calls, every cluster, list and site", "why_tests_cant": "Which of many aliased objects a later call touches depends on the whole history of merges; a test looks at a few.", "anchors": ["source_py/simulation/cluster.py: ClusterPool.get_cluster, create_new_cluster, merge_cluster_with, clear_cluster; OneCluster.get_sites, get_bonds, clear", "source_py/simulation/percolation_sq_lattice.py: place_one_site, relabel_relative_indices, reset", "source_py/simulation/index.py: Index.normalize, RelativeIndex"]}
{"id": "C115", "title": "Averages over realizations are unbiased, their variance falls like one over the number of realizations, and they converge", "statement": "Let X be anything a realization reports. There are one mean mu and one variance v, depending only on class, lattice size and calls, such that X of a single realization has mean mu and variance v over all random streams, and the average of X over n realizations of one object with reset in between - whatever the object went through before the first reset - has mean exactly mu and variance exactly v/n. So for any tolerance and any share there is a number of realizations from which on the average is off by more than the tolerance for at most that share of the streams. The same holds for every entry of the entropy and order-parameter columns of the files the three ensemble programs write. For L1 and L2 the streams are words of a range that makes every index fair, and X must not depend on the order in which remaining candidates are stored.", "quantifier": "every class, lattice size, quantity X, history before the first reset, number of realizations, tolerance and share; all random streams", "why_tests_cant": "An average over a test's few realizations neither shows that its expectation is right nor how it would scatter over other seeds.", "anchors": ["source_py/simulation/percolation_sq_lattice.py: reset, shuffle, run_once", "run_py/ensemble.py: run_ensemble_entropy_order, run_ensemble_entropy_order_threads, run_ensemble_entropy_order_threads_v2", "source_py/simulation/percolation_sq_lattice_L1L2.py: reset, select_site, run_once"]}
{"id": "C116", "title": "Broken-off calls of any kind: reset repairs the object, unless the call was installing a sequence or exchanging sites", "statement": "However many calls of any kind on an object were broken off, each after any number of statements - placing, detecting, running, resetting, setting a custom sequence, exchanging two sites, test runs - reset succeeds if the lists it recreates exist, and afterwards everything it restores is as in a new object, and the next realization reports the right values, provided the number of sites that may be placed is the length of the sequence; for L1 and L2 without this condition. Only a call that sets a sequence and is broken off after one to three of its four assignments violates the condition: then after reset a full run of the base and L0 classes over a sequence without repetition ends in an IndexError if the count is too high, and otherwise occupies just the first sites of the sequence, as many as the count says. A swap_ids broken off after its first write loses one site and has the other one twice; no later call that does not set or swap repairs this, also not reset, and every full run of the base and L0 classes then ends in an AssertionError. Each of the intermediate states is described exactly.", "quantifier": "every class, lattice size, history, list of calls and number of statements after each of which it is broken off", "why_tests_cant": "A test would have to interrupt every call at every statement, in every combination.", "anchors": ["source_py/simulation/percolation_sq_lattice.py: set_custome_site_id_list, set_custome_site_index_list, swap_ids, test_run_once, place_one_site, run_once, reset, detect_wrapping"]}
{"id": "C117", "title": "Sites and bonds used on their own: what any sequence of calls leaves, prints and reports", "statement": "For every sequence of calls on a new Site: its bonds are the offered ones in order - single ids, and lists only if they have four entries - taken whole as long as fewer than four are there, so at most seven, and more than four exactly if one to three single ids were followed by a list of four; test_site passes iff there are exactly four different ones; both neighbour counters are 4 minus the number of reductions since the object was made or last reset, never below 0, and is_removable says whether the counter of that type has reached 0; no call raises; id, group id, position and relative position are what was last set, where reset clears group id, relative position and counters but neither id nor bonds; is_root and is_occupied agree with that. The message that a site connects only four bonds is printed exactly by additions that are refused for this reason, and the warning about a missing id exactly by set_gid before the first set_id; formatting an object whose id is not set raises TypeError in the formats that show the id - for a bond also str(). The same for bonds with two sites: three sites are stored exactly if a single id was followed by a pair. The sites and bonds of a lattice behave as these objects, and the id lists of every lattice list all sites and all bonds in order.", "quantifier": "every sequence of calls with any arguments on a new site or bond; every reachable lattice", "why_tests_cant": "Sequences of calls are unbounded, and a list after single ids is a case no test tries.", "anchors": ["source_py/simulation/site.py: Site", "source_py/simulation/bond.py: Bond", "source_py/simulation/element.py: Element", "source_py/simulation/lattice.py: get_site_id_list, get_bond_id_list"]}
{"id": "C118", "title": "Index objects: sums, differences, normalization, conversion of arguments", "statement": "The sum of two index objects has the sums of their components and is always a plain Index, the difference has the differences and the class of its left operand; subtracting what was added gives the components back. normalize turns an index on an axis into the unit step in its direction, leaves every other index unchanged, keeps the class, and does nothing the second time. A component that is not of type int is cut off towards zero - a boolean counts as not int - with exactly one warning for each such argument, and no warning otherwise. RelativeIndex(index=...) copies the components of either class without warning; of an object of another type it prints a message and makes an object without components, every use of which raises AttributeError.", "quantifier": "every integer, boolean and finite float argument; every pair of index objects", "why_tests_cant": "The arguments are unbounded; rounding and signs have many cases.", "anchors": ["source_py/simulation/index.py: Index, RelativeIndex"]}
{"id": "C119", "title": "The plain classes: any calls on the lattice and the cluster pool, failing ones included, and the exact way back", "statement": "A Percolation or BondPercolation object of positive length starts with every label -1, every relative position (0, 0) and an empty pool. After any sequence of calls on its lattice and cluster pool, with any arguments and whether they raise or not, ids, positions, bonds of sites and ends of bonds are those of the new object, the next cluster number is the number of clusters, the offset from a site to a neighbour is one step (length 3 or more), the label queries return exactly the labels that occur, each once, and reset() makes the object equal to a new one. create_new_cluster succeeds iff every id lies between minus the number of sites (bonds) and that number, and then labels exactly what is listed - negative ids counting from the end - with the number of clusters, and enters the lists as the last cluster; otherwise it raises IndexError, the pool is unchanged, and exactly what is listed before the first bad id, sites before bonds, is relabelled. merge_cluster_with gives the sites and bonds of the second cluster the group id of the first and appends its lists to the first, also for a cluster merged with itself, and changes no other cluster; a bad id inside the second cluster raises IndexError with the pool unchanged and exactly what stands before it, bonds before sites, relabelled; a missing cluster raises IndexError and changes nothing.", "quantifier": "every length, every sequence of calls with any integer arguments on a plain object", "why_tests_cant": "Sequences of calls and id lists are unbounded, and the states left by failing calls are never examined by a test.", "anchors": ["source_py/simulation/percolation_sq_lattice.py: Percolation, BondPercolation", "source_py/simulation/cluster.py: ClusterPool.create_new_cluster, ClusterPool.merge_cluster_with, ClusterPool.add_sites, ClusterPool.add_bonds, ClusterPool.clear_cluster", "source_py/simulation/lattice.py: reset, set_site_gid_by_id, set_bond_gid_by_id, get_relative_index"]}
{"id": "C120", "title": "Lattices of every integer length: no placeholder survives, except for negative lengths", "statement": "Lattice(length) succeeds for every integer. For length >= 0 every entry of the site and bond lists is an object afterwards, and nothing of the integer placeholders the lists start from can be observed. For a negative length -n it succeeds too and leaves n*n sites and 2*n*n bonds that are the integer 0: get_site_by_id and get_bond_by_id hand out the 0 for every valid index, calling init_lattice and init_ids again changes nothing, and reset, every label query and change, every neighbour query and every self-check raises AttributeError for a valid index and IndexError for any other one, without changing anything. Every constructor of a simulation therefore raises AttributeError for a negative length while it makes the first cluster.", "quantifier": "every integer length, every index, every lattice content", "why_tests_cant": "All integers; lengths below one are never tried in the tests.", "anchors": ["source_py/simulation/lattice.py: Lattice.__init__, init_lattice, init_ids, reset, get_site_by_id, get_bond_by_id, get_neighbor_bonds, get_neighbor_sites, scan_sites, scan_bonds, test_neighbor_count, test_lattice", "source_py/simulation/percolation_sq_lattice.py: SitePercolation.__init__, SitePercolation.init_clusters"]}
{"id": "C121", "title": "After m placements every set of m sites is equally likely, so every question about the configuration has the odds of a uniform random set", "statement": "For the plain class, the L0 class and its subclass: over all random choices of the constructor, the m sites that are occupied after m placements, each followed by detection, are every set of m sites equally often (L*L choose m sets). Hence whatever depends on the occupied sites only holds exactly as often as it holds among the sets of m sites. k given sites are all occupied with chance m!(N-k)!/(N!(m-k)!), two sites with chance m(m-1)/(N(N-1)), N = L*L. For L >= 3 wrapping has been reported after m placements with the chance that a uniform set of m sites contains a non-contractible loop, and the largest cluster has v bonds with the chance that it has v bonds in a uniform set. The earliest possible moment, after L placements, reports wrapping with chance exactly 2L / (N choose L): only the full rows and full columns wrap.", "quantifier": "every class without neighbour rule, every length, every number of placements, every set of sites, every property of configurations", "why_tests_cant": "The probability is over N! orders, and the sets range over all subsets; sampling can only estimate it for one length.", "anchors": ["source_py/simulation/percolation_sq_lattice.py: SitePercolation.__init__, shuffle, place_one_site, detect_wrapping, largest_cluster"]}
{"id": "C122", "title": "The written curves and the threshold estimate exactly the averages over uniform random sets of sites", "statement": "For the plain and the L0 class. The entry in row i of the entropy column and of the largest-cluster column of the files is an unbiased estimate of the average, over all sets of i+1 sites, of the entropy of the bond clusters and of the largest cluster's share of the bonds when exactly these sites are occupied; with enough realizations it is within any given distance of that average for all but any given share of the random choices. For L >= 3, and for the shortest-path class too, the average of the reported threshold over all random choices is (1/N) * sum over m < N of the share of the sets of m sites that contain no non-contractible loop, N = L*L, and the mean over the realizations of one object gets within any given distance of it for all but any given share of the choices once there are enough of them. The wrapping column is left out: it reports the cluster that wrapped first, which is not a function of the set of occupied sites alone.", "quantifier": "both classes, every length, every row, every number of realizations, every distance and every share", "why_tests_cant": "The averages are over all subsets of the lattice and all sequences of shuffles; a run only produces one sample.", "anchors": ["source_py/simulation/percolation_sq_lattice.py: run_once, entropy_v2, order_param_largest_clstr, get_pc, reset", "run_py/ensemble.py: run_ensemble_entropy_order, write_entropy_order"]}
{"id": "C123", "title": "The file of critical values estimates the threshold and the wrapping probability", "statement": "For the plain class, the L0 class (file of critical values of the two ensemble programs that write one) and the shortest-path class (file of its own program): the mean over the rows of any quantity computed from a row is an unbiased estimate of its average over one run with all random choices, with variance v/n after n realizations. For L >= 3 the mean of the first column is an unbiased estimate of (1/N) * sum over m < N of the share of the sets of m sites that contain no non-contractible loop, and the share of the rows whose threshold is at most m/N is an unbiased estimate of the share q of the sets of m sites that do contain one, with variance exactly q(1-q)/n. Both get within any given distance of what they estimate for all but any given share of the random choices, with enough realizations.", "quantifier": "the three classes, every length, every number of realizations, every m, every quantity computed from a row, every distance and share", "why_tests_cant": "The statement is about all sequences of shuffles and all subsets of the lattice; a file is one sample.", "anchors": ["run_py/ensemble.py: run_ensemble_entropy_order, run_ensemble_entropy_order_threads_v2, write_critical_values", "run_py/shortest_path_run.py: ensemble_shortest_path_v2_thread, write_p_p_star", "source_py/simulation/percolation_sq_lattice.py: get_pc, run_once, reset"]}
{"id": "C124", "title": "The numbers in a written file can be read back to eleven digits, and critical values exactly", "statement": "Every finite value is written as a decimal numeral in scientific notation that reads back as a decimal number of at most eleven significant digits nearest to the value, within a relative error of 5e-11; larger values never read back as smaller numbers; integers below 10^11 read back exactly; of the fractions m/N with N <= 9*10^9 no two are written alike and m is the integer nearest to N times the number read. A written file has one comment line, which holds the header, and then one line per row; splitting the lines at newlines and spaces gives the table of the rows, number for number. From the file of critical values of a lattice with at most 9*10^9 sites every realization's number of sites at the threshold (and at the first full line, for the shortest-path class) and the site and bond counts of its wrapping cluster are recovered exactly.", "quantifier": "every finite binary64 value, every fraction, every file with a header free of line breaks, every length up to 94868, every number of realizations", "why_tests_cant": "Rounding can lose a digit at rare values only; a test formats a few numbers.", "anchors": ["run_py/ensemble.py: write_entropy_order, write_critical_values, run_ensemble_entropy_order_threads (np.savetxt, fmt %.10e)", "run_py/shortest_path_run.py: write_p_p_star"]}
{"id": "C125", "title": "The floating-point averages in the files of curves are accurate, and the occupation column is exact", "statement": "For every class except the shortest-path class, L <= 2^20 and n <= 2^50 realizations, with a library logarithm of relative error at most 2^-51: the averaged numbers the ensemble programs hand to the file writer, computed by repeated binary64 addition and one division, differ from the exact averages over the n realizations by at most (2n+5) 2^-53 (occupation, largest cluster, wrapping cluster) and ((i+2)(72 + 2 ln B) + (n+2)(ln B + 2)) 2^-53 (entropy in row i, B bonds). The file read back as text is the table of these numbers up to eleven digits, with one row per site, and when L*L <= 9*10^9 and n*L*L <= 10^14 the first number of row i is exactly i+1 over the number of sites, up to taking the nearest integer of N times it.", "quantifier": "the four classes, every such length and number of realizations, every stream of random numbers, every row, every accurate logarithm", "why_tests_cant": "Rounding errors accumulate over realizations; a test sees one accumulated error.", "anchors": ["run_py/ensemble.py: run_ensemble_entropy_order, run_ensemble_entropy_order_threads, run_ensemble_entropy_order_threads_v2, write_entropy_order", "source_py/simulation/percolation_sq_lattice.py: get_data_array"]}
{"id": "C126", "title": "An explicit number of realizations suffices for a given accuracy of the numbers read from the files", "statement": "For the classes without a choice rule, every accuracy eps > 0 and every number n of realizations, at most the share r^2/(4 n eps^2) of all equally likely random choices is bad, and for all others: the number read from row i of the text of the curve file in the entropy column (r = ln of the number of bonds; base and L0 classes) or the largest-cluster column (r = 1) is within eps, plus the stated floating-point error and eleven-digit rounding, of the average over all sets of i+1 sites of that set's entropy or largest cluster; and from the first column of the text of the file of critical values (r = 1, L >= 3, L*L <= 9*10^9) integers are recovered whose mean over the number of sites is within eps of the average threshold, and of which the share that is at most m is within eps of the share of m-site sets that wrap around.", "quantifier": "all such classes, lengths, rows, accuracies, numbers of realizations, positions in the random stream and all random choices outside the bad share", "why_tests_cant": "It is about all but a bounded share of all random choices; no test can enumerate them.", "anchors": ["run_py/ensemble.py: run_ensemble_entropy_order, run_ensemble_entropy_order_threads, run_ensemble_entropy_order_threads_v2, ensemble_shortest_path_v2_thread", "source_py/simulation/percolation_sq_lattice.py: get_data_array, get_pc"]}
{"id": "C127", "title": "The curves and the threshold that the files estimate have the shape a percolation transition must have", "statement": "The averages over all random choices of the numbers in the files, which are the averages over all sets of sites, are such that: the entropy column never increases and the largest-cluster column never decreases from one row to a later one, the first lies between 0 and the logarithm of the number of bonds and ends at 0, the second between 0 and 1 and ends at 1 (base and L0 classes); the share of the m-site sets that wrap around never decreases with m, is 0 for m < L and 1 for m >= L*L - L + 1; and the average threshold of the file of critical values lies between L/L^2 and (L*L - L + 1)/L^2 (all classes without a choice rule, L >= 3).", "quantifier": "all such classes, lengths, pairs of rows, numbers of realizations and positions in the random stream", "why_tests_cant": "Averages over all choices or over all sets of sites cannot be enumerated by tests.", "anchors": ["run_py/ensemble.py: run_ensemble_entropy_order, run_ensemble_entropy_order_threads, run_ensemble_entropy_order_threads_v2, ensemble_shortest_path_v2_thread", "source_py/simulation/percolation_sq_lattice.py: get_data_array, get_pc, detect_wrapping"]}
