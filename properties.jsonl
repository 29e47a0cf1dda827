{"id": "C01", "title": "Coo::to_csr sums duplicates into canonical CSR", "statement": "For a coordinate matrix whose indices are within its dimensions and whose entry count is below the index type's maximum, to_csr() never panics and returns a CSR matrix of the same dimensions, in canonical format (column indices strictly increasing in every row), that stores exactly one value at each position the coordinate matrix has an entry for and none elsewhere; that value is the sum, in insertion order, of the values pushed at that position (bit-exact, no algebraic law of the scalar type is used).", "quantifier": "all dimensions, all entry lists in any order with any number of duplicates, all index types and all scalar types", "why_tests_cant": "the claim quantifies over every order and multiplicity of triplets; tests use one 4x4 fixture without duplicates", "anchors": ["src/coo/coo.rs:Coo::to_csr", "src/coord.rs:coo_tocsr", "src/csr/csr.rs:CSR::sum_duplicates", "src/row.rs:csr_sort_indices", "src/row.rs:csr_sum_duplicates"]}
{"id": "C02", "title": "Coo::to_csc sums duplicates into canonical CSC", "statement": "Same as C01 for to_csc(): result is canonical by columns (row indices strictly increasing in every column) and stores at each position the in-order sum of the entries pushed there.", "quantifier": "all dimensions, all entry lists, index types and scalar types", "why_tests_cant": "depends on every order and multiplicity of entries", "anchors": ["src/coo/coo.rs:Coo::to_csc", "src/coord.rs:coo_tocsr", "src/csc/csc.rs:CSC::sum_duplicates"]}
{"id": "C03", "title": "CSR::to_csc keeps every stored value", "statement": "to_csc() of a well-formed CSR matrix never panics, keeps the dimensions, and stores at each position exactly the same list of values in the same order (duplicates and explicit zeros included); the row indices of each column come out sorted (non-decreasing). If the number of a row with entries does not fit the index type, to_csc() and to_coo() panic.", "quantifier": "all well-formed CSR matrices (unsorted rows, duplicates, trailing unused capacity allowed) whose non-empty rows have numbers that fit the index type, and for the panic all others; all index and scalar types", "why_tests_cant": "counting-sort correctness must hold for every pattern", "anchors": ["src/csr/csr.rs:CSR::to_csc", "src/row.rs:csr_tocsc"]}
{"id": "C04", "title": "CSC::to_csr keeps every stored value", "statement": "to_csr() of a well-formed CSC matrix never panics, keeps the dimensions, and stores at each position exactly the same list of values in the same order; column indices of each row come out sorted. If the number of a column with entries does not fit the index type, to_csr(), to_coo() and to_dense() panic.", "quantifier": "all well-formed CSC matrices whose non-empty columns have numbers that fit the index type, and for the panic all others; all index and scalar types", "why_tests_cant": "counting-sort correctness must hold for every pattern", "anchors": ["src/csc/csc.rs:CSC::to_csr", "src/row.rs:csr_tocsc", "src/col.rs:csc_tocsr"]}
{"id": "C05", "title": "CSR/CSC round trip is the identity on sorted matrices", "statement": "For a CSR matrix with sorted rows and no unused capacity, to_csc().to_csr() returns exactly the same arrays; symmetrically for CSC. For an unsorted matrix the round trip is the stable per-row sort of it.", "quantifier": "all well-formed CSR (CSC) matrices whose non-empty rows (columns) have numbers that fit the index type", "why_tests_cant": "array-level identity for every sparsity pattern cannot be sampled", "anchors": ["src/csr/csr.rs:CSR::to_csc", "src/csc/csc.rs:CSC::to_csr"]}
{"id": "C06", "title": "CSR::to_coo lists exactly the stored entries", "statement": "to_coo() of a well-formed CSR matrix without unused capacity returns a coordinate matrix whose entries are the stored entries in row order. (The claim fails for matrices that CSR::new accepts with colidx/values longer than nnz: the surplus shows up as entries of row 0.)", "quantifier": "all well-formed CSR matrices whose non-empty rows have numbers that fit the index type; the failing case is stated as a refutation", "why_tests_cant": "holds or fails depending on capacity slack that unit tests never build", "anchors": ["src/csr/csr.rs:CSR::to_coo", "src/row.rs:expandptr", "src/csr/csr.rs:CSR::new"]}
{"id": "C07", "title": "CSC::to_coo lists exactly the stored entries", "statement": "to_coo() of a well-formed CSC matrix returns a coordinate matrix whose entries are exactly the stored entries in column order, even when the arrays carry unused capacity.", "quantifier": "all well-formed CSC matrices whose non-empty columns have numbers that fit the index type", "why_tests_cant": "universal over patterns and slack", "anchors": ["src/csc/csc.rs:CSC::to_coo", "src/row.rs:csr_tocoo"]}
{"id": "C08", "title": "Transposition swaps coordinates and is an involution", "statement": "t()/transpose() of Coo, CSR and CSC never panics on well-formed input, swaps dimensions, stores at (j,i) exactly what was stored at (i,j), and applying it twice returns the very same matrix.", "quantifier": "all well-formed matrices of the three formats", "why_tests_cant": "universal over shapes and contents", "anchors": ["src/coo/coo.rs:Coo::t", "src/coo/coo.rs:Coo::transpose", "src/csr/csr.rs:CSR::t", "src/csr/csr.rs:CSR::transpose", "src/csc/csc.rs:CSC::transpose", "src/csc/csc.rs:CSC::t"]}
{"id": "C09", "title": "to_dense is the in-order sum of stored entries", "statement": "to_dense() of Coo, CSR and CSC never panics on well-formed input and returns a rows x cols table whose (i,j) element is zero plus the values stored at (i,j), added in storage order.", "quantifier": "all well-formed matrices, all scalar types; for CSC, matrices whose non-empty columns have numbers that fit the index type", "why_tests_cant": "universal over shapes and contents", "anchors": ["src/coo/coo.rs:Coo::to_dense", "src/csr/csr.rs:CSR::to_dense", "src/csc/csc.rs:CSC::to_dense", "src/row.rs:csr_todense"]}
{"id": "C10", "title": "from_dense/to_dense round trip", "statement": "For a rectangular table with at least one row, from_dense() of Coo, CSR, CSC and DoK stores exactly the elements that are not equal to zero, at their positions, in canonical order, and to_dense() gives the table back with every element that compares equal to zero replaced by zero.", "quantifier": "all rectangular tables with at least one row, whose nonzero elements lie at rows and columns, and are of a number, that the index type can express (for DoK, whose dimensions it can express); for the round trip, scalar types whose addition satisfies 0+x=x for x not equal to zero", "why_tests_cant": "universal over tables", "anchors": ["src/coo/coo.rs:Coo::from_dense", "src/csr/csr.rs:CSR::from_dense", "src/csc/csc.rs:CSC::from_dense", "src/dok/dok.rs:DoK::from_dense"]}
{"id": "C11", "title": "has_canonical_format decides canonicity", "statement": "On a CSR/CSC matrix with monotone pointers and nnz below the index type's maximum, has_canonical_format() returns true exactly when the indices in every row (column) are strictly increasing. With nnz equal to the maximum the same holds, except that it panics on canonical matrices whose last row (column) is empty.", "quantifier": "all well-formed matrices", "why_tests_cant": "decision procedure correct for every index array", "anchors": ["src/row.rs:csr_has_canonical_format", "src/csr/csr.rs:CSR::has_canonical_format", "src/csc/csc.rs:CSC::has_canonical_format"]}
{"id": "C12", "title": "has_sorted_indexes decides sortedness, except that an empty first row makes it panic", "statement": "On a matrix without rows (columns, for CSC) or whose first row (column) holds an entry, has_sorted_indexes() returns true exactly when the indices in every row are non-decreasing. The claim one would expect, that it does so for every matrix, is false: on every matrix with an empty first row (column) the call panics.", "quantifier": "all well-formed matrices", "why_tests_cant": "the failure needs an empty first row, which the fixtures do not have", "anchors": ["src/row.rs:csr_has_sorted_indices", "src/csr/csr.rs:CSR::has_sorted_indexes"]}
{"id": "C13", "title": "sort_indexes is a stable per-row sort", "statement": "sort_indexes() keeps dimensions and pointers, reorders (index,value) pairs only within each row, leaves each row sorted by index, and keeps the relative order of entries with equal index, so the list of values stored at each position is unchanged.", "quantifier": "all well-formed CSR/CSC matrices", "why_tests_cant": "stability and pairing of index with value must hold for every permutation", "anchors": ["src/row.rs:csr_sort_indices", "src/csr/csr.rs:CSR::sort_indexes", "src/csc/csc.rs:CSC::sort_indexes"]}
{"id": "C14", "title": "sum_duplicates yields the canonical form", "statement": "sum_duplicates() on a well-formed matrix with nnz below the index type's maximum succeeds, gives a canonical matrix, and replaces the values stored at each position by their sum in storage order; explicit zeros are kept; a second call changes nothing. With nnz equal to the maximum it panics on canonical matrices whose last row (column) is empty and succeeds on all others.", "quantifier": "all well-formed CSR/CSC matrices", "why_tests_cant": "in-place compaction must be right for every run structure", "anchors": ["src/row.rs:csr_sum_duplicates", "src/csr/csr.rs:CSR::sum_duplicates", "src/csc/csc.rs:CSC::sum_duplicates"]}
{"id": "C15", "title": "CSR::mat_vec is the matrix-vector product", "statement": "mat_vec(x) returns an error exactly when x.len() differs from the number of columns; otherwise, for a well-formed matrix, a vector of length rows whose i-th element is 0 + sum over the stored entries of row i in storage order of value*x[col]; over an exact commutative ring that equals the sum over j of A(i,j)*x(j).", "quantifier": "all well-formed matrices and vectors", "why_tests_cant": "universal over inputs; float summation order matters bit for bit", "anchors": ["src/csr/csr.rs:CSR::mat_vec", "src/row.rs:csr_matvec"]}
{"id": "C16", "title": "CSC::mat_vec is the matrix-vector product", "statement": "Same as C15 for CSC; moreover for a CSR matrix with sorted rows, to_csc().mat_vec(x) is bit-identical to mat_vec(x).", "quantifier": "all well-formed matrices and vectors", "why_tests_cant": "bit-identity over all inputs cannot be tested", "anchors": ["src/csc/csc.rs:CSC::mat_vec", "src/col.rs:csc_matvec"]}
{"id": "C17", "title": "CSR::mat_mat is the matrix product", "statement": "mat_mat returns an error exactly when the inner dimensions differ; otherwise, for well-formed factors whose structural product size fits the index type, it succeeds with a well-formed matrix without duplicate or zero entries whose value at (i,k) is the sum, in traversal order, of the products a(i,j)*b(j,k); over an exact commutative ring that is the mathematical product. With no bound on that size, mat_mat panics exactly if the product has more entries than the index type can count, and is as stated otherwise.", "quantifier": "all pairs of well-formed matrices (unsorted, with duplicates)", "why_tests_cant": "the linked-list accumulator must be right for every pattern", "anchors": ["src/csr/csr.rs:CSR::mat_mat", "src/row.rs:csr_matmat", "src/row.rs:csr_matmat_maxnnz"]}
{"id": "C18", "title": "CSC::mat_mat is the matrix product", "statement": "Same as C17 for CSC factors and result.", "quantifier": "all pairs of well-formed CSC matrices", "why_tests_cant": "same", "anchors": ["src/csc/csc.rs:CSC::mat_mat", "src/col.rs:csc_matmat", "src/col.rs:csc_matmat_maxnnz"]}
{"id": "C19", "title": "CSR + and - are element-wise", "statement": "For well-formed CSR matrices of equal dimensions whose total entry count fits the index type, a+b and a-b do not panic and return a well-formed matrix without duplicate or zero entries whose value at each position is the sum (difference) of the operands' values there; if both operands are canonical so is the result. Beyond that bound the operators panic exactly if the result would have more entries than the index type can count, if an operand that is asked whether it is canonical is one has_canonical_format panics on (C11; the second is asked only if the first is canonical), or, unless both are canonical, if some row uses more columns than the index type can count; in all other cases the result is as stated.", "quantifier": "all pairs of well-formed matrices, canonical or not, of any number of entries", "why_tests_cant": "two algorithms (merge and accumulator) over all patterns", "anchors": ["src/csr/std_ops.rs:add", "src/csr/std_ops.rs:sub", "src/row.rs:csr_binop_csr", "src/row.rs:csr_binop_csr_general", "src/row.rs:csr_binop_csr_canonical"]}
{"id": "C20", "title": "CSC::add and CSC::subtract are element-wise", "statement": "CSC::add/subtract return an error exactly when the dimensions differ; otherwise same claim as C19, with columns in place of rows, also for the operator +, and the result of add/subtract carries no unused capacity.", "quantifier": "all pairs of well-formed CSC matrices, of any number of entries", "why_tests_cant": "same", "anchors": ["src/csc/csc.rs:CSC::add", "src/csc/csc.rs:CSC::subtract"]}
{"id": "C21", "title": "The CSC operator - does not subtract", "statement": "The claim one would expect, that the CSC operator a-b returns the element-wise difference, is false: the operator passes the index and pointer arrays in the wrong order, and for all operands of equal size whose total entry count is not cols+1 it panics.", "quantifier": "all pairs of well-formed CSC matrices", "why_tests_cant": "no test uses the operator", "anchors": ["src/csc/std_ops.rs:sub"]}
{"id": "C22", "title": "The CSC operator * scalar does not scale", "statement": "The claim one would expect, that the CSC operator a*s multiplies every stored value by s, is false: the arrays are passed in the wrong order, so for every matrix whose row index array does not have exactly cols+1 elements both a*s and s*a panic; where the length happens to match, a witness shows a wrong result.", "quantifier": "all well-formed CSC matrices", "why_tests_cant": "no test uses the operator", "anchors": ["src/csc/std_ops.rs:mul"]}
{"id": "C23", "title": "Negation and CSR scaling act on every stored value", "statement": "Unary minus on Coo, CSR, CSC and CSR*scalar keep dimensions and structure and map every stored value.", "quantifier": "all matrices accepted by the constructors", "why_tests_cant": "universal", "anchors": ["src/csr/std_ops.rs:neg", "src/csc/std_ops.rs:neg", "src/coo/std_ops.rs:neg", "src/csr/std_ops.rs:mul"]}
{"id": "C24", "title": "Coo + Coo sums into CSR", "statement": "For coordinate matrices of equal dimensions, a+b is the canonical CSR matrix storing at each position the in-order sum of a's entries followed by b's entries; with different dimensions it panics.", "quantifier": "all pairs of coordinate matrices", "why_tests_cant": "universal", "anchors": ["src/coo/std_ops.rs:add"]}
{"id": "C25", "title": "Stacking and composition place blocks", "statement": "v_stack/h_stack/v_stack3/h_stack3/compose/compose3 return an error exactly when the block dimensions do not match (stacking: the common dimension; compose: the heights within each block row and the total width of the block rows, so the column splits of two block rows may differ); otherwise every block appears at its offset, unchanged, and nothing else is stored.", "quantifier": "all coordinate matrices whose total dimensions fit the index type", "why_tests_cant": "universal over block shapes", "anchors": ["src/coo/coo.rs:Coo::v_stack", "src/coo/coo.rs:Coo::h_stack", "src/coo/coo.rs:Coo::v_stack3", "src/coo/coo.rs:Coo::h_stack3", "src/coo/coo.rs:Coo::compose", "src/coo/coo.rs:Coo::compose3"]}
{"id": "C26", "title": "CSR::h_stack and CSC::compose place blocks", "statement": "The CSR and CSC wrappers return an error exactly on dimension mismatch and otherwise the canonical matrix whose blocks are the arguments (for arguments without unused capacity in the CSR case).", "quantifier": "all well-formed matrices; for h_stack, matrices whose non-empty rows have numbers that fit the index type; stacks whose dimensions fit, with an entry count below the maximum of the index type", "why_tests_cant": "universal over block shapes", "anchors": ["src/csr/csr.rs:CSR::h_stack", "src/csc/csc.rs:CSC::compose"]}
{"id": "C27", "title": "Coo::upper keeps exactly the upper triangle", "statement": "upper(k) keeps, in order, exactly the entries with row + k <= col, and the dimensions; it panics only if row + k overflows the index type.", "quantifier": "all coordinate matrices and offsets", "why_tests_cant": "universal", "anchors": ["src/coo/coo.rs:Coo::upper"]}
{"id": "C28", "title": "diagonal returns the main diagonal", "statement": "diagonal() of Coo, CSR and CSC returns min(rows,cols) values, the i-th being the in-order sum of the values stored at (i,i).", "quantifier": "all well-formed matrices", "why_tests_cant": "universal", "anchors": ["src/coo/coo.rs:Coo::diagonal", "src/csr/csr.rs:CSR::diagonal", "src/csc/csc.rs:CSC::diagonal", "src/row.rs:csr_diagonal"]}
{"id": "C29", "title": "k-th diagonal kernels", "statement": "csr_diagonal(k) and csc_diagonal(k) write the k-th diagonal (positions (i-min(k,0), i+max(k,0))) for every k with -rows<=k<=cols and panic for k outside that range; the two agree on the same matrix.", "quantifier": "all well-formed matrices and all k", "why_tests_cant": "universal", "anchors": ["src/row.rs:csr_diagonal", "src/col.rs:csc_diagonal"]}
{"id": "C30", "title": "with_diagonal and identity", "statement": "with_diagonal(d) of Coo, CSR and CSC is the square matrix with d on the diagonal and nothing else, identity(n) the one with ones; both succeed exactly when the needed index values fit the index type.", "quantifier": "all vectors d and sizes n", "why_tests_cant": "universal, including sizes at the index type's limit", "anchors": ["src/coo/coo.rs:Coo::with_diagonal", "src/coo/coo.rs:Coo::identity", "src/csr/csr.rs:CSR::with_diagonal", "src/csc/csc.rs:CSC::with_diagonal"]}
{"id": "C31", "title": "select picks the requested rows and columns", "statement": "select(rows, cols) returns an error exactly when the matrix is not canonical or an index is out of range; otherwise a matrix whose (r,c) element stores exactly what the source stores at (rows[r], cols[c]); None selects everything. Repetition and any order of indices are allowed. (Dimensions that fit the index type; if the number of rows does not, every call with a non-empty list of valid row indices panics.)", "quantifier": "all well-formed matrices and all index lists that fit the index type", "why_tests_cant": "universal over selections", "anchors": ["src/csr/csr.rs:CSR::select", "src/csc/csc.rs:CSC::select", "src/row.rs:csr_select"]}
{"id": "C32", "title": "CSR::get reads an element", "statement": "get(i,j) returns the value stored at (i,j) (the first one if there are duplicates) or zero if none is stored, for every row index in range; on a matrix without duplicates it agrees with to_dense.", "quantifier": "all well-formed matrices and indices", "why_tests_cant": "universal", "anchors": ["src/csr/csr.rs:CSR::get"]}
{"id": "C33", "title": "DoK behaves as a map of nonzero cells under any history", "statement": "After any sequence of set/add/sub calls (successful or not), get(i,j) returns the value an abstract zero-initialised table would hold, out-of-range writes fail and change nothing, no stored value equals zero, and nnz() is the number of cells holding a value not equal to zero.", "quantifier": "all operation sequences, indices and values", "why_tests_cant": "claim over histories", "anchors": ["src/dok/dok.rs:DoK::set", "src/dok/dok.rs:DoK::get", "src/dok/dok.rs:DoK::add", "src/dok/dok.rs:DoK::sub", "src/dok/dok.rs:DoK::nnz"]}
{"id": "C34", "title": "DoK conversions do not depend on hash order", "statement": "to_dense, to_coo, to_csr and to_csc of a DoK matrix give, for every iteration order of the hash map, a matrix storing exactly get(i,j) at each occupied cell; to_csr and to_csc return identical arrays for all orders.", "quantifier": "all reachable DoK states and all iteration orders", "why_tests_cant": "hash order is nondeterministic; tests see one order", "anchors": ["src/dok/dok.rs:DoK::to_dense", "src/dok/dok.rs:DoK::to_coo", "src/dok/dok.rs:DoK::to_csr", "src/dok/dok.rs:DoK::to_csc"]}
{"id": "C35", "title": "Undirected / weak connected components", "statement": "connected_components with directed=false or Weak connection returns an error exactly for non-square matrices; otherwise it terminates without panic and labels nodes so that two nodes have the same label exactly when they are joined by a path of stored entries taken in either direction; labels are 0..n_components-1, all used, numbered in order of each component's smallest node. If the number of a non-empty row does not fit the index type the call panics, as the transposed matrix cannot be made.", "quantifier": "all well-formed square matrices whose non-empty rows have numbers that fit the index type", "why_tests_cant": "reachability over all graphs; termination", "anchors": ["src/graph.rs:connected_components", "src/graph.rs:connected_components_undirected"]}
{"id": "C36", "title": "Strongly connected components", "statement": "connected_components with directed=true and Strong connection terminates without panic for every non-empty well-formed square matrix in which no row stores a column twice, and labels two nodes equal exactly when each reaches the other along stored entries; labels are 0..n_components-1 and all used. (Two restrictions are needed: the 0x0 matrix makes the call panic, and a row that stores the same column twice can make it panic or return wrong labels.)", "quantifier": "all non-empty square matrices without repeated positions", "why_tests_cant": "iterative Tarjan/Pearce with a doubly linked stack kept in shared arrays, over all graphs; tests use three small graphs", "anchors": ["src/graph.rs:connected_components", "src/graph.rs:connected_components_directed"]}
{"id": "C37", "title": "depth_first_order visits exactly the reachable nodes depth first", "statement": "depth_first_order(g, s, directed) for s in range terminates without panic; the returned list starts at s, has no repetition, contains exactly the nodes reachable from s, each next node being the first unvisited stored neighbour of the most recently visited node that still has one; predecessors gives that parent for each listed node except s and None for all others. Undirected, the call panics if the number of a non-empty row does not fit the index type.", "quantifier": "all well-formed square matrices, start nodes, both modes", "why_tests_cant": "termination and order over all graphs", "anchors": ["src/graph.rs:depth_first_order", "src/graph.rs:depth_first_directed", "src/graph.rs:depth_first_undirected"]}
{"id": "C38", "title": "CSR::connected_components (flag variant)", "statement": "CSR::connected_components flags rows without entries with -2 and gives every other node a component number so that, for a structurally symmetric matrix, two such nodes share the number exactly when connected; the returned count is the number of components. (A matrix in which no row has entries is refused with an error.)", "quantifier": "all well-formed square matrices whose non-empty rows have numbers that fit the index type", "why_tests_cant": "reachability over all graphs", "anchors": ["src/csr/csr.rs:CSR::connected_components", "src/graph.rs:cs_graph_components"]}
{"id": "C39", "title": "Sub-matrix kernel", "statement": "get_csr_submatrix(ir0,ir1,ic0,ic1) returns the CSR arrays of rows ir0..ir1 and columns ic0..ic1 of the input, entries in the same order with columns shifted by ic0.", "quantifier": "all well-formed matrices and all ranges with ir0<=ir1<=rows", "why_tests_cant": "universal", "anchors": ["src/row.rs:get_csr_submatrix"]}
{"id": "C40", "title": "Row gathering kernels", "statement": "csr_row_index appends the concatenation of the requested rows; csr_row_slice with step>0 the rows start, start+step, ... below stop; with overflow checks it panics exactly if the first of these numbers not below stop exceeds usize::MAX. With step=0 and start>stop csr_row_slice does not terminate.", "quantifier": "all well-formed matrices and row lists", "why_tests_cant": "termination and universal content", "anchors": ["src/row.rs:csr_row_index", "src/row.rs:csr_row_slice"]}
{"id": "C41", "title": "Column gathering kernels", "statement": "csr_column_index1 followed by csr_column_index2 (with col_order any argsort of the column list) build the CSR arrays of A[:, cols].", "quantifier": "all well-formed matrices and column lists", "why_tests_cant": "two-pass offset arithmetic over all repeats", "anchors": ["src/row.rs:csr_column_index1", "src/row.rs:csr_column_index2"]}
{"id": "C42", "title": "eliminate_zeros removes exactly the zeros", "statement": "csr_eliminate_zeros keeps, in order, exactly the entries not equal to zero and updates the pointers accordingly.", "quantifier": "all well-formed matrices", "why_tests_cant": "in-place compaction", "anchors": ["src/row.rs:csr_eliminate_zeros"]}
{"id": "C43", "title": "Row/column scaling kernels", "statement": "csr_scale_rows multiplies each stored value of row i by x[i], csr_scale_columns each stored value of column j by x[j]; nothing else changes.", "quantifier": "all well-formed matrices and vectors of sufficient length", "why_tests_cant": "universal", "anchors": ["src/row.rs:csr_scale_rows", "src/row.rs:csr_scale_columns"]}
{"id": "C44", "title": "Coordinate kernels coo_todense and coo_matvec", "statement": "coo_todense adds every entry to its row-major or column-major slot and coo_matvec adds A*x to y, in entry order.", "quantifier": "all coordinate data in range", "why_tests_cant": "universal", "anchors": ["src/coord.rs:coo_todense", "src/coord.rs:coo_matvec"]}
{"id": "C45", "title": "Multi-vector products", "statement": "csr_matvecs and csc_matvecs add A*X to Y for row-major blocks of n_vecs vectors.", "quantifier": "all well-formed matrices and blocks", "why_tests_cant": "universal", "anchors": ["src/row.rs:csr_matvecs", "src/col.rs:csc_matvecs", "src/util.rs:axpy"]}
{"id": "C46", "title": "Element-wise binary kernels agree with op on every occupied cell", "statement": "For any binary operation, csr_binop_csr stores op(a(i,j),b(i,j)) exactly at the positions where a or b has an entry and the result is not zero; the canonical and the general algorithm agree on canonical input; hence ne/lt/gt/mul/max/min kernels compute the element-wise comparison/product/maximum/minimum. (eq/le/ge miss cells empty in both operands, where op(0,0) is true.) A kernel panics exactly if the result has more entries than the index type can count, or in the two corner cases of C19.", "quantifier": "all pairs of well-formed matrices and all operations", "why_tests_cant": "universal over operations and patterns", "anchors": ["src/row.rs:csr_binop_csr", "src/row.rs:csr_ne_csr", "src/row.rs:csr_lt_csr", "src/row.rs:csr_gt_csr", "src/row.rs:csr_mul_csr", "src/row.rs:csr_max_csr", "src/row.rs:csr_min_csr", "src/row.rs:csr_eq_csr", "src/row.rs:csr_le_csr", "src/row.rs:csr_ge_csr", "src/row.rs:csr_div_csr"]}
{"id": "C47", "title": "matmat_maxnnz counts the structural product", "statement": "csr_matmat_maxnnz returns the number of positions (i,k) for which some j has a stored a(i,j) and a stored b(j,k).", "quantifier": "all pairs of well-formed matrices", "why_tests_cant": "universal", "anchors": ["src/row.rs:csr_matmat_maxnnz"]}
{"id": "C48", "title": "count_diagonals (refuted for lower entries)", "statement": "csr_count_diagonals returns the number of distinct occupied diagonals. Holds for upper-triangular patterns; with any entry below the diagonal the index subtraction underflows (panic with overflow checks).", "quantifier": "all well-formed matrices", "why_tests_cant": "universal", "anchors": ["src/row.rs:csr_count_diagonals"]}
{"id": "C49", "title": "Constructors reject exactly inconsistent lengths", "statement": "Coo::new, CSR::new and CSC::new return an error exactly for the documented length mismatches and otherwise keep their inputs. The two exceptions, in builds with overflow checks: a negative last pointer, and usize::MAX rows (columns), panic.", "quantifier": "all inputs", "why_tests_cant": "universal", "anchors": ["src/coo/coo.rs:Coo::new", "src/csr/csr.rs:CSR::new", "src/csc/csc.rs:CSC::new"]}
{"id": "C50", "title": "Any pipeline of operations stays well-formed and panic free", "statement": "Starting from the constructors (with_size, new, from_dense, with_diagonal, identity, with consistent arguments), any sequence of push, extend, dictionary set/add/sub, conversion, transposition, negation, scaling, sorting, duplicate summing, upper, select, sums, differences, products, stacks and compositions on matrices of matching size keeps every matrix well-formed, so no step panics while entry counts stay below the index type's maximum; nor does to_dense, mat_vec, diagonal or get after it.", "quantifier": "all operation sequences", "why_tests_cant": "claim over histories", "anchors": ["src/coo/coo.rs", "src/csr/csr.rs", "src/csc/csc.rs"]}
{"id": "C51", "title": "Index overflow never yields a wrong matrix", "statement": "If the number of entries exceeds what the index type can represent, to_csr/to_csc/from_dense/with_diagonal panic instead of returning a matrix with truncated indices. v_stack and h_stack panic exactly when the summed dimension exceeds usize or a shifted index of the second matrix exceeds the index type; otherwise they return the stack. At the boundary, where the entry count equals the maximum, to_csr panics although every index fits exactly if the last row has no entries and the entries of every row were pushed from left to right (to_csc: last column, from top to bottom); in all other cases the result is right.", "quantifier": "all sizes and all index types", "why_tests_cant": "needs sizes at the limit of each index type", "anchors": ["src/coord.rs:coo_tocsr", "src/csr/csr.rs:CSR::from_dense", "src/csr/csr.rs:CSR::with_diagonal"]}
{"id": "C52", "title": "Complex parts and conjugate transpose", "statement": "conj/real/imag of complex Coo, CSR and CSC keep structure and map each stored value; with_real/with_imag embed; h() stores at (j,i) the conjugate of what is stored at (i,j); h applied twice gives the original when conjugation is an involution.", "quantifier": "all well-formed complex matrices", "why_tests_cant": "universal", "anchors": ["src/csr/ccsr.rs:CCSR", "src/csc/ccsc.rs:CCSC", "src/coo/ccoo.rs:CCoo"]}
{"id": "C53", "title": "Algebraic laws across operations", "statement": "Over an exact commutative ring, for CSR operands of matching size: (A+B)x = Ax+Bx, A(x+y) = Ax+Ay, (AB)x = A(Bx), A+B = B+A, (A+B)+C = A+(B+C), (A-B)+B = A, (AB)C = A(BC), A(B+C) = AB+AC, (B+C)A = BA+CA, the diagonal matrix of ones is neutral, and A+(-A), A-A store nothing. For any scalars, floats included, transpose(AB) and transpose(B) transpose(A) are the same arrays. The laws hold of all operands for which the sums and products involved are values, of whatever size; the two sides of the transposition law panic together. Complex numbers over such a ring form one, so the laws hold of matrices of them.", "quantifier": "all well-formed matrices", "why_tests_cant": "relational claims over all inputs", "anchors": ["src/csr/csr.rs:CSR::mat_vec", "src/csr/csr.rs:CSR::mat_mat", "src/csr/std_ops.rs"]}
{"id": "C54", "title": "CSR and CSC operators on operands of different dimensions", "statement": "The claim one would expect, that a+b and a-b fail on operands of different dimensions, is false: CSR + and - and CSC + do not compare dimensions. Exactly (CSR; for CSC exchange rows and columns): if b has fewer rows than a the call panics; otherwise the further rows of b are ignored, and if b stores something, in a row that a has, in a column that a does not have, the call panics unless a and the used rows of b are canonical; in all other cases the result has a's dimensions and holds in every cell, also in columns outside a, what the operation gives for equal dimensions, so it is well-formed exactly if nothing is left outside.", "quantifier": "all pairs of well-formed matrices whose total number of entries is below the maximum of the index type", "why_tests_cant": "tests only add equal shapes", "anchors": ["src/csr/std_ops.rs:add", "src/csr/std_ops.rs:sub", "src/csc/std_ops.rs:add"]}
{"id": "C55", "title": "colidx()/values() have size nnz (refuted for sums and products)", "statement": "The slices returned by colidx() and values() have length nnz(). Holds for to_csr, from_dense, with_diagonal, select, sum_duplicates; refuted for results of + and - and mat_mat, which keep unused zero-filled capacity.", "quantifier": "all results of the operations", "why_tests_cant": "universal", "anchors": ["src/csr/csr.rs:CSR::colidx", "src/csr/csr.rs:CSR::values", "src/csr/std_ops.rs:add"]}
{"id": "C56", "title": "Coo stays rectangular under push and extend (refuted for extend)", "statement": "After any sequence of push and of extend with slices of equal length the three vectors of a coordinate matrix have the same length and list the entries in call order. Refuted for extend with slices of different length, which is not rejected: from then on the lengths differ.", "quantifier": "all call sequences", "why_tests_cant": "claim over histories", "anchors": ["src/coo/coo.rs:Coo::push", "src/coo/coo.rs:Coo::extend"]}
{"id": "C57", "title": "to_string / to_table list every entry", "statement": "Coo/CSR/CSC to_string print one line per stored entry, in storage order, with its row, column and value; to_table writes for each row one cell per column, the value if stored and a dash otherwise.", "quantifier": "all well-formed matrices (text alignment excluded)", "why_tests_cant": "universal", "anchors": ["src/csr/csr.rs:CSR::to_string", "src/coo/coo.rs:Coo::to_string", "src/csc/csc.rs:CSC::to_string", "src/csr/table.rs:csr_table"]}
{"id": "C58", "title": "eigs returns ARPACK's real parts, and as imaginary parts the real parts again", "statement": "In every successful run the eigenvalues returned by eigs have ARPACK's real parts (the first nconv of them, one fewer if the last complex one lacks its conjugate). The claim one would expect, that the imaginary parts are ARPACK's too, is false: the imaginary part of every returned value is its real part.", "quantifier": "all outputs ARPACK may produce", "why_tests_cant": "needs ARPACK; quantifies over its outputs", "anchors": ["src/eigen/real.rs:eigs"]}
{"id": "C59", "title": "Canonical arrays are unique; conversion ignores how cells are interleaved", "statement": "Two canonical CSR (CSC) matrices without unused capacity, of the same size and with the same value stored at every cell, have identical pointer, index and value arrays. Hence two coordinate matrices holding the same values in the same order at every single cell give identical to_csr() and to_csc() results, whatever the order in which different cells were pushed.", "quantifier": "all well-formed matrices and all interleavings", "why_tests_cant": "universal over pairs of matrices", "anchors": ["src/coo/coo.rs:Coo::to_csr", "src/coo/coo.rs:Coo::to_csc", "src/csr/csr.rs:CSR", "src/csc/csc.rs:CSC"]}
{"id": "C60", "title": "Products of mixed formats", "statement": "CSC * CSR of matching sizes holds at (i,k) the sum, in order of j, of the products of the values stored at (j,k) of the right and at (i,j) of the left factor, unless there is none or the sum is zero; the result is well-formed, without repeated positions and without stored zeros. It panics exactly if the number of a row of the right factor with entries does not fit the index type or the product has more entries than it can count.", "quantifier": "all well-formed factors of matching sizes", "why_tests_cant": "universal over pairs of matrices of different formats", "anchors": ["src/csc/std_ops.rs:mul", "src/csr/csr.rs:CSR::to_csc", "src/csc/csc.rs:CSC::mat_mat"]}
{"id": "C61", "title": "Insertion order is irrelevant over an exact ring", "statement": "Two coordinate matrices of the same size whose entries are permutations of each other give identical to_csr(), to_csc() and to_dense() results when addition is exact and commutative.", "quantifier": "all well-formed coordinate matrices and all permutations", "why_tests_cant": "quantifies over all orders of insertion", "anchors": ["src/coo/coo.rs:Coo::to_csr", "src/coo/coo.rs:Coo::to_csc", "src/coo/coo.rs:Coo::to_dense"]}
{"id": "C62", "title": "Programs mean what they mean on plain tables", "statement": "Over an exact ring, take any program that builds matrices of the four formats (with_size, new, from_dense, with_diagonal, identity, push, extend, dictionary set/add/sub) and calls conversions, transposition, negation, scaling, sorting, duplicate summing, upper, select, sums, differences, products, stacks and compositions on them, each call of matching size and within the index type. Every matrix of the program then holds, at every position, the number that the same program computes on plain tables of numbers, whatever unused capacity, duplicates, entry order or hash order the intermediate results have; and to_dense, mat_vec, diagonal and get return what the plain table gives.", "quantifier": "all programs and all their intermediate matrices", "why_tests_cant": "claim over all histories of calls; a test runs one", "anchors": ["src/coo/coo.rs", "src/csr/csr.rs", "src/csc/csc.rs", "src/csr/std_ops.rs", "src/csc/std_ops.rs", "src/dok/dok.rs"]}
{"id": "C63", "title": "The printed text determines the entries", "statement": "If different values have different texts and no text contains a line break (as for all integer types), two matrices of the same format with the same to_string() have the same entries in the same order; coordinate matrices of the same size are then equal.", "quantifier": "all pairs of well-formed matrices, all value formatters with these properties", "why_tests_cant": "injectivity: universal over pairs of matrices", "anchors": ["src/coo/coo.rs:Coo::to_string", "src/csr/csr.rs:CSR::to_string", "src/csc/csc.rs:CSC::to_string"]}
{"id": "C64", "title": "Complex values with a negative imaginary part are printed with two signs", "statement": "In to_table() a complex value with non-negative imaginary part is printed as re+jim. The claim one would expect, that one with negative imaginary part is printed as re-j|im|, is false: for every such value the sign is written before the j and again after it.", "quantifier": "all values with negative imaginary part whose text starts with a minus sign", "why_tests_cant": "universal over values and float formatters", "anchors": ["src/traits.rs:Scalar::pretty_string"]}
{"id": "C65", "title": "eigs returns ARPACK's complex Ritz vectors, but not its real ones", "statement": "In every successful run the matrix returned by eigs has one row per Ritz value: for a complex one ARPACK's two columns as real and imaginary part, for its successor the conjugate of that, and for a real one n times the same number, namely element k of ARPACK's column k. The claim one would expect, that a real one gets ARPACK's column, is false.", "quantifier": "all outputs ARPACK may produce", "why_tests_cant": "quantifies over a foreign library's outputs", "anchors": ["src/eigen/real.rs:eigs"]}
{"id": "C66", "title": "eigs gives ARPACK too little room for the vectors", "statement": "The claim one would expect, that the buffer passed to dneupd holds the n by (nev+1) matrix of vectors at the leading dimension passed with it, is false: for every nev >= 1 the buffer is too short, so the foreign code may write past its end; in other words, what eigs returns depends only on what dneupd does with arguments outside its documentation. Likewise its work array, of 2 ncv elements instead of the 3 ncv documented, is always too short. The other arguments are as documented.", "quantifier": "all matrices whose dimension fits 32 bits, all nev >= 1, all behaviours of ARPACK", "why_tests_cant": "undefined behaviour is not observable in a passing test", "anchors": ["src/eigen/real.rs:eigs"]}
{"id": "C67", "title": "eigs calls dnaupd within its documentation", "statement": "For nev >= 1, and sizes that fit 32 bits, every call of dnaupd, the first and all later ones, has 0 < nev < n-1, 2 <= ncv-nev, ncv <= n, and work arrays of the documented sizes; the first call asks for a standard problem with ARPACK's own shifts, block size 1 and a positive number of iterations. The first call, and no other, announces a new problem (IDO = 0); all later ones have IDO = 1. For nev = 0, which eigs accepts although its message says 0 < nev, every call violates the documentation; likewise for every nev for which 3(2nev+1)(2nev+3) does not fit 32 bits (nev >= 13377), where the size passed for the work array is wrong.", "quantifier": "all matrices, all nev, all behaviours of ARPACK and all iteration counts; for the first part, sizes whose 32-bit casts are exact", "why_tests_cant": "invariant over a reverse communication loop of unknown length", "anchors": ["src/eigen/real.rs:eigs"]}
{"id": "C68", "title": "eigs serves ARPACK's product requests to the last third of the work array only", "statement": "When ARPACK asks for the product of the matrix with the vector at ipntr[0] of its work array and wants it in the last third of the array, eigs writes the product there and leaves the rest unchanged. The claim one would expect, that it does so at any ipntr[1], is false: for every other location eigs panics. Requests that ARPACK marks with -1 instead of 1 are not served: the result does not depend on the matrix then.", "quantifier": "all matrices, all work arrays, all locations", "why_tests_cant": "depends on what a foreign library asks for", "anchors": ["src/eigen/real.rs:eigs"]}
{"id": "C69", "title": "eigs rejects bad arguments with an error, but panics on the empty matrix", "statement": "eigs returns an error for a matrix that is not square and, for a square non-empty one, for nev >= n-1, before ARPACK is called. The claim one would expect, that the empty matrix is an error as well, is false: eigs panics on it.", "quantifier": "all matrices and all nev", "why_tests_cant": "universal", "anchors": ["src/eigen/real.rs:eigs"]}
{"id": "C70", "title": "Transposing commutes with every conversion", "statement": "Transposing a matrix and then converting it (coordinate to CSR or CSC, CSR to CSC, CSC to CSR) gives the same arrays as converting it and then transposing. The dense table of the transpose is the transposed dense table, and the diagonal of the transpose is the diagonal.", "quantifier": "all well-formed matrices of all three formats", "why_tests_cant": "equality of two call sequences for all matrices", "anchors": ["src/coo/coo.rs:Coo::t", "src/csr/csr.rs:CSR::t", "src/csc/csc.rs:CSC::t", "src/csr/csr.rs:CSR::to_csc", "src/csc/csc.rs:CSC::to_csr"]}
{"id": "C71", "title": "The four matrices made from one dense table are conversions of one another", "statement": "For a rectangular table that fits the index type, CSR::from_dense, CSC::from_dense, Coo::from_dense and DoK::from_dense all succeed, and converting any of the results to CSR (CSC) gives exactly the arrays of CSR::from_dense (CSC::from_dense), whatever order the dictionary iterates in.", "quantifier": "all rectangular tables, all iteration orders of the hash map", "why_tests_cant": "universal over tables and hash map orders", "anchors": ["src/csr/csr.rs:CSR::from_dense", "src/csc/csc.rs:CSC::from_dense", "src/coo/coo.rs:Coo::from_dense", "src/dok/dok.rs:DoK::from_dense"]}
{"id": "C72", "title": "Selecting composes", "statement": "select(None, None) on a canonical matrix without unused capacity returns that matrix. Selecting rows rs' and columns cs' from a selection of rows rs and columns cs gives the same arrays as selecting rs[rs'] and cs[cs'] at once.", "quantifier": "all canonical matrices, all valid index lists with repetitions and in any order", "why_tests_cant": "universal over four index lists", "anchors": ["src/csr/csr.rs:CSR::select", "src/csc/csc.rs:CSC::select"]}
{"id": "C73", "title": "Block matrices act blockwise on vectors", "statement": "The vertical stack of A and B times x is A x followed by B x, to the bit, in any scalar type. Over exact scalars CSR::h_stack of A and B times (x, y) is A x + B y, and CSC::compose of A, B, C, D times (x, y) is A x + B y followed by C x + D y.", "quantifier": "all well-formed blocks of fitting sizes, all vectors", "why_tests_cant": "algebraic law over all blocks and vectors", "anchors": ["src/coo/coo.rs:Coo::v_stack", "src/csr/csr.rs:CSR::h_stack", "src/csc/csc.rs:CSC::compose", "src/csr/csr.rs:CSR::mat_vec", "src/csc/csc.rs:CSC::mat_vec"]}
{"id": "C74", "title": "A matrix made from a diagonal has that diagonal and scales by it", "statement": "diagonal() of with_diagonal(d) is d, and with_diagonal(d) times x is the element-wise product of d and x, where each element has been added to zero once.", "quantifier": "all vectors d and x of the same length, any scalar type", "why_tests_cant": "universal over vectors", "anchors": ["src/csr/csr.rs:CSR::with_diagonal", "src/csc/csc.rs:CSC::with_diagonal", "src/csr/csr.rs:CSR::diagonal", "src/csc/csc.rs:CSC::diagonal"]}
{"id": "C75", "title": "The conjugate transpose of a product is the reversed product of conjugate transposes", "statement": "For complex scalars whose conjugation commutes with + and *, (A B).h() and B.h() * A.h() have the same size and store the same value in every cell.", "quantifier": "all pairs of well-formed complex matrices of fitting sizes", "why_tests_cant": "algebraic law over all pairs of matrices", "anchors": ["src/csr/csr.rs:CSR::h", "src/csr/csr.rs:CSR::mat_mat", "src/csc/csc.rs:CSC::mat_mat"]}
{"id": "C76", "title": "Matrix addition commutes whenever scalar addition does", "statement": "If x + y = y + x for the scalars (as for IEEE floats, where + is not associative), A + B and B + A store the same value, to the bit, in every cell; for canonical operands their rows (columns) are equal. This holds whichever of the two addition algorithms is chosen.", "quantifier": "all pairs of well-formed matrices of the same size, canonical or not, all scalar types with commutative +", "why_tests_cant": "bit-for-bit law over all matrices and a scalar type without associativity", "anchors": ["src/csr/std_ops.rs:Add", "src/csc/std_ops.rs:Add", "src/row.rs:csr_binop_csr"]}
{"id": "C77", "title": "Strong component numbers are a reverse topological order", "statement": "For the labels returned by connected_components with directed=true and Strong connection, no stored entry (i, j) leads from a node to one with a larger label; a node reachable without a way back has a strictly smaller label. Visiting the components by decreasing label therefore visits every node before those it points to.", "quantifier": "all non-empty well-formed square matrices in which no row stores a column twice, all pairs of nodes", "why_tests_cant": "universal over graphs and paths", "anchors": ["src/graph.rs:connected_components", "src/graph.rs:connected_components_directed"]}
{"id": "C78", "title": "The component functions agree with one another", "statement": "Weak labels, numbers included, depend only on which pairs of nodes are linked in either direction, so values, repeated entries, their order and transposition leave them unchanged. Transposition leaves the strong components unchanged as sets. Strong components lie inside weak ones and coincide with them on structurally symmetric matrices, where CSR::connected_components also groups the rows with entries in the same way.", "quantifier": "all pairs of well-formed square matrices with the same links; for the strong components, non-empty matrices in which no row stores a column twice; all structurally symmetric ones for the last part", "why_tests_cant": "relates five algorithms over all graphs", "anchors": ["src/graph.rs:connected_components", "src/csr/csr.rs:CSR::connected_components", "src/csr/csr.rs:CSR::t"]}
{"id": "C79", "title": "Searches and components agree", "statement": "depth_first_order with directed=false visits exactly the nodes with the weak label of the start node. Two nodes share a strong label exactly if the directed search from each visits the other.", "quantifier": "all well-formed square matrices, all start nodes; for the strong labels, matrices in which no row stores a column twice", "why_tests_cant": "relates two algorithms over all graphs", "anchors": ["src/graph.rs:depth_first_order", "src/graph.rs:connected_components"]}
{"id": "C80", "title": "Kernels use only the front of their arrays", "statement": "A free kernel function (csr_*, csc_*, coo_*, expandptr, get_csr_submatrix, cs_graph_components) that succeeds on some arrays also succeeds if each array is longer, with the same results, and leaves the additional elements of the arrays it writes untouched. This holds for arbitrary arrays, including inconsistent ones. Exceptions: the pointer array written by csr_tocsc, csc_tocsr and coo_tocsr (cleared as a whole), and the index lists of csr_select (used as a whole).", "quantifier": "all array contents and lengths, all additional elements, all kernels", "why_tests_cant": "universal over arbitrary unrelated arrays; tests pass arrays of the right size", "anchors": ["src/row.rs", "src/col.rs", "src/coord.rs"]}
{"id": "C81", "title": "Kernels on the caller's buffers", "statement": "csr_matvec, csc_matvec and csr_todense add the stored entries, in order, to whatever the output held. The results of csr_tocoo, expandptr, csr_tocsc, csc_tocsr and coo_tocsr do not depend on what the output arrays held: csr_tocsc and csc_tocsr give the arrays of CSR::to_csc and CSC::to_csr, csr_tocoo and expandptr list the entries row by row, and coo_tocsr collects each row's entries in their order, repeated ones included. The outcome of cs_graph_components does not depend on the previous contents of the flag array.", "quantifier": "all well-formed matrices, all previous contents of output arrays of the right length", "why_tests_cant": "universal over matrices and buffer contents", "anchors": ["src/row.rs:csr_matvec", "src/col.rs:csc_matvec", "src/row.rs:csr_todense", "src/row.rs:csr_tocoo", "src/row.rs:expandptr", "src/row.rs:csr_tocsc", "src/col.rs:csc_tocsr", "src/coord.rs:coo_tocsr"]}
{"id": "C82", "title": "nnz and prune", "statement": "nnz() of a CSR, CSC or COO matrix is the number of its stored entries, also if the arrays have unused capacity; if no position is stored twice it is the number of occupied positions. CSC::prune drops the unused capacity and changes nothing else: dimensions and columns stay as they are, and a matrix without unused capacity is returned unchanged.", "quantifier": "all well-formed matrices with any amount of unused capacity", "why_tests_cant": "universal over matrices and capacities", "anchors": ["src/csr/csr.rs:CSR::nnz", "src/csc/csc.rs:CSC::nnz", "src/coo/coo.rs:Coo::nnz", "src/csc/csc.rs:CSC::prune"]}
{"id": "C83", "title": "Every call comes to an end", "statement": "In builds with and without overflow checks, every kernel, every method of the four matrix types and every graph function returns or panics, whatever it is given, including arrays that are no matrix (decreasing or wild pointers, wrong indices, wrong lengths): none loops forever (csr_row_slice without overflow checks: for pointer arrays of up to 2^63 elements). Exceptions: csr_row_slice with step 0 (C40), eigs (it repeats what ARPACK asks for), and strong components, for which it is shown only if no row stores a column twice.", "quantifier": "all arguments of all functions", "why_tests_cant": "termination on arbitrary input; a test that hangs shows one case, a test that returns shows none of the others", "anchors": ["src/row.rs", "src/col.rs", "src/coord.rs", "src/csr/csr.rs", "src/csc/csc.rs", "src/coo/coo.rs", "src/dok/dok.rs", "src/graph.rs"]}
{"id": "C84", "title": "Builds without overflow checks agree with builds with them", "statement": "If a call of a kernel, a matrix method, a dictionary method, a graph function or eigs does not panic in a build with overflow checks, the same call returns the same, result or error, in a build without them. Everything else stated here about returned values and errors therefore holds for release builds too.", "quantifier": "all arguments of all functions that compute with indices, including arrays that are no matrix", "why_tests_cant": "relates two builds over all inputs; tests run one build", "anchors": ["src/row.rs", "src/col.rs", "src/coord.rs", "src/csr/csr.rs", "src/csc/csc.rs", "src/coo/coo.rs", "src/dok/dok.rs", "src/graph.rs", "src/eigen/real.rs"]}
{"id": "C85", "title": "What release builds do where the checked build panics", "statement": "Converting a COO matrix with more entries than the index type can count panics in every build; reading dense input is the same in every build. Without overflow checks: v_stack and h_stack return, with the shifted indices and the summed dimension wrapped round, so with an unsigned index type v_stack is wrong as soon as one shifted row leaves the type; upper(k) compares the wrapped row+k with the column; has_sorted_indexes with an empty first row (column) panics for signed types, and for unsigned ones returns false if the whole index array has a descent and panics otherwise; csr_count_diagonals counts the diagonals, below the main one too; csr_row_slice with step 2^64-d (-d as a usize) collects rows start, start-d, ... down to the last one not below 0; strong components of the empty matrix are none. A product, or a sum of operands not in canonical format, with more entries than the index type can count can return with entries lost.", "quantifier": "all well-formed matrices for each operation; the loss of entries by witness", "why_tests_cant": "overflow needs matrices as large as the index type and a build tests do not use", "anchors": ["src/coo/coo.rs:Coo::to_csr", "src/coo/coo.rs:Coo::to_csc", "src/coo/coo.rs:Coo::v_stack", "src/coo/coo.rs:Coo::h_stack", "src/coo/coo.rs:Coo::upper", "src/csr/csr.rs:CSR::has_sorted_indexes", "src/row.rs:csr_count_diagonals", "src/graph.rs:connected_components", "src/csr/csr.rs:CSR::mat_mat", "src/csr/csr.rs:CSR::add"]}
{"id": "C86", "title": "Arrays that are no matrix are read as they are or rejected by a panic", "statement": "The constructors check lengths only (C49), so matrices with decreasing or overlapping pointers, or indices out of range, exist. mat_vec and to_dense of CSR, mat_vec of CSC, and the diagonals return exactly what the rows (columns) delimited by the pointers say if every cell read exists, and panic otherwise; Coo::to_dense panics iff an entry lies outside the matrix or an index is missing. Coo::to_csr panics if a row is outside the matrix but keeps columns outside it; Coo::to_csc the other way round. CSR::to_coo gives a cell several rows contain to the last of them, and a cell no row contains to row 0; CSC::to_coo copies the columns one after another and leaves the rest zero. prune repeats the checks of the constructor. CSR::to_csc of overlapping rows can return a valid matrix with other elements.", "quantifier": "all arrays of all lengths and contents, all dimensions; the wrong conversion by witness", "why_tests_cant": "universal over arbitrary arrays, including those no correct producer makes", "anchors": ["src/csr/csr.rs:CSR::mat_vec", "src/csr/csr.rs:CSR::to_dense", "src/csc/csc.rs:CSC::mat_vec", "src/csr/csr.rs:CSR::diagonal", "src/csc/csc.rs:CSC::diagonal", "src/coo/coo.rs:Coo::to_dense", "src/coo/coo.rs:Coo::to_csr", "src/coo/coo.rs:Coo::to_csc", "src/csr/csr.rs:CSR::to_coo", "src/csc/csc.rs:CSC::prune", "src/csr/csr.rs:CSR::to_csc"]}
{"id": "C87", "title": "Replacing the values commutes with every operation", "statement": "Let h map the values of one scalar type to another. For any arrays, also ones that are no matrix, and in builds with and without overflow checks, calling an operation on the h-images of the values gives the same outcome (result, error or panic) with the same index arrays and the h-images of the values. This holds for every h if the operation only moves values (transposition, stacking, upper, format predicates, nnz, graph functions); for h(0)=0 if it fills arrays with zeros (sorting, pruning, CSR/CSC conversion, selection, get); for h that preserve 0 and + if it adds up (sum_duplicates, COO conversions, to_dense, diagonals); for h that preserve the ring operations if it multiplies (scaling, mat_vec); for h that also preserve == if it drops zeros (mat_mat, +, -, from_dense, DoK writes). So conj of a product or sum is the product or sum of the conjs, array for array, where conj preserves the operations (complex numbers over a ring; with f64 parts the sign of a zero can differ); whole programs of calls and the printed texts commute likewise. The condition on == is needed: for reduction modulo 2^64 the arrays of a product differ.", "quantifier": "all pairs of scalar types, all maps h with the named laws, all arrays, both builds, all programs of calls", "why_tests_cant": "relates the runs of generic code on two scalar types for all inputs; a test instantiates one type", "anchors": ["src/csr/csr.rs", "src/csc/csc.rs", "src/coo/coo.rs", "src/dok/dok.rs", "src/graph.rs", "src/row.rs", "src/col.rs", "src/coord.rs", "src/csr/ccsr.rs:CSR::conj", "src/csc/ccsc.rs:CSC::conj"]}
{"id": "C88", "title": "Machine integers compute modulo 2^64", "statement": "Let h preserve 0, 1, +, - and * between two exact rings. A program of matrix calls run on the h-images of its numbers holds, in every matrix, the h-image of every value of the original program (though it may store different zeros), and each reading (dense table, diagonal, element, product with a vector) is the h-image of the original reading. So with integers that wrap round modulo 2^64, every value of every matrix is the exact value modulo 2^64, whatever overflowed on the way. The same holds of both parts of complex numbers over such integers.", "quantifier": "all programs whose calls are admissible on both kinds of numbers, all ring maps; in particular reduction modulo 2^64", "why_tests_cant": "universal over programs and numbers, relating exact and wrapped arithmetic", "anchors": ["src/csr/csr.rs", "src/csc/csc.rs", "src/coo/coo.rs", "src/dok/dok.rs"]}
{"id": "C89", "title": "Integer scalars: a result is exact or the call panics", "statement": "Let the scalars be machine integers in a build with overflow checks. Every kernel, matrix method, operator and dictionary method that computes with scalars either panics or returns exactly what it returns with unbounded integers, so everything else stated here about returned values holds for it. More generally this holds for any scalar operations that panic or give the result of unchecked ones; if they never panic, as for floats, the calls are the same.", "quantifier": "all arguments of all functions that compute with scalars, also arrays that are no matrix; all integer types; all checked operations", "why_tests_cant": "relates two kinds of arithmetic over all inputs", "anchors": ["src/row.rs", "src/col.rs", "src/coord.rs", "src/csr/csr.rs", "src/csc/csc.rs", "src/coo/coo.rs", "src/dok/dok.rs", "src/csr/std_ops.rs", "src/csc/std_ops.rs", "src/coo/std_ops.rs"]}
{"id": "C90", "title": "Integer scalars: when a call panics on overflow", "statement": "With integer scalars and overflow checks, on a well-formed matrix: mat_vec panics exactly if a product of a stored value with its vector element, or a partial sum of the products of a row, in storage order (CSR) or column by column (CSC), is outside the scalar type. to_dense and diagonal panic exactly if a partial sum of the values stored at one position (on the diagonal) is outside it. Multiplication by a scalar and negation panic exactly if one of the resulting values is outside it. DoK::add and sub panic exactly if the new element is outside it. Otherwise each does what it does with unbounded integers. The order of additions matters: a call can panic though the final sum fits.", "quantifier": "all well-formed matrices of the three formats, all vectors and scalars, all integer types", "why_tests_cant": "exact condition over all matrices and orders of summation", "anchors": ["src/csr/csr.rs:CSR::mat_vec", "src/csc/csc.rs:CSC::mat_vec", "src/coo/coo.rs:Coo::to_dense", "src/csr/csr.rs:CSR::to_dense", "src/csc/csc.rs:CSC::to_dense", "src/coo/coo.rs:Coo::diagonal", "src/csr/csr.rs:CSR::diagonal", "src/csc/csc.rs:CSC::diagonal", "src/csr/std_ops.rs", "src/csc/std_ops.rs", "src/coo/std_ops.rs", "src/dok/dok.rs:DoK::add", "src/dok/dok.rs:DoK::sub"]}
{"id": "C91", "title": "Integer scalars: when conversions, sums and products overflow", "statement": "With integer scalars and overflow checks, on well-formed matrices of fitting dimensions: sum_duplicates, Coo::to_csr and to_csc, Coo + Coo, CSR::h_stack (operands without unused array elements) and CSC::compose panic on overflow exactly if, for some position, a partial sum of the entries stored there, in storage order, is outside the scalar type; the conversions of DoK never do. CSR + and -, CSC add, subtract, + and -, and the element-wise kernels (add, sub, mul, div, eq, ne, lt, le, gt, ge, max, min) panic exactly if at a position stored in one of the operands the operation is outside the type or, unless both operands are canonical, a partial sum of the entries an operand stores there is. The products of two CSR, two CSC, and of CSC with CSR panic exactly if some product of two stored values, or a partial sum of the products for one element of the result, is outside the type. Otherwise each does what it does with unbounded integers.", "quantifier": "all well-formed matrices, all integer types", "why_tests_cant": "exact condition over all matrices and orders of summation", "anchors": ["src/csr/csr.rs:CSR::sum_duplicates", "src/csc/csc.rs:CSC::sum_duplicates", "src/coo/coo.rs:Coo::to_csr", "src/coo/coo.rs:Coo::to_csc", "src/coo/std_ops.rs", "src/csr/csr.rs:CSR::h_stack", "src/csc/csc.rs:CSC::compose", "src/dok/dok.rs:DoK::to_csr", "src/row.rs:csr_binop_csr", "src/csr/std_ops.rs", "src/csc/std_ops.rs", "src/csc/csc.rs:CSC::add", "src/csc/csc.rs:CSC::subtract", "src/csr/csr.rs:CSR::mat_mat", "src/csc/csc.rs:CSC::mat_mat"]}
{"id": "C92", "title": "Integer scalars: when kernels on the caller's arrays overflow", "statement": "With integer scalars and overflow checks, on a well-formed matrix and arrays of fitting size: csr_matvec, csc_matvec and coo_matvec, which add A x to the vector y, panic exactly if a product of a stored value with its element of x is outside the scalar type, or one of the sums obtained by adding the products of a row one by one, in storage order (CSC: column by column), to the element of y is; csr_matvecs and csc_matvecs likewise for every vector of the block. csr_todense and coo_todense (row or column order) panic exactly if adding the values of one position one by one to what the table held there leaves the type. csr_diagonal and csc_diagonal, for a k within the matrix, panic exactly if a partial sum of the values of one position of the k-th diagonal, from zero, does. csr_scale_rows and csr_scale_columns panic exactly if a stored value times its factor does; values in unused array elements do not matter. Otherwise each does what it does with unbounded integers.", "quantifier": "all well-formed matrices, all vectors and tables of fitting size with any contents, all block widths, all k within the matrix, all integer types", "why_tests_cant": "exact condition over all matrices, previous contents and orders of summation", "anchors": ["src/row.rs:csr_matvec", "src/row.rs:csr_matvecs", "src/col.rs:csc_matvec", "src/col.rs:csc_matvecs", "src/coord.rs:coo_matvec", "src/coord.rs:coo_todense", "src/row.rs:csr_todense", "src/row.rs:csr_diagonal", "src/col.rs:csc_diagonal", "src/row.rs:csr_scale_rows", "src/row.rs:csr_scale_columns"]}
{"id": "C93", "title": "Programs on integer scalars with overflow checks", "statement": "A program that makes matrices of the four formats, changes them and computes new ones, each call admissible when it is made, on integer scalars in a build with overflow checks: it panics, or every matrix holds exactly what the same program computes on plain tables of unbounded integers, and so does each reading (dense table, diagonal, element, product with a vector). Given values of the scalar type, a program that completes, admissible or not, stores and returns only values of the type. With an unsigned type it panics only if some element of some table at some moment of the program is outside the type: values stored at one position, products and partial sums need no separate condition. With a signed type it can panic though every element of every table fits.", "quantifier": "all programs of calls, all integer scalar types, all index types", "why_tests_cant": "universal over programs and numbers; relates checked machine arithmetic to exact tables", "anchors": ["src/csr/csr.rs", "src/csc/csc.rs", "src/coo/coo.rs", "src/dok/dok.rs", "src/csr/std_ops.rs", "src/csc/std_ops.rs", "src/coo/std_ops.rs"]}
{"id": "C94", "title": "Programs in release builds", "statement": "A program of matrix calls, admissible or not, that does not panic in the build with overflow checks ends in the release build in the same way, with the same matrices; the same holds of each reading. So an admissible program completes in the release build with well-formed matrices, over a ring they hold what the same program computes on plain tables, and the readings are those of the tables. On 64-bit integers, which wrap round silently in this build, every element is the remainder modulo 2^64 of the element of the plain tables of unbounded integers, whatever overflowed on the way. A program whose index arithmetic overflows can complete in the release build with a matrix that is not well formed.", "quantifier": "all programs of calls, all scalars, all index types", "why_tests_cant": "universal over programs; the tests run in one build only", "anchors": ["src/csr/csr.rs", "src/csc/csc.rs", "src/coo/coo.rs", "src/dok/dok.rs", "src/csr/std_ops.rs", "src/csc/std_ops.rs", "src/coo/std_ops.rs"]}
{"id": "C95", "title": "Rounding errors of floating-point matrices", "statement": "On scalars whose additions, subtractions and products round (relative error u, absolute error eta of tiny products), every finite element of a matrix-vector product (CSR, CSC) and of a matrix product (CSR, CSC) differs from the exact sum of the k products of stored values by at most ((1+u)^k - 1) times the sum of their absolute values, plus k (1+u)^k eta. A finite sum of the k values stored at one position (to_dense, to_csr, to_csc, sum_duplicates, Coo + Coo) differs from the exact sum by at most ((1+u)^(k-1) - 1) times the sum of their absolute values, and a finite element of a sum or difference of CSR or CSC matrices by at most ((1+u)^k - 1) times that sum, k being the number of values stored at the position in both. IEEE arithmetic is of this kind, with u = 2^-53 and eta = 2^-1075 for f64, u = 2^-24 and eta = 2^-150 for f32, so the bounds hold for every finite result, whatever the inputs are: a finite result shows that nothing overflowed on the way.", "quantifier": "all matrices and vectors, all f64 and f32 values including subnormal, infinite and NaN ones, all index types", "why_tests_cant": "universal over floating-point values; tests compare a few results with a tolerance chosen by hand", "anchors": ["src/csr/csr.rs: mat_vec, mat_mat, to_dense, sum_duplicates", "src/csc/csc.rs: mat_vec, mat_mat, add, subtract, to_dense, sum_duplicates", "src/coo/coo.rs: to_csr, to_csc, to_dense", "src/coo/std_ops.rs", "src/csr/std_ops.rs"]}
{"id": "C96", "title": "Small whole numbers stored as floats are computed exactly", "statement": "If the finite values that make up an element are such that the products entering it (matrix-vector and matrix products, CSR and CSC) or the values summed into it (to_dense, to_csr, to_csc, sum_duplicates, sums and differences) are whole multiples of a unit 2^g, and their absolute values add up to at most 2^53 units for f64 (2^24 for f32), then the element is finite and exactly the mathematical sum, whatever the order of the entries. In particular a CSR matrix-vector product of integers computed in f64 is the product computed in integers, in every row whose products have absolute values adding up to at most 2^53; with 2^53 + 1 it can be wrong. On complex numbers the same holds for the real and for the imaginary part, each with the real products or the parts of the values that enter it.", "quantifier": "all matrices and vectors of such values, all units between the smallest float and 2^916 (f32: 2^78), all index types", "why_tests_cant": "universal over values and units; a test with a few integers says nothing about where exactness ends", "anchors": ["src/csr/csr.rs: mat_vec, mat_mat, to_dense, sum_duplicates", "src/csc/csc.rs: mat_vec, mat_mat, add, subtract, to_dense, sum_duplicates", "src/coo/coo.rs: to_csr, to_csc, to_dense", "src/coo/std_ops.rs", "src/csr/std_ops.rs"]}
{"id": "C97", "title": "Floating-point results are finite unless too large", "statement": "If all stored values are finite, an element of a matrix-vector product or an entry of a matrix product (CSR, CSC) is finite whenever (1+u)^k (S + k eta) is at most the largest number of the type, S being the sum of the absolute values of the k exact products entering it; a sum of the k values stored at one position (to_dense, to_csr, to_csc, sum_duplicates, Coo + Coo) is finite whenever (1+u)^(k-1) S is, and an entry of a CSR or CSC sum or difference whenever (1+u)^k S is. So infinities and NaN do not appear out of finite values that leave this room, in whatever order the entries are stored. For f64: with at most 2^52 products adding up to at most 2^1022 in absolute value, the element of a CSR matrix-vector or matrix product is a number, within k (2^-52 S + 2^-1074) of the exact one. For complex numbers the same holds part by part, each part being made of k pairs of real products: it is finite whenever (1+u)^(k+1) (S + 2 k eta) is at most the largest number; for sums and differences the bounds are those above, for each part.", "quantifier": "all matrices and vectors of finite f64 or f32 values, all index types", "why_tests_cant": "universal over floating-point values; tests see no overflow because their values are small", "anchors": ["src/csr/csr.rs: mat_vec, mat_mat, to_dense, sum_duplicates", "src/csc/csc.rs: mat_vec, mat_mat, add, subtract, to_dense, sum_duplicates", "src/coo/coo.rs: to_csr, to_csc, to_dense", "src/coo/std_ops.rs", "src/csr/std_ops.rs"]}
{"id": "C98", "title": "The format makes no rounding difference", "statement": "Floating-point sums depend on the order of additions, but converting a matrix does not change what is computed. Conversion between CSR and CSC, from CSC or from CSR without unused array elements to Coo, and sort_indexes leave every number of the dense table as it is, on any scalars; so does a CSC matrix-vector product after conversion to CSR. Coo::to_csr, Coo::to_csc and sum_duplicates, which add up the values of a position, leave the dense table as it is on scalars for which zero can be added first or last; f64 and f32 values, including negative zeros, infinities and NaN, are such. If the first factor is canonical, the product of two CSR matrices and the product of the same matrices converted to CSC exist together and hold the same values, to the last bit (all NaNs counting as one), at the same positions; for sums and differences of canonical matrices the same holds when both succeed. If both factors store several values at one position, the two products can differ. All of this holds for complex numbers with f64 or f32 parts as well.", "quantifier": "all well-formed matrices and vectors, all f64 and f32 values, all scalars where stated, all index types", "why_tests_cant": "universal over floating-point values, where addition is not associative; tests use values whose sums are exact in any order", "anchors": ["src/coo/coo.rs: to_csr, to_csc, to_dense", "src/csr/csr.rs: to_csc, to_coo, to_dense, sort_indexes, sum_duplicates, mat_vec, mat_mat", "src/csc/csc.rs: to_csr, to_coo, to_dense, sort_indexes, sum_duplicates, mat_vec, mat_mat, add, subtract", "src/csr/std_ops.rs"]}
{"id": "C99", "title": "Rounding errors of complex matrices", "statement": "On complex numbers whose parts are rounded as in C95 (relative error u, absolute error eta of tiny products), each finite part of an element of a matrix-vector product (CSR, CSC) or of a matrix product (CSR, CSC) differs from the same part of the exact sum of the k complex products by at most ((1+u)^(k+1) - 1) times the sum of the absolute values of the 2k real products entering that part, plus 2k (1+u)^k eta. Each finite part of a sum of the values stored at one position (to_dense, to_csr, to_csc, sum_duplicates, Coo + Coo, sums and differences of CSR and CSC matrices) satisfies the bound that C95 gives for real numbers. A part may be infinite or NaN without affecting the bound on the other, and dropping zero elements does no harm. For pairs of f64, u = 2^-53 and eta = 2^-1075.", "quantifier": "all matrices and vectors of complex numbers with f64 or f32 parts, including infinite and NaN ones, all index types", "why_tests_cant": "universal over floating-point values; tests compare a few results with a tolerance chosen by hand", "anchors": ["src/traits.rs: Complex, Scalar for num_complex::Complex", "src/csr/csr.rs: mat_vec, mat_mat, to_dense, sum_duplicates", "src/csc/csc.rs: mat_vec, mat_mat, add, subtract, to_dense, sum_duplicates", "src/coo/coo.rs: to_csr, to_csc, to_dense", "src/coo/std_ops.rs", "src/csr/std_ops.rs"]}
