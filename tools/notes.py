STATUS = {}
NOTE = {
}
STATUS.update({"C21": "proved", "C54": "proved", "C46": "proved"})
NOTE.update({
 "C54": "complete description for CSR +, CSR - and CSC +",
 "C46": "proved for all operations; eq/le/ge on cells empty in both operands and integer division by an absent entry are refuted (the latter for all inputs)",
 "C55": "proved for the listed operations; for sums and products the exact capacity is proved and witnesses refute the claim",
})
STATUS.update({"C22": "proved", "C56": "proved"})
NOTE.update({
 "C26": "the CSR case needs arguments without unused capacity (see C06, C55)",
 "C27": "both directions: success when every row+k fits, panic as soon as one does not",
 "C51": "panic proved for every size above the limit; success below it is in C01, C02, C10, C30; for the stacks and for to_csr/to_csc the exact condition for a panic (Props_boundary.v)",
 "C56": "proved for all sequences of push and equal-length extend; unequal extend refuted by a witness",
})
NOTE.update({
 "C32": "with duplicates the first stored value is read; agreement with to_dense is refuted for that case by a witness",
 "C40": "the loop bound (fuel) is any number above stop - start; with step 0 no bound suffices",
 "C48": "exact count without entries below the diagonal; a panic proved for every matrix with one",
})
STATUS.update({"C33": "proved"})
NOTE.update({"C33": "for dimensions that fit the index type; beyond that a panic is proved for every write in range"})

STATUS.update({"C36": "proved", "C37": "proved"})
NOTE.update({
 "C36": "both restrictions shown necessary: panic for the empty matrix, with a repeated position, witnesses of a panic and of wrong labels",
 "C37": "a start node out of range panics (proved for all such nodes)",
})
STATUS.update({"C55": "proved"})

STATUS.update({"C58": "proved", "C64": "proved", "C66": "proved", "C67": "proved", "C69": "proved"})
NOTE.update({
 "C57": "the text handed to the TabWriter; its alignment is an arbitrary function of that text",
})

STATUS.update({"C12": "proved", "C32": "proved", "C51": "proved", "C65": "proved", "C68": "proved"})
NOTE.update({
 "C12": "complete: answer for a non-empty first row (column), panic for every empty one",
 "C21": "the property states the defect; panic proved for all operands of equal size whose total entry count is not cols+1",
 "C22": "the property states the defect; panic proved for all matrices whose rowidx length is not cols+1, witness for a wrong result otherwise",
 "C58": "the property states the defect, proved for every successful run and every behaviour of ARPACK that keeps the buffer lengths",
 "C64": "the property states the defect, proved for all values",
 "C65": "complete description of the returned matrix",
 "C66": "the property states the defect, proved for all nev >= 1 and all n + 1 < 2^31",
 "C67": "nev = 0 and sizes whose 32-bit cast is wrong are refuted for all matrices",
 "C68": "both sides proved for all matrices and locations",
 "C69": "both sides proved for all matrices",
})

STATUS.update({"C31": "proved"})
NOTE.update({"C31": "for dimensions that fit the index type; beyond that the panic is proved for all matrices"})

STATUS.update({"C70": "proved", "C71": "proved", "C72": "proved", "C73": "proved", "C74": "proved", "C75": "proved", "C76": "proved"})
NOTE.update({
 "C71": "tables whose number of non-zeros is below the largest index",
 "C75": "the product of two CSR matrices; stated for exact complex scalars, since conjugating 0 changes the sign of a float zero",
 "C76": "binary64 addition is shown commutative for the floats of Coq's SpecFloat",
})

STATUS.update({"C77": "proved", "C78": "proved", "C79": "proved"})
NOTE.update({
 "C77": "for the graphs on which the strong components are computed (C36)",
 "C79": "the directed part for rows that store no column twice (C36)",
})
STATUS.update({"C80": "proved", "C81": "proved"})
STATUS.update({"C82": "proved", "C83": "proved"})
NOTE.update({
 "C83": "that no run exhausts the fuel of the model's while loops. Strong components with repeated entries in a row are left open (no run of many random ones failed to end); the division kernel and csr_binop_csr under the condition that the operation itself returns",
})
STATUS.update({"C84": "proved", "C85": "proved"})
NOTE.update({
 "C84": "for each function of the model that adds or subtracts indices; the remaining ones have no such operation",
 "C85": "the loss of entries in products and sums is shown by witnesses with u8 indices",
})
STATUS.update({"C86": "proved"})
NOTE.update({"C86": "Coo::to_csr and to_csc for fewer entries than the largest index"})
STATUS.update({"C87": "proved", "C88": "proved"})
NOTE.update({
 "C87": "C87_wrap_refuted shows that the condition on == cannot be dropped",
 "C88": "machine integers are those of release builds, which wrap round; for checked builds see C89",
})
STATUS.update({"C93": "proved"})
NOTE.update({"C93": "C93_signed_refuted shows that the condition for unsigned types does not suffice for signed ones"})
STATUS.update({"C98": "proved"})
NOTE.update({"C98": "C98_mat_mat_refuted shows that the condition on the first factor is needed; NaN payloads are not modelled"})

NOTE.update({"C99": "the formulas of num_complex, a dependency that is not in the repository, are assumed"})
