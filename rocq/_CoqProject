-Q theories Verif
theories/Rust.v
theories/Debug.v
theories/Scalar.v
theories/Model_kernels.v
theories/Model_matrix.v
theories/Model_graph.v
theories/Model_dok.v
theories/Model_text.v
theories/Model_eigen.v
theories/Spec.v
theories/SpecGraph.v
theories/SpecMore.v
theories/SpecPipe.v
theories/SpecText.v
theories/SpecEigen.v
theories/Wp.v
theories/Rep.v
theories/ScatterProofs.v
theories/CanonProofs.v
theories/ConvProofs.v
theories/RingProofs.v
theories/LinProofs.v
theories/Lin2Proofs.v
theories/LinkProofs.v
theories/PadProofs.v
theories/BinopProofs.v
theories/BinopExact.v
theories/PanicProofs.v
theories/EndProofs.v
theories/EndAll.v
theories/ReleaseProofs.v
theories/ReleaseAll.v
theories/MatmatProofs.v
theories/ArithProofs.v
theories/MismatchProofs.v
theories/StructProofs.v
theories/BlockProofs.v
theories/TableProofs.v
theories/SelectProofs.v
theories/DokProofs.v
theories/GraphProofs.v
theories/FlagProofs.v
theories/SccProofs.v
theories/Check.v
theories/Main_convert.v
theories/Props_convert.v
theories/Main_linear.v
theories/Props_linear.v
theories/Main_arith.v
theories/Props_arith.v
theories/Main_struct.v
theories/Props_struct.v
theories/Main_select.v
theories/Props_select.v
theories/Main_dok.v
theories/Props_dok.v
theories/Main_graph.v
theories/Props_graph.v
theories/Main_laws.v
theories/Props_laws.v
theories/Main_more.v
theories/Props_more.v
theories/Main_frame.v
theories/Main_buffers.v
theories/Props_frame.v
theories/PipeProofs.v
theories/Main_pipe.v
theories/Props_pipe.v
theories/TextProofs.v
theories/Main_text.v
theories/Props_text.v
theories/Main_release.v
theories/Props_release.v
theories/Main_arrays.v
theories/Main_ends.v
theories/Props_arrays.v
theories/Props_ends.v
theories/EigenProofs.v
theories/Main_eigen.v
theories/Props_eigen.v
theories/SpecHom.v
theories/HomProofs.v
theories/HomAll.v
theories/Main_hom.v
theories/Props_hom.v
theories/SpecBoundary.v
theories/Main_boundary.v
theories/Props_boundary.v
theories/MatmatExact.v
theories/Main_addition.v
theories/Main_fit.v
theories/Main_product.v
theories/Props_fit.v
theories/Props_product.v
theories/Props_addition.v
theories/Model_checked.v
theories/SpecChecked.v
theories/CheckedProofs.v
theories/CheckedExact.v
theories/Main_checked.v
theories/Props_checked.v
theories/CheckedDup.v
theories/CheckedBinop.v
theories/CheckedProduct.v
theories/Main_overflow.v
theories/Props_overflow.v
theories/CheckedBuffers.v
theories/Main_buffer_overflow.v
theories/Props_buffer_overflow.v
theories/SpecProgram.v
theories/ProgramProofs.v
theories/HomChecked.v
theories/ProgramHom.v
theories/Main_program.v
theories/ProgramFits.v
theories/Props_program.v
theories/SpecBuild.v
theories/Main_build.v
theories/Props_build.v
theories/SpecRound.v
theories/Main_float.v
theories/Main_round.v
theories/Props_round.v
theories/SpecExact.v
theories/Main_exact.v
theories/Props_exact.v
theories/SpecRange.v
theories/Main_range.v
theories/Props_range.v
theories/SpecBits.v
theories/Main_bits.v
theories/Props_bits.v
theories/SpecComplex.v
theories/Main_complex.v
theories/Props_complex.v
theories/SpecIndex.v
theories/Main_index.v
theories/Props_index.v
theories/SpecCexact.v
theories/Main_cexact.v
theories/Props_cexact.v
theories/SpecCrange.v
theories/Main_crange.v
theories/Props_crange.v
theories/Main_cbits.v
theories/Props_cbits.v
theories/SpecCring.v
theories/Main_cring.v
theories/Props_cring.v
