-Q theories Verif
theories/Base.v
theories/Model_File.v
theories/Spec_File.v
theories/Proof_File.v
theories/Prop_File.v
theories/Model_Word.v
theories/Spec_Word.v
theories/Proof_Word.v
theories/Prop_Word.v
theories/Model_Codec.v
theories/Spec_Codec.v
theories/Proof_Codec.v
theories/Prop_Codec.v
theories/Model_Folders.v
theories/Proof_Folders.v
theories/Prop_Folders.v
theories/Model_MapStore.v
theories/Spec_MapStore.v
theories/Proof_MapStore.v
theories/Prop_MapStore.v
theories/Proof_Evict.v
theories/Prop_Evict.v
theories/Model_Seq.v
theories/Spec_Seq.v
theories/Proof_Seq.v
theories/Proof_Pipe.v
theories/Proof_MemBlock.v
theories/Prop_Seq.v
theories/Model_Holder.v
theories/Spec_Holder.v
theories/Proof_Holder.v
theories/Prop_Holder.v
theories/Model_HashStore.v
theories/Spec_HashStore.v
theories/Proof_HashStore.v
theories/Prop_HashStore.v
theories/Model_Parse.v
theories/Spec_Parse.v
theories/Proof_Parse.v
theories/Prop_Parse.v
theories/Model_Json.v
theories/Prop_Json.v
theories/Prop_Amount.v
theories/Model_Chain.v
theories/Spec_Chain.v
theories/Proof_Chain.v
theories/Prop_Chain.v
theories/Model_Bins.v
theories/Spec_Bins.v
theories/Proof_Bins.v
theories/Proof_BinFiles.v
theories/Prop_Bins.v
theories/Model_Pass.v
theories/Spec_Pass.v
theories/Proof_Pass.v
theories/Proof_Index.v
theories/Proof_Plan.v
theories/Prop_Pass.v
theories/Prop_Index.v
theories/Prop_Probe.v
theories/Prop_Append.v
theories/Model_Tree.v
theories/Spec_Tree.v
theories/Proof_Tree.v
theories/Prop_Tree.v
theories/Model_Chunk.v
theories/Spec_Chunk.v
theories/Proof_Node.v
theories/Proof_Design.v
theories/Proof_Layout.v
theories/Proof_Chunk.v
theories/Proof_Prepare.v
theories/Prop_Chunk.v
theories/Model_Ids.v
theories/Prop_Ids.v
theories/Model_Levels.v
theories/Proof_Levels.v
theories/Prop_Levels.v
theories/Model_Cake.v
theories/Spec_Cake.v
theories/Proof_Cake.v
theories/Model_Top.v
theories/Proof_Top.v
theories/Prop_Cake.v
theories/Model_Bake.v
theories/Proof_Bake.v
theories/Prop_Bake.v
theories/Model_Pool.v
theories/Spec_Pool.v
theories/Proof_Pool.v
theories/Prop_Pool.v
theories/Model_Fixed.v
theories/Proof_Fixed.v
theories/Proof_Full.v
theories/Prop_Fixed.v
theories/Model_Uniform.v
theories/Proof_Uniform.v
theories/Prop_Uniform.v
theories/Model_Preload.v
theories/Proof_Preload.v
theories/Prop_Preload.v
theories/Model_JsonBlock.v
theories/Prop_JsonBlock.v
theories/Model_Difficulty.v
theories/Prop_Difficulty.v
theories/Model_TierZero.v
theories/Prop_TierZero.v
theories/Model_Mmap.v
theories/Prop_Mmap.v
theories/Model_Pipeline.v
theories/Spec_Pipeline.v
theories/Proof_Pipeline.v
theories/Prop_Pipeline.v
theories/Model_Adaptive.v
theories/Proof_Adaptive.v
theories/Prop_Adaptive.v
theories/Model_Job.v
theories/Prop_Job.v
theories/Model_Handles.v
theories/Prop_Handles.v
theories/Model_Whole.v
theories/Prop_Whole.v
theories/Model_Mem.v
theories/Prop_Mem.v
theories/Model_Workers.v
theories/Prop_Workers.v
theories/Model_Again.v
theories/Prop_Again.v
theories/Prop_Limit.v
theories/Model_Check.v
theories/Prop_Check.v
theories/Model_Reuse.v
theories/Prop_Reuse.v
theories/Model_Metrics.v
theories/Prop_Metrics.v
theories/Model_Create.v
theories/Prop_Create.v
theories/Model_Copy.v
theories/Prop_Copy.v
theories/Model_Tiny.v
theories/Prop_Tiny.v
theories/Prop_Settings.v
theories/Prop_Room.v
theories/Prop_Order.v
