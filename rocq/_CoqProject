-Q theories Verif
theories/Base.v
theories/Types.v
theories/Uncertainty.v
theories/Spec_Uncertainty.v
theories/Uncertainty_proofs.v
theories/Props_Uncertainty.v
theories/Spec_Repair.v
theories/Repair2_proofs.v
theories/Props_Repair.v
theories/Utils.v
theories/Spec_Utils.v
theories/Utils_proofs.v
theories/Validation.v
theories/Validation_proofs.v
theories/Props_Utils.v
theories/Spec_Identity.v
theories/Identity_proofs.v
theories/Props_Identity.v
theories/ActivityLinks.v
theories/Spec_ActivityLinks.v
theories/ActivityLinks_proofs.v
theories/Props_ActivityLinks.v
theories/Strings.v
theories/Grouping.v
theories/Recalculation.v
theories/Spec_Recalculation.v
theories/Recalculation_proofs.v
theories/Cutoff.v
theories/Spec_Cutoff.v
theories/Cutoff_proofs.v
theories/Props_Cutoff.v
theories/Spec_Allocation.v
theories/Allocation_proofs.v
theories/Allocation2_proofs.v
theories/Spec_Combined.v
theories/Combined_proofs.v
theories/Combined2_proofs.v
theories/Spec_Dispatch.v
theories/SingleOutput_proofs.v
theories/Props_Allocation.v
theories/Spec_Waste.v
theories/Waste_proofs.v
theories/Props_Waste.v
theories/Topology.v
theories/Spec_Topology.v
theories/Topology_proofs.v
theories/Props_Topology.v
theories/GroupUpdate.v
theories/Locations.v
theories/Spec_RestOfWorld.v
theories/RestOfWorld_proofs.v
theories/StringFacts.v
theories/Spec_Links.v
theories/Links_proofs.v
theories/Props_Locations.v
theories/Spec_Markets.v
theories/Markets_proofs.v
theories/Spec_Mix.v
theories/Mix_proofs.v
theories/GroupVolumes_proofs.v
theories/Props_Markets.v
theories/Spec_Consumers.v
theories/Consumers_proofs.v
theories/ConsumerInputs_proofs.v
theories/Props_Consumers.v
theories/Spec_Groups.v
theories/Groups_proofs.v
theories/Props_Groups.v
theories/Consequential.v
theories/Spec_Consequential.v
theories/Consequential_proofs.v
theories/Constrained_proofs.v
theories/Props_Consequential.v
theories/Spec_Codes.v
theories/Codes_proofs.v
theories/Linked_proofs.v
theories/Props_Codes.v
theories/Cleanup_proofs.v
theories/Props_Cleanup.v
theories/Formulas.v
theories/Spec_Formulas.v
theories/Formulas_proofs.v
theories/Props_Formulas.v
theories/Parameters.v
theories/Spec_Parameters.v
theories/Parameters_proofs.v
theories/Props_Parameters.v
theories/Reserved_proofs.v
theories/Props_Reserved.v
theories/Runner.v
theories/Spec_Runner.v
theories/Runner_proofs.v
theories/Props_Runner.v
theories/Files.v
theories/Brightway.v
theories/Spec_Files.v
theories/Files_proofs.v
theories/Cache_proofs.v
theories/Brightway_proofs.v
theories/Props_Files.v
theories/Spec_Untouched.v
theories/Untouched_proofs.v
theories/Props_Untouched.v
theories/Pipeline.v
theories/Spec_Pipeline.v
theories/Stems_proofs.v
theories/Pipeline_proofs.v
theories/Props_Pipeline.v
theories/Schema.v
theories/Extraction.v
theories/Spec_Extraction.v
theories/Extraction_proofs.v
theories/Extraction2_proofs.v
theories/Extraction3_proofs.v
theories/Props_Extraction.v
theories/Spec_Lists.v
theories/Lists_proofs.v
theories/Props_Lists.v
theories/Spec_References.v
theories/References_proofs.v
theories/References2_proofs.v
theories/References3_proofs.v
theories/References4_proofs.v
theories/Props_References.v
theories/Spec_Math.v
theories/Math_proofs.v
theories/Props_Math.v
theories/Spec_Known.v
theories/Known_proofs.v
theories/Props_Known.v
theories/Spec_Fixed.v
theories/Fixed_proofs.v
theories/Props_Fixed.v
theories/Configuration.v
theories/Spec_Configuration.v
theories/Configuration_proofs.v
theories/Props_Configuration.v
theories/Spec_Order.v
theories/Order_proofs.v
theories/Order2_proofs.v
theories/Order3_proofs.v
theories/Order4_proofs.v
theories/Props_Order.v
theories/Spec_Balance.v
theories/Balance_proofs.v
theories/Props_Balance.v
theories/Spec_Supply.v
theories/Supply_proofs.v
theories/Supply2_proofs.v
theories/Supply3_proofs.v
theories/Supply4_proofs.v
theories/Props_Supply.v
theories/Sampling.v
theories/Spec_Sampling.v
theories/Sampling_proofs.v
theories/Props_Sampling.v
theories/Collections.v
theories/Spec_Collections.v
theories/Collections_proofs.v
theories/Props_Collections.v
theories/Intersections.v
theories/Spec_Intersections.v
theories/Intersections_proofs.v
theories/Props_Intersections.v
theories/Names_proofs.v
theories/Spec_Marks.v
theories/Marks_proofs.v
theories/Props_Marks.v
theories/Spec_Whole.v
theories/Kept_proofs.v
theories/Shares_proofs.v
theories/Whole_proofs.v
theories/Props_Whole.v
theories/Whole2_proofs.v
theories/Props_Whole2.v
theories/Tables.v
theories/Spec_Tables.v
theories/Tables_proofs.v
theories/Props_Tables.v
theories/Optional.v
theories/Spec_Optional.v
theories/Optional_proofs.v
theories/Props_Optional.v
theories/FormulaTables.v
theories/Spec_FormulaTables.v
theories/FormulaTables_proofs.v
theories/Props_FormulaTables.v
theories/LinkTables.v
theories/Spec_LinkTables.v
theories/LinkTables_proofs.v
theories/Props_LinkTables.v
theories/Pedigree.v
theories/Spec_Pedigree.v
theories/Pedigree_proofs.v
theories/Pedigree2_proofs.v
theories/Props_Pedigree.v
theories/Outputs.v
theories/Spec_Outputs.v
theories/Outputs_proofs.v
theories/Outputs2_proofs.v
theories/Props_Outputs.v
theories/Spec_Float.v
theories/Float.v
theories/Float_proofs.v
theories/Float2_proofs.v
theories/Float3_proofs.v
theories/Float4_proofs.v
theories/Props_Float.v
theories/Spec_Strategy.v
theories/Strategy_proofs.v
theories/Props_Strategy.v
theories/Spec_Keys.v
theories/Keys_proofs.v
theories/Props_Keys.v
theories/Cli.v
theories/Spec_Cli.v
theories/Cli_proofs.v
theories/Props_Cli.v
theories/Import.v
theories/Spec_Import.v
theories/Import_proofs.v
theories/Props_Import.v
theories/Detailed.v
theories/Spec_Detailed.v
theories/Detailed_proofs.v
theories/Props_Detailed.v
theories/Heap.v
theories/Spec_Heap.v
theories/Heap_proofs.v
theories/Props_Heap.v
theories/HeapLinks.v
theories/HeapLinks_proofs.v
theories/Props_HeapLinks.v
theories/HeapHard.v
theories/HeapHard_proofs.v
theories/Props_HeapHard.v
theories/Memo.v
theories/Spec_Memo.v
theories/Memo_proofs.v
theories/Props_Memo.v
theories/HeapMarkets.v
theories/HeapMarkets_proofs.v
theories/Props_HeapMarkets.v
theories/HeapGroups.v
theories/Spec_HeapGroups.v
theories/HeapGroups_proofs.v
theories/Props_HeapGroups.v
theories/HeapGroupLinks.v
theories/HeapGroupLinks_proofs.v
theories/Props_HeapGroupLinks.v
theories/HeapLinking.v
theories/HeapLinking_proofs.v
theories/Props_HeapLinking.v
theories/HeapRow.v
theories/HeapRow_proofs.v
theories/Props_HeapRow.v
theories/HeapTechnology.v
theories/HeapTechnology_proofs.v
theories/Props_HeapTechnology.v
theories/HeapCutoff.v
theories/HeapCutoff_proofs.v
theories/Props_HeapCutoff.v
