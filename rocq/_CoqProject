-Q theories Verif
theories/Base.v
theories/BaseFacts.v
theories/Path.v
theories/Spec_Path.v
theories/PathFacts.v
theories/Json.v
theories/Spec_Json.v
theories/JsonFacts.v
theories/Props_Path.v
theories/Props_Json.v
theories/Refs.v
theories/Meta.v
theories/Spec_Meta.v
theories/RefsFacts.v
theories/MetaFacts.v
theories/Props_Meta.v
theories/GitText.v
theories/Spec_Git.v
theories/GitTextFacts.v
theories/Props_GitText.v
theories/Sha1.v
theories/Git.v
theories/State.v
theories/BlobCache.v
theories/Lock.v
theories/TreeUpd.v
theories/ObjRef.v
theories/Spec_Store.v
theories/TreeTextFacts.v
theories/GitFacts.v
theories/Rely.v
theories/Spec_Tree.v
theories/Spec_TreeUpd.v
theories/TreeUpdFacts.v
theories/TreeMergeFacts.v
theories/Props_TreeUpd.v
theories/Spec_ObjRef.v
theories/LockFacts.v
theories/ObjRefFacts.v
theories/Spec_Flush.v
theories/FlushFacts.v
theories/CaseFacts.v
theories/Props_Flush.v
theories/ExecFacts.v
theories/Spec_Lock.v
theories/BlockFacts.v
theories/Spec_Cache.v
theories/CacheFacts.v
theories/Props_Cache.v
theories/Objects.v
theories/Common.v
theories/Spec_Objects.v
theories/Spec_Write.v
theories/WriteFacts.v
theories/Props_Write.v
theories/Spec_Look.v
theories/Spec_Heap.v
theories/LoadFacts.v
theories/PeekFacts.v
theories/TreeEditFacts.v
theories/TreeFacts.v
theories/Spec_Dataset.v
theories/DatasetFacts.v
theories/Spec_Versions.v
theories/VersionFacts.v
theories/HeapCase.v
theories/LookFacts.v
theories/Spec_Content.v
theories/ReadFacts.v
theories/ContentFacts.v
theories/StoreFacts.v
theories/SaveFacts.v
theories/WriteBackFacts.v
theories/WriteAllFacts.v
theories/ReadBackFacts.v
theories/PurgeFacts.v
theories/PurgeAllFacts.v
theories/EditFacts.v
theories/RealmFacts.v
theories/GraftFacts.v
theories/AddFacts.v
theories/ListFacts.v
theories/Spec_Session.v
theories/SessionFacts.v
theories/ContentCase.v
theories/Props_Tree.v
theories/Props_Findings.v
theories/Props_Content.v
theories/Props_Purge.v
theories/Props_Session.v
theories/HomeFacts.v
theories/Spec_Copy.v
theories/CopyFacts.v
theories/CopyRunFacts.v
theories/CopyKindFacts.v
theories/CopyAllFacts.v
theories/Props_Copy.v
theories/Spec_Common.v
theories/CommonFacts.v
theories/CommonRunFacts.v
theories/Props_Common.v
theories/Spec_Publish.v
theories/PublishFacts.v
theories/Props_Publish.v
theories/Spec_Outcome.v
theories/RunOutFacts.v
theories/RunAllFacts.v
theories/OutcomeCase.v
theories/Props_Outcome.v
theories/Spec_Gc.v
theories/GcFacts.v
theories/GcRunFacts.v
theories/GcCase.v
theories/Props_Gc.v
theories/Spec_Parts.v
theories/AnyWriteFacts.v
theories/PartFacts.v
theories/PartCase.v
theories/Props_Parts.v
theories/Spec_History.v
theories/UseFacts.v
theories/FrameFacts.v
theories/HistoryFacts.v
theories/HistoryCase.v
theories/Props_History.v
theories/TopFacts.v
theories/Props_Top.v
theories/Spec_Demand.v
theories/DemandFacts.v
theories/DemandCase.v
theories/Props_Demand.v
theories/Spec_Marks.v
theories/MarkFacts.v
theories/AlterFacts.v
theories/Props_Marks.v
theories/Spec_Workflow.v
theories/WorkFacts.v
theories/WorkStepFacts.v
theories/WorkWriteFacts.v
theories/WorkOpenFacts.v
theories/WorkFindFacts.v
theories/Props_Workflow.v
theories/Spec_Unget.v
theories/UngetFacts.v
theories/Props_Unget.v
theories/Spec_Init.v
theories/InitFacts.v
theories/Props_Init.v
theories/Spec_Settle.v
theories/SettleFacts.v
theories/Props_Settle.v
theories/CompoundFacts.v
theories/Props_Compound.v
theories/Spec_Getters.v
theories/GetterFacts.v
theories/ListingFacts.v
theories/Props_Getters.v
