-Q theories Verif
theories/Base.v
theories/MoneyModel.v
theories/SplitModel.v
theories/BalanceModel.v
theories/LedgerModel.v
theories/LedgerProgs.v
theories/ConcModel.v
theories/ConcLogic.v
theories/LedgerSpec.v
theories/MoneyProof.v
theories/MoneySpec.v
theories/MoneyThms.v
theories/LedgerInv.v
theories/LedgerPure.v
theories/LedgerSafe.v
theories/BudgetSpec.v
theories/Always.v
theories/BudgetProof.v
theories/Sched.v
theories/SerialSpec.v
theories/LedgerThms.v
theories/LedgerRefute.v
theories/PostSpec.v
theories/PostProof.v
theories/Demo.v
theories/BudgetThms.v
theories/ProvSpec.v
theories/ProvInv.v
theories/ProvProof.v
theories/HoldSpec.v
theories/ProvThms.v
theories/TidyDemo.v
theories/CommitModel.v
theories/CommitThms.v
theories/CommitDemo.v
theories/SplitSpec.v
theories/SplitThms.v
theories/SplitLegs.v
theories/SplitDemo.v
theories/ChainModel.v
theories/ChainSpec.v
theories/ChainProof.v
theories/ChainThms.v
theories/ChainTamper.v
theories/ChainDemo.v
theories/LockModel.v
theories/LockSpec.v
theories/LockProof.v
theories/LockDemo.v
theories/MonitorModel.v
theories/MonitorSpec.v
theories/MonitorProof.v
theories/MonitorDemo.v
theories/SnapModel.v
theories/SnapSpec.v
theories/SnapProof.v
theories/SnapDemo.v
theories/LineageModel.v
theories/LineageSpec.v
theories/AllocProof.v
theories/LineageProof.v
theories/LineageBudget.v
theories/LineageLocks.v
theories/LineageDone.v
theories/LineageDemo.v
theories/OutboxSpec.v
theories/OutboxProof.v
theories/OutboxDemo.v
theories/WorkModel.v
theories/WorkProof.v
theories/WorkSpec.v
theories/WorkDemo.v
theories/QueueModel.v
theories/QueueFloat.v
theories/QueueSpec.v
theories/QueueProof.v
theories/QueueDemo.v
theories/BatchSpec.v
theories/BatchProof.v
theories/BatchOrd.v
theories/BatchDemo.v
theories/PoolModel.v
theories/PoolSpec.v
theories/PoolProof.v
theories/PoolDemo.v
theories/BulkModel.v
theories/BulkSpec.v
theories/BulkProof.v
theories/BulkAmong.v
theories/BulkDemo.v
theories/PreviewModel.v
theories/PreviewSpec.v
theories/PreviewAlone.v
theories/PreviewPost.v
theories/PreviewProof.v
theories/PreviewBulk.v
theories/PreviewQuiet.v
theories/PreviewReach.v
theories/PreviewSplit.v
theories/PreviewThms.v
theories/PreviewDemo.v
theories/HotModel.v
theories/HotSpec.v
theories/HotProof.v
theories/HotDemo.v
theories/ReconModel.v
theories/ReconSpec.v
theories/ReconRules.v
theories/ReconSteps.v
theories/ReconCount.v
theories/ReconSound.v
theories/ReconKeep.v
theories/ReconOne.v
theories/ReconMany.v
theories/ReconDemo.v
theories/PoolCheck.v
theories/AuthModel.v
theories/AuthSpec.v
theories/AuthProof.v
theories/AuthInv.v
theories/AuthThms.v
theories/AuthAdmit.v
theories/AuthDemo.v
theories/BodyModel.v
theories/BodySpec.v
theories/BodyProof.v
theories/BodyThms.v
theories/BodyDemo.v
theories/FilterSql.v
theories/FilterModel.v
theories/FilterSpec.v
theories/FilterLex.v
theories/FilterParse.v
theories/FilterGen.v
theories/FilterBuild.v
theories/FilterQuery.v
theories/FilterMean.v
theories/FilterTake.v
theories/FilterThms.v
theories/FilterFacts.v
theories/FilterUrl.v
theories/FilterDemo.v
theories/ReconTaken.v
theories/TokenModel.v
theories/TokenSpec.v
theories/TokenCode.v
theories/TokenInv.v
theories/TokenSteps.v
theories/TokenProof.v
theories/TokenDemo.v
theories/MetaModel.v
theories/MetaSpec.v
theories/MetaProof.v
theories/MetaDemo.v
theories/HookModel.v
theories/HookSpec.v
theories/HookBase.v
theories/HookInv.v
theories/HookCount.v
theories/HookStage.v
theories/HookGone.v
theories/HookOrder.v
theories/HookDemo.v
theories/PreviewAct.v
theories/PreviewAction.v
theories/PreviewActThms.v
theories/PreviewActDemo.v
theories/BulkRollback.v
theories/BulkRollDemo.v
theories/UploadModel.v
theories/UploadSpec.v
theories/UploadProof.v
theories/UploadDemo.v
theories/FilterWhole.v
theories/UploadTaken.v
theories/HookKept.v
theories/UploadIds.v
theories/SearchModel.v
theories/SearchSpec.v
theories/SearchPage.v
theories/SearchInv.v
theories/SearchDocs.v
theories/SearchLive.v
theories/SearchAmount.v
theories/SearchDemo.v
theories/SearchNote.v
theories/LineageReport.v
theories/LineageReportDemo.v
theories/NoticeModel.v
theories/NoticeSpec.v
theories/NoticeProof.v
theories/NoticeThms.v
theories/NoticeDemo.v
theories/AnswerModel.v
theories/AnswerSpec.v
theories/AnswerProof.v
theories/AnswerDemo.v
theories/RedactModel.v
theories/RedactSpec.v
theories/RedactProof.v
theories/RedactDemo.v
theories/CellModel.v
theories/CellSpec.v
theories/CellProof.v
theories/CellDemo.v
theories/DoorModel.v
theories/DoorSpec.v
theories/DoorProof.v
theories/DoorDemo.v
theories/PreviewRefundSpec.v
theories/PreviewRefund.v
theories/PreviewRefundThms.v
theories/PreviewRefundDemo.v
theories/LoopModel.v
theories/LoopSpec.v
theories/LoopProof.v
theories/LoopDemo.v
theories/FetchModel.v
theories/FetchSpec.v
theories/FetchProof.v
theories/FetchDemo.v
theories/ConfModel.v
theories/ConfSpec.v
theories/ConfProof.v
theories/ConfDemo.v
theories/AcctModel.v
theories/AcctSpec.v
theories/AcctProof.v
theories/AcctDemo.v
theories/RedisModel.v
theories/RedisSpec.v
theories/RedisProof.v
theories/RedisDemo.v
theories/NameSpec.v
theories/NameProof.v
theories/NameDemo.v
theories/DsnModel.v
theories/DsnSpec.v
theories/DsnProof.v
theories/DsnDemo.v
theories/P_Ledger.v
theories/P_Hold.v
theories/P_Origin.v
theories/P_Money.v
theories/P_Split.v
theories/P_Chain.v
theories/P_Lock.v
theories/P_Monitor.v
theories/P_Snap.v
theories/P_Lineage.v
theories/P_Outbox.v
theories/P_Work.v
theories/P_Queue.v
theories/P_Batch.v
theories/P_Pool.v
theories/P_Bulk.v
theories/P_Preview.v
theories/P_Hot.v
theories/P_Recon.v
theories/P_Auth.v
theories/P_Body.v
theories/P_Filter.v
theories/P_Token.v
theories/P_Meta.v
theories/P_Hook.v
theories/P_Upload.v
theories/P_Search.v
theories/P_Report.v
theories/P_Notice.v
theories/P_Answer.v
theories/P_Redact.v
theories/P_Cell.v
theories/P_Door.v
theories/P_Loop.v
theories/P_Fetch.v
theories/P_Conf.v
theories/P_Acct.v
theories/P_Redis.v
theories/P_Name.v
theories/P_Dsn.v
