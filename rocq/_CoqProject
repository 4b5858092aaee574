-Q theories Verif
theories/Base.v
theories/FlowDef.v
theories/State.v
theories/Behavior.v
theories/Engine.v
theories/RunLoop.v
theories/Manager.v
theories/Tracker.v
theories/Ser.v
theories/Samples.v
theories/Spec.v
theories/Findings.v
theories/Props_Refuted.v
theories/Findings2.v
theories/Props_Refuted2.v
theories/Steps.v
theories/StepsProof.v
theories/StepsEngine.v
theories/Builder.v
theories/Reach.v
theories/Inv.v
theories/Events.v
theories/Order.v
theories/Life.v
theories/Examples.v
theories/Props_Definition.v
theories/Props_Order.v
theories/SpecVal.v
theories/Quiet.v
theories/Frame.v
theories/Exact.v
theories/Failed.v
theories/Local.v
theories/Around.v
theories/Run.v
theories/Props_Run.v
theories/Ends.v
theories/Done.v
theories/Acts.v
theories/Rounds.v
theories/Errors.v
theories/Enter.v
theories/Fan.v
theories/Examples2.v
theories/Props_Tasks.v
theories/Props_Errors.v
theories/Props_Leave.v
theories/SpecFlow.v
theories/Close.v
theories/Whole.v
theories/Course.v
theories/Finish.v
theories/Plain.v
theories/Onward.v
theories/Entire.v
theories/Examples3.v
theories/Props_Flow.v
theories/Values.v
theories/Isolation.v
theories/Collect.v
theories/Examples4.v
theories/Props_Values.v
theories/SpecSub.v
theories/Fails.v
theories/Subflows.v
theories/Examples5.v
theories/Props_Subflow.v
theories/Handled.v
theories/SpecLoop.v
theories/Mock.v
theories/Resolve.v
theories/SpecRef.v
theories/Refs.v
theories/Examples8.v
theories/Props_Refs.v
theories/SpecObs.v
theories/Observers.v
theories/Examples7.v
theories/Props_Observe.v
theories/Conc.v
theories/SpecConc.v
theories/ConcProofs.v
theories/Examples6.v
theories/Locks.v
theories/Props_Conc.v
theories/SpecTold.v
theories/Told.v
theories/Examples9.v
theories/Props_Told.v
theories/Bound.v
theories/Endless.v
theories/Props_Ends.v
theories/SpecCalm.v
theories/Calm.v
theories/Panics.v
theories/Examples10.v
theories/Props_Calm.v
theories/Ending.v
theories/Silent.v
theories/Props_Ending.v
theories/SpecRec.v
theories/Replay.v
theories/Snapshots.v
theories/SerProofs.v
theories/RestartProofs.v
theories/Recorded.v
theories/RecordLemmas.v
theories/Findings3.v
theories/Props_Record.v
theories/ManagerProofs.v
theories/Props_Manager.v
theories/Resume.v
theories/SpecResume.v
theories/Blind.v
theories/Examples11.v
theories/Props_Resume.v
theories/SubErrors.v
theories/Examples12.v
theories/Props_SubErrors.v
theories/LoopWait.v
theories/Props_LoopWait.v
theories/Entering.v
theories/Props_Entering.v
theories/OnDemand.v
theories/OnDemandProofs.v
theories/Examples13.v
theories/Props_OnDemand.v
theories/ConcRun.v
theories/ConcRunProofs.v
theories/Examples14.v
theories/Props_ConcRun.v
theories/Uncond.v
theories/Props_Uncond.v
theories/Examples15.v
theories/Props_Twice.v
theories/Waits.v
theories/Asleep.v
theories/NoHandler.v
theories/Branches.v
theories/Outs.v
theories/Examples16.v
theories/Props_Waits.v
theories/Examples17.v
theories/Props_Branch.v
theories/Examples18.v
theories/Props_Outs.v
theories/Examples19.v
theories/Props_Retries.v
theories/Examples20.v
theories/Props_Stale.v
theories/Examples21.v
theories/Props_SameId.v
theories/Only.v
theories/Examples22.v
theories/Props_GoesOn.v
