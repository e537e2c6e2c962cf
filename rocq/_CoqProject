-Q theories Verif
theories/Base.v
theories/BaseLemmas.v
theories/Schema.v
theories/TrigSet.v
theories/Gen.v
theories/Exec.v
theories/Orm.v
theories/Flush.v
theories/Spec.v
theories/SpecAgg.v
theories/Engine.v
theories/GenLemmas.v
theories/Merge.v
theories/Marking.v
theories/Conditions.v
theories/Invariant.v
theories/Settle.v
theories/Machine.v
theories/Sessions.v
theories/Frame.v
theories/Falsy.v
theories/Marks.v
theories/Silent.v
theories/Hist.v
theories/Select.v
theories/Update.v
theories/Races.v
theories/Apart.v
theories/Links.v
theories/Erase.v
theories/Agg.v
theories/AggEngine.v
theories/AggOps.v
theories/AggChain.v
theories/AggDefer.v
theories/AggCheck.v
theories/AggSave.v
theories/AggKeep.v
theories/AggDrift.v
theories/AggSelf.v
theories/Nest.v
theories/AggProps.v
theories/Check.v
theories/ExForum.v
theories/ExRich.v
theories/ExBad.v
theories/ExSkip.v
theories/ExAgg.v
theories/ExLimits.v
theories/P_Flush.v
theories/P_Mark.v
theories/P_Silent.v
theories/P_Agg.v
theories/P_Self.v
theories/ExChain.v
theories/P_Chain.v
theories/P_Rebuild.v
theories/P_Limits.v
theories/P_Race.v
theories/P_M2M.v
theories/Names.v
theories/P_Names.v
theories/Render.v
theories/RenderProps.v
theories/P_Render.v
theories/Resolve.v
theories/P_Resolve.v
theories/Md5.v
theories/Install.v
theories/P_Install.v
theories/Keys.v
theories/Cached.v
theories/P_Cached.v
theories/Reach.v
theories/P_Reach.v
theories/Daemon.v
theories/P_Daemon.v
theories/Classes.v
theories/P_Classes.v
theories/KeyDraw.v
theories/KeyObs.v
theories/KeyStmt.v
theories/KeyFrame.v
theories/P_Key.v
theories/SpecOrder.v
theories/Unique.v
theories/Terminate.v
theories/Cursor.v
theories/CheckOrder.v
theories/Order.v
theories/ExTree.v
theories/Seen.v
theories/Repeat.v
theories/P_Repeat.v
theories/P_Order.v
theories/Passes.v
theories/P_Passes.v
theories/SpecSave.v
theories/Quiet.v
theories/Bulk.v
theories/CheckSave.v
theories/ExSave.v
theories/P_Save.v
theories/Text.v
theories/Read.v
theories/ReadProps.v
theories/ReadStmt.v
theories/ReadTrig.v
theories/ReadMeans.v
theories/ReadGen.v
theories/TextFmt.v
theories/P_Text.v
theories/Refs.v
theories/Meta.v
theories/Installs.v
theories/P_Refs.v
theories/P_Meta.v
theories/MultiDb.v
theories/Migrate.v
theories/Commands.v
theories/P_Commands.v
theories/P_Multi.v
theories/P_Migrate.v
theories/SaveModes.v
theories/SaveModesAgg.v
theories/ExModes.v
theories/P_SaveModes.v
theories/SaveRace.v
theories/ExRace.v
theories/P_SaveRace.v
theories/DaemonData.v
theories/ExDaemonData.v
theories/P_DaemonData.v
theories/BulkCreate.v
theories/BulkPg.v
theories/ExBulk.v
theories/P_Bulk.v
theories/Declare.v
theories/P_Declare.v
theories/Request.v
theories/ExRequest.v
theories/P_Request.v
theories/Upgrade.v
theories/ExUpgrade.v
theories/P_Upgrade.v
theories/Inherit.v
theories/ExInherit.v
theories/P_Inherit.v
theories/SaveInst.v
theories/P_SaveInst.v
theories/TestApp.v
theories/ExTestApp.v
theories/P_TestApp.v
theories/Deco.v
theories/P_Deco.v
theories/MarkTable.v
theories/P_MarkTable.v
theories/M2mAgg.v
theories/P_M2mAgg.v
theories/TypedSql.v
theories/P_TypedSql.v
theories/DecSum.v
theories/P_DecSum.v
theories/SpanFilter.v
theories/P_SpanFilter.v
theories/Locks.v
theories/P_Locks.v
theories/MarkIds.v
theories/P_MarkIds.v
theories/DaemonLocks.v
theories/P_DaemonLocks.v
theories/RawSql.v
theories/P_RawSql.v
theories/Writes.v
theories/P_Writes.v
theories/SaveKey.v
theories/KeysApart.v
theories/KeyFlush.v
theories/CachedDb.v
theories/P_SaveKey.v
theories/P_KeysApart.v
theories/P_KeyFlush.v
theories/P_KeyOnce.v
theories/P_CachedDb.v
theories/CachedStmt.v
theories/P_CachedStmt.v
theories/CachedFlush.v
theories/P_CachedFlush.v
theories/Compat.v
theories/P_Compat.v
