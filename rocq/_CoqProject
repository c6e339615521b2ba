-Q theories Verif
theories/Model/Base.v
theories/Model/Disk.v
theories/Model/Chunked.v
theories/Spec/FlatFile.v
theories/Spec/Image.v
theories/Model/ChunkedRun.v
theories/Proofs/BaseLemmas.v
theories/Proofs/ChunkedLog.v
theories/Proofs/ChunkedProofs.v
theories/Proofs/ChunkedThms.v
theories/Spec/Tamper.v
theories/Proofs/TamperProofs.v
theories/Proofs/ExEnv.v
theories/Proofs/ForceProofs.v
theories/Props/PChunked.v
theories/Model/Prog.v
theories/Model/RbdDiff.v
theories/Spec/RbdDiff.v
theories/Proofs/ProgProofs.v
theories/Proofs/RbdDiffProofs.v
theories/Proofs/RbdDiffCut.v
theories/Proofs/RbdDiffAccept.v
theories/Proofs/Session.v
theories/Props/PRbdDiff.v
theories/Model/Revs.v
theories/Model/RbdBackup.v
theories/Spec/Backup.v
theories/Proofs/RevsProofs.v
theories/Proofs/BackupSafe.v
theories/Proofs/BackupSelf.v
theories/Proofs/ParentProofs.v
theories/Proofs/BackupNc.v
theories/Proofs/BackupMain.v
theories/Proofs/BackupThms.v
theories/Proofs/VerifyProofs.v
theories/Model/Restore.v
theories/Model/RevSpec.v
theories/Model/Repo.v
theories/Proofs/BackupErr.v
theories/Proofs/RestoreProofs.v
theories/Proofs/SnapProofs.v
theories/Props/PBackup.v
theories/Spec/RevSpec.v
theories/Spec/Repo.v
theories/Proofs/RevSpecProofs.v
theories/Proofs/RevSpecMain.v
theories/Proofs/RevSpecTok.v
theories/Props/PRevSpec.v
theories/Proofs/RepoProofs.v
theories/Proofs/ScanProofs.v
theories/Props/PRepo.v
theories/Proofs/ExpireProofs.v
theories/Proofs/ExpireRerun.v
theories/Props/PExpire.v
theories/Model/Schedule.v
theories/Spec/Schedule.v
theories/Proofs/ScheduleProofs.v
theories/Proofs/SchedProofs2.v
theories/Props/PSchedule.v
theories/Model/Locks.v
theories/Spec/Locks.v
theories/Proofs/LocksProofs.v
theories/Proofs/LocksKeep.v
theories/Props/PLocks.v
theories/Model/Copy.v
theories/Model/Timeout.v
theories/Model/Fstree.v
theories/Model/SafeFile.v
theories/Spec/Fstree.v
theories/Proofs/CopyProofs.v
theories/Proofs/TimeoutProofs.v
theories/Proofs/FstreeProofs.v
theories/Proofs/SafeFileProofs.v
theories/Props/PUtils.v
theories/Model/FileSource.v
theories/Props/PFile.v
theories/Model/Cli.v
theories/Props/PCli.v
theories/Model/Snapshots.v
theories/Props/PSnap.v
theories/Model/StoreV2.v
theories/Props/PStore.v
theories/Model/Daemon.v
theories/Props/PDaemon.v
theories/Props/PSlots.v
theories/Props/PReload.v
theories/Model/Api.v
theories/Props/PApi.v
theories/Model/Sync.v
theories/Proofs/SyncProofs.v
theories/Props/PSync.v
theories/Model/Life.v
theories/Spec/Life.v
theories/Proofs/LifeMeta.v
theories/Proofs/LifePut.v
theories/Proofs/LifeProofs.v
theories/Proofs/LifeSteps.v
theories/Proofs/LifeInv.v
theories/Proofs/LifeSnaps.v
theories/Proofs/LifeThms.v
theories/Props/PLife.v
theories/Model/Exit.v
theories/Props/PExit.v
theories/Model/Requests.v
theories/Props/PRequest.v
theories/Model/Overlap.v
theories/Props/POverlap.v
theories/Model/RbdMap.v
theories/Props/PRbdMap.v
theories/Model/Status.v
theories/Props/PStatus.v
theories/Model/Callback.v
theories/Props/PCallback.v
theories/Props/PVocab.v
theories/Model/Command.v
theories/Props/PCommand.v
theories/Model/BaseDir.v
theories/Props/PBaseDir.v
theories/Model/RestoreCmd.v
theories/Props/PRestoreCmd.v
theories/Model/ChunkFiles.v
theories/Props/PChunkFiles.v
theories/Model/Listing.v
theories/Props/PListing.v
theories/Model/JobLoop.v
theories/Model/Clock.v
theories/Model/Rescheduled.v
theories/Props/PJobLoop.v
theories/Model/Stored.v
theories/Props/PStored.v
theories/Props/PMemory.v
theories/Model/BackupCmd.v
theories/Props/PBackupCmd.v
theories/Model/WorkDir.v
theories/Props/PWorkDir.v
theories/Model/Pools.v
theories/Props/PPools.v
theories/Props/PFullAfter.v
theories/Model/ApiServer.v
theories/Props/PApiServer.v
theories/Props/PAligned.v
theories/Model/PurgeOld.v
theories/Model/Inactive.v
theories/Props/PPurgeOld.v
theories/Model/RbdCmds.v
theories/Props/PRbdCmds.v
theories/Model/Rounds.v
theories/Props/PRounds.v
theories/Model/Cluster.v
theories/Spec/Cluster.v
theories/Proofs/ClusterMeta.v
theories/Proofs/ClusterInv.v
theories/Proofs/ClusterStep.v
theories/Props/PCluster.v
theories/Model/JobDirs.v
theories/Props/PJobDirs.v
theories/Model/RevFiles.v
theories/Props/PRevFiles.v
theories/Model/Wire.v
theories/Props/PWire.v
theories/Props/PFresh.v
theories/Model/LogCmd.v
theories/Props/PLogCmd.v
theories/Model/RawStats.v
theories/Props/PRawStats.v
theories/Model/CallbackRun.v
theories/Props/PCallbackRun.v
theories/Model/Stopping.v
theories/Proofs/StoppingProofs.v
theories/Proofs/StoppingInv.v
theories/Props/PStopping.v
theories/Model/LogTrouble.v
theories/Model/Progress.v
theories/Props/PLogTrouble.v
theories/Props/PRestart.v
theories/Props/PRename.v
theories/Props/PInactive.v
theories/Props/PPeerError.v
theories/Props/PRescheduled.v
theories/Props/PClock.v
theories/Props/PNoticed.v
theories/Props/PProgress.v
theories/Props/PSnapNames.v
theories/Props/PDamaged.v
theories/Props/PJobRepo.v
