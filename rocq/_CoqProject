-Q theories Verif

theories/Bytes.v
theories/BytesProofs.v
theories/PolicyModel.v
theories/LinuxPolicyModel.v
theories/PolicySpec.v
theories/LinuxPolicySpec.v
theories/PolicyProofs.v
theories/LinuxPolicyProofs.v
theories/LinuxPolicyProps.v
theories/PostcardModel.v
theories/PostcardSpec.v
theories/PostcardProofs.v
theories/PostcardProps.v
theories/FdModel.v
theories/FdProofs.v
theories/ChannelModel.v
theories/ChannelProofs.v
theories/ChannelProps.v
theories/BrokerModel.v
theories/BrokerSpec.v
theories/BrokerProofs.v
theories/BrokerProps.v
theories/WorkerModel.v
theories/WorkerSpec.v
theories/WorkerProofs.v
theories/WorkerProps.v
theories/TrampolineModel.v
theories/TrampolineProofs.v
theories/TrampolineProps.v
theories/BpfModel.v
theories/BpfProofs.v
theories/BpfProps.v
theories/SeccompModel.v
theories/SeccompProps.v
theories/EntryModel.v
theories/EntryProofs.v
theories/EntryProps.v
theories/ThreadsModel.v
theories/ThreadsProofs.v
theories/ThreadsProps.v
theories/StackBufferModel.v
theories/StackBufferProps.v
theories/ProcessModel.v
theories/ProcessProofs.v
theories/ProcessProps.v
theories/WinPolicyModel.v
theories/WinPolicySpec.v
theories/WinPolicyProofs.v
theories/WinPolicyProps.v
theories/ReasonProps.v
theories/WinBrokerModel.v
theories/WinBrokerSpec.v
theories/WinBrokerProofs.v
theories/WinBrokerProps.v
theories/WinProcessModel.v
theories/WinProcessSpec.v
theories/WinProcessProofs.v
theories/WinProcessProps.v
theories/WinHookModel.v
theories/WinHookSpec.v
theories/WinHookProofs.v
theories/WinHookProps.v
theories/WorkerNewProps.v
theories/CApiModel.v
theories/CApiSpec.v
theories/CApiProofs.v
theories/CApiProps.v
theories/WinDllModel.v
theories/WinDllSpec.v
theories/WinDllProofs.v
theories/WinDllProps.v
theories/WinWorldModel.v
theories/WinWorldProps.v
theories/WinStartModel.v
theories/WinStartProps.v
theories/PolicySizeProps.v
theories/IsolationModel.v
theories/IsolationProps.v
theories/WinPatchModel.v
theories/WinPatchProps.v
theories/SignalModel.v
theories/SignalProps.v
theories/FsModel.v
theories/FsProps.v
theories/LogModel.v
theories/LogProps.v
theories/LargeFileModel.v
theories/LargeFileProps.v
theories/StartRaceModel.v
theories/StartRaceProps.v
theories/ShareModel.v
theories/ShareProps.v
theories/InheritProps.v
theories/WinMemProps.v
theories/WinPathModel.v
theories/WinPathProps.v
theories/LifeModel.v
theories/LifeProps.v
theories/WinLifeModel.v
theories/WinLifeProps.v
theories/ReapModel.v
theories/ReapProps.v
theories/MaskModel.v
theories/MaskProps.v
theories/PolicyShowModel.v
theories/PolicyShowProps.v
theories/WinSidModel.v
theories/WinSidProps.v
theories/ExitModel.v
theories/ExitProps.v
theories/WinContainerModel.v
theories/WinContainerProps.v
theories/ErrnoModel.v
theories/ErrnoProps.v
theories/LockModel.v
theories/CloneLockModel.v
theories/CloneLockProps.v
theories/HandlerLockModel.v
theories/HandlerLockProps.v
theories/InterruptModel.v
theories/InterruptProps.v
theories/SigMaskModel.v
theories/SigMaskProps.v
theories/AuditCloneModel.v
theories/AuditCloneProps.v
theories/StatModel.v
theories/StatProps.v
theories/CompatModel.v
theories/CompatProps.v
theories/WinAttrModel.v
theories/WinAttrProps.v
theories/ThreadFilterModel.v
theories/ThreadFilterProps.v
theories/WinRaceModel.v
theories/WinRaceProps.v
theories/CallConvModel.v
theories/CallConvProps.v
theories/CallbackMemModel.v
theories/CallbackMemProps.v
theories/WinTreeModel.v
theories/WinTreeProps.v
theories/FifoModel.v
theories/FifoProps.v
theories/LowerModel.v
theories/LowerProps.v
theories/RecordLockModel.v
theories/RecordLockProps.v
theories/CttyModel.v
theories/CttyProps.v
theories/LockRightModel.v
theories/LockRightProps.v
theories/OwnFdModel.v
theories/OwnFdProps.v
theories/ConformProps.v
theories/ForkModel.v
theories/ForkProps.v
theories/InflightModel.v
theories/InflightProps.v
theories/OfdModel.v
theories/OfdProps.v
theories/PeModel.v
theories/PeProps.v
theories/PassModel.v
theories/PassProps.v
theories/TellProps.v
theories/WinTellProps.v
theories/InventoryProps.v
theories/WinInventoryProps.v
theories/PidModel.v
theories/PidProps.v
theories/WinInheritModel.v
theories/WinInheritProps.v
theories/LeaseModel.v
theories/LeaseProps.v
theories/ProcMemModel.v
theories/ProcMemProps.v
theories/WinShareModel.v
theories/WinShareProps.v
theories/UnixSendModel.v
theories/UnixSendProps.v
theories/WinRenameModel.v
theories/WinRenameProps.v
theories/NameModel.v
theories/NameProps.v
theories/BrokerLargeModel.v
theories/BrokerLargeProps.v
theories/WorkerLargeModel.v
theories/WorkerLargeProps.v
theories/FileFunModel.v
theories/FileFunProps.v
