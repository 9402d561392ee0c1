-Q theories Verif
theories/Prelude.v
theories/ConnModel.v
theories/ConnSpec.v
theories/ConnProofs.v
theories/ConnProps.v
theories/TrackerModel.v
theories/TrackerSpec.v
theories/TrackerProofs.v
theories/TrackerProps.v
theories/DispatchModel.v
theories/DispatchSpec.v
theories/DispatchProofs.v
theories/DispatchProps.v
theories/RangeModel.v
theories/RangeSpec.v
theories/RangeProofs.v
theories/RangeProps.v
theories/OpsModel.v
theories/OpsSpec.v
theories/OpsProofs.v
theories/OpsProofs2.v
theories/OpsProps.v
theories/RoomNameModel.v
theories/RoomNameSpec.v
theories/RoomNameProofs.v
theories/RoomNameProps.v
theories/ListsModel.v
theories/ListsSpec.v
theories/SortProofs.v
theories/ListsProofs.v
theories/ListsProofs2.v
theories/ListsProps.v
theories/LiveListModel.v
theories/LiveListSpec.v
theories/LiveListProofs.v
theories/LiveListProofs2.v
theories/LiveListProps.v
theories/RequestModel.v
theories/RequestSpec.v
theories/RequestProofs.v
theories/RequestProps.v
theories/SubModel.v
theories/SubSpec.v
theories/SubProofs.v
theories/SubProofs2.v
theories/SubProps.v
theories/AccumModel.v
theories/AccumSpec.v
theories/AccumProofs.v
theories/AccumProofs2.v
theories/AccumProofs3.v
theories/AccumProofs4.v
theories/AccumProofs5.v
theories/AccumProofs6.v
theories/AccumProps.v
theories/StoreModel.v
theories/StoreSpec.v
theories/StoreProofs.v
theories/StoreProps.v
theories/SnapProofs.v
theories/CleanProps.v
theories/RelSpec.v
theories/RelProofs.v
theories/RelProps.v
theories/SqlModel.v
theories/SqlSpec.v
theories/SqlProps.v
theories/DeviceModel.v
theories/DeviceSpec.v
theories/DeviceProofs.v
theories/DeviceProps.v
theories/ToDevModel.v
theories/ToDevSpec.v
theories/ToDevProofs.v
theories/ToDevProps.v
theories/TxnModel.v
theories/TxnSpec.v
theories/TxnProofs.v
theories/TxnProps.v
theories/TickModel.v
theories/TickSpec.v
theories/TickProps.v
theories/PollModel.v
theories/PollSpec.v
theories/PollProofs.v
theories/PollProps.v
theories/RecvModel.v
theories/RecvSpec.v
theories/RecvProps.v
theories/ReceiptModel.v
theories/ReceiptSpec.v
theories/ReceiptProps.v
theories/CmapModel.v
theories/CmapSpec.v
theories/CmapProps.v
theories/PmapModel.v
theories/PmapSpec.v
theories/PmapProps.v
theories/EnsModel.v
theories/EnsSpec.v
theories/EnsProps.v
theories/ExtModel.v
theories/ExtSpec.v
theories/ExtProps.v
theories/OldModel.v
theories/OldSpec.v
theories/OldProps.v
theories/FeedModel.v
theories/FeedSpec.v
theories/FeedProofs.v
theories/FeedProps.v
theories/LazyProps.v
theories/TokModel.v
theories/TokSpec.v
theories/TokProofs.v
theories/TokProps.v
theories/GlobalModel.v
theories/GlobalSpec.v
theories/GlobalProofs.v
theories/GlobalProps.v
theories/StartModel.v
theories/StartSpec.v
theories/StartProofs.v
theories/StartProps.v
theories/UserModel.v
theories/UserSpec.v
theories/UserProofs.v
theories/UserProofs2.v
theories/UserProofs3.v
theories/UserProps.v
theories/SetupModel.v
theories/SetupSpec.v
theories/SetupProofs.v
theories/SetupProps.v
theories/SpaceModel.v
theories/SpaceSpec.v
theories/SpaceProofs.v
theories/SpaceProps.v
theories/LoopModel.v
theories/LoopProofs.v
theories/LoopProps.v
theories/ReqsModel.v
theories/ReqsSpec.v
theories/ReqsProofs.v
theories/ReqsProps.v
theories/TxnidModel.v
theories/TxnidSpec.v
theories/TxnidProofs.v
theories/TxnidProps.v
theories/PloopModel.v
theories/PloopSpec.v
theories/PloopProofs.v
theories/PloopProps.v
theories/InboxProps.v
theories/ViewModel.v
theories/ViewSpec.v
theories/ViewProofs.v
theories/ViewProps.v
theories/PipeModel.v
theories/PipeSpec.v
theories/PipeProofs.v
theories/PipeProofs2.v
theories/PipeProps.v
theories/MigModel.v
theories/MigSpec.v
theories/MigProofs.v
theories/MigProps.v
theories/SeeModel.v
theories/SeeSpec.v
theories/SeeProofs.v
theories/SeeProofs2.v
theories/SeeProps.v
theories/FolModel.v
theories/FolSpec.v
theories/FolProofs.v
theories/FolProps.v
theories/RfoModel.v
theories/RfoSpec.v
theories/RfoProofs.v
theories/RfoProps.v
theories/BegModel.v
theories/BegSpec.v
theories/BegProofs.v
theories/BegProps.v
theories/SibModel.v
theories/SibSpec.v
theories/SibProofs.v
theories/SibProps.v
theories/SlowModel.v
theories/SlowSpec.v
theories/SlowProps.v
theories/HttpModel.v
theories/HttpSpec.v
theories/HttpProps.v
theories/UrlModel.v
theories/UrlSpec.v
theories/UrlProps.v
theories/HeroModel.v
theories/HeroSpec.v
theories/HeroProps.v
theories/InvalModel.v
theories/InvalSpec.v
theories/InvalProps.v
theories/FltSpec.v
theories/FltProps.v
theories/RecModel.v
theories/RecSpec.v
theories/RecProofs.v
theories/RecProofs2.v
theories/RecProps.v
theories/AllModel.v
theories/AllSpec.v
theories/AllProps.v
theories/RespModel.v
theories/RespSpec.v
theories/RespProps.v
theories/PoolModel.v
theories/PoolSpec.v
theories/PoolProps.v
theories/WhoModel.v
theories/WhoSpec.v
theories/WhoProps.v
theories/MoreModel.v
theories/MoreSpec.v
theories/MoreProofs.v
theories/MoreProps.v
theories/WakeModel.v
theories/WakeSpec.v
theories/WakeProps.v
