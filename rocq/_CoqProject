-Q theories Verif
theories/AdcModel.v
theories/AdcProofs.v
theories/AdcProps.v
theories/AdcSpec.v
theories/AlgoModel.v
theories/AlgoProofs.v
theories/AlgoProps.v
theories/AlgoSpec.v
theories/AmnbModel.v
theories/AmnbNodeProofs.v
theories/AmnbProofs.v
theories/AmnbProps.v
theories/AmnbSpec.v
theories/AnimModel.v
theories/AnimProofs.v
theories/AnimProps.v
theories/AnimSpec.v
theories/AnyModel.v
theories/AnyProofs.v
theories/AnyProps.v
theories/AnySpec.v
theories/AsrtModel.v
theories/AsrtProps.v
theories/AsrtSpec.v
theories/AtomModel.v
theories/AtomProofs.v
theories/AtomProps.v
theories/AtomSpec.v
theories/AtomicQueueModel.v
theories/AtomicQueueProofs.v
theories/AtomicQueueProps.v
theories/AtomicQueueSpec.v
theories/Base.v
theories/BdModel.v
theories/BdProofs.v
theories/BdProps.v
theories/BdSpec.v
theories/BitLemmas.v
theories/BitsModel.v
theories/BitsProofs.v
theories/BitsProps.v
theories/BitsSpec.v
theories/BlockAllocModel.v
theories/BlockAllocProofs.v
theories/BlockAllocProps.v
theories/BlockAllocSpec.v
theories/BmpModel.v
theories/BmpProofs.v
theories/BmpProps.v
theories/BmpSpec.v
theories/ButtonModel.v
theories/ButtonProofs.v
theories/ButtonProps.v
theories/ButtonSpec.v
theories/BxModel.v
theories/BxProofs.v
theories/BxProps.v
theories/BxRxProofs.v
theories/BxSpec.v
theories/BxTxProofs.v
theories/CanModel.v
theories/CanProofs.v
theories/CanProps.v
theories/CanSpec.v
theories/ColorModel.v
theories/ColorProofs.v
theories/ColorProps.v
theories/ColorSpec.v
theories/CrcModel.v
theories/CrcProofs.v
theories/CrcProps.v
theories/CrcSpec.v
theories/DequeModel.v
theories/DequeProofs.v
theories/DequeProps.v
theories/DequeSpec.v
theories/DispModel.v
theories/DispProofs.v
theories/DispProps.v
theories/DispSpec.v
theories/DynArrayModel.v
theories/DynArrayProofs.v
theories/DynArrayProps.v
theories/DynArraySpec.v
theories/EncModel.v
theories/EncProofs.v
theories/EncProps.v
theories/EncSpec.v
theories/FdConcProofs.v
theories/FdFilterProofs.v
theories/FdModel.v
theories/FdProofs.v
theories/FdProps.v
theories/FdSpec.v
theories/FiberModel.v
theories/FiberProofs.v
theories/FiberProps.v
theories/FiberSpec.v
theories/FilterModel.v
theories/FilterProofs.v
theories/FilterProps.v
theories/FilterSpec.v
theories/FnModel.v
theories/FnProofs.v
theories/FnProps.v
theories/FnSpec.v
theories/GeoModel.v
theories/GeoPolyProofs.v
theories/GeoProofs.v
theories/GeoProps.v
theories/GeoSpec.v
theories/GrdModel.v
theories/GrdProofs.v
theories/GrdProps.v
theories/GrdSpec.v
theories/HfrontModel.v
theories/HfrontProofs.v
theories/HfrontProps.v
theories/HfrontSpec.v
theories/HtabModel.v
theories/HtabProofs.v
theories/HtabProps.v
theories/HtabSpec.v
theories/I2cModel.v
theories/I2cProofs.v
theories/I2cProps.v
theories/I2cSpec.v
theories/IntTypes.v
theories/IosModel.v
theories/IosProofs.v
theories/IosProps.v
theories/IosSpec.v
theories/KeyModel.v
theories/KeyProofs.v
theories/KeyProps.v
theories/KeySpec.v
theories/ListModel.v
theories/ListProofs.v
theories/ListProps.v
theories/ListSpec.v
theories/McModel.v
theories/McProofs.v
theories/McProps.v
theories/McSpec.v
theories/McpCfgProofs.v
theories/McpModel.v
theories/McpProofs.v
theories/McpProps.v
theories/McpSpec.v
theories/MedianModel.v
theories/MedianProofs.v
theories/MedianProps.v
theories/MedianSpec.v
theories/OwModel.v
theories/OwProofs.v
theories/OwProps.v
theories/OwSpec.v
theories/PrsCrcProofs.v
theories/PrsModel.v
theories/PrsProofs.v
theories/PrsProps.v
theories/PrsSpec.v
theories/PtrHeap.v
theories/RegModel.v
theories/RegProofs.v
theories/RegProps.v
theories/ResumModel.v
theories/ResumProofs.v
theories/ResumProps.v
theories/ResumSpec.v
theories/RprModel.v
theories/RprProofs.v
theories/RprProps.v
theories/RprSpec.v
theories/RtcModel.v
theories/RtcProofs.v
theories/RtcProps.v
theories/RtcSpec.v
theories/RttModel.v
theories/RttProofs.v
theories/RttProps.v
theories/RttSpec.v
theories/Sab2Model.v
theories/Sab2Proofs.v
theories/Sab2Props.v
theories/Sab2Spec.v
theories/SabModel.v
theories/SabProofs.v
theories/SabProps.v
theories/SabSpec.v
theories/SaturatedModel.v
theories/SaturatedProofs.v
theories/SaturatedProps.v
theories/SaturatedSpec.v
theories/SchedModel.v
theories/SchedProofs.v
theories/SchedProps.v
theories/SchedSpec.v
theories/SemModel.v
theories/SemProofs.v
theories/SemProps.v
theories/SemSpec.v
theories/SliceLemmas.v
theories/SmartPtrModel.v
theories/SmartPtrProofs.v
theories/SmartPtrProps.v
theories/SmartPtrSpec.v
theories/SpiModel.v
theories/SpiProofs.v
theories/SpiProps.v
theories/SpiSpec.v
theories/TickModel.v
theories/TickProofs.v
theories/TickProps.v
theories/TickSpec.v
theories/TimeModel.v
theories/TimeProofs.v
theories/TimeProps.v
theories/TimeSpec.v
theories/TimeoutModel.v
theories/TimeoutProofs.v
theories/TimeoutProps.v
theories/TimeoutSpec.v
theories/TlcModel.v
theories/TlcProofs.v
theories/TlcProps.v
theories/TlcSpec.v
theories/TlsfApi.v
theories/TlsfArith.v
theories/TlsfHeap.v
theories/TlsfModel.v
theories/TlsfOps.v
theories/TlsfPool.v
theories/TlsfProofs.v
theories/TlsfProps.v
theories/TlsfSpec.v
theories/UartModel.v
theories/UartProofs.v
theories/UartProps.v
theories/UartSpec.v
theories/WindowLemmas.v
theories/WindowSpec.v
theories/XdModel.v
theories/XdProofs.v
theories/XdProps.v
theories/XdSpec.v
theories/XpccModel.v
theories/XpccProofs.v
theories/XpccProps.v
theories/XpccSpec.v
