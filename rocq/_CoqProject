-Q theories Verif
theories/SegTreeModel.v
theories/SegTreeProof.v
theories/SegTreeProps.v
theories/ChanKeyModel.v
theories/ChanKeyProof.v
theories/ChanKeyProps.v
theories/ChunkModel.v
theories/ChunkProof.v
theories/ChunkProps.v
theories/ChanModel.v
theories/ChanProof.v
theories/ChanProps.v
theories/LinkIdModel.v
theories/LinkIdProof.v
theories/LinkIdProps.v
theories/CollModel.v
theories/CollProof.v
theories/CollInst.v
theories/CollProps.v
theories/MemChanModel.v
theories/MemChanProof.v
theories/MemChanProps.v
theories/ParallelModel.v
theories/ParallelProof.v
theories/ParallelProps.v
theories/PoolModel.v
theories/PoolProof.v
theories/PoolProps.v
theories/CuckooModel.v
theories/CuckooProof.v
theories/CuckooProps.v
theories/TransModel.v
theories/TransProof.v
theories/TransProps.v
theories/OtStoreModel.v
theories/OtStoreProof.v
theories/OtStoreProps.v
theories/GfModel.v
theories/GfProof.v
theories/GfProps.v
theories/OtExtModel.v
theories/OtExtProof.v
theories/OtExtProps.v
theories/SpcotModel.v
theories/SpcotProof.v
theories/SpcotProps.v
theories/FssModel.v
theories/FssProof.v
theories/FssProps.v
theories/HashModel.v
theories/HashProof.v
theories/HashProps.v
theories/KosProps.v
theories/PrgModel.v
theories/PrgProof.v
theories/PrgProps.v
theories/ZpLib.v
theories/VssModel.v
theories/VssProof.v
theories/VssProps.v
theories/SumcheckModel.v
theories/SumcheckProof.v
theories/SumcheckProps.v
theories/LogupProps.v
theories/LinCodeModel.v
theories/LinCodeProof.v
theories/LinCodeProps.v
theories/SilverModel.v
theories/SilverProof.v
theories/SilverProps.v
theories/BufferModel.v
theories/BufferProof.v
theories/BufferProps.v
theories/TSetModel.v
theories/TSetProof.v
theories/TSetProps.v
theories/SseModel.v
theories/SseProof.v
theories/SseProps.v
theories/MpfssModel.v
theories/MpfssProof.v
theories/MpfssProps.v
theories/SilentVoleModel.v
theories/SilentVoleProof.v
theories/SilentVoleProps.v
theories/CircuitModel.v
theories/CircuitProof.v
theories/CircuitProps.v
theories/CircuitCheck.v
theories/CircuitData.v
theories/BuiltinProof.v
theories/CircuitDataMul.v
theories/BuiltinProps.v
theories/DivProof.v
theories/CircuitDataDiv.v
theories/DivProps.v
theories/SdivProof.v
theories/CircuitDataSdiv.v
theories/SdivProps.v
theories/BristolModel.v
theories/BristolProps.v
theories/BristolData.v
theories/BristolDataMul.v
theories/BristolDataDiv.v
theories/BristolDataSdiv.v
theories/BuiltinFiles.v
theories/MpxModel.v
theories/MpxProof.v
theories/MpxProps.v
theories/ExpTableModel.v
theories/ExpTableProps.v
theories/MpDivModel.v
theories/MpDivProps.v
theories/SafePrimeModel.v
theories/SafePrimeProof.v
theories/SafePrimeProps.v
theories/TpreModel.v
theories/TpreProps.v
theories/KkrtModel.v
theories/KkrtProof.v
theories/KkrtProps.v
theories/BpModel.v
theories/BpProof.v
theories/BpRange.v
theories/BpProps.v
theories/R1csModel.v
theories/R1csProof.v
theories/R1csProps.v
theories/SoftModel.v
theories/SoftProof.v
theories/SoftProof2.v
theories/SoftProps.v
theories/SoftProps2.v
theories/FerretModel.v
theories/FerretProof.v
theories/FerretCheck.v
theories/FerretProof2.v
theories/FerretProps.v
theories/OprfModel.v
theories/OprfProps.v
theories/BitsetModel.v
theories/BitsetProof.v
theories/BitsetProof2.v
theories/BitsetProof3.v
theories/BitsetProps.v
theories/RandModel.v
theories/RandProof.v
theories/RandProps.v
theories/CsvModel.v
theories/CsvProof.v
theories/CsvProof2.v
theories/CsvProof3.v
theories/CsvProof4.v
theories/CsvProof5.v
theories/CsvProof6.v
theories/CsvProps.v
theories/KernelModel.v
theories/KernelProof.v
theories/KernelProps.v
theories/SvoleProps.v
theories/EcGroup.v
theories/EcField.v
theories/EcMul.v
theories/EcLadder.v
theories/ToyEcModel.v
theories/ToyEcProof.v
theories/ToyEcProps.v
theories/ToyXModel.v
theories/ToyXProof.v
theories/ToyXProps.v
theories/HashCurveModel.v
theories/HashFieldProof.v
theories/HashFieldProps.v
theories/SswuProof.v
theories/NistAddProof.v
theories/SswuProps.v
theories/ElligatorProof.v
theories/MontHashProof.v
theories/ElligatorProps.v
theories/GmpMontModel.v
theories/GmpMontProof.v
theories/GmpMontProps.v
theories/BigModel.v
theories/BigProof.v
theories/BigProps.v
theories/BigBytesProps.v
theories/BaseOtModel.v
theories/BaseOtProof.v
theories/BaseOtProps.v
theories/KvModel.v
theories/KvProps.v
theories/GmDrbgModel.v
theories/GmDrbgProps.v
theories/SyncDrbgModel.v
theories/SyncDrbgProps.v
theories/MsgModel.v
theories/MsgProof.v
theories/MsgProps.v
theories/GfItemModel.v
theories/GfItemProps.v
theories/SymModel.v
theories/SymProps.v
theories/AeadModel.v
theories/AeadProps.v
theories/SpiModel.v
theories/SpiProps.v
theories/AesModel.v
theories/AesProps.v
theories/MpCotUnModel.v
theories/MpCotUnProps.v
theories/SecParamModel.v
theories/SecParamProps.v
theories/CurveMetaModel.v
theories/CurveMetaProps.v
theories/HashObjModel.v
theories/HashObjProps.v
theories/SodiumModel.v
theories/SodiumProps.v
theories/RistrettoModel.v
theories/RistrettoProps.v
theories/OsslGroupModel.v
theories/OsslGroupProps.v
