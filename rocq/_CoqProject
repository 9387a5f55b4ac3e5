-Q theories Verif
theories/AbGroup.v
theories/AbsentProps.v
theories/AddressModel.v
theories/AddressProofs.v
theories/AddressProps.v
theories/AddressSpec.v
theories/AgainProofs.v
theories/AgainProps.v
theories/AloneProps.v
theories/AmountProofs.v
theories/AmountProps.v
theories/AmountSpec.v
theories/AsmModel.v
theories/AsmProofs.v
theories/AsmProps.v
theories/AsmSpec.v
theories/Base58Model.v
theories/Base58Proofs.v
theories/Base58Props.v
theories/Base58Spec.v
theories/BaseLemmas.v
theories/Bech32Code.v
theories/Bech32Model.v
theories/Bech32Poly.v
theories/Bech32Proofs.v
theories/Bech32Props.v
theories/Bech32Spec.v
theories/BigInt.v
theories/BigIntProofs.v
theories/BigMod.v
theories/BindProofs.v
theories/BindProps.v
theories/Bip32Model.v
theories/Bip32Proofs.v
theories/Bip32Props.v
theories/Bip32Spec.v
theories/Bip39Lists.v
theories/Bip39Model.v
theories/Bip39More.v
theories/Bip39Proofs.v
theories/Bip39Props.v
theories/Bip39Spec.v
theories/Bip39Words.v
theories/BlockModel.v
theories/BlockProofs.v
theories/BlockProps.v
theories/BlockSpec.v
theories/BufferModel.v
theories/BufferMore.v
theories/BufferProofs.v
theories/BufferProps.v
theories/BufferSpec.v
theories/BuilderCalls.v
theories/BuilderModel.v
theories/BuilderMore.v
theories/BuilderProofs.v
theories/BuilderProps.v
theories/BuilderSign.v
theories/BuilderSpec.v
theories/ByteProps.v
theories/CipherProps.v
theories/Codec.v
theories/CoordModel.v
theories/CoordProps.v
theories/CountProps.v
theories/DepthProps.v
theories/DerModel.v
theories/DerProofs.v
theories/DerProps.v
theories/DerSpec.v
theories/EcGroup.v
theories/EcdsaModel.v
theories/EcdsaNonce.v
theories/EcdsaProofs.v
theories/EcdsaProps.v
theories/EcdsaSpec.v
theories/EmbedProofs.v
theories/EmbedProps.v
theories/FeeProofs.v
theories/FormProofs.v
theories/FormProps.v
theories/FormSpec.v
theories/FourProps.v
theories/Fp.v
theories/GoBase.v
theories/GrowProps.v
theories/HexModel.v
theories/HexProofs.v
theories/HexProps.v
theories/InPlaceModel.v
theories/InPlaceProofs.v
theories/InPlaceProps.v
theories/JointProofs.v
theories/JointProps.v
theories/KeylessProps.v
theories/LeafProps.v
theories/LifeModel.v
theories/LifeProofs.v
theories/LifeProps.v
theories/LifeSpec.v
theories/LineProps.v
theories/LockModel.v
theories/LockProofs.v
theories/LockSpec.v
theories/MallProofs.v
theories/MallProps.v
theories/MallSpec.v
theories/MemModel.v
theories/MemProofs.v
theories/MemProps.v
theories/MemSpec.v
theories/MerkleModel.v
theories/MerkleProofs.v
theories/MerkleProps.v
theories/MerkleRoot.v
theories/MerkleSpec.v
theories/MixProps.v
theories/MoveProps.v
theories/MoveWitnessProps.v
theories/MpcAdaptorProps.v
theories/MpcEcdsaModel.v
theories/MpcEcdsaProofs.v
theories/MpcEcdsaProps.v
theories/MpcLeakProps.v
theories/MpcRogueProps.v
theories/MpcSchnorrModel.v
theories/MpcSchnorrProofs.v
theories/NetProofs.v
theories/NetProps.v
theories/NetSpec.v
theories/NetWrong.v
theories/NormProps.v
theories/NumTheory.v
theories/OneKeyProofs.v
theories/OneKeyProps.v
theories/OptionProofs.v
theories/OptionProps.v
theories/OptionSpec.v
theories/OrderProofs.v
theories/OrderProps.v
theories/PaillierModel.v
theories/PaillierProofs.v
theories/PaillierProps.v
theories/Pbkdf2Model.v
theories/Pbkdf2Props.v
theories/Pbkdf2Spec.v
theories/PrefixProps.v
theories/ProtoConc.v
theories/ProtoModel.v
theories/ProtoMore.v
theories/ProtoProofs.v
theories/ProtoProps.v
theories/ProtoReadProofs.v
theories/ProtoReadProps.v
theories/ProtoReadSpec.v
theories/ProtoSpec.v
theories/ProtoStream.v
theories/PubKeyModel.v
theories/PubKeyProofs.v
theories/PubKeyProps.v
theories/PubKeySpec.v
theories/RandModel.v
theories/RandProps.v
theories/RateProps.v
theories/ReadAgainProps.v
theories/ReceiveProofs.v
theories/ReceiveProps.v
theories/ReceiveSpec.v
theories/ReuseModel.v
theories/ReuseProofs.v
theories/ReuseProps.v
theories/ReuseSpec.v
theories/RipemdModel.v
theories/RipemdProofs.v
theories/RipemdProps.v
theories/RipemdSpec.v
theories/RpcModel.v
theories/RpcProofs.v
theories/RpcProps.v
theories/RpcSpec.v
theories/SchnorrModel.v
theories/SchnorrProofs.v
theories/SchnorrProps.v
theories/SchnorrSpec.v
theories/ScriptModel.v
theories/ScriptNumModel.v
theories/ScriptNumProofs.v
theories/ScriptNumSpec.v
theories/ScriptProofs.v
theories/ScriptProps.v
theories/ScriptSpec.v
theories/SecpCyclic.v
theories/SecpGroup.v
theories/SecpLink.v
theories/SecpModel.v
theories/SecpOrder.v
theories/SecpOrderN.v
theories/SecpPrimes.v
theories/SecpProofs.v
theories/SecpProps.v
theories/SecpSpec.v
theories/SeedModel.v
theories/SeedProps.v
theories/Sha256.v
theories/Sha256Proofs.v
theories/ShareProps.v
theories/ShowModel.v
theories/ShowProofs.v
theories/ShowProps.v
theories/ShowSpec.v
theories/SizesProps.v
theories/SpendProofs.v
theories/SpendProps.v
theories/SpendSpec.v
theories/TakeProofs.v
theories/TakeProps.v
theories/TakeSpec.v
theories/TightProps.v
theories/TraceModel.v
theories/TraceProofs.v
theories/TraceProps.v
theories/TraceSpec.v
theories/TrezorProps.v
theories/TxModel.v
theories/TxProofs.v
theories/TxProps.v
theories/TxReadProofs.v
theories/TxReadProps.v
theories/TxReadSpec.v
theories/TxSig.v
theories/TxSign.v
theories/TxSign2.v
theories/TxSign3.v
theories/TxSign4.v
theories/TxSignProps.v
theories/TxSignSpec.v
theories/TxSpec.v
theories/TypeProps.v
theories/TypoProofs.v
theories/TypoProps.v
theories/TypoSpec.v
theories/UsedModel.v
theories/UsedProofs.v
theories/UsedProofs2.v
theories/UsedProps.v
theories/UsedSpec.v
theories/VmCalls.v
theories/VmCond.v
theories/VmLock.v
theories/VmModel.v
theories/VmMore.v
theories/VmPanic.v
theories/VmProofs.v
theories/VmProps.v
theories/VmSig.v
theories/VmSpec.v
theories/VmTruth.v
theories/WalletProps.v
theories/WholeModel.v
theories/WholeProofs.v
theories/WholeProps.v
theories/WitnessModel.v
theories/WitnessProofs.v
theories/WitnessProps.v
theories/WtxidProps.v
