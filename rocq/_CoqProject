-Q theories Verif
theories/Model/Bytes.v
theories/Model/Wire.v
theories/Proofs/BytesFacts.v
theories/Model/KindEncoder.v
theories/Spec/TextSpec.v
theories/Proofs/KindEncoderFacts.v
theories/Model/Desc.v
theories/Model/Schema.v
theories/Model/KV.v
theories/Model/Objects.v
theories/Model/Indexes.v
theories/Model/Orm.v
theories/Spec/StoreSpec.v
theories/Proofs/KVFacts.v
theories/Proofs/IndexFacts.v
theories/Proofs/RegistryFacts.v
theories/Proofs/OrmFacts.v
theories/Proofs/TextFacts.v
theories/Proofs/OrmListFacts.v
theories/Spec/DescSpec.v
theories/Proofs/DescFacts.v
theories/Spec/RegistrySpec.v
theories/Proofs/RegistryHistory.v
theories/Spec/IterSpec.v
theories/Spec/Demo.v
theories/Proofs/StoreProps.v
theories/Proofs/KeyTextFacts.v
theories/Spec/CriteriaSpec.v
theories/Proofs/CriteriaFacts.v
theories/Props/Store.v
theories/Props/Encoding.v
theories/Props/Registry.v
theories/Model/Users.v
theories/Model/Errors.v
theories/Model/Services.v
theories/Model/Prog.v
theories/Model/Router.v
theories/Model/Runtime.v
theories/Model/Client.v
theories/Model/Module.v
theories/Model/Builder.v
theories/Spec/UserSpec.v
theories/Spec/RuntimeSpec.v
theories/Proofs/UserFacts.v
theories/Proofs/RouterFacts.v
theories/Proofs/RuntimeFacts.v
theories/Proofs/BuilderFacts.v
theories/Proofs/DeliverFacts.v
theories/Proofs/GenesisFacts.v
theories/Spec/DemoApp.v
theories/Spec/SurfaceSpec.v
theories/Proofs/SurfaceFacts.v
theories/Proofs/StopFacts.v
theories/Props/Runtime.v
theories/Model/Universe.v
theories/Model/Strings.v
theories/Model/Coin.v
theories/Model/Rbac.v
theories/Model/CoreModules.v
theories/Model/Bank.v
theories/Model/Authn.v
theories/Model/Distribution.v
theories/Model/TestApp.v
theories/Model/Abci.v
theories/Proofs/SimFacts.v
theories/Proofs/AppFacts.v
theories/Proofs/AppSim.v
theories/Spec/CoinSpec.v
theories/Proofs/CoinFacts.v
theories/Props/Coins.v
theories/Spec/RbacSpec.v
theories/Proofs/RbacFacts.v
theories/Proofs/MapExec.v
theories/Proofs/ChainInv.v
theories/Proofs/ChainWp.v
theories/Proofs/ChainRun.v
theories/Proofs/ChainHist.v
theories/Spec/ChainSpec.v
theories/Model/Query.v
theories/Model/ApiServer.v
theories/Model/ApiService.v
theories/Model/Secp256k1.v
theories/Spec/Secp256k1Spec.v
theories/Proofs/Secp256k1Facts.v
theories/Model/Curve.v
theories/Spec/CurveSpec.v
theories/Spec/DemoCurve.v
theories/Proofs/CurveFacts.v
theories/Proofs/PointFacts.v
theories/Props/Curve.v
theories/Spec/QuerySpec.v
theories/Spec/ApiSpec.v
theories/Proofs/QueryFacts.v
theories/Proofs/ApiFacts.v
theories/Spec/DemoApi.v
theories/Spec/ServiceSpec.v
theories/Proofs/DemoApiFacts.v
theories/Proofs/ReadOnlyFacts.v
theories/Proofs/ChainView.v
theories/Proofs/ChainFacts.v
theories/Proofs/AdmissionFacts.v
theories/Proofs/SupplyFacts.v
theories/Proofs/ChainProps.v
theories/Proofs/ServiceFacts.v
theories/Proofs/BlockFacts.v
theories/Proofs/RoleFacts.v
theories/Proofs/BindFacts.v
theories/Proofs/ConsentFacts.v
theories/Proofs/WrittenFacts.v
theories/Model/Proto.v
theories/Model/Marshal.v
theories/Model/Bech32.v
theories/Model/TxDecoder.v
theories/Proofs/ProtoFacts.v
theories/Proofs/DecoderFacts.v
theories/Spec/WireSpec.v
theories/Spec/MessageSpec.v
theories/Spec/TxSpec.v
theories/Spec/AddressSpec.v
theories/Proofs/WireFacts.v
theories/Proofs/Utf8Facts.v
theories/Proofs/AddressFacts.v
theories/Proofs/MessageFacts.v
theories/Proofs/TxTextFacts.v
theories/Spec/DemoChain.v
theories/Spec/DemoRoles.v
theories/Spec/DemoService.v
theories/Proofs/DemoRuns.v
theories/Proofs/DemoFacts.v
theories/Proofs/DemoServiceFacts.v
theories/Props/Tx.v
theories/Props/Rbac.v
theories/Props/Blocks.v
theories/Props/Chain.v
theories/Props/Api.v
theories/Spec/DemoKeys.v
theories/Proofs/KeyFacts.v
theories/Props/Http.v
theories/Props/Service.v
theories/Model/OpenApi.v
theories/Model/ProtoFiles.v
theories/Spec/OpenApiSpec.v
theories/Spec/DemoOpenApi.v
theories/Proofs/OpenApiFacts.v
theories/Proofs/OpenApiDocFacts.v
theories/Proofs/OpenApiAppFacts.v
theories/Props/OpenApi.v
theories/Props/Keys.v
theories/Spec/OrderSpec.v
theories/Proofs/OrderFacts.v
theories/Proofs/OrderChain.v
theories/Proofs/OrderNode.v
theories/Proofs/OrderProps.v
theories/Spec/DemoOrder.v
theories/Proofs/OrderCases.v
theories/Props/Order.v
theories/Spec/LiveSpec.v
theories/Proofs/TotalExec.v
theories/Proofs/TotalRun.v
theories/Proofs/TotalChain.v
theories/Proofs/TotalNode.v
theories/Proofs/LiveFacts.v
theories/Proofs/LiveProto.v
theories/Proofs/LiveProps.v
theories/Proofs/ExactSim.v
theories/Proofs/LiveInit.v
theories/Spec/PlainSpec.v
theories/Spec/DemoPlain.v
theories/Proofs/PlainFacts.v
theories/Proofs/PlainCases.v
theories/Props/Live.v
theories/Props/Plain.v
theories/Model/Sign.v
theories/Spec/SignSpec.v
theories/Spec/LedgerSpec.v
theories/Spec/DemoSign.v
theories/Proofs/LedgerFacts.v
theories/Proofs/LedgerCases.v
theories/Proofs/SignFacts.v
theories/Proofs/SignChain.v
theories/Proofs/SignCases.v
theories/Props/Ledger.v
theories/Spec/DigitsSpec.v
theories/Proofs/DigitsFacts.v
theories/Props/Sign.v
theories/Spec/MachineSpec.v
theories/Proofs/MachineFacts.v
theories/Proofs/MachineStops.v
theories/Proofs/MachineCases.v
theories/Props/Machine.v
theories/Model/Cli.v
theories/Proofs/CliFacts.v
theories/Props/Cli.v
theories/Model/Config.v
theories/Spec/ConfigSpec.v
theories/Spec/DemoConfig.v
theories/Proofs/PathFacts.v
theories/Proofs/ConfigFacts.v
theories/Proofs/ConfigCases.v
theories/Props/Config.v
theories/Model/Codegen.v
theories/Model/ProtoOptions.v
theories/Spec/CodegenSpec.v
theories/Spec/DemoCodegen.v
theories/Proofs/CodegenFacts.v
theories/Proofs/CodegenApp.v
theories/Proofs/CodegenCases.v
theories/Props/Codegen.v
theories/Model/Restart.v
theories/Model/Ecdsa.v
theories/Spec/RestartSpec.v
theories/Spec/EcdsaSpec.v
theories/Spec/DemoEcdsa.v
theories/Proofs/RestartFacts.v
theories/Proofs/RestartCases.v
theories/Proofs/DerFacts.v
theories/Proofs/EcdsaFacts.v
theories/Proofs/EcdsaProps.v
theories/Props/Restart.v
theories/Props/Ecdsa.v
theories/Model/Posts.v
theories/Spec/PostsSpec.v
theories/Spec/DemoPosts.v
theories/Proofs/PostsFacts.v
theories/Props/Posts.v
theories/Spec/FiledSpec.v
theories/Spec/HaltSpec.v
theories/Proofs/FiledFacts.v
theories/Proofs/FiledCases.v
theories/Proofs/HaltFacts.v
theories/Proofs/HaltRuns.v
theories/Proofs/HaltPays.v
theories/Proofs/HaltCases.v
theories/Props/Filed.v
theories/Props/Halt.v
theories/Proofs/UpdatesFacts.v
theories/Props/Updates.v
