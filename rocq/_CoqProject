-Q theories Verif

theories/Base.v
theories/Backend.v
theories/Words.v
theories/Encryption.v
theories/Params.v
theories/Pbs.v
theories/Addition.v
theories/Signum.v
theories/Maximum.v
theories/Multiplication.v
theories/Squaring.v
theories/Rounding.v
theories/Naf.v
theories/Asc.v
theories/AscTable.v
theories/ScalarMul.v
theories/Arith.v
theories/NeuralNetwork.v
theories/Misc.v
theories/Keys.v
theories/Spec.v
theories/Contract.v
theories/BaseProofs.v
theories/WordsProofs.v
theories/PbsProofs.v
theories/ValueProofs.v
theories/AddProofs.v
theories/BitsProofs.v
theories/EncProofs.v
theories/SgnProofs.v
theories/MulProofs.v
theories/RoundProofs.v
theories/ShapeProofs.v
theories/Instances.v
theories/TableProofs.v
theories/Properties1.v
theories/TotalProofs.v
theories/Properties2.v
theories/NafProofs.v
theories/Properties3.v
theories/ScalarProofs.v
theories/AscProofs.v
theories/Expr.v
theories/ArithProofs.v
theories/Properties4.v
theories/RelProofs.v
theories/Symbolic.v
theories/DepthProofs.v
theories/Properties5.v
theories/TraceProofs.v
theories/KeysProofs.v
theories/Properties6.v
theories/Parallel.v
theories/ParallelOps.v
theories/ParallelProofs.v
theories/Properties7.v
theories/Weights.v
theories/WeightProofs.v
theories/WeightMul.v
theories/Properties8.v
theories/DemoNets.v
theories/Demos.v
theories/GrowthProofs.v
theories/Properties9.v
theories/Properties10.v
theories/CountProofs.v
theories/Properties11.v
theories/TestSuite.v
theories/TestProofs.v
theories/Properties12.v
theories/KeysConcurrent.v
theories/Properties13.v
theories/CostProofs.v
theories/Properties14.v
theories/ChainSpec.v
theories/OptProofs.v
theories/Properties15.v
theories/LogConcurrent.v
theories/Properties16.v
theories/WeightHash.v
theories/AccProofs.v
theories/Properties17.v
theories/KtLocal.v
theories/KtWindows.v
theories/Properties18.v
theories/Messages.v
theories/Properties19.v
theories/Properties20.v
theories/KtScript.v
theories/KtScriptProofs.v
theories/ChainScript.v
theories/ChainTextProofs.v
theories/ChainSearchProofs.v
theories/Properties21.v
theories/WeightAll.v
theories/Properties22.v
theories/CostScript.v
theories/Properties23.v
theories/KtChecked.v
theories/Properties24.v
theories/Properties25.v
theories/GenChains.v
theories/GenChainsProofs.v
theories/Properties26.v
theories/Yaml.v
theories/YamlProofs.v
theories/AscText.v
theories/Properties27.v
theories/Properties28.v
theories/Properties29.v
theories/LogText.v
theories/ChainLog.v
theories/Properties30.v
theories/NetsText.v
theories/RustLit.v
theories/Properties31.v
theories/NoisyProofs.v
theories/Properties32.v
theories/Asc13.v
theories/Opt13.v
theories/Kt13.v
theories/Properties33.v
theories/Properties34.v
theories/Readme.v
theories/Properties35.v
theories/Light.v
theories/Properties36.v
theories/Properties37.v
theories/Proposals.v
theories/Properties38.v
theories/Timing.v
theories/Properties39.v
theories/Random.v
theories/Properties40.v
theories/OldLogs.v
theories/Properties41.v
theories/ReachProofs.v
theories/Properties42.v
theories/CondShift.v
theories/Properties43.v
theories/Properties44.v
theories/Properties45.v
