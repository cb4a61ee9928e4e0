-Q theories Verif
theories/Base.v
theories/Mem.v
theories/M_XXH32.v
theories/M_XXH64.v
theories/Spec32.v
theories/Spec64.v
theories/M_XXH3.v
theories/M_Kernels.v
theories/M_Long.v
theories/Spec3.v
theories/Vectors.v
theories/Vectors3.v
theories/P_Base.v
theories/P_Spec.v
theories/P_XXH32.v
theories/P_XXH64.v
theories/P_Stream.v
theories/P_X3_Base.v
theories/P_X3_Short.v
theories/P_Kernels.v
theories/P_Kernels2.v
theories/P_X3_Long.v
theories/Properties1.v
theories/Properties2.v
theories/M_Stream3.v
theories/History.v
theories/P_Stream3.v
theories/P_Stream4.v
theories/P_History.v
theories/Properties3.v
theories/M_Util.v
theories/SpecUtil.v
theories/P_Util.v
theories/VectorsU.v
theories/Properties4.v
theories/P_Inj.v
theories/P_Inj32.v
theories/P_Inj64.v
theories/P_Inj3.v
theories/Properties5.v
theories/M_Dispatch.v
theories/SpecCpu.v
theories/P_Dispatch.v
theories/Properties6.v
theories/M_Alloc.v
theories/P_Alloc.v
theories/M_Strict.v
theories/P_Strict.v
theories/Properties7.v
theories/M_Cli.v
theories/SpecCli.v
theories/P_Cli.v
theories/M_Cli2.v
theories/SpecCli2.v
theories/P_Cli2.v
theories/P_Cli3.v
theories/P_Cli4.v
theories/Properties8.v
theories/M_Cli3.v
theories/SpecCli3.v
theories/P_Cli5.v
theories/P_Cli6.v
theories/P_Cli7.v
theories/Properties9.v
theories/M_Sanity.v
theories/P_Rand.v
theories/P_Sanity.v
theories/Properties10.v
theories/SpecBench.v
theories/M_Bench.v
theories/P_Bench.v
theories/Properties11.v
theories/M_Cry.v
theories/P_Cry.v
theories/Properties12.v
theories/M_DispatchMT.v
theories/P_DispatchMT.v
theories/Properties13.v
theories/SpecColl.v
theories/M_Coll.v
theories/M_Coll2.v
theories/P_Coll1.v
theories/P_Coll2.v
theories/P_Coll3.v
theories/P_Coll4.v
theories/P_Coll5.v
theories/P_Coll6.v
theories/Properties14.v
theories/M_Pool.v
theories/P_Pool1.v
theories/P_Pool2.v
theories/P_Pool3.v
theories/P_Pool4.v
theories/P_Pool5.v
theories/P_Pool6.v
theories/P_Pool7.v
theories/Properties15.v
theories/P_Inj128.v
theories/P_Seeds.v
theories/P_SeedPairs.v
theories/Properties16.v
theories/P_Perm.v
theories/P_Two.v
theories/P_Mid.v
theories/P_Lane64.v
theories/Properties17.v
theories/M_BenchFn.v
theories/P_BenchFn.v
theories/P_BenchFn2.v
theories/M_BenchHash.v
theories/P_BenchHash.v
theories/P_BenchHash2.v
theories/Properties18.v
theories/Properties19.v
theories/Properties20.v
theories/M_Coll3.v
theories/Properties21.v
theories/M_SanityTest.v
theories/SpecVec.v
theories/P_SanityTest.v
theories/P_SanityTest2.v
theories/Properties22.v
theories/SpecUni.v
theories/M_Win.v
theories/P_Win.v
theories/P_Uni.v
theories/Properties23.v
theories/P_HugeSecret.v
theories/Properties24.v
theories/M_Threading.v
theories/SpecThr.v
theories/P_Threading.v
theories/Properties25.v
theories/M_Config.v
theories/SpecConfig.v
theories/P_Config.v
theories/Properties26.v
theories/M_Arch.v
theories/SpecArch.v
theories/P_Arch.v
theories/Properties27.v
theories/M_Progs.v
theories/Properties28.v
theories/M_Time.v
theories/Properties29.v
theories/M_Include.v
theories/SpecInclude.v
theories/P_Include.v
theories/Properties30.v
theories/P_Lists.v
theories/Properties31.v
theories/M_CliErr.v
theories/SpecErr.v
theories/P_CliErr.v
theories/Properties32.v
theories/M_CliRes.v
theories/SpecRes.v
theories/P_CliRes.v
theories/Properties33.v
theories/M_BenchRes.v
theories/P_BenchRes.v
theories/Properties34.v
theories/SpecClock.v
theories/M_BenchClock.v
theories/P_BenchClock.v
theories/Properties35.v
theories/M_BenchErr.v
theories/SpecBenchErr.v
theories/P_BenchErr.v
theories/Properties36.v
theories/Properties37.v
theories/P_Told.v
theories/Properties38.v
theories/SpecCount.v
theories/P_Count.v
theories/Properties39.v
theories/Properties40.v
theories/P_Forge3.v
theories/Properties41.v
theories/P_Forge4.v
theories/Properties42.v
theories/Properties43.v
