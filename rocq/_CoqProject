-Q theories Verif
theories/M_Base.v
theories/S_Array.v
theories/S_Grid.v
theories/S_Bytes.v
theories/S_Crc.v
theories/S_Shard.v
theories/M_Blocking.v
theories/M_View.v
theories/M_Bytes.v
theories/M_N5Header.v
theories/M_Crc.v
theories/M_Shard.v
theories/P_Base.v
theories/P_Blocking.v
theories/P_Roi.v
theories/P_View.v
theories/P_Bytes.v
theories/P_Crc.v
theories/P_Shard.v
theories/Properties_Grid.v
theories/Properties_View.v
theories/Properties_Bytes.v
theories/Properties_Shard.v
theories/M_Text.v
theories/M_Key.v
theories/S_Text.v
theories/P_Key.v
theories/Properties_Key.v
theories/M_Format.v
theories/S_Format.v
theories/P_Format.v
theories/Properties_Format.v
theories/M_Mode.v
theories/M_Dataset.v
theories/M_Sharded.v
theories/M_Access.v
theories/S_Dataset.v
theories/P_Dataset.v
theories/Properties_Dataset.v
theories/S_Access.v
theories/P_Access.v
theories/P_Read.v
theories/P_History.v
theories/Properties_Access.v
theories/S_Sharded.v
theories/P_Sharded.v
theories/P_ShardedApi.v
theories/Properties_Sharded.v
theories/S_File.v
theories/P_File.v
theories/Properties_File.v
theories/M_Pool.v
theories/S_Pool.v
theories/P_Pool.v
theories/P_Foreach.v
theories/P_PoolAny.v
theories/Properties_Pool.v
theories/M_Parallel.v
theories/S_Parallel.v
theories/P_Parallel.v
theories/P_ParWrite.v
theories/P_ParSharded.v
theories/P_ParHistory.v
theories/Properties_Parallel.v
theories/S_Fail.v
theories/P_ParFail.v
theories/Properties_Fail.v
theories/M_ForEach.v
theories/S_ForEach.v
theories/P_ForEach.v
theories/Properties_ForEach.v
theories/M_Lock.v
theories/S_Lock.v
theories/P_Lock.v
theories/Properties_Lock.v
theories/M_Crash.v
theories/S_Crash.v
theories/P_Crash.v
theories/Properties_Crash.v
theories/M_Double.v
theories/M_Json.v
theories/M_Metadata.v
theories/S_Metadata.v
theories/P_Metadata.v
theories/Properties_Metadata.v
theories/M_Fs.v
theories/M_Attributes.v
theories/S_Attributes.v
theories/P_Attributes.v
theories/M_Container.v
theories/S_Container.v
theories/P_Container.v
theories/P_SameObject.v
theories/P_Container2.v
theories/P_Container3.v
theories/Properties_Attributes.v
theories/Properties_Container.v
theories/M_Functions.v
theories/P_PoolSim.v
theories/P_Collect.v
theories/S_Functions.v
theories/P_Functions.v
theories/P_Functions2.v
theories/Properties_Functions.v
theories/M_Python.v
theories/S_Python.v
theories/P_Python.v
theories/P_Python2.v
theories/P_Python3.v
theories/P_Python4.v
theories/P_Python5.v
theories/Properties_Python.v
theories/M_Store.v
theories/P_Store.v
theories/M_S3.v
theories/S_S3.v
theories/P_S3.v
theories/P_S3Sim.v
theories/P_S3Fail.v
theories/Properties_S3.v
theories/M_Codec.v
theories/S_Codec.v
theories/P_Codec.v
theories/P_CodecToy.v
theories/Properties_Codec.v
theories/M_PyGroup.v
theories/S_PyGroup.v
theories/P_PyGroup.v
theories/P_PyGroup2.v
theories/P_PyGroup3.v
theories/P_PyGroup4.v
theories/P_PyGroup5.v
theories/P_PyGroup6.v
theories/P_PyGroup7.v
theories/P_PyGroup8.v
theories/P_PyGroup9.v
theories/P_PyGroup10.v
theories/P_PyGroup11.v
theories/Properties_PyGroup.v
theories/M_S3Container.v
theories/S_S3Container.v
theories/P_S3Container.v
theories/P_S3Container2.v
theories/P_S3Container3.v
theories/P_S3Container4.v
theories/P_S3Container5.v
theories/P_S3Text.v
theories/P_S3Container6.v
theories/Properties_S3Container.v
theories/M_Disk.v
theories/S_Disk.v
theories/P_Disk.v
theories/P_Disk2.v
theories/Properties_Disk.v
theories/M_DiskDocs.v
theories/S_DiskDocs.v
theories/P_DiskDocs.v
theories/Properties_DiskDocs.v
theories/M_Tree.v
theories/S_Tree.v
theories/P_TreeSim.v
theories/P_Tree.v
theories/P_Tree2.v
theories/P_Tree3.v
theories/P_Tree4.v
theories/Properties_Tree.v
theories/S_Layout.v
theories/S_Interop.v
theories/P_Layout.v
theories/P_Foreign.v
theories/Properties_Layout.v
theories/S_Document.v
theories/S_Described.v
theories/P_Document.v
theories/P_Document2.v
theories/P_Document3.v
theories/P_Document4.v
theories/Properties_Document.v
theories/M_Clients.v
theories/S_Clients.v
theories/P_Clients.v
theories/P_Clients2.v
theories/Properties_Clients.v
theories/M_PyDirect.v
theories/S_PyDirect.v
theories/P_PyDirect.v
theories/Properties_PyDirect.v
theories/M_ShardRemove.v
theories/S_ShardRemove.v
theories/M_RemoveCrash.v
theories/P_LockedLoop.v
theories/P_ShardRemove.v
theories/P_LockedFree.v
theories/Properties_ShardRemove.v
theories/M_AttrSteps.v
theories/S_AttrSteps.v
theories/P_AttrSteps.v
theories/P_AttrSteps2.v
theories/Properties_AttrSteps.v
theories/M_NodeSteps.v
theories/S_NodeSteps.v
theories/P_NodeSteps.v
theories/P_NodeSteps2.v
theories/P_NodeSteps3.v
theories/Properties_NodeSteps.v
theories/M_ParCrash.v
theories/P_ParCrash.v
theories/Properties_ParCrash.v
theories/M_Number.v
theories/S_Number.v
theories/P_Round.v
theories/P_Number.v
theories/Properties_Number.v
theories/P_S3Crash.v
theories/Properties_S3Crash.v
theories/M_PyFill.v
theories/S_PyFill.v
theories/P_PyFill.v
theories/Properties_PyFill.v
theories/S_Elide.v
theories/P_Elide.v
theories/Properties_Elide.v
theories/S_New.v
theories/P_New.v
theories/M_PyAttrs.v
theories/P_PyAttrs.v
theories/Properties_New.v
theories/Properties_PyAttrs.v
theories/P_RemoveCrash.v
theories/Properties_RemoveCrash.v
theories/M_Report.v
theories/S_Report.v
theories/P_Report.v
theories/Properties_Report.v
theories/P_ShardFail.v
theories/Properties_ShardFail.v
theories/P_Readers.v
theories/S_Readers.v
theories/P_Readers2.v
theories/Properties_Readers.v
theories/P_Readers3.v
theories/Properties_PlainReaders.v
theories/M_PyParent.v
theories/S_PyParent.v
theories/P_PyParent.v
theories/P_PyParent2.v
theories/Properties_PyParent.v
theories/M_PyMapping.v
theories/S_PyMapping.v
theories/P_PyMapping.v
theories/Properties_PyMapping.v
theories/S_Quiet.v
theories/P_Quiet.v
theories/Properties_Quiet.v
theories/M_S3Clients.v
theories/S_S3Clients.v
theories/P_S3Clients.v
theories/Properties_S3Clients.v
theories/P_S3Clients2.v
theories/Properties_S3Apart.v
theories/P_S3Takeover.v
theories/Properties_S3Takeover.v
theories/S_S3Quiet.v
theories/P_S3Quiet.v
theories/Properties_S3Quiet.v
theories/M_S3Parallel.v
theories/S_S3Parallel.v
theories/P_S3Parallel.v
theories/P_S3Parallel2.v
theories/P_S3Parallel3.v
theories/Properties_S3Parallel.v
theories/P_S3Parallel4.v
theories/Properties_S3Halted.v
theories/M_S3Config.v
theories/S_S3Config.v
theories/P_S3Config.v
theories/Properties_S3Config.v
theories/M_ZarrCache.v
theories/S_ZarrCache.v
theories/P_ZarrCache.v
theories/Properties_ZarrCache.v
