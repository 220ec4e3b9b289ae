-Q theories Verif
theories/Base.v
theories/BaseFacts.v
theories/CborSpec.v
theories/CborModel.v
theories/CborProofs.v
theories/P_Cbor.v
theories/ValueModel.v
theories/ValueProofs.v
theories/TypesModel.v
theories/VoucherModel.v
theories/CryptoSpec.v
theories/TypesProofs.v
theories/VoucherSpec.v
theories/VoucherProofs.v
theories/VoucherProofs2.v
theories/ToyCrypto.v
theories/P_Voucher.v
theories/ChainSpec.v
theories/ChainProofs.v
theories/P_Types.v
theories/Text.v
theories/RvModel.v
theories/RvSpec.v
theories/RvProofs.v
theories/P_Rv.v
theories/Assoc.v
theories/StoreModel.v
theories/StoreSpec.v
theories/StoreRun.v
theories/StoreProofs.v
theories/StoreProofs2.v
theories/P_Store.v
theories/KexModel.v
theories/KexSpec.v
theories/KexProofs.v
theories/P_Kex.v
theories/MsgModel.v
theories/SessionModel.v
theories/SessionSpec.v
theories/SessionProofs.v
theories/SessionProofs2.v
theories/SessionProofs3.v
theories/SeqFacts.v
theories/HttpClientModel.v
theories/HttpClientSpec.v
theories/HttpClientProofs.v
theories/ToySession.v
theories/P_Session.v
theories/Hex.v
theories/Backend.v
theories/RvServerModel.v
theories/DecFacts.v
theories/BackendSpec.v
theories/BackendProofs.v
theories/RvServerSpec.v
theories/CoseFacts.v
theories/RvServerProofs.v
theories/RvServerRuns.v
theories/P_RvServer.v
theories/SiModel.v
theories/DevSiModel.v
theories/SiSpec.v
theories/SiProofs.v
theories/SiProofs2.v
theories/SiProofs3.v
theories/P_Si.v
theories/SiApiModel.v
theories/SiApiSpec.v
theories/SiApiProofs.v
theories/SiApiRun.v
theories/P_SiApi.v
theories/OwnerModel.v
theories/OwnerSpec.v
theories/OwnerProofs.v
theories/OwnerRuns.v
theories/P_Owner.v
theories/To0Model.v
theories/To0Spec.v
theories/To0Proofs.v
theories/To0Accept.v
theories/P_To0.v
theories/DecSize.v
theories/ClientModel.v
theories/ClientSpec.v
theories/ClientProofs.v
theories/ClientProofs2.v
theories/ClientToy.v
theories/P_Client.v
theories/ClientHonest.v
theories/P_Honest.v
theories/MfgModel.v
theories/MfgSpec.v
theories/MfgProofs.v
theories/P_Mfg.v
theories/MfgClientModel.v
theories/MfgClientSpec.v
theories/MfgClientProofs.v
theories/MfgClientProofs2.v
theories/P_MfgClient.v
theories/P_Servers.v
theories/OtModel.v
theories/OtSpec.v
theories/OtProofs.v
theories/P_Ot.v
theories/OnboardSpec.v
theories/OnboardProofs.v
theories/OnboardProofs2.v
theories/OnboardSi.v
theories/OnboardProofs3.v
theories/OnboardProofs4.v
theories/P_Onboard.v
theories/HostModel.v
theories/HostSpec.v
theories/HostProofs.v
theories/HostProofs2.v
theories/P_Host.v
theories/DiskModel.v
theories/DiskSpec.v
theories/DiskProofs.v
theories/P_Disk.v
theories/ServeSpec.v
theories/ServeProofs.v
theories/FindSpec.v
theories/FindProofs.v
theories/P_Find.v
theories/FactorySpec.v
theories/FactoryProofs.v
theories/FactoryProofs2.v
theories/P_Factory.v
theories/RebootSpec.v
theories/P_Reboot.v
theories/RvYamlModel.v
theories/RvYamlSpec.v
theories/RvYamlProofs.v
theories/P_RvYaml.v
theories/To0ClientModel.v
theories/To0ClientSpec.v
theories/To0ClientProofs.v
theories/P_To0Client.v
theories/LifeSpec.v
theories/P_Life.v
theories/OverlapModel.v
theories/OverlapSpec.v
theories/OverlapProofs.v
theories/OverlapProofs2.v
theories/OverlapProofs3.v
theories/P_Overlap.v
theories/LibModel.v
theories/LibSpec.v
theories/LibProofs.v
theories/LibProofs2.v
theories/P_Lib.v
theories/AioModel.v
theories/AioSpec.v
theories/AioProofs.v
theories/AioProofs2.v
theories/P_Aio.v
theories/LayerModel.v
theories/LayerSpec.v
theories/LayerProofs.v
theories/P_Layer.v
theories/P_AioLife.v
theories/LocModel.v
theories/LocSpec.v
theories/LocProofs.v
theories/P_Loc.v
theories/ExecModel.v
theories/P_Exec.v
theories/GoModel.v
theories/GoSpec.v
theories/GoProofs.v
theories/GoProofs2.v
theories/P_Go.v
theories/DevModel.v
theories/P_Dev.v
theories/InstModel.v
theories/P_Inst.v
theories/ChoiceModel.v
theories/P_Choice.v
