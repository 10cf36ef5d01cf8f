-Q theories Verif

theories/Base.v
theories/ChunkModel.v
theories/ChunkSpec.v
theories/ChunkProofs.v
theories/ChunkProofs2.v
theories/ChunkProofs3.v
theories/ChunkProofs4.v
theories/ChunkProps.v
theories/AmfModel.v
theories/AmfSpec.v
theories/AmfProofs.v
theories/AmfProofs2.v
theories/AmfProofs3.v
theories/AmfProofs4.v
theories/AmfProps.v
theories/AckModel.v
theories/AckSpec.v
theories/AckProofs.v
theories/AckProps.v
theories/SessModel.v
theories/SessSpec.v
theories/SessProofs.v
theories/SessProofs2.v
theories/SessProofs3.v
theories/SessProps.v
theories/MsgModel.v
theories/MsgSpec.v
theories/MsgProofs.v
theories/MsgProps.v
theories/MapModel.v
theories/MapSpec.v
theories/MapProofs.v
theories/MapProofs2.v
theories/MapProps.v
theories/RbufModel.v
theories/RbufSpec.v
theories/RbufProofs.v
theories/RbufProofs2.v
theories/RbufProps.v
theories/ListHeap.v
theories/LiveModel.v
theories/LiveSpec.v
theories/LiveProofs.v
theories/LiveProofs2.v
theories/LiveProofs3.v
theories/LiveProofs4.v
theories/LiveProps.v
theories/Slice.v
theories/HsModel.v
theories/HsSpec.v
theories/HsProofs.v
theories/HsProofs2.v
theories/HsProofs3.v
theories/HsProofs4.v
theories/HsProps.v
theories/HsPairProps.v
theories/CrcModel.v
theories/CrcSpec.v
theories/CrcProofs.v
theories/CrcProps.v
theories/MtsModel.v
theories/MtsSpec.v
theories/MtsExpect.v
theories/MtsProofs.v
theories/MtsProofs2.v
theories/MtsProofs3.v
theories/MtsProofs4.v
theories/MtsProps.v
theories/MtsCbcProps.v
theories/BitSpec.v
theories/BitModel.v
theories/BitProofs.v
theories/BitProps.v
theories/CodecModel.v
theories/CodecSpec.v
theories/CodecProofs.v
theories/CodecProofs2.v
theories/CodecProofs3.v
theories/CodecProofs4.v
theories/CodecProps.v
theories/TsModel.v
theories/TsSpec.v
theories/TsProofs.v
theories/TsProofs2.v
theories/TsProofs3.v
theories/TsProofs4.v
theories/TsProofs5.v
theories/TsProofs6.v
theories/TsProofs7.v
theories/TsProps.v
theories/Text.v
theories/AdmSpec.v
theories/AdmModel.v
theories/AdmProofs.v
theories/AdmProofs2.v
theories/AdmProps.v
theories/UrlSpec.v
theories/UrlModel.v
theories/UrlProofs.v
theories/UrlProofs2.v
theories/UrlProps.v
theories/ZoneModel.v
theories/ZoneSpec.v
theories/ZoneProofs.v
theories/ZoneProofs2.v
theories/ZoneProofs3.v
theories/ZoneProofs4.v
theories/ZoneProps.v
theories/RegModel.v
theories/RegSpec.v
theories/RegProofs.v
theories/RegProofs2.v
theories/RegProps.v
theories/FinModel.v
theories/FinSpec.v
theories/FinProofs.v
theories/FinProps.v
theories/FlvModel.v
theories/FlvSpec.v
theories/FlvProofs.v
theories/FlvProofs2.v
theories/FlvProofs3.v
theories/FlvProofs4.v
theories/FlvProps.v
theories/Mp4Model.v
theories/Mp4Spec.v
theories/Mp4Proofs.v
theories/Mp4Proofs2.v
theories/Mp4Proofs3.v
theories/Mp4Proofs4.v
theories/Mp4Proofs5.v
theories/Mp4Props.v
theories/DashModel.v
theories/DashSpec.v
theories/DashProofs.v
theories/DashProofs2.v
theories/DashProofs3.v
theories/DashProofs4.v
theories/DashProofs5.v
theories/DashProps.v
theories/GopModel.v
theories/GopSpec.v
theories/GopProofs.v
theories/GopProofs2.v
theories/GopProofs3.v
theories/GopProofs4.v
theories/GopProps.v
theories/GopPlayModel.v
theories/GopPlaySpec.v
theories/GopPlayProofs.v
theories/GopPlayProofs2.v
theories/GopPlayProofs3.v
theories/GopPlayProps.v
theories/HlsModel.v
theories/HlsSpec.v
theories/HlsProofs.v
theories/HlsProofs2.v
theories/HlsProofs3.v
theories/HlsProofs4.v
theories/HlsProps.v
theories/NalModel.v
theories/NalSpec.v
theories/NalProofs.v
theories/NalProofs2.v
theories/NalProofs3.v
theories/NalProofs4.v
theories/NalProofs5.v
theories/NalProofs6.v
theories/NalProps.v
theories/RecModel.v
theories/RecSpec.v
theories/RecProofs.v
theories/RecProofs2.v
theories/RecProofs3.v
theories/RecProofs4.v
theories/RecProofs5.v
theories/RecProofs6.v
theories/RecProps.v
theories/CallModel.v
theories/CallSpec.v
theories/CallProofs.v
theories/CallProofs2.v
theories/CallProps.v
theories/JoinModel.v
theories/JoinSpec.v
theories/JoinProofs.v
theories/JoinProofs2.v
theories/JoinProps.v
theories/NfyModel.v
theories/NfySpec.v
theories/NfyProofs.v
theories/NfyProofs2.v
theories/NfyProofs3.v
theories/NfyProps.v
theories/FrecModel.v
theories/FrecSpec.v
theories/FrecProofs.v
theories/FrecProofs2.v
theories/FrecProofs3.v
theories/FrecProofs4.v
theories/FrecProofs5.v
theories/FrecProofs6.v
theories/FrecProofs7.v
theories/FrecProps.v
theories/CastModel.v
theories/CastSpec.v
theories/CastProofs.v
theories/CastProofs2.v
theories/CastProofs3.v
theories/CastProofs4.v
theories/CastProofs5.v
theories/CastProofs6.v
theories/CastProps.v
theories/HcModel.v
theories/HcSpec.v
theories/HcProofs.v
theories/HcProofs2.v
theories/HcProofs3.v
theories/HcProps.v
theories/MemModel.v
theories/MemSpec.v
theories/MemProofs.v
theories/MemProofs2.v
theories/MemProofs3.v
theories/MemProofs4.v
theories/MemProofs5.v
theories/MemProofs6.v
theories/MemProps.v
theories/ThlModel.v
theories/ThlSpec.v
theories/ThlProofs.v
theories/ThlProofs2.v
theories/ThlProofs3.v
theories/ThlProps.v
theories/DresModel.v
theories/DresSpec.v
theories/DresProofs.v
theories/DresProofs2.v
theories/DresProofs3.v
theories/DresProps.v
theories/TmrModel.v
theories/TmrSpec.v
theories/TmrProofs.v
theories/TmrProofs2.v
theories/TmrProps.v
theories/SpullModel.v
theories/SpullSpec.v
theories/SpullProofs.v
theories/SpullProofs2.v
theories/SpullProofs3.v
theories/SpullProofs4.v
theories/SpullProps.v
theories/RelayModel.v
theories/RelaySpec.v
theories/RelayProofs.v
theories/RelayProofs2.v
theories/RelayProps.v
theories/CtlModel.v
theories/CtlSpec.v
theories/CtlProofs.v
theories/CtlProps.v
theories/DconfModel.v
theories/DconfSpec.v
theories/DconfProofs.v
theories/DconfProofs2.v
theories/DconfProofs3.v
theories/DconfProofs4.v
theories/DconfProps.v
theories/LtsModel.v
theories/LtsSpec.v
theories/LtsProofs.v
theories/LtsProofs2.v
theories/LtsProofs3.v
theories/LtsProps.v
theories/LhvModel.v
theories/LhvSpec.v
theories/LhvProofs.v
theories/LhvProofs2.v
theories/LhvProofs3.v
theories/LhvProps.v
theories/TgopModel.v
theories/TgopSpec.v
theories/TgopProofs.v
theories/TgopProofs2.v
theories/TgopProofs3.v
theories/TgopProofs4.v
theories/TgopProofs5.v
theories/TgopProps.v
theories/IdentModel.v
theories/IdentSpec.v
theories/IdentProofs1.v
theories/IdentProofs2.v
theories/IdentProofs3.v
theories/IdentProps.v
theories/InnerModel.v
theories/InnerSpec.v
theories/InnerProofs1.v
theories/InnerProofs2.v
theories/InnerProofs3.v
theories/InnerProofs4.v
theories/InnerProps.v
theories/CliModel.v
theories/CliSpec.v
theories/CliProofs1.v
theories/CliProofs2.v
theories/CliProofs3.v
theories/CliProofs4.v
theories/CliProps.v
theories/BcModel.v
theories/BcSpec.v
theories/BcProofs.v
theories/BcProps.v
theories/ExecModel.v
theories/ExecSpec.v
theories/ExecProofs.v
theories/ExecProofs2.v
theories/ExecProps.v
theories/RldModel.v
theories/RldSpec.v
theories/RldProofs.v
theories/RldProps.v
theories/HlaModel.v
theories/HlaSpec.v
theories/HlaProofs.v
theories/HlaProps.v
theories/HdrModel.v
theories/HdrSpec.v
theories/HdrProofs.v
theories/HdrProps.v
theories/MstModel.v
theories/MstSpec.v
theories/MstProofs.v
theories/MstProps.v
theories/StatModel.v
theories/StatSpec.v
theories/StatProofs.v
theories/StatProofs2.v
theories/StatProofs3.v
theories/StatProps.v
theories/HreqModel.v
theories/HreqSpec.v
theories/HreqProofs.v
theories/HreqProofs2.v
theories/HreqProps.v
theories/JsnSpec.v
theories/JsnModel.v
theories/JsnShow.v
theories/JsnProofs.v
theories/JsnProofs2.v
theories/JsnProofs3.v
theories/JsnProofs4.v
theories/JsnProps.v
theories/MonSpec.v
theories/MonModel.v
theories/MonProofs.v
theories/MonProps.v
theories/AlogSpec.v
theories/AlogModel.v
theories/AlogProofs.v
theories/AlogProps.v
theories/AlogTimers.v
theories/AlogTimersProps.v
theories/AlogRoom.v
theories/AlogRoomProps.v
theories/AlogTime.v
theories/AlogTimeProps.v
theories/AlogRate.v
theories/AlogRateProps.v
