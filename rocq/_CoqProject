-Q theories Verif
theories/Base.v
theories/BaseLemmas.v
theories/PbModel.v
theories/PbSpec.v
theories/PbProofs.v
theories/PbProofs2.v
theories/PbThms.v
theories/P_Pb.v
theories/TModel.v
theories/TProofs.v
theories/TSpec.v
theories/TMsg.v
theories/TMsg2.v
theories/TThms.v
theories/P_T.v
theories/T2Proofs.v
theories/T2Items.v
theories/T2Raw.v
theories/T2Thms.v
theories/SzSpec.v
theories/SzThms.v
theories/P_T2.v
theories/CpSpec.v
theories/CpThms.v
theories/P_Cp.v
theories/LpSpec.v
theories/LpThms.v
theories/P_Lp.v
theories/P_Sz.v
theories/HLModel.v
theories/HLSpec.v
theories/HLProofs.v
theories/HLProofs2.v
theories/HLProofs3.v
theories/HLThms.v
theories/P_HL.v
theories/FrModel.v
theories/FrSpec.v
theories/FrProofs.v
theories/FrThms.v
theories/P_Fr.v
theories/ZlModel.v
theories/ZlSpec.v
theories/ZlThms.v
theories/P_Zl.v
theories/XdThms.v
theories/P_Xd.v
theories/TTyped.v
theories/TfModel.v
theories/TfSpec.v
theories/TfThms.v
theories/P_Tf.v
theories/MtModel.v
theories/MtSpec.v
theories/MtThms.v
theories/P_Mt.v
theories/IoModel.v
theories/IoSpec.v
theories/IoThms.v
theories/P_Io.v
theories/NiModel.v
theories/NiSpec.v
theories/NiProofs.v
theories/NiProofs2.v
theories/NiProofs3.v
theories/NiProofs4.v
theories/NiThms.v
theories/P_Ni.v
theories/NfThms.v
theories/P_Nf.v
theories/RwModel.v
theories/RwSpec.v
theories/RwThms.v
theories/P_Rw.v
theories/XwThms.v
theories/P_Xw.v
theories/XmThms.v
theories/P_Xm.v
theories/WiModel.v
theories/WiSpec.v
theories/WiProofs.v
theories/WiProofs2.v
theories/WiThms.v
theories/P_Wi.v
theories/RiModel.v
theories/RiSpec.v
theories/RiProofs.v
theories/RiThms.v
theories/P_Ri.v
theories/XrThms.v
theories/P_Xr.v
theories/PlModel.v
theories/PlSpec.v
theories/PlProofs.v
theories/PlProofs2.v
theories/PlThms.v
theories/P_Pl.v
theories/CtModel.v
theories/CtSpec.v
theories/CtProofs.v
theories/CtThms.v
theories/P_Ct.v
theories/TrModel.v
theories/TrSpec.v
theories/TrThms.v
theories/P_Tr.v
theories/XcThms.v
theories/P_Xc.v
theories/WsSpec.v
theories/WsProofs.v
theories/WsRead.v
theories/WsWrite.v
theories/WsThms.v
theories/P_Ws.v
theories/EeSpec.v
theories/EeProofs.v
theories/EeFin.v
theories/EeThms.v
theories/ChSpec.v
theories/ChProofs.v
theories/FlProofs.v
theories/ChThms.v
theories/P_Ch.v
theories/FcThms.v
theories/P_Fc.v
theories/KlModel.v
theories/KlSpec.v
theories/KlThms.v
theories/P_Kl.v
theories/K2Thms.v
theories/P_K2.v
theories/RkModel.v
theories/RkSpec.v
theories/RkThms.v
theories/P_Rk.v
theories/TmModel.v
theories/TmSpec.v
theories/StThms.v
theories/P_St.v
theories/TmThms.v
theories/P_Tm.v
theories/TnSpec.v
theories/TnThms.v
theories/P_Tn.v
theories/WtThms.v
theories/P_Wt.v
theories/PgModel.v
theories/PgSpec.v
theories/PgThms.v
theories/P_Pg.v
theories/BrThms.v
theories/P_Br.v
theories/P_Ee.v
theories/XeThms.v
theories/XsThms.v
theories/P_Xe.v
theories/P_Xs.v
theories/XyThms.v
theories/P_Xy.v
theories/XzThms.v
theories/P_Xz.v
theories/XfThms.v
theories/P_Xf.v
theories/XgThms.v
theories/P_Xg.v
theories/XbThms.v
theories/P_Xb.v
theories/XhThms.v
theories/P_Xh.v
theories/CxModel.v
theories/CxSpec.v
theories/CxThms.v
theories/P_Cx.v
theories/DuModel.v
theories/DuSpec.v
theories/DuThms.v
theories/DwThms.v
theories/P_Du.v
theories/XnThms.v
theories/P_Xn.v
theories/P_Dw.v
theories/SlModel.v
theories/SlSpec.v
theories/SlProofs.v
theories/SlThms.v
theories/P_Sl.v
theories/SrProofs.v
theories/SrThms.v
theories/P_Sr.v
theories/SfThms.v
theories/P_Sf.v
theories/SwModel.v
theories/SwSpec.v
theories/SwThms.v
theories/P_Sw.v
theories/SxThms.v
theories/P_Sx.v
theories/SySpec.v
theories/SyProofs.v
theories/SyThms.v
theories/P_Sy.v
theories/PtModel.v
theories/PtSpec.v
theories/PtThms.v
theories/P_Pt.v
theories/UiModel.v
theories/UiSpec.v
theories/UiThms.v
theories/P_Ui.v
