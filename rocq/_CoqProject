-Q theories Verif
theories/Base.v
theories/BaseProof.v
theories/PBufferModel.v
theories/PBufferSpec.v
theories/PBufferProof.v
theories/PBufferProps.v
theories/Element3Model.v
theories/Element3Spec.v
theories/Element3Proof.v
theories/Element3Wire.v
theories/Element3Props.v
theories/PyList.v
theories/IterModel.v
theories/IterSpec.v
theories/IterProof.v
theories/IterProps.v
theories/PyListProof.v
theories/TypeIOModel.v
theories/TypeIOSpec.v
theories/TypeIOProof.v
theories/TypeIOProof2.v
theories/TypeIOProof3.v
theories/TypeIOProps.v
theories/NumericModel.v
theories/NumericSpec.v
theories/NumericProof.v
theories/NumericProps.v
theories/DatetimeModel.v
theories/DatetimeSpec.v
theories/DatetimeProof.v
theories/DatetimeProps.v
theories/NegModel.v
theories/NegSpec.v
theories/NegProof.v
theories/NegProps.v
theories/InstModel.v
theories/InstSpec.v
theories/InstProof.v
theories/InstProof2.v
theories/InstProof3.v
theories/InstProps.v
theories/PyStr.v
theories/RegexModel.v
theories/PyStrProof.v
theories/StrModel.v
theories/StrSpec.v
theories/StrProof.v
theories/StrProof2.v
theories/StrProof3.v
theories/StrProps.v
theories/PyInt.v
theories/PyIntProof.v
theories/PyStrProof2.v
theories/ByteaModel.v
theories/ByteaSpec.v
theories/ByteaProof.v
theories/ByteaProps.v
theories/VersionModel.v
theories/VersionSpec.v
theories/VersionProof.v
theories/VersionProps.v
theories/PgPassModel.v
theories/PgPassSpec.v
theories/PgPassProof.v
theories/PgPassProps.v
theories/RIModel.v
theories/RISpec.v
theories/RIProof.v
theories/RIProof2.v
theories/RIProof3.v
theories/RIProps.v
theories/PyDict.v
theories/PyDictProof.v
theories/IRIModel.v
theories/IRISpec.v
theories/IRIProof.v
theories/IRIProof2.v
theories/IRIProof3.v
theories/IRIProof4.v
theories/IRIProps.v
theories/ConfModel.v
theories/ConfSpec.v
theories/ConfProof.v
theories/ConfProof2.v
theories/ConfProof3.v
theories/ConfProof4.v
theories/ConfProof5.v
theories/ConfProof6.v
theories/ConfProof7.v
theories/ConfProps.v
theories/ArrayModel.v
theories/ArraySpec.v
theories/ArrayProof.v
theories/ArrayProof2.v
theories/ArrayProof3.v
theories/ArrayProps.v
theories/RowProof.v
theories/RowProps.v
theories/ExcModel.v
theories/ExcTable.v
theories/ExcSpec.v
theories/ExcProof.v
theories/ExcProps.v
theories/ParamModel.v
theories/ParamSpec.v
theories/ParamProof.v
theories/ParamProof2.v
theories/ParamProof3.v
theories/ParamProps.v
theories/AlockModel.v
theories/AlockSpec.v
theories/AlockProof.v
theories/AlockProps.v
theories/DbapiModel.v
theories/DbapiSpec.v
theories/DbapiProof.v
theories/DbapiProps.v
theories/PercentModel.v
theories/PercentSpec.v
theories/PercentProof.v
theories/PercentProof2.v
theories/PercentProof3.v
theories/PercentProps.v
theories/ConnModel.v
theories/ConnSpec.v
theories/ConnProof.v
theories/ConnProof2.v
theories/ConnProof3.v
theories/ConnProps.v
theories/SslModel.v
theories/SslSpec.v
theories/SslProof.v
theories/SslProof2.v
theories/SslProps.v
theories/FetchModel.v
theories/FetchSpec.v
theories/FetchProof.v
theories/FetchProof2.v
theories/FetchProof3.v
theories/FetchProof4.v
theories/FetchProof5.v
theories/FetchProps.v
theories/CopyModel.v
theories/CopySpec.v
theories/CopyProof.v
theories/CopyProof2.v
theories/CopyProof3.v
theories/CopyProof4.v
theories/CopyProps.v
theories/NotifyModel.v
theories/NotifySpec.v
theories/NotifyProof.v
theories/NotifyProof2.v
theories/NotifyProps.v
theories/XactModel.v
theories/XactSpec.v
theories/XactProof.v
theories/XactProps.v
theories/SettModel.v
theories/SettSpec.v
theories/SettProof.v
theories/SettProps.v
theories/CursModel.v
theories/CursSpec.v
theories/CursProof.v
theories/CursProps.v
theories/LibModel.v
theories/LibSpec.v
theories/LibProof.v
theories/LibProof2.v
theories/LibProof3.v
theories/LibProof4.v
theories/LibProps.v
theories/TresModel.v
theories/TresSpec.v
theories/TresProof.v
theories/TresProof2.v
theories/TresProof3.v
theories/TresProps.v
theories/LifeModel.v
theories/LifeSpec.v
theories/LifeProof.v
theories/LifeProof2.v
theories/LifeProof3.v
theories/LifeProof4.v
theories/LifeProof5.v
theories/LifeProof6.v
theories/LifeProof7.v
theories/LifeProof8.v
theories/LifeProof9.v
theories/LifeProof10.v
theories/LifeProps.v
theories/MesgModel.v
theories/MesgSpec.v
theories/MesgProof.v
theories/MesgProof2.v
theories/MesgProof3.v
theories/MesgProof4.v
theories/MesgProps.v
theories/MarkModel.v
theories/MarkSpec.v
theories/MarkProof.v
theories/MarkProof2.v
theories/MarkProps.v
theories/LoadModel.v
theories/LoadSpec.v
theories/LoadProof.v
theories/LoadProof2.v
theories/LoadProof3.v
theories/LoadProps.v
theories/LcopyModel.v
theories/LcopySpec.v
theories/LcopyProof.v
theories/LcopyProof2.v
theories/LcopyProps.v
theories/FirstModel.v
theories/FirstSpec.v
theories/FirstProof.v
theories/FirstProof2.v
theories/FirstProps.v
theories/PgcModel.v
theories/PgcSpec.v
theories/PgcProof.v
theories/PgcProof2.v
theories/PgcProps.v
theories/TmpModel.v
theories/TmpSpec.v
theories/TmpProof.v
theories/TmpProps.v
theories/ClsModel.v
theories/ClsSpec.v
theories/ClsProof.v
theories/ClsProof2.v
theories/ClsProof3.v
theories/ClsProof4.v
theories/ClsProps.v
theories/CluModel.v
theories/CluSpec.v
theories/CluProof.v
theories/CluProof2.v
theories/CluProof3.v
theories/CluProof4.v
theories/CluProof5.v
theories/CluProps.v
theories/CrypTable.v
theories/CrypModel.v
theories/CrypSpec.v
theories/CrypProof.v
theories/CrypProof2.v
theories/CrypProof3.v
theories/CrypProof4.v
theories/CrypProps.v
theories/CtorModel.v
theories/CtorSpec.v
theories/CtorProof.v
theories/CtorProof2.v
theories/CtorProof3.v
theories/CtorProof4.v
theories/CtorProps.v
theories/CtorProps2.v
theories/ProcModel.v
theories/ProcSpec.v
theories/ProcProps.v
theories/FltModel.v
theories/FltSpec.v
theories/FltProof.v
theories/FltProof2.v
theories/FltProps.v
theories/GeoModel.v
theories/GeoSpec.v
theories/GeoProps.v
theories/FdtModel.v
theories/FdtProof.v
theories/FdtProof2.v
theories/FdtProof3.v
theories/FdtSpec.v
theories/FdtProof4.v
theories/FdtProps.v
theories/StmtModel.v
theories/StmtSpec.v
theories/StmtProof.v
theories/StmtProps.v
theories/NtModel.v
theories/NtSpec.v
theories/NtProof.v
theories/NtProps.v
theories/CfileModel.v
theories/CfileSpec.v
theories/CfileProof.v
theories/CfileProps.v
theories/ElemModel.v
theories/ElemSpec.v
theories/ElemProof.v
theories/ElemProps.v
theories/DoModel.v
theories/DoSpec.v
theories/DoProof.v
theories/DoProps.v
theories/SockModel.v
theories/SockSpec.v
theories/SockProof.v
theories/SockProps.v
theories/PyxModel.v
theories/PyxSpec.v
theories/PyxProof.v
theories/PyxProps.v
theories/XmlModel.v
theories/XmlSpec.v
theories/XmlProof.v
theories/XmlProps.v
theories/ConsModel.v
theories/ConsSpec.v
theories/ConsProof.v
theories/ConsProps.v
theories/BitModel.v
theories/BitProof.v
theories/BitProps.v
theories/DescModel.v
theories/DescSpec.v
theories/DescProps.v
theories/OptModel.v
theories/OptSpec.v
theories/OptProof.v
theories/OptProps.v
