-Q theories Verif
theories/ArrModel.v
theories/ArrProofs.v
theories/ArrProps.v
theories/ArrSpec.v
theories/AvgAgain.v
theories/AvgFile.v
theories/AvgFill.v
theories/AvgHeadModel.v
theories/AvgHeadProofs.v
theories/AvgHeadProps.v
theories/AvgHeadSpec.v
theories/AvgHeadValues.v
theories/AvgModel.v
theories/AvgProofs.v
theories/AvgProps.v
theories/AvgReal.v
theories/AvgSpec.v
theories/AvgText.v
theories/BandModel.v
theories/BandProofs.v
theories/BandProps.v
theories/BandSpec.v
theories/BdfModel.v
theories/BdfProps.v
theories/BdfSpec.v
theories/BnmModel.v
theories/BnmProps.v
theories/BnmSpec.v
theories/CacheFlat.v
theories/CacheModel.v
theories/CacheProofs.v
theories/CacheProps.v
theories/CacheSpec.v
theories/ChanFiltModel.v
theories/ChanFiltProofs.v
theories/ChanFiltProps.v
theories/ChanFiltSpec.v
theories/CmdModel.v
theories/CmdProofs.v
theories/CmdProps.v
theories/CmdSpec.v
theories/CohModel.v
theories/CohProps.v
theories/CommentModel.v
theories/CommentProofs.v
theories/CommentProps.v
theories/CommentSpec.v
theories/ContainerModel.v
theories/ContainerProofs.v
theories/ContainerProps.v
theories/ContainerSpec.v
theories/Cplx.v
theories/CpyModel.v
theories/CpyProps.v
theories/CpySpec.v
theories/DatasetModel.v
theories/DatasetProofs.v
theories/DatasetProps.v
theories/DatasetSpec.v
theories/DictFlatModel.v
theories/DictFlatProofs.v
theories/DictFlatProps.v
theories/DictFlatSpec.v
theories/DipModel.v
theories/DipProofs.v
theories/DipProps.v
theories/DipSpec.v
theories/DsecModel.v
theories/DsecProofs.v
theories/DsecProps.v
theories/DsecSpec.v
theories/EchModel.v
theories/EchProofs.v
theories/EchProofs2.v
theories/EchProps.v
theories/EchSpec.v
theories/EdiFile.v
theories/EdiMeasFile.v
theories/EdiMeasProofs.v
theories/EdiMeasProps.v
theories/EdiMetaModel.v
theories/EdiMetaProofs.v
theories/EdiMetaProps.v
theories/EdiMetaSpec.v
theories/EdiModel.v
theories/EdiNumbers.v
theories/EdiOrder.v
theories/EdiProofs.v
theories/EdiProps.v
theories/EdiRhoModel.v
theories/EdiRhoProps.v
theories/EdiSpec.v
theories/EdnModel.v
theories/EdnProofs.v
theories/EdnProps.v
theories/EdnSpec.v
theories/EmpProofs.v
theories/EmpProofs2.v
theories/EmpProofs3.v
theories/EmpProps.v
theories/EmpSpec.v
theories/EmtfModel.v
theories/EmtfProofs.v
theories/EmtfProps.v
theories/EmtfRead.v
theories/EmtfSpec.v
theories/EnumModel.v
theories/EnumProofs.v
theories/EnumProps.v
theories/EnumSpec.v
theories/EpochModel.v
theories/EpochProofs.v
theories/EpochProps.v
theories/EpochRead.v
theories/EpochSpec.v
theories/EwsModel.v
theories/EwsProofs.v
theories/EwsProps.v
theories/EwsSpec.v
theories/ExpdModel.v
theories/ExpdProofs.v
theories/ExpdProps.v
theories/ExpdSpec.v
theories/ExpjModel.v
theories/ExpjProofs.v
theories/ExpjProps.v
theories/ExpjSpec.v
theories/ExpxModel.v
theories/ExpxProofs.v
theories/ExpxProps.v
theories/ExpxRead.v
theories/ExpxSpec.v
theories/ExpxSurvey.v
theories/FcModel.v
theories/FcProofs.v
theories/FcProps.v
theories/FcSpec.v
theories/FccModel.v
theories/FccProofs.v
theories/FccProps.v
theories/FccSpec.v
theories/FdsnModel.v
theories/FdsnProofs.v
theories/FdsnProps.v
theories/FdsnSpec.v
theories/FilterModel.v
theories/FilterProofs.v
theories/FilterProps.v
theories/FilterSpec.v
theories/FnameModel.v
theories/FnameProofs.v
theories/FnameProps.v
theories/FnameSpec.v
theories/FnotesBack.v
theories/FnotesModel.v
theories/FnotesProofs.v
theories/FnotesProps.v
theories/FnotesRead.v
theories/FnotesSpec.v
theories/FnotesStable.v
theories/HeadModel.v
theories/HeadProofs.v
theories/HeadProps.v
theories/HeadSpec.v
theories/HeadValues.v
theories/InfoModel.v
theories/InfoProofs.v
theories/InfoProps.v
theories/InfoSpec.v
theories/IsoModel.v
theories/IsoProofs.v
theories/IsoProps.v
theories/IsoSpec.v
theories/JfileData.v
theories/JfileModel.v
theories/JfileProofs.v
theories/JfileProps.v
theories/JfileSpec.v
theories/JsonModel.v
theories/JsonProps.v
theories/JstModel.v
theories/JstProps.v
theories/JstSpec.v
theories/LayModel.v
theories/LayProofs.v
theories/LayProps.v
theories/LaySpec.v
theories/LegfModel.v
theories/LegfProofs.v
theories/LegfProps.v
theories/LegfSpec.v
theories/LicenseData.v
theories/ListDictModel.v
theories/ListDictProofs.v
theories/ListDictProps.v
theories/ListDictSpec.v
theories/LocationModel.v
theories/LocationProofs.v
theories/LocationProps.v
theories/LocationSpec.v
theories/MTimeModel.v
theories/MTimeProofs.v
theories/MTimeProps.v
theories/MTimeSpec.v
theories/ManyModel.v
theories/ManyProofs.v
theories/ManyProps.v
theories/ManySpec.v
theories/MergeModel.v
theories/MergeParts.v
theories/MergeProofs.v
theories/MergeProps.v
theories/MergeSpec.v
theories/MetaModel.v
theories/MetaProofs.v
theories/MetaProps.v
theories/MetaSpec.v
theories/MmkModel.v
theories/MmkProofs.v
theories/MmkProps.v
theories/MmkSpec.v
theories/NetModel.v
theories/NetProofs.v
theories/NetProps.v
theories/NetSpec.v
theories/NmcModel.v
theories/NmcProofs.v
theories/NmcProps.v
theories/NmcSpec.v
theories/NomenModel.v
theories/NomenProofs.v
theories/NomenProps.v
theories/NomenSpec.v
theories/NrmModel.v
theories/NrmProps.v
theories/NrmSpec.v
theories/P24Model.v
theories/P24Props.v
theories/P24Spec.v
theories/PassModel.v
theories/PassProofs.v
theories/PassProps.v
theories/PassSpec.v
theories/PhxProofs.v
theories/PhxProofs2.v
theories/PhxProps.v
theories/PhxProps2.v
theories/PhxSpec.v
theories/PrdModel.v
theories/PrdProps.v
theories/PrdSpec.v
theories/ProcModel.v
theories/ProcProofs.v
theories/ProcProps.v
theories/ProcSpec.v
theories/PyBase.v
theories/PyFacts.v
theories/PyFloat.v
theories/PyFloatFacts.v
theories/PyJson.v
theories/PyJsonFacts.v
theories/PyNum.v
theories/PyRepr.v
theories/PyReprFacts.v
theories/PySci.v
theories/PySciFacts.v
theories/PySort.v
theories/PyText.v
theories/RatModel.v
theories/RatProps.v
theories/RatSpec.v
theories/RemarkModel.v
theories/RemarkProofs.v
theories/RemarkProps.v
theories/RemarkSpec.v
theories/RemarkTrip.v
theories/RrefModel.v
theories/RrefProofs.v
theories/RrefProps.v
theories/RrefSpec.v
theories/SchModel.v
theories/SchProofs.v
theories/SchProps.v
theories/SchSpec.v
theories/SchemaModel.v
theories/SchemaProofs.v
theories/SchemaProps.v
theories/SchemaSpec.v
theories/SpectraModel.v
theories/SpectraProofs.v
theories/SpectraProps.v
theories/SpectraSpec.v
theories/SstModel.v
theories/SstProofs.v
theories/SstProofs2.v
theories/SstProofs3.v
theories/SstProps.v
theories/SstSpec.v
theories/StdModel.v
theories/StdProps.v
theories/StdSpec.v
theories/StrideModel.v
theories/StrideProofs.v
theories/StrideProps.v
theories/StrideSpec.v
theories/SurveyModel.v
theories/SurveyProofs.v
theories/SurveyProps.v
theories/SurveySpec.v
theories/SxmlChars.v
theories/SxmlModel.v
theories/SxmlProofs.v
theories/SxmlProps.v
theories/SxmlProps2.v
theories/SxmlProps3.v
theories/SxmlSpec.v
theories/TapModel.v
theories/TapProps.v
theories/TapSpec.v
theories/TeqModel.v
theories/TeqProofs.v
theories/TeqProps.v
theories/TeqSpec.v
theories/TextFacts.v
theories/TfEdiFile.v
theories/TfEdiModel.v
theories/TfEdiProps.v
theories/TfEdiSpec.v
theories/TfEffects.v
theories/TfEmtfModel.v
theories/TfEmtfProofs.v
theories/TfEmtfProps.v
theories/TfEmtfSpec.v
theories/TfModel.v
theories/TfProofs.v
theories/TfProps.v
theories/TfSpec.v
theories/TfZmmBack.v
theories/TfZmmFile.v
theories/TfZmmModel.v
theories/TfZmmProofs.v
theories/TfZmmProps.v
theories/TfZmmRead.v
theories/TfZmmSpec.v
theories/TfZmmTurn.v
theories/TjaModel.v
theories/TjaProofs.v
theories/TjaProps.v
theories/TjaSpec.v
theories/TmetaModel.v
theories/TmetaProofs.v
theories/TmetaProps.v
theories/TmetaSpec.v
theories/TmetaSteps.v
theories/TxlModel.v
theories/TxlProofs.v
theories/TxlProps.v
theories/TxlSpec.v
theories/UnitsModel.v
theories/UnitsProofs.v
theories/UnitsProps.v
theories/UnitsSpec.v
theories/ValidatorsModel.v
theories/ValidatorsProofs.v
theories/ValidatorsProps.v
theories/ValidatorsSpec.v
theories/VlsModel.v
theories/VlsProofs.v
theories/VlsProps.v
theories/VlsSpec.v
theories/VprModel.v
theories/VprProps.v
theories/VprSpec.v
theories/WeightComb.v
theories/WeightModel.v
theories/WeightProofs.v
theories/WeightProps.v
theories/WeightSpec.v
theories/WfbModel.v
theories/WfbProps.v
theories/WfbSpec.v
theories/WfnModel.v
theories/WfnProofs.v
theories/WfnProps.v
theories/WfnSpec.v
theories/WspModel.v
theories/WspProofs.v
theories/WspProps.v
theories/WspSpec.v
theories/XmlModel.v
theories/XmlProofs.v
theories/XmlProps.v
theories/XmlSpec.v
theories/ZchModel.v
theories/ZchProps.v
theories/ZchSpec.v
theories/ZheadFile.v
theories/ZheadModel.v
theories/ZheadProofs.v
theories/ZheadProps.v
theories/ZheadSpec.v
theories/ZmmBlock.v
theories/ZmmFile.v
theories/ZmmModel.v
theories/ZmmProofs.v
theories/ZmmProps.v
theories/ZmmSpec.v
theories/ZrotModel.v
theories/ZrotProofs.v
theories/ZrotProps.v
theories/ZrotSpec.v
