-Q theories Verif
theories/Base.v
theories/BaseFacts.v
theories/CoreModel.v
theories/CoreSpec.v
theories/CoreProofs.v
theories/CoreProps.v
theories/BitFacts.v
theories/StrModel.v
theories/StrFacts.v
theories/TextModel.v
theories/TextSpec.v
theories/TextProofs.v
theories/TextProps.v
theories/CpioModel.v
theories/CpioSpec.v
theories/CpioProofs.v
theories/CpioProps.v
theories/GzipModel.v
theories/GzipSpec.v
theories/GzipProofs.v
theories/GzipProps.v
theories/VarModel.v
theories/VarFacts.v
theories/LdbModel.v
theories/LdbSpec.v
theories/LdbProofs.v
theories/LdbLogProofs.v
theories/LdbTableProofs.v
theories/LdbProps.v
theories/HashModel.v
theories/HashSpec.v
theories/HashProofs.v
theories/HashProps.v
theories/ChromeModel.v
theories/ChromeSpec.v
theories/ChromeProofs.v
theories/StructFacts.v
theories/ChromeProps.v
theories/FmtModel.v
theories/FmtProofs.v
theories/FmtProps.v
theories/AulModel.v
theories/FmtSpec.v
theories/AulSpec.v
theories/AulFloat.v
theories/AulProofs.v
theories/AulProps.v
theories/DictModel.v
theories/SpotModel.v
theories/SpotSpec.v
theories/SpotProofs.v
theories/SpotRecProofs.v
theories/SpotTabProofs.v
theories/SpotAttrProofs.v
theories/SpotStoreProofs.v
theories/SpotProps.v
theories/SeqFacts.v
theories/SeqModel.v
theories/TzModel.v
theories/TzSpec.v
theories/TzProofs.v
theories/TzProps.v
theories/SeqSpec.v
theories/SafariModel.v
theories/SafariSpec.v
theories/SafariProofs.v
theories/SafariProps.v
theories/UsnModel.v
theories/UsnSpec.v
theories/UsnProofs.v
theories/UsnProps.v
theories/KcModel.v
theories/KcSpec.v
theories/KcProofs.v
theories/KcProps.v
theories/AslModel.v
theories/AslSpec.v
theories/AslProofs.v
theories/AslProps.v
theories/IppModel.v
theories/IppSpec.v
theories/IppProofs.v
theories/IppProps.v
theories/MemModel.v
theories/MemSpec.v
theories/MemFacts.v
theories/BsmModel.v
theories/BsmSpec.v
theories/BsmProofs.v
theories/BsmProps.v
theories/Ff1Model.v
theories/Ff1Spec.v
theories/Ff1Proofs.v
theories/Ff1Props.v
theories/FseModel.v
theories/FseProofs.v
theories/FseSpec.v
theories/FseProps.v
theories/UtmpModel.v
theories/UtmpSpec.v
theories/UtmpProofs.v
theories/UtmpProps.v
theories/ChainFacts.v
theories/JnlModel.v
theories/MemTools.v
theories/JnlSpec.v
theories/JnlProofs.v
theories/JnlProps.v
theories/Utf16Facts.v
theories/Utf16Model.v
theories/Utf16Spec.v
theories/ClModel.v
theories/ClSpec.v
theories/ClProofs.v
theories/ClProps.v
theories/RbModel.v
theories/RbProofs.v
theories/RbSpec.v
theories/RbProps.v
theories/WemfModel.v
theories/WemfSpec.v
theories/WemfProofs.v
theories/WemfProps.v
theories/WmiModel.v
theories/WmiSpec.v
theories/WmiMapProofs.v
theories/WmiIdxProofs.v
theories/WmiObjProofs.v
theories/WmiNameProofs.v
theories/WmiProps.v
theories/RdFacts.v
theories/RdModel.v
theories/RdSpec.v
theories/RpModel.v
theories/RpSpec.v
theories/RpProofs.v
theories/RpProps.v
theories/UuidFacts.v
theories/UuidModel.v
theories/UuidSpec.v
theories/JobModel.v
theories/JobProofs.v
theories/JobSpec.v
theories/JobProps.v
theories/AliasModel.v
theories/AliasProofs.v
theories/AliasSpec.v
theories/AliasProps.v
theories/BookModel.v
theories/BookSpec.v
theories/BookProofs.v
theories/BookProps.v
theories/DhModel.v
theories/DhSpec.v
theories/DhProofs.v
theories/DhProps.v
theories/JlModel.v
theories/JlSpec.v
theories/JlProofs.v
theories/JlProps.v
theories/TvModel.v
theories/TvSpec.v
theories/TvProofs.v
theories/TvProps.v
theories/CatModel.v
theories/CatSpec.v
theories/CatProofs.v
theories/CatProps.v
theories/FhModel.v
theories/FhSpec.v
theories/FhProofs.v
theories/FhProps.v
theories/FvModel.v
theories/FvSpec.v
theories/FvProofs.v
theories/FvProps.v
theories/ImModel.v
theories/ImSpec.v
theories/ImProofs.v
theories/ImProps.v
theories/LeModel.v
theories/LeSpec.v
theories/LeProofs.v
theories/LeProps.v
theories/SdModel.v
theories/SdSpec.v
theories/SdProofs.v
theories/SdProps.v
theories/DecModel.v
theories/DecSpec.v
theories/DecProofs.v
theories/DecProps.v
theories/WcdModel.v
theories/WcdSpec.v
theories/WcdProofs.v
theories/WcdProps.v
theories/WcmModel.v
theories/WcmSpec.v
theories/WcmProofs.v
theories/WcmProps.v
theories/WciModel.v
theories/WciSpec.v
theories/WciProofs.v
theories/WciProps.v
theories/WcrModel.v
theories/WcrSpec.v
theories/WcrProofs.v
theories/WcrProps.v
theories/WchModel.v
theories/WchSpec.v
theories/WchProofs.v
theories/WchProps.v
theories/WrpModel.v
theories/WrpSpec.v
theories/WrpProofs.v
theories/WrpProps.v
theories/WnsSpec.v
theories/WnsProofs.v
theories/WnsProps.v
theories/NkaModel.v
theories/NkaSpec.v
theories/NkaProofs.v
theories/NkaProps.v
theories/TvoModel.v
theories/TvoSpec.v
theories/TvoProofs.v
theories/TvoProps.v
theories/HpModel.v
theories/HpProofs.v
theories/HpProps.v
theories/UlModel.v
theories/UlSpec.v
theories/UlProofs.v
theories/UlProps.v
theories/AmcModel.v
theories/AmcSpec.v
theories/AmcProofs.v
theories/AmcProps.v
theories/WdbModel.v
theories/WdbSpec.v
theories/WdbProofs.v
theories/WdbProps.v
theories/KcdModel.v
theories/KcdSpec.v
theories/KcdProofs.v
theories/KcdProps.v
theories/BsdModel.v
theories/BsdSpec.v
theories/BsdProofs.v
theories/BsdTexts.v
theories/BsdProps.v
theories/CphModel.v
theories/CphSpec.v
theories/CphProofs.v
theories/CphProps.v
theories/SpvModel.v
theories/SpvSpec.v
theories/SpvNames.v
theories/SpvProofs.v
theories/SpvProps.v
theories/LdsModel.v
theories/LdsSpec.v
theories/LdsProofs.v
theories/LdsProps.v
theories/KcsModel.v
theories/KcsSpec.v
theories/KcsProofs.v
theories/KcsProps.v
theories/JlsModel.v
theories/JlsSpec.v
theories/JlsProofs.v
theories/JlsProps.v
theories/WmsModel.v
theories/WmsSpec.v
theories/WmsProofs.v
theories/WmsProps.v
theories/AnzModel.v
theories/AnzSpec.v
theories/AnzProofs.v
theories/AnzProps.v
