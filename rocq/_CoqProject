-Q theories Verif
theories/Base.v
theories/PyStr.v
theories/SpecBase.v
theories/BaseFacts.v
theories/ModelIP.v
theories/SpecIP.v
theories/IPFacts.v
theories/CollapseProofs.v
theories/CollapseMore.v
theories/ExcludeProofs.v
theories/TokenProofs.v
theories/Samples.v
theories/PropsIP.v
theories/ModelPorts.v
theories/SpecPorts.v
theories/PortProofs.v
theories/PropsPorts.v
theories/ModelSum.v
theories/SpecSum.v
theories/SumProofs.v
theories/PropsSum.v
theories/PyStrFacts.v
theories/ModelNaming.v
theories/SpecNaming.v
theories/NamingProofs.v
theories/ServiceProofs.v
theories/PortNameProofs.v
theories/ParentProofs.v
theories/LoadProofs.v
theories/DocProofs.v
theories/ModelParents.v
theories/SpecParents.v
theories/IpParentProofs.v
theories/PropsNaming.v
theories/ModelTerm.v
theories/ModelPolicy.v
theories/SpecPolicy.v
theories/PolicyProofs.v
theories/PropsPolicy.v
theories/ModelCheck.v
theories/SpecCheck.v
theories/CheckProofs.v
theories/PropsCheck.v
theories/ModelInclude.v
theories/SpecInclude.v
theories/IncludeProofs.v
theories/PropsInclude.v
theories/ModelGen.v
theories/SpecGen.v
theories/GenProofs.v
theories/GenProofs2.v
theories/WrapProofs.v
theories/PropsGen.v
theories/ModelText.v
theories/SpecText.v
theories/TextProofs.v
theories/ModelCisco.v
theories/SpecCisco.v
theories/CiscoProofs.v
theories/CiscoProofs2.v
theories/CiscoTerm.v
theories/CiscoAcl.v
theories/CiscoEst.v
theories/PropsCisco.v
theories/ModelAclgen.v
theories/SpecAclgen.v
theories/AclgenProofs.v
theories/PropsAclgen.v
theories/ModelJuniper.v
theories/SpecJuniper.v
theories/JuniperText.v
theories/JuniperProofs.v
theories/JuniperTerm.v
theories/JuniperFilter.v
theories/PropsJuniper.v
theories/ModelIptables.v
theories/SpecIptables.v
theories/IptText.v
theories/IptProofs.v
theories/IptLine.v
theories/IptPart.v
theories/IptCombo.v
theories/IptAddr.v
theories/IptTerm.v
theories/IptRule.v
theories/IptTermExact.v
theories/IptFilter.v
theories/IptTable.v
theories/IptPolicy.v
theories/PropsIptables.v
theories/ModelNft.v
theories/SpecNft.v
theories/NftText.v
theories/NftTerm.v
theories/NftRule.v
theories/NftRuleset.v
theories/NftChains.v
theories/NftPolicy.v
theories/NftWhole.v
theories/PropsNft.v
theories/ModelPcap.v
theories/SpecPcap.v
theories/PcapText.v
theories/PcapTerm.v
theories/PcapPolicy.v
theories/PropsPcap.v
theories/ModelCiscoGroup.v
theories/SpecCiscoGroup.v
theories/CiscoDup.v
theories/PropsCiscoGroup.v
theories/SpecCiscoRules.v
theories/CiscoGroupRead.v
theories/CiscoGroupTerm.v
theories/CiscoGroupAcl.v
theories/CiscoGroupDup.v
theories/ModelLex.v
theories/ModelParse.v
theories/SpecParse.v
theories/LexProofs.v
theories/ParseProofs.v
theories/SpecSaid.v
theories/BuildSteps.v
theories/BuildProofs.v
theories/SaidProofs.v
theories/SaidProofs2.v
theories/QuoteProofs.v
theories/PropsParse.v
theories/ModelGce.v
theories/SpecGce.v
theories/GceProofs.v
theories/GceRules.v
theories/GcePolicy.v
theories/GceDecide.v
theories/GceLimits.v
theories/GceNames.v
theories/PropsGce.v
theories/ModelWhole.v
theories/SpecWhole.v
theories/WholeProofs.v
theories/PropsWhole.v
theories/ModelOpenConfig.v
theories/SpecOpenConfig.v
theories/QuietTerm.v
theories/OpenConfigProofs.v
theories/OpenConfigPolicy.v
theories/PropsOpenConfig.v
theories/ModelSonic.v
theories/SpecSonic.v
theories/SonicProofs.v
theories/SonicPolicy.v
theories/PropsSonic.v
theories/ModelCloudArmor.v
theories/SpecCloudArmor.v
theories/CloudArmorProofs.v
theories/PropsCloudArmor.v
theories/ModelK8s.v
theories/SpecK8s.v
theories/K8sProofs.v
theories/PropsK8s.v
theories/ModelGcpHf.v
theories/SpecGcpHf.v
theories/GcpHfProofs.v
theories/GcpHfPolicy.v
theories/GcpHfLimits.v
theories/PropsGcpHf.v
theories/ModelAruba.v
theories/SpecAruba.v
theories/ArubaProofs.v
theories/ArubaAcl.v
theories/ArubaRead.v
theories/ArubaPolicy.v
theories/PropsAruba.v
theories/ModelAsa.v
theories/SpecAsa.v
theories/AsaProofs.v
theories/AsaPolicy.v
theories/PropsAsa.v
theories/PropsExpiry.v
theories/ModelSrx.v
theories/SpecSrx.v
theories/SrxText.v
theories/SrxRead.v
theories/SrxBook.v
theories/SrxBookText.v
theories/SrxApps.v
theories/SrxTerm.v
theories/SrxPolicy.v
theories/SrxWhole.v
theories/SrxDecide.v
theories/SrxLarge.v
theories/PropsSrx.v
theories/ModelPf.v
theories/SpecPf.v
theories/PfText.v
theories/PfRule.v
theories/PfMatch.v
theories/PfFlags.v
theories/PfTerm.v
theories/PfPolicy.v
theories/PropsPf.v
theories/ModelWin.v
theories/SpecWin.v
theories/WinProofs.v
theories/WinPolicy.v
theories/PropsWin.v
theories/ModelNsx.v
theories/SpecNsx.v
theories/NsxProofs.v
theories/NsxPolicy.v
theories/PropsNsx.v
theories/ModelJunPolicy.v
theories/SpecJunPolicy.v
theories/JunPolicy.v
theories/PropsJunPolicy.v
theories/ModelIpsec.v
theories/SpecIpsec.v
theories/IpsecProofs.v
theories/IpsecPolicy.v
theories/PropsIpsec.v
theories/ModelTf.v
theories/SpecTf.v
theories/TfRules.v
theories/TfPolicy.v
theories/TfDecide.v
theories/TfNumbers.v
theories/PropsTf.v
theories/ModelReader.v
theories/SpecReader.v
theories/ReaderProofs.v
theories/ReaderSearch.v
theories/PropsReader.v
theories/ModelIpset.v
theories/SpecIpset.v
theories/IpsetProofs.v
theories/IpsetPolicy.v
theories/PropsIpset.v
theories/ModelCgrep.v
theories/SpecCgrep.v
theories/CgrepProofs.v
theories/PropsCgrep.v
theories/ModelNsxv.v
theories/SpecNsxv.v
theories/NsxvRead.v
theories/NsxvProofs.v
theories/NsxvPolicy.v
theories/PropsNsxv.v
theories/ModelEvo.v
theories/SpecEvo.v
theories/EvoProofs.v
theories/PropsEvo.v
theories/ModelMsmpc.v
theories/SpecMsmpc.v
theories/MsmpcProofs.v
theories/PropsMsmpc.v
theories/MsmpcOptions.v
theories/ModelMsmpcAddr.v
theories/SpecMsmpcAddr.v
theories/MsmpcAddr.v
theories/PropsMsmpcAddr.v
