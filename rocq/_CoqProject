-Q theories Verif
theories/Bytes.v
theories/Text.v
theories/Dn.v
theories/DnProofs.v
theories/P_Dn.v
theories/Res.v
theories/Entry.v
theories/EntryProofs.v
theories/P_Entry.v
theories/Password.v
theories/PasswordProofs.v
theories/P_Password.v
theories/Db.v
theories/DbSpec.v
theories/IdProofs.v
theories/DbProofs.v
theories/DbOps.v
theories/DbSearch.v
theories/DbFacts.v
theories/DbMore.v
theories/Conc.v
theories/ConcProofs.v
theories/P_Db.v
theories/Packet.v
theories/Filter.v
theories/FilterProofs.v
theories/ScopeProofs.v
theories/P_Filter.v
theories/Encode.v
theories/EncodeProofs.v
theories/P_Encode.v
theories/Handler.v
theories/Server.v
theories/ServerProofs.v
theories/CrashProofs.v
theories/P_Server.v
theories/E2e.v
theories/E2eProofs.v
theories/P_E2e.v
theories/SessionProofs.v
theories/P_Session.v
theories/Ldif.v
theories/LdifProofs.v
theories/LdifMore.v
theories/P_Ldif.v
theories/Paging.v
theories/PagingProofs.v
theories/P_Paging.v
theories/Reload.v
theories/P_Reload.v
theories/Stats.v
theories/StatsProofs.v
theories/P_Stats.v
theories/Template.v
theories/TemplateProofs.v
theories/P_Template.v
theories/Source.v
theories/SourceProofs.v
theories/P_Source.v
theories/Gen.v
theories/GenProofs.v
theories/P_Gen.v
theories/Passwd.v
theories/P_Passwd.v
theories/Startup.v
theories/P_Startup.v
theories/Ber.v
theories/BerProofs.v
theories/Reply.v
theories/P_Wire.v
theories/P_Bind.v
theories/P_Names.v
theories/P_LdifMsg.v
theories/Life.v
theories/P_Life.v
theories/Conform.v
theories/FilterText.v
theories/FilterTextProofs.v
theories/P_FilterText.v
theories/Conns.v
theories/ConnsProofs.v
theories/P_Conns.v
theories/Mux.v
theories/P_Mux.v
theories/Cmdline.v
theories/P_Cmdline.v
theories/Counted.v
theories/CountedProofs.v
theories/P_Counted.v
theories/Procs.v
theories/ProcsProofs.v
theories/P_Procs.v
theories/Objects.v
theories/ObjectsProofs.v
theories/P_Objects.v
theories/AccountProofs.v
theories/P_Account.v
theories/LdifConns.v
theories/LdifConnsProofs.v
theories/P_LdifConns.v
theories/ProvisionProofs.v
theories/P_Provision.v
theories/TwinProofs.v
theories/P_Twin.v
theories/IsoProofs.v
theories/OrderProofs.v
theories/ListProofs.v
theories/P_Order.v
theories/P_Leak.v
theories/P_Malformed.v
theories/P_Judge.v
theories/P_Place.v
theories/P_Unmade.v
theories/P_Refine.v
theories/P_RefineWire.v
theories/P_Faults.v
theories/P_LdifJudge.v
theories/P_LdifRefine.v
theories/P_LdifVisit.v
