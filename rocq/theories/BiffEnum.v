(** Model of rxls/biff_enum.py: the name table (biff_enum.py:4-848), transcribed by
    tools/gen_biff_enum.py, and the name lookups of rxls/biff.py. *)
From Verif Require Import Py Biff.

Definition biff_enum_ascii : list (string * Z) := [
  ("BrtRowHdr"%string, 0);
  ("BrtCellBlank"%string, 1);
  ("BrtCellRk"%string, 2);
  ("BrtCellError"%string, 3);
  ("BrtCellBool"%string, 4);
  ("BrtCellReal"%string, 5);
  ("BrtCellSt"%string, 6);
  ("BrtCellIsst"%string, 7);
  ("BrtFmlaString"%string, 8);
  ("BrtFmlaNum"%string, 9);
  ("BrtFmlaBool"%string, 10);
  ("BrtFmlaError"%string, 11);
  ("BrtSSTItem"%string, 19);
  ("BrtPCDIMissing"%string, 20);
  ("BrtPCDINumber"%string, 21);
  ("BrtPCDIBoolean"%string, 22);
  ("BrtPCDIError"%string, 23);
  ("BrtPCDIString"%string, 24);
  ("BrtPCDIDatetime"%string, 25);
  ("BrtPCDIIndex"%string, 26);
  ("BrtPCDIAMissing"%string, 27);
  ("BrtPCDIANumber"%string, 28);
  ("BrtPCDIABoolean"%string, 29);
  ("BrtPCDIAError"%string, 30);
  ("BrtPCDIAString"%string, 31);
  ("BrtPCDIADatetime"%string, 32);
  ("BrtPCRRecord"%string, 33);
  ("BrtPCRRecordDt"%string, 34);
  ("BrtFRTBegin"%string, 35);
  ("BrtFRTEnd"%string, 36);
  ("BrtACBegin"%string, 37);
  ("BrtACEnd"%string, 38);
  ("BrtName"%string, 39);
  ("BrtIndexRowBlock"%string, 40);
  ("BrtIndexBlock"%string, 42);
  ("BrtFont"%string, 43);
  ("BrtFmt"%string, 44);
  ("BrtFill"%string, 45);
  ("BrtBorder"%string, 46);
  ("BrtXF"%string, 47);
  ("BrtStyle"%string, 48);
  ("BrtCellMeta"%string, 49);
  ("BrtValueMeta"%string, 50);
  ("BrtMdb"%string, 51);
  ("BrtBeginFmd"%string, 52);
  ("BrtEndFmd"%string, 53);
  ("BrtBeginMdx"%string, 54);
  ("BrtEndMdx"%string, 55);
  ("BrtBeginMdxTuple"%string, 56);
  ("BrtEndMdxTuple"%string, 57);
  ("BrtMdxMbrIstr"%string, 58);
  ("BrtStr"%string, 59);
  ("BrtColInfo"%string, 60);
  ("BrtCellRString"%string, 62);
  ("BrtDVal"%string, 64);
  ("BrtSxvcellNum"%string, 65);
  ("BrtSxvcellStr"%string, 66);
  ("BrtSxvcellBool"%string, 67);
  ("BrtSxvcellErr"%string, 68);
  ("BrtSxvcellDate"%string, 69);
  ("BrtSxvcellNil"%string, 70);
  ("BrtFileVersion"%string, 384);
  ("BrtBeginSheet"%string, 385);
  ("BrtEndSheet"%string, 386);
  ("BrtBeginBook"%string, 387);
  ("BrtEndBook"%string, 388);
  ("BrtBeginWsViews"%string, 389);
  ("BrtEndWsViews"%string, 390);
  ("BrtBeginBookViews"%string, 391);
  ("BrtEndBookViews"%string, 392);
  ("BrtBeginWsView"%string, 393);
  ("BrtEndWsView"%string, 394);
  ("BrtBeginCsViews"%string, 395);
  ("BrtEndCsViews"%string, 396);
  ("BrtBeginCsView"%string, 397);
  ("BrtEndCsView"%string, 398);
  ("BrtBeginBundleShs"%string, 399);
  ("BrtEndBundleShs"%string, 400);
  ("BrtBeginSheetData"%string, 401);
  ("BrtEndSheetData"%string, 402);
  ("BrtWsProp"%string, 403);
  ("BrtWsDim"%string, 404);
  ("BrtPane"%string, 407);
  ("BrtSel"%string, 408);
  ("BrtWbProp"%string, 409);
  ("BrtWbFactoid"%string, 410);
  ("BrtFileRecover"%string, 411);
  ("BrtBundleSh"%string, 412);
  ("BrtCalcProp"%string, 413);
  ("BrtBookView"%string, 414);
  ("BrtBeginSst"%string, 415);
  ("BrtEndSst"%string, 416);
  ("BrtBeginAFilter"%string, 417);
  ("BrtEndAFilter"%string, 418);
  ("BrtBeginFilterColumn"%string, 419);
  ("BrtEndFilterColumn"%string, 420);
  ("BrtBeginFilters"%string, 421);
  ("BrtEndFilters"%string, 422);
  ("BrtFilter"%string, 423);
  ("BrtColorFilter"%string, 424);
  ("BrtIconFilter"%string, 425);
  ("BrtTop10Filter"%string, 426);
  ("BrtDynamicFilter"%string, 427);
  ("BrtBeginCustomFilters"%string, 428);
  ("BrtEndCustomFilters"%string, 429);
  ("BrtCustomFilter"%string, 430);
  ("BrtAFilterDateGroupItem"%string, 431);
  ("BrtMergeCell"%string, 432);
  ("BrtBeginMergeCells"%string, 433);
  ("BrtEndMergeCells"%string, 434);
  ("BrtBeginPivotCacheDef"%string, 435);
  ("BrtEndPivotCacheDef"%string, 436);
  ("BrtBeginPCDFields"%string, 437);
  ("BrtEndPCDFields"%string, 438);
  ("BrtBeginPCDField"%string, 439);
  ("BrtEndPCDField"%string, 440);
  ("BrtBeginPCDSource"%string, 441);
  ("BrtEndPCDSource"%string, 442);
  ("BrtBeginPCDSRange"%string, 443);
  ("BrtEndPCDSRange"%string, 444);
  ("BrtBeginPCDFAtbl"%string, 445);
  ("BrtEndPCDFAtbl"%string, 446);
  ("BrtBeginPCDIRun"%string, 447);
  ("BrtEndPCDIRun"%string, 448);
  ("BrtBeginPivotCacheRecords"%string, 449);
  ("BrtEndPivotCacheRecords"%string, 450);
  ("BrtBeginPCDHierarchies"%string, 451);
  ("BrtEndPCDHierarchies"%string, 452);
  ("BrtBeginPCDHierarchy"%string, 453);
  ("BrtEndPCDHierarchy"%string, 454);
  ("BrtBeginPCDHFieldsUsage"%string, 455);
  ("BrtEndPCDHFieldsUsage"%string, 456);
  ("BrtBeginExtConnection"%string, 457);
  ("BrtEndExtConnection"%string, 458);
  ("BrtBeginECDbProps"%string, 459);
  ("BrtEndECDbProps"%string, 460);
  ("BrtBeginECOlapProps"%string, 461);
  ("BrtEndECOlapProps"%string, 462);
  ("BrtBeginPCDSConsol"%string, 463);
  ("BrtEndPCDSConsol"%string, 464);
  ("BrtBeginPCDSCPages"%string, 465);
  ("BrtEndPCDSCPages"%string, 466);
  ("BrtBeginPCDSCPage"%string, 467);
  ("BrtEndPCDSCPage"%string, 468);
  ("BrtBeginPCDSCPItem"%string, 469);
  ("BrtEndPCDSCPItem"%string, 470);
  ("BrtBeginPCDSCSets"%string, 471);
  ("BrtEndPCDSCSets"%string, 472);
  ("BrtBeginPCDSCSet"%string, 473);
  ("BrtEndPCDSCSet"%string, 474);
  ("BrtBeginPCDFGroup"%string, 475);
  ("BrtEndPCDFGroup"%string, 476);
  ("BrtBeginPCDFGItems"%string, 477);
  ("BrtEndPCDFGItems"%string, 478);
  ("BrtBeginPCDFGRange"%string, 479);
  ("BrtEndPCDFGRange"%string, 480);
  ("BrtBeginPCDFGDiscrete"%string, 481);
  ("BrtEndPCDFGDiscrete"%string, 482);
  ("BrtBeginPCDSDTupleCache"%string, 483);
  ("BrtEndPCDSDTupleCache"%string, 484);
  ("BrtBeginPCDSDTCEntries"%string, 485);
  ("BrtEndPCDSDTCEntries"%string, 486);
  ("BrtBeginPCDSDTCEMembers"%string, 487);
  ("BrtEndPCDSDTCEMembers"%string, 488);
  ("BrtBeginPCDSDTCEMember"%string, 489);
  ("BrtEndPCDSDTCEMember"%string, 490);
  ("BrtBeginPCDSDTCQueries"%string, 491);
  ("BrtEndPCDSDTCQueries"%string, 492);
  ("BrtBeginPCDSDTCQuery"%string, 493);
  ("BrtEndPCDSDTCQuery"%string, 494);
  ("BrtBeginPCDSDTCSets"%string, 495);
  ("BrtEndPCDSDTCSets"%string, 496);
  ("BrtBeginPCDSDTCSet"%string, 497);
  ("BrtEndPCDSDTCSet"%string, 498);
  ("BrtBeginPCDCalcItems"%string, 499);
  ("BrtEndPCDCalcItems"%string, 500);
  ("BrtBeginPCDCalcItem"%string, 501);
  ("BrtEndPCDCalcItem"%string, 502);
  ("BrtBeginPRule"%string, 503);
  ("BrtEndPRule"%string, 504);
  ("BrtBeginPRFilters"%string, 505);
  ("BrtEndPRFilters"%string, 506);
  ("BrtBeginPRFilter"%string, 507);
  ("BrtEndPRFilter"%string, 508);
  ("BrtBeginPNames"%string, 509);
  ("BrtEndPNames"%string, 510);
  ("BrtBeginPName"%string, 511);
  ("BrtEndPName"%string, 640);
  ("BrtBeginPNPairs"%string, 641);
  ("BrtEndPNPairs"%string, 642);
  ("BrtBeginPNPair"%string, 643);
  ("BrtEndPNPair"%string, 644);
  ("BrtBeginECWebProps"%string, 645);
  ("BrtEndECWebProps"%string, 646);
  ("BrtBeginEcWpTables"%string, 647);
  ("BrtEndECWPTables"%string, 648);
  ("BrtBeginECParams"%string, 649);
  ("BrtEndECParams"%string, 650);
  ("BrtBeginECParam"%string, 651);
  ("BrtEndECParam"%string, 652);
  ("BrtBeginPCDKPIs"%string, 653);
  ("BrtEndPCDKPIs"%string, 654);
  ("BrtBeginPCDKPI"%string, 655);
  ("BrtEndPCDKPI"%string, 656);
  ("BrtBeginDims"%string, 657);
  ("BrtEndDims"%string, 658);
  ("BrtBeginDim"%string, 659);
  ("BrtEndDim"%string, 660);
  ("BrtIndexPartEnd"%string, 661);
  ("BrtBeginStyleSheet"%string, 662);
  ("BrtEndStyleSheet"%string, 663);
  ("BrtBeginSXView"%string, 664);
  ("BrtEndSXVI"%string, 665);
  ("BrtBeginSXVI"%string, 666);
  ("BrtBeginSXVIs"%string, 667);
  ("BrtEndSXVIs"%string, 668);
  ("BrtBeginSXVD"%string, 669);
  ("BrtEndSXVD"%string, 670);
  ("BrtBeginSXVDs"%string, 671);
  ("BrtEndSXVDs"%string, 672);
  ("BrtBeginSXPI"%string, 673);
  ("BrtEndSXPI"%string, 674);
  ("BrtBeginSXPIs"%string, 675);
  ("BrtEndSXPIs"%string, 676);
  ("BrtBeginSXDI"%string, 677);
  ("BrtEndSXDI"%string, 678);
  ("BrtBeginSXDIs"%string, 679);
  ("BrtEndSXDIs"%string, 680);
  ("BrtBeginSXLI"%string, 681);
  ("BrtEndSXLI"%string, 682);
  ("BrtBeginSXLIRws"%string, 683);
  ("BrtEndSXLIRws"%string, 684);
  ("BrtBeginSXLICols"%string, 685);
  ("BrtEndSXLICols"%string, 686);
  ("BrtBeginSXFormat"%string, 687);
  ("BrtEndSXFormat"%string, 688);
  ("BrtBeginSXFormats"%string, 689);
  ("BrtEndSxFormats"%string, 690);
  ("BrtBeginSxSelect"%string, 691);
  ("BrtEndSxSelect"%string, 692);
  ("BrtBeginISXVDRws"%string, 693);
  ("BrtEndISXVDRws"%string, 694);
  ("BrtBeginISXVDCols"%string, 695);
  ("BrtEndISXVDCols"%string, 696);
  ("BrtEndSXLocation"%string, 697);
  ("BrtBeginSXLocation"%string, 698);
  ("BrtEndSXView"%string, 699);
  ("BrtBeginSXTHs"%string, 700);
  ("BrtEndSXTHs"%string, 701);
  ("BrtBeginSXTH"%string, 702);
  ("BrtEndSXTH"%string, 703);
  ("BrtBeginISXTHRws"%string, 704);
  ("BrtEndISXTHRws"%string, 705);
  ("BrtBeginISXTHCols"%string, 706);
  ("BrtEndISXTHCols"%string, 707);
  ("BrtBeginSXTDMPS"%string, 708);
  ("BrtEndSXTDMPs"%string, 709);
  ("BrtBeginSXTDMP"%string, 710);
  ("BrtEndSXTDMP"%string, 711);
  ("BrtBeginSXTHItems"%string, 712);
  ("BrtEndSXTHItems"%string, 713);
  ("BrtBeginSXTHItem"%string, 714);
  ("BrtEndSXTHItem"%string, 715);
  ("BrtBeginMetadata"%string, 716);
  ("BrtEndMetadata"%string, 717);
  ("BrtBeginEsmdtinfo"%string, 718);
  ("BrtMdtinfo"%string, 719);
  ("BrtEndEsmdtinfo"%string, 720);
  ("BrtBeginEsmdb"%string, 721);
  ("BrtEndEsmdb"%string, 722);
  ("BrtBeginEsfmd"%string, 723);
  ("BrtEndEsfmd"%string, 724);
  ("BrtBeginSingleCells"%string, 725);
  ("BrtEndSingleCells"%string, 726);
  ("BrtBeginList"%string, 727);
  ("BrtEndList"%string, 728);
  ("BrtBeginListCols"%string, 729);
  ("BrtEndListCols"%string, 730);
  ("BrtBeginListCol"%string, 731);
  ("BrtEndListCol"%string, 732);
  ("BrtBeginListXmlCPr"%string, 733);
  ("BrtEndListXmlCPr"%string, 734);
  ("BrtListCCFmla"%string, 735);
  ("BrtListTrFmla"%string, 736);
  ("BrtBeginExternals"%string, 737);
  ("BrtEndExternals"%string, 738);
  ("BrtSupBookSrc"%string, 739);
  ("BrtSupSelf"%string, 741);
  ("BrtSupSame"%string, 742);
  ("BrtSupTabs"%string, 743);
  ("BrtBeginSupBook"%string, 744);
  ("BrtPlaceholderName"%string, 745);
  ("BrtExternSheet"%string, 746);
  ("BrtExternTableStart"%string, 747);
  ("BrtExternTableEnd"%string, 748);
  ("BrtExternRowHdr"%string, 750);
  ("BrtExternCellBlank"%string, 751);
  ("BrtExternCellReal"%string, 752);
  ("BrtExternCellBool"%string, 753);
  ("BrtExternCellError"%string, 754);
  ("BrtExternCellString"%string, 755);
  ("BrtBeginEsmdx"%string, 756);
  ("BrtEndEsmdx"%string, 757);
  ("BrtBeginMdxSet"%string, 758);
  ("BrtEndMdxSet"%string, 759);
  ("BrtBeginMdxMbrProp"%string, 760);
  ("BrtEndMdxMbrProp"%string, 761);
  ("BrtBeginMdxKPI"%string, 762);
  ("BrtEndMdxKPI"%string, 763);
  ("BrtBeginEsstr"%string, 764);
  ("BrtEndEsstr"%string, 765);
  ("BrtBeginPRFItem"%string, 766);
  ("BrtEndPRFItem"%string, 767);
  ("BrtBeginPivotCacheIDs"%string, 896);
  ("BrtEndPivotCacheIDs"%string, 897);
  ("BrtBeginPivotCacheID"%string, 898);
  ("BrtEndPivotCacheID"%string, 899);
  ("BrtBeginISXVIs"%string, 900);
  ("BrtEndISXVIs"%string, 901);
  ("BrtBeginColInfos"%string, 902);
  ("BrtEndColInfos"%string, 903);
  ("BrtBeginRwBrk"%string, 904);
  ("BrtEndRwBrk"%string, 905);
  ("BrtBeginColBrk"%string, 906);
  ("BrtEndColBrk"%string, 907);
  ("BrtBrk"%string, 908);
  ("BrtUserBookView"%string, 909);
  ("BrtInfo"%string, 910);
  ("BrtCUsr"%string, 911);
  ("BrtUsr"%string, 912);
  ("BrtBeginUsers"%string, 913);
  ("BrtEOF"%string, 915);
  ("BrtUCR"%string, 916);
  ("BrtRRInsDel"%string, 917);
  ("BrtRREndInsDel"%string, 918);
  ("BrtRRMove"%string, 919);
  ("BrtRREndMove"%string, 920);
  ("BrtRRChgCell"%string, 921);
  ("BrtRREndChgCell"%string, 922);
  ("BrtRRHeader"%string, 923);
  ("BrtRRUserView"%string, 924);
  ("BrtRRRenSheet"%string, 925);
  ("BrtRRInsertSh"%string, 926);
  ("BrtRRDefName"%string, 927);
  ("BrtRRNote"%string, 928);
  ("BrtRRConflict"%string, 929);
  ("BrtRRTQSIF"%string, 930);
  ("BrtRRFormat"%string, 931);
  ("BrtRREndFormat"%string, 932);
  ("BrtRRAutoFmt"%string, 933);
  ("BrtBeginUserShViews"%string, 934);
  ("BrtBeginUserShView"%string, 935);
  ("BrtEndUserShView"%string, 936);
  ("BrtEndUserShViews"%string, 937);
  ("BrtArrFmla"%string, 938);
  ("BrtShrFmla"%string, 939);
  ("BrtTable"%string, 940);
  ("BrtBeginExtConnections"%string, 941);
  ("BrtEndExtConnections"%string, 942);
  ("BrtBeginPCDCalcMems"%string, 943);
  ("BrtEndPCDCalcMems"%string, 944);
  ("BrtBeginPCDCalcMem"%string, 945);
  ("BrtEndPCDCalcMem"%string, 946);
  ("BrtBeginPCDHGLevels"%string, 947);
  ("BrtEndPCDHGLevels"%string, 948);
  ("BrtBeginPCDHGLevel"%string, 949);
  ("BrtEndPCDHGLevel"%string, 950);
  ("BrtBeginPCDHGLGroups"%string, 951);
  ("BrtEndPCDHGLGroups"%string, 952);
  ("BrtBeginPCDHGLGroup"%string, 953);
  ("BrtEndPCDHGLGroup"%string, 954);
  ("BrtBeginPCDHGLGMembers"%string, 955);
  ("BrtEndPCDHGLGMembers"%string, 956);
  ("BrtBeginPCDHGLGMember"%string, 957);
  ("BrtEndPCDHGLGMember"%string, 958);
  ("BrtBeginQSI"%string, 959);
  ("BrtEndQSI"%string, 960);
  ("BrtBeginQSIR"%string, 961);
  ("BrtEndQSIR"%string, 962);
  ("BrtBeginDeletedNames"%string, 963);
  ("BrtEndDeletedNames"%string, 964);
  ("BrtBeginDeletedName"%string, 965);
  ("BrtEndDeletedName"%string, 966);
  ("BrtBeginQSIFs"%string, 967);
  ("BrtEndQSIFs"%string, 968);
  ("BrtBeginQSIF"%string, 969);
  ("BrtEndQSIF"%string, 970);
  ("BrtBeginAutoSortScope"%string, 971);
  ("BrtEndAutoSortScope"%string, 972);
  ("BrtBeginConditionalFormatting"%string, 973);
  ("BrtEndConditionalFormatting"%string, 974);
  ("BrtBeginCFRule"%string, 975);
  ("BrtEndCFRule"%string, 976);
  ("BrtBeginIconSet"%string, 977);
  ("BrtEndIconSet"%string, 978);
  ("BrtBeginDatabar"%string, 979);
  ("BrtEndDatabar"%string, 980);
  ("BrtBeginColorScale"%string, 981);
  ("BrtEndColorScale"%string, 982);
  ("BrtCFVO"%string, 983);
  ("BrtExternValueMeta"%string, 984);
  ("BrtBeginColorPalette"%string, 985);
  ("BrtEndColorPalette"%string, 986);
  ("BrtIndexedColor"%string, 987);
  ("BrtMargins"%string, 988);
  ("BrtPrintOptions"%string, 989);
  ("BrtPageSetup"%string, 990);
  ("BrtBeginHeaderFooter"%string, 991);
  ("BrtEndHeaderFooter"%string, 992);
  ("BrtBeginSXCrtFormat"%string, 993);
  ("BrtEndSXCrtFormat"%string, 994);
  ("BrtBeginSXCrtFormats"%string, 995);
  ("BrtEndSXCrtFormats"%string, 996);
  ("BrtWsFmtInfo"%string, 997);
  ("BrtBeginMgs"%string, 998);
  ("BrtEndMGs"%string, 999);
  ("BrtBeginMGMaps"%string, 1000);
  ("BrtEndMGMaps"%string, 1001);
  ("BrtBeginMG"%string, 1002);
  ("BrtEndMG"%string, 1003);
  ("BrtBeginMap"%string, 1004);
  ("BrtEndMap"%string, 1005);
  ("BrtHLink"%string, 1006);
  ("BrtBeginDCon"%string, 1007);
  ("BrtEndDCon"%string, 1008);
  ("BrtBeginDRefs"%string, 1009);
  ("BrtEndDRefs"%string, 1010);
  ("BrtDRef"%string, 1011);
  ("BrtBeginScenMan"%string, 1012);
  ("BrtEndScenMan"%string, 1013);
  ("BrtBeginSct"%string, 1014);
  ("BrtEndSct"%string, 1015);
  ("BrtSlc"%string, 1016);
  ("BrtBeginDXFs"%string, 1017);
  ("BrtEndDXFs"%string, 1018);
  ("BrtDXF"%string, 1019);
  ("BrtBeginTableStyles"%string, 1020);
  ("BrtEndTableStyles"%string, 1021);
  ("BrtBeginTableStyle"%string, 1022);
  ("BrtEndTableStyle"%string, 1023);
  ("BrtTableStyleElement"%string, 1152);
  ("BrtTableStyleClient"%string, 1153);
  ("BrtBeginVolDeps"%string, 1154);
  ("BrtEndVolDeps"%string, 1155);
  ("BrtBeginVolType"%string, 1156);
  ("BrtEndVolType"%string, 1157);
  ("BrtBeginVolMain"%string, 1158);
  ("BrtEndVolMain"%string, 1159);
  ("BrtBeginVolTopic"%string, 1160);
  ("BrtEndVolTopic"%string, 1161);
  ("BrtVolSubtopic"%string, 1162);
  ("BrtVolRef"%string, 1163);
  ("BrtVolNum"%string, 1164);
  ("BrtVolErr"%string, 1165);
  ("BrtVolStr"%string, 1166);
  ("BrtVolBool"%string, 1167);
  ("BrtBeginSortState"%string, 1170);
  ("BrtEndSortState"%string, 1171);
  ("BrtBeginSortCond"%string, 1172);
  ("BrtEndSortCond"%string, 1173);
  ("BrtBookProtection"%string, 1174);
  ("BrtSheetProtection"%string, 1175);
  ("BrtRangeProtection"%string, 1176);
  ("BrtPhoneticInfo"%string, 1177);
  ("BrtBeginECTxtWiz"%string, 1178);
  ("BrtEndECTxtWiz"%string, 1179);
  ("BrtBeginECTWFldInfoLst"%string, 1180);
  ("BrtEndECTWFldInfoLst"%string, 1181);
  ("BrtBeginECTwFldInfo"%string, 1182);
  ("BrtFileSharing"%string, 1188);
  ("BrtOleSize"%string, 1189);
  ("BrtDrawing"%string, 1190);
  ("BrtLegacyDrawing"%string, 1191);
  ("BrtLegacyDrawingHF"%string, 1192);
  ("BrtWebOpt"%string, 1193);
  ("BrtBeginWebPubItems"%string, 1194);
  ("BrtEndWebPubItems"%string, 1195);
  ("BrtBeginWebPubItem"%string, 1196);
  ("BrtEndWebPubItem"%string, 1197);
  ("BrtBeginSXCondFmt"%string, 1198);
  ("BrtEndSXCondFmt"%string, 1199);
  ("BrtBeginSXCondFmts"%string, 1200);
  ("BrtEndSXCondFmts"%string, 1201);
  ("BrtBkHim"%string, 1202);
  ("BrtColor"%string, 1204);
  ("BrtBeginIndexedColors"%string, 1205);
  ("BrtEndIndexedColors"%string, 1206);
  ("BrtBeginMRUColors"%string, 1209);
  ("BrtEndMRUColors"%string, 1210);
  ("BrtMRUColor"%string, 1212);
  ("BrtBeginDVals"%string, 1213);
  ("BrtEndDVals"%string, 1214);
  ("BrtSupNameStart"%string, 1217);
  ("BrtSupNameValueStart"%string, 1218);
  ("BrtSupNameValueEnd"%string, 1219);
  ("BrtSupNameNum"%string, 1220);
  ("BrtSupNameErr"%string, 1221);
  ("BrtSupNameSt"%string, 1222);
  ("BrtSupNameNil"%string, 1223);
  ("BrtSupNameBool"%string, 1224);
  ("BrtSupNameFmla"%string, 1225);
  ("BrtSupNameBits"%string, 1226);
  ("BrtSupNameEnd"%string, 1227);
  ("BrtEndSupBook"%string, 1228);
  ("BrtCellSmartTagProperty"%string, 1229);
  ("BrtBeginCellSmartTag"%string, 1230);
  ("BrtEndCellSmartTag"%string, 1231);
  ("BrtBeginCellSmartTags"%string, 1232);
  ("BrtEndCellSmartTags"%string, 1233);
  ("BrtBeginSmartTags"%string, 1234);
  ("BrtEndSmartTags"%string, 1235);
  ("BrtSmartTagType"%string, 1236);
  ("BrtBeginSmartTagTypes"%string, 1237);
  ("BrtEndSmartTagTypes"%string, 1238);
  ("BrtBeginSXFilters"%string, 1239);
  ("BrtEndSXFilters"%string, 1240);
  ("BrtBeginSXFILTER"%string, 1241);
  ("BrtEndSXFilter"%string, 1242);
  ("BrtBeginFills"%string, 1243);
  ("BrtEndFills"%string, 1244);
  ("BrtBeginCellWatches"%string, 1245);
  ("BrtEndCellWatches"%string, 1246);
  ("BrtCellWatch"%string, 1247);
  ("BrtBeginCRErrs"%string, 1248);
  ("BrtEndCRErrs"%string, 1249);
  ("BrtCrashRecErr"%string, 1250);
  ("BrtBeginFonts"%string, 1251);
  ("BrtEndFonts"%string, 1252);
  ("BrtBeginBorders"%string, 1253);
  ("BrtEndBorders"%string, 1254);
  ("BrtBeginFmts"%string, 1255);
  ("BrtEndFmts"%string, 1256);
  ("BrtBeginCellXFs"%string, 1257);
  ("BrtEndCellXFs"%string, 1258);
  ("BrtBeginStyles"%string, 1259);
  ("BrtEndStyles"%string, 1260);
  ("BrtBigName"%string, 1265);
  ("BrtBeginCellStyleXFs"%string, 1266);
  ("BrtEndCellStyleXFs"%string, 1267);
  ("BrtBeginComments"%string, 1268);
  ("BrtEndComments"%string, 1269);
  ("BrtBeginCommentAuthors"%string, 1270);
  ("BrtEndCommentAuthors"%string, 1271);
  ("BrtCommentAuthor"%string, 1272);
  ("BrtBeginCommentList"%string, 1273);
  ("BrtEndCommentList"%string, 1274);
  ("BrtBeginComment"%string, 1275);
  ("BrtEndComment"%string, 1276);
  ("BrtCommentText"%string, 1277);
  ("BrtBeginOleObjects"%string, 1278);
  ("BrtOleObject"%string, 1279);
  ("BrtEndOleObjects"%string, 1408);
  ("BrtBeginSxrules"%string, 1409);
  ("BrtEndSxRules"%string, 1410);
  ("BrtBeginActiveXControls"%string, 1411);
  ("BrtActiveX"%string, 1412);
  ("BrtEndActiveXControls"%string, 1413);
  ("BrtBeginPCDSDTCEMembersSortBy"%string, 1414);
  ("BrtBeginCellIgnoreECs"%string, 1416);
  ("BrtCellIgnoreEC"%string, 1417);
  ("BrtEndCellIgnoreECs"%string, 1418);
  ("BrtCsProp"%string, 1419);
  ("BrtCsPageSetup"%string, 1420);
  ("BrtBeginUserCsViews"%string, 1421);
  ("BrtEndUserCsViews"%string, 1422);
  ("BrtBeginUserCsView"%string, 1423);
  ("BrtEndUserCsView"%string, 1424);
  ("BrtBeginPcdSFCIEntries"%string, 1425);
  ("BrtEndPCDSFCIEntries"%string, 1426);
  ("BrtPCDSFCIEntry"%string, 1427);
  ("BrtBeginListParts"%string, 1428);
  ("BrtListPart"%string, 1429);
  ("BrtEndListParts"%string, 1430);
  ("BrtSheetCalcProp"%string, 1431);
  ("BrtBeginFnGroup"%string, 1432);
  ("BrtFnGroup"%string, 1433);
  ("BrtEndFnGroup"%string, 1434);
  ("BrtSupAddin"%string, 1435);
  ("BrtSXTDMPOrder"%string, 1436);
  ("BrtCsProtection"%string, 1437);
  ("BrtBeginWsSortMap"%string, 1439);
  ("BrtEndWsSortMap"%string, 1440);
  ("BrtBeginRRSort"%string, 1441);
  ("BrtEndRRSort"%string, 1442);
  ("BrtRRSortItem"%string, 1443);
  ("BrtFileSharingIso"%string, 1444);
  ("BrtBookProtectionIso"%string, 1445);
  ("BrtSheetProtectionIso"%string, 1446);
  ("BrtCsProtectionIso"%string, 1447);
  ("BrtRangeProtectionIso"%string, 1448);
  ("BrtDValList"%string, 1449);
  ("BrtRwDescent"%string, 2176);
  ("BrtKnownFonts"%string, 2177);
  ("BrtBeginSXTupleSet"%string, 2178);
  ("BrtEndSXTupleSet"%string, 2179);
  ("BrtBeginSXTupleSetHeader"%string, 2180);
  ("BrtEndSXTupleSetHeader"%string, 2181);
  ("BrtSXTupleSetHeaderItem"%string, 2182);
  ("BrtBeginSXTupleSetData"%string, 2183);
  ("BrtEndSXTupleSetData"%string, 2184);
  ("BrtBeginSXTupleSetRow"%string, 2185);
  ("BrtEndSXTupleSetRow"%string, 2186);
  ("BrtSXTupleSetRowItem"%string, 2187);
  ("BrtNameExt"%string, 2188);
  ("BrtPCDH14"%string, 2189);
  ("BrtBeginPCDCalcMem14"%string, 2190);
  ("BrtEndPCDCalcMem14"%string, 2191);
  ("BrtSXTH14"%string, 2192);
  ("BrtBeginSparklineGroup"%string, 2193);
  ("BrtEndSparklineGroup"%string, 2194);
  ("BrtSparkline"%string, 2195);
  ("BrtSXDI14"%string, 2196);
  ("BrtWsFmtInfoEx14"%string, 2197);
  ("BrtBeginConditionalFormatting14"%string, 2198);
  ("BrtEndConditionalFormatting14"%string, 2199);
  ("BrtBeginCFRule14"%string, 2200);
  ("BrtEndCFRule14"%string, 2201);
  ("BrtCFVO14"%string, 2202);
  ("BrtBeginDatabar14"%string, 2203);
  ("BrtBeginIconSet14"%string, 2204);
  ("BrtDVal14"%string, 2205);
  ("BrtBeginDVals14"%string, 2206);
  ("BrtColor14"%string, 2207);
  ("BrtBeginSparklines"%string, 2208);
  ("BrtEndSparklines"%string, 2209);
  ("BrtBeginSparklineGroups"%string, 2210);
  ("BrtEndSparklineGroups"%string, 2211);
  ("BrtSXVD14"%string, 2213);
  ("BrtBeginSxView14"%string, 2214);
  ("BrtEndSxView14"%string, 2215);
  ("BrtBeginSXView16"%string, 2216);
  ("BrtEndSXView16"%string, 2217);
  ("BrtBeginPCD14"%string, 2218);
  ("BrtEndPCD14"%string, 2219);
  ("BrtBeginExtConn14"%string, 2220);
  ("BrtEndExtConn14"%string, 2221);
  ("BrtBeginSlicerCacheIDs"%string, 2222);
  ("BrtEndSlicerCacheIDs"%string, 2223);
  ("BrtBeginSlicerCacheID"%string, 2224);
  ("BrtEndSlicerCacheID"%string, 2225);
  ("BrtBeginSlicerCache"%string, 2227);
  ("BrtEndSlicerCache"%string, 2228);
  ("BrtBeginSlicerCacheDef"%string, 2229);
  ("BrtEndSlicerCacheDef"%string, 2230);
  ("BrtBeginSlicersEx"%string, 2231);
  ("BrtEndSlicersEx"%string, 2232);
  ("BrtBeginSlicerEx"%string, 2233);
  ("BrtEndSlicerEx"%string, 2234);
  ("BrtBeginSlicer"%string, 2235);
  ("BrtEndSlicer"%string, 2236);
  ("BrtSlicerCachePivotTables"%string, 2237);
  ("BrtBeginSlicerCacheOlapImpl"%string, 2238);
  ("BrtEndSlicerCacheOlapImpl"%string, 2239);
  ("BrtBeginSlicerCacheLevelsData"%string, 2240);
  ("BrtEndSlicerCacheLevelsData"%string, 2241);
  ("BrtBeginSlicerCacheLevelData"%string, 2242);
  ("BrtEndSlicerCacheLevelData"%string, 2243);
  ("BrtBeginSlicerCacheSiRanges"%string, 2244);
  ("BrtEndSlicerCacheSiRanges"%string, 2245);
  ("BrtBeginSlicerCacheSiRange"%string, 2246);
  ("BrtEndSlicerCacheSiRange"%string, 2247);
  ("BrtSlicerCacheOlapItem"%string, 2248);
  ("BrtBeginSlicerCacheSelections"%string, 2249);
  ("BrtSlicerCacheSelection"%string, 2250);
  ("BrtEndSlicerCacheSelections"%string, 2251);
  ("BrtBeginSlicerCacheNative"%string, 2252);
  ("BrtEndSlicerCacheNative"%string, 2253);
  ("BrtSlicerCacheNativeItem"%string, 2254);
  ("BrtRangeProtection14"%string, 2255);
  ("BrtRangeProtectionIso14"%string, 2256);
  ("BrtCellIgnoreEC14"%string, 2257);
  ("BrtList14"%string, 2263);
  ("BrtCFIcon"%string, 2264);
  ("BrtBeginSlicerCachesPivotCacheIDs"%string, 2265);
  ("BrtEndSlicerCachesPivotCacheIDs"%string, 2266);
  ("BrtBeginSlicers"%string, 2267);
  ("BrtEndSlicers"%string, 2268);
  ("BrtWbProp14"%string, 2269);
  ("BrtBeginSXEdit"%string, 2270);
  ("BrtEndSXEdit"%string, 2271);
  ("BrtBeginSXEdits"%string, 2272);
  ("BrtEndSXEdits"%string, 2273);
  ("BrtBeginSXChange"%string, 2274);
  ("BrtEndSXChange"%string, 2275);
  ("BrtBeginSXChanges"%string, 2276);
  ("BrtEndSXChanges"%string, 2277);
  ("BrtSXTupleItems"%string, 2278);
  ("BrtBeginSlicerStyle"%string, 2280);
  ("BrtEndSlicerStyle"%string, 2281);
  ("BrtSlicerStyleElement"%string, 2282);
  ("BrtBeginStyleSheetExt14"%string, 2283);
  ("BrtEndStyleSheetExt14"%string, 2284);
  ("BrtBeginSlicerCachesPivotCacheID"%string, 2285);
  ("BrtEndSlicerCachesPivotCacheID"%string, 2286);
  ("BrtBeginConditionalFormattings"%string, 2287);
  ("BrtEndConditionalFormattings"%string, 2288);
  ("BrtBeginPCDCalcMemExt"%string, 2289);
  ("BrtEndPCDCalcMemExt"%string, 2290);
  ("BrtBeginPCDCalcMemsExt"%string, 2291);
  ("BrtEndPCDCalcMemsExt"%string, 2292);
  ("BrtPCDField14"%string, 2293);
  ("BrtBeginSlicerStyles"%string, 2294);
  ("BrtEndSlicerStyles"%string, 2295);
  ("BrtBeginSlicerStyleElements"%string, 2296);
  ("BrtEndSlicerStyleElements"%string, 2297);
  ("BrtCFRuleExt"%string, 2298);
  ("BrtBeginSXCondFmt14"%string, 2299);
  ("BrtEndSXCondFmt14"%string, 2300);
  ("BrtBeginSXCondFmts14"%string, 2301);
  ("BrtEndSXCondFmts14"%string, 2302);
  ("BrtBeginSortCond14"%string, 2432);
  ("BrtEndSortCond14"%string, 2433);
  ("BrtEndDVals14"%string, 2434);
  ("BrtEndIconSet14"%string, 2435);
  ("BrtEndDatabar14"%string, 2436);
  ("BrtBeginColorScale14"%string, 2437);
  ("BrtEndColorScale14"%string, 2438);
  ("BrtBeginSxrules14"%string, 2439);
  ("BrtEndSxrules14"%string, 2440);
  ("BrtBeginPRule14"%string, 2441);
  ("BrtEndPRule14"%string, 2442);
  ("BrtBeginPRFilters14"%string, 2443);
  ("BrtEndPRFilters14"%string, 2444);
  ("BrtBeginPRFilter14"%string, 2445);
  ("BrtEndPRFilter14"%string, 2446);
  ("BrtBeginPRFItem14"%string, 2447);
  ("BrtEndPRFItem14"%string, 2448);
  ("BrtBeginCellIgnoreECs14"%string, 2449);
  ("BrtEndCellIgnoreECs14"%string, 2450);
  ("BrtDxf14"%string, 2451);
  ("BrtBeginDxF14s"%string, 2452);
  ("BrtEndDxf14s"%string, 2453);
  ("BrtFilter14"%string, 2457);
  ("BrtBeginCustomFilters14"%string, 2458);
  ("BrtCustomFilter14"%string, 2460);
  ("BrtIconFilter14"%string, 2461);
  ("BrtPivotCacheConnectionName"%string, 2462);
  ("BrtBeginDecoupledPivotCacheIDs"%string, 4224);
  ("BrtEndDecoupledPivotCacheIDs"%string, 4225);
  ("BrtDecoupledPivotCacheID"%string, 4226);
  ("BrtBeginPivotTableRefs"%string, 4227);
  ("BrtEndPivotTableRefs"%string, 4228);
  ("BrtPivotTableRef"%string, 4229);
  ("BrtSlicerCacheBookPivotTables"%string, 4230);
  ("BrtBeginSxvcells"%string, 4231);
  ("BrtEndSxvcells"%string, 4232);
  ("BrtBeginSxRow"%string, 4233);
  ("BrtEndSxRow"%string, 4234);
  ("BrtPcdCalcMem15"%string, 4236);
  ("BrtQsi15"%string, 4243);
  ("BrtBeginWebExtensions"%string, 4244);
  ("BrtEndWebExtensions"%string, 4245);
  ("BrtWebExtension"%string, 4246);
  ("BrtAbsPath15"%string, 4247);
  ("BrtBeginPivotTableUISettings"%string, 4248);
  ("BrtEndPivotTableUISettings"%string, 4249);
  ("BrtTableSlicerCacheIDs"%string, 4251);
  ("BrtTableSlicerCacheID"%string, 4252);
  ("BrtBeginTableSlicerCache"%string, 4253);
  ("BrtEndTableSlicerCache"%string, 4254);
  ("BrtSxFilter15"%string, 4255);
  ("BrtBeginTimelineCachePivotCacheIDs"%string, 4256);
  ("BrtEndTimelineCachePivotCacheIDs"%string, 4257);
  ("BrtTimelineCachePivotCacheID"%string, 4258);
  ("BrtBeginTimelineCacheIDs"%string, 4259);
  ("BrtEndTimelineCacheIDs"%string, 4260);
  ("BrtBeginTimelineCacheID"%string, 4261);
  ("BrtEndTimelineCacheID"%string, 4262);
  ("BrtBeginTimelinesEx"%string, 4263);
  ("BrtEndTimelinesEx"%string, 4264);
  ("BrtBeginTimelineEx"%string, 4265);
  ("BrtEndTimelineEx"%string, 4266);
  ("BrtWorkBookPr15"%string, 4267);
  ("BrtPCDH15"%string, 4268);
  ("BrtBeginTimelineStyle"%string, 4269);
  ("BrtEndTimelineStyle"%string, 4270);
  ("BrtTimelineStyleElement"%string, 4271);
  ("BrtBeginTimelineStylesheetExt15"%string, 4272);
  ("BrtEndTimelineStylesheetExt15"%string, 4273);
  ("BrtBeginTimelineStyles"%string, 4274);
  ("BrtEndTimelineStyles"%string, 4275);
  ("BrtBeginTimelineStyleElements"%string, 4276);
  ("BrtEndTimelineStyleElements"%string, 4277);
  ("BrtDxf15"%string, 4278);
  ("BrtBeginDxfs15"%string, 4279);
  ("BrtEndDXFs15"%string, 4280);
  ("BrtSlicerCacheHideItemsWithNoData"%string, 4281);
  ("BrtBeginItemUniqueNames"%string, 4282);
  ("BrtEndItemUniqueNames"%string, 4283);
  ("BrtItemUniqueName"%string, 4284);
  ("BrtBeginExtConn15"%string, 4285);
  ("BrtEndExtConn15"%string, 4286);
  ("BrtBeginOledbPr15"%string, 4287);
  ("BrtEndOledbPr15"%string, 4288);
  ("BrtBeginDataFeedPr15"%string, 4289);
  ("BrtEndDataFeedPr15"%string, 4290);
  ("BrtTextPr15"%string, 4291);
  ("BrtRangePr15"%string, 4292);
  ("BrtDbCommand15"%string, 4293);
  ("BrtBeginDbTables15"%string, 4294);
  ("BrtEndDbTables15"%string, 4295);
  ("BrtDbTable15"%string, 4296);
  ("BrtBeginDataModel"%string, 4297);
  ("BrtEndDataModel"%string, 4298);
  ("BrtBeginModelTables"%string, 4299);
  ("BrtEndModelTables"%string, 4300);
  ("BrtModelTable"%string, 4301);
  ("BrtBeginModelRelationships"%string, 4302);
  ("BrtEndModelRelationships"%string, 4303);
  ("BrtModelRelationship"%string, 4304);
  ("BrtBeginECTxtWiz15"%string, 4305);
  ("BrtEndECTxtWiz15"%string, 4306);
  ("BrtBeginECTWFldInfoLst15"%string, 4307);
  ("BrtEndECTWFldInfoLst15"%string, 4308);
  ("BrtBeginECTWFldInfo15"%string, 4309);
  ("BrtFieldListActiveItem"%string, 4310);
  ("BrtPivotCacheIdVersion"%string, 4311);
  ("BrtSXDI15"%string, 4312);
  ("brtBeginModelTimeGroupings"%string, 4313);
  ("brtEndModelTimeGroupings"%string, 4314);
  ("brtBeginModelTimeGrouping"%string, 4315);
  ("brtEndModelTimeGrouping"%string, 4316);
  ("brtModelTimeGroupingCalcCol"%string, 4317);
  ("brtRevisionPtr"%string, 6273);
  ("BrtBeginDynamicArrayPr"%string, 8320);
  ("BrtEndDynamicArrayPr"%string, 8321);
  ("BrtBeginRichValueBlock"%string, 10122);
  ("BrtEndRichValueBlock"%string, 10123);
  ("BrtBeginRichFilters"%string, 10201);
  ("BrtEndRichFilters"%string, 10202);
  ("BrtRichFilter"%string, 10203);
  ("BrtBeginRichFilterColumn"%string, 10204);
  ("BrtEndRichFilterColumn"%string, 10205);
  ("BrtBeginCustomRichFilters"%string, 10206);
  ("BrtEndCustomRichFilters"%string, 10207);
  ("BRTCustomRichFilter"%string, 10208);
  ("BrtTop10RichFilter"%string, 10209);
  ("BrtDynamicRichFilter"%string, 10210);
  ("BrtBeginRichSortCondition"%string, 10212);
  ("BrtEndRichSortCondition"%string, 10213);
  ("BrtRichFilterDateGroupItem"%string, 10214);
  ("BrtBeginCalcFeatures"%string, 10215);
  ("BrtEndCalcFeatures"%string, 10216);
  ("BrtCalcFeature"%string, 10217);
  ("BrtExternalLinksPr"%string, 10219)].

(** biff_enum.py:3: [BIFF_ENUM]. *)
Definition biff_enum : list (str * Z) := map (fun p => (s (fst p), snd p)) biff_enum_ascii.

(** biff_enum.py:851: [dict(zip(values, keys))]; a later entry replaces an earlier one. *)
Definition biff_enum_reversed : list (Z * str) :=
  fold_left (fun d p => dset Z.eqb d (snd p) (fst p)) biff_enum [].

(** biff.py:61-63 [record.rec_name]. *)
Definition rec_name (r : record) : str :=
  match dget Z.eqb biff_enum_reversed (rec_id r) with Some n => n | None => s "Undefined" end.

(** biff.py:71-81 [record.from_data] with a [str] id: [BIFF_ENUM[id]] may raise KeyError. *)
Definition from_data_name (name : str) (parts : list bytes) : res record :=
  match dget str_eqb biff_enum name with
  | Some id => Ok (from_data id parts)
  | None => Err KeyError
  end.
