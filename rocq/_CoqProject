-Q theories Verif
theories/Base.v
theories/Bits.v
theories/Cstr.v
theories/D_avg.v
theories/D_avg2.v
theories/D_bmap.v
theories/D_crc32.v
theories/D_fileparser.v
theories/D_find.v
theories/D_fitree.v
theories/D_growcost.v
theories/D_hashlist.v
theories/D_md5.v
theories/D_own.v
theories/D_ownmap.v
theories/D_ownmap2.v
theories/D_sblist.v
theories/D_sha512.v
theories/D_shatest.v
theories/D_ssalloc.v
theories/D_stringptr.v
theories/D_tgbytes.v
theories/D_tgibytes.v
theories/D_tgishort.v
theories/D_tglist.v
theories/D_tgsort.v
theories/D_tlist.v
theories/D_treap.v
theories/L_num.v
theories/M_alias.v
theories/M_aliassort.v
theories/M_base64.v
theories/M_bench.v
theories/M_bitarray.v
theories/M_bmap.v
theories/M_bscost.v
theories/M_cdmap.v
theories/M_codedup.v
theories/M_crc32.v
theories/M_crcmain.v
theories/M_crcthr.v
theories/M_endian.v
theories/M_endianbe.v
theories/M_ex.v
theories/M_filelib.v
theories/M_filelist.v
theories/M_fileparser.v
theories/M_find.v
theories/M_fini.v
theories/M_fitree.v
theories/M_fmtuse.v
theories/M_format.v
theories/M_fpfail.v
theories/M_fpshort.v
theories/M_fpuse.v
theories/M_guard.v
theories/M_guardtest.v
theories/M_hashlist.v
theories/M_hashtest.v
theories/M_heap.v
theories/M_hex.v
theories/M_ini.v
theories/M_inimem.v
theories/M_ininext.v
theories/M_iniuse.v
theories/M_ip.v
theories/M_listtest.v
theories/M_log.v
theories/M_logio.v
theories/M_lstest.v
theories/M_md5.v
theories/M_mktemp.v
theories/M_num.v
theories/M_opt.v
theories/M_own.v
theories/M_ownfl.v
theories/M_ownmap.v
theories/M_proc.v
theories/M_psp.v
theories/M_rc4.v
theories/M_sblist.v
theories/M_selftest.v
theories/M_sha512.v
theories/M_shatest.v
theories/M_small.v
theories/M_sort.v
theories/M_spfile.v
theories/M_spl.v
theories/M_splmem.v
theories/M_ssalloc.v
theories/M_sstest.v
theories/M_stdio.v
theories/M_str.v
theories/M_stringptr.v
theories/M_strswitch.v
theories/M_strtest.v
theories/M_tgbytes.v
theories/M_tgibytes.v
theories/M_tgishort.v
theories/M_tglist.v
theories/M_time.v
theories/M_tlcost.v
theories/M_tlcost2.v
theories/M_tldeep.v
theories/M_tlist.v
theories/M_tltest.v
theories/P_alias.v
theories/P_alias2.v
theories/P_aliassort.v
theories/P_avg.v
theories/P_avg2.v
theories/P_avgtl.v
theories/P_base64.v
theories/P_bench.v
theories/P_bitarray.v
theories/P_bmap.v
theories/P_bscost.v
theories/P_codedup.v
theories/P_codedup2.v
theories/P_codedup3.v
theories/P_crc32.v
theories/P_crcmain.v
theories/P_crcpoly.v
theories/P_crcthr.v
theories/P_endian.v
theories/P_ex.v
theories/P_ex2.v
theories/P_filelib.v
theories/P_filelist.v
theories/P_fileparser.v
theories/P_find.v
theories/P_fini.v
theories/P_fitree.v
theories/P_fmtw.v
theories/P_format.v
theories/P_format2.v
theories/P_format3.v
theories/P_format4.v
theories/P_fpfail.v
theories/P_growcost.v
theories/P_guard.v
theories/P_hash.v
theories/P_hashlist.v
theories/P_hashtest.v
theories/P_hbmap.v
theories/P_heap.v
theories/P_hex.v
theories/P_ini.v
theories/P_inimem.v
theories/P_ininext.v
theories/P_iniuse.v
theories/P_ip.v
theories/P_listtest.v
theories/P_listtest2.v
theories/P_lstest.v
theories/P_md5.v
theories/P_md5run.v
theories/P_mrand.v
theories/P_num.v
theories/P_opt.v
theories/P_optexact.v
theories/P_own.v
theories/P_own2.v
theories/P_own3.v
theories/P_ownexact.v
theories/P_ownfl.v
theories/P_ownmap.v
theories/P_ownmap2.v
theories/P_proc.v
theories/P_psp.v
theories/P_rc4.v
theories/P_rc4key.v
theories/P_saber.v
theories/P_sblist.v
theories/P_scan.v
theories/P_selftest.v
theories/P_sha512.v
theories/P_sha512b.v
theories/P_shatest.v
theories/P_sort.v
theories/P_spfile.v
theories/P_spl.v
theories/P_splmem.v
theories/P_ssalloc.v
theories/P_ssexact.v
theories/P_sstest.v
theories/P_str.v
theories/P_stringptr.v
theories/P_strtest.v
theories/P_tgbytes.v
theories/P_tgibytes.v
theories/P_tgilist.v
theories/P_tgishort.v
theories/P_tglist.v
theories/P_tgsort.v
theories/P_time.v
theories/P_tlist.v
theories/P_tltest.v
theories/P_treap.v
theories/P_words.v
theories/S_avg.v
theories/S_base64.v
theories/S_bench.v
theories/S_bitarray.v
theories/S_bmap.v
theories/S_bscost.v
theories/S_codedup.v
theories/S_crc32.v
theories/S_crcmain.v
theories/S_crcpoly.v
theories/S_ex.v
theories/S_filelib.v
theories/S_filelist.v
theories/S_fileparser.v
theories/S_find.v
theories/S_fini.v
theories/S_fitree.v
theories/S_flexact.v
theories/S_flmem.v
theories/S_fmtw.v
theories/S_format.v
theories/S_fpshort.v
theories/S_fpuse.v
theories/S_hash.v
theories/S_hashlist.v
theories/S_heap.v
theories/S_hex.v
theories/S_ini.v
theories/S_inimem.v
theories/S_ininext.v
theories/S_iniuse.v
theories/S_ip.v
theories/S_listtest.v
theories/S_logio.v
theories/S_lstest.v
theories/S_md5.v
theories/S_mktemp.v
theories/S_num.v
theories/S_opt.v
theories/S_optexact.v
theories/S_ownexact.v
theories/S_procsteps.v
theories/S_rc4.v
theories/S_saber.v
theories/S_sblist.v
theories/S_scan.v
theories/S_sha512.v
theories/S_shapieces.v
theories/S_splmem.v
theories/S_ssalloc.v
theories/S_ssexact.v
theories/S_sstest.v
theories/S_stdio.v
theories/S_str.v
theories/S_stringptr.v
theories/S_strswitch.v
theories/S_tgistore.v
theories/S_tglist.v
theories/S_time.v
theories/S_tldeep.v
theories/S_tlist.v
theories/S_treap.v
theories/T_alias.v
theories/T_aliassort.v
theories/T_avg.v
theories/T_avg2.v
theories/T_b64term.v
theories/T_base64.v
theories/T_bench.v
theories/T_benchoom.v
theories/T_bitarray.v
theories/T_bmap.v
theories/T_bscost.v
theories/T_cdexact.v
theories/T_cdmap.v
theories/T_codedup.v
theories/T_crc32.v
theories/T_crcmain.v
theories/T_crcpoly.v
theories/T_crcthr.v
theories/T_diff.v
theories/T_diffex.v
theories/T_endian.v
theories/T_endianbe.v
theories/T_ex.v
theories/T_filelib.v
theories/T_filelist.v
theories/T_filelist2.v
theories/T_fileparser.v
theories/T_find.v
theories/T_fini.v
theories/T_fitree.v
theories/T_flexact.v
theories/T_fmtuse.v
theories/T_format.v
theories/T_format2.v
theories/T_fpexact.v
theories/T_fpfail.v
theories/T_fppieces.v
theories/T_fpshort.v
theories/T_fpuse.v
theories/T_fuzzexact.v
theories/T_fuzzover.v
theories/T_growcost.v
theories/T_guard.v
theories/T_guardtest.v
theories/T_hashany.v
theories/T_hashlist.v
theories/T_hashtest.v
theories/T_hex.v
theories/T_ini.v
theories/T_inimem.v
theories/T_ininext.v
theories/T_ininextany.v
theories/T_iniuse.v
theories/T_ip.v
theories/T_listtest.v
theories/T_log.v
theories/T_logio.v
theories/T_lstest.v
theories/T_md5.v
theories/T_mktemp.v
theories/T_mktemp2.v
theories/T_mrand.v
theories/T_num.v
theories/T_opt.v
theories/T_optexact.v
theories/T_own.v
theories/T_own2.v
theories/T_ownexact.v
theories/T_proc.v
theories/T_proc2.v
theories/T_procexact.v
theories/T_procstd.v
theories/T_psp.v
theories/T_rc4.v
theories/T_rc4key.v
theories/T_sblist.v
theories/T_scan.v
theories/T_selftest.v
theories/T_sha512.v
theories/T_shafile.v
theories/T_shapieces.v
theories/T_shatest.v
theories/T_small.v
theories/T_sort.v
theories/T_splmem.v
theories/T_spround.v
theories/T_ssalloc.v
theories/T_ssexact.v
theories/T_sstest.v
theories/T_stdinline.v
theories/T_stdio.v
theories/T_str.v
theories/T_stringptr.v
theories/T_strswitch.v
theories/T_strtest.v
theories/T_tgbytes.v
theories/T_tgibytes.v
theories/T_tgishort.v
theories/T_tgistore.v
theories/T_tglist.v
theories/T_tight.v
theories/T_tight2.v
theories/T_tight3.v
theories/T_tight4.v
theories/T_tight5.v
theories/T_tight6.v
theories/T_tight7.v
theories/T_time.v
theories/T_tldeep.v
theories/T_tlist.v
theories/T_tltest.v
theories/T_treap.v
theories/T_words.v
