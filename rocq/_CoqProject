-Q theories Verif
theories/Accept_Model.v
theories/Accept_Proofs.v
theories/Accept_Spec.v
theories/Argv_Model.v
theories/Argv_Proofs.v
theories/Argv_Proofs2.v
theories/Argv_Proofs3.v
theories/Argv_Proofs4.v
theories/Argv_Spec.v
theories/Ax25a_Model.v
theories/Ax25a_Proofs.v
theories/Ax25a_Proofs2.v
theories/Ax25a_Proofs3.v
theories/Ax25a_Spec.v
theories/Ax25c_Model.v
theories/Ax25c_Pair1.v
theories/Ax25c_Pair2.v
theories/Ax25c_Pair3.v
theories/Ax25c_Pair4.v
theories/Ax25c_Pair5.v
theories/Ax25c_Pair6.v
theories/Ax25c_Pair7.v
theories/Ax25c_Pair8.v
theories/Ax25c_Pair9.v
theories/Ax25c_Proofs.v
theories/Ax25c_Proofs2.v
theories/Ax25c_Proofs3.v
theories/Ax25c_Proofs4.v
theories/Ax25c_Proofs5.v
theories/Ax25c_Spec.v
theories/Base.v
theories/Basen_Model.v
theories/Basen_Proofs.v
theories/Basen_Proofs10.v
theories/Basen_Proofs11.v
theories/Basen_Proofs12.v
theories/Basen_Proofs13.v
theories/Basen_Proofs14.v
theories/Basen_Proofs2.v
theories/Basen_Proofs3.v
theories/Basen_Proofs4.v
theories/Basen_Proofs5.v
theories/Basen_Proofs6.v
theories/Basen_Proofs7.v
theories/Basen_Proofs8.v
theories/Basen_Proofs9.v
theories/Basen_Spec.v
theories/Buffer_Model.v
theories/Buffer_Proofs.v
theories/Buffer_Spec.v
theories/Certauth_Model.v
theories/Certauth_Proofs.v
theories/Certauth_Proofs2.v
theories/Certauth_Proofs3.v
theories/Certauth_Proofs4.v
theories/Certauth_Spec.v
theories/Chardelay_Model.v
theories/Chardelay_Proofs.v
theories/Chardelay_Proofs2.v
theories/Chardelay_Spec.v
theories/Circbuf_Model.v
theories/Circbuf_Proofs.v
theories/Circbuf_Spec.v
theories/Cntstr_Model.v
theories/Cntstr_Proofs.v
theories/Cntstr_Spec.v
theories/Convcode_Model.v
theories/Convcode_Proofs.v
theories/Convcode_Proofs10.v
theories/Convcode_Proofs11.v
theories/Convcode_Proofs12.v
theories/Convcode_Proofs2.v
theories/Convcode_Proofs3.v
theories/Convcode_Proofs4.v
theories/Convcode_Proofs5.v
theories/Convcode_Proofs6.v
theories/Convcode_Proofs7.v
theories/Convcode_Proofs8.v
theories/Convcode_Proofs9.v
theories/Convcode_Spec.v
theories/Crc_Model.v
theories/Crc_Proofs.v
theories/Crc_Spec.v
theories/Cstr_Model.v
theories/Cstr_Proofs.v
theories/Cstr_Proofs2.v
theories/Cstr_Proofs3.v
theories/Cstr_Spec.v
theories/Defaults_Model.v
theories/Defaults_Proofs.v
theories/Defaults_Proofs2.v
theories/Defaults_Proofs3.v
theories/Defaults_Spec.v
theories/Dummy_Model.v
theories/Dummy_Proofs.v
theories/Dummy_Spec.v
theories/Echo_Model.v
theories/Echo_Proofs.v
theories/Echo_Proofs2.v
theories/Echo_Spec.v
theories/File_Model.v
theories/File_Proofs.v
theories/File_Proofs2.v
theories/File_Proofs3.v
theories/File_Spec.v
theories/Hdlc_Model.v
theories/Hdlc_Proofs.v
theories/Hdlc_Proofs2.v
theories/Hdlc_Proofs3.v
theories/Hdlc_Proofs4.v
theories/Hdlc_Proofs5.v
theories/Hdlc_Spec.v
theories/Heap_Model.v
theories/Heap_Proofs.v
theories/Heap_Proofs2.v
theories/Heap_Proofs3.v
theories/Heap_Spec.v
theories/Keepopen_Model.v
theories/Keepopen_Proofs.v
theories/Keepopen_Proofs2.v
theories/Keepopen_Spec.v
theories/Kiss_Model.v
theories/Kiss_Proofs.v
theories/Kiss_Proofs2.v
theories/Kiss_Spec.v
theories/List_Model.v
theories/List_Proofs.v
theories/List_Proofs2.v
theories/List_Proofs3.v
theories/List_Spec.v
theories/Mem_Model.v
theories/Mem_Proofs.v
theories/Msgdelim_Model.v
theories/Msgdelim_Proofs.v
theories/Msgdelim_Proofs2.v
theories/Msgdelim_Proofs3.v
theories/Msgdelim_Spec.v
theories/Mux_Model.v
theories/Mux_Proofs1.v
theories/Mux_Proofs2.v
theories/Mux_Proofs3.v
theories/Mux_Proofs4.v
theories/Mux_Proofs5.v
theories/Mux_Proofs6.v
theories/Mux_Proofs7.v
theories/Mux_Proofs8.v
theories/Mux_Spec.v
theories/Muxchan_Model.v
theories/Muxpair_Model.v
theories/Muxpair_Proofs1.v
theories/Muxpair_Proofs2.v
theories/Muxpair_Proofs3.v
theories/Muxpair_Proofs4.v
theories/Muxpair_Spec.v
theories/Perf_Model.v
theories/Perf_Spec.v
theories/Pparm_Model.v
theories/Pparm_Proofs.v
theories/Pparm_Proofs2.v
theories/Pparm_Spec.v
theories/Properties_Accept.v
theories/Properties_Ax25a.v
theories/Properties_Ax25c.v
theories/Properties_Ax25c_Pair.v
theories/Properties_Basen.v
theories/Properties_Buffer.v
theories/Properties_Certauth.v
theories/Properties_Chardelay.v
theories/Properties_Circbuf.v
theories/Properties_Cntstr.v
theories/Properties_Convcode.v
theories/Properties_Crc.v
theories/Properties_Defaults.v
theories/Properties_Dummy.v
theories/Properties_Echo.v
theories/Properties_File.v
theories/Properties_Hdlc.v
theories/Properties_Heap.v
theories/Properties_Keepopen.v
theories/Properties_Kiss.v
theories/Properties_List.v
theories/Properties_Msgdelim.v
theories/Properties_Mux.v
theories/Properties_Muxpair.v
theories/Properties_Perf.v
theories/Properties_Pparm.v
theories/Properties_Ratelimit.v
theories/Properties_Relpkt.v
theories/Properties_Script.v
theories/Properties_Selfd.v
theories/Properties_Selrunner.v
theories/Properties_Seltimer.v
theories/Properties_Seriallock.v
theories/Properties_Syncio.v
theories/Properties_Telnet.v
theories/Properties_Time.v
theories/Properties_Trace.v
theories/Properties_Utils.v
theories/Properties_Xlt.v
theories/Ratelimit_Model.v
theories/Ratelimit_Proofs.v
theories/Ratelimit_Spec.v
theories/Relpkt_Model.v
theories/Relpkt_Proofs.v
theories/Relpkt_Proofs2.v
theories/Relpkt_Proofs3.v
theories/Relpkt_Proofs4.v
theories/Relpkt_Proofs5.v
theories/Relpkt_Proofs6.v
theories/Relpkt_Proofs7.v
theories/Relpkt_Spec.v
theories/Ring.v
theories/Script_Model.v
theories/Script_Proofs.v
theories/Script_Spec.v
theories/Selfd_Model.v
theories/Selfd_Proofs.v
theories/Selfd_Proofs2.v
theories/Selfd_Proofs3.v
theories/Selfd_Proofs4.v
theories/Selfd_Proofs5.v
theories/Selfd_Spec.v
theories/Selmax_Model.v
theories/Selmax_Proofs.v
theories/Selrunner_Model.v
theories/Selrunner_Proofs.v
theories/Selrunner_Spec.v
theories/Seltimer_Model.v
theories/Seltimer_Proofs.v
theories/Seltimer_Proofs2.v
theories/Seltimer_Proofs3.v
theories/Seltimer_Spec.v
theories/Seriallock_Model.v
theories/Seriallock_Proofs.v
theories/Seriallock_Proofs2.v
theories/Seriallock_Proofs3.v
theories/Seriallock_Proofs4.v
theories/Seriallock_Spec.v
theories/Syncio_Model.v
theories/Syncio_Proofs.v
theories/Syncio_Proofs2.v
theories/Syncio_Spec.v
theories/Telnet_Model.v
theories/Telnet_Proofs.v
theories/Telnet_Proofs2.v
theories/Telnet_Proofs3.v
theories/Telnet_Spec.v
theories/Time_Model.v
theories/Time_Proofs.v
theories/Time_Proofs2.v
theories/Time_Spec.v
theories/Trace_Model.v
theories/Trace_Spec.v
theories/Xlt_Model.v
theories/Xlt_Proofs.v
theories/Xlt_Proofs2.v
theories/Xlt_Spec.v
