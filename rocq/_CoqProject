-Q theories Verif
theories/Base.v
theories/M_packet.v
theories/M_config.v
theories/M_encoder.v
theories/M_pktdec.v
theories/M_sync.v
theories/M_lastip.v
theories/M_tnt.v
theories/M_retstack.v
theories/M_asid.v
theories/M_cpu.v
theories/M_evq.v
theories/M_bcache.v
theories/S_packet.v
theories/S_run.v
theories/S_sync.v
theories/L_fin.v
theories/L_bytes.v
theories/L_encoder.v
theories/L_wire.v
theories/L_pktdec.v
theories/L_decwire.v
theories/L_pktsafe.v
theories/L_packet.v
theories/T_packet.v
theories/L_sync.v
theories/T_sync.v
theories/S_core.v
theories/L_core.v
theories/T_core.v
theories/S_evq.v
theories/L_evq.v
theories/T_evq.v
theories/S_config.v
theories/L_config.v
theories/T_config.v
theories/T_cpu.v
theories/M_time.v
theories/S_time.v
theories/L_time.v
theories/T_time.v
theories/M_section.v
theories/S_section.v
theories/L_section.v
theories/T_section.v
theories/M_image.v
theories/S_image.v
theories/L_image.v
theories/L_imgref.v
theories/L_imghist.v
theories/L_imgfind.v
theories/T_image.v
theories/M_iscache.v
theories/S_iscache.v
theories/L_iscache.v
theories/L_isclru.v
theories/L_iscadd.v
theories/L_iscrun.v
theories/T_iscache.v
theories/M_locks.v
theories/S_locks.v
theories/L_locks.v
theories/T_locks.v
theories/M_pevent.v
theories/S_pevent.v
theories/L_pevent.v
theories/L_pevread.v
theories/L_pevsound.v
theories/L_pevsamp.v
theories/L_pevtime.v
theories/T_pevent.v
theories/M_event.v
theories/M_evdec.v
theories/S_evdec.v
theories/L_evqpos.v
theories/L_evdec.v
theories/L_evsafe.v
theories/L_evnext.v
theories/T_evdec.v
theories/S_evtrace.v
theories/L_evq_rules.v
theories/L_evtrace.v
theories/L_evtrace2.v
theories/L_evtrace3.v
theories/L_evtrace4.v
theories/L_evtrace5.v
theories/L_tntsize.v
theories/T_evtrace.v
theories/M_query.v
theories/S_query.v
theories/L_query.v
theories/L_query2.v
theories/T_query.v
theories/M_ildtab.v
theories/M_ild.v
theories/S_x86.v
theories/L_ild.v
theories/L_ild2.v
theories/L_ild3.v
theories/L_ild4.v
theories/L_ild5.v
theories/L_ild6.v
theories/T_ild.v
theories/M_insn.v
theories/S_insn.v
theories/L_insn.v
theories/T_insn.v
theories/M_insndec.v
theories/S_flow.v
theories/S_drive.v
theories/L_flow.v
theories/L_flow2.v
theories/L_flow3.v
theories/L_flow4.v
theories/L_flow5.v
theories/L_flow6.v
theories/L_flow7.v
theories/T_flow.v
theories/S_evfun.v
theories/L_evfun.v
theories/L_evfun2.v
theories/L_evfun3.v
theories/L_evfun4.v
theories/L_evfun5.v
theories/L_evfun6.v
theories/L_evfun7.v
theories/L_evfun8.v
theories/T_evfun.v
theories/M_blk.v
theories/S_blk.v
theories/L_calm.v
theories/L_blk.v
theories/L_blk2.v
theories/L_blk3.v
theories/L_blk4.v
theories/L_blk5.v
theories/L_blk6.v
theories/L_blk7.v
theories/L_blk8.v
theories/L_blk9.v
theories/M_share.v
theories/S_share.v
theories/L_share.v
theories/L_blk10.v
theories/T_blk.v
theories/S_agree.v
theories/L_agree.v
theories/T_agree.v
theories/T_blkall.v
theories/T_share.v
theories/M_sb.v
theories/M_sbpev.v
theories/S_sb.v
theories/L_sb.v
theories/L_sbpev.v
theories/L_sbpev2.v
theories/L_sb2.v
theories/T_sb.v
theories/S_sb2.v
theories/L_sb3.v
theories/T_sb2.v
theories/L_sb4.v
theories/S_sb3.v
theories/L_sb5.v
theories/L_sb6.v
theories/L_sb7.v
theories/T_sb3.v
theories/M_imgdec.v
theories/S_imgdec.v
theories/L_imguniq.v
theories/L_imgdec.v
theories/T_imgdec.v
theories/M_user.v
theories/S_user.v
theories/T_user.v
theories/S_safe.v
theories/L_safe.v
theories/L_safe2.v
theories/L_safe3.v
theories/T_safe.v
theories/M_elf.v
theories/S_elf.v
theories/L_elf.v
theories/T_elf.v
theories/S_trig.v
theories/L_trig.v
theories/T_trig.v
theories/T_trigblk.v
theories/T_written.v
theories/L_stamp.v
theories/L_stamp2.v
theories/T_timetold.v
theories/M_bcword.v
theories/T_bcword.v
theories/M_blktime.v
theories/T_blktime.v
theories/T_evplace.v
