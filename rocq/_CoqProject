-Q theories Verif
theories/Base.v
theories/SpecBytes.v
theories/SpecSHA.v
theories/M_endian.v
theories/P_endian.v
theories/M_sha256_tr.v
theories/M_simd.v
theories/M_sha256_hw.v
theories/M_sha256.v
theories/P_sha256_tr.v
theories/P_sha256_hw.v
theories/P_sha256.v
theories/SpecScrypt.v
theories/M_smix.v
theories/P_hist_sha.v
theories/Prop_sha.v
theories/P_salsa.v
theories/P_smix.v
theories/P_smix2.v
theories/P_smix_sse2.v
theories/SpecScryptAPI.v
theories/P_scrypt.v
theories/P_scrypt_ref.v
theories/M_scrypt_sel.v
theories/P_scrypt_sel.v
theories/Prop_scrypt.v
theories/SpecAES.v
theories/M_verify.v
theories/P_verify.v
theories/M_aes_hw.v
theories/P_aes.v
theories/M_aesctr.v
theories/P_aesctr.v
theories/Prop_aes.v
theories/SpecDRBG.v
theories/M_entropy.v
theories/P_entropy.v
theories/Prop_entropy.v
theories/M_double.v
theories/SpecDouble.v
theories/P_double.v
theories/SpecText.v
theories/M_humansize.v
theories/P_humansize.v
theories/M_machine.v
theories/M_memlimit.v
theories/M_cpuperf.v
theories/M_params.v
theories/P_params.v
theories/P_memlimit.v
theories/P_cpuperf.v
theories/Prop_params.v
theories/Prop_text.v
theories/M_stdio.v
theories/SpecStream.v
theories/P_stdio.v
theories/M_scryptenc.v
theories/SpecFormat.v
theories/SpecScryptenc.v
theories/P_scryptenc.v
theories/P_scryptenc2.v
theories/P_scryptenc3.v
theories/P_scryptenc4.v
theories/P_scryptenc5.v
theories/P_scryptenc6.v
theories/P_scryptenc7.v
theories/P_scryptenc8.v
theories/P_scryptenc9.v
theories/P_scryptenc10.v
theories/Prop_enc.v
theories/P_scryptenc11.v
theories/Prop_dec.v
theories/Prop_io.v
theories/SpecAscii.v
theories/M_print_error.v
theories/Prop_error.v
theories/M_msg_text.v
theories/Prop_info.v
theories/Prop_pass.v
theories/P_scryptenc12.v
theories/Prop_explicit.v
theories/M_hwaccel.v
theories/Prop_hwaccel.v
theories/M_align.v
theories/SpecNumber.v
theories/M_strto.v
theories/M_parsenum.v
theories/Prop_parsenum.v
theories/SpecGetopt.v
theories/M_getopt.v
theories/Prop_getopt.v
theories/M_readpass.v
theories/SpecPass.v
theories/P_signals.v
theories/P_readpass.v
theories/Prop_readpass.v
theories/M_main.v
theories/SpecCLI.v
theories/Prop_cli.v
theories/P_main.v
theories/Prop_main.v
theories/Prop_defined.v
theories/M_memzero.v
theories/P_memzero.v
theories/M_aesctr_mem.v
theories/P_aesctr_mem.v
theories/Prop_aesctr_mem.v
theories/M_scrypt_alloc.v
theories/Prop_scrypt_alloc.v
theories/Prop_erase.v
theories/Prop_dialogue.v
theories/Check_format.v
theories/P_monotone.v
theories/Prop_monotone.v
theories/Prop_verbose.v
theories/SpecVerdict.v
theories/P_unforced.v
theories/Prop_unforced.v
theories/P_enc_params.v
theories/Prop_plain.v
theories/Prop_auto.v
theories/Prop_display.v
theories/Prop_diag.v
theories/Prop_crash.v
theories/Prop_history.v
theories/Prop_inspect.v
theories/M_getopt_sw.v
theories/Prop_getopt_sw.v
theories/M_warnp.v
theories/Prop_warnp.v
theories/M_sha256_mem.v
theories/P_sha256_mem.v
theories/Prop_sha256_mem.v
theories/Prop_display2.v
theories/M_entropy_mem.v
theories/P_entropy_mem.v
theories/Prop_entropy_mem.v
theories/M_scryptenc_mem.v
theories/P_scryptenc_mem.v
theories/P_scryptenc_mem2.v
theories/Prop_scryptenc_mem.v
theories/M_scryptenc_ovl.v
theories/P_scryptenc_ovl.v
theories/Prop_scryptenc_ovl.v
theories/P_aesctr_ovl.v
theories/P_scryptenc_ovl2.v
theories/Prop_scryptenc_self.v
theories/P_aesctr_any.v
theories/P_scryptenc_ovl3.v
theories/Prop_scryptenc_any.v
theories/Prop_wrongpass.v
theories/M_samefile.v
theories/P_samefile.v
theories/Prop_samefile.v
theories/Prop_warntext.v
