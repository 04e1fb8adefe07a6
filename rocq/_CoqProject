-Q theories Verif
theories/GoBase.v
theories/GoUnicode.v
theories/L_base.v
theories/GoFloat.v
theories/L_float.v
theories/GoTime.v
theories/M_value.v
theories/M_dates.v
theories/M_numbers.v
theories/M_fmt.v
theories/M_formats.v
theories/M_grate.v
theories/S_grate.v
theories/L_grate.v
theories/P_grate.v
theories/M_simple.v
theories/S_simple.v
theories/L_simple.v
theories/P_simple.v
theories/M_cell.v
theories/M_sheet.v
theories/S_cell.v
theories/L_cell.v
theories/P_cell.v
theories/S_sheet.v
theories/L_sheet.v
theories/P_sheet.v
theories/S_formats.v
theories/L_formats.v
theories/L_numbers.v
theories/L_fraction.v
theories/P_numbers.v
theories/L_ffun.v
theories/P_formats.v
theories/P_text.v
theories/S_dates.v
theories/L_calendar.v
theories/L_dates.v
theories/P_dates.v
theories/M_slicereader.v
theories/S_slicereader.v
theories/L_slicereader.v
theories/P_slicereader.v
theories/M_cfb.v
theories/S_cfb.v
theories/L_cfb.v
theories/P_cfb.v
theories/GoCrypto.v
theories/M_crypto.v
theories/S_crypto.v
theories/L_crypto.v
theories/P_crypto.v
theories/M_biff.v
theories/S_biff.v
theories/L_biff.v
theories/P_biff.v
theories/M_xlstr.v
theories/S_xlstr.v
theories/L_xlstr.v
theories/P_xlstr.v
theories/M_hlink.v
theories/S_hlink.v
theories/L_hlink.v
theories/P_hlink.v
theories/M_xls.v
theories/S_grid.v
theories/L_grid.v
theories/S_xls.v
theories/L_xls.v
theories/L_xlsbook.v
theories/P_xls.v
theories/GoPath.v
theories/M_xlsx.v
theories/S_xlsx.v
theories/L_xlsxref.v
theories/L_xlsx.v
theories/L_xlsxpkg.v
theories/P_xlsx.v
theories/M_pool.v
theories/P_pool.v
theories/M_tsv.v
theories/M_disk.v
theories/M_heap.v
theories/P_tsv.v
theories/P_crash.v
theories/P_heap.v
theories/M_open.v
theories/S_open.v
theories/P_open.v
theories/P_refuse.v
theories/P_cut.v
theories/M_outpool.v
theories/P_outpool.v
theories/M_report.v
theories/P_report.v
theories/S_display.v
theories/L_sci.v
theories/P_display.v
theories/P_times.v
theories/S_custom.v
theories/L_custom.v
theories/L_numcode.v
theories/P_custom.v
theories/L_total.v
theories/P_total.v
theories/S_hang.v
theories/P_hang.v
theories/S_table.v
theories/L_table.v
theories/S_link.v
theories/L_link.v
theories/S_robust.v
theories/P_robust.v
theories/P_table.v
theories/S_xrobust.v
theories/P_xforms.v
theories/S_text.v
theories/M_cmd.v
theories/P_cmd.v
theories/P_names.v
theories/P_again.v
theories/P_xrobust.v
theories/P_enc.v
theories/P_xlsforms.v
theories/P_codes.v
theories/S_says.v
theories/P_says.v
theories/P_frames.v
theories/P_saysfile.v
theories/S_xsays.v
theories/P_xsays.v
theories/P_xsaysfile.v
theories/S_cfbsays.v
theories/P_cfbsays.v
theories/P_cfbopens.v
theories/P_cfbfile.v
theories/L_plain.v
theories/S_which.v
theories/P_which.v
theories/P_lost.v
theories/P_whichfile.v
theories/S_loads.v
theories/P_cipher.v
theories/P_loads.v
theories/P_loadsfile.v
theories/L_round.v
theories/S_numtext.v
theories/P_numtext.v
theories/L_short.v
theories/S_general.v
theories/P_general.v
theories/M_fault.v
theories/S_fault.v
theories/P_fault.v
theories/S_trip.v
theories/P_trip.v
theories/S_amount.v
theories/P_amount.v
theories/S_accept.v
theories/P_accept.v
theories/P_hex.v
theories/P_percent.v
theories/S_sciamount.v
theories/P_sciamount.v
theories/P_money.v
theories/P_blanks.v
