-Q theories Verif
theories/M_serialize.v
theories/L_serialize.v
theories/P_serialize.v
theories/M_matcher.v
theories/L_matcher.v
theories/P_matcher.v
theories/M_static_vector.v
theories/L_static_vector.v
theories/P_static_vector.v
theories/M_unicode.v
theories/L_unicode.v
theories/P_unicode.v
theories/M_infra.v
theories/L_infra.v
theories/P_infra.v
theories/M_percent.v
theories/L_percent.v
theories/P_percent.v
theories/M_ip.v
theories/L_ip.v
theories/P_ip.v
theories/M_tree.v
theories/L_tree.v
theories/L_tree2.v
theories/L_tree3.v
theories/L_tree4.v
theories/L_tree5.v
theories/L_tree6.v
theories/P_tree.v
theories/M_trie.v
theories/L_trie.v
theories/L_trie2.v
theories/L_trie3.v
theories/L_trie4.v
theories/L_trie5.v
theories/L_trie6.v
theories/L_trie7.v
theories/L_trie8.v
theories/L_trie9.v
theories/L_trie10.v
theories/L_trie11.v
theories/P_trie.v
theories/M_trie2.v
theories/L_trie12.v
theories/L_trie13.v
theories/P_trie2.v
theories/M_index_single.v
theories/M_index_big5.v
theories/M_index_euc_kr.v
theories/M_index_gb18030.v
theories/M_index_jis.v
theories/M_encoding.v
theories/L_encoding.v
theories/L_encoding2.v
theories/L_enc_utf8.v
theories/L_enc_codec.v
theories/L_enc_tables.v
theories/L_enc_multi.v
theories/L_enc_gb.v
theories/L_enc_single.v
theories/L_enc_misc.v
theories/L_enc_jp.v
theories/M_labels.v
theories/L_enc_queue.v
theories/P_encoding.v
theories/M_css.v
theories/L_css.v
theories/L_css2.v
theories/L_css3.v
theories/L_css4.v
theories/L_css5.v
theories/P_css.v
theories/L_css6.v
theories/P_css2.v
theories/M_html.v
theories/L_html1.v
theories/L_html2.v
theories/L_html3.v
theories/L_html4.v
theories/L_html5.v
theories/M_html_table.v
theories/L_html_names.v
theories/M_html_ncr.v
theories/L_html_ncr.v
theories/L_html_ncr2.v
theories/L_html_ncr3.v
theories/L_html6.v
theories/M_html_serialize.v
theories/L_html_serialize.v
theories/L_html7.v
theories/L_html8.v
theories/L_html9.v
theories/L_html_unique.v
theories/M_html_meta.v
theories/L_html_meta.v
theories/L_html10.v
theories/P_html.v
theories/M_url.v
theories/L_url.v
theories/L_url2.v
theories/L_url3.v
theories/L_url4.v
theories/L_url5.v
theories/L_url6.v
theories/P_url.v
theories/L_url7.v
theories/L_url8.v
theories/L_url9.v
theories/P_url2.v
theories/L_url10.v
theories/L_url11.v
theories/L_url12.v
theories/L_url13.v
theories/P_url3.v
theories/P_url4.v
theories/L_decoders.v
theories/L_decoders2.v
theories/L_decoders3.v
theories/P_decoders.v
theories/L_encoders.v
theories/L_encoders2.v
theories/P_encoders.v
theories/L_url14.v
theories/P_url5.v
theories/L_url15.v
theories/P_url6.v
theories/M_cssp.v
theories/L_cssp.v
theories/L_cssp2.v
theories/P_cssp.v
theories/M_sel.v
theories/L_sel.v
theories/P_sel.v
theories/L_sel2.v
theories/P_sel2.v
theories/M_tag.v
theories/L_tag.v
theories/L_tag2.v
theories/L_tag3.v
theories/L_tag4.v
theories/L_tag5.v
theories/L_tag6.v
theories/L_tag7.v
theories/L_tag8.v
theories/P_tag.v
theories/M_dom_names.v
theories/M_dom.v
theories/M_dom2.v
theories/L_dom.v
theories/L_dom2.v
theories/L_dom3.v
theories/L_dom4.v
theories/L_dom5.v
theories/L_dom6.v
theories/L_dom7.v
theories/L_dom8.v
theories/L_dom9.v
theories/P_dom.v
theories/P_dom2.v
theories/L_html11.v
theories/L_html12.v
theories/L_html13.v
theories/L_html14.v
theories/L_html15.v
theories/L_html16.v
theories/L_html17.v
theories/L_dom10.v
theories/L_dom11.v
theories/L_dom12.v
theories/L_dom13.v
theories/L_dom14.v
theories/L_dom15.v
theories/L_dom16.v
theories/L_dom17.v
theories/L_dom18.v
theories/L_dom19.v
theories/L_dom20.v
theories/L_dom21.v
theories/P_html2.v
theories/P_dom3.v
theories/L_dom30.v
theories/L_dom31.v
theories/L_dom32.v
theories/L_dom33.v
theories/L_dom34.v
theories/L_dom35.v
theories/L_dom36.v
theories/L_dom37.v
theories/L_dom38.v
theories/P_dom4.v
theories/L_dom39.v
theories/L_dom40.v
theories/L_dom41.v
theories/L_dom42.v
theories/P_dom5.v
theories/L_dom43.v
theories/L_dom44.v
theories/P_dom6.v
theories/P_dom7.v
theories/L_dom45.v
theories/L_dom46.v
theories/L_dom47.v
theories/P_dom8.v
theories/M_atom_tbl.v
theories/M_atom.v
theories/L_atom.v
theories/P_atom.v
theories/P_html3.v
theories/P_html4.v
theories/P_html5.v
