{
 "j_names_swap": [
  "C54_file",
  "C54_property",
  "C54_text",
  "C54_read"
 ],
 "j_style": [
  "C54_text",
  "C54_read"
 ],
 "j_transform": [
  "C54_text",
  "C54_read"
 ],
 "j_ctype_name": [
  "C54_property",
  "C54_read"
 ],
 "sacc_from": [
  "C56_from_guid",
  "C56_from_fixed"
 ],
 "h_bool_width": [
  "C74_property"
 ],
 "h_delegate_swap": [
  "C74_property"
 ],
 "h_array_swap": [
  "C74_property"
 ],
 "auto1_JsonDirect_5": [
  "C76_file"
 ],
 "ly_start": [
  "C76_file"
 ],
 "auto1_Guid_1": [
  "C31_accepts_iff"
 ],
 "nm_dot": [
  "C77_iff"
 ],
 "nm_order": [
  "C77_iff"
 ],
 "nm_guid": [
  "C17_version"
 ],
 "nm_guid5": [
  "C16_version"
 ],
 "ev_base": [
  "C32_equal_iff",
  "C32_same_iff"
 ],
 "ev_time": [
  "C32_equal_iff",
  "C32_same_iff"
 ],
 "ev_table": [
  "C32_equal_iff",
  "C32_same_iff"
 ],
 "ev_argdouble": [
  "C32_equal_iff",
  "C32_same_iff"
 ],
 "ev_argfloat": [
  "C32_equal_iff",
  "C32_same_iff"
 ],
 "ev_bytename": [
  "C32_equal_iff",
  "C32_same_iff"
 ],
 "ev_index": [
  "C32_equal_iff",
  "C32_same_iff"
 ],
 "ev_multi": [
  "C32_equal_iff",
  "C32_same_iff"
 ],
 "ev_owner": [
  "C32_equal_iff",
  "C32_same_iff"
 ],
 "ev_unknown": [
  "C32_equal_iff",
  "C32_same_iff"
 ],
 "ev_floats": [
  "C32_equal_iff",
  "C32_same_iff"
 ],
 "ev_numfmt": [
  "C32_equal_iff",
  "C32_same_iff"
 ],
 "ix_length": [
  "C32_lookups",
  "C32_lookups_exact"
 ],
 "ix_shorter": [
  "C32_lookups",
  "C32_lookups_exact"
 ],
 "ix_missing": [
  "C32_lookups",
  "C32_lookups_exact"
 ],
 "ix_first": [
  "C32_lookups",
  "C32_lookups_exact"
 ],
 "ix_flags": [
  "C32_lookups",
  "C32_lookups_exact"
 ],
 "ix_type": [
  "C32_lookups",
  "C32_lookups_exact"
 ],
 "ix_hidden": [
  "C32_lookups",
  "C32_lookups_exact"
 ],
 "ix_hidkeys": [
  "C32_lookups",
  "C32_lookups_exact"
 ],
 "ix_keys_same": [
  "C32_lookups",
  "C32_lookups_exact"
 ],
 "ix_custom": [
  "C32_lookups",
  "C32_lookups_exact"
 ],
 "ix_named": [
  "C32_lookups",
  "C32_lookups_exact"
 ],
 "ix_set": [
  "C32_lookups",
  "C32_lookups_exact"
 ],
 "ix_struct": [
  "C32_lookups",
  "C32_lookups_exact"
 ],
 "hs_last": [
  "C78_decides",
  "C78_same_values",
  "C78_all_hits"
 ],
 "hs_keep": [
  "C78_decides",
  "C78_same_values",
  "C78_all_hits"
 ],
 "hs_never": [
  "C78_decides",
  "C78_same_values",
  "C78_all_hits"
 ],
 "hs_first": [
  "C78_decides",
  "C78_same_values"
 ],
 "ix_values": [
  "C32_lookups",
  "C32_lookups_exact"
 ],
 "ix_nohit": [
  "C32_lookups",
  "C32_lookups_exact"
 ],
 "ix_nokey": [
  "C32_lookups",
  "C32_lookups_exact"
 ],
 "jh_calm": [
  "C79_failures",
  "C79_texts",
  "C79_successes",
  "C79_decides",
  "C79_all_hits"
 ]
}