import json
M={
'C01':('proved',['C01_stream_parses_exactly','C01_every_byte_string','C01_reading_unique'],'for every stream of well-formed commands and for every byte string'),
'C02':('proved',['C02_framed'],''),
'C03':('proved',['C03_parser_reuse'],''),
'C04':('proved',['C04_panic_iff','C04_no_sub_no_panic'],''),
'C05':('proved',['C05_text_verbatim','C05_leading_text_spurious_unknown'],'second theorem: text at the very start is preceded by a spurious empty Unknown command'),
'C06':('proved',['C06_fixed_arguments'],''),
'C07':('proved',['C07_next_byte_starts_afresh','C07_payload_verbatim'],''),
'C08':('proved',['C08_table_prefix_free','C08_each_prefix_recognised'],''),
'C09':('proved',['C09_nothing_invented','C09_nul_barcode_at_end_invents_nul','C09_nothing_lost','C09_items_lossless','C09_losses_are_real'],'the exact exceptions are theorems'),
'C10':('proved',['C10_unknown_reported'],''),
'C11':('proved',['C11_compositional'],''),
'C12':('proved',['C12_subcommand_recovered','C12_last_subcommand_loses_payload','C12_function_tables'],''),
'C15':('proved',['C15_raster_pixels','C15_raster_ink','C15_raster_ink_refuted','C15_wrong_length_is_error'],''),
'C16':('proved',['C16_column_pixels','C16_column_is_transposed_raster','C16_truncated_column_data_panics','C16_multicolour_column_never_decodes'],''),
'C17':('proved',['C17_scaling','C17_scaling_by_one'],''),
'C18':('proved',['C18_topmost_opaque_layer_wins','C18_layers_blend_in_order','C18_larger_layer_refused','C18_smaller_layer_misplaced_refuted','C18_multicolour_raster','C18_multicolour_raster_odd_width_refuted'],''),
'C26':('proved',['C26_unknown_selection_falls_back','C26_bytewise','C26_one_char_per_byte','C26_length_preserved','C26_ascii','C26_pages_437_860_863_exact','C26_page_850_refuted','C26_page_865_refuted','C26_page_857_but_three','C26_katakana','C26_utf8_roundtrip','C26_utf8_strict_iff','C26_utf8_total'],'pages 851 and 853 have no published mapping at hand: only the one-character property is proved for them'),
'C27':('proved',['C27_only_listed_positions_change','C27_high_half_untouched','C27_indian_digits','C27_national_sets_refuted'],'sets 11-16 not compared with a published table'),
}
exec(open('/tmp/w/manifest_more.py').read()) if __import__('os').path.exists('/tmp/w/manifest_more.py') else None
props=[json.loads(l)['id'] for l in open('/verif/properties.jsonl')]
claims=[]
for p in props:
    if p in M:
        s,t,n=M[p]; claims.append({'property':p,'status':s,'theorems':t,'note':n})
json.dump({'claims':claims},open('/verif/MANIFEST.json','w'),indent=1,ensure_ascii=False)
import re,glob
src=''.join(open(f).read() for f in glob.glob('/verif/rocq/theories/*.v'))
names=set(re.findall(r'^\s*(?:Theorem|Lemma|Corollary|Example|Fact|Remark|Proposition)\s+(\w+)',src,re.M))
for c in claims:
    for t in c['theorems']:
        if t not in names: print('MISSING',c['property'],t)
print('unclaimed:',[p for p in props if p not in M])
allc=set(t for c in claims for t in c['theorems'])
print('unlisted:',sorted(n for n in names if re.match(r'C\d\d_',n) and n not in allc))
