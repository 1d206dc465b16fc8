"""Mutants whose claim held up although its English was false, and the theorems added or restated for them."""
MORE = {
    'R08': ['C54_any_title', 'C54_plain_title', 'C54_title_refuted'],
    'T04': ['C07_lower_is_first', 'C07_titles_of_first'],
    'R09': ['C53_counted'],
    'R10': ['C53_counted'],
    'V06': ['C12_more_relations'],
    'K17': ['C37_io_error'],
    'AA01': ['C83_header'],
    'AA02': ['C29_accepts', 'C29_rejects', 'C29_round_trip'],
    'AA03': ['C29_messages'],
    'AA04': ['C26_id'],
    'AA05': ['C26_id'],
    'AA06': ['C55_sources'],
    'AA07': ['C55_sources'],
    'AA08': ['C78_obeyed', 'C78_asked'],
    'AA09': ['C100_contents'],
    'AA10': ['C100_order'],
    'AA11': ['C100_order'],
    'AA12': ['C100_order'],
    'AA13': ['C101_text'],
    'AA14': ['C101_text'],
    'AA15': ['C89_white_space'],
    'AA16': ['C70_cut'],
    'AA19': ['C69_artefact'],
    'AA20': ['C69_artefact'],
    'AA21': ['C69_artefact'],
    'AA22': ['C103_display'],
    'AA23': ['C103_markdown'],
    'AB01': ['C104_mono', 'C104_rust', 'C104_markdown', 'C104_json', 'C104_every_text'],
    'AB04': ['C105_reads', 'C105_writes'],
    'AB05': ['C105_reads'],
    'AB06': ['C105_reads', 'C105_writes'],
    'AB02': ['C104_mono', 'C104_rust', 'C104_markdown', 'C104_json', 'C104_every_text'],
    'AC01': ['C106_order', 'C106_json', 'C106_tags', 'C106_uncovered', 'C106_derived'],
    'AC02': ['C106_aggregated'],
}
