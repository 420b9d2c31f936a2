#!/usr/bin/env python3
"""tools/log.py out.jsonl...: turns results of tools/mutate.py into seeded/LOG.jsonl.

tools/tightened.json maps "definition|note" to the theorems added or strengthened because of that attempt."""
import json, os, sys
root = os.path.dirname(os.path.dirname(os.path.abspath(__file__)))
tp = root + '/tools/tightened.json'
tight = json.load(open(tp)) if os.path.exists(tp) else {}
REMARKS = {
    'v_length': 'not observable: validator::length is private, is only called with Type::Unknown, and its callers '
                'do not tell the results concerned apart',
    'prefix_value': 'not observable: helper::country_code sets the prefix whenever it succeeds, so the default is never used',
    'strip_prefix_char': 'not observable: its only caller, Rfc3966, falls back to the whole text, which is empty here',
    'is_meta': 'outside the notation of C51 on purpose: whether a slash may be escaped depends on the version of the regex crate, '
               'and no pattern of the code or the metadata has one',
}
lines = []
for f in sys.argv[1:]:
    for l in open(f):
        d = json.loads(l)
        lines.append(json.dumps({
            'definition': f"{d['file']}: {d['def']}",
            'edit': f"{d['old']}  =>  {d['new']}  ({d['note']})",
            'claim_broken': d['claim'],
            'theorems_failed': d['failed'],
            'claims_no_longer_proved': d['claims'],
            'theorems_tightened': tight.get(d['def'] + '|' + d['note'], []),
            **({'remark': REMARKS[d['def']]} if d['def'] in REMARKS and not d['failed'] else {})}))
open(root + '/seeded/LOG.jsonl', 'w').write('\n'.join(lines) + '\n')
print(len(lines))
