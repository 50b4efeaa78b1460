#!/usr/bin/env python3
"""Print the Coq model of ies/indication.rs (75 one-bit flags) from its source text."""
import re
s = open('/repo/src/gtpv2/messages/ies/indication.rs').read()
fields = re.findall(r'pub (\w+): bool', s)
vec = re.search(r'vec!\[(.*?)\]', s, re.S).group(1)
octs = [o for o in vec.split(',') if o.strip()]
o = ['(* 16-95 *)', 'Record indication := mkIndication {']
rows = [fields[i:i + 8] for i in range(0, len(fields), 8)]
o.append(';\n'.join('  ' + '; '.join('i_%s : bool' % f for f in r) for r in rows) + ' }.')
o.append('(* 189-266 *)')
o.append('Definition Indication_value (v : indication) : list N :=')
enc = []
for oc in octs:
    terms = re.findall(r'\(i\.(\w+) as u8\)(?:\s*<<\s*(\d))?', oc)
    enc.append(' + '.join('flag (i_%s v) %d' % (f, 1 << int(k or 0)) for f, k in terms))
o.append('  [' + ';\n   '.join(enc) + '].')
o.append('Definition Indication_marshal := marshal_ie 77 Indication_value.')
o.append('(* 270-371: octets that are absent leave the default false, further octets are ignored *)')
dec = {}
for arm in re.findall(r'\((\d+), _\) => \{(.*?)\}', s, re.S):
    for f, mask, sh in re.findall(r'self\.(\w+) = \(i\.1 & (0x\w+)\)(?: >> (\d))? == 1', arm[1]):
        assert int(mask, 16) == 1 << int(sh or 0)
        dec[f] = (int(arm[0]), int(mask, 16))
assert set(dec) == set(fields)
o.append('Definition Indication_convert (s : list N) : indication :=')
o.append('  mkIndication')
for r in rows:
    o.append('    ' + ' '.join('(bit (nth %d s 0) %d)' % dec[f] for f in r))
o[-1] += '.'
print('\n'.join(o))
