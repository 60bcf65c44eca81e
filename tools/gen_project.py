#!/usr/bin/env python3
"""Regenerate the XProps.v files, rocq/_CoqProject and MANIFEST.json.
Status and notes per property are in tools/notes.json."""
import glob, json, os, re, subprocess
root = os.path.dirname(os.path.dirname(os.path.abspath(__file__)))
th = os.path.join(root, 'rocq', 'theories')
subprocess.check_call(['python3', os.path.join(root, 'tools', 'gen_props.py')] + sorted(glob.glob(th + '/*Theory.v')))
files = sorted(os.path.basename(f) for f in glob.glob(th + '/*.v'))
open(os.path.join(root, 'rocq', '_CoqProject'), 'w').write(
    '-Q theories Verif\n' + ''.join('theories/%s\n' % f for f in files))
notes = json.load(open(os.path.join(root, 'tools', 'notes.json')))
names = {}
for f in sorted(glob.glob(th + '/*Props.v')):
    for n in re.findall(r'^Theorem (C\d+\w*)', open(f).read(), re.M):
        names.setdefault(n.split('_')[0], []).append(n)
claims = []
for line in open(os.path.join(root, 'properties.jsonl')):
    p = json.loads(line)['id']
    t = names.get(p, [])
    st, note = notes.get(p, ['', ''])
    if not t:
        if st == 'not_applicable':
            claims.append({'property': p, 'status': st, 'theorems': [], 'note': note})
        continue
    if not st:
        print('no status for', p, t); st = 'partial'
    claims.append({'property': p, 'status': st, 'theorems': t, 'note': note})
open(os.path.join(root, 'MANIFEST.json'), 'w').write(
    '{"claims": [\n' + ',\n'.join(' ' + json.dumps(c) for c in claims) + '\n]}\n')
print(len(claims), 'claims', sum(len(c['theorems']) for c in claims), 'theorems')
