#!/usr/bin/env python3
"""Set the status and note of a property: note.py C01 proved "text"."""
import json, os, sys
p = os.path.join(os.path.dirname(os.path.abspath(__file__)), 'notes.json')
d = json.load(open(p))
d[sys.argv[1]] = [sys.argv[2], sys.argv[3]]
open(p, 'w').write('{\n' + ',\n'.join(' %s: %s' % (json.dumps(k), json.dumps(d[k])) for k in sorted(d)) + '\n}\n')
