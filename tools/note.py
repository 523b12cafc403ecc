#!/usr/bin/env python3
"""note.py ID status text: sets the status and note of a property."""
import json, os, sys
p = os.path.dirname(os.path.abspath(__file__)) + '/notes.json'
n = json.load(open(p))
n[sys.argv[1]] = {'status': sys.argv[2], 'note': sys.argv[3]}
json.dump(dict(sorted(n.items())), open(p, 'w'), indent=1)
