#!/usr/bin/env python3
"""Adds [Print Assumptions] after every Theorem of the files given, where it is missing."""
import re, sys
for p in sys.argv[1:]:
    s = open(p).read(); out = ''; i = 0
    for m in re.finditer(r"(?m)^Theorem (\w+)", s):
        q = re.compile(r'\bQed\.').search(s, m.end())
        out += s[i:q.end()]; i = q.end()
        line = '\nPrint Assumptions %s.' % m.group(1)
        if not s.startswith(line, i): out += line
    open(p, 'w').write(out + s[i:])
