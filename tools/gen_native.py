#!/usr/bin/env python3
"""Writes rocq/theories/NativeTags.v: the struct tags of the models in /repo/models, key by key.
Usage: gen_native.py /repo > NativeTags.v"""
import re, os, glob, sys
R = sys.argv[1] if len(sys.argv) > 1 else '/repo'
MODELS = [('cc.CC', 'NsCC'), ('crs.CameraRawInfo', 'NsCrs'), ('dc.DublinCore', 'NsDc'), ('digikam.Digikam', 'NsDk'), ('dji.DJI', 'NsDJI'),
          ('exif.ExifInfo', 'NsExif'), ('exif.ExifEXInfo', 'NsExifEX'), ('exif.ExifAuxInfo', 'NsExifAux'), ('id3.ID3', 'NsID3'),
          ('itunes.ITunesMetadata', 'NsITunes'), ('ixml.IXML', 'NsIXML'), ('mp4.MP4Info', 'NsMP4'), ('pdf.PDFInfo', 'NsPDF'),
          ('pm.Photomechanic', 'NsPm'), ('ps.PhotoshopInfo', 'NsPhotoshop'), ('qt.QtInfo', 'NsQuicktime'), ('qt.QtUserdata', 'NsQuicktime'),
          ('qt.QtMetadata', 'NsQuicktime'), ('qt.QtPlayer', 'NsQuicktime'), ('qt.QtProApps', 'NsQuicktime'), ('riff.RiffInfo', 'NsRiff'),
          ('tiff.TiffInfo', 'NsTiff'), ('xmpbase.XmpBase', 'NsXmp'), ('xmpbj.JobTicket', 'NsXmpBJ'), ('xmpdm.XmpDM', 'NsXmpDM'),
          ('xmpmm.XmpMM', 'NsXmpMM'), ('xmprights.XmpRights', 'NsXmpRights'), ('xmptpg.PagedText', 'NsXmpTPg')]
want = dict(MODELS)
out = {}
for f in sorted(glob.glob(R + '/models/*/*.go')):
    L = open(f, encoding='utf8').read().split('\n')
    pkg = next(m.group(1) for m in (re.match(r'package (\w+)', l) for l in L) if m)
    rel = os.path.relpath(f, R)
    for i, l in enumerate(L):
        m = re.match(r'type (\w+) struct \{', l)
        if m and pkg + '.' + m.group(1) in want:
            rows, j = [], i + 1
            while not L[j].startswith('}'):
                s = L[j].strip()
                mm = re.match(r'^(\w+)\s+([\*\[\]\w\.]+)\s*(?:`(.*)`)?\s*(//.*)?$', s)
                if mm:
                    kv = re.findall(r'([\w-]+):"([^"]*)"', mm.group(3) or '')
                    rows.append((mm.group(1), kv))
                else:
                    assert not s or s.startswith('//'), s
                j += 1
            out[pkg + '.' + m.group(1)] = (rel, i + 1, j + 1, rows)
        m = re.match(r'func \(\w+ \*?(\w+)\) Namespaces\(\)', l)
        if m and pkg + '.' + m.group(1) in want:
            v = re.search(r'\{(\w+)\}', ' '.join(L[i:i + 3]).split('{', 1)[1]).group(1)
            assert v == want[pkg + '.' + m.group(1)], (l, v)
print('''(* Generated by tools/gen_native.py from the struct definitions of /repo/models: for every field of a model, in order,
   the name of the field and its struct tag, key by key. *)
From Coq Require Import List String.
Import ListNotations.
Local Open Scope string_scope.

Definition struct_tags := list (string * list (string * string)).
''')
for t, v in MODELS:
    rel, a, b, rows = out[t]
    print('(* %s:%d-%d *)\nDefinition st_%s : struct_tags := [\n%s].' % (rel, a, b, t.replace('.', '_'), ';\n'.join(
        '   ("%s", [%s])' % (g, '; '.join('("%s", "%s")' % p for p in kv)) for g, kv in rows)))
