#!/usr/bin/env python3
"""Writes rocq/theories/ModelTypes.v: the struct definitions of /repo/xmp and /repo/models as type
descriptions (TypeM.v). Usage: gen_models.py /repo > ModelTypes.v"""
import re, os, glob, collections, sys
R = sys.argv[1] if len(sys.argv) > 1 else '/repo'

types, methods, bodies = {}, collections.defaultdict(set), {}
for f in sorted(glob.glob(R + '/xmp/*.go') + glob.glob(R + '/models/*/*.go')):
    if f.endswith('_test.go'):
        continue
    L = open(f, encoding='utf8').read().split('\n')
    pkg = next(m.group(1) for m in (re.match(r'package (\w+)', l) for l in L) if m)
    rel = os.path.relpath(f, R)
    i = 0
    while i < len(L):
        l = L[i]
        m = re.match(r'func \((\w+) (\*?)(\w+)\) (\w+)\(', l)
        if m:
            q = pkg + '.' + m.group(3)
            methods[q].add(m.group(4))
            j = i
            while L[j] != '}' and not (j == i and l.endswith('}')):
                j += 1
            bodies[q, m.group(4)] = (L[i:j + 1], rel, i + 1, j + 1)
        m = re.match(r'type (\w+) struct \{', l)
        if m:
            name, start, fl = m.group(1), i + 1, []
            i += 1
            while not L[i].startswith('}'):
                s = L[i].strip()
                mm = re.match(r'^(\w+)\s+([\*\[\]\w\.]+)\s+`(.*)`', s)
                m2 = re.match(r'^(\w+)\s+([\*\[\]\w\.]+)\s*(//.*)?$', s)
                if mm:
                    t = re.search(r'\bxmp:"([^"]*)"', mm.group(3))
                    fl.append((mm.group(1), mm.group(2), t.group(1) if t else ''))
                elif m2:
                    fl.append((m2.group(1), m2.group(2), ''))
                elif s and not s.startswith('//'):
                    fl.append((None, s, None))
                i += 1
            types[pkg + '.' + name] = ('struct', fl, rel, start, i + 1)
        else:
            m = re.match(r'type (\w+) (\S.*)$', l)
            if m and not m.group(2).startswith(('func', 'interface', 'struct')):
                types[pkg + '.' + m.group(1)] = ('alias', m.group(2).split('//')[0].strip(), rel, i + 1, i + 1)
            elif re.match(r'type \($', l):
                i += 1
                while not L[i].startswith(')'):
                    m = re.match(r'\s+(\w+)\s+([\[\]\w\.\*]+)\s*(//.*)?$', L[i])
                    if m:
                        types[pkg + '.' + m.group(1)] = ('alias', m.group(2), rel, i + 1, i + 1)
                    i += 1
        i += 1

PRIM = {'string': 'TStr', 'bool': 'TBool', 'byte': 'TUint 8', 'uint8': 'TUint 8', 'int': 'TInt 64', 'int64': 'TInt 64',
        'int32': 'TInt 32', 'float32': 'TText (cdc "float32")', 'float64': 'TText (cdc "float64")'}
# Types whose reading or writing methods do more than the descriptions of TypeM.v can say. They are described by a
# text form that cannot be written, so no theorem speaks about models with such a value.
SPECIAL = {'xmp.Extension', 'xmp.Tag', 'xmp.Node', 'xmpdm.Timecode', 'xmpbase.Identifier'}
# Flash.UnmarshalXMP (exif/types.go:345-354) reads like a record without methods; MediaTime has its own reader
# for attributes only; Uri.UnmarshalXMP (xmp_types.go:448-459) reads rdf:resource, else like a string.
PLAIN = {'exif.Flash', 'xmpdm.MediaTime', 'xmp.Uri'}

def split(t, pkg):
    m = re.match(r'^((?:\[\]|\*)*)(.*)$', t)
    p, b = m.groups()
    if b not in PRIM and '.' not in b:
        b = pkg + '.' + b
    return p, b

out, done = [], {}
def cite(q):
    k, d, f, a, b = types[q]
    return '%s:%d' % (f, a) if a == b else '%s:%d-%d' % (f, a, b)
def coqname(q):
    return 't_' + q.replace('.', '_')

def expr(p, b):
    """the description of the Go type p+b"""
    if p == '[]' and b == 'byte':
        return 'TBytes'
    if p.startswith('*'):
        return 'TPtr (%s)' % expr(p[1:], b)
    if p.startswith('[]'):
        return 'TArr (ArrInfo _ "Seq" false None false) (%s)' % expr(p[2:], b)
    if b in PRIM:
        return PRIM[b]
    define(b)
    return done[b]

def underlying(q):
    """the underlying type: ('struct', fields, pkg) or (prefix, base)"""
    while True:
        k, d = types[q][0], types[q][1]
        pkg = q.split('.')[0]
        if k == 'struct':
            return ('struct', d, pkg)
        p, b = split(d, pkg)
        if p or b in PRIM or b == 'time.Time':
            return (p, b, None)
        q = b

def typ_of(q):
    body, f, a, e = bodies[q, 'Typ']
    s = ' '.join(body)
    return {'Ordered': 'Seq', 'Unordered': 'Bag', 'Alternative': 'Alt'}[re.search(r'ArrayType(\w+)', s.split('return')[1]).group(1)]

def define(q):
    if q in done:
        return
    M = methods[q]
    done[q] = coqname(q)
    text, note = None, ''
    u = underlying(q)
    if q in SPECIAL:
        text, note = 'special', ' Has reading and writing methods of its own, which are not described.'
    elif u[0] == '[]' and u[1] != 'byte' and u[1] != 'xmp.AltItem':
        te = expr('', u[1])
        cd = 'Some (cdc "%s")' % q if {'MarshalText', 'UnmarshalText'} <= M else 'None'
        xm = 'MarshalXMP' in M and 'UnmarshalXMP' in M and q not in ('xmp.TagList',)
        ty = typ_of(q) if 'Typ' in M else 'Seq'
        text = 'TArr (ArrInfo _ "%s" %s (%s) %s) (%s)' % (ty, 'true' if xm else 'false', cd, 'true' if 'IsZero' in M else 'false', te)
        if q == 'xmp.TagList':
            note = ' Its methods are in NativeM.v; here it can only be empty.'
        elif 'UnmarshalText' in M and cd == 'None':
            note = ' Its UnmarshalText is for native tags.'
    elif u[0].startswith('[]*'):
        te = expr(u[0][2:], u[1])
        text = 'TArr (ArrInfo _ "%s" true None %s) (%s)' % (typ_of(q), 'true' if 'IsZero' in M else 'false', te)
    elif u[0] == '[]' and u[1] == 'xmp.AltItem':
        text = 'TAlt %s' % ('true' if q == 'xmp.AltString' else 'false')
    elif {'MarshalText', 'UnmarshalText'} <= M or (u[0] == '' and u[1] in PRIM and 'UnmarshalText' in M):
        text = 'TText (cdc "%s")' % q
    elif u[0] == 'struct':
        if 'UnmarshalText' in M and q not in PLAIN:
            # the record itself is kept for writing
            record(q, u, M, '_record')
            text, note = 'special', ' Written as the record above, read by UnmarshalText.'
        else:
            record(q, u, M, '')
            return
    elif u[0] == '' and u[1] in PRIM:
        text = PRIM[u[1]]
    else:
        raise Exception(q + str(u))
    out.append('(* %s%s *)\nDefinition %s : ty X := %s.' % (cite(q), note, coqname(q), text))

def record(q, u, M, suffix):
    rows = []
    for n, t, tag in u[1]:
        if n is None:
            raise Exception(q + ': ' + t)
        if tag == '-':
            rows.append('F "%s" "-" TStr' % n)
        else:
            rows.append('F "%s" "%s" (%s)' % (n, tag, expr(*split(t, u[2]))))
    nm = q.replace('.', '_')
    body = ';\n   '.join(rows)
    z, guard, c = 'None', 'false', ''
    if 'IsZero' in M and q not in ('xmpdm.MediaTime', 'exif.OECF', 'exif.CFAPattern', 'exif.DeviceSettings'):
        b, f, a, e = bodies[q, 'IsZero']
        names = []
        for x in re.findall(r'\bx\.(\w+)', ' '.join(b)):
            if x not in names:
                names.append(x)
        z = '(Some (all_zero fs_%s [%s]))' % (nm, '; '.join('"%s"' % x for x in names))
        c = ' IsZero: %d-%d.' % (a, e)
    if q == 'xmpdm.MediaTime':
        z, c = '(Some media_time_zero)', ' IsZero: 507-509.'
    if q in ('exif.OECF', 'exif.CFAPattern', 'exif.DeviceSettings'):
        b, f, a, e = bodies[q, 'IsZero']
        z, c = '(Some cols_or_rows_zero)', ' IsZero: %d-%d.' % (a, e)
    if 'MarshalXMP' in M:
        b, f, a, e = bodies[q, 'MarshalXMP']
        s = re.sub(r'\s+', ' ', ' '.join(b))
        if 'if x.IsZero() { return nil }' in s:
            guard = 'true'
        c += ' MarshalXMP: %d-%d.' % (a, e)
    out.append('(* %s.%s *)\nDefinition fs_%s : raw := [\n   %s].' % (cite(q), c, nm, body))
    out.append('Definition %s%s : ty X := TStruct (StructInfo _ %s %s) (fields fs_%s).' % (coqname(q), suffix, z, guard, nm))

models = [t for t in types if types[t][0] == 'struct' and 'Namespaces' in methods[t] and not t.startswith('xmp.')]
for t in models:
    define(t)

# namespaces, their groups and factories; the packages in the order of models/import.go, digikam last
groups = dict(re.findall(r'(\w+)\s+NamespaceGroup = "(\w*)"', open(R + '/xmp/namespace.go').read()))
imports = re.findall(r'go-xmp/models/(\w+)"', open(R + '/models/import.go').read())
dirs = imports + sorted(d for d in os.listdir(R + '/models') if os.path.isdir(R + '/models/' + d) and d not in imports)
nss, regs, pkgs, extra = [], {}, [], set()
for d in dirs:
    for f in sorted(glob.glob(R + '/models/' + d + '/*.go')):
        if f.endswith('_test.go'):
            continue
        L = open(f, encoding='utf8').read().split('\n')
        pkg = next(m.group(1) for m in (re.match(r'package (\w+)', l) for l in L) if m)
        for i, l in enumerate(L):
            m = re.match(r'\s+(\w+)\s+(?:\*xmp\.Namespace\s+)?= xmp.NewNamespace\("([^"]*)", "([^"]*)", (\w+)\)', l)
            if m:
                nss.append((pkg, m.group(1), m.group(2), m.group(3), m.group(4) != 'nil', '%s:%d' % (os.path.relpath(f, R), i + 1)))
                if pkg not in pkgs:
                    pkgs.append(pkg)
                if d not in imports:
                    extra.add(pkg)
            m = re.match(r'\s+xmp.Register\((\w+)(.*)\)', l)
            if m:
                gs = [groups[g] for g in re.findall(r'xmp\.(\w+)', m.group(2))]
                regs[pkg, m.group(1)] = (gs, '%s:%d' % (os.path.relpath(f, R), i + 1))
for n in nss:
    # exif registers a list
    if (n[0], n[1]) not in regs:
        regs[n[0], n[1]] = regs[n[0], 'v']
fid = {p: i + 1 for i, p in enumerate(pkgs)}
def nsname(var, pkg):
    return 'ns_%s_%s' % (pkg, var)

print('''(* Generated by tools/gen_models.py from the struct definitions of /repo/xmp and /repo/models: the types of all
   models and of the values in them, with their xmp tags, namespaces, Can and Namespaces methods and factories.
   Parameters: the text form of every type that has one (by the name of the Go type; float32 and float64 too), and
   whether the denominator of a Rational is zero.
   Simplifications: TypeM.v's. Types with reading and writing methods of their own are [special]: no such value can be
   written, so no theorem speaks about models that have one; likewise records that are read by UnmarshalText.
   exif.Flash, xmpdm.MediaTime and xmp.Uri are described without the forms of input that the encoder never writes
   (text, attributes and rdf:resource). int has 64 bits. *)
From Coq Require Import List Arith ZArith Bool Ascii String.
From Verif Require Import GoStr GoMap Names Semver RegistryM NodeM ArrayM TypeM TagM DecodeM.
Import ListNotations.
Local Open Scope string_scope.

Section Library.
Context {X : Type}.
Variable cdc : string -> codec X.
Variable den_zero : gval X -> bool.

(* a field of a Go struct: its name, its xmp tag and its type *)
Record gofield := F { go_name : string; go_tag : string; go_type : ty X }.
Definition raw := list gofield.
(* the fields getTypeInfo finds (typeinfo.go:128-193): all but those tagged "-"; there are no embedded structs *)
Definition kept (r : raw) : raw := filter (fun f => negb (go_tag f =? "-")) r.
Definition finfo_of (i : tag_info) : finfo :=
  Finfo (ti_name i) (ti_attr i) (ti_empty i) (ti_omit i) (ti_any i) (ti_min i) (ti_max i).
Definition fields (r : raw) : list (finfo * ty X) :=
  flat_map (fun f => match parse_tag (go_name f) (go_tag f) with Ok i => [(finfo_of i, go_type f)] | _ => [] end) (kept r).

(* An IsZero method that looks at these fields: x.F == 0, x.F == "", len(x.F) == 0, x.F.IsZero(), !x.F.Value() or
   (x.F == nil || x.F.IsZero()), which is what isEmptyValue asks of them. *)
Fixpoint all_zero_in (l : raw) (names : list string) (vs : list (gval X)) : bool :=
  match l, vs with
  | f :: l', v :: vs' => (negb (existsb (String.eqb (go_name f)) names) || is_empty (go_type f) v) && all_zero_in l' names vs'
  | _, _ => true
  end.
Definition all_zero (r : raw) (names : list string) (vs : list (gval X)) : bool := all_zero_in (kept r) names vs.
(* MediaTime.IsZero, models/xmp_dm/types.go:507-509 *)
Definition media_time_zero (vs : list (gval X)) : bool :=
  match vs with [scale; VInt v] => (v =? 0)%Z && den_zero scale | _ => false end.
(* IsZero of OECF, CFAPattern and DeviceSettings, models/exif/types.go:166-168, 217-219, 268-270 *)
Definition cols_or_rows_zero (vs : list (gval X)) : bool :=
  match vs with VInt c :: VInt r :: _ => (c =? 0)%Z || (r =? 0)%Z | _ => false end.

Definition special : ty X :=
  TText (Codec _ (fun _ => Err "not described") (fun _ _ => Err "not described") VNil (fun v => is_nil v) true).
''')
print('\n'.join(out))
print('\n(* ---- namespaces and models ---- *)')
for pkg, var, n, uri, fac, c in nss:
    print('(* %s *)\nDefinition %s : namespace := Namespace "%s" "%s" %s.' % (c, nsname(var, pkg), n, uri, '(Some %d)' % fid[pkg] if fac else 'None'))
kname = {}
for t in models:
    pkg = t.split('.')[0]
    b, f, a, e = bodies[t, 'Namespaces']
    var = re.search(r'\{(\w+)\}', ' '.join(b)).group(1)
    b2, f2, a2, e2 = bodies[t, 'Can']
    s = ' '.join(b2)
    m = re.search(r'(\w+)\.GetName\(\)', s)
    lit = re.search(r'== "([^"]*)"', s)
    can = next(n[2] for n in nss if n[0] == pkg and n[1] == m.group(1)) if m else lit.group(1)
    kname[t] = 'k_' + t.replace('.', '_')
    init = 'map (fun f => zero (snd f)) (fields fs_%s)' % t.replace('.', '_')
    note = ''
    if t == 'ixml.IXML':
        init = 'VStr "2.0" :: tl (%s)' % init
        note = ' NewModel: 49-53, ixmlVersion: 39.'
    print('(* Namespaces: %s:%d-%d. Can: %d-%d.%s *)\nDefinition %s : mkind X := MKind [%s] (fun p => p =? "%s") (fields fs_%s)\n  (%s).' % (
        f, a, e, a2, e2, note, kname[t], nsname(var, pkg), can, t.replace('.', '_'), init))
def reglist(ps):
    return ';\n   '.join('; '.join('(%s, [%s])' % (nsname(n[1], p), '; '.join('"%s"' % g for g in regs[p, n[1]][0])) for n in nss if n[0] == p) for p in ps)
print('(* the Register calls of the init functions, in the order of models/import.go *)')
print('Definition library : list reg_op :=\n  [%s].' % reglist([p for p in pkgs if p not in extra]))
print('(* and of the package that models/import.go does not import *)')
print('Definition library_rest : list reg_op :=\n  [%s].' % reglist([p for p in pkgs if p in extra]))
print('(* xmp/sdk.go:33-60 *)')
print('Definition core : list reg_op :=\n  [(ns_x, []); (ns_xml, []); (ns_rdf, []); (Namespace "stArea" "http://ns.adobe.com/xmp/sType/Area#" None, [])].')
print('(* NewModel of each package; models/exif/model.go:53-63 and models/id3/model.go:52-57 look at the name *)')
rows = []
for p in pkgs:
    ms = [t for t in models if t.split('.')[0] == p]
    if p == 'exif':
        r = 'if s =? "exif" then Some k_exif_ExifInfo else if s =? "exifEX" then Some k_exif_ExifEXInfo\n           else if s =? "aux" then Some k_exif_ExifAuxInfo else None'
    elif p == 'id3':
        r = 'if s =? "id3" then Some k_id3_ID3 else None'
    elif p == 'qt':
        r = 'Some k_qt_QtInfo'
    else:
        assert len(ms) == 1, (p, ms)
        r = 'Some ' + kname[ms[0]]
    rows.append('  | %d => %s' % (fid[p], r))
print('Definition library_kinds (n : nat) (s : string) : option (mkind X) :=\n  match n with\n%s\n  | _ => None\n  end.' % '\n'.join(rows))
top = [t for t in models if not (t.startswith('qt.') and t != 'qt.QtInfo')]
print('(* what the factories make *)\nDefinition library_models : list (mkind X) :=\n  [%s].' % '; '.join(kname[t] for t in top))
print('(* all structs described, for the checks on their tags *)\nDefinition library_structs : list raw :=\n  [%s].' % ';\n   '.join(sorted(set(re.findall(r'Definition (fs_\w+) :', '\n'.join(out))))))
print('End Library.')
