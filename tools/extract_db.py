#!/usr/bin/env python3
"""Parse the generated Rust tables of /repo/src and print statistics / Coq tables.
   usage: extract_db.py stats | objects | makers"""
import re, sys
R = "/repo/src/"

def objects():
    t = open(R + "database_mra_objects.rs").read()
    body = t[t.index("let mut prop_enums = Vec::new();"):]
    S = r'"((?:[^"\\]|\\.)*)"'
    tok = re.compile(
        r'let mut obj =\s*self\s*\.create_standard_object\(\s*' + S + r'\s*\.to_string\(\),\s*0x([0-9A-Fa-f]+),\s*0x([0-9A-Fa-f]+),?\s*\);'
        r'|create_standard_property_enum\(\s*(0x[0-9A-Fa-f]+),\s*' + S + r'\s*\.to_string\(\),\s*' + S + r'\s*\.to_string\(\),?\s*\)'
        r'|obj\.add_standard_property\(\s*0x([0-9A-Fa-f]+),\s*' + S + r'\s*\.to_string\(\),\s*' + S + r'\s*\.to_string\(\),\s*(\d+),\s*'
        r'property_string_to_attribute\("(\w*)"\),\s*property_string_to_attribute\("(\w*)"\),\s*property_string_to_attribute\("(\w*)"\),\s*&mut prop_enums,?\s*\);'
        r'|(self\.add_object\(obj\);)')
    objs, cur, enums = [], None, []
    def line(pos): return t.count("\n", 0, pos + len(t) - len(body)) + 1
    for m in tok.finditer(body):
        g = m.groups()
        if g[1] is not None:
            cur = dict(name=g[0], grp=int(g[1], 16), cls=int(g[2], 16), props=[], line=line(m.start()))
        elif g[3] is not None:
            enums.append((int(g[3], 16), g[4], g[5]))
        elif g[6] is not None:
            cur["props"].append(dict(code=int(g[6], 16), name=g[7], typ=g[8], cap=int(g[9]),
                                     get=g[10], set=g[11], anno=g[12], enums=enums))
            enums = []
        else:
            objs.append(cur); cur = None
    # completeness: every call in the source was consumed
    assert body.count("create_standard_object(") == len(objs), (body.count("create_standard_object("), len(objs))
    assert body.count("add_standard_property(") == sum(len(o["props"]) for o in objs)
    assert body.count("create_standard_property_enum(") == sum(len(p["enums"]) for o in objs for p in o["props"])
    assert not enums
    return objs

def makers():
    t = open(R + "database_manufacturers.rs").read()
    body = t[t.index("pub fn init_manufactures"):]
    ms = re.findall(r'self\.add_standard_manufacture\(\s*0x([0-9A-Fa-f]+),\s*String::from\("((?:[^"\\]|\\.)*)"\),?\s*\);', body)
    assert len(ms) == body.count("add_standard_manufacture(")
    return [(int(c, 16), n) for c, n in ms]

def emit_objects():
    os_ = objects()
    out = ['(** Generated by tools/extract_db.py from /repo/src/database_mra_objects.rs:79-end',
           '    (StandardDatabase::init_objects). One [DbClass] per create_standard_object',
           '    call, one [DbRow] per add_standard_property call in source order; the',
           '    arguments are copied verbatim. [e<n>] are the distinct arguments of',
           '    create_standard_property_enum. Do not edit. *)',
           'From Verif Require Import Base.', 'Local Open Scope string_scope.', 'Local Open Scope list_scope.', '',
           '(** src/database_mra_objects.rs:20-30, arguments of add_standard_property. *)',
           'Record db_row : Type := DbRow {', '  r_code : N; r_name : string; r_typ : string; r_cap : N;',
           '  r_get : string; r_set : string; r_anno : string; r_enums : list (N * string * string) }.',
           '(** src/database_mra_objects.rs:58, arguments of create_standard_object. *)',
           'Record db_class : Type := DbClass { c_name : string; c_grp : N; c_cls : N; c_rows : list db_row }.', '']
    ids = {}
    for o in os_:
        for q in o['props']:
            for e in q['enums']:
                if e not in ids:
                    ids[e] = 'e%d' % len(ids)
                    out.append('Definition %s : N * string * string := (0x%X, %s, %s).' % (ids[e], e[0], coqs(e[1]), coqs(e[2])))
    names = []
    for o in os_:
        n = 'cls_%02X%02X' % (o['grp'], o['cls']); names.append(n)
        out.append('(** src/database_mra_objects.rs:%d *)' % o['line'])
        out.append('Definition %s : db_class := DbClass %s 0x%02X 0x%02X [' % (n, coqs(o['name']), o['grp'], o['cls']))
        out.append(';\n'.join('  DbRow 0x%02X %s %s %d %s %s %s [%s]' % (q['code'], coqs(q['name']), coqs(q['typ']), q['cap'],
            coqs(q['get']), coqs(q['set']), coqs(q['anno']), '; '.join(ids[e] for e in q['enums'])) for q in o['props']) + '].')
    assert len(set(names)) == len(names)
    out.append('(** src/database_mra_objects.rs: the classes in the order of add_object calls. *)')
    out.append('Definition db_table : list db_class := [\n  ' + '; '.join(names) + '].')
    print('\n'.join(out))

def emit_makers():
    print('(** Generated by tools/extract_db.py from /repo/src/database_manufacturers.rs')
    print('    (init_manufactures), in source order. Do not edit. *)')
    print('From Verif Require Import Base.\nLocal Open Scope string_scope.\nLocal Open Scope list_scope.\n')
    print('Definition maker_table : list (N * string) := [')
    print(';\n'.join('  (0x%06X, %s)' % (c, coqs(n)) for c, n in makers()) + '].')

RULE = {"required": "Required", "optional": "Optional"}
def coqs(s): return '"' + s.replace('\\"', '"').replace('"', '""') + '"'

def main():
    k = sys.argv[1]
    if k == 'objects': return emit_objects()
    if k == 'makers': return emit_makers()
    if k == "stats":
        os_ = objects()
        print(len(os_), sum(len(o["props"]) for o in os_))
        sup = {}
        for p in os_[0]["props"]: sup.setdefault(p["code"], p)
        for o in os_:
            seen = {}
            for p in o["props"]: seen.setdefault(p["code"], p)
            rd = [c for c, p in {**seen, **sup}.items() if p["get"] in RULE]
            sh = [hex(c) for c in seen if c in sup and o is not os_[0] and (seen[c]["get"], seen[c]["set"], seen[c]["anno"], seen[c]["cap"]) != (sup[c]["get"], sup[c]["set"], sup[c]["anno"], sup[c]["cap"])]
            print(hex(o["grp"]), hex(o["cls"]), o["name"], len(o["props"]), len(seen), "readable", len(rd), "shadow", sh, "low", [hex(c) for c in seen if c < 0x80])
        print(sorted(set(p["get"] for o in os_ for p in o["props"])), sorted(set(p["typ"] for o in os_ for p in o["props"])))
        print(len(set((e) for o in os_ for p in o["props"] for e in p["enums"])))
        print("maxcap", max(p["cap"] for o in os_ for p in o["props"]))
        ms = makers()
        print(len(ms), len(set(c for c, _ in ms)), [c for c, _ in ms if [x for x, _ in ms].count(c) > 1], max(len(n) for _, n in ms))
main()
