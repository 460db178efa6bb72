#!/usr/bin/env python3
"""Translate the data tables (*.rsv) and char_property! enums of rust-unic into
Coq modules.  Usage: tools/gen_tables.py /repo rocq/theories

The translation is purely lexical: every `(chars!('\\u{a}'..='\\u{b}'), V)` line
becomes `(R 0xa 0xb, V')`, every `('\\u{a}', V)` line becomes `(0xa, V')`, in
the order of the file.  Any line that is not understood aborts the run."""
import re, sys, os
REPO, OUT = sys.argv[1], sys.argv[2]

ENUMS = [
    # coq type, prefix, file
    ("GeneralCategory", "GC", "unic/ucd/category/src/category.rs"),
    ("BidiClass", "BC", "unic/ucd/bidi/src/bidi_class.rs"),
    ("GraphemeClusterBreak", "GCB", "unic/ucd/segment/src/grapheme_cluster_break.rs"),
    ("WordBreak", "WB", "unic/ucd/segment/src/word_break.rs"),
    ("SentenceBreak", "SB", "unic/ucd/segment/src/sentence_break.rs"),
    ("DecompositionType", "DT", "unic/ucd/normal/src/decomposition_type.rs"),
]

def coqstr(s):
    """A Rust string literal body -> Coq list of code points."""
    out, i = [], 0
    while i < len(s):
        if s.startswith("\\u{", i):
            j = s.index("}", i)
            out.append(int(s[i + 3:j], 16)); i = j + 1
        elif s[i] == "\\":
            raise SystemExit("escape? " + s)
        else:
            out.append(ord(s[i])); i += 1
    return "[" + "; ".join(hex(c) for c in out) + "]"

def charlist(s):
    cs = re.findall(r"'\\u\{([0-9a-f]+)\}',?", s)
    assert re.fullmatch(r"(\s*'\\u\{[0-9a-f]+\}',?)*", s), s
    return "[" + "; ".join("0x" + c for c in cs) + "]"

enum_by_abbr, enum_by_long, enum_by_name = {}, {}, {}

def parse_enum(path, name):
    src = open(os.path.join(REPO, path)).read().split("\n")
    start = next(i for i, l in enumerate(src) if re.search(r"pub enum %s\b" % name, l))
    variants, i = [], start
    while True:
        l = src[i]
        if re.match(r"^    \}", l):
            break
        m = re.match(r"^        (\w+) \{$", l)
        if m:
            v = m.group(1); ab = lo = hu = None; s0 = i + 1
            while not re.match(r"^        \}", src[i]):
                for key in ("abbr", "long"):
                    mm = re.match(r"^\s*%s => (\w+),$" % key, src[i])
                    if mm:
                        if key == "abbr": ab = mm.group(1)
                        else: lo = mm.group(1)
                mm = re.match(r'^\s*human => "(.*)",$', src[i])
                if mm: hu = mm.group(1)
                i += 1
            assert ab and lo and hu, (path, v)
            variants.append((v, ab, lo, hu))
        i += 1
    return start + 1, i + 1, variants

def gen_enums():
    out = ["(** GENERATED by tools/gen_tables.py from the char_property! declarations of /repo.",
           "    Do not edit. *)", "From Coq Require Import List NArith.",
           "From Verif Require Import Base.",
           "Import ListNotations.", "Open Scope N_scope.", ""]
    for ty, pre, path in ENUMS:
        a, b, vs = parse_enum(path, ty)
        enum_by_name[pre] = {v[0]: f"{pre}_{v[0]}" for v in vs}
        enum_by_abbr[pre] = {v[1]: f"{pre}_{v[0]}" for v in vs}
        enum_by_long[pre] = {v[2]: f"{pre}_{v[0]}" for v in vs}
        out.append(f"(** {path}:{a}-{b} [enum {ty}] *)")
        out.append(f"Inductive {ty} : Type :=")
        out.append("\n".join(f"| {pre}_{v[0]}" for v in vs) + ".\n")
        out.append(f"(** position in the declaration (model helper, used for equality tests) *)")
        out.append(f"Definition {pre}_index (x : {ty}) : N :=\n  match x with")
        out.append("\n".join(f"  | {pre}_{v[0]} => {i}" for i, v in enumerate(vs)) + "\n  end.")
        out.append(f"Definition {pre}_eqb (x y : {ty}) : bool := {pre}_index x =? {pre}_index y.\n")
        out.append(f"(** {path}:{a}-{b} via unic/char/property/src/macros.rs:155-160 [all_values] *)")
        out.append(f"Definition {pre}_all : list {ty} :=\n  [" + "; ".join(f"{pre}_{v[0]}" for v in vs) + "].\n")
        for k, key, ln in ((1, "abbr", "161-165"), (2, "long", "166-170"), (3, "human", "171-175")):
            out.append(f"(** {path}:{a}-{b} via unic/char/property/src/macros.rs:{ln} [{key}_name] *)")
            out.append(f"Definition {pre}_{key} (x : {ty}) : str :=\n  match x with")
            out.append("\n".join(f"  | {pre}_{v[0]} => {coqstr(v[k])} (* {v[k]} *)" for v in vs) + "\n  end.\n")
    open(os.path.join(OUT, "Enums.v"), "w").write("\n".join(out))

def v_unit(v):
    assert v == "()", v
    return "tt"
def v_enum(pre, how):
    d = {"abbr": enum_by_abbr, "long": enum_by_long, "name": enum_by_name}[how]
    def f(v):
        v = v.split("::")[-1]
        return d[pre][v]
    return f
def v_ccc(v):
    m = re.fullmatch(r"CanonicalCombiningClass\((\d+)\)", v); return m.group(1)
def v_age(v):
    m = re.fullmatch(r"UnicodeVersion \{ major: (\d+), minor: (\d+), micro: (\d+) \}", v)
    return "mkVersion %s %s %s" % m.groups()
def v_str(v):
    m = re.fullmatch(r'"([^"]*)"', v); return coqstr(m.group(1))
def v_strs(v):
    m = re.fullmatch(r'&\[(.*)\]', v)
    assert re.fullmatch(r'("[^"]*"(, )?)*', m.group(1)), v
    return "[" + "; ".join(coqstr(x) for x in re.findall(r'"([^"]*)"', m.group(1))) + "]"
def v_aliastypes(v):
    m = re.fullmatch(r'&\[(.*)\]', v)
    return "[" + "; ".join("NA_" + x for x in m.group(1).split(", ")) + "]"
def v_chars(v):
    m = re.fullmatch(r"&\[(.*)\]", v); return charlist(m.group(1))
def v_compat(v):
    m = re.fullmatch(r"\((\w+), &\[(.*)\]\)", v)
    return "(%s, %s)" % (enum_by_long["DT"][m.group(1)], charlist(m.group(2)))
def v_comp(v):
    m = re.fullmatch(r"CharDataTable::Direct\(&\[(.*)\]\)", v)
    body = m.group(1)
    assert re.fullmatch(r"(\('\\u\{[0-9a-f]+\}','\\u\{[0-9a-f]+\}'\),)*", body), body
    ps = re.findall(r"\('\\u\{([0-9a-f]+)\}','\\u\{([0-9a-f]+)\}'\),", body)
    return "Direct [" + "; ".join("(0x%s, 0x%s)" % p for p in ps) + "]"
def v_idna(v):
    m = re.fullmatch(r'(\w+)(?:\("([^"]*)"\))?', v)
    k, s = m.groups()
    return "IM_" + k if s is None else "IM_%s %s" % (k, coqstr(s))

def gen_table(modname, items, imports=""):
    out = ["(** GENERATED by tools/gen_tables.py from the .rsv tables of /repo.  Do not edit. *)",
           "From Coq Require Import List NArith.",
           f"From Verif Require Import Base RangeModel TableModel Enums TableTypes{imports}.",
           "Import ListNotations.", "Open Scope N_scope.",
           "Local Notation R := mkRange.", ""]
    for name, ty, path, vf in items:
        lines = open(os.path.join(REPO, path)).read().split("\n")
        kind, ents = None, []
        for n, l in enumerate(lines):
            if l.startswith("//") or l.strip() == "":
                continue
            m = re.fullmatch(r"CharDataTable::(Direct|Range)\(&\[", l)
            if m:
                assert kind is None; kind = m.group(1); continue
            if l == "])":
                continue
            m = re.fullmatch(r"    \(chars!\('\\u\{([0-9a-f]+)\}'\.\.='\\u\{([0-9a-f]+)\}'\), (.*)\),", l)
            if m and kind == "Range":
                ents.append("(R 0x%s 0x%s, %s)" % (m.group(1), m.group(2), vf(m.group(3)))); continue
            m = re.fullmatch(r"    \('\\u\{([0-9a-f]+)\}', (.*)\),", l)
            if m and kind == "Direct":
                ents.append("(0x%s, %s)" % (m.group(1), vf(m.group(2)))); continue
            raise SystemExit(f"{path}:{n+1}: not understood: {l}")
        assert kind
        key = "CharRange" if kind == "Range" else "N"
        out.append(f"(** {path}:1-{len(lines)-1} ({len(ents)} entries) *)")
        chunks = [ents[i:i+400] for i in range(0, len(ents), 400)]
        if len(chunks) == 1:
            out.append(f"Definition {name} : CharDataTable {ty} := {kind} [\n  " + ";\n  ".join(chunks[0]) + "].\n")
        else:
            for i, c in enumerate(chunks):
                out.append(f"Definition {name}_{i} : list ({key} * {ty}) := [\n  " + ";\n  ".join(c) + "].\n")
            out.append(f"Definition {name} : CharDataTable {ty} :=\n  {kind} (" + " ++ ".join(f"{name}_{i}" for i in range(len(chunks))) + ").\n")
    open(os.path.join(OUT, modname + ".v"), "w").write("\n".join(out))

gen_enums()
U = "unic/ucd/"
N_ = U + "normal/tables/"
gen_table("TablesNormal", [
    ("CANONICAL_COMBINING_CLASS_VALUES", "N", N_ + "canonical_combining_class_values.rsv", v_ccc),
    ("CANONICAL_COMPOSITION_MAPPING", "(CharDataTable N)", N_ + "canonical_composition_mapping.rsv", v_comp),
    ("CANONICAL_DECOMPOSITION_MAPPING", "(list N)", N_ + "canonical_decomposition_mapping.rsv", v_chars),
    ("COMPATIBILITY_DECOMPOSITION_MAPPING", "(DecompositionType * list N)", N_ + "compatibility_decomposition_mapping.rsv", v_compat),
    ("GENERAL_CATEGORY_MARK", "unit", N_ + "general_category_mark.rsv", v_unit),
])
gen_table("TablesIdna", [("MAPPING", "Mapping", "unic/idna/mapping/tables/idna_mapping.rsv", v_idna)])
gen_table("TablesBidi", [
    ("BIDI_CLASS_TABLE", "BidiClass", U + "bidi/tables/bidi_class.rsv", v_enum("BC", "abbr")),
    ("BIDI_MIRRORED", "unit", U + "bidi/tables/bidi_mirrored.rsv", v_unit),
    ("BIDI_CONTROL", "unit", U + "bidi/tables/bidi_control.rsv", v_unit)])
gen_table("TablesSegment", [
    ("GRAPHEME_CLUSTER_BREAK", "GraphemeClusterBreak", U + "segment/tables/grapheme_cluster_break.rsv", v_enum("GCB", "long")),
    ("WORD_BREAK", "WordBreak", U + "segment/tables/word_break.rsv", v_enum("WB", "long")),
    ("SENTENCE_BREAK", "SentenceBreak", U + "segment/tables/sentence_break.rsv", v_enum("SB", "long"))])
gen_table("TablesCategory", [
    ("GENERAL_CATEGORY", "GeneralCategory", U + "category/tables/general_category.rsv", v_enum("GC", "abbr"))])
gen_table("TablesMisc", [
    ("AGE_TABLE", "UnicodeVersion", U + "age/tables/age_values.rsv", v_age),
    ("BLOCKS", "str", U + "block/tables/blocks.rsv", v_str),
    ("JAMO", "str", U + "name/tables/jamo.rsv", v_str)] +
    [(f"NAME_ALIAS_{k.upper()}", "(list str)", U + f"name_aliases/tables/{k}.rsv", v_strs)
        for k in ("corrections", "controls", "alternates", "figments", "abbreviations")] +
    [("NAME_ALIAS_TYPES", "(list NameAliasType)", U + "name_aliases/tables/name_alias_types.rsv", v_aliastypes)])
gen_table("TablesBinary", [
    (k.upper(), "unit", f"{d}/tables/{k}.rsv", v_unit)
    for d, ks in (
        (U + "common", ["alphabetic", "alphanumeric", "control", "numeric", "white_space"]),
        (U + "case", ["cased", "case_ignorable", "changes_when_casefolded", "changes_when_casemapped",
                      "changes_when_lowercased", "changes_when_titlecased", "changes_when_uppercased",
                      "lowercase", "uppercase"]),
        (U + "ident", ["id_continue", "id_start", "pattern_syntax", "pattern_white_space", "xid_continue", "xid_start"]),
        ("unic/emoji/char", ["emoji", "emoji_component", "emoji_modifier", "emoji_modifier_base", "emoji_presentation"]))
    for k in ks])

def gen_names():
    """The word constants (name_values.rsd) and the listed names (name_map.rsv), which
    are slices of those constants."""
    path = "unic/ucd/name/tables/name_values.rsd"
    lines = open(os.path.join(REPO, path)).read().split("\n")
    out = ["(** GENERATED by tools/gen_tables.py from /repo.  Do not edit. *)",
           "From Coq Require Import List NArith.", "From Verif Require Import Base.",
           "Import ListNotations.", "Open Scope N_scope.", "",
           f"(** {path}:1-{len(lines)-1} *)"]
    words = set()
    for n, l in enumerate(lines):
        if l == "" or l.startswith("//"):
            continue
        m = re.fullmatch(r'const (\w+): &str = "([^"\\]*)";', l)
        if not m or m.group(1) in words:
            raise SystemExit(f"{path}:{n+1}: not understood: {l}")
        words.add(m.group(1))
        out.append(f"Definition w_{m.group(1)} : str := [" + ";".join(str(ord(c)) for c in m.group(2)) + "].")
    open(os.path.join(OUT, "TablesWords.v"), "w").write("\n".join(out) + "\n")
    def v_pieces(v):
        m = re.fullmatch(r"&\[(\w+(, \w+)*)\]", v)
        ps = m.group(1).split(", ")
        assert all(p in words for p in ps), v
        return "[" + ";".join("w_" + p for p in ps) + "]"
    gen_table("TablesNames", [("NAMES", "(list str)", "unic/ucd/name/tables/name_map.rsv", v_pieces)], " TablesWords")

gen_names()
