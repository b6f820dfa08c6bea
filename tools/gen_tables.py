#!/usr/bin/env python3
"""Generate theories/HuffmanTable.v and theories/StaticTable.v from the C++
tables in /repo.  Rows are copied in source order, duplicates included."""
import re, sys
repo = sys.argv[1] if len(sys.argv) > 1 else "/repo"
out = sys.argv[2] if len(sys.argv) > 2 else "/verif/rocq/theories"

src = open(repo + "/mh2c/hpack/huffman_code.cpp").read()
enc_src = src[src.index("encode_table{"):src.index("const decode_table_t")]
dec_src = src[src.index("const decode_table_t"):]
enc = [(int(a), int(b, 16), int(c)) for a, b, c in
       re.findall(r"\{\s*(\d+)u,\s*\{\s*(0x[0-9a-f]+),\s*(\d+)u\s*\}\s*\}", enc_src)]
groups = []
for m in re.finditer(r"\{\s*(\d+)u,\s*\{((?:\s*\{\s*0x[0-9a-f]+,\s*\d+u\s*\}\s*,?)+)\s*\}\s*\}", dec_src):
    rows = [(int(a, 16), int(b)) for a, b in re.findall(r"\{\s*(0x[0-9a-f]+),\s*(\d+)u\s*\}", m.group(2))]
    groups.append((int(m.group(1)), rows))
assert len(enc) == enc_src.count("0x"), (len(enc), enc_src.count("0x"))
assert sum(len(r) for _, r in groups) == dec_src.count("0x")

with open(out + "/HuffmanTable.v", "w") as f:
    w = f.write
    w("(* Generated by tools/gen_tables.py from mh2c/hpack/huffman_code.cpp. *)\n")
    w("From Coq Require Import NArith List.\nImport ListNotations.\nOpen Scope N_scope.\n\n")
    w("(* mh2c/hpack/huffman_code.cpp:10-140, encode_table: rows in source order,\n"
      "   (symbol, (code value, code length)).  std::map keeps the first of two\n"
      "   rows with the same key. *)\n")
    w("Definition encode_table_rows : list (N * (N * N)) := [\n  ")
    w(";\n  ".join("(%d, (0x%x, %d))" % t for t in enc))
    w("\n].\n\n")
    w("(* mh2c/hpack/huffman_code.cpp:142-296, decode_table: vector of\n"
      "   (code length, map from code value to symbol), rows in source order. *)\n")
    w("Definition decode_table : list (N * list (N * N)) := [\n")
    w(";\n".join("  (%d, [%s])" % (l, "; ".join("(0x%x, %d)" % r for r in rows)) for l, rows in groups))
    w("\n].\n")

src = open(repo + "/mh2c/hpack/static_table_definition.cpp").read()
cut = src.index("const reverse_header_table_t")
fwd = re.findall(r'\{(\d+)u,\s*\{"([^"]*)",\s*"([^"]*)"\}\}', src[:cut])
rev = re.findall(r'\{\{"([^"]*)",\s*"([^"]*)"\},\s*(\d+)u\}', src[cut:])
assert len(fwd) * 4 == src[src.index("static_table_entries{"):cut].count('"')
assert len(rev) * 4 == src[cut:].count('"')
with open(out + "/StaticTable.v", "w") as f:
    w = f.write
    w("(* Generated by tools/gen_tables.py from mh2c/hpack/static_table_definition.cpp. *)\n")
    w("From Coq Require Import NArith List String.\nFrom Verif Require Import Base.\nImport ListNotations.\nOpen Scope N_scope.\nOpen Scope string_scope.\n\n")
    w("(* mh2c/hpack/static_table_definition.cpp:11-73, static_table_entries *)\n")
    w("Definition static_table_rows : list (N * (string * string)) := [\n  ")
    w(";\n  ".join('(%s, ("%s", "%s"))' % t for t in fwd))
    w("\n].\n\n")
    w("(* mh2c/hpack/static_table_definition.cpp:76-138, reverse_static_table_entries *)\n")
    w("Definition reverse_static_table_rows : list ((string * string) * N) := [\n  ")
    w(";\n  ".join('(("%s", "%s"), %s)' % t for t in rev))
    w("\n].\n\n")
    w("(* The same tables with the C string literals as octet lists. *)\n")
    w("Definition static_table_entries : list (N * (bytes * bytes)) :=\n"
      "  Eval vm_compute in map (fun r => (fst r, (bytes_of_string (fst (snd r)), bytes_of_string (snd (snd r))))) static_table_rows.\n\n")
    w("Definition reverse_static_table_entries : list ((bytes * bytes) * N) :=\n"
      "  Eval vm_compute in map (fun r => ((bytes_of_string (fst (fst r)), bytes_of_string (snd (fst r))), snd r)) reverse_static_table_rows.\n")
print(len(enc), [(l, len(r)) for l, r in groups], len(fwd), len(rev))
