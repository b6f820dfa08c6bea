#!/usr/bin/env python3
"""Generate rocq/theories/Conformance.v from the repository's own unit tests.

Every TEST of /repo/test becomes one Example about the model, proved by
computation.  These are tests of the model, not proofs of properties."""
import re, sys

R = '/repo/test/'
out = []
FLAGS = {'END_STREAM': 1, 'ACK': 1, 'END_HEADERS': 4, 'PADDED': 8, 'PRIORITY': 32}
PREFIX = {'INDEXED': 'Indexed', 'INCREMENTAL_INDEXING': 'IncrementalIndexing',
          'WITHOUT_INDEXING': 'WithoutIndexing', 'NEVER_INDEXED': 'NeverIndexed'}
MODE = {'NONE': 'ModeNone', 'HUFFMAN': 'ModeHuffman'}
SETTINGS = {'SETTINGS_HEADER_TABLE_SIZE': 1, 'SETTINGS_ENABLE_PUSH': 2, 'SETTINGS_MAX_CONCURRENT_STREAM': 3,
            'SETTINGS_INITIAL_WINDOW_SIZE': 4, 'SETTINGS_MAX_FRAME_SIZE': 5, 'SETTINGS_MAX_HEADER_LIST_SIZE': 6}
ERRORS = {'NO_ERROR': 0, 'PROTOCOL_ERROR': 1, 'CANCEL': 8, 'UNKNOWN_ERROR': 14}
used = {}


def tests(path):
    s = re.sub(r'//[^\n]*', '', open(R + path).read())
    for m in re.finditer(r'TEST\((\w+), (\w+)\) \{(.*?)\n\}\n', s, re.S):
        yield m.group(1), m.group(2), m.group(3)


def emit(suite, name, stmt, proof='vm_compute; reflexivity'):
    n = 'test_%s_%s' % (suite.replace('_test', ''), name)
    used[n] = used.get(n, 0) + 1
    assert used[n] == 1, n
    out.append('Example %s : %s.\nProof. %s. Qed.\n' % (n, stmt, proof))


def num(t):
    t = t.strip().rstrip('u')
    if t.startswith('0b'):
        return str(int(t[2:], 2))
    if t.startswith("'"):
        return str(ord(t[1]))
    return str(int(t, 16) if t.startswith('0x') else int(t))


def lst(t):
    xs = [x for x in re.split(r',(?!\')|(?<=\'),', t) if x.strip()]
    return '[' + '; '.join(num(x) for x in xs) + ']'


def bytes_named(body, name):
    m = re.search(name + r'\s*(?:=\s*)?\{(.*?)\}', body, re.S)
    return lst(m.group(1))


def str_(t):
    return '(octets "%s")' % t


def header(m):
    return '(%s, %s)' % (str_(m[0]), str_(m[1]))


def flags(body):
    m = re.search(r'fh_flags_t flags\s*(?:=\s*|\{)(.*?)\}?;', body, re.S)
    t = m.group(1)
    fs = re.findall(r'_flag::(\w+)', t)
    if fs:
        return '(make_frame_header_flags %d [%s])' % (FLAGS[fs[0]], '; '.join(str(FLAGS[f]) for f in fs[1:]))
    return num(t)


def stream(body):
    m = re.search(r'fh_stream_id_t stream_id\s*(?:=\s*|\{)(\w+)', body)
    return num(m.group(1))


def block(body):
    m = re.search(r'SIZE_UPDATE,\s*(\w+)\}', body)
    if m:
        return '(Ok [HEntry SizeUpdate (ESize %s)])' % num(m.group(1))
    p = PREFIX[re.search(r'header_prefix_pattern::(\w+)', body).group(1)]
    hs = re.findall(r'\{"([^"]*)",\s*"([^"]*)"\}', body)
    return '(make_header_block %s [%s])' % (p, '; '.join(header(h) for h in hs))


def mode(body):
    return MODE[re.search(r'header_encode_mode::(\w+)', body).group(1)]


def table(body):
    if '.push(' in body:
        h = re.findall(r'\{"([^"]*)",\s*"([^"]*)"\}', body)[0]
        return '(dt_push default_table %s)' % header(h)
    return '(Ok default_table)'


def block_frame(kind, body, call):
    f, sid, b, md, t = flags(body), stream(body), block(body), mode(body), table(body)
    pad = '[]'
    m = re.search(r'byte_array_t padding\s*(?:=\s*)?\{(.*?)\}', body, re.S)
    if m and 'padding' in call:
        pad = lst(m.group(1))
    if kind == 'headers':
        pr = '(Prio 0 0 0)'
        m = re.search(r'hf_priority_option priority_option\{(.*?)\}', body)
        if m:
            pr = '(Prio %s)' % ' '.join(num(x) for x in m.group(1).split(','))
        c = 'mk_headers %s %s b %s t %s %s' % (f, sid, md, pad, pr)
    elif kind == 'push_promise':
        m = re.search(r'push_promise_payload payload\{(\w+), (\w+), header_block,\s*(.*?)\};', body, re.S)
        if m.group(3).strip() == '{}':
            pad = '[]'
        elif m.group(3).strip().startswith('{'):
            pad = lst(m.group(3).strip()[1:-1])
        c = 'mk_push_promise LittleEndian %s %s (PushPromise %s %s b %s) %s t' % (f, sid, num(m.group(1)), num(m.group(2)), pad, md)
    else:
        c = 'mk_continuation %s %s b %s t' % (f, sid, md)
    return 'let* b := %s in let* t := %s in %s' % (b, t, c)


HOSTS = ['LittleEndian', 'BigEndian']


def serialises(frame, exp):
    return 'serializes (%s) %s' % (frame, exp)


for suite, name, body in tests('frame/headers_frame_test.cpp'):
    call = re.search(r'headers_frame hf\((.*?)\);', body, re.S).group(1)
    emit(suite, name, serialises(block_frame('headers', body, call), bytes_named(body, 'expected_serialized_hf')), 'serialized')
for suite, name, body in tests('frame/push_promise_frame_test.cpp'):
    call = 'padding'
    emit(suite, name, serialises(block_frame('push_promise', body, call), bytes_named(body, 'expected_serialized_ppf')), 'serialized')
for suite, name, body in tests('frame/continuation_frame_test.cpp'):
    emit(suite, name, serialises(block_frame('continuation', body, ''), bytes_named(body, 'expected_serialized_cf')), 'serialized')


def simple_frame(body):
    """A frame built by one of the constructors without a header block."""
    m = re.search(r'data_frame \w+\{(.*?)\};', body, re.S)
    if m:
        a = m.group(1)
        if 'flags' in a and 'make_frame' not in a:
            f, sid = flags(body), stream(body)
            s = re.search(r'std::string payload\{"(\w+)"\}', body)
            p = str_(s.group(1)) if s else bytes_named(body, 'byte_array_t payload')
        else:
            fm = re.search(r'_flag::(\w+)', a)
            f = '(make_frame_header_flags %d [])' % FLAGS[fm.group(1)] if fm else '0'
            sid = '1'
            s = re.search(r'"(\w+)"', a)
            p = str_(s.group(1)) if s else bytes_named(a, 'byte_array_t')
        return 'Ok (mk_data %s %s %s)' % (f, sid, p)
    m = re.search(r'goaway_payload \w+\{\s*(\w+),\s*(\w+),\s*mh2c::error_codes::(\w+),\s*\{(.*?)\},?\s*\}', body, re.S)
    if m:
        return 'Ok (mk_goaway (Goaway %s %s %d %s))' % (num(m.group(1)), num(m.group(2)), ERRORS[m.group(3)], lst(m.group(4)))
    m = re.search(r'rst_stream_frame \w+\{stream_id,\s*mh2c::error_codes::(\w+)\}', body, re.S)
    if m:
        return 'Ok (mk_rst_stream %s %d)' % (stream(body), ERRORS[m.group(1)])
    m = re.search(r'ping_frame(?: \w+)?[({]\s*(.*?),\s*opaque_data[)}]', body, re.S)
    if m:
        f = '(make_frame_header_flags 1 [])' if 'ACK' in m.group(1) else num(m.group(1))
        return 'mk_ping %s %s' % (f, bytes_named(body, 'opaque_data'))
    m = re.search(r'priority_payload payload\{(.*?)\}', body)
    if m:
        return 'mk_priority 3 (Prio %s)' % ' '.join(num(x) for x in m.group(1).split(','))
    if 'settings_frame' in body:
        ps = re.findall(r'sf_parameter::(\w+), (\w+)\}', body)
        return 'Ok (mk_settings %s %s (make_sf_payload [%s]))' % (
            flags(body), stream(body), '; '.join('(%d, %s)' % (SETTINGS[p], num(v)) for p, v in ps))
    m = re.search(r'window_update_frame(?: \w+)?[({](.*?)[)}]', body, re.S)
    vals = {'stream_id': None}
    args = [x.strip() for x in m.group(1).split(',')]
    res = []
    for a in args:
        if re.match(r'^[a-z_]+$', a):
            a = re.search(r'\w+_t ' + a + r'\{(\w+)\}', body).group(1)
        res.append(num(a))
    if len(res) == 2:
        res = [res[0], '0', res[1]]
    return 'mk_window_update %s' % ' '.join(res)


for f in ['goaway', 'rst_stream', 'ping', 'settings', 'data', 'priority', 'window_update']:
    for suite, name, body in tests('frame/%s_frame_test.cpp' % f):
        fr = simple_frame(body)
        if 'ANY_THROW' in body:
            emit(suite, name, 'throws (%s)' % fr, 'throwing')
        else:
            emit(suite, name, serialises(fr, bytes_named(body, r'expected_raw_\w+')), 'serialized')

for suite, name, body in tests('frame/frame_header_test.cpp'):
    m = re.search(r'frame_header (?:expected_)?fh\{(.*?)\}', body, re.S)
    fh = '(FH %s)' % ' '.join(num(x) for x in m.group(1).split(','))
    raw = bytes_named(body, r'byte_array_t (?:expected_)?raw_fh')
    if name.startswith('serialize'):
        emit(suite, name, 'forall host, serialize_fh host %s = %s' % (fh, raw), 'intros []; vm_compute; reflexivity')
    else:
        emit(suite, name, 'build_frame_header %s = Ok %s' % (raw, fh))

for suite, name, body in tests('frame/frame_builder_test.cpp'):
    kind = None
    for k in ['headers', 'push_promise', 'continuation']:
        if re.search(k + r'_frame expected', body):
            kind = k
    if kind:
        call = re.search(kind + r'_frame expected_\w+\{(.*?)\};', body, re.S).group(1)
        if kind == 'push_promise':
            call = 'padding'
        fr = block_frame(kind, body, call)
    else:
        fr = simple_frame(body)
    if 'ANY_THROW' in body:
        emit(suite, name, 'rejected_shortened (%s)' % fr, 'throwing')
    else:
        emit(suite, name, 'builds_back (%s)' % fr, 'building')


def entry(body):
    m = re.search(r'SIZE_UPDATE,\s*(\w+)\}', body)
    if m:
        return '(HEntry SizeUpdate (ESize %s))' % num(m.group(1))
    p = PREFIX[re.search(r'header_prefix_pattern::(\w+)', body).group(1)]
    h = re.findall(r'\{"([^"]*)",\s*"([^"]*)"\}', body)[0]
    return '(HEntry %s (EHeader %s))' % (p, header(h))


for suite, name, body in tests('hpack/header_encoder_test.cpp'):
    emit(suite, name, 'encode_header %s %s default_table = Ok %s' % (entry(body), mode(body), bytes_named(body, 'expected_encoded_header')))
for suite, name, body in tests('hpack/header_decoder_test.cpp'):
    emit(suite, name, 'decodes_back %s %s' % (entry(body), mode(body)), 'intros []; vm_compute; reflexivity')
for suite, name, body in tests('hpack/integer_representation_test.cpp'):
    n = re.search(r'integer_value<(\d)>', body).group(1)
    v = re.search(r'value = (\d+);', body).group(1)
    if suite.startswith('encode'):
        emit(suite, name, 'encode_integer_value %s %s = %s' % (n, v, bytes_named(body, 'expected_encoded_value')))
    else:
        emit(suite, name, 'decode_integer_value %s (encode_integer_value %s %s) = Ok %s' % (n, n, v, v))
for suite, name, body in tests('hpack/huffman_encoder_test.cpp'):
    emit(suite, name, 'huffman_encode %s = Ok %s' % (bytes_named(body, 'byte_array_t data'), bytes_named(body, 'expected_encoded_data')))
for suite, name, body in tests('hpack/huffman_decoder_test.cpp'):
    emit(suite, name, 'huffman_decode %s = Ok %s' % (bytes_named(body, 'byte_array_t encoded_data'), bytes_named(body, 'expected_data')))

HEAD = r'''(* The repository's own unit tests, run on the model.  Generated by
   tools/conformance.py from /repo/test; every Example is one TEST.  These are
   tests: they show that the model computes what the authors expect of the code
   on these inputs, they are not proofs of the properties. *)
From Coq Require Import String NArith List Bool.
From Verif Require Import Base Util IntRep Huffman StaticTable HeaderType DynTable HeaderEnc HeaderDec
  FrameHeader Frames FrameBuilder SpecHpack.
Import ListNotations.
Local Open Scope string_scope.
Local Open Scope list_scope.
Local Open Scope N_scope.

(* EXPECT_EQ(expected, frame.serialize()), on both kinds of host *)
Definition serializes (f : res frame) (expected : list N) : Prop :=
  forall host, (let* g := f in serialize host g) = Ok expected.

(* EXPECT_ANY_THROW *)
Definition throws {A} (r : res A) : Prop := exists x, r = Throw x.

(* extract_payload, build_frame with a new table, EXPECT_EQ with the frame *)
Definition builds_back (f : res frame) : Prop :=
  forall m host, exists g raw h, f = Ok g /\ serialize host g = Ok raw /\
    build_frame m (frame_fh g) (skipn 9 raw) default_table = Ok h /\ frame_eqb g h = true.

(* the same with raw_payload.pop_back(), EXPECT_ANY_THROW *)
Definition rejected_shortened (f : res frame) : Prop :=
  throws (let* g := f in let* raw := serialize LittleEndian g in
          build_frame Strict (frame_fh g) (removelast (skipn 9 raw)) default_table).

Definition decodes_back (e : hentry) (mode : encode_mode) : Prop :=
  forall m, (let* raw := encode_header e mode default_table in
             let* (d, n) := decode_header m raw default_table in Ok (hentry_eqb e d, n =? size raw)) = Ok (true, true).

Ltac serialized := intros []; vm_compute; reflexivity.
Ltac throwing := eexists; vm_compute; reflexivity.
Ltac building := intros [] []; eexists _, _, _; (split; [vm_compute; reflexivity|]); (split; [vm_compute; reflexivity|]);
  (split; [vm_compute; reflexivity|]); vm_compute; reflexivity.

'''

HAND = r'''
(* ---- hpack/dynamic_table_test.cpp ---- *)

Definition authority : list N * list N := (octets ":authority", octets "example.com").
Definition content_type : list N * list N := (octets "content-type", octets "application/json").

Example test_dynamic_table_push_single_header : dt_push default_table authority = Ok (DynTable [authority] 53 4096).
Proof. vm_compute. reflexivity. Qed.
Example test_dynamic_table_push_multiple_header :
  (let* t := dt_push default_table authority in dt_push t content_type) = Ok (DynTable [content_type; authority] 113 4096).
Proof. vm_compute. reflexivity. Qed.
Example test_dynamic_table_resize_table :
  (let* t := dt_push (new_table 60) authority in dt_push t content_type) = Ok (DynTable [content_type] 60 60).
Proof. vm_compute. reflexivity. Qed.
Example test_dynamic_table_update_table_size :
  (let* t := dt_push default_table authority in let* t := dt_push t content_type in dt_update_size t 60) =
  Ok (DynTable [content_type] 60 60).
Proof. vm_compute. reflexivity. Qed.

(* ---- hpack/static_table_definition_test.cpp ---- *)

Example test_reverse_static_table_entries_reverse_check :
  forallb (fun row => match reverse_static_find (snd row) with Some i => i =? fst row | None => false end)
    static_table_entries = true /\ length reverse_static_table_entries = length static_table_entries.
Proof. vm_compute. auto. Qed.

(* ---- util/byte_order_test.cpp, util/bit_operation_test.cpp ---- *)

Example test_byte_order_bytes2integral : bytes2integral 1 [0x12] 0 = Ok 0x12 /\ bytes2integral 2 [0x12; 0x34] 0 = Ok 0x1234 /\
  bytes2integral 4 [0x12; 0x34; 0x56; 0x78] 0 = Ok 0x12345678.
Proof. vm_compute. auto. Qed.
Example test_byte_order_integral2bytes : integral2bytes 1 0x12 = [0x12] /\ integral2bytes 2 0x1234 = [0x12; 0x34] /\
  integral2bytes 4 0x12345678 = [0x12; 0x34; 0x56; 0x78].
Proof. vm_compute. auto. Qed.
Example test_bit_operation_extract : extract_low_bit 1 254 = 0 /\ extract_low_bit 7 170 = 42 /\ extract_high_bit 1 8 128 = 1 /\
  extract_high_bit 7 8 170 = 85.
Proof. vm_compute. auto. Qed.
Example test_bit_operation_is_flag_set : is_flag_set 143 128 = true /\ is_flag_set 15 128 = false /\
  is_flag_set 65344 64 = true /\ is_flag_set 65280 64 = false /\ is_flag_set 143 64 = false.
Proof. vm_compute. auto. Qed.
'''
open('/verif/rocq/theories/Conformance.v', 'w').write(HEAD + '\n'.join(out) + HAND)
print(len(out), 'tests')
