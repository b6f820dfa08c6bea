(* Generated by tools/gen_tables.py from mh2c/hpack/static_table_definition.cpp. *)
From Coq Require Import NArith List String.
From Verif Require Import Base.
Import ListNotations.
Open Scope N_scope.
Open Scope string_scope.

(* mh2c/hpack/static_table_definition.cpp:11-73, static_table_entries *)
Definition static_table_rows : list (N * (string * string)) := [
  (1, (":authority", ""));
  (2, (":method", "GET"));
  (3, (":method", "POST"));
  (4, (":path", "/"));
  (5, (":path", "/index.html"));
  (6, (":scheme", "http"));
  (7, (":scheme", "https"));
  (8, (":status", "200"));
  (9, (":status", "204"));
  (10, (":status", "206"));
  (11, (":status", "304"));
  (12, (":status", "400"));
  (13, (":status", "404"));
  (14, (":status", "500"));
  (15, ("accept-charset", ""));
  (16, ("accept-encoding", "gzip, deflate"));
  (17, ("accept-language", ""));
  (18, ("accept-ranges", ""));
  (19, ("accept", ""));
  (20, ("accept-control-allow-origin", ""));
  (21, ("age", ""));
  (22, ("allow", ""));
  (23, ("authorization", ""));
  (24, ("cache-control", ""));
  (25, ("content-disposition", ""));
  (26, ("content-encoding", ""));
  (27, ("content-language", ""));
  (28, ("content-length", ""));
  (29, ("content-location", ""));
  (30, ("content-range", ""));
  (31, ("content-type", ""));
  (32, ("cookie", ""));
  (33, ("date", ""));
  (34, ("etag", ""));
  (35, ("expect", ""));
  (36, ("expires", ""));
  (37, ("from", ""));
  (38, ("host", ""));
  (39, ("if-match", ""));
  (40, ("if-modified-since", ""));
  (41, ("if-none-match", ""));
  (42, ("if-range", ""));
  (43, ("if-unmodified-since", ""));
  (44, ("last-modified", ""));
  (45, ("link", ""));
  (46, ("location", ""));
  (47, ("max-forwards", ""));
  (48, ("proxy-authenticate", ""));
  (49, ("proxy-authorization", ""));
  (50, ("range", ""));
  (51, ("referer", ""));
  (52, ("refresh", ""));
  (53, ("retry-after", ""));
  (54, ("server", ""));
  (55, ("set-cookie", ""));
  (56, ("strict-transport-security", ""));
  (57, ("transfer-encoding", ""));
  (58, ("user-agent", ""));
  (59, ("vary", ""));
  (60, ("via", ""));
  (61, ("www-authenticate", ""))
].

(* mh2c/hpack/static_table_definition.cpp:76-138, reverse_static_table_entries *)
Definition reverse_static_table_rows : list ((string * string) * N) := [
  ((":authority", ""), 1);
  ((":method", "GET"), 2);
  ((":method", "POST"), 3);
  ((":path", "/"), 4);
  ((":path", "/index.html"), 5);
  ((":scheme", "http"), 6);
  ((":scheme", "https"), 7);
  ((":status", "200"), 8);
  ((":status", "204"), 9);
  ((":status", "206"), 10);
  ((":status", "304"), 11);
  ((":status", "400"), 12);
  ((":status", "404"), 13);
  ((":status", "500"), 14);
  (("accept-charset", ""), 15);
  (("accept-encoding", "gzip, deflate"), 16);
  (("accept-language", ""), 17);
  (("accept-ranges", ""), 18);
  (("accept", ""), 19);
  (("accept-control-allow-origin", ""), 20);
  (("age", ""), 21);
  (("allow", ""), 22);
  (("authorization", ""), 23);
  (("cache-control", ""), 24);
  (("content-disposition", ""), 25);
  (("content-encoding", ""), 26);
  (("content-language", ""), 27);
  (("content-length", ""), 28);
  (("content-location", ""), 29);
  (("content-range", ""), 30);
  (("content-type", ""), 31);
  (("cookie", ""), 32);
  (("date", ""), 33);
  (("etag", ""), 34);
  (("expect", ""), 35);
  (("expires", ""), 36);
  (("from", ""), 37);
  (("host", ""), 38);
  (("if-match", ""), 39);
  (("if-modified-since", ""), 40);
  (("if-none-match", ""), 41);
  (("if-range", ""), 42);
  (("if-unmodified-since", ""), 43);
  (("last-modified", ""), 44);
  (("link", ""), 45);
  (("location", ""), 46);
  (("max-forwards", ""), 47);
  (("proxy-authenticate", ""), 48);
  (("proxy-authorization", ""), 49);
  (("range", ""), 50);
  (("referer", ""), 51);
  (("refresh", ""), 52);
  (("retry-after", ""), 53);
  (("server", ""), 54);
  (("set-cookie", ""), 55);
  (("strict-transport-security", ""), 56);
  (("transfer-encoding", ""), 57);
  (("user-agent", ""), 58);
  (("vary", ""), 59);
  (("via", ""), 60);
  (("www-authenticate", ""), 61)
].

(* The same tables with the C string literals as octet lists.
   (mh2c/hpack/static_table_definition.cpp:11-74) *)
Definition static_table_entries : list (N * (bytes * bytes)) :=
  Eval vm_compute in map (fun r => (fst r, (bytes_of_string (fst (snd r)), bytes_of_string (snd (snd r))))) static_table_rows.

(* mh2c/hpack/static_table_definition.cpp:76 and following *)
Definition reverse_static_table_entries : list ((bytes * bytes) * N) :=
  Eval vm_compute in map (fun r => ((bytes_of_string (fst (fst r)), bytes_of_string (snd (fst r))), snd r)) reverse_static_table_rows.
