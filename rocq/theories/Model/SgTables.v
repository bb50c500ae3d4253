(** Data tables of cryspy/A_functions_base/function_2_space_group.py, copied by a script from the source text
    (literal tuples of strings) and from the text of itables.txt; nothing is computed here. *)
From Coq Require Import ZArith List String.
Import ListNotations.
Open Scope string_scope.
Open Scope Z_scope.

(** function_2_space_group.py l.282-318 ACCESIBLE_NAME_HM_SHORT *)
Definition name_hm_short : list string := [ "P 1"; "P -1"; "P 2"; "P 21"; "C 2"; "P m"; "P c"; "C m";
  "C c"; "P 2/m"; "P 21/m"; "C 2/m"; "P 2/c"; "P 21/c"; "C 2/c"; "P 2 2 2";
  "P 2 2 21"; "P 21 21 2"; "P 21 21 21"; "C 2 2 21"; "C 2 2 2"; "F 2 2 2"; "I 2 2 2"; "I 21 21 21";
  "P m m 2"; "P m c 21"; "P c c 2"; "P m a 2"; "P c a 21"; "P n c 2"; "P m n 21"; "P b a 2";
  "P n a 21"; "P n n 2"; "C m m 2"; "C m c 21"; "C c c 2"; "A m m 2"; "A e m 2"; "A m a 2";
  "A e a 2"; "F m m 2"; "F d d 2"; "I m m 2"; "I b a 2"; "I m a 2"; "P m m m"; "P n n n";
  "P c c m"; "P b a n"; "P m m a"; "P n n a"; "P m n a"; "P c c a"; "P b a m"; "P c c n";
  "P b c m"; "P n n m"; "P m m n"; "P b c n"; "P b c a"; "P n m a"; "C m c m"; "C m c e";
  "C m m m"; "C c c m"; "C m m e"; "C c c e"; "F m m m"; "F d d d"; "I m m m"; "I b a m";
  "I b c a"; "I m m a"; "P 4"; "P 41"; "P 42"; "P 43"; "I 4"; "I 41";
  "P -4"; "I -4"; "P 4/m"; "P 42/m"; "P 4/n"; "P 42/n"; "I 4/m"; "I 41/a";
  "P 4 2 2"; "P 4 21 2"; "P 41 2 2"; "P 41 21 2"; "P 42 2 2"; "P 42 21 2"; "P 43 2 2"; "P 43 21 2";
  "I 4 2 2"; "I 41 2 2"; "P 4 m m"; "P 4 b m"; "P 42 c m"; "P 42 n m"; "P 4 c c"; "P 4 n c";
  "P 42 m c"; "P 42 b c"; "I 4 m m"; "I 4 c m"; "I 41 m d"; "I 41 c d"; "P -4 2 m"; "P -4 2 c";
  "P -4 21 m"; "P -4 21 c"; "P -4 m 2"; "P -4 c 2"; "P -4 b 2"; "P -4 n 2"; "I -4 m 2"; "I -4 c 2";
  "I -4 2 m"; "I -4 2 d"; "P 4/m m m"; "P 4/m c c"; "P 4/n b m"; "P 4/n n c"; "P 4/m b m"; "P 4/m n c";
  "P 4/n m m"; "P 4/n c c"; "P 42/m m c"; "P 42/m c m"; "P 42/n b c"; "P 42/n n m"; "P 42/m b c"; "P 42/m n m";
  "P 42/n m c"; "P 42/n c m"; "I 4/m m m"; "I 4/m c m"; "I 41/a m d"; "I 41/a c d"; "P 3"; "P 31";
  "P 32"; "R 3"; "P -3"; "R -3"; "P 3 1 2"; "P 3 2 1"; "P 31 1 2"; "P 31 2 1";
  "P 32 1 2"; "P 32 2 1"; "R 3 2"; "P 3 m 1"; "P 3 1 m"; "P 3 c 1"; "P 3 1 c"; "R 3 m";
  "R 3 c"; "P -3 1 m"; "P -3 1 c"; "P -3 m 1"; "P -3 c 1"; "R -3 m"; "R -3 c"; "P 6";
  "P 61"; "P 65"; "P 62"; "P 64"; "P 63"; "P -6"; "P 6/m "; "P 63/m";
  "P 6 2 2"; "P 61 2 2"; "P 65 2 2"; "P 62 2 2"; "P 64 2 2"; "P 63 2 2"; "P 6 m m"; "P 6 c c";
  "P 63 c m"; "P 63 m c"; "P -6 m 2"; "P -6 c 2"; "P -6 2 m"; "P -6 2 c"; "P 6/m m m"; "P 6/m c c";
  "P 63/m c m"; "P 63/m m c"; "P 2 3"; "F 2 3"; "I 2 3"; "P 21 3"; "I 21 3"; "P m -3";
  "P n -3"; "F m -3"; "F d -3"; "I m -3"; "P a -3"; "I a -3"; "P 4 3 2"; "P 42 3 2";
  "F 4 3 2"; "F 41 3 2"; "I 4 3 2"; "P 43 3 2"; "P 41 3 2"; "I 41 3 2"; "P -4 3 m"; "F -4 3 m";
  "I -4 3 m"; "P -4 3 n"; "F -4 3 c"; "I -4 3 d"; "P m -3 m"; "P n -3 n"; "P m -3 n"; "P n -3 m";
  "F m -3 m"; "F m -3 c"; "F d -3 m"; "F d -3 c"; "I m -3 m"; "I a -3 d" ].

(** l.358-386 ACCESIBLE_NAME_SCHOENFLIES *)
Definition name_schoenflies : list string := [ "C1.1"; "Ci.1"; "C2.1"; "C2.2"; "C2.3"; "Cs.1"; "Cs.2"; "Cs.3";
  "Cs.4"; "C2h.1"; "C2h.2"; "C2h.3"; "C2h.4"; "C2h.5"; "C2h.6"; "D2.1";
  "D2.2"; "D2.3"; "D2.4"; "D2.5"; "D2.6"; "D2.7"; "D2.8"; "D2.9";
  "C2v.1"; "C2v.2"; "C2v.3"; "C2v.4"; "C2v.5"; "C2v.6"; "C2v.7"; "C2v.8";
  "C2v.9"; "C2v.10"; "C2v.11"; "C2v.12"; "C2v.13"; "C2v.14"; "C2v.15"; "C2v.16";
  "C2v.17"; "C2v.18"; "C2v.19"; "C2v.20"; "C2v.21"; "C2v.22"; "D2h.1"; "D2h.2";
  "D2h.3"; "D2h.4"; "D2h.5"; "D2h.6"; "D2h.7"; "D2h.8"; "D2h.9"; "D2h.10";
  "D2h.11"; "D2h.12"; "D2h.13"; "D2h.14"; "D2h.15"; "D2h.16"; "D2h.17"; "D2h.18";
  "D2h.19"; "D2h.20"; "D2h.21"; "D2h.22"; "D2h.23"; "D2h.24"; "D2h.25"; "D2h.26";
  "D2h.27"; "D2h.28"; "C4.1"; "C4.2"; "C4.3"; "C4.4"; "C4.5"; "C4.6";
  "S4.1"; "S4.2"; "C4h.1"; "C4h.2"; "C4h.3"; "C4h.4"; "C4h.5"; "C4h.6";
  "D4.1"; "D4.2"; "D4.3"; "D4.4"; "D4.5"; "D4.6"; "D4.7"; "D4.8";
  "D4.9"; "D4.10"; "C4v.1"; "C4v.2"; "C4v.3"; "C4v.4"; "C4v.5"; "C4v.6";
  "C4v.7"; "C4v.8"; "C4v.9"; "C4v.10"; "C4v.11"; "C4v.12"; "D2d.1"; "D2d.2";
  "D2d.3"; "D2d.4"; "D2d.5"; "D2d.6"; "D2d.7"; "D2d.8"; "D2d.9"; "D2d.10";
  "D2d.11"; "D2d.12"; "D4h.1"; "D4h.2"; "D4h.3"; "D4h.4"; "D4h.5"; "D4h.6";
  "D4h.7"; "D4h.8"; "D4h.9"; "D4h.10"; "D4h.11"; "D4h.12"; "D4h.13"; "D4h.14";
  "D4h.15"; "D4h.16"; "D4h.17"; "D4h.18"; "D4h.19"; "D4h.20"; "C3.1"; "C3.2";
  "C3.3"; "C3.4"; "C3i.1"; "C3i.2"; "D3.1"; "D3.2"; "D3.3"; "D3.4";
  "D3.5"; "D3.6"; "D3.7"; "C3v.1"; "C3v.2"; "C3v.3"; "C3v.4"; "C3v.5";
  "C3v.6"; "D3d.1"; "D3d.2"; "D3d.3"; "D3d.4"; "D3d.5"; "D3d.6"; "C6.1";
  "C6.2"; "C6.3"; "C6.4"; "C6.5"; "C6.6"; "C3h.1"; "C6h.1"; "C6h.2";
  "D6.1"; "D6.2"; "D6.3"; "D6.4"; "D6.5"; "D6.6"; "C6v.1"; "C6v.2";
  "C6v.3"; "C6v.4"; "D3h.1"; "D3h.2"; "D3h.3"; "D3h.4"; "D6h.1"; "D6h.2";
  "D6h.3"; "D6h.4"; "T.1"; "T.2"; "T.3"; "T.4"; "T.5"; "Th.1";
  "Th.2"; "Th.3"; "Th.4"; "Th.5"; "Th.6"; "Th.7"; "O.1"; "O.2";
  "O.3"; "O.4"; "O.5"; "O.6"; "O.7"; "O.8"; "Td.1"; "Td.2";
  "Td.3"; "Td.4"; "Td.5"; "Td.6"; "Oh.1"; "Oh.2"; "Oh.3"; "Oh.4";
  "Oh.5"; "Oh.6"; "Oh.7"; "Oh.8"; "Oh.9"; "Oh.10" ].

(** l.388-423 ACCESIBLE_NAME_HALL_SHORT *)
Definition name_hall : list string := [ "P 1"; "-P 1"; "P 2y"; "P 2yb"; "C 2y"; "P -2y"; "P -2yc"; "C -2y";
  "C -2yc"; "-P 2y"; "-P 2yb"; "-C 2y"; "-P 2yc"; "-P 2ybc"; "-C 2yc"; "P 2 2";
  "P 2c 2"; "P 2 2ab"; "P 2ac 2ab"; "C 2c 2"; "C 2 2"; "F 2 2"; "I 2 2"; "I 2b 2c";
  "P 2 -2"; "P 2c -2"; "P 2 -2c"; "P 2 -2a"; "P 2c -2ac"; "P 2 -2bc"; "P 2ac -2"; "P 2 -2ab";
  "P 2c -2n"; "P 2 -2n"; "C 2 -2"; "C 2c -2"; "C 2 -2c"; "A 2 -2"; "A 2 -2b"; "A 2 -2a";
  "A 2 -2ab"; "F 2 -2"; "F 2 -2d"; "I 2 -2"; "I 2 -2c"; "I 2 -2a"; "-P 2 2"; "-P 2ab 2bc";
  "-P 2 2c"; "-P 2ab 2b"; "-P 2a 2a"; "-P 2a 2bc"; "-P 2ac 2"; "-P 2a 2ac"; "-P 2 2ab"; "-P 2ab 2ac";
  "-P 2c 2b"; "-P 2 2n"; "-P 2ab 2a"; "-P 2n 2ab"; "-P 2ac 2ab"; "-P 2ac 2n"; "-C 2c 2"; "-C 2ac 2";
  "-C 2 2"; "-C 2 2c"; "-C 2a 2"; "-C 2a 2ac"; "-F 2 2"; "-F 2uv 2vw"; "-I 2 2"; "-I 2 2c";
  "-I 2b 2c"; "-I 2b 2"; "P 4"; "P 4w"; "P 4c"; "P 4cw"; "I 4"; "I 4bw";
  "P -4"; "I -4"; "-P 4"; "-P 4c"; "-P 4a"; "-P 4bc"; "-I 4"; "-I 4ad";
  "P 4 2"; "P 4ab 2ab"; "P 4w 2c"; "P 4abw 2nw"; "P 4c 2"; "P 4n 2n"; "P 4cw 2c"; "P 4nw 2abw";
  "I 4 2"; "I 4bw 2bw"; "P 4 -2"; "P 4 -2ab"; "P 4c -2c"; "P 4n -2n"; "P 4 -2c"; "P 4 -2n";
  "P 4c -2"; "P 4c -2ab"; "I 4 -2"; "I 4 -2c"; "I 4bw -2"; "I 4bw -2c"; "P -4 2"; "P -4 2c";
  "P -4 2ab"; "P -4 2n"; "P -4 -2"; "P -4 -2c"; "P -4 -2ab"; "P -4 -2n"; "I -4 -2"; "I -4 -2c";
  "I -4 2"; "I -4 2bw"; "-P 4 2"; "-P 4 2c"; "-P 4a 2b"; "-P 4a 2bc"; "-P 4 2ab"; "-P 4 2n";
  "-P 4a 2a"; "-P 4a 2ac"; "-P 4c 2"; "-P 4c 2c"; "-P 4ac 2b"; "-P 4ac 2bc"; "-P 4c 2ab"; "-P 4n 2n";
  "-P 4ac 2a"; "-P 4ac 2ac"; "-I 4 2"; "-I 4 2c"; "-I 4bd 2"; "-I 4bd 2c"; "P 3"; "P 31";
  "P 32"; "R 3"; "-P 3"; "-R 3"; "P 3 2"; "P 3 2"""; "P 31 2 (0 0 4)"; "P 31 2""";
  "P 32 2 (0 0 2)"; "P 32 2"""; "R 3 2"""; "P 3 -2"""; "P 3 -2"; "P 3 -2""c"; "P 3 -2c"; "R 3 -2""";
  "R 3 -2""c"; "-P 3 2"; "-P 3 2c"; "-P 3 2"""; "-P 3 2""c"; "-R 3 2"""; "-R 3 2""c"; "P 6";
  "P 61"; "P 65"; "P 62"; "P 64"; "P 6c"; "P -6"; "-P 6"; "-P 6c";
  "P 6 2"; "P 61 2 (0 0 5)"; "P 65 2 (0 0 1)"; "P 62 2 (0 0 4)"; "P 64 2 (0 0 2)"; "P 6c 2c"; "P 6 -2"; "P 6 -2c";
  "P 6c -2"; "P 6c -2c"; "P -6 2"; "P -6c 2"; "P -6 -2"; "P -6c -2c"; "-P 6 2"; "-P 6 2c";
  "-P 6c 2"; "-P 6c 2c"; "P 2 2 3"; "F 2 2 3"; "I 2 2 3"; "P 2ac 2ab 3"; "I 2b 2c 3"; "-P 2 2 3";
  "-P 2ab 2bc 3"; "-F 2 2 3"; "-F 2uv 2vw 3"; "-I 2 2 3"; "-P 2ac 2ab 3"; "-I 2b 2c 3"; "P 4 2 3"; "P 4n 2 3";
  "F 4 2 3"; "F 4d 2 3"; "I 4 2 3"; "P 4acd 2ab 3"; "P 4bd 2ab 3"; "I 4bd 2c 3"; "P -4 2 3"; "F -4 2 3";
  "I -4 2 3"; "P -4n 2 3"; "F -4a 2 3"; "I -4bd 2c 3"; "-P 4 2 3"; "-P 4a 2bc 3"; "-P 4n 2 3"; "-P 4bc 2bc 3";
  "-F 4 2 3"; "-F 4a 2 3"; "-F 4vw 2vw 3"; "-F 4ud 2vw 3"; "-I 4 2 3"; "-I 4bd 2c 3" ].

(** l.484-753 REFERENCE_TABLE_IT_COORDINATE_SYSTEM_CODE_NAME_HM_EXTENDED (the seven parts concatenated) *)
Definition table_hm_extended : list (Z * option string * string) := [ (1, None, "P 1 1 1"); (2, None, "P 1 1 1"); (3, Some "b1", "P 1 2 1"); (3, Some "-b1", "P 1 2 1");
  (3, Some "c1", "P 1 1 2"); (3, Some "-c1", "P 1 1 2"); (3, Some "a1", "P 2 1 1"); (3, Some "-a1", "P 2 1 1");
  (4, Some "b1", "P 1 21 1"); (4, Some "-b1", "P 1 21 1"); (4, Some "c1", "P 1 1 21"); (4, Some "-c1", "P 1 1 21");
  (4, Some "a1", "P 21 1 1"); (4, Some "-a1", "P 21 1 1"); (5, Some "b1", "C 1 2 1"); (5, Some "-b1", "A 1 2 1");
  (5, Some "c1", "A 1 1 2"); (5, Some "-c1", "B 1 1 2"); (5, Some "a1", "B 2 1 1"); (5, Some "-a1", "C 2 1 1");
  (5, Some "b2", "A 1 2 1"); (5, Some "-b2", "C 1 2 1"); (5, Some "c2", "B 1 1 2"); (5, Some "-c2", "A 1 1 2");
  (5, Some "a2", "C 2 1 1"); (5, Some "-a2", "B 2 1 1"); (5, Some "b3", "I 1 2 1"); (5, Some "-b3", "I 1 2 1");
  (5, Some "c3", "I 1 1 2"); (5, Some "-c3", "I 1 1 2"); (5, Some "a3", "I 2 1 1"); (5, Some "-a3", "I 2 1 1");
  (6, Some "b1", "P 1 m 1"); (6, Some "-b1", "P 1 m 1"); (6, Some "c1", "P 1 1 m"); (6, Some "-c1", "P 1 1 m");
  (6, Some "a1", "P m 1 1"); (6, Some "-a1", "P m 1 1"); (7, Some "b1", "P 1 c 1"); (7, Some "-b1", "P 1 a 1");
  (7, Some "c1", "P 1 1 a"); (7, Some "-c1", "P 1 1 b"); (7, Some "a1", "P b 1 1"); (7, Some "-a1", "P c 1 1");
  (7, Some "b2", "P 1 n 1"); (7, Some "-b2", "P 1 n 1"); (7, Some "c2", "P 1 1 n"); (7, Some "-c2", "P 1 1 n");
  (7, Some "a2", "P n 1 1"); (7, Some "-a2", "P n 1 1"); (7, Some "b3", "P 1 a 1"); (7, Some "-b3", "P 1 c 1");
  (7, Some "c3", "P 1 1 b"); (7, Some "-c3", "P 1 1 a"); (7, Some "a3", "P c 1 1"); (7, Some "-a3", "P b 1 1");
  (8, Some "b1", "C 1 m 1"); (8, Some "-b1", "A 1 m 1"); (8, Some "c1", "A 1 1 m"); (8, Some "-c1", "B 1 1 m");
  (8, Some "a1", "B m 1 1"); (8, Some "-a1", "C m 1 1"); (8, Some "b2", "A 1 m 1"); (8, Some "-b2", "C 1 m 1");
  (8, Some "c2", "B 1 1 m"); (8, Some "-c2", "A 1 1 m"); (8, Some "a2", "C m 1 1"); (8, Some "-a2", "B m 1 1");
  (8, Some "b3", "I 1 m 1"); (8, Some "-b3", "I 1 m 1"); (8, Some "c3", "I 1 1 m"); (8, Some "-c3", "I 1 1 m");
  (8, Some "a3", "I m 1 1"); (8, Some "-a3", "I m 1 1"); (9, Some "b1", "C 1 c 1"); (9, Some "-b1", "A 1 a 1");
  (9, Some "c1", "A 1 1 a"); (9, Some "-c1", "B 1 1 b"); (9, Some "a1", "B b 1 1"); (9, Some "-a1", "C c 1 1");
  (9, Some "b2", "A 1 n 1"); (9, Some "-b2", "C 1 n 1"); (9, Some "c2", "B 1 1 n"); (9, Some "-c2", "A 1 1 n");
  (9, Some "a2", "C n 1 1"); (9, Some "-a2", "B n 1 1"); (9, Some "b3", "I 1 a 1"); (9, Some "-b3", "I 1 c 1");
  (9, Some "c3", "I 1 1 b"); (9, Some "-c3", "I 1 1 a"); (9, Some "a3", "I c 1 1"); (9, Some "-a3", "I b 1 1");
  (10, Some "b1", "P 1 2/m 1"); (10, Some "-b1", "P 1 2/m 1"); (10, Some "c1", "P 1 1 2/m"); (10, Some "-c1", "P 1 1 2/m");
  (10, Some "a1", "P 2/m 1 1"); (10, Some "-a1", "P 2/m 1 1"); (11, Some "b1", "P 1 21/m 1"); (11, Some "-b1", "P 1 21/m 1");
  (11, Some "c1", "P 1 1 21/m"); (11, Some "-c1", "P 1 1 21/m"); (11, Some "a1", "P 21/m 1 1"); (11, Some "-a1", "P 21/m 1 1");
  (12, Some "b1", "C 1 2/m 1"); (12, Some "-b1", "A 1 2/m 1"); (12, Some "c1", "A 1 1 2/m"); (12, Some "-c1", "B 1 1 2/m");
  (12, Some "a1", "B 2/m 1 1"); (12, Some "-a1", "C 2/m 1 1"); (12, Some "b2", "A 1 2/m 1"); (12, Some "-b2", "C 1 2/m 1");
  (12, Some "c2", "B 1 1 2/m"); (12, Some "-c2", "A 1 1 2/m"); (12, Some "a2", "C 2/m 1 1"); (12, Some "-a2", "B 2/m 1 1");
  (12, Some "b3", "I 1 2/m 1"); (12, Some "-b3", "I 1 2/m 1"); (12, Some "c3", "I 1 1 2/m"); (12, Some "-c3", "I 1 1 2/m");
  (12, Some "a3", "I 2/m 1 1"); (12, Some "-a3", "I 2/m 1 1"); (13, Some "b1", "P 1 2/c 1"); (13, Some "-b1", "P 1 2/a 1");
  (13, Some "c1", "P 1 1 2/a"); (13, Some "-c1", "P 1 1 2/b"); (13, Some "a1", "P 2/b 1 1"); (13, Some "-a1", "P 2/c 1 1");
  (13, Some "b2", "P 1 2/n 1"); (13, Some "-b2", "P 1 2/n 1"); (13, Some "c2", "P 1 1 2/n"); (13, Some "-c2", "P 1 1 2/n");
  (13, Some "a2", "P 2/n 1 1"); (13, Some "-a2", "P 2/n 1 1"); (13, Some "b3", "P 1 2/a 1"); (13, Some "-b3", "P 1 2/c 1");
  (13, Some "c3", "P 1 1 2/b"); (13, Some "-c3", "P 1 1 2/a"); (13, Some "a3", "P 2/c 1 1"); (13, Some "-a3", "P 2/b 1 1");
  (14, Some "b1", "P 1 21/c 1"); (14, Some "-b1", "P 1 21/a 1"); (14, Some "c1", "P 1 1 21/a"); (14, Some "-c1", "P 1 1 21/b");
  (14, Some "a1", "P 21/b 1 1"); (14, Some "-a1", "P 21/c 1 1"); (14, Some "b2", "P 1 21/n 1"); (14, Some "-b2", "P 1 21/n 1");
  (14, Some "c2", "P 1 1 21/n"); (14, Some "-c2", "P 1 1 21/n"); (14, Some "a2", "P 21/n 1 1"); (14, Some "-a2", "P 21/n 1 1");
  (14, Some "b3", "P 1 21/a 1"); (14, Some "-b3", "P 1 21/c 1"); (14, Some "c3", "P 1 1 21/b"); (14, Some "-c3", "P 1 1 21/a");
  (14, Some "a3", "P 21/c 1 1"); (14, Some "-a3", "P 21/b 1 1"); (15, Some "b1", "C 1 2/c 1"); (15, Some "-b1", "A 1 2/a 1");
  (15, Some "c1", "A 1 1 2/a"); (15, Some "-c1", "B 1 1 2/b"); (15, Some "a1", "B 2/b 1 1"); (15, Some "-a1", "C 2/c 1 1");
  (15, Some "b2", "A 1 2/n 1"); (15, Some "-b2", "C 1 2/n 1"); (15, Some "c2", "B 1 1 2/n"); (15, Some "-c2", "A 1 1 2/n");
  (15, Some "a2", "C 2/n 1 1"); (15, Some "-a2", "B 2/n 1 1"); (15, Some "b3", "I 1 2/a 1"); (15, Some "-b3", "I 1 2/c 1");
  (15, Some "c3", "I 1 1 2/b"); (15, Some "-c3", "I 1 1 2/a"); (15, Some "a3", "I 2/c 1 1"); (15, Some "-a3", "I 2/b 1 1");
  (16, Some "abc", "P 2 2 2"); (16, Some "ba-c", "P 2 2 2"); (16, Some "cab", "P 2 2 2"); (16, Some "-cba", "P 2 2 2");
  (16, Some "bca", "P 2 2 2"); (16, Some "a-cb", "P 2 2 2"); (17, Some "abc", "P 2 2 21"); (17, Some "ba-c", "P 2 2 21");
  (17, Some "cab", "P 21 2 2"); (17, Some "-cba", "P 21 2 2"); (17, Some "bca", "P 2 21 2"); (17, Some "a-cb", "P 2 21 2");
  (18, Some "abc", "P 21 21 2"); (18, Some "ba-c", "P 21 21 2"); (18, Some "cab", "P 2 21 21"); (18, Some "-cba", "P 2 21 21");
  (18, Some "bca", "P 21 2 21"); (18, Some "a-cb", "P 21 2 21"); (19, Some "abc", "P 21 21 21"); (19, Some "ba-c", "P 21 21 21");
  (19, Some "cab", "P 21 21 21"); (19, Some "-cba", "P 21 21 21"); (19, Some "bca", "P 21 21 21"); (19, Some "a-cb", "P 21 21 21");
  (20, Some "abc", "C 2 2 21"); (20, Some "ba-c", "C 2 2 21"); (20, Some "cab", "A 21 2 2"); (20, Some "-cba", "A 21 2 2");
  (20, Some "bca", "B 2 21 2"); (20, Some "a-cb", "B 2 21 2"); (21, Some "abc", "C 2 2 2"); (21, Some "ba-c", "C 2 2 2");
  (21, Some "cab", "A 2 2 2"); (21, Some "-cba", "A 2 2 2"); (21, Some "bca", "B 2 2 2"); (21, Some "a-cb", "B 2 2 2");
  (22, Some "abc", "F 2 2 2"); (22, Some "ba-c", "F 2 2 2"); (22, Some "cab", "F 2 2 2"); (22, Some "-cba", "F 2 2 2");
  (22, Some "bca", "F 2 2 2"); (22, Some "a-cb", "F 2 2 2"); (23, Some "abc", "I 2 2 2"); (23, Some "ba-c", "I 2 2 2");
  (23, Some "cab", "I 2 2 2"); (23, Some "-cba", "I 2 2 2"); (23, Some "bca", "I 2 2 2"); (23, Some "a-cb", "I 2 2 2");
  (24, Some "abc", "I 21 21 21"); (24, Some "ba-c", "I 21 21 21"); (24, Some "cab", "I 21 21 21"); (24, Some "-cba", "I 21 21 21");
  (24, Some "bca", "I 21 21 21"); (24, Some "a-cb", "I 21 21 21"); (25, Some "abc", "P m m 2"); (25, Some "ba-c", "P m m 2");
  (25, Some "cab", "P 2 m m"); (25, Some "-cba", "P 2 m m"); (25, Some "bca", "P m 2 m"); (25, Some "a-cb", "P m 2 m");
  (26, Some "abc", "P m c 21"); (26, Some "ba-c", "P c m 21"); (26, Some "cab", "P 21 m a"); (26, Some "-cba", "P 21 a m");
  (26, Some "bca", "P b 21 m"); (26, Some "a-cb", "P m 21 b"); (27, Some "abc", "P c c 2"); (27, Some "ba-c", "P c c 2");
  (27, Some "cab", "P 2 a a"); (27, Some "-cba", "P 2 a a"); (27, Some "bca", "P b 2 b"); (27, Some "a-cb", "P b 2 b");
  (28, Some "abc", "P m a 2"); (28, Some "ba-c", "P b m 2"); (28, Some "cab", "P 2 m b"); (28, Some "-cba", "P 2 c m");
  (28, Some "bca", "P c 2 m"); (28, Some "a-cb", "P m 2 a"); (29, Some "abc", "P c a 21"); (29, Some "ba-c", "P b c 21");
  (29, Some "cab", "P 21 a b"); (29, Some "-cba", "P 21 c a"); (29, Some "bca", "P c 21 b"); (29, Some "a-cb", "P b 21 a");
  (30, Some "abc", "P n c 2"); (30, Some "ba-c", "P c n 2"); (30, Some "cab", "P 2 n a"); (30, Some "-cba", "P 2 a n");
  (30, Some "bca", "P b 2 n"); (30, Some "a-cb", "P n 2 b"); (31, Some "abc", "P m n 21"); (31, Some "ba-c", "P n m 21");
  (31, Some "cab", "P 21 m n"); (31, Some "-cba", "P 21 n m"); (31, Some "bca", "P n 21 m"); (31, Some "a-cb", "P m 21 n");
  (32, Some "abc", "P b a 2"); (32, Some "ba-c", "P b a 2"); (32, Some "cab", "P 2 c b"); (32, Some "-cba", "P 2 c b");
  (32, Some "bca", "P c 2 a"); (32, Some "a-cb", "P c 2 a"); (33, Some "abc", "P n a 21"); (33, Some "ba-c", "P b n 21");
  (33, Some "cab", "P 21 n b"); (33, Some "-cba", "P 21 c n"); (33, Some "bca", "P c 21 n"); (33, Some "a-cb", "P n 21 a");
  (34, Some "abc", "P n n 2"); (34, Some "ba-c", "P n n 2"); (34, Some "cab", "P 2 n n"); (34, Some "-cba", "P 2 n n");
  (34, Some "bca", "P n 2 n"); (34, Some "a-cb", "P n 2 n"); (35, Some "abc", "C m m 2"); (35, Some "ba-c", "C m m 2");
  (35, Some "cab", "A 2 m m"); (35, Some "-cba", "A 2 m m"); (35, Some "bca", "B m 2 m"); (35, Some "a-cb", "B m 2 m");
  (36, Some "abc", "C m c 21"); (36, Some "ba-c", "C c m 21"); (36, Some "cab", "A 21 m a"); (36, Some "-cba", "A 21 a m");
  (36, Some "bca", "B b 21 m"); (36, Some "a-cb", "B m 21 b"); (37, Some "abc", "C c c 2"); (37, Some "ba-c", "C c c 2");
  (37, Some "cab", "A 2 a a"); (37, Some "-cba", "A 2 a a"); (37, Some "bca", "B b 2 b"); (37, Some "a-cb", "B b 2 b");
  (38, Some "abc", "A m m 2"); (38, Some "ba-c", "B m m 2"); (38, Some "cab", "B 2 m m"); (38, Some "-cba", "C 2 m m");
  (38, Some "bca", "C m 2 m"); (38, Some "a-cb", "A m 2 m"); (39, Some "abc", "A e m 2"); (39, Some "ba-c", "B m e 2");
  (39, Some "cab", "B 2 e m"); (39, Some "-cba", "C 2 m e"); (39, Some "bca", "C m 2 e"); (39, Some "a-cb", "A e 2 m");
  (40, Some "abc", "A m a 2"); (40, Some "ba-c", "B b m 2"); (40, Some "cab", "B 2 m b"); (40, Some "-cba", "C 2 c m");
  (40, Some "bca", "C c 2 m"); (40, Some "a-cb", "A m 2 a"); (41, Some "abc", "A e a 2"); (41, Some "ba-c", "B b e 2");
  (41, Some "cab", "B 2 e b"); (41, Some "-cba", "C 2 c e"); (41, Some "bca", "C c 2 e"); (41, Some "a-cb", "A e 2 a");
  (42, Some "abc", "F m m 2"); (42, Some "ba-c", "F m m 2"); (42, Some "cab", "F 2 m m"); (42, Some "-cba", "F 2 m m");
  (42, Some "bca", "F m 2 m"); (42, Some "a-cb", "F m 2 m"); (43, Some "abc", "F d d 2"); (43, Some "ba-c", "F d d 2");
  (43, Some "cab", "F 2 d d"); (43, Some "-cba", "F 2 d d"); (43, Some "bca", "F d 2 d"); (43, Some "a-cb", "F d 2 d");
  (44, Some "abc", "I m m 2"); (44, Some "ba-c", "I m m 2"); (44, Some "cab", "I 2 m m"); (44, Some "-cba", "I 2 m m");
  (44, Some "bca", "I m 2 m"); (44, Some "a-cb", "I m 2 m"); (45, Some "abc", "I b a 2"); (45, Some "ba-c", "I b a 2");
  (45, Some "cab", "I 2 c b"); (45, Some "-cba", "I 2 c b"); (45, Some "bca", "I c 2 a"); (45, Some "a-cb", "I c 2 a");
  (46, Some "abc", "I m a 2"); (46, Some "ba-c", "I b m 2"); (46, Some "cab", "I 2 m b"); (46, Some "-cba", "I 2 c m");
  (46, Some "bca", "I c 2 m"); (46, Some "a-cb", "I m 2 a"); (47, Some "abc", "P m m m"); (47, Some "ba-c", "P m m m");
  (47, Some "cab", "P m m m"); (47, Some "-cba", "P m m m"); (47, Some "bca", "P m m m"); (47, Some "a-cb", "P m m m");
  (48, Some "1abc", "P n n n"); (48, Some "2abc", "P n n n"); (48, Some "1ba-c", "P n n n"); (48, Some "2ba-c", "P n n n");
  (48, Some "1cab", "P n n n"); (48, Some "2cab", "P n n n"); (48, Some "1-cba", "P n n n"); (48, Some "2-cba", "P n n n");
  (48, Some "1bca", "P n n n"); (48, Some "2bca", "P n n n"); (48, Some "1a-cb", "P n n n"); (48, Some "2a-cb", "P n n n");
  (49, Some "abc", "P c c m"); (49, Some "ba-c", "P c c m"); (49, Some "cab", "P m a a"); (49, Some "-cba", "P m a a");
  (49, Some "bca", "P b m b"); (49, Some "a-cb", "P b m b"); (50, Some "1abc", "P b a n"); (50, Some "2abc", "P b a n");
  (50, Some "1ba-c", "P b a n"); (50, Some "2ba-c", "P b a n"); (50, Some "1cab", "P n c b"); (50, Some "2cab", "P n c b");
  (50, Some "1-cba", "P n c b"); (50, Some "2-cba", "P n c b"); (50, Some "1bca", "P c n a"); (50, Some "2bca", "P c n a");
  (50, Some "1a-cb", "P c n a"); (50, Some "2a-cb", "P c n a"); (51, Some "abc", "P m m a"); (51, Some "ba-c", "P m m b");
  (51, Some "cab", "P b m m"); (51, Some "-cba", "P c m m"); (51, Some "bca", "P m c m"); (51, Some "a-cb", "P m a m");
  (52, Some "abc", "P n n a"); (52, Some "ba-c", "P n n b"); (52, Some "cab", "P b n n"); (52, Some "-cba", "P c n n");
  (52, Some "bca", "P n c n"); (52, Some "a-cb", "P n a n"); (53, Some "abc", "P m n a"); (53, Some "ba-c", "P n m b");
  (53, Some "cab", "P b m n"); (53, Some "-cba", "P c n m"); (53, Some "bca", "P n c m"); (53, Some "a-cb", "P m a n");
  (54, Some "abc", "P c c a"); (54, Some "ba-c", "P c c b"); (54, Some "cab", "P b a a"); (54, Some "-cba", "P c a a");
  (54, Some "bca", "P b c b"); (54, Some "a-cb", "P b a b"); (55, Some "abc", "P b a m"); (55, Some "ba-c", "P b a m");
  (55, Some "cab", "P m c b"); (55, Some "-cba", "P m c b"); (55, Some "bca", "P c m a"); (55, Some "a-cb", "P c m a");
  (56, Some "abc", "P c c n"); (56, Some "ba-c", "P c c n"); (56, Some "cab", "P n a a"); (56, Some "-cba", "P n a a");
  (56, Some "bca", "P b n b"); (56, Some "a-cb", "P b n b"); (57, Some "abc", "P b c m"); (57, Some "ba-c", "P c a m");
  (57, Some "cab", "P m c a"); (57, Some "-cba", "P m a b"); (57, Some "bca", "P b m a"); (57, Some "a-cb", "P c m b");
  (58, Some "abc", "P n n m"); (58, Some "ba-c", "P n n m"); (58, Some "cab", "P m n n"); (58, Some "-cba", "P m n n");
  (58, Some "bca", "P n m n"); (58, Some "a-cb", "P n m n"); (59, Some "1abc", "P m m n"); (59, Some "2abc", "P m m n");
  (59, Some "1ba-c", "P m m n"); (59, Some "2ba-c", "P m m n"); (59, Some "1cab", "P n m m"); (59, Some "2cab", "P n m m");
  (59, Some "1-cba", "P n m m"); (59, Some "2-cba", "P n m m"); (59, Some "1bca", "P m n m"); (59, Some "2bca", "P m n m");
  (59, Some "1a-cb", "P m n m"); (59, Some "2a-cb", "P m n m"); (60, Some "abc", "P b c n"); (60, Some "ba-c", "P c a n");
  (60, Some "cab", "P n c a"); (60, Some "-cba", "P n a b"); (60, Some "bca", "P b n a"); (60, Some "a-cb", "P c n b");
  (61, Some "abc", "P b c a"); (61, Some "ba-c", "P c a b"); (61, Some "cab", "P b c a"); (61, Some "-cba", "P c a b");
  (61, Some "bca", "P b c a"); (61, Some "a-cb", "P c a b"); (62, Some "abc", "P n m a"); (62, Some "ba-c", "P m n b");
  (62, Some "cab", "P b n m"); (62, Some "-cba", "P c m n"); (62, Some "bca", "P m c n"); (62, Some "a-cb", "P n a m");
  (63, Some "abc", "C m c m"); (63, Some "ba-c", "C c m m"); (63, Some "cab", "A m m a"); (63, Some "-cba", "A m a m");
  (63, Some "bca", "B b m m"); (63, Some "a-cb", "B m m b"); (64, Some "abc", "C m c e"); (64, Some "ba-c", "C c m e");
  (64, Some "cab", "A e m a"); (64, Some "-cba", "A e a m"); (64, Some "bca", "B b e m"); (64, Some "a-cb", "B m e b");
  (65, Some "abc", "C m m m"); (65, Some "ba-c", "C m m m"); (65, Some "cab", "A m m m"); (65, Some "-cba", "A m m m");
  (65, Some "bca", "B m m m"); (65, Some "a-cb", "B m m m"); (66, Some "abc", "C c c m"); (66, Some "ba-c", "C c c m");
  (66, Some "cab", "A m a a"); (66, Some "-cba", "A m a a"); (66, Some "bca", "B b m b"); (66, Some "a-cb", "B b m b");
  (67, Some "abc", "C m m e"); (67, Some "ba-c", "C m m e"); (67, Some "cab", "A e m m"); (67, Some "-cba", "A e m m");
  (67, Some "bca", "B m e m"); (67, Some "a-cb", "B m e m"); (68, Some "1abc", "C c c e"); (68, Some "2abc", "C c c e");
  (68, Some "1ba-c", "C c c e"); (68, Some "2ba-c", "C c c e"); (68, Some "1cab", "A e a a"); (68, Some "2cab", "A e a a");
  (68, Some "1-cba", "A e a a"); (68, Some "2-cba", "A e a a"); (68, Some "1bca", "B b e b"); (68, Some "2bca", "B b e b");
  (68, Some "1a-cb", "B b e b"); (68, Some "2a-cb", "B b e b"); (69, Some "abc", "F m m m"); (69, Some "ba-c", "F m m m");
  (69, Some "cab", "F m m m"); (69, Some "-cba", "F m m m"); (69, Some "bca", "F m m m"); (69, Some "a-cb", "F m m m");
  (70, Some "1abc", "F d d d"); (70, Some "2abc", "F d d d"); (70, Some "1ba-c", "F d d d"); (70, Some "2ba-c", "F d d d");
  (70, Some "1cab", "F d d d"); (70, Some "2cab", "F d d d"); (70, Some "1-cba", "F d d d"); (70, Some "2-cba", "F d d d");
  (70, Some "1bca", "F d d d"); (70, Some "2bca", "F d d d"); (70, Some "1a-cb", "F d d d"); (70, Some "2a-cb", "F d d d");
  (71, Some "abc", "I m m m"); (71, Some "ba-c", "I m m m"); (71, Some "cab", "I m m m"); (71, Some "-cba", "I m m m");
  (71, Some "bca", "I m m m"); (71, Some "a-cb", "I m m m"); (72, Some "abc", "I b a m"); (72, Some "ba-c", "I b a m");
  (72, Some "cab", "I m c b"); (72, Some "-cba", "I m c b"); (72, Some "bca", "I c m a"); (72, Some "a-cb", "I c m a");
  (73, Some "abc", "I b c a"); (73, Some "ba-c", "I c a b"); (73, Some "cab", "I b c a"); (73, Some "-cba", "I c a b");
  (73, Some "bca", "I b c a"); (73, Some "a-cb", "I c a b"); (74, Some "abc", "I m m a"); (74, Some "ba-c", "I m m b");
  (74, Some "cab", "I b m m"); (74, Some "-cba", "I c m m"); (74, Some "bca", "I m c m"); (74, Some "a-cb", "I m a m");
  (79, Some "1", "I 4"); (80, Some "1", "I 41"); (87, Some "1", "I 4/m"); (88, Some "1", "I 41/a");
  (88, Some "2", "I 41/a"); (89, Some "1", "P 4 2 2"); (90, Some "1", "P 4 21 2"); (91, Some "1", "P 41 2 2");
  (92, Some "1", "P 41 21 2"); (93, Some "1", "P 42 2 2"); (94, Some "1", "P 42 21 2"); (95, Some "1", "P 43 2 2");
  (96, Some "1", "P 43 21 2"); (97, Some "1", "I 4 2 2"); (98, Some "1", "I 41 2 2"); (99, Some "1", "P 4 m m");
  (100, Some "1", "P 4 b m"); (101, Some "1", "P 42 c m"); (102, Some "1", "P 42 n m"); (103, Some "1", "P 4 c c");
  (104, Some "1", "P 4 n c"); (105, Some "1", "P 42 m c"); (106, Some "1", "P 42 b c"); (107, Some "1", "I 4 m m");
  (108, Some "1", "I 4 c e"); (109, Some "1", "I 41 m d"); (110, Some "1", "I 41 c d"); (111, Some "1", "P -4 2 m");
  (112, Some "1", "P -4 2 c"); (113, Some "1", "P -4 21 m"); (114, Some "1", "P -4 21 c"); (115, Some "1", "P -4 m 2");
  (116, Some "1", "P -4 c 2"); (117, Some "1", "P -4 b 2"); (118, Some "1", "P -4 n 2"); (119, Some "1", "I -4 m 2");
  (120, Some "1", "I -4 c 2"); (121, Some "1", "I -4 2 m"); (122, Some "1", "I -4 2 d"); (123, Some "1", "P 4/m 2/m 2/m");
  (124, Some "1", "P 4/m 2/c 2/c"); (125, Some "1", "P 4/n 2/b 2/m"); (125, Some "2", "P 4/n 2/b 2/m"); (126, Some "1", "P 4/n 2/n 2/c");
  (126, Some "2", "P 4/n 2/n 2/c"); (127, Some "1", "P 4/m 21/b 2/m"); (128, Some "1", "P 4/m 21/n 2/c"); (129, Some "1", "P 4/n 21/m 2/m");
  (129, Some "2", "P 4/n 21/m 2/m"); (130, Some "1", "P 4/n 21/c 2/c"); (130, Some "2", "P 4/n 21/c 2/c"); (131, Some "1", "P 42/m 2/m 2/c");
  (132, Some "1", "P 42/m 2/c 2/m"); (133, Some "1", "P 42/n 2/b 2/c"); (133, Some "2", "P 42/n 2/b 2/c"); (134, Some "1", "P 42/n 2/n 2/m");
  (134, Some "2", "P 42/n 2/n 2/m"); (135, Some "1", "P 42/m 21/b 2/c"); (136, Some "1", "P 42/m 21/n 2/m"); (137, Some "1", "P 42/n 21/m 2/c");
  (137, Some "2", "P 42/n 21/m 2/c"); (138, Some "1", "P 42/n 21/c 2/m"); (138, Some "2", "P 42/n 21/c 2/m"); (139, Some "1", "I 4/m 21/m 2/m");
  (140, Some "1", "I 4/m 2/c 2/m"); (141, Some "1", "I 41/a 2/m 2/d"); (141, Some "2", "I 41/a 2/m 2/d"); (142, Some "1", "I 41/a 2/c 2/d");
  (142, Some "2", "I 41/a 2/c 2/d"); (146, Some "r", "R 3"); (146, Some "h", "R 3"); (148, Some "r", "R -3");
  (148, Some "h", "R -3"); (149, Some "r", "P 3 1 2"); (150, Some "r", "P 3 2 1"); (151, Some "r", "P 31 1 2");
  (152, Some "r", "P 31 2 1"); (153, Some "r", "P 32 1 2"); (154, Some "r", "P 32 2 1"); (155, Some "r", "R 3 2");
  (155, Some "h", "R 3 2"); (156, Some "r", "P 3 m 1"); (157, Some "r", "P 3 1 m"); (158, Some "r", "P 3 c 1");
  (159, Some "r", "P 3 1 c"); (160, Some "r", "R 3 m"); (160, Some "h", "R 3 m"); (161, Some "r", "R 3 c");
  (161, Some "h", "R 3 c"); (162, Some "r", "P -3 1 2/m"); (163, Some "r", "P -3 1 2/c"); (164, Some "r", "P -3 2/m 1");
  (165, Some "r", "P -3 2/c 1"); (166, Some "r", "R -3 2/m"); (166, Some "h", "R -3 2/m"); (167, Some "r", "R -3 2/c");
  (167, Some "h", "R -3 2/c"); (177, Some "h", "P 6 2 2"); (178, Some "h", "P 61 2 2"); (179, Some "h", "P 65 2 2");
  (180, Some "h", "P 62 2 2"); (181, Some "h", "P 64 2 2"); (182, Some "h", "P 63 2 2"); (183, Some "h", "P 6 m m");
  (184, Some "h", "P 6 c c"); (185, Some "h", "P 63 c m"); (186, Some "h", "P 63 m c"); (187, Some "h", "P -6 m 2");
  (188, Some "h", "P -6 c 2"); (189, Some "h", "P -6 2 m"); (190, Some "h", "P -6 2 c"); (191, Some "h", "P 6/m 2/m 2/m");
  (192, Some "h", "P 6/m 2/c 2/c"); (193, Some "h", "P 63/m 2/c 2/m"); (194, Some "h", "P 63/m 2/m 2/c"); (196, Some "1", "F 2 3");
  (197, Some "1", "I 2 3"); (199, Some "1", "I 21 3"); (202, Some "1", "F 2/m -3"); (203, Some "1", "F 2/d -3");
  (203, Some "2", "F 2/d -3"); (204, Some "1", "I 2/m -3"); (206, Some "1", "I 21/a -3"); (207, Some "1", "P 4 3 2");
  (208, Some "1", "P 42 3 2"); (209, Some "1", "F 4 3 2"); (210, Some "1", "F 41 3 2"); (211, Some "1", "I 4 3 2");
  (212, Some "1", "P 43 3 2"); (213, Some "1", "P 41 3 2"); (214, Some "1", "I 41 3 2"); (215, Some "1", "P -4 3 m");
  (216, Some "1", "F -4 3 m"); (217, Some "1", "I -4 3 m"); (218, Some "1", "P -4 3 n"); (219, Some "1", "F -4 3 c");
  (220, Some "1", "I -4 3 d"); (221, Some "1", "P 4/m -3 2/m"); (222, Some "1", "P 4/n -3 2/n"); (222, Some "2", "P 4/n -3 2/n");
  (223, Some "1", "P 42/m -3 2/n"); (224, Some "1", "P 42/n -3 2/m"); (224, Some "2", "P 42/n -3 2/m"); (225, Some "1", "F 4/m -3 2/m");
  (226, Some "1", "F 4/m -3 2/c"); (227, Some "1", "F 41/d -3 2/m"); (227, Some "2", "F 41/d -3 2/m"); (228, Some "1", "F 41/d -3 2/n");
  (228, Some "2", "F 41/d -3 2/n"); (229, Some "1", "I 4/m -3 2/m"); (230, Some "1", "I 41/a -3 2/d") ].

(** l.783-870 REFERENCE_TABLE_IT_NUMBER_NAME_HM_FULL (no monoclinic part) *)
Definition table_hm_full : list (Z * string) := [ (1, "P 1"); (2, "P -1"); (16, "P 2 2 2"); (17, "P 2 2 21"); (18, "P 21 21 2");
  (19, "P 21 21 21"); (20, "C 2 2 21"); (21, "C 2 2 2"); (22, "F 2 2 2"); (23, "I 2 2 2");
  (24, "I 21 21 21"); (25, "P m m 2"); (26, "P m c 21"); (27, "P c c 2"); (28, "P m a 2");
  (29, "P c a 21"); (30, "P n c 2"); (31, "P m n 21"); (32, "P b a 2"); (33, "P n a 21");
  (34, "P n n 2"); (35, "C m m 2"); (36, "C m c 21"); (37, "C c c 2"); (38, "A m m 2");
  (39, "A e m 2"); (40, "A m a 2"); (41, "A e a 2"); (42, "F m m 2"); (43, "F d d 2");
  (44, "I m m 2"); (45, "I b a 2"); (46, "I m a 2"); (47, "P 2/m 2/m 2/m"); (48, "P 2/n 2/n 2/n");
  (49, "P 2/c 2/c 2/m"); (50, "P 2/b 2/a 2/n"); (51, "P 21/m 2/m 2/a"); (52, "P 2/n 21/n 2/a"); (53, "P 2/m 2/n 21/a");
  (54, "P 21/c 2/c 2/a"); (55, "P 21/b 21/a 2/m"); (56, "P 21/c 21/c 2/n"); (57, "P 2/b 21/c 21/m"); (58, "P 21/n 21/n 2/m");
  (59, "P 21/m 21/m 2/n"); (60, "P 21/b 2/c 21/n"); (61, "P 21/b 21/c 21/a"); (62, "P 21/n 21/m 21/a"); (63, "C 2/m 2/c 21/m");
  (64, "C 2/m 2/c 21/e"); (65, "C 2/m 2/m 2/m"); (66, "C 2/c 2/c 2/m"); (67, "C 2/m 2/m 2/e"); (68, "C 2/c 2/c 2/e");
  (69, "F 2/m 2/m 2/m"); (70, "F 2/d 2/d 2/d"); (71, "I 2/m 2/m 2/m"); (72, "I 2/b 2/a 2/m"); (73, "I 21/b 21/c 21/a");
  (74, "I 21/m 21/m 21/a"); (75, "P 4"); (76, "P 41"); (77, "P 42"); (78, "P 43");
  (79, "I 4"); (80, "I 41"); (81, "P -4"); (82, "I -4"); (83, "P 4/m");
  (84, "P 42/m"); (85, "P 4/n"); (86, "P 42/n"); (87, "I 4/m"); (88, "I 41/a");
  (89, "P 4 2 2"); (90, "P 4 21 2"); (91, "P 41 2 2"); (92, "P 41 21 2"); (93, "P 42 2 2");
  (94, "P 42 21 2"); (95, "P 43 2 2"); (96, "P 43 21 2"); (97, "I 4 2 2"); (98, "I 41 2 2");
  (99, "P 4 m m"); (100, "P 4 b m"); (101, "P 42 c m"); (102, "P 42 n m"); (103, "P 4 c c");
  (104, "P 4 n c"); (105, "P 42 m c"); (106, "P 42 b c"); (107, "I 4 m m"); (108, "I 4 c m");
  (109, "I 41 m d"); (110, "I 41 c d"); (111, "P -4 2 m"); (112, "P -4 2 c"); (113, "P -4 21 m");
  (114, "P -4 21 c"); (115, "P -4 m 2"); (116, "P -4 c 2"); (117, "P -4 b 2"); (118, "P -4 n 2");
  (119, "I -4 m 2"); (120, "I -4 c 2"); (121, "I -4 2 m"); (122, "I -4 2 d"); (123, "P 4/m 2/m 2/m");
  (124, "P 4/m 2/c 2/c"); (125, "P 4/n 2/b 2/m"); (126, "P 4/n 2/n 2/c"); (127, "P 4/m 21/b 2/m"); (128, "P 4/m 21/n 2/c");
  (129, "P 4/n 21/m 2/m"); (130, "P 4/n 21/c 2/c"); (131, "P 42/m 2/m 2/c"); (132, "P 42/m 2/c 2/m"); (133, "P 42/n 2/b 2/c");
  (134, "P 42/n 2/n 2/m"); (135, "P 42/m 21/b 2/c"); (136, "P 42/m 21/n 2/m"); (137, "P 42/n 21/m 2/c"); (138, "P 42/n 21/c 2/m");
  (139, "I 4/m 21/m 2/m"); (140, "I 4/m 2/c 2/m"); (141, "I 41/a 2/m 2/d"); (142, "I 41/a 2/c 2/d"); (143, "P 3");
  (144, "P 31"); (145, "P 32"); (146, "R 3"); (147, "P -3"); (148, "R -3");
  (149, "P 3 1 2"); (150, "P 3 2 1"); (151, "P 31 1 2"); (152, "P 31 2 1"); (153, "P 32 1 2");
  (154, "P 32 2 1"); (155, "R 3 2"); (156, "P 3 m 1"); (157, "P 3 1 m"); (158, "P 3 c 1");
  (159, "P 3 1 c"); (160, "R 3 m"); (161, "R 3 c"); (162, "P -3 1 2/m"); (163, "P -3 1 2/c");
  (164, "P -3 2/m 1"); (165, "P -3 2/c 1"); (166, "R -3 2/m"); (167, "R -3 2/c"); (168, "P 6");
  (169, "P 61"); (170, "P 65"); (171, "P 62"); (172, "P 64"); (173, "P 63");
  (174, "P -6"); (175, "P 6/m "); (176, "P 63/m"); (177, "P 6 2 2"); (178, "P 61 2 2");
  (179, "P 65 2 2"); (180, "P 62 2 2"); (181, "P 64 2 2"); (182, "P 63 2 2"); (183, "P 6 m m");
  (184, "P 6 c c"); (185, "P 63 c m"); (186, "P 63 m c"); (187, "P -6 m 2"); (188, "P -6 c 2");
  (189, "P -6 2 m"); (190, "P -6 2 c"); (191, "P 6/m 2/m 2/m"); (192, "P 6/m 2/c 2/c"); (193, "P 63/m 2/c 2/m");
  (194, "P 63/m 2/m 2/c"); (195, "P 23"); (196, "F 23"); (197, "I 23"); (198, "P 21 3");
  (199, "I 21 3"); (200, "P 2/m -3"); (201, "P 2/n -3"); (202, "F 2/m -3"); (203, "F 2/d -3");
  (204, "I 2/m -3"); (205, "P 21/a -3"); (206, "I 21/a -3"); (207, "P 4 3 2"); (208, "P 42 3 2");
  (209, "F 4 3 2"); (210, "F 41 3 2"); (211, "I 4 3 2"); (212, "P 43 3 2"); (213, "P 41 3 2");
  (214, "I 41 3 2"); (215, "P -4 3 m"); (216, "F -4 3 m"); (217, "I -4 3 m"); (218, "P -4 3 n");
  (219, "F -4 3 c"); (220, "I -4 3 d"); (221, "P 4/m -3 2/m"); (222, "P 4/n -3 2/n"); (223, "P 42/m -3 2/n");
  (224, "P 42/n -3 2/m"); (225, "F 4/m -3 2/m"); (226, "F 4/m -3 2/c"); (227, "F 41/d -3 2/m"); (228, "F 41/d -3 2/c");
  (229, "I 4/m -3 2/m"); (230, "I 41/a -3 2/d") ].

(** l.1129-1161 (Laue class short, full, point group short, full, Schoenflies) *)
Definition table_laue : list (string * string * string * string * string) := [ ("-1", "-1", "1", "1", "C1"); ("-1", "-1", "-1", "-1", "Ci"); ("2/m", "2/m", "2", "2", "C2");
  ("2/m", "2/m", "m", "m", "Cs"); ("2/m", "2/m", "2/m", "2/m", "C2h"); ("mmm", "2/m2/m2/m", "222", "222", "D2");
  ("mmm", "2/m2/m2/m", "mm2", "mm2", "C2v"); ("mmm", "2/m2/m2/m", "mmm", "2/m2/m2/m", "D2h"); ("4/m", "4/m", "4", "4", "C4");
  ("4/m", "4/m", "-4", "-4", "S4"); ("4/m", "4/m", "4/m", "4/m", "C4h"); ("4/mmm", "4/m2/m2/m", "422", "422", "D4");
  ("4/mmm", "4/m2/m2/m", "4mm", "4mm", "C4v"); ("4/mmm", "4/m2/m2/m", "-42m", "-42m", "D2d"); ("4/mmm", "4/m2/m2/m", "4/mmm", "4/m2/m2/m", "D4h");
  ("-3", "-3", "3", "3", "C3"); ("-3", "-3", "-3", "-3", "C3i"); ("-3m", "-32/m", "32", "32", "D3");
  ("-3m", "-32/m", "3m", "3m", "C3v"); ("-3m", "-32/m", "-3m", "-32/m", "D3d"); ("6/m", "6/m", "6", "6", "C6");
  ("6/m", "6/m", "-6", "-6", "C3h"); ("6/m", "6/m", "6/m", "6/m", "C6h"); ("6/mmm", "6/m2/m2/m", "622", "622", "D6");
  ("6/mmm", "6/m2/m2/m", "6mm", "6mm", "D6v"); ("6/mmm", "6/m2/m2/m", "-62m", "-62m", "D3h"); ("6/mmm", "6/m2/m2/m", "6/mmm", "6/m2/m2/m", "D6h");
  ("m-3", "2/m-3", "23", "23", "T"); ("m-3", "2/m-3", "m-3", "2/m-3", "Th"); ("m-3m", "4/m-32/m", "432", "432", "O");
  ("m-3m", "4/m-32/m", "-43m", "-43m", "Td"); ("m-3m", "4/m-32/m", "m-3m", "4/m-32/m", "Oh") ].

(** l.947-956 (Patterson name, lattice type, Laue class) *)
Definition table_patterson : list (string * string * string) := [ ("P -1", "P", "-1"); ("P 2/m", "P", "2/m"); ("C 2/m", "C", "2/m"); ("P m m m", "P", "mmm");
  ("C m m m", "C", "mmm"); ("I m m m", "I", "mmm"); ("F m m m", "F", "mmm"); ("P 4/m", "P", "4/m");
  ("I 4/m", "I", "4/m"); ("P 4/m m m", "P", "4/mmm"); ("I 4/m m m", "I", "4/mmm"); ("P -3", "P", "-3");
  ("R -3", "R", "-3"); ("P -3 m 1", "P", "-3m1"); ("R -3 m", "R", "-3m"); ("P -3 1 m", "P", "-31m");
  ("P 6/m", "P", "6/m"); ("P 6/m m m", "P", "6/mmm"); ("P m -3", "P", "m-3"); ("I m -3", "I", "m-3");
  ("F m -3", "F", "m-3"); ("P m -3 m", "P", "m-3m"); ("I m -3 m", "I", "m-3m"); ("F m -3 m", "F", "m-3m") ].

(** l.970-993 (Bravais type, centring type, crystal system) *)
Definition table_bravais : list (string * string * string) := [ ("aP", "P", "triclinic"); ("mP", "P", "monoclinic"); ("mS", "A", "monoclinic"); ("mS", "B", "monoclinic");
  ("mS", "C", "monoclinic"); ("mI", "I", "monoclinic"); ("oP", "P", "orthorhombic"); ("oS", "A", "orthorhombic");
  ("oS", "B", "orthorhombic"); ("oS", "C", "orthorhombic"); ("oI", "I", "orthorhombic"); ("oF", "F", "orthorhombic");
  ("tP", "P", "tetragonal"); ("tI", "I", "tetragonal"); ("hP", "P", "hexagonal"); ("hP", "P", "trigonal");
  ("hR", "R", "trigonal"); ("hR", "Rrev", "trigonal"); ("hR", "H", "trigonal"); ("cP", "P", "cubic");
  ("cI", "I", "cubic"); ("cF", "F", "cubic") ].

(** the lines of itables.txt (line ends removed) *)
Definition itables_lines : list string := [ "1 P1               Triclinic"; "choice: 1"; "centr: false"; "pcentr: 0, 0, 0"; "symmetry: x,y,z"; "";
  "2 P-1              Triclinic"; "choice: 1"; "centr: true"; "pcentr: 0, 0, 0"; "symmetry: x,y,z"; "";
  "3 P2               Monoclinic"; "choice: 1"; "centr: false"; "pcentr: 0, 0, 0"; "symmetry: x,y,z"; "symmetry: -x,y,-z";
  ""; "4 P2(1)            Monoclinic"; "choice: 1"; "centr: false"; "pcentr: 0, 0, 0"; "symmetry: x,y,z";
  "symmetry: -x,y+1/2,-z"; ""; "5 C2               Monoclinic"; "choice: 1"; "centr: false"; "pcentr: 0, 0, 0";
  "symmetry: x,y,z"; "symmetry: -x,y,-z"; ""; "6 Pm               Monoclinic"; "choice: 1"; "centr: false";
  "pcentr: 0, 0, 0"; "symmetry: x,y,z"; "symmetry: x,-y,z"; ""; "7 Pc               Monoclinic"; "choice: 1";
  "centr: false"; "pcentr: 0, 0, 0"; "symmetry: x,y,z"; "symmetry: x,-y,1/2+z"; ""; "8 Cm               Monoclinic";
  "choice: 1"; "centr: false"; "pcentr: 0, 0, 0"; "symmetry: x,y,z"; "symmetry: x,-y,z"; "";
  "9 Cc               Monoclinic"; "choice: 1"; "centr: false"; "pcentr: 0, 0, 0"; "symmetry: x,y,z"; "symmetry: x,-y,1/2+z";
  ""; ""; ""; ""; "10 P2/m            Monoclinic"; "choice: 1";
  "centr: true"; "pcentr: 0, 0, 0"; "symmetry: x,y,z"; "symmetry: x,-y,z"; ""; "11 P2(1)/m         Monoclinic";
  "choice: 1"; "centr: true"; "pcentr: 0, 0, 0"; "symmetry: x,y,z"; "symmetry: -x,1/2+y,-z"; "";
  "12 C2/m            Monoclinic"; "choice: 1"; "centr: true"; "pcentr: 0, 0, 0"; "symmetry: x,y,z"; "symmetry: x,-y,z";
  ""; "12 C2/m            Monoclinic"; "choice: 3"; "centr: true"; "pcentr: 0, 0, 0"; "symmetry: x,y,z";
  "symmetry: x,-y,z"; ""; "13 P2/c            Monoclinic"; "choice: 1"; "centr: true"; "pcentr: 0, 0, 0";
  "symmetry: x,y,z"; "symmetry: -x,y,1/2-z"; ""; "14 P2(1)/c         Monoclinic"; "choice: 1"; "centr: true";
  "pcentr: 0, 0, 0"; "symmetry: x,y,z"; "symmetry: -x,1/2+y,1/2-z"; ""; "14 P12(1)/n        Monoclinic"; "choice: 2";
  "centr: true"; "pcentr: 0, 0, 0"; "symmetry: x,y,z"; "symmetry: 1/2-x,1/2+y,1/2-z"; ""; "";
  "14 P12(1)/a        Monoclinic"; "choice: 3"; "centr: true"; "pcentr: 0, 0, 0"; "symmetry: x,y,z"; "symmetry: 1/2-x,1/2+y,-z";
  ""; "15 C2/c            Monoclinic"; "choice: 1"; "centr: true"; "pcentr: 0, 0, 0"; "symmetry: x,y,z";
  "symmetry: -x,y,1/2-z"; ""; "16 P222            Orthorhombic"; "choice: 1"; "centr: false"; "pcentr: 0, 0, 0";
  "symmetry: x,y,z"; "symmetry: -x,-y,z"; "symmetry: -x,y,-z"; "symmetry: x,-y,-z"; ""; "17 P222(1)         Orthorhombic";
  "choice: 1"; "centr: false"; "pcentr: 0, 0, 0"; "symmetry: x,y,z"; "symmetry: -x,-y,1/2+z"; "symmetry: -x,y,1/2-z";
  "symmetry: x,-y,-z"; ""; "17 P2(1)22         Orthorhombic"; "choice: 2"; "centr: false"; "pcentr: 0, 0, 0";
  "symmetry: x,y,z"; "symmetry: 1/2+x,-y,-z"; "symmetry: 1/2-x,-y,z"; "symmetry: -x,y,-z"; ""; "18 P2(1)2(1)2      Orthorhombic";
  "choice: 1"; "centr: false"; "pcentr: 0, 0, 0"; "symmetry: x,y,z"; "symmetry: -x,-y,z"; "symmetry: 1/2-x,1/2+y,-z";
  "symmetry: 1/2+x,1/2-y,-z"; ""; "18 P2(1)2(1)2      Orthorhombic"; "choice: 2"; "centr: false"; "pcentr: 0, 0, 0";
  "symmetry: x,y,z"; "symmetry: -x,1/2+y,-z"; "symmetry: 1/2+x,-y,-z"; "symmetry: 1/2-x,1/2-y,z"; ""; "19 P2(1)2(1)2(1)   Orthorhombic";
  "choice: 1"; "centr: false"; "pcentr: 0, 0, 0"; "symmetry: x,y,z"; "symmetry: 1/2-x,-y,1/2+z"; "symmetry: -x,1/2+y,1/2-z";
  "symmetry: 1/2+x,1/2-y,-z"; ""; "20 C222(1)         Orthorhombic"; "choice: 1"; "centr: false"; "pcentr: 0, 0, 0";
  "symmetry: x,y,z"; "symmetry: -x,-y,1/2+z"; "symmetry: -x,y,1/2-z"; "symmetry: x,-y,-z"; ""; "21 C222            Orthorhombic";
  "choice: 1"; "centr: false"; "pcentr: 0, 0, 0"; "symmetry: x,y,z"; "symmetry: -x,-y,z"; "symmetry: -x,y,-z";
  "symmetry: x,-y,-z"; ""; "22 F222            Orthorhombic"; "choice: 1"; "centr: false"; "pcentr: 0, 0, 0";
  "symmetry: x,y,z"; "symmetry: -x,-y,z"; "symmetry: -x,y,-z"; "symmetry: x,-y,-z"; ""; "23 I222            Orthorhombic";
  "choice: 1"; "centr: false"; "pcentr: 0, 0, 0"; "symmetry: x,y,z"; "symmetry: -x,-y,z"; "symmetry: x,-y,-z";
  "symmetry: -x,y,-z"; ""; "24 I2(1)2(1)2(1)   Orthorhombic"; "choice: 1"; "centr: false"; "pcentr: 0, 0, 0";
  "symmetry: x,y,z"; "symmetry: 1/2-x,-y,1/2+z"; "symmetry: -x,1/2+y,1/2-z"; "symmetry: 1/2+x,1/2-y,-z"; ""; "25 Pmm2            Orthorhombic";
  "choice: 1"; "centr: false"; "pcentr: 0, 0, 0"; "symmetry: x,y,z"; "symmetry: -x,-y,z"; "symmetry: x,-y,z";
  "symmetry: -x,y,z"; ""; "26 Pmc2(1)         Orthorhombic"; "choice: 1"; "centr: false"; "pcentr: 0, 0, 0";
  "symmetry: x,y,z"; "symmetry: -x,-y,z+1/2"; "symmetry: x,-y,z+1/2"; "symmetry: -x,y,z"; ""; "27 Pcc2            Orthorhombic";
  "choice: 1"; "centr: false"; "pcentr: 0, 0, 0"; "symmetry: x,y,z"; "symmetry: -x,-y,z"; "symmetry: x,-y,z+1/2";
  "symmetry: -x,y,z+1/2"; ""; "28 Pma2            Orthorhombic"; "choice: 1"; "centr: false"; "pcentr: 0, 0, 0";
  "symmetry: x,y,z"; "symmetry: -x,-y,z"; "symmetry: x+1/2,-y,z"; "symmetry: -x+1/2,y,z"; ""; "29 Pca2(1)         Orthorhombic";
  "choice: 1"; "centr: false"; "pcentr: 0, 0, 0"; "symmetry: x,y,z"; "symmetry: -x,-y,z+1/2"; "symmetry: x+1/2,-y,z";
  "symmetry: -x+1/2,y,z+1/2"; ""; "30 Pnc2            Orthorhombic"; "choice: 1"; "centr: false"; "pcentr: 0, 0, 0";
  "symmetry: x,y,z"; "symmetry: -x,-y,z"; "symmetry: x,-y+1/2,z+1/2"; "symmetry: -x,y+1/2,z+1/2"; ""; "31 Pmn2(1)         Orthorhombic";
  "choice: 1"; "centr: false"; "pcentr: 0, 0, 0"; "symmetry: x,y,z"; "symmetry: -x+1/2,-y,z+1/2"; "symmetry: x+1/2,-y,z+1/2";
  "symmetry: -x,y,z"; ""; "32 Pba2            Orthorhombic"; "choice: 1"; "centr: false"; "pcentr: 0, 0, 0";
  "symmetry: x,y,z"; "symmetry: -x,-y,z"; "symmetry: x+1/2,-y+1/2,z"; "symmetry: -x+1/2,y+1/2,z"; ""; "33 Pna2(1)         Orthorhombic";
  "choice: 1"; "centr: false"; "pcentr: 0, 0, 0"; "symmetry: x,y,z"; "symmetry: -x,-y,z+1/2"; "symmetry: x+1/2,-y+1/2,z";
  "symmetry: -x+1/2,y+1/2,z+1/2"; ""; "34 Pnn2            Orthorhombic"; "choice: 1"; "centr: false"; "pcentr: 0, 0, 0";
  "symmetry: x,y,z"; "symmetry: -x,-y,z"; "symmetry: x+1/2,-y+1/2,z+1/2"; "symmetry: -x+1/2,y+1/2,z+1/2"; ""; "35 Cmm2            Orthorhombic";
  "choice: 1"; "centr: false"; "pcentr: 0, 0, 0"; "symmetry: x,y,z"; "symmetry: -x,-y,z"; "symmetry: x,-y,z";
  "symmetry: -x,y,z"; ""; "36 Cmc2(1)         Orthorhombic"; "choice: 1"; "centr: false"; "pcentr: 0, 0, 0";
  "symmetry: x,y,z"; "symmetry: -x,-y,z+1/2"; "symmetry: x,-y,z+1/2"; "symmetry: -x,y,z"; ""; "37 Ccc2            Orthorhombic";
  "choice: 1"; "centr: false"; "pcentr: 0, 0, 0"; "symmetry: x,y,z"; "symmetry: -x,-y,z"; "symmetry: x,-y,z+1/2";
  "symmetry: -x,y,z+1/2"; ""; "38 Amm2            Orthorhombic"; "choice: 1"; "centr: false"; "pcentr: 0, 0, 0";
  "symmetry: x,y,z"; "symmetry: -x,-y,z"; "symmetry: x,-y,z"; "symmetry: -x,y,z"; ""; "39 Abm2            Orthorhombic";
  "choice: 1"; "centr: false"; "pcentr: 0, 0, 0"; "symmetry: x,y,z"; "symmetry: -x,-y,z"; "symmetry: x,-y+1/2,z";
  "symmetry: -x,y+1/2,z"; ""; "40 Ama2            Orthorhombic"; "choice: 1"; "centr: false"; "pcentr: 0, 0, 0";
  "symmetry: x,y,z"; "symmetry: -x,-y,z"; "symmetry: x+1/2,-y,z"; "symmetry: -x+1/2,y,z"; ""; "41 Aba2            Orthorhombic";
  "choice: 1"; "centr: false"; "pcentr: 0, 0, 0"; "symmetry: x,y,z"; "symmetry: -x,-y,z"; "symmetry: x+1/2,-y+1/2,z";
  "symmetry: -x+1/2,y+1/2,z"; ""; "42 Fmm2            Orthorhombic"; "choice: 1"; "centr: false"; "pcentr: 0, 0, 0";
  "symmetry: x,y,z"; "symmetry: -x,-y,z"; "symmetry: x,-y,z"; "symmetry: -x,y,z"; ""; "43 Fdd2            Orthorhombic";
  "choice: 1"; "centr: false"; "pcentr: 0, 0, 0"; "symmetry: x,y,z"; "symmetry: -x,-y,z"; "symmetry: x+1/4,-y+1/4,z+1/4";
  "symmetry: -x+1/4,y+1/4,z+1/4"; ""; "44 Imm2            Orthorhombic"; "choice: 1"; "centr: false"; "pcentr: 0, 0, 0";
  "symmetry: x,y,z"; "symmetry: -x,-y,z"; "symmetry: x,-y,z"; "symmetry: -x,y,z"; ""; "45 Iba2            Orthorhombic";
  "choice: 1"; "centr: false"; "pcentr: 0, 0, 0"; "symmetry: x,y,z"; "symmetry: -x,-y,z"; "symmetry: x+1/2,-y+1/2,z";
  "symmetry: -x+1/2,y+1/2,z"; ""; "46 Ima2            Orthorhombic"; "choice: 1"; "centr: false"; "pcentr: 0, 0, 0";
  "symmetry: x,y,z"; "symmetry: -x,-y,z"; "symmetry: x+1/2,-y,z"; "symmetry: -x+1/2,y,z"; ""; "47 Pmmm            Orthorhombic";
  "choice: 1"; "centr: true"; "pcentr: 0, 0, 0"; "symmetry: x,y,z"; "symmetry: -x,-y,z"; "symmetry: -x,y,-z";
  "symmetry: x,-y,-z"; ""; "48 Pnnn            Orthorhombic"; "choice: 1"; "centr: true"; "pcentr: 0.25, 0.25, 0.2";
  "symmetry: x,y,z"; "symmetry: -x,-y,z"; "symmetry: -x,y,-z"; "symmetry: x,-y,-z"; ""; "48 Pnnn            Orthorhombic";
  "choice: 2"; "centr: true"; "pcentr: 0, 0, 0"; "symmetry: x,y,z"; "symmetry: -x+1/2,-y+1/2,z"; "symmetry: -x+1/2,y,-z+1/2";
  "symmetry: x,-y+1/2,-z+1/2"; ""; "49 Pccm            Orthorhombic"; "choice: 1"; "centr: true"; "pcentr: 0, 0, 0";
  "symmetry: x,y,z"; "symmetry: -x,-y,z"; "symmetry: -x,y,-z+1/2"; "symmetry: x,-y,-z+1/2"; ""; "50 Pban            Orthorhombic";
  "choice: 1"; "centr: true"; "pcentr: 0.25, 0.25, 0"; "symmetry: x,y,z"; "symmetry: -x,-y,z"; "symmetry: -x,y,-z";
  "symmetry: x,-y,-z"; ""; "50 Pban            Orthorhombic"; "choice: 2"; "centr: true"; "pcentr: 0, 0, 0";
  "symmetry: x,y,z"; "symmetry: -x+1/2,-y+1/2,z"; "symmetry: -x+1/2,y,-z"; "symmetry: x,-y+1/2,-z"; ""; "51 Pmma            Orthorhombic";
  "choice: 1"; "centr: true"; "pcentr: 0, 0, 0"; "symmetry: x,y,z"; "symmetry: -x+1/2,-y,z"; "symmetry: -x,y,-z";
  "symmetry: x+1/2,-y,-z"; ""; "52 Pnna            Orthorhombic"; "choice: 1"; "centr: true"; "pcentr: 0, 0, 0";
  "symmetry: x,y,z"; "symmetry: -x+1/2,-y,z"; "symmetry: -x+1/2,y+1/2,-z+1/2"; "symmetry: x,-y+1/2,-z+1/2"; ""; "53 Pmna            Orthorhombic";
  "choice: 1"; "centr: true"; "pcentr: 0, 0, 0"; "symmetry: x,y,z"; "symmetry: -x+1/2,-y,z+1/2"; "symmetry: -x+1/2,y,-z+1/2";
  "symmetry: x,-y,-z"; ""; "54 Pcca            Orthorhombic"; "choice: 1"; "centr: true"; "pcentr: 0, 0, 0";
  "symmetry: x,y,z"; "symmetry: -x+1/2,-y,z"; "symmetry: -x,y,-z+1/2"; "symmetry: x+1/2,-y,-z+1/2"; ""; "55 Pbam            Orthorhombic";
  "choice: 1"; "centr: true"; "pcentr: 0, 0, 0"; "symmetry: x,y,z"; "symmetry: -x,-y,z"; "symmetry: -x+1/2,y+1/2,-z";
  "symmetry: x+1/2,-y+1/2,-z"; ""; "56 Pccn            Orthorhombic"; "choice: 1"; "centr: true"; "pcentr: 0, 0, 0";
  "symmetry: x,y,z"; "symmetry: -x+1/2,-y+1/2,z"; "symmetry: -x,y+1/2,-z+1/2"; "symmetry: x+1/2,-y,-z+1/2"; ""; "57 Pbcm            Orthorhombic";
  "choice: 1"; "centr: true"; "pcentr: 0, 0, 0"; "symmetry: x,y,z"; "symmetry: -x,-y,z+1/2"; "symmetry: -x,y+1/2,-z+1/2";
  "symmetry: x,-y+1/2,-z"; ""; ""; "57 Pbcm            Orthorhombic"; "choice: 4"; "centr: true";
  "pcentr: 0, 0, 0"; "symmetry:  x,y,z"; "symmetry:  x,1/2+y,-z"; "symmetry:  1/2-x,1/2+y,-z"; "symmetry:  1/2+x,-y,-z"; "";
  ""; "58 Pnnm            Orthorhombic"; "choice: 1"; "centr: true"; "pcentr: 0, 0, 0"; "symmetry: x,y,z";
  "symmetry: -x,-y,z"; "symmetry: -x+1/2,y+1/2,-z+1/2"; "symmetry: x+1/2,-y+1/2,-z+1/2"; ""; "59 Pmmn            Orthorhombic"; "choice: 1";
  "centr: true"; "pcentr: 0.25, 0.25, 0"; "symmetry: x,y,z"; "symmetry: -x,-y,z"; "symmetry: x,-y,z"; "symmetry: -x,y,z";
  ""; "59 Pmmn            Orthorhombic"; "choice: 2"; "centr: true"; "pcentr: 0, 0, 0"; "symmetry: x,y,z";
  "symmetry: -x+1/2,-y+1/2,z"; "symmetry: -x,y+1/2,-z"; "symmetry: x+1/2,-y,-z"; ""; "60 Pbcn            Orthorhombic"; "choice: 1";
  "centr: true"; "pcentr: 0, 0, 0"; "symmetry: x,y,z"; "symmetry: -x+1/2,-y+1/2,z+1/2"; "symmetry: -x,y,-z+1/2"; "symmetry: x+1/2,-y+1/2,-z";
  ""; "61 Pbca            Orthorhombic"; "choice: 1"; "centr: true"; "pcentr: 0, 0, 0"; "symmetry: x,y,z";
  "symmetry: -x+1/2,-y,z+1/2"; "symmetry: -x,y+1/2,-z+1/2"; "symmetry: x+1/2,-y+1/2,-z"; ""; "62 Pnma            Orthorhombic"; "choice: 1";
  "centr: true"; "pcentr: 0, 0, 0"; "symmetry: x,y,z"; "symmetry: -x+1/2,-y,z+1/2"; "symmetry: -x,y+1/2,-z"; "symmetry: x+1/2,-y+1/2,-z+1/2";
  ""; "62 Pbnm            Orthorhombic"; "choice: cab"; "centr: true"; "pcentr: 0, 0, 0"; "symmetry: x,y,z";
  "symmetry: x+1/2,-y+1/2,-z"; "symmetry: -x+1/2,y+1/2,-z+1/2"; "symmetry: -x,-y,z+1/2"; ""; "63 Cmcm            Orthorhombic"; "choice: 1";
  "centr: true"; "pcentr: 0, 0, 0"; "symmetry: x,y,z"; "symmetry: -x,-y,z+1/2"; "symmetry: -x,y,-z+1/2"; "symmetry: x,-y,-z";
  ""; "64 Cmca            Orthorhombic"; "choice: 1"; "centr: true"; "pcentr: 0, 0, 0"; "symmetry: x,y,z";
  "symmetry: -x,-y+1/2,z+1/2"; "symmetry: -x,y+1/2,-z+1/2"; "symmetry: x,-y,-z"; ""; "65 Cmmm            Orthorhombic"; "choice: 1";
  "centr: true"; "pcentr: 0, 0, 0"; "symmetry: x,y,z"; "symmetry: -x,-y,z"; "symmetry: -x,y,-z"; "symmetry: x,-y,-z";
  ""; "66 Cccm            Orthorhombic"; "choice: 1"; "centr: true"; "pcentr: 0, 0, 0"; "symmetry: x,y,z";
  "symmetry: -x,-y,z"; "symmetry: -x,y,-z+1/2"; "symmetry: x,-y,-z+1/2"; ""; "67 Cmma            Orthorhombic"; "choice: 1";
  "centr: true"; "pcentr: 0, 0, 0"; "symmetry: x,y,z"; "symmetry: -x,-y+1/2,z"; "symmetry: -x,y+1/2,-z"; "symmetry: x,-y,-z";
  ""; "68 Ccca            Orthorhombic"; "choice: 1"; "centr: true"; "pcentr: 0, 0.25, 0.25"; "symmetry: x,y,z";
  "symmetry: -x+1/2,-y+1/2,z"; "symmetry: -x,y,-z"; "symmetry: x+1/2,-y+1/2,-z"; ""; "68 Ccca            Orthorhombic"; "choice: 2";
  "centr: true"; "pcentr: 0, 0, 0"; "symmetry: x,y,z"; "symmetry: -x+1/2,-y,z"; "symmetry: -x,y,-z+1/2"; "symmetry: x+1/2,-y,-z+1/2";
  ""; "69 Fmmm            Orthorhombic"; "choice: 1"; "centr: true"; "pcentr: 0, 0, 0"; "symmetry: x,y,z";
  "symmetry: -x,-y,z"; "symmetry: -x,y,-z"; "symmetry: x,-y,-z"; ""; "70 Fddd            Orthorhombic"; "choice: 1";
  "centr: true"; "pcentr: -0.125, -0.125, -0.125"; "symmetry: x,y,z"; "symmetry: -x,-y,z"; "symmetry: -x,y,-z"; "symmetry: x,-y,-z";
  ""; "70 Fddd            Orthorhombic"; "choice: 2"; "centr: true"; "pcentr: 0, 0, 0"; "symmetry: x,y,z";
  "symmetry: -x+3/4,-y+3/4,z"; "symmetry: -x+3/4,y,-z+3/4"; "symmetry: x,-y+3/4,-z+3/4"; ""; "71 Immm            Orthorhombic"; "choice: 1";
  "centr: true"; "pcentr: 0, 0, 0"; "symmetry: x,y,z"; "symmetry: -x,-y,z"; "symmetry: -x,y,-z"; "symmetry: x,-y,-z";
  ""; "72 Ibam            Orthorhombic"; "choice: 1"; "centr: true"; "pcentr: 0, 0, 0"; "symmetry: x,y,z";
  "symmetry: -x,-y,z"; "symmetry: -x+1/2,y+1/2,-z"; "symmetry: x+1/2,-y+1/2,-z"; ""; "73 Ibca            Orthorhombic"; "choice: 1";
  "centr: true"; "pcentr: 0, 0, 0"; "symmetry: x,y,z"; "symmetry: -x+1/2,-y,z+1/2"; "symmetry: -x,y+1/2,-z+1/2"; "symmetry: x+1/2,-y+1/2,-z";
  ""; "74 Imma            Orthorhombic"; "choice: 1"; "centr: true"; "pcentr: 0, 0, 0"; "symmetry: x,y,z";
  "symmetry: -x,-y+1/2,z"; "symmetry: -x,y+1/2,-z"; "symmetry: x,-y,-z"; ""; "75 P4              Tetragonal"; "choice: 1";
  "centr: false"; "pcentr: 0, 0, 0"; "symmetry: x,y,z"; "symmetry: -x,-y,z"; "symmetry: -y,x,z"; "symmetry: y,-x,z";
  ""; "76 P4(1)           Tetragonal"; "choice: 1"; "centr: false"; "pcentr: 0, 0, 0"; "symmetry: x,y,z";
  "symmetry: -x,-y,z+1/2"; "symmetry: -y,x,z+1/4"; "symmetry: y,-x,z+3/4"; ""; "77 P4(2)           Tetragonal"; "choice: 1";
  "centr: false"; "pcentr: 0, 0, 0"; "symmetry: x,y,z"; "symmetry: -x,-y,z"; "symmetry: -y,x,z+1/2"; "symmetry: y,-x,z+1/2";
  ""; "78 P4(3)           Tetragonal"; "choice: 1"; "centr: false"; "pcentr: 0, 0, 0"; "symmetry: x,y,z";
  "symmetry: -x,-y,z+1/2"; "symmetry: -y,x,z+3/4"; "symmetry: y,-x,z+1/4"; ""; "79 I4              Tetragonal"; "choice: 1";
  "centr: false"; "pcentr: 0, 0, 0"; "symmetry: x,y,z"; "symmetry: -x,-y,z"; "symmetry: -y,x,z"; "symmetry: y,-x,z";
  ""; "80 I4(1)           Tetragonal"; "choice: 1"; "centr: false"; "pcentr: 0, 0, 0"; "symmetry: x,y,z";
  "symmetry: -x+1/2,-y+1/2,z+1/2"; "symmetry: -y,x+1/2,z+1/4"; "symmetry: y+1/2,-x,z+3/4"; ""; "81 P-4             Tetragonal"; "choice: 1";
  "centr: false"; "pcentr: 0, 0, 0"; "symmetry: x,y,z"; "symmetry: -x,-y,z"; "symmetry: y,-x,-z"; "symmetry: -y,x,-z";
  ""; "82 I-4             Tetragonal"; "choice: 1"; "centr: false"; "pcentr: 0, 0, 0"; "symmetry: x,y,z";
  "symmetry: -x,-y,z"; "symmetry: y,-x,-z"; "symmetry: -y,x,-z"; ""; "83 P4/m            Tetragonal"; "choice: 1";
  "centr: true"; "pcentr: 0, 0, 0"; "symmetry: x,y,z"; "symmetry: -x,-y,z"; "symmetry: -y,x,z"; "symmetry: y,-x,z";
  ""; "84 P4(2)/m         Tetragonal"; "choice: 1"; "centr: true"; "pcentr: 0, 0, 0"; "symmetry: x,y,z";
  "symmetry: -x,-y,z"; "symmetry: -y,x,z+1/2"; "symmetry: y,-x,z+1/2"; ""; "85 P4/n            Tetragonal"; "choice: 1";
  "centr: true"; "pcentr: -0.25, 0.25, 0"; "symmetry: x,y,z"; "symmetry: -x,-y,z"; "symmetry: y,-x,-z"; "symmetry: -y,x,-z";
  ""; "85 P4/n            Tetragonal"; "choice: 2"; "centr: true"; "pcentr: 0, 0, 0"; "symmetry: x,y,z";
  "symmetry: -x+1/2,-y+1/2,z"; "symmetry: -y+1/2,x,z"; "symmetry: y,-x+1/2,z"; ""; "86 P4(2)/n         Tetragonal"; "choice: 1";
  "centr: true"; "pcentr: -0.25, -0.25, -0.25"; "symmetry: x,y,z"; "symmetry: -x,-y,z"; "symmetry: y,-x,-z"; "symmetry: -y,x,-z";
  ""; "86 P4(2)/n         Tetragonal"; "choice: 2"; "centr: true"; "pcentr: 0, 0, 0"; "symmetry: x,y,z";
  "symmetry: -x+1/2,-y+1/2,z"; "symmetry: -y,x+1/2,z+1/2"; "symmetry: y+1/2,-x,z+1/2"; ""; "87 I4/m            Tetragonal"; "choice: 1";
  "centr: true"; "pcentr: 0, 0, 0"; "symmetry: x,y,z"; "symmetry: -x,-y,z"; "symmetry: -y,x,z"; "symmetry: y,-x,z";
  ""; "88 I4(1)/a         Tetragonal"; "choice: 1"; "centr: true"; "pcentr: 0, -0.25, -0.125"; "symmetry: x,y,z";
  "symmetry: -x+1/2,-y+1/2,z+1/2"; "symmetry: -y,x+1/2,z+1/4"; "symmetry: y+1/2,-x,z+3/4"; ""; "88 I4(1)/a         Tetragonal"; "choice: 2";
  "centr: true"; "pcentr: 0, 0, 0"; "symmetry: x,y,z"; "symmetry: -x+1/2,-y,z+1/2"; "symmetry: -y+3/4,x+1/4,z+1/4"; "symmetry: y+3/4,-x+3/4,z+3/4";
  ""; "89 P422            Tetragonal"; "choice: 1"; "centr: false"; "pcentr: 0, 0, 0"; "symmetry: x,y,z";
  "symmetry: -x,-y,z"; "symmetry: -y,x,z"; "symmetry: y,-x,z"; "symmetry: -x,y,-z"; "symmetry: x,-y,-z"; "symmetry: y,x,-z";
  "symmetry: -y,-x,-z"; ""; "90 P42(1)2         Tetragonal"; "choice: 1"; "centr: false"; "pcentr: 0, 0, 0";
  "symmetry: x,y,z"; "symmetry: -x,-y,z"; "symmetry: -y+1/2,x+1/2,z"; "symmetry: y+1/2,-x+1/2,z"; "symmetry: -x+1/2,y+1/2,-z"; "symmetry: x+1/2,-y+1/2,-z";
  "symmetry: y,x,-z"; "symmetry: -y,-x,-z"; ""; "91 P4(1)22         Tetragonal"; "choice: 1"; "centr: false";
  "pcentr: 0, 0, 0"; "symmetry: x,y,z"; "symmetry: -x,-y,z+1/2"; "symmetry: -y,x,z+1/4"; "symmetry: y,-x,z+3/4"; "symmetry: -x,y,-z";
  "symmetry: x,-y,-z+1/2"; "symmetry: y,x,-z+3/4"; "symmetry: -y,-x,-z+1/4"; ""; "92 P4(1)2(1)2      Tetragonal"; "choice: 1";
  "centr: false"; "pcentr: 0, 0, 0"; "symmetry: x,y,z"; "symmetry: -x,-y,z+1/2"; "symmetry: -y+1/2,x+1/2,z+1/4"; "symmetry: y+1/2,-x+1/2,z+3/4";
  "symmetry: -x+1/2,y+1/2,-z+1/4"; "symmetry: x+1/2,-y+1/2,-z+3/4"; "symmetry: y,x,-z"; "symmetry: -y,-x,-z+1/2"; ""; "93 P4(2)22         Tetragonal";
  "choice: 1"; "centr: false"; "pcentr: 0, 0, 0"; "symmetry: x,y,z"; "symmetry: -x,-y,z"; "symmetry: -y,x,z+1/2";
  "symmetry: y,-x,z+1/2"; "symmetry: -x,y,-z"; "symmetry: x,-y,-z"; "symmetry: y,x,-z+1/2"; "symmetry: -y,-x,-z+1/2"; "";
  "94 P4(2)2(1)2      Tetragonal"; "choice: 1"; "centr: false"; "pcentr: 0, 0, 0"; "symmetry: x,y,z"; "symmetry: -x,-y,z";
  "symmetry: -y+1/2,x+1/2,z+1/2"; "symmetry: y+1/2,-x+1/2,z+1/2"; "symmetry: -x+1/2,y+1/2,-z+1/2"; "symmetry: x+1/2,-y+1/2,-z+1/2"; "symmetry: y,x,-z"; "symmetry: -y,-x,-z";
  ""; "95 P4(3)22         Tetragonal"; "choice: 1"; "centr: false"; "pcentr: 0, 0, 0"; "symmetry: x,y,z";
  "symmetry: -x,-y,z+1/2"; "symmetry: -y,x,z+3/4"; "symmetry: y,-x,z+1/4"; "symmetry: -x,y,-z"; "symmetry: x,-y,-z+1/2"; "symmetry: y,x,-z+1/4";
  "symmetry: -y,-x,-z+3/4"; ""; "96 P4(3)2(1)2      Tetragonal"; "choice: 1"; "centr: false"; "pcentr: 0, 0, 0";
  "symmetry: x,y,z"; "symmetry: -x,-y,z+1/2"; "symmetry: -y+1/2,x+1/2,z+3/4"; "symmetry: y+1/2,-x+1/2,z+1/4"; "symmetry: -x+1/2,y+1/2,-z+3/4"; "symmetry: x+1/2,-y+1/2,-z+1/4";
  "symmetry: y,x,-z"; "symmetry: -y,-x,-z+1/2"; ""; "97 I422            Tetragonal"; "choice: 1"; "centr: false";
  "pcentr: 0, 0, 0"; "symmetry: x,y,z"; "symmetry: -x,-y,z"; "symmetry: -y,x,z"; "symmetry: y,-x,z"; "symmetry: -x,y,-z";
  "symmetry: x,-y,-z"; "symmetry: y,x,-z"; "symmetry: -y,-x,-z"; ""; "98 I4(1)22         Tetragonal"; "choice: 1";
  "centr: false"; "pcentr: 0, 0, 0"; "symmetry: x,y,z"; "symmetry: -x+1/2,-y+1/2,z+1/2"; "symmetry: -y,x+1/2,z+1/4"; "symmetry: y+1/2,-x,z+3/4";
  "symmetry: -x+1/2,y,-z+3/4"; "symmetry: x,-y+1/2,-z+1/4"; "symmetry: y+1/2,x+1/2,-z+1/2"; "symmetry: -y,-x,-z"; ""; "99 P4mm            Tetragonal";
  "choice: 1"; "centr: false"; "pcentr: 0, 0, 0"; "symmetry: x,y,z"; "symmetry: -x,-y,z"; "symmetry: -y,x,z";
  "symmetry: y,-x,z"; "symmetry: x,-y,z"; "symmetry: -x,y,z"; "symmetry: -y,-x,z"; "symmetry: y,x,z"; "";
  "100 P4bm           Tetragonal"; "choice: 1"; "centr: false"; "pcentr: 0, 0, 0"; "symmetry: x,y,z"; "symmetry: -x,-y,z";
  "symmetry: -y,x,z"; "symmetry: y,-x,z"; "symmetry: x+1/2,-y+1/2,z"; "symmetry: -x+1/2,y+1/2,z"; "symmetry: -y+1/2,-x+1/2,z"; "symmetry: y+1/2,x+1/2,z";
  ""; "101 P4(2)cm        Tetragonal"; "choice: 1"; "centr: false"; "pcentr: 0, 0, 0"; "symmetry: x,y,z";
  "symmetry: -x,-y,z"; "symmetry: -y,x,z+1/2"; "symmetry: y,-x,z+1/2"; "symmetry: x,-y,z+1/2"; "symmetry: -x,y,z+1/2"; "symmetry: -y,-x,z";
  "symmetry: y,x,z"; ""; "102 P4(2)nm        Tetragonal"; "choice: 1"; "centr: false"; "pcentr: 0, 0, 0";
  "symmetry: x,y,z"; "symmetry: -x,-y,z"; "symmetry: -y+1/2,x+1/2,z+1/2"; "symmetry: y+1/2,-x+1/2,z+1/2"; "symmetry: x+1/2,-y+1/2,z+1/2"; "symmetry: -x+1/2,y+1/2,z+1/2";
  "symmetry: -y,-x,z"; "symmetry: y,x,z"; ""; "103 P4cc           Tetragonal"; "choice: 1"; "centr: false";
  "pcentr: 0, 0, 0"; "symmetry: x,y,z"; "symmetry: -x,-y,z"; "symmetry: -y,x,z"; "symmetry: y,-x,z"; "symmetry: x,-y,z+1/2";
  "symmetry: -x,y,z+1/2"; "symmetry: -y,-x,z+1/2"; "symmetry: y,x,z+1/2"; ""; "104 P4nc           Tetragonal"; "choice: 1";
  "centr: false"; "pcentr: 0, 0, 0"; "symmetry: x,y,z"; "symmetry: -x,-y,z"; "symmetry: -y,x,z"; "symmetry: y,-x,z";
  "symmetry: x+1/2,-y+1/2,z+1/2"; "symmetry: -x+1/2,y+1/2,z+1/2"; "symmetry: -y+1/2,-x+1/2,z+1/2"; "symmetry: y+1/2,x+1/2,z+1/2"; ""; "105 P4(2)mc        Tetragonal";
  "choice: 1"; "centr: false"; "pcentr: 0, 0, 0"; "symmetry: x,y,z"; "symmetry: -x,-y,z"; "symmetry: -y,x,z+1/2";
  "symmetry: y,-x,z+1/2"; "symmetry: x,-y,z"; "symmetry: -x,y,z"; "symmetry: -y,-x,z+1/2"; "symmetry: y,x,z+1/2"; "";
  "106 P4(2)bc        Tetragonal"; "choice: 1"; "centr: false"; "pcentr: 0, 0, 0"; "symmetry: x,y,z"; "symmetry: -x,-y,z";
  "symmetry: -y,x,z+1/2"; "symmetry: y,-x,z+1/2"; "symmetry: x+1/2,-y+1/2,z"; "symmetry: -x+1/2,y+1/2,z"; "symmetry: -y+1/2,-x+1/2,z+1/2"; "symmetry: y+1/2,x+1/2,z+1/2";
  ""; "107 I4mm           Tetragonal"; "choice: 1"; "centr: false"; "pcentr: 0, 0, 0"; "symmetry: x,y,z";
  "symmetry: -x,-y,z"; "symmetry: -y,x,z"; "symmetry: y,-x,z"; "symmetry: x,-y,z"; "symmetry: -x,y,z"; "symmetry: -y,-x,z";
  "symmetry: y,x,z"; ""; "108 I4cm           Tetragonal"; "choice: 1"; "centr: false"; "pcentr: 0, 0, 0";
  "symmetry: x,y,z"; "symmetry: -x,-y,z"; "symmetry: -y,x,z"; "symmetry: y,-x,z"; "symmetry: x,-y,z+1/2"; "symmetry: -x,y,z+1/2";
  "symmetry: -y,-x,z+1/2"; "symmetry: y,x,z+1/2"; ""; "109 I4(1)md        Tetragonal"; "choice: 1"; "centr: false";
  "pcentr: 0, 0, 0"; "symmetry: x,y,z"; "symmetry: -x+1/2,-y+1/2,z+1/2"; "symmetry: -y,x+1/2,z+1/4"; "symmetry: y+1/2,-x,z+3/4"; "symmetry: x,-y,z";
  "symmetry: -x+1/2,y+1/2,z+1/2"; "symmetry: -y,-x+1/2,z+1/4"; "symmetry: y+1/2,x,z+3/4"; ""; "110 I4(1)cd        Tetragonal"; "choice: 1";
  "centr: false"; "pcentr: 0, 0, 0"; "symmetry: x,y,z"; "symmetry: -x+1/2,-y+1/2,z+1/2"; "symmetry: -y,x+1/2,z+1/4"; "symmetry: y+1/2,-x,z+3/4";
  "symmetry: x,-y,z+1/2"; "symmetry: -x+1/2,y+1/2,z"; "symmetry: -y,-x+1/2,z+3/4"; "symmetry: y+1/2,x,z+1/4"; ""; "111 P-42m          Tetragonal";
  "choice: 1"; "centr: false"; "pcentr: 0, 0, 0"; "symmetry: x,y,z"; "symmetry: -x,-y,z"; "symmetry: y,-x,-z";
  "symmetry: -y,x,-z"; "symmetry: -x,y,-z"; "symmetry: x,-y,-z"; "symmetry: -y,-x,z"; "symmetry: y,x,z"; "";
  "112 P-42c          Tetragonal"; "choice: 1"; "centr: false"; "pcentr: 0, 0, 0"; "symmetry: x,y,z"; "symmetry: -x,-y,z";
  "symmetry: y,-x,-z"; "symmetry: -y,x,-z"; "symmetry: -x,y,-z+1/2"; "symmetry: x,-y,-z+1/2"; "symmetry: -y,-x,z+1/2"; "symmetry: y,x,z+1/2";
  ""; "113 P-42(1)m       Tetragonal"; "choice: 1"; "centr: false"; "pcentr: 0, 0, 0"; "symmetry: x,y,z";
  "symmetry: -x,-y,z"; "symmetry: y,-x,-z"; "symmetry: -y,x,-z"; "symmetry: -x+1/2,y+1/2,-z"; "symmetry: x+1/2,-y+1/2,-z"; "symmetry: -y+1/2,-x+1/2,z";
  "symmetry: y+1/2,x+1/2,z"; ""; "114 P-42(1)c       Tetragonal"; "choice: 1"; "centr: false"; "pcentr: 0, 0, 0";
  "symmetry: x,y,z"; "symmetry: -x,-y,z"; "symmetry: y,-x,-z"; "symmetry: -y,x,-z"; "symmetry: -x+1/2,y+1/2,-z+1/2"; "symmetry: x+1/2,-y+1/2,-z+1/2";
  "symmetry: -y+1/2,-x+1/2,z+1/2"; "symmetry: y+1/2,x+1/2,z+1/2"; ""; "115 P-4m2          Tetragonal"; "choice: 1"; "centr: false";
  "pcentr: 0, 0, 0"; "symmetry: x,y,z"; "symmetry: -x,-y,z"; "symmetry: y,-x,-z"; "symmetry: -y,x,-z"; "symmetry: x,-y,z";
  "symmetry: -x,y,z"; "symmetry: y,x,-z"; "symmetry: -y,-x,-z"; ""; "116 P-4c2          Tetragonal"; "choice: 1";
  "centr: false"; "pcentr: 0, 0, 0"; "symmetry: x,y,z"; "symmetry: -x,-y,z"; "symmetry: y,-x,-z"; "symmetry: -y,x,-z";
  "symmetry: x,-y,z+1/2"; "symmetry: -x,y,z+1/2"; "symmetry: y,x,-z+1/2"; "symmetry: -y,-x,-z+1/2"; ""; "117 P-4b2          Tetragonal";
  "choice: 1"; "centr: false"; "pcentr: 0, 0, 0"; "symmetry: x,y,z"; "symmetry: -x,-y,z"; "symmetry: y,-x,-z";
  "symmetry: -y,x,-z"; "symmetry: x+1/2,-y+1/2,z"; "symmetry: -x+1/2,y+1/2,z"; "symmetry: y+1/2,x+1/2,-z"; "symmetry: -y+1/2,-x+1/2,-z"; "";
  "118 P-4n2          Tetragonal"; "choice: 1"; "centr: false"; "pcentr: 0, 0, 0"; "symmetry: x,y,z"; "symmetry: -x,-y,z";
  "symmetry: y,-x,-z"; "symmetry: -y,x,-z"; "symmetry: x+1/2,-y+1/2,z+1/2"; "symmetry: -x+1/2,y+1/2,z+1/2"; "symmetry: y+1/2,x+1/2,-z+1/2"; "symmetry: -y+1/2,-x+1/2,-z+1/2";
  ""; "119 I-4m2          Tetragonal"; "choice: 1"; "centr: false"; "pcentr: 0, 0, 0"; "symmetry: x,y,z";
  "symmetry: -x,-y,z"; "symmetry: y,-x,-z"; "symmetry: -y,x,-z"; "symmetry: x,-y,z"; "symmetry: -x,y,z"; "symmetry: y,x,-z";
  "symmetry: -y,-x,-z"; ""; "120 I-4c2          Tetragonal"; "choice: 1"; "centr: false"; "pcentr: 0, 0, 0";
  "symmetry: x,y,z"; "symmetry: -x,-y,z"; "symmetry: y,-x,-z"; "symmetry: -y,x,-z"; "symmetry: x,-y,z+1/2"; "symmetry: -x,y,z+1/2";
  "symmetry: y,x,-z+1/2"; "symmetry: -y,-x,-z+1/2"; ""; "121 I-42m          Tetragonal"; "choice: 1"; "centr: false";
  "pcentr: 0, 0, 0"; "symmetry: x,y,z"; "symmetry: -x,-y,z"; "symmetry: y,-x,-z"; "symmetry: -y,x,-z"; "symmetry: -x,y,-z";
  "symmetry: x,-y,-z"; "symmetry: -y,-x,z"; "symmetry: y,x,z"; ""; "122 I-42d          Tetragonal"; "choice: 1";
  "centr: false"; "pcentr: 0, 0, 0"; "symmetry: x,y,z"; "symmetry: -x,-y,z"; "symmetry: y,-x,-z"; "symmetry: -y,x,-z";
  "symmetry: -x+1/2,y,-z+3/4"; "symmetry: x+1/2,-y,-z+3/4"; "symmetry: -y+1/2,-x,z+3/4"; "symmetry: y+1/2,x,z+3/4"; ""; "123 P4/mmm         Tetragonal";
  "choice: 1"; "centr: true"; "pcentr: 0, 0, 0"; "symmetry: x,y,z"; "symmetry: -x,-y,z"; "symmetry: -y,x,z";
  "symmetry: y,-x,z"; "symmetry: -x,y,-z"; "symmetry: x,-y,-z"; "symmetry: y,x,-z"; "symmetry: -y,-x,-z"; "";
  "124 P4/mcc         Tetragonal"; "choice: 1"; "centr: true"; "pcentr: 0, 0, 0"; "symmetry: x,y,z"; "symmetry: -x,-y,z";
  "symmetry: -y,x,z"; "symmetry: y,-x,z"; "symmetry: -x,y,-z+1/2"; "symmetry: x,-y,-z+1/2"; "symmetry: y,x,-z+1/2"; "symmetry: -y,-x,-z+1/2";
  ""; "125 P4/nbm         Tetragonal"; "choice: 1"; "centr: true"; "pcentr: -0.25, -0.25, 0"; "symmetry: x,y,z";
  "symmetry: -x,-y,z"; "symmetry: -y,x,z"; "symmetry: y,-x,z"; "symmetry: -x,y,-z"; "symmetry: x,-y,-z"; "symmetry: y,x,-z";
  "symmetry: -y,-x,-z"; ""; "125 P4/nbm         Tetragonal"; "choice: 2"; "centr: true"; "pcentr: 0, 0, 0";
  "symmetry: x,y,z"; "symmetry: -x+1/2,-y+1/2,z"; "symmetry: -y+1/2,x,z"; "symmetry: y,-x+1/2,z"; "symmetry: -x+1/2,y,-z"; "symmetry: x,-y+1/2,-z";
  "symmetry: y,x,-z"; "symmetry: -y+1/2,-x+1/2,-z"; ""; "126 P4/nnc         Tetragonal"; "choice: 1"; "centr: true";
  "pcentr: -0.25, -0.25, -0.25"; "symmetry: x,y,z"; "symmetry: -x,-y,z"; "symmetry: -y,x,z"; "symmetry: y,-x,z"; "symmetry: -x,y,-z";
  "symmetry: x,-y,-z"; "symmetry: y,x,-z"; "symmetry: -y,-x,-z"; ""; "126 P4/nnc         Tetragonal"; "choice: 2";
  "centr: true"; "pcentr: 0, 0, 0"; "symmetry: x,y,z"; "symmetry: -x+1/2,-y+1/2,z"; "symmetry: -y+1/2,x,z"; "symmetry: y,-x+1/2,z";
  "symmetry: -x+1/2,y,-z+1/2"; "symmetry: x,-y+1/2,-z+1/2"; "symmetry: y,x,-z+1/2"; "symmetry: -y+1/2,-x+1/2,-z+1/2"; ""; "127 P4/mbm         Tetragonal";
  "choice: 1"; "centr: true"; "pcentr: 0, 0, 0"; "symmetry: x,y,z"; "symmetry: -x,-y,z"; "symmetry: -y,x,z";
  "symmetry: y,-x,z"; "symmetry: -x+1/2,y+1/2,-z"; "symmetry: x+1/2,-y+1/2,-z"; "symmetry: y+1/2,x+1/2,-z"; "symmetry: -y+1/2,-x+1/2,-z"; "";
  "128 P4/mnc         Tetragonal"; "choice: 1"; "centr: true"; "pcentr: 0, 0, 0"; "symmetry: x,y,z"; "symmetry: -x,-y,z";
  "symmetry: -y,x,z"; "symmetry: y,-x,z"; "symmetry: -x+1/2,y+1/2,-z+1/2"; "symmetry: x+1/2,-y+1/2,-z+1/2"; "symmetry: y+1/2,x+1/2,-z+1/2"; "symmetry: -y+1/2,-x+1/2,-z+1/2";
  ""; "129 P4/nmm         Tetragonal"; "choice: 1"; "centr: true"; "pcentr: -0.25, 0.25, 0"; "symmetry: x,y,z";
  "symmetry: -x,-y,z"; "symmetry: y,x,-z"; "symmetry: -y,-x,-z"; "symmetry: y,-x,-z"; "symmetry: -y,x,-z"; "symmetry: x,-y,z";
  "symmetry: -x,y,z"; ""; "129 P4/nmm         Tetragonal"; "choice: 2"; "centr: true"; "pcentr: 0, 0, 0";
  "symmetry: x,y,z"; "symmetry: -x+1/2,-y+1/2,z"; "symmetry: -y+1/2,x,z"; "symmetry: y,-x+1/2,z"; "symmetry: -x,y+1/2,-z"; "symmetry: x+1/2,-y,-z";
  "symmetry: y+1/2,x+1/2,-z"; "symmetry: -y,-x,-z"; ""; "130 P4/ncc         Tetragonal"; "choice: 1"; "centr: true";
  "pcentr: -0.25, 0.25, 0"; "symmetry: x,y,z"; "symmetry: -x,-y,z"; "symmetry: -y+1/2,x+1/2,z"; "symmetry: y+1/2,-x+1/2,z"; "symmetry: -x+1/2,y+1/2,-z+1/2";
  "symmetry: x+1/2,-y+1/2,-z+1/2"; "symmetry: y,x,-z+1/2"; "symmetry: -y,-x,-z+1/2"; ""; "130 P4/ncc         Tetragonal"; "choice: 2";
  "centr: true"; "pcentr: 0, 0, 0"; "symmetry: x,y,z"; "symmetry: -x+1/2,-y+1/2,z"; "symmetry: -y+1/2,x,z"; "symmetry: y,-x+1/2,z";
  "symmetry: -x,y+1/2,-z+1/2"; "symmetry: x+1/2,-y,-z+1/2"; "symmetry: y+1/2,x+1/2,-z+1/2"; "symmetry: -y,-x,-z+1/2"; ""; "131 P4(2)/mmc      Tetragonal";
  "choice: 1"; "centr: true"; "pcentr: 0, 0, 0"; "symmetry: x,y,z"; "symmetry: -x,-y,z"; "symmetry: -y,x,z+1/2";
  "symmetry: y,-x,z+1/2"; "symmetry: -x,y,-z"; "symmetry: x,-y,-z"; "symmetry: y,x,-z+1/2"; "symmetry: -y,-x,-z+1/2"; "";
  "132 P4(2)/mcm      Tetragonal"; "choice: 1"; "centr: true"; "pcentr: 0, 0, 0"; "symmetry: x,y,z"; "symmetry: -x,-y,z";
  "symmetry: -y,x,z+1/2"; "symmetry: y,-x,z+1/2"; "symmetry: -x,y,-z+1/2"; "symmetry: x,-y,-z+1/2"; "symmetry: y,x,-z"; "symmetry: -y,-x,-z";
  ""; "133 P4(2)/nbc      Tetragonal"; "choice: 1"; "centr: true"; "pcentr: -0.25, 0.25, -0.25"; "symmetry: x,y,z";
  "symmetry: -x,-y,z"; "symmetry: -y+1/2,x+1/2,z+1/2"; "symmetry: y+1/2,-x+1/2,z+1/2"; "symmetry: -x,y,-z+1/2"; "symmetry: x,-y,-z+1/2"; "symmetry: y+1/2,x+1/2,-z";
  "symmetry: -y+1/2,-x+1/2,-z"; ""; "133 P4(2)/nbc      Tetragonal"; "choice: 2"; "centr: true"; "pcentr: 0, 0, 0";
  "symmetry: x,y,z"; "symmetry: -x+1/2,-y+1/2,z"; "symmetry: -y+1/2,x,z+1/2"; "symmetry: y,-x+1/2,z+1/2"; "symmetry: -x+1/2,y,-z"; "symmetry: x,-y+1/2,-z";
  "symmetry: y,x,-z+1/2"; "symmetry: -y+1/2,-x+1/2,-z+1/2"; ""; "134 P4(2)/nnm      Tetragonal"; "choice: 1"; "centr: true";
  "pcentr: -0.25, 0.25, -0.25"; "symmetry: x,y,z"; "symmetry: -x,-y,z"; "symmetry: -y+1/2,x+1/2,z+1/2"; "symmetry: y+1/2,-x+1/2,z+1/2"; "symmetry: -x,y,-z";
  "symmetry: x,-y,-z"; "symmetry: y+1/2,x+1/2,-z+1/2"; "symmetry: -y+1/2,-x+1/2,-z+1/2"; ""; "134 P4(2)/nnm      Tetragonal"; "choice: 2";
  "centr: true"; "pcentr: 0, 0, 0"; "symmetry: x,y,z"; "symmetry: -x+1/2,-y+1/2,z"; "symmetry: -y+1/2,x,z+1/2"; "symmetry: y,-x+1/2,z+1/2";
  "symmetry: -x+1/2,y,-z+1/2"; "symmetry: x,-y+1/2,-z+1/2"; "symmetry: y,x,-z"; "symmetry: -y+1/2,-x+1/2,-z"; ""; "135 P4(2)/mbc      Tetragonal";
  "choice: 1"; "centr: true"; "pcentr: 0, 0, 0"; "symmetry: x,y,z"; "symmetry: -x,-y,z"; "symmetry: -y,x,z+1/2";
  "symmetry: y,-x,z+1/2"; "symmetry: -x+1/2,y+1/2,-z"; "symmetry: x+1/2,-y+1/2,-z"; "symmetry: y+1/2,x+1/2,-z+1/2"; "symmetry: -y+1/2,-x+1/2,-z+1/2"; "";
  "136 P4(2)/mnm      Tetragonal"; "choice: 1"; "centr: true"; "pcentr: 0, 0, 0"; "symmetry: x,y,z"; "symmetry: -x,-y,z";
  "symmetry: -y+1/2,x+1/2,z+1/2"; "symmetry: y+1/2,-x+1/2,z+1/2"; "symmetry: -x+1/2,y+1/2,-z+1/2"; "symmetry: x+1/2,-y+1/2,-z+1/2"; "symmetry: y,x,-z"; "symmetry: -y,-x,-z";
  ""; "137 P4(2)/nmc      Tetragonal"; "choice: 1"; "centr: true"; "pcentr: -0.25, 0.25, -0.25"; "symmetry: x,y,z";
  "symmetry: -x,-y,z"; "symmetry: -y+1/2,x+1/2,z+1/2"; "symmetry: y+1/2,-x+1/2,z+1/2"; "symmetry: -x+1/2,y+1/2,-z+1/2"; "symmetry: x+1/2,-y+1/2,-z+1/2"; "symmetry: y,x,-z";
  "symmetry: -y,-x,-z"; ""; "137 P4(2)/nmc      Tetragonal"; "choice: 2"; "centr: true"; "pcentr: 0, 0, 0";
  "symmetry: x,y,z"; "symmetry: -x+1/2,-y+1/2,z"; "symmetry: -y+1/2,x,z+1/2"; "symmetry: y,-x+1/2,z+1/2"; "symmetry: -x,y+1/2,-z"; "symmetry: x+1/2,-y,-z";
  "symmetry: y+1/2,x+1/2,-z+1/2"; "symmetry: -y,-x,-z+1/2"; ""; "138 P4(2)/ncm      Tetragonal"; "choice: 1"; "centr: true";
  "pcentr: -0.25, 0.25, -0.25"; "symmetry: x,y,z"; "symmetry: -x,-y,z"; "symmetry: -y+1/2,x+1/2,z+1/2"; "symmetry: y+1/2,-x+1/2,z+1/2"; "symmetry: -x+1/2,y+1/2,-z";
  "symmetry: x+1/2,-y+1/2,-z"; "symmetry: y,x,-z+1/2"; "symmetry: -y,-x,-z+1/2"; ""; "138 P4(2)/ncm      Tetragonal"; "choice: 2";
  "centr: true"; "pcentr: 0, 0, 0"; "symmetry: x,y,z"; "symmetry: -x+1/2,-y+1/2,z"; "symmetry: -y+1/2,x,z+1/2"; "symmetry: y,-x+1/2,z+1/2";
  "symmetry: -x,y+1/2,-z+1/2"; "symmetry: x+1/2,-y,-z+1/2"; "symmetry: y+1/2,x+1/2,-z"; "symmetry: -y,-x,-z"; ""; "139 I4/mmm         Tetragonal";
  "choice: 1"; "centr: true"; "pcentr: 0, 0, 0"; "symmetry: x,y,z"; "symmetry: -x,-y,z"; "symmetry: -y,x,z";
  "symmetry: y,-x,z"; "symmetry: -x,y,-z"; "symmetry: x,-y,-z"; "symmetry: y,x,-z"; "symmetry: -y,-x,-z"; "";
  "140 I4/mcm         Tetragonal"; "choice: 1"; "centr: true"; "pcentr: 0, 0, 0"; "symmetry: x,y,z"; "symmetry: -x,-y,z";
  "symmetry: -y,x,z"; "symmetry: y,-x,z"; "symmetry: -x,y,-z+1/2"; "symmetry: x,-y,-z+1/2"; "symmetry: y,x,-z+1/2"; "symmetry: -y,-x,-z+1/2";
  ""; "141 I4(1)/amd      Tetragonal"; "choice: 1"; "centr: true"; "pcentr: 0, 0.25, -0.125"; "symmetry: x,y,z";
  "symmetry: -x+1/2,-y+1/2,z+1/2"; "symmetry: -y,x+1/2,z+1/4"; "symmetry: y+1/2,-x,z+3/4"; "symmetry: -x+1/2,y,-z+3/4"; "symmetry: x,-y+1/2,-z+1/4"; "symmetry: y+1/2,x+1/2,-z+1/2";
  "symmetry: -y,-x,-z"; ""; "141 I4(1)/amd      Tetragonal"; "choice: 2"; "centr: true"; "pcentr: 0, 0, 0";
  "symmetry: x,y,z"; "symmetry: -x+1/2,-y,z+1/2"; "symmetry: -y+1/4,x+3/4,z+1/4"; "symmetry: y+1/4,-x+1/4,z+3/4"; "symmetry: -x+1/2,y,-z+1/2"; "symmetry: x,-y,-z";
  "symmetry: y+1/4,x+3/4,-z+1/4"; "symmetry: -y+1/4,-x+1/4,-z+3/4"; ""; "142 I4(1)/acd      Tetragonal"; "choice: 1"; "centr: true";
  "pcentr: 0, 0.25, -0.125"; "symmetry: x,y,z"; "symmetry: -x+1/2,-y+1/2,z+1/2"; "symmetry: -y,x+1/2,z+1/4"; "symmetry: y+1/2,-x,z+3/4"; "symmetry: -x+1/2,y,-z+1/4";
  "symmetry: x,-y+1/2,-z+3/4"; "symmetry: y+1/2,x+1/2,-z"; "symmetry: -y,-x,-z+1/2"; ""; "142 I4(1)/acd      Tetragonal"; "choice: 2";
  "centr: true"; "pcentr: 0, 0, 0"; "symmetry: x,y,z"; "symmetry: -x+1/2,-y,z+1/2"; "symmetry: -y+1/4,x+3/4,z+1/4"; "symmetry: y+1/4,-x+1/4,z+3/4";
  "symmetry: -x+1/2,y,-z"; "symmetry: x,-y,-z+1/2"; "symmetry: y+1/4,x+3/4,-z+3/4"; "symmetry: -y+1/4,-x+1/4,-z+1/4"; ""; "143 P3             Trigonal";
  "choice: 1"; "centr: false"; "pcentr: 0, 0, 0"; "symmetry: x,y,z"; "symmetry: -y,x-y,z"; "symmetry: -x+y,-x,z";
  ""; "144 P3(1)          Trigonal"; "choice: 1"; "centr: false"; "pcentr: 0, 0, 0"; "symmetry: x,y,z";
  "symmetry: -y,x-y,z+2/3"; "symmetry: -x+y,-x,z+1/3"; ""; "145 P3(2)          Trigonal"; "choice: 1"; "centr: false";
  "pcentr: 0, 0, 0"; "symmetry: x,y,z"; "symmetry: -y,x-y,z+2/3"; "symmetry: -x+y,-x,z+1/3"; ""; "146 R3             Hexagonal";
  "choice: 1"; "centr: false"; "pcentr: 0, 0, 0"; "symmetry: x,y,z"; "symmetry: -y,x-y,z"; "symmetry: -x+y,-x,z";
  ""; "146 R3             Rhombohedral"; "choice: 2"; "centr: false"; "pcentr: 0, 0, 0"; "symmetry: x,y,z";
  "symmetry: z,x,y"; "symmetry: y,z,x"; ""; "147 P-3            Trigonal"; "choice: 1"; "centr: true";
  "pcentr: 0, 0, 0"; "symmetry: x,y,z"; "symmetry: -y,x-y,z"; "symmetry: -x+y,-x,z"; ""; "148 R-3            Hexagonal";
  "choice: 1"; "centr: true"; "pcentr: 0, 0, 0"; "symmetry: x,y,z"; "symmetry: -y,x-y,z"; "symmetry: -x+y,-x,z";
  ""; "148 R-3            Rhombohedral"; "choice: 2"; "centr: true"; "pcentr: 0, 0, 0"; "symmetry: x,y,z";
  "symmetry: z,x,y"; "symmetry: y,z,x"; ""; "149 P312           Trigonal"; "choice: 1"; "centr: false";
  "pcentr: 0, 0, 0"; "symmetry: x,y,z"; "symmetry: -y,x-y,z"; "symmetry: -x+y,-x,z"; "symmetry: -y,-x,-z"; "symmetry: -x+y,y,-z";
  "symmetry: x,x-y,-z"; ""; "150 P321           Trigonal"; "choice: 1"; "centr: false"; "pcentr: 0, 0, 0";
  "symmetry: x,y,z"; "symmetry: -y,x-y,z"; "symmetry: -x+y,-x,z"; "symmetry: y,x,-z"; "symmetry: x-y,-y,-z"; "symmetry: -x,-x+y,-z";
  ""; "151 P3(1)12        Trigonal"; "choice: 1"; "centr: false"; "pcentr: 0, 0, 0"; "symmetry: x,y,z";
  "symmetry: -y,x-y,z+1/3"; "symmetry: -x+y,-x,z+2/3"; "symmetry: -y,-x,-z+2/3"; "symmetry: -x+y,y,-z+1/3"; "symmetry: x,x-y,-z"; "";
  "152 P3(1)21        Trigonal"; "choice: 1"; "centr: false"; "pcentr: 0, 0, 0"; "symmetry: x,y,z"; "symmetry: -y,x-y,z+1/3";
  "symmetry: -x+y,-x,z+2/3"; "symmetry: y,x,-z"; "symmetry: x-y,-y,-z+2/3"; "symmetry: -x,-x+y,-z+1/3"; ""; "153 P3(2)12        Trigonal";
  "choice: 1"; "centr: false"; "pcentr: 0, 0, 0"; "symmetry: x,y,z"; "symmetry: -y,x-y,z+2/3"; "symmetry: -x+y,-x,z+1/3";
  "symmetry: -y,-x,-z+1/3"; "symmetry: -x+y,y,-z+2/3"; "symmetry: x,x-y,-z"; ""; "154 P3(2)21        Trigonal"; "choice: 1";
  "centr: false"; "pcentr: 0, 0, 0"; "symmetry: x,y,z"; "symmetry: -y,x-y,z+2/3"; "symmetry: -x+y,-x,z+1/3"; "symmetry: y,x,-z";
  "symmetry: x-y,-y,-z+1/3"; "symmetry: -x,-x+y,-z+2/3"; ""; "155 R32            Hexagonal"; "choice: 1"; "centr: false";
  "pcentr: 0, 0, 0"; "symmetry: x,y,z"; "symmetry: -y,x-y,z"; "symmetry: -x+y,-x,z"; "symmetry: y,x,-z"; "symmetry: x-y,-y,-z";
  "symmetry: -x,-x+y,-z"; ""; "155 R32            Rhombohedral"; "choice: 2"; "centr: false"; "pcentr: 0, 0, 0";
  "symmetry: x,y,z"; "symmetry: z,x,y"; "symmetry: y,z,x"; "symmetry: -y,-x,-z"; "symmetry: -x,-z,-y"; "symmetry: -z,-y,-x";
  ""; "156 P3m1           Trigonal"; "choice: 1"; "centr: false"; "pcentr: 0, 0, 0"; "symmetry: x,y,z";
  "symmetry: -y,x-y,z"; "symmetry: -x+y,-x,z"; "symmetry: -y,-x,z"; "symmetry: -x+y,y,z"; "symmetry: x,x-y,z"; "";
  "157 P31m           Trigonal"; "choice: 1"; "centr: false"; "pcentr: 0, 0, 0"; "symmetry: x,y,z"; "symmetry: -y,x-y,z";
  "symmetry: -x+y,-x,z"; "symmetry: y,x,z"; "symmetry: x-y,-y,z"; "symmetry: -x,-x+y,z"; ""; "158 P3c1           Trigonal";
  "choice: 1"; "centr: false"; "pcentr: 0, 0, 0"; "symmetry: x,y,z"; "symmetry: -y,x-y,z"; "symmetry: -x+y,-x,z";
  "symmetry: -y,-x,z+1/2"; "symmetry: -x+y,y,z+1/2"; "symmetry: x,x-y,z+1/2"; ""; "159 P31c           Trigonal"; "choice: 1";
  "centr: false"; "pcentr: 0, 0, 0"; "symmetry: x,y,z"; "symmetry: -y,x-y,z"; "symmetry: -x+y,-x,z"; "symmetry: y,x,z+1/2";
  "symmetry: x-y,-y,z+1/2"; "symmetry: -x,-x+y,z+1/2"; ""; "160 R3m            Hexagonal"; "choice: 1"; "centr: false";
  "pcentr: 0, 0, 0"; "symmetry: x,y,z"; "symmetry: -y,x-y,z"; "symmetry: -x+y,-x,z"; "symmetry: -y,-x,z"; "symmetry: -x+y,y,z";
  "symmetry: x,x-y,z"; ""; "160 R3m            Rhombohedral"; "choice: 2"; "centr: false"; "pcentr: 0, 0, 0";
  "symmetry: x,y,z"; "symmetry: z,x,y"; "symmetry: y,z,x"; "symmetry: y,x,z"; "symmetry: x,z,y"; "symmetry: z,y,x";
  ""; "161 R3c            Hexagonal"; "choice: 1"; "centr: false"; "pcentr: 0, 0, 0"; "symmetry: x,y,z";
  "symmetry: -y,x-y,z"; "symmetry: -x+y,-x,z"; "symmetry: -y,-x,z+1/2"; "symmetry: -x+y,y,z+1/2"; "symmetry: x,x-y,z+1/2"; "";
  "161 R3c            Rhombohedral"; "choice: 2"; "centr: false"; "pcentr: 0, 0, 0"; "symmetry: x,y,z"; "symmetry: z,x,y";
  "symmetry: y,z,x"; "symmetry: y+1/2,x+1/2,z+1/2"; "symmetry: x+1/2,z+1/2,y+1/2"; "symmetry: z+1/2,y+1/2,x+1/2"; ""; "162 P-31m          Trigonal";
  "choice: 1"; "centr: true"; "pcentr: 0, 0, 0"; "symmetry: x,y,z"; "symmetry: -y,x-y,z"; "symmetry: -x+y,-x,z";
  "symmetry: -y,-x,-z"; "symmetry: -x+y,y,-z"; "symmetry: x,x-y,-z"; ""; "163 P-31c          Trigonal"; "choice: 1";
  "centr: true"; "pcentr: 0, 0, 0"; "symmetry: x,y,z"; "symmetry: -y,x-y,z"; "symmetry: -x+y,-x,z"; "symmetry: -y,-x,-z+1/2";
  "symmetry: -x+y,y,-z+1/2"; "symmetry: x,x-y,-z+1/2"; ""; "164 P-3m1          Trigonal"; "choice: 1"; "centr: true";
  "pcentr: 0, 0, 0"; "symmetry: x,y,z"; "symmetry: -y,x-y,z"; "symmetry: -x+y,-x,z"; "symmetry: y,x,-z"; "symmetry: x-y,-y,-z";
  "symmetry: -x,-x+y,-z"; ""; "165 P-3c1          Trigonal"; "choice: 1"; "centr: true"; "pcentr: 0, 0, 0";
  "symmetry: x,y,z"; "symmetry: -y,x-y,z"; "symmetry: -x+y,-x,z"; "symmetry: y,x,-z+1/2"; "symmetry: x-y,-y,-z+1/2"; "symmetry: -x,-x+y,-z+1/2";
  ""; "166 R-3m           Hexagonal"; "choice: 1"; "centr: true"; "pcentr: 0, 0, 0"; "symmetry: x,y,z";
  "symmetry: -y,x-y,z"; "symmetry: -x+y,-x,z"; "symmetry: y,x,-z"; "symmetry: x-y,-y,-z"; "symmetry: -x,-x+y,-z"; "";
  "166 R-3m           Rhombohedral"; "choice: 2"; "centr: true"; "pcentr: 0, 0, 0"; "symmetry: x,y,z"; "symmetry: z,x,y";
  "symmetry: y,z,x"; "symmetry: -y,-x,-z"; "symmetry: -x,-z,-y"; "symmetry: -z,-y,-x"; ""; "167 R-3c           Hexagonal";
  "choice: 1"; "centr: true"; "pcentr: 0, 0, 0"; "symmetry: x,y,z"; "symmetry: -y,x-y,z"; "symmetry: -x+y,-x,z";
  "symmetry: y,x,-z+1/2"; "symmetry: x-y,-y,-z+1/2"; "symmetry: -x,-x+y,-z+1/2"; ""; "167 R-3c           Rhombohedral"; "choice: 2";
  "centr: true"; "pcentr: 0, 0, 0"; "symmetry: x,y,z"; "symmetry: z,x,y"; "symmetry: y,z,x"; "symmetry: -y+1/2,-x+1/2,-z+1/2";
  "symmetry: -x+1/2,-z+1/2,-y+1/2"; "symmetry: -z+1/2,-y+1/2,-x+1/2"; ""; "168 P6             Hexagonal"; "choice: 1"; "centr: false";
  "pcentr: 0, 0, 0"; "symmetry: x,y,z"; "symmetry: -y,x-y,z"; "symmetry: -x+y,-x,z"; "symmetry: -x,-y,z"; "symmetry: y,-x+y,z";
  "symmetry: x-y,x,z"; ""; "169 P6(1)          Hexagonal"; "choice: 1"; "centr: false"; "pcentr: 0, 0, 0";
  "symmetry: x,y,z"; "symmetry: -y,x-y,z+1/3"; "symmetry: -x+y,-x,z+2/3"; "symmetry: -x,-y,z+1/2"; "symmetry: y,-x+y,z+5/6"; "symmetry: x-y,x,z+1/6";
  ""; "170 P6(5)          Hexagonal"; "choice: 1"; "centr: false"; "pcentr: 0, 0, 0"; "symmetry: x,y,z";
  "symmetry: -y,x-y,z+2/3"; "symmetry: -x+y,-x,z+1/3"; "symmetry: -x,-y,z+1/2"; "symmetry: y,-x+y,z+1/6"; "symmetry: x-y,x,z+5/6"; "";
  "171 P6(2)          Hexagonal"; "choice: 1"; "centr: false"; "pcentr: 0, 0, 0"; "symmetry: x,y,z"; "symmetry: -y,x-y,z+2/3";
  "symmetry: -x+y,-x,z+1/3"; "symmetry: -x,-y,z"; "symmetry: y,-x+y,z+2/3"; "symmetry: x-y,x,z+1/3"; ""; "172 P6(4)          Hexagonal";
  "choice: 1"; "centr: false"; "pcentr: 0, 0, 0"; "symmetry: x,y,z"; "symmetry: -y,x-y,z+1/3"; "symmetry: -x+y,-x,z+2/3";
  "symmetry: -x,-y,z"; "symmetry: y,-x+y,z+1/3"; "symmetry: x-y,x,z+2/3"; ""; "173 P6(3)          Hexagonal"; "choice: 1";
  "centr: false"; "pcentr: 0, 0, 0"; "symmetry: x,y,z"; "symmetry: -y,x-y,z"; "symmetry: -x+y,-x,z"; "symmetry: -x,-y,z+1/2";
  "symmetry: y,-x+y,z+1/2"; "symmetry: x-y,x,z+1/2"; ""; "174 P-6            Hexagonal"; "choice: 1"; "centr: false";
  "pcentr: 0, 0, 0"; "symmetry: x,y,z"; "symmetry: -y,x-y,z"; "symmetry: -x+y,-x,z"; "symmetry: x,y,-z"; "symmetry: -y,x-y,-z";
  "symmetry: -x+y,-x,-z"; ""; "175 P6/m           Hexagonal"; "choice: 1"; "centr: true"; "pcentr: 0, 0, 0";
  "symmetry: x,y,z"; "symmetry: -y,x-y,z"; "symmetry: -x+y,-x,z"; "symmetry: -x,-y,z"; "symmetry: y,-x+y,z"; "symmetry: x-y,x,z";
  ""; "176 P6(3)/m        Hexagonal"; "choice: 1"; "centr: true"; "pcentr: 0, 0, 0"; "symmetry: x,y,z";
  "symmetry: -y,x-y,z"; "symmetry: -x+y,-x,z"; "symmetry: -x,-y,z+1/2"; "symmetry: y,-x+y,z+1/2"; "symmetry: x-y,x,z+1/2"; "";
  "177 P622           Hexagonal"; "choice: 1"; "centr: false"; "pcentr: 0, 0, 0"; "symmetry: x,y,z"; "symmetry: -y,x-y,z";
  "symmetry: -x+y,-x,z"; "symmetry: -x,-y,z"; "symmetry: y,-x+y,z"; "symmetry: x-y,x,z"; "symmetry: y,x,-z"; "symmetry: x-y,-y,-z";
  "symmetry: -x,-x+y,-z"; "symmetry: -y,-x,-z"; "symmetry: -x+y,y,-z"; "symmetry: x,x-y,-z"; ""; "178 P6(1)22        Hexagonal";
  "choice: 1"; "centr: false"; "pcentr: 0, 0, 0"; "symmetry: x,y,z"; "symmetry: -y,x-y,z+1/3"; "symmetry: -x+y,-x,z+2/3";
  "symmetry: -x,-y,z+1/2"; "symmetry: y,-x+y,z+5/6"; "symmetry: x-y,x,z+1/6"; "symmetry: y,x,-z+1/3"; "symmetry: x-y,-y,-z"; "symmetry: -x,-x+y,-z+2/3";
  "symmetry: -y,-x,-z+5/6"; "symmetry: -x+y,y,-z+1/2"; "symmetry: x,x-y,-z+1/6"; ""; "179 P6(5)22        Hexagonal"; "choice: 1";
  "centr: false"; "pcentr: 0, 0, 0"; "symmetry: x,y,z"; "symmetry: -y,x-y,z+2/3"; "symmetry: -x+y,-x,z+1/3"; "symmetry: -x,-y,z+1/2";
  "symmetry: y,-x+y,z+1/6"; "symmetry: x-y,x,z+5/6"; "symmetry: y,x,-z+2/3"; "symmetry: x-y,-y,-z"; "symmetry: -x,-x+y,-z+1/3"; "symmetry: -y,-x,-z+1/6";
  "symmetry: -x+y,y,-z+1/2"; "symmetry: x,x-y,-z+5/6"; ""; "180 P6(2)22        Hexagonal"; "choice: 1"; "centr: false";
  "pcentr: 0, 0, 0"; "symmetry: x,y,z"; "symmetry: -y,x-y,z+2/3"; "symmetry: -x+y,-x,z+1/3"; "symmetry: -x,-y,z"; "symmetry: y,-x+y,z+2/3";
  "symmetry: x-y,x,z+1/3"; "symmetry: y,x,-z+2/3"; "symmetry: x-y,-y,-z"; "symmetry: -x,-x+y,-z+1/3"; "symmetry: -y,-x,-z+2/3"; "symmetry: -x+y,y,-z";
  "symmetry: x,x-y,-z+1/3"; ""; "181 P6(4)22        Hexagonal"; "choice: 1"; "centr: false"; "pcentr: 0, 0, 0";
  "symmetry: x,y,z"; "symmetry: -y,x-y,z+1/3"; "symmetry: -x+y,-x,z+2/3"; "symmetry: -x,-y,z"; "symmetry: y,-x+y,z+1/3"; "symmetry: x-y,x,z+2/3";
  "symmetry: y,x,-z+1/3"; "symmetry: x-y,-y,-z"; "symmetry: -x,-x+y,-z+2/3"; "symmetry: -y,-x,-z+1/3"; "symmetry: -x+y,y,-z"; "symmetry: x,x-y,-z+2/3";
  ""; "182 P6(3)22        Hexagonal"; "choice: 1"; "centr: false"; "pcentr: 0, 0, 0"; "symmetry: x,y,z";
  "symmetry: -y,x-y,z"; "symmetry: -x+y,-x,z"; "symmetry: -x,-y,z+1/2"; "symmetry: y,-x+y,z+1/2"; "symmetry: x-y,x,z+1/2"; "symmetry: y,x,-z";
  "symmetry: x-y,-y,-z"; "symmetry: -x,-x+y,-z"; "symmetry: -y,-x,-z+1/2"; "symmetry: -x+y,y,-z+1/2"; "symmetry: x,x-y,-z+1/2"; "";
  "183 P6mm           Hexagonal"; "choice: 1"; "centr: false"; "pcentr: 0, 0, 0"; "symmetry: x,y,z"; "symmetry: -y,x-y,z";
  "symmetry: -x+y,-x,z"; "symmetry: -x,-y,z"; "symmetry: y,-x+y,z"; "symmetry: x-y,x,z"; "symmetry: -y,-x,z"; "symmetry: -x+y,y,z";
  "symmetry: x,x-y,z"; "symmetry: y,x,z"; "symmetry: x-y,-y,z"; "symmetry: -x,-x+y,z"; ""; "184 P6cc           Hexagonal";
  "choice: 1"; "centr: false"; "pcentr: 0, 0, 0"; "symmetry: x,y,z"; "symmetry: -y,x-y,z"; "symmetry: -x+y,-x,z";
  "symmetry: -x,-y,z"; "symmetry: y,-x+y,z"; "symmetry: x-y,x,z"; "symmetry: -y,-x,z+1/2"; "symmetry: -x+y,y,z+1/2"; "symmetry: x,x-y,z+1/2";
  "symmetry: y,x,z+1/2"; "symmetry: x-y,-y,z+1/2"; "symmetry: -x,-x+y,z+1/2"; ""; "185 P6(3)cm        Hexagonal"; "choice: 1";
  "centr: false"; "pcentr: 0, 0, 0"; "symmetry: x,y,z"; "symmetry: -y,x-y,z"; "symmetry: -x+y,-x,z"; "symmetry: -x,-y,z+1/2";
  "symmetry: y,-x+y,z+1/2"; "symmetry: x-y,x,z+1/2"; "symmetry: -y,-x,z+1/2"; "symmetry: -x+y,y,z+1/2"; "symmetry: x,x-y,z+1/2"; "symmetry: y,x,z";
  "symmetry: x-y,-y,z"; "symmetry: -x,-x+y,z"; ""; "186 P6(3)mc        Hexagonal"; "choice: 1"; "centr: false";
  "pcentr: 0, 0, 0"; "symmetry: x,y,z"; "symmetry: -y,x-y,z"; "symmetry: -x+y,-x,z"; "symmetry: -x,-y,z+1/2"; "symmetry: y,-x+y,z+1/2";
  "symmetry: x-y,x,z+1/2"; "symmetry: -y,-x,z"; "symmetry: -x+y,y,z"; "symmetry: x,x-y,z"; "symmetry: y,x,z+1/2"; "symmetry: x-y,-y,z+1/2";
  "symmetry: -x,-x+y,z+1/2"; ""; "187 P-6m2          Hexagonal"; "choice: 1"; "centr: false"; "pcentr: 0, 0, 0";
  "symmetry: x,y,z"; "symmetry: -y,x-y,z"; "symmetry: -x+y,-x,z"; "symmetry: x,y,-z"; "symmetry: -y,x-y,-z"; "symmetry: -x+y,-x,-z";
  "symmetry: -y,-x,z"; "symmetry: -x+y,y,z"; "symmetry: x,x-y,z"; "symmetry: -y,-x,-z"; "symmetry: -x+y,y,-z"; "symmetry: x,x-y,-z";
  ""; "188 P-6c2          Hexagonal"; "choice: 1"; "centr: false"; "pcentr: 0, 0, 0"; "symmetry: x,y,z";
  "symmetry: -y,x-y,z"; "symmetry: -x+y,-x,z"; "symmetry: x,y,-z+1/2"; "symmetry: -y,x-y,-z+1/2"; "symmetry: -x+y,-x,-z+1/2"; "symmetry: -y,-x,z+1/2";
  "symmetry: -x+y,y,z+1/2"; "symmetry: x,x-y,z+1/2"; "symmetry: -y,-x,-z"; "symmetry: -x+y,y,-z"; "symmetry: x,x-y,-z"; "";
  "189 P-62m          Hexagonal"; "choice: 1"; "centr: false"; "pcentr: 0, 0, 0"; "symmetry: x,y,z"; "symmetry: -y,x-y,z";
  "symmetry: -x+y,-x,z"; "symmetry: x,y,-z"; "symmetry: -y,x-y,-z"; "symmetry: -x+y,-x,-z"; "symmetry: y,x,-z"; "symmetry: x-y,-y,-z";
  "symmetry: -x,-x+y,-z"; "symmetry: y,x,z"; "symmetry: x-y,-y,z"; "symmetry: -x,-x+y,z"; ""; "190 P-62c          Hexagonal";
  "choice: 1"; "centr: false"; "pcentr: 0, 0, 0"; "symmetry: x,y,z"; "symmetry: -y,x-y,z"; "symmetry: -x+y,-x,z";
  "symmetry: x,y,-z+1/2"; "symmetry: -y,x-y,-z+1/2"; "symmetry: -x+y,-x,-z+1/2"; "symmetry: y,x,-z"; "symmetry: x-y,-y,-z"; "symmetry: -x,-x+y,-z";
  "symmetry: y,x,z+1/2"; "symmetry: x-y,-y,z+1/2"; "symmetry: -x,-x+y,z+1/2"; ""; "191 P6/mmm         Hexagonal"; "choice: 1";
  "centr: true"; "pcentr: 0, 0, 0"; "symmetry: x,y,z"; "symmetry: -y,x-y,z"; "symmetry: -x+y,-x,z"; "symmetry: -x,-y,z";
  "symmetry: y,-x+y,z"; "symmetry: x-y,x,z"; "symmetry: y,x,-z"; "symmetry: x-y,-y,-z"; "symmetry: -x,-x+y,-z"; "symmetry: -y,-x,-z";
  "symmetry: -x+y,y,-z"; "symmetry: x,x-y,-z"; ""; "192 P6/mcc         Hexagonal"; "choice: 1"; "centr: true";
  "pcentr: 0, 0, 0"; "symmetry: x,y,z"; "symmetry: -y,x-y,z"; "symmetry: -x+y,-x,z"; "symmetry: -x,-y,z"; "symmetry: y,-x+y,z";
  "symmetry: x-y,x,z"; "symmetry: y,x,-z+1/2"; "symmetry: x-y,-y,-z+1/2"; "symmetry: -x,-x+y,-z+1/2"; "symmetry: -y,-x,-z+1/2"; "symmetry: -x+y,y,-z+1/2";
  "symmetry: x,x-y,-z+1/2"; ""; "193 P6(3)/mcm      Hexagonal"; "choice: 1"; "centr: true"; "pcentr: 0, 0, 0";
  "symmetry: x,y,z"; "symmetry: -y,x-y,z"; "symmetry: -x+y,-x,z"; "symmetry: -x,-y,z+1/2"; "symmetry: y,-x+y,z+1/2"; "symmetry: x-y,x,z+1/2";
  "symmetry: y,x,-z+1/2"; "symmetry: x-y,-y,-z+1/2"; "symmetry: -x,-x+y,-z+1/2"; "symmetry: -y,-x,-z"; "symmetry: -x+y,y,-z"; "symmetry: x,x-y,-z";
  ""; "194 P6(3)/mmc      Hexagonal"; "choice: 1"; "centr: true"; "pcentr: 0, 0, 0"; "symmetry: x,y,z";
  "symmetry: -y,x-y,z"; "symmetry: -x+y,-x,z"; "symmetry: -x,-y,z+1/2"; "symmetry: y,-x+y,z+1/2"; "symmetry: x-y,x,z+1/2"; "symmetry: y,x,-z";
  "symmetry: x-y,-y,-z"; "symmetry: -x,-x+y,-z"; "symmetry: -y,-x,-z+1/2"; "symmetry: -x+y,y,-z+1/2"; "symmetry: x,x-y,-z+1/2"; "";
  "195 P23            Cubic"; "choice: 1"; "centr: false"; "pcentr: 0, 0, 0"; "symmetry: x,y,z"; "symmetry: -x,-y,z";
  "symmetry: -x,y,-z"; "symmetry: x,-y,-z"; "symmetry: z,x,y"; "symmetry: z,-x,-y"; "symmetry: -z,-x,y"; "symmetry: -z,x,-y";
  "symmetry: y,z,x"; "symmetry: -y,z,-x"; "symmetry: y,-z,-x"; "symmetry: -y,-z,x"; ""; "196 F23            Cubic";
  "choice: 1"; "centr: false"; "pcentr: 0, 0, 0"; "symmetry: x,y,z"; "symmetry: -x,-y,z"; "symmetry: -x,y,-z";
  "symmetry: x,-y,-z"; "symmetry: z,x,y"; "symmetry: z,-x,-y"; "symmetry: -z,-x,y"; "symmetry: -z,x,-y"; "symmetry: y,z,x";
  "symmetry: -y,z,-x"; "symmetry: y,-z,-x"; "symmetry: -y,-z,x"; ""; "197 I23            Cubic"; "choice: 1";
  "centr: false"; "pcentr: 0, 0, 0"; "symmetry: x,y,z"; "symmetry: -x,-y,z"; "symmetry: -x,y,-z"; "symmetry: x,-y,-z";
  "symmetry: z,x,y"; "symmetry: z,-x,-y"; "symmetry: -z,-x,y"; "symmetry: -z,x,-y"; "symmetry: y,z,x"; "symmetry: -y,z,-x";
  "symmetry: y,-z,-x"; "symmetry: -y,-z,x"; ""; "198 P2(1)3         Cubic"; "choice: 1"; "centr: false";
  "pcentr: 0, 0, 0"; "symmetry: x,y,z"; "symmetry: -x+1/2,-y,z+1/2"; "symmetry: -x,y+1/2,-z+1/2"; "symmetry: x+1/2,-y+1/2,-z"; "symmetry: z,x,y";
  "symmetry: z+1/2,-x+1/2,-y"; "symmetry: -z+1/2,-x,y+1/2"; "symmetry: -z,x+1/2,-y+1/2"; "symmetry: y,z,x"; "symmetry: -y,z+1/2,-x+1/2"; "symmetry: y+1/2,-z+1/2,-x";
  "symmetry: -y+1/2,-z,x+1/2"; ""; "199 I2(1)3         Cubic"; "choice: 1"; "centr: false"; "pcentr: 0, 0, 0";
  "symmetry: x,y,z"; "symmetry: -x+1/2,-y,z+1/2"; "symmetry: -x,y+1/2,-z+1/2"; "symmetry: x+1/2,-y+1/2,-z"; "symmetry: z,x,y"; "symmetry: z+1/2,-x+1/2,-y";
  "symmetry: -z+1/2,-x,y+1/2"; "symmetry: -z,x+1/2,-y+1/2"; "symmetry: y,z,x"; "symmetry: -y,z+1/2,-x+1/2"; "symmetry: y+1/2,-z+1/2,-x"; "symmetry: -y+1/2,-z,x+1/2";
  ""; "200 Pm-3           Cubic"; "choice: 1"; "centr: true"; "pcentr: 0, 0, 0"; "symmetry: x,y,z";
  "symmetry: -x,-y,z"; "symmetry: -x,y,-z"; "symmetry: x,-y,-z"; "symmetry: z,x,y"; "symmetry: z,-x,-y"; "symmetry: -z,-x,y";
  "symmetry: -z,x,-y"; "symmetry: y,z,x"; "symmetry: -y,z,-x"; "symmetry: y,-z,-x"; "symmetry: -y,-z,x"; "";
  "201 Pn-3           Cubic"; "choice: 1"; "centr: true"; "pcentr: -0.25, -0.25, -0.25"; "symmetry: x,y,z"; "symmetry: -x,-y,z";
  "symmetry: -x,y,-z"; "symmetry: x,-y,-z"; "symmetry: z,x,y"; "symmetry: z,-x,-y"; "symmetry: -z,-x,y"; "symmetry: -z,x,-y";
  "symmetry: y,z,x"; "symmetry: -y,z,-x"; "symmetry: y,-z,-x"; "symmetry: -y,-z,x"; ""; "201 Pn-3           Cubic";
  "choice: 2"; "centr: true"; "pcentr: 0, 0, 0"; "symmetry: x,y,z"; "symmetry: -x+1/2,-y+1/2,z"; "symmetry: -x+1/2,y,-z+1/2";
  "symmetry: x,-y+1/2,-z+1/2"; "symmetry: z,x,y"; "symmetry: z,-x+1/2,-y+1/2"; "symmetry: -z+1/2,-x+1/2,y"; "symmetry: -z+1/2,x,-y+1/2"; "symmetry: y,z,x";
  "symmetry: -y+1/2,z,-x+1/2"; "symmetry: y,-z+1/2,-x+1/2"; "symmetry: -y+1/2,-z+1/2,x"; ""; "202 Fm-3           Cubic"; "choice: 1";
  "centr: true"; "pcentr: 0, 0, 0"; "symmetry: x,y,z"; "symmetry: -x,-y,z"; "symmetry: -x,y,-z"; "symmetry: x,-y,-z";
  "symmetry: z,x,y"; "symmetry: z,-x,-y"; "symmetry: -z,-x,y"; "symmetry: -z,x,-y"; "symmetry: y,z,x"; "symmetry: -y,z,-x";
  "symmetry: y,-z,-x"; "symmetry: -y,-z,x"; ""; "203 Fd-3           Cubic"; "choice: 1"; "centr: true";
  "pcentr: -0.125, -0.125, -0.125"; "symmetry: x,y,z"; "symmetry: -x,-y,z"; "symmetry: -x,y,-z"; "symmetry: x,-y,-z"; "symmetry: z,x,y";
  "symmetry: z,-x,-y"; "symmetry: -z,-x,y"; "symmetry: -z,x,-y"; "symmetry: y,z,x"; "symmetry: -y,z,-x"; "symmetry: y,-z,-x";
  "symmetry: -y,-z,x"; ""; "203 Fd-3           Cubic"; "choice: 2"; "centr: true"; "pcentr: 0, 0, 0";
  "symmetry: x,y,z"; "symmetry: -x+1/4,-y+1/4,z"; "symmetry: -x+1/4,y,-z+1/4"; "symmetry: x,-y+1/4,-z+1/4"; "symmetry: z,x,y"; "symmetry: z,-x+1/4,-y+1/4";
  "symmetry: -z+1/4,-x+1/4,y"; "symmetry: -z+1/4,x,-y+1/4"; "symmetry: y,z,x"; "symmetry: -y+1/4,z,-x+1/4"; "symmetry: y,-z+1/4,-x+1/4"; "symmetry: -y+1/4,-z+1/4,x";
  ""; "204 Im-3           Cubic"; "choice: 1"; "centr: true"; "pcentr: 0, 0, 0"; "symmetry: x,y,z";
  "symmetry: -x,-y,z"; "symmetry: -x,y,-z"; "symmetry: x,-y,-z"; "symmetry: z,x,y"; "symmetry: z,-x,-y"; "symmetry: -z,-x,y";
  "symmetry: -z,x,-y"; "symmetry: y,z,x"; "symmetry: -y,z,-x"; "symmetry: y,-z,-x"; "symmetry: -y,-z,x"; "";
  "205 Pa-3           Cubic"; "choice: 1"; "centr: true"; "pcentr: 0, 0, 0"; "symmetry: x,y,z"; "symmetry: -x+1/2,-y,z+1/2";
  "symmetry: -x,y+1/2,-z+1/2"; "symmetry: x+1/2,-y+1/2,-z"; "symmetry: z,x,y"; "symmetry: z+1/2,-x+1/2,-y"; "symmetry: -z+1/2,-x,y+1/2"; "symmetry: -z,x+1/2,-y+1/2";
  "symmetry: y,z,x"; "symmetry: -y,z+1/2,-x+1/2"; "symmetry: y+1/2,-z+1/2,-x"; "symmetry: -y+1/2,-z,x+1/2"; ""; "206 Ia-3           Cubic";
  "choice: 1"; "centr: true"; "pcentr: 0, 0, 0"; "symmetry: x,y,z"; "symmetry: -x+1/2,-y,z+1/2"; "symmetry: -x,y+1/2,-z+1/2";
  "symmetry: x+1/2,-y+1/2,-z"; "symmetry: z,x,y"; "symmetry: z+1/2,-x+1/2,-y"; "symmetry: -z+1/2,-x,y+1/2"; "symmetry: -z,x+1/2,-y+1/2"; "symmetry: y,z,x";
  "symmetry: -y,z+1/2,-x+1/2"; "symmetry: y+1/2,-z+1/2,-x"; "symmetry: -y+1/2,-z,x+1/2"; ""; "207 P432           Cubic"; "choice: 1";
  "centr: false"; "pcentr: 0, 0, 0"; "symmetry: x,y,z"; "symmetry: -x,-y,z"; "symmetry: -x,y,-z"; "symmetry: x,-y,-z";
  "symmetry: z,x,y"; "symmetry: z,-x,-y"; "symmetry: -z,-x,y"; "symmetry: -z,x,-y"; "symmetry: y,z,x"; "symmetry: -y,z,-x";
  "symmetry: y,-z,-x"; "symmetry: -y,-z,x"; "symmetry: y,x,-z"; "symmetry: -y,-x,-z"; "symmetry: y,-x,z"; "symmetry: -y,x,z";
  "symmetry: x,z,-y"; "symmetry: -x,z,y"; "symmetry: -x,-z,-y"; "symmetry: x,-z,y"; "symmetry: z,y,-x"; "symmetry: z,-y,x";
  "symmetry: -z,y,x"; "symmetry: -z,-y,-x"; ""; "208 P4(2)32        Cubic"; "choice: 1"; "centr: false";
  "pcentr: 0, 0, 0"; "symmetry: x,y,z"; "symmetry: -x,-y,z"; "symmetry: -x,y,-z"; "symmetry: x,-y,-z"; "symmetry: z,x,y";
  "symmetry: z,-x,-y"; "symmetry: -z,-x,y"; "symmetry: -z,x,-y"; "symmetry: y,z,x"; "symmetry: -y,z,-x"; "symmetry: y,-z,-x";
  "symmetry: -y,-z,x"; "symmetry: y+1/2,x+1/2,-z+1/2"; "symmetry: -y+1/2,-x+1/2,-z+1/2"; "symmetry: y+1/2,-x+1/2,z+1/2"; "symmetry: -y+1/2,x+1/2,z+1/2"; "symmetry: x+1/2,z+1/2,-y+1/2";
  "symmetry: -x+1/2,z+1/2,y+1/2"; "symmetry: -x+1/2,-z+1/2,-y+1/2"; "symmetry: x+1/2,-z+1/2,y+1/2"; "symmetry: z+1/2,y+1/2,-x+1/2"; "symmetry: z+1/2,-y+1/2,x+1/2"; "symmetry: -z+1/2,y+1/2,x+1/2";
  "symmetry: -z+1/2,-y+1/2,-x+1/2"; ""; "209 F432           Cubic"; "choice: 1"; "centr: false"; "pcentr: 0, 0, 0";
  "symmetry: x,y,z"; "symmetry: -x,-y,z"; "symmetry: -x,y,-z"; "symmetry: x,-y,-z"; "symmetry: z,x,y"; "symmetry: z,-x,-y";
  "symmetry: -z,-x,y"; "symmetry: -z,x,-y"; "symmetry: y,z,x"; "symmetry: -y,z,-x"; "symmetry: y,-z,-x"; "symmetry: -y,-z,x";
  "symmetry: y,x,-z"; "symmetry: -y,-x,-z"; "symmetry: y,-x,z"; "symmetry: -y,x,z"; "symmetry: x,z,-y"; "symmetry: -x,z,y";
  "symmetry: -x,-z,-y"; "symmetry: x,-z,y"; "symmetry: z,y,-x"; "symmetry: z,-y,x"; "symmetry: -z,y,x"; "symmetry: -z,-y,-x";
  ""; "210 F4(1)32        Cubic"; "choice: 1"; "centr: false"; "pcentr: 0, 0, 0"; "symmetry: x,y,z";
  "symmetry: -x,-y+1/2,z+1/2"; "symmetry: -x+1/2,y+1/2,-z"; "symmetry: x+1/2,-y,-z+1/2"; "symmetry: z,x,y"; "symmetry: z+1/2,-x,-y+1/2"; "symmetry: -z,-x+1/2,y+1/2";
  "symmetry: -z+1/2,x+1/2,-y"; "symmetry: y,z,x"; "symmetry: -y+1/2,z+1/2,-x"; "symmetry: y+1/2,-z,-x+1/2"; "symmetry: -y,-z+1/2,x+1/2"; "symmetry: y+3/4,x+1/4,-z+3/4";
  "symmetry: -y+1/4,-x+1/4,-z+1/4"; "symmetry: y+1/4,-x+3/4,z+3/4"; "symmetry: -y+3/4,x+3/4,z+1/4"; "symmetry: x+3/4,z+1/4,-y+3/4"; "symmetry: -x+3/4,z+3/4,y+1/4"; "symmetry: -x+1/4,-z+1/4,-y+1/4";
  "symmetry: x+1/4,-z+3/4,y+3/4"; "symmetry: z+3/4,y+1/4,-x+3/4"; "symmetry: z+1/4,-y+3/4,x+3/4"; "symmetry: -z+3/4,y+3/4,x+1/4"; "symmetry: -z+1/4,-y+1/4,-x+1/4"; "";
  "211 I432           Cubic"; "choice: 1"; "centr: false"; "pcentr: 0, 0, 0"; "symmetry: x,y,z"; "symmetry: -x,-y,z";
  "symmetry: -x,y,-z"; "symmetry: x,-y,-z"; "symmetry: z,x,y"; "symmetry: z,-x,-y"; "symmetry: -z,-x,y"; "symmetry: -z,x,-y";
  "symmetry: y,z,x"; "symmetry: -y,z,-x"; "symmetry: y,-z,-x"; "symmetry: -y,-z,x"; "symmetry: y,x,-z"; "symmetry: -y,-x,-z";
  "symmetry: y,-x,z"; "symmetry: -y,x,z"; "symmetry: x,z,-y"; "symmetry: -x,z,y"; "symmetry: -x,-z,-y"; "symmetry: x,-z,y";
  "symmetry: z,y,-x"; "symmetry: z,-y,x"; "symmetry: -z,y,x"; "symmetry: -z,-y,-x"; ""; "212 P4(3)32        Cubic";
  "choice: 1"; "centr: false"; "pcentr: 0, 0, 0"; "symmetry: x,y,z"; "symmetry: -x+1/2,-y,z+1/2"; "symmetry: -x,y+1/2,-z+1/2";
  "symmetry: x+1/2,-y+1/2,-z"; "symmetry: z,x,y"; "symmetry: z+1/2,-x+1/2,-y"; "symmetry: -z+1/2,-x,y+1/2"; "symmetry: -z,x+1/2,-y+1/2"; "symmetry: y,z,x";
  "symmetry: -y,z+1/2,-x+1/2"; "symmetry: y+1/2,-z+1/2,-x"; "symmetry: -y+1/2,-z,x+1/2"; "symmetry: y+1/4,x+3/4,-z+3/4"; "symmetry: -y+1/4,-x+1/4,-z+1/4"; "symmetry: y+3/4,-x+3/4,z+1/4";
  "symmetry: -y+3/4,x+1/4,z+3/4"; "symmetry: x+1/4,z+3/4,-y+3/4"; "symmetry: -x+3/4,z+1/4,y+3/4"; "symmetry: -x+1/4,-z+1/4,-y+1/4"; "symmetry: x+3/4,-z+3/4,y+1/4"; "symmetry: z+1/4,y+3/4,-x+3/4";
  "symmetry: z+3/4,-y+3/4,x+1/4"; "symmetry: -z+3/4,y+1/4,x+3/4"; "symmetry: -z+1/4,-y+1/4,-x+1/4"; ""; "213 P4(1)32        Cubic"; "choice: 1";
  "centr: false"; "pcentr: 0, 0, 0"; "symmetry: x,y,z"; "symmetry: -x+1/2,-y,z+1/2"; "symmetry: -x,y+1/2,-z+1/2"; "symmetry: x+1/2,-y+1/2,-z";
  "symmetry: z,x,y"; "symmetry: z+1/2,-x+1/2,-y"; "symmetry: -z+1/2,-x,y+1/2"; "symmetry: -z,x+1/2,-y+1/2"; "symmetry: y,z,x"; "symmetry: -y,z+1/2,-x+1/2";
  "symmetry: y+1/2,-z+1/2,-x"; "symmetry: -y+1/2,-z,x+1/2"; "symmetry: y+3/4,x+1/4,-z+1/4"; "symmetry: -y+3/4,-x+3/4,-z+3/4"; "symmetry: y+1/4,-x+1/4,z+3/4"; "symmetry: -y+1/4,x+3/4,z+1/4";
  "symmetry: x+3/4,z+1/4,-y+1/4"; "symmetry: -x+1/4,z+3/4,y+1/4"; "symmetry: -x+3/4,-z+3/4,-y+3/4"; "symmetry: x+1/4,-z+1/4,y+3/4"; "symmetry: z+3/4,y+1/4,-x+1/4"; "symmetry: z+1/4,-y+1/4,x+3/4";
  "symmetry: -z+1/4,y+3/4,x+1/4"; "symmetry: -z+3/4,-y+3/4,-x+3/4"; ""; "214 I4(1)32        Cubic"; "choice: 1"; "centr: false";
  "pcentr: 0, 0, 0"; "symmetry: x,y,z"; "symmetry: -x+1/2,-y,z+1/2"; "symmetry: -x,y+1/2,-z+1/2"; "symmetry: x+1/2,-y+1/2,-z"; "symmetry: z,x,y";
  "symmetry: z+1/2,-x+1/2,-y"; "symmetry: -z+1/2,-x,y+1/2"; "symmetry: -z,x+1/2,-y+1/2"; "symmetry: y,z,x"; "symmetry: -y,z+1/2,-x+1/2"; "symmetry: y+1/2,-z+1/2,-x";
  "symmetry: -y+1/2,-z,x+1/2"; "symmetry: y+3/4,x+1/4,-z+1/4"; "symmetry: -y+3/4,-x+3/4,-z+3/4"; "symmetry: y+1/4,-x+1/4,z+3/4"; "symmetry: -y+1/4,x+3/4,z+1/4"; "symmetry: x+3/4,z+1/4,-y+1/4";
  "symmetry: -x+1/4,z+3/4,y+1/4"; "symmetry: -x+3/4,-z+3/4,-y+3/4"; "symmetry: x+1/4,-z+1/4,y+3/4"; "symmetry: z+3/4,y+1/4,-x+1/4"; "symmetry: z+1/4,-y+1/4,x+3/4"; "symmetry: -z+1/4,y+3/4,x+1/4";
  "symmetry: -z+3/4,-y+3/4,-x+3/4"; ""; "215 P-43m          Cubic"; "choice: 1"; "centr: false"; "pcentr: 0, 0, 0";
  "symmetry: x,y,z"; "symmetry: -x,-y,z"; "symmetry: -x,y,-z"; "symmetry: x,-y,-z"; "symmetry: z,x,y"; "symmetry: z,-x,-y";
  "symmetry: -z,-x,y"; "symmetry: -z,x,-y"; "symmetry: y,z,x"; "symmetry: -y,z,-x"; "symmetry: y,-z,-x"; "symmetry: -y,-z,x";
  "symmetry: y,x,z"; "symmetry: -y,-x,z"; "symmetry: y,-x,-z"; "symmetry: -y,x,-z"; "symmetry: x,z,y"; "symmetry: -x,z,-y";
  "symmetry: -x,-z,y"; "symmetry: x,-z,-y"; "symmetry: z,y,x"; "symmetry: z,-y,-x"; "symmetry: -z,y,-x"; "symmetry: -z,-y,x";
  ""; "216 F4-3m          Cubic"; "choice: 1"; "centr: false"; "pcentr: 0, 0, 0"; "symmetry: x,y,z";
  "symmetry: -x,-y,z"; "symmetry: -x,y,-z"; "symmetry: x,-y,-z"; "symmetry: z,x,y"; "symmetry: z,-x,-y"; "symmetry: -z,-x,y";
  "symmetry: -z,x,-y"; "symmetry: y,z,x"; "symmetry: -y,z,-x"; "symmetry: y,-z,-x"; "symmetry: -y,-z,x"; "symmetry: y,x,z";
  "symmetry: -y,-x,z"; "symmetry: y,-x,-z"; "symmetry: -y,x,-z"; "symmetry: x,z,y"; "symmetry: -x,z,-y"; "symmetry: -x,-z,y";
  "symmetry: x,-z,-y"; "symmetry: z,y,x"; "symmetry: z,-y,-x"; "symmetry: -z,y,-x"; "symmetry: -z,-y,x"; "";
  "217 I-43m          Cubic"; "choice: 1"; "centr: false"; "pcentr: 0, 0, 0"; "symmetry: x,y,z"; "symmetry: -x,-y,z";
  "symmetry: -x,y,-z"; "symmetry: x,-y,-z"; "symmetry: z,x,y"; "symmetry: z,-x,-y"; "symmetry: -z,-x,y"; "symmetry: -z,x,-y";
  "symmetry: y,z,x"; "symmetry: -y,z,-x"; "symmetry: y,-z,-x"; "symmetry: -y,-z,x"; "symmetry: y,x,z"; "symmetry: -y,-x,z";
  "symmetry: y,-x,-z"; "symmetry: -y,x,-z"; "symmetry: x,z,y"; "symmetry: -x,z,-y"; "symmetry: -x,-z,y"; "symmetry: x,-z,-y";
  "symmetry: z,y,x"; "symmetry: z,-y,-x"; "symmetry: -z,y,-x"; "symmetry: -z,-y,x"; ""; "218 P-43n          Cubic";
  "choice: 1"; "centr: false"; "pcentr: 0, 0, 0"; "symmetry: x,y,z"; "symmetry: -x,-y,z"; "symmetry: -x,y,-z";
  "symmetry: x,-y,-z"; "symmetry: z,x,y"; "symmetry: z,-x,-y"; "symmetry: -z,-x,y"; "symmetry: -z,x,-y"; "symmetry: y,z,x";
  "symmetry: -y,z,-x"; "symmetry: y,-z,-x"; "symmetry: -y,-z,x"; "symmetry: y+1/2,x+1/2,z+1/2"; "symmetry: -y+1/2,-x+1/2,z+1/2"; "symmetry: y+1/2,-x+1/2,-z+1/2";
  "symmetry: -y+1/2,x+1/2,-z+1/2"; "symmetry: x+1/2,z+1/2,y+1/2"; "symmetry: -x+1/2,z+1/2,-y+1/2"; "symmetry: -x+1/2,-z+1/2,y+1/2"; "symmetry: x+1/2,-z+1/2,-y+1/2"; "symmetry: z+1/2,y+1/2,x+1/2";
  "symmetry: z+1/2,-y+1/2,-x+1/2"; "symmetry: -z+1/2,y+1/2,-x+1/2"; "symmetry: -z+1/2,-y+1/2,x+1/2"; ""; "219 F-43c          Cubic"; "choice: 1";
  "centr: false"; "pcentr: 0, 0, 0"; "symmetry: x,y,z"; "symmetry: -x,-y,z"; "symmetry: -x,y,-z"; "symmetry: x,-y,-z";
  "symmetry: z,x,y"; "symmetry: z,-x,-y"; "symmetry: -z,-x,y"; "symmetry: -z,x,-y"; "symmetry: y,z,x"; "symmetry: -y,z,-x";
  "symmetry: y,-z,-x"; "symmetry: -y,-z,x"; "symmetry: y+1/2,x+1/2,z+1/2"; "symmetry: -y+1/2,-x+1/2,z+1/2"; "symmetry: y+1/2,-x+1/2,-z+1/2"; "symmetry: -y+1/2,x+1/2,-z+1/2";
  "symmetry: x+1/2,z+1/2,y+1/2"; "symmetry: -x+1/2,z+1/2,-y+1/2"; "symmetry: -x+1/2,-z+1/2,y+1/2"; "symmetry: x+1/2,-z+1/2,-y+1/2"; "symmetry: z+1/2,y+1/2,x+1/2"; "symmetry: z+1/2,-y+1/2,-x+1/2";
  "symmetry: -z+1/2,y+1/2,-x+1/2"; "symmetry: -z+1/2,-y+1/2,x+1/2"; ""; "220 I-43d          Cubic"; "choice: 1"; "centr: false";
  "pcentr: 0, 0, 0"; "symmetry: x,y,z"; "symmetry: -x+1/2,-y,z+1/2"; "symmetry: -x,y+1/2,-z+1/2"; "symmetry: x+1/2,-y+1/2,-z"; "symmetry: z,x,y";
  "symmetry: z+1/2,-x+1/2,-y"; "symmetry: -z+1/2,-x,y+1/2"; "symmetry: -z,x+1/2,-y+1/2"; "symmetry: y,z,x"; "symmetry: -y,z+1/2,-x+1/2"; "symmetry: y+1/2,-z+1/2,-x";
  "symmetry: -y+1/2,-z,x+1/2"; "symmetry: y+1/4,x+1/4,z+1/4"; "symmetry: -y+1/4,-x+3/4,z+3/4"; "symmetry: y+3/4,-x+1/4,-z+3/4"; "symmetry: -y+3/4,x+3/4,-z+1/4"; "symmetry: x+1/4,z+1/4,y+1/4";
  "symmetry: -x+3/4,z+3/4,-y+1/4"; "symmetry: -x+1/4,-z+3/4,y+3/4"; "symmetry: x+3/4,-z+1/4,-y+3/4"; "symmetry: z+1/4,y+1/4,x+1/4"; "symmetry: z+3/4,-y+1/4,-x+3/4"; "symmetry: -z+3/4,y+3/4,-x+1/4";
  "symmetry: -z+1/4,-y+3/4,x+3/4"; ""; "221 Pm-3m          Cubic"; "choice: 1"; "centr: true"; "pcentr: 0, 0, 0";
  "symmetry: x,y,z"; "symmetry: -x,-y,z"; "symmetry: -x,y,-z"; "symmetry: x,-y,-z"; "symmetry: z,x,y"; "symmetry: z,-x,-y";
  "symmetry: -z,-x,y"; "symmetry: -z,x,-y"; "symmetry: y,z,x"; "symmetry: -y,z,-x"; "symmetry: y,-z,-x"; "symmetry: -y,-z,x";
  "symmetry: y,x,-z"; "symmetry: -y,-x,-z"; "symmetry: y,-x,z"; "symmetry: -y,x,z"; "symmetry: x,z,-y"; "symmetry: -x,z,y";
  "symmetry: -x,-z,-y"; "symmetry: x,-z,y"; "symmetry: z,y,-x"; "symmetry: z,-y,x"; "symmetry: -z,y,x"; "symmetry: -z,-y,-x";
  ""; "222 Pn-3n          Cubic"; "choice: 1"; "centr: true"; "pcentr: -0.25, -0.25, -0.25"; "symmetry: x,y,z";
  "symmetry: -x,-y,z"; "symmetry: -x,y,-z"; "symmetry: x,-y,-z"; "symmetry: z,x,y"; "symmetry: z,-x,-y"; "symmetry: -z,-x,y";
  "symmetry: -z,x,-y"; "symmetry: y,z,x"; "symmetry: -y,z,-x"; "symmetry: y,-z,-x"; "symmetry: -y,-z,x"; "symmetry: y,x,-z";
  "symmetry: -y,-x,-z"; "symmetry: y,-x,z"; "symmetry: -y,x,z"; "symmetry: x,z,-y"; "symmetry: -x,z,y"; "symmetry: -x,-z,-y";
  "symmetry: x,-z,y"; "symmetry: z,y,-x"; "symmetry: z,-y,x"; "symmetry: -z,y,x"; "symmetry: -z,-y,-x"; "";
  "222 Pn-3n          Cubic"; "choice: 2"; "centr: true"; "pcentr: 0, 0, 0"; "symmetry: x,y,z"; "symmetry: -x+1/2,-y+1/2,z";
  "symmetry: -x+1/2,y,-z+1/2"; "symmetry: x,-y+1/2,-z+1/2"; "symmetry: z,x,y"; "symmetry: z,-x+1/2,-y+1/2"; "symmetry: -z+1/2,-x+1/2,y"; "symmetry: -z+1/2,x,-y+1/2";
  "symmetry: y,z,x"; "symmetry: -y+1/2,z,-x+1/2"; "symmetry: y,-z+1/2,-x+1/2"; "symmetry: -y+1/2,-z+1/2,x"; "symmetry: y,x,-z+1/2"; "symmetry: -y+1/2,-x+1/2,-z+1/2";
  "symmetry: y,-x+1/2,z"; "symmetry: -y+1/2,x,z"; "symmetry: x,z,-y+1/2"; "symmetry: -x+1/2,z,y"; "symmetry: -x+1/2,-z+1/2,-y+1/2"; "symmetry: x,-z+1/2,y";
  "symmetry: z,y,-x+1/2"; "symmetry: z,-y+1/2,x"; "symmetry: -z+1/2,y,x"; "symmetry: -z+1/2,-y+1/2,-x+1/2"; ""; "223 Pm-3n          Cubic";
  "choice: 1"; "centr: true"; "pcentr: 0, 0, 0"; "symmetry: x,y,z"; "symmetry: -x,-y,z"; "symmetry: -x,y,-z";
  "symmetry: x,-y,-z"; "symmetry: z,x,y"; "symmetry: z,-x,-y"; "symmetry: -z,-x,y"; "symmetry: -z,x,-y"; "symmetry: y,z,x";
  "symmetry: -y,z,-x"; "symmetry: y,-z,-x"; "symmetry: -y,-z,x"; "symmetry: y+1/2,x+1/2,-z+1/2"; "symmetry: -y+1/2,-x+1/2,-z+1/2"; "symmetry: y+1/2,-x+1/2,z+1/2";
  "symmetry: -y+1/2,x+1/2,z+1/2"; "symmetry: x+1/2,z+1/2,-y+1/2"; "symmetry: -x+1/2,z+1/2,y+1/2"; "symmetry: -x+1/2,-z+1/2,-y+1/2"; "symmetry: x+1/2,-z+1/2,y+1/2"; "symmetry: z+1/2,y+1/2,-x+1/2";
  "symmetry: z+1/2,-y+1/2,x+1/2"; "symmetry: -z+1/2,y+1/2,x+1/2"; "symmetry: -z+1/2,-y+1/2,-x+1/2"; ""; "224 Pn-3m          Cubic"; "choice: 1";
  "centr: true"; "pcentr: -0.25, -0.25, -0.25"; "symmetry: x,y,z"; "symmetry: -x,-y,z"; "symmetry: -x,y,-z"; "symmetry: x,-y,-z";
  "symmetry: z,x,y"; "symmetry: z,-x,-y"; "symmetry: -z,-x,y"; "symmetry: -z,x,-y"; "symmetry: y,z,x"; "symmetry: -y,z,-x";
  "symmetry: y,-z,-x"; "symmetry: -y,-z,x"; "symmetry: -y,-x,z"; "symmetry: y,x,z"; "symmetry: -y,x,-z"; "symmetry: y,-x,-z";
  "symmetry: -x,-z,y"; "symmetry: x,-z,-y"; "symmetry: x,z,y"; "symmetry: -x,z,-y"; "symmetry: -z,-y,x"; "symmetry: -z,y,-x";
  "symmetry: z,-y,-x"; "symmetry: z,y,x"; ""; "224 Pn-3m          Cubic"; "choice: 2"; "centr: true";
  "pcentr: 0, 0, 0"; "symmetry: x,y,z"; "symmetry: -x+1/2,-y+1/2,z"; "symmetry: -x+1/2,y,-z+1/2"; "symmetry: x,-y+1/2,-z+1/2"; "symmetry: z,x,y";
  "symmetry: z,-x+1/2,-y+1/2"; "symmetry: -z+1/2,-x+1/2,y"; "symmetry: -z+1/2,x,-y+1/2"; "symmetry: y,z,x"; "symmetry: -y+1/2,z,-x+1/2"; "symmetry: y,-z+1/2,-x+1/2";
  "symmetry: -y+1/2,-z+1/2,x"; "symmetry: y+1/2,x+1/2,-z"; "symmetry: -y,-x,-z"; "symmetry: y+1/2,-x,z+1/2"; "symmetry: -y,x+1/2,z+1/2"; "symmetry: x+1/2,z+1/2,-y";
  "symmetry: -x,z+1/2,y+1/2"; "symmetry: -x,-z,-y"; "symmetry: x+1/2,-z,y+1/2"; "symmetry: z+1/2,y+1/2,-x"; "symmetry: z+1/2,-y,x+1/2"; "symmetry: -z,y+1/2,x+1/2";
  "symmetry: -z,-y,-x"; ""; "225 Fm-3m          Cubic"; "choice: 1"; "centr: true"; "pcentr: 0, 0, 0";
  "symmetry: x,y,z"; "symmetry: -x,-y,z"; "symmetry: -x,y,-z"; "symmetry: x,-y,-z"; "symmetry: z,x,y"; "symmetry: z,-x,-y";
  "symmetry: -z,-x,y"; "symmetry: -z,x,-y"; "symmetry: y,z,x"; "symmetry: -y,z,-x"; "symmetry: y,-z,-x"; "symmetry: -y,-z,x";
  "symmetry: y,x,-z"; "symmetry: -y,-x,-z"; "symmetry: y,-x,z"; "symmetry: -y,x,z"; "symmetry: x,z,-y"; "symmetry: -x,z,y";
  "symmetry: -x,-z,-y"; "symmetry: x,-z,y"; "symmetry: z,y,-x"; "symmetry: z,-y,x"; "symmetry: -z,y,x"; "symmetry: -z,-y,-x";
  ""; "226 Fm-3c          Cubic"; "choice: 1"; "centr: true"; "pcentr: 0, 0, 0"; "symmetry: x,y,z";
  "symmetry: -x,-y,z"; "symmetry: -x,y,-z"; "symmetry: x,-y,-z"; "symmetry: z,x,y"; "symmetry: z,-x,-y"; "symmetry: -z,-x,y";
  "symmetry: -z,x,-y"; "symmetry: y,z,x"; "symmetry: -y,z,-x"; "symmetry: y,-z,-x"; "symmetry: -y,-z,x"; "symmetry: y+1/2,x+1/2,-z+1/2";
  "symmetry: -y+1/2,-x+1/2,-z+1/2"; "symmetry: y+1/2,-x+1/2,z+1/2"; "symmetry: -y+1/2,x+1/2,z+1/2"; "symmetry: x+1/2,z+1/2,-y+1/2"; "symmetry: -x+1/2,z+1/2,y+1/2"; "symmetry: -x+1/2,-z+1/2,-y+1/2";
  "symmetry: x+1/2,-z+1/2,y+1/2"; "symmetry: z+1/2,y+1/2,-x+1/2"; "symmetry: z+1/2,-y+1/2,x+1/2"; "symmetry: -z+1/2,y+1/2,x+1/2"; "symmetry: -z+1/2,-y+1/2,-x+1/2"; "";
  "227 Fd-3m          Cubic"; "choice: 1"; "centr: true"; "pcentr: -0.125, -0.125, -0.125"; "symmetry: x,y,z"; "symmetry: -x,-y+1/2,z+1/2";
  "symmetry: -x+1/2,y+1/2,-z"; "symmetry: x+1/2,-y,-z+1/2"; "symmetry: z,x,y"; "symmetry: z+1/2,-x,-y+1/2"; "symmetry: -z,-x+1/2,y+1/2"; "symmetry: -z+1/2,x+1/2,-y";
  "symmetry: y,z,x"; "symmetry: -y+1/2,z+1/2,-x"; "symmetry: y+1/2,-z,-x+1/2"; "symmetry: -y,-z+1/2,x+1/2"; "symmetry: y+3/4,x+1/4,-z+3/4"; "symmetry: -y+1/4,-x+1/4,-z+1/4";
  "symmetry: y+1/4,-x+3/4,z+3/4"; "symmetry: -y+3/4,x+3/4,z+1/4"; "symmetry: x+3/4,z+1/4,-y+3/4"; "symmetry: -x+3/4,z+3/4,y+1/4"; "symmetry: -x+1/4,-z+1/4,-y+1/4"; "symmetry: x+1/4,-z+3/4,y+3/4";
  "symmetry: z+3/4,y+1/4,-x+3/4"; "symmetry: z+1/4,-y+3/4,x+3/4"; "symmetry: -z+3/4,y+3/4,x+1/4"; "symmetry: -z+1/4,-y+1/4,-x+1/4"; ""; "227 Fd-3m          Cubic";
  "choice: 2"; "centr: true"; "pcentr: 0, 0, 0"; "symmetry: x,y,z"; "symmetry: -x+3/4,-y+1/4,z+1/2"; "symmetry: -x+1/4,y+1/2,-z+3/4";
  "symmetry: x+1/2,-y+3/4,-z+1/4"; "symmetry: z,x,y"; "symmetry: z+1/2,-x+3/4,-y+1/4"; "symmetry: -z+3/4,-x+1/4,y+1/2"; "symmetry: -z+1/4,x+1/2,-y+3/4"; "symmetry: y,z,x";
  "symmetry: -y+1/4,z+1/2,-x+3/4"; "symmetry: y+1/2,-z+3/4,-x+1/4"; "symmetry: -y+3/4,-z+1/4,x+1/2"; "symmetry: y+3/4,x+1/4,-z+1/2"; "symmetry: -y,-x,-z"; "symmetry: y+1/4,-x+1/2,z+3/4";
  "symmetry: -y+1/2,x+3/4,z+1/4"; "symmetry: x+3/4,z+1/4,-y+1/2"; "symmetry: -x+1/2,z+3/4,y+1/4"; "symmetry: -x,-z,-y"; "symmetry: x+1/4,-z+1/2,y+3/4"; "symmetry: z+3/4,y+1/4,-x+1/2";
  "symmetry: z+1/4,-y+1/2,x+3/4"; "symmetry: -z+1/2,y+3/4,x+1/4"; "symmetry: -z,-y,-x"; ""; "228 Fd-3c          Cubic"; "choice: 1";
  "centr: true"; "pcentr: -0.375, -0.375, -0.375"; "symmetry: x,y,z"; "symmetry: -x,-y+1/2,z+1/2"; "symmetry: -x+1/2,y+1/2,-z"; "symmetry: x+1/2,-y,-z+1/2";
  "symmetry: z,x,y"; "symmetry: z+1/2,-x,-y+1/2"; "symmetry: -z,-x+1/2,y+1/2"; "symmetry: -z+1/2,x+1/2,-y"; "symmetry: y,z,x"; "symmetry: -y+1/2,z+1/2,-x";
  "symmetry: y+1/2,-z,-x+1/2"; "symmetry: -y,-z+1/2,x+1/2"; "symmetry: y+3/4,x+1/4,-z+3/4"; "symmetry: -y+1/4,-x+1/4,-z+1/4"; "symmetry: y+1/4,-x+3/4,z+3/4"; "symmetry: -y+3/4,x+3/4,z+1/4";
  "symmetry: x+3/4,z+1/4,-y+3/4"; "symmetry: -x+3/4,z+3/4,y+1/4"; "symmetry: -x+1/4,-z+1/4,-y+1/4"; "symmetry: x+1/4,-z+3/4,y+3/4"; "symmetry: z+3/4,y+1/4,-x+3/4"; "symmetry: z+1/4,-y+3/4,x+3/4";
  "symmetry: -z+3/4,y+3/4,x+1/4"; "symmetry: -z+1/4,-y+1/4,-x+1/4"; ""; "228 Fd-3c          Cubic"; "choice: 2"; "centr: true";
  "pcentr: 0, 0, 0"; "symmetry: x,y,z"; "symmetry: -x+1/4,-y+3/4,z+1/2"; "symmetry: -x+3/4,y+1/2,-z+1/4"; "symmetry: x+1/2,-y+1/4,-z+3/4"; "symmetry: z,x,y";
  "symmetry: z+1/2,-x+1/4,-y+3/4"; "symmetry: -z+1/4,-x+3/4,y+1/2"; "symmetry: -z+3/4,x+1/2,-y+1/4"; "symmetry: y,z,x"; "symmetry: -y+3/4,z+1/2,-x+1/4"; "symmetry: y+1/2,-z+1/4,-x+3/4";
  "symmetry: -y+1/4,-z+3/4,x+1/2"; "symmetry: y+3/4,x+1/4,-z"; "symmetry: -y+1/2,-x+1/2,-z+1/2"; "symmetry: y+1/4,-x,z+3/4"; "symmetry: -y,x+3/4,z+1/4"; "symmetry: x+3/4,z+1/4,-y";
  "symmetry: -x,z+3/4,y+1/4"; "symmetry: -x+1/2,-z+1/2,-y+1/2"; "symmetry: x+1/4,-z,y+3/4,"; "symmetry: z+3/4,y+1/4,-x"; "symmetry: z+1/4,-y,x+3/4"; "symmetry: -z,y+3/4,x+1/4";
  "symmetry: -z+1/2,-y+1/2,-x+1/2"; ""; "229 Im-3m          Cubic"; "choice: 1"; "centr: true"; "pcentr: 0, 0, 0";
  "symmetry: x,y,z"; "symmetry: -x,-y,z"; "symmetry: -x,y,-z"; "symmetry: x,-y,-z"; "symmetry: z,x,y"; "symmetry: z,-x,-y";
  "symmetry: -z,-x,y"; "symmetry: -z,x,-y"; "symmetry: y,z,x"; "symmetry: -y,z,-x"; "symmetry: y,-z,-x"; "symmetry: -y,-z,x";
  "symmetry: y,x,-z"; "symmetry: -y,-x,-z"; "symmetry: y,-x,z"; "symmetry: -y,x,z"; "symmetry: x,z,-y"; "symmetry: -x,z,y";
  "symmetry: -x,-z,-y"; "symmetry: x,-z,y"; "symmetry: z,y,-x"; "symmetry: z,-y,x"; "symmetry: -z,y,x"; "symmetry: -z,-y,-x";
  ""; "230 Ia-3d          Cubic"; "choice: 1"; "centr: true"; "pcentr: 0, 0, 0"; "symmetry: x,y,z";
  "symmetry: -x+1/2,-y,z+1/2"; "symmetry: -x,y+1/2,-z+1/2"; "symmetry: x+1/2,-y+1/2,-z"; "symmetry: z,x,y"; "symmetry: z+1/2,-x+1/2,-y"; "symmetry: -z+1/2,-x,y+1/2";
  "symmetry: -z,x+1/2,-y+1/2"; "symmetry: y,z,x"; "symmetry: -y,z+1/2,-x+1/2"; "symmetry: y+1/2,-z+1/2,-x"; "symmetry: -y+1/2,-z,x+1/2"; "symmetry: y+3/4,x+1/4,-z+1/4";
  "symmetry: -y+3/4,-x+3/4,-z+3/4"; "symmetry: y+1/4,-x+1/4,z+3/4"; "symmetry: -y+1/4,x+3/4,z+1/4"; "symmetry: x+3/4,z+1/4,-y+1/4"; "symmetry: -x+1/4,z+3/4,y+1/4"; "symmetry: -x+3/4,-z+3/4,-y+3/4";
  "symmetry: x+1/4,-z+1/4,y+3/4"; "symmetry: z+3/4,y+1/4,-x+1/4"; "symmetry: z+1/4,-y+1/4,x+3/4"; "symmetry: -z+1/4,y+3/4,x+1/4"; "symmetry: -z+3/4,-y+3/4,-x+3/4"; "" ].
