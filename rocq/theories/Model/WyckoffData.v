(** The lines of wyckoff.dat (line ends removed), copied by a script. *)
From Coq Require Import List String.
Import ListNotations.
Open Scope string_scope.

(** wyckoff.dat *)
Definition wyckoff_lines : list string := [ "  1  1  1  0  1   P 1"; "1	a	1"; "(x,y,z)"; "";
  "  1  2  1  0  1   A 1"; "2	a	1"; "(x,y,z)"; "";
  "  1  3  1  0  1   B 1"; "2	a	1"; "(x,y,z)"; "";
  "  1  4  1  0  1   C 1"; "2	a	1"; "(x,y,z)"; "";
  "  1  5  1  0  1   I 1"; "2	a	1"; "(x,y,z)"; "";
  "  1  6  1  0  1   F 1"; "4	a	1"; "(x,y,z)"; "";
  "  1  7  1  0  1   R 1"; "3	a	1"; "(x,y,z)"; "";
  "  2  1  1  1  1   P -1"; "2	i	1"; "(x,y,z) 	(-x,-y,-z)"; "1	h	-1";
  "(1/2,1/2,1/2)"; "1	g	-1"; "(0,1/2,1/2)"; "1	f	-1";
  "(1/2,0,1/2)"; "1	e	-1"; "(1/2,1/2,0)"; "1	d	-1";
  "(1/2,0,0)"; "1	c	-1"; "(0,1/2,0)"; "1	b	-1";
  "(0,0,1/2)"; "1	a	-1"; "(0,0,0)"; "";
  "  2  2  1  1  1   A -1"; "4	i	1"; "(x,y,z) 	(-x,-y,-z)"; "2	h	-1";
  "(1/2,1/2,0)"; "2	g	-1"; "(0,1/2,0)"; "2	f	-1";
  "(1/2,1/4,1/4)"; "2	e	-1"; "(1/2,1/4,3/4)"; "2	d	-1";
  "(1/2,0,0)"; "2	c	-1"; "(0,1/4,3/4)"; "2	b	-1";
  "(0,1/4,1/4)"; "2	a	-1"; "(0,0,0)"; "";
  "  2  3  1  1  1   B -1"; "4	i	1"; "(x,y,z) 	(-x,-y,-z)"; "2	h	-1";
  "(0,1/2,1/2)"; "2	g	-1"; "(3/4,1/2,1/4)"; "2	f	-1";
  "(0,0,1/2)"; "2	e	-1"; "(1/4,1/2,1/4)"; "2	d	-1";
  "(1/4,0,1/4)"; "2	c	-1"; "(0,1/2,0)"; "2	b	-1";
  "(3/4,0,1/4)"; "2	a	-1"; "(0,0,0)"; "";
  "  2  4  1  1  1   C -1"; "4	i	1"; "(x,y,z) 	(-x,-y,-z)"; "2	h	-1";
  "(1/2,0,1/2)"; "2	g	-1"; "(1/4,1/4,1/2)"; "2	f	-1";
  "(1/4,3/4,1/2)"; "2	e	-1"; "(1/2,0,0)"; "2	d	-1";
  "(1/4,3/4,0)"; "2	c	-1"; "(1/4,1/4,0)"; "2	b	-1";
  "(0,0,1/2)"; "2	a	-1"; "(0,0,0)"; "";
  "  2  5  1  1  1   I -1"; "4	i	1"; "(x,y,z) 	(-x,-y,-z)"; "2	h	-1";
  "(1/4,1/4,1/4)"; "2	g	-1"; "(1/2,0,0)"; "2	f	-1";
  "(0,1/2,0)"; "2	e	-1"; "(0,0,1/2)"; "2	d	-1";
  "(3/4,1/4,1/4)"; "2	c	-1"; "(1/4,3/4,1/4)"; "2	b	-1";
  "(1/4,1/4,3/4)"; "2	a	-1"; "(0,0,0)"; "";
  "  2  6  1  1  1   F -1"; "8	i	1"; "(x,y,z) 	(-x,-y,-z)"; "4	h	-1";
  "(1/2,1/2,1/2)"; "4	g	-1"; "(1/2,1/4,1/4)"; "4	f	-1";
  "(1/4,1/2,1/4)"; "4	e	-1"; "(1/4,1/4,1/2)"; "4	d	-1";
  "(0,1/4,1/4)"; "4	c	-1"; "(1/4,0,1/4)"; "4	b	-1";
  "(1/4,1/4,0)"; "4	a	-1"; "(0,0,0)"; "";
  "  2  7  1  1  1   R -1"; "6	i	1"; "(x,y,z) 	(-x,-y,-z)"; "3	h	-1";
  "(0,0,1/2)"; "3	g	-1"; "(2/3,5/6,1/3)"; "3	f	-1";
  "(1/6,5/6,1/3)"; "3	e	-1"; "(1/6,1/3,1/3)"; "3	d	-1";
  "(1/3,1/6,1/6)"; "3	c	-1"; "(5/6,1/6,1/6)"; "3	b	-1";
  "(5/6,2/3,1/6)"; "3	a	-1"; "(0,0,0)"; "";
  "  3  1  3  0  2   P 2"; "2	e	1"; "(x,y,z) 	(-x,y,-z)"; "1	d	2";
  "(1/2,y,1/2)"; "1	c	2"; "(1/2,y,0)"; "1	b	2";
  "(0,y,1/2)"; "1	a	2"; "(0,y,0)"; "";
  "  3  2  4  0  2   P 2"; "2	e	1"; "(x,y,z) 	(-x,-y,z)"; "1	d	2";
  "(1/2,1/2,z)"; "1	c	2"; "(0,1/2,z)"; "1	b	2";
  "(1/2,0,z)"; "1	a	2"; "(0,0,z)"; "";
  "  3  3  3  0  2   P 2"; "2	e	1"; "(x,y,z)	(x,-y,-z)"; "1	d	2";
  "(x,1/2,1/2)"; "1	c	2"; "(x,0,1/2)"; "1	b	2";
  "(x,1/2,0)"; "1	a	2"; "(x,0,0)"; "";
  "  4  1  3  0  2   P 21"; "2	a	1"; "(x,y,z) 	(-x,y+1/2,-z)"; "";
  "  4  2  4  0  2   P 21"; "2	a	1"; "(x,y,z) 	(-x,-y,z+1/2)"; "";
  "  4  3  3  0  2   P 21"; "2	a	1"; "(x,y,z)	(x+1/2,-y,-z)"; "";
  "  5  1  3  0  2   C 2"; "4	c	1"; "(x,y,z) 	(-x,y,-z)"; "2	b	2";
  "(0,y,1/2)"; "2	a	2"; "(0,y,0)"; "";
  "  5  2  3  0  2   A 2"; "4	c	1"; "(x,y,z) 	(-x,y,-z)"; "2	b	2";
  "(1/2,y,1/2)"; "2	a	2"; "(0,y,0)"; "";
  "  5  3  3  0  2   I 2"; "4	c	1"; "(x,y,z) 	(-x,y,-z)"; "2	b	2";
  "(1/2,y,0)"; "2	a	2"; "(0,y,0)"; "";
  "  5  4  4  0  2   A 2"; "4	c	1"; "(x,y,z) 	(-x,-y,z)"; "2	b	2";
  "(1/2,0,z)"; "2	a	2"; "(0,0,z)"; "";
  "  5  5  4  0  2   B 2"; "4	c	1"; "(x,y,z) 	(-x,-y,z)"; "2	b	2";
  "(1/2,1/2,z)"; "2	a	2"; "(0,0,z)"; "";
  "  5  6  4  0  2   I 2"; "4	c	1"; "(x,y,z) 	(-x,-y,z)"; "2	b	2";
  "(0,1/2,z)"; "2	a	2"; "(0,0,z)"; "";
  "  5  7  3  0  2   B 2"; "4	c	1"; "(x,y,z)	(x,-y,-z)"; "2	b	2";
  "(x,1/2,0)"; "2	a	2"; "(x,0,0)"; "";
  "  5  8  3  0  2   C 2"; "4	c	1"; "(x,y,z)	(x,-y,-z)"; "2	b	2";
  "(x,1/2,1/2)"; "2	a	2"; "(x,0,0)"; "";
  "  5  9  3  0  2   I 2"; "4	c	1"; "(x,y,z)	(x,-y,-z)"; "2	b	2";
  "(x,0,1/2)"; "2	a	2"; "(x,0,0)"; "";
  "  6  1  3  0  2   P m"; "2	c	1"; "(x,y,z) 	(x,-y,z)"; "1	b	m";
  "(x,1/2,z)"; "1	a	m"; "(x,0,z)"; "";
  "  6  2  4  0  2   P m"; "2	c	1"; "(x,y,z) 	(x,y,-z)"; "1	b	m";
  "(x,y,1/2)"; "1	a	m"; "(x,y,0)"; "";
  "  6  3  3  0  2   P m"; "2	c	1"; "(x,y,z)	(-x,y,z)"; "1	b	m";
  "(1/2,y,z)"; "1	a	m"; "(0,y,z)"; "";
  "  7  1  3  0  2   P c"; "2	a	1"; "(x,y,z) 	(x,-y,z+1/2)"; "";
  "  7  2  3  0  2   P n"; "2	a	1"; "(x,y,z) 	(x+1/2,-y,z+1/2)"; "";
  "  7  3  3  0  2   P a"; "2	a	1"; "(x,y,z) 	(x+1/2,-y,z)"; "";
  "  7  4  4  0  2   P a"; "2	a	1"; "(x,y,z) 	(x+1/2,y,-z)"; "";
  "  7  5  4  0  2   P n"; "2	a	1"; "(x,y,z) 	(x+1/2,y+1/2,-z)"; "";
  "  7  6  4  0  2   P b"; "2	a	1"; "(x,y,z) 	(x,y+1/2,-z)"; "";
  "  7  7  3  0  2   P b"; "2	a	1"; "(x,y,z)	(-x,y+1/2,z)"; "";
  "  7  8  3  0  2   P n"; "2	a	1"; "(x,y,z)	(-x,y+1/2,z+1/2)"; "";
  "  7  9  3  0  2   P c"; "2	a	1"; "(x,y,z)	(-x,y,z+1/2)"; "";
  "  8  1  3  0  2   C m"; "4	b	1"; "(x,y,z) 	(x,-y,z)"; "2	a	m";
  "(x,0,z)"; ""; "  8  2  3  0  2   A m"; "4	b	1";
  "(x,y,z) 	(x,-y,z)"; "2	a	m"; "(x,0,z)"; "";
  "  8  3  3  0  2   I m"; "4	b	1"; "(x,y,z) 	(x,-y,z)"; "2	a	m";
  "(x,0,z)"; ""; "  8  4  4  0  2   A m"; "4	b	1";
  "(x,y,z) 	(x,y,-z)"; "2	a	m"; "(x,y,0)"; "";
  "  8  5  4  0  2   B m"; "4	b	1"; "(x,y,z) 	(x,y,-z)"; "2	a	m";
  "(x,y,0)"; ""; "  8  6  4  0  2   I m"; "4	b	1";
  "(x,y,z) 	(x,y,-z)"; "2	a	m"; "(x,y,0)"; "";
  "  8  7  3  0  2   B m"; "4	b	1"; "(x,y,z)	(-x,y,z)"; "2	a	m";
  "(0,y,z)"; ""; "  8  8  3  0  2   C m"; "4	b	1";
  "(x,y,z)	(-x,y,z)"; "2	a	m"; "(0,y,z)"; "";
  "  8  9  3  0  2   I m"; "4	b	1"; "(x,y,z)	(-x,y,z)"; "2	a	m";
  "(0,y,z)"; ""; "  9  1  3  0  2   C c"; "4	a	1";
  "(x,y,z) 	(x,-y,z+1/2)"; ""; "  9  2  3  0  2   A n"; "4	a	1";
  "(x,y,z) 	(x+1/2,-y,z+1/2)"; ""; "  9  3  3  0  2   I a"; "4	a	1";
  "(x,y,z) 	(x+1/2,-y,z)"; ""; "  9  4  4  0  2   A a"; "4	a	1";
  "(x,y,z) 	(x+1/2,y,-z)"; ""; "  9  5  4  0  2   B n"; "4	a	1";
  "(x,y,z) 	(x+1/2,y+1/2,-z)"; ""; "  9  6  4  0  2   I b"; "4	a	1";
  "(x,y,z) 	(x,y+1/2,-z)"; ""; "  9  7  3  0  2   B b"; "4	a	1";
  "(x,y,z)	(-x,y+1/2,z)"; ""; "  9  8  3  0  2   C n"; "4	a	1";
  "(x,y,z)	(-x,y+1/2,z+1/2)"; ""; "  9  9  3  0  2   I c"; "4	a	1";
  "(x,y,z)	(-x,y,z+1/2)"; ""; "  9 10  3  0  2   A a"; "4	a	1";
  "(x,y,z)	(x+1/2,-y,z)"; ""; "  9 11  3  0  2   C n"; "4	a	1";
  "(x,y,z)	(x+1/2,-y,z+1/2)"; ""; "  9 12  3  0  2   I c"; "4	a	1";
  "(x,y,z)	(x,-y,z+1/2)"; ""; "  9 13  4  0  2   B b"; "4	a	1";
  "(x,y,z)	(x,y+1/2,-z)"; ""; "  9 14  4  0  2   A n"; "4	a	1";
  "(x,y,z)	(x+1/2,y+1/2,-z)"; ""; "  9 15  4  0  2   I a"; "4	a	1";
  "(x,y,z)	(x+1/2,y,-z)"; ""; "  9 16  3  0  2   C c"; "4	a	1";
  "(x,y,z)	(-x,y,z+1/2)"; ""; "  9 17  3  0  2   B n"; "4	a	1";
  "(x,y,z)	(-x,y+1/2,z+1/2)"; ""; "  9 18  3  0  2   I b"; "4	a	1";
  "(x,y,z)	(-x,y+1/2,z)"; ""; " 10  1  3  1  2   P 2/m"; "4	o	1";
  "(x,y,z) 	(-x,y,-z) 	(-x,-y,-z) 	(x,-y,z)"; "2	n	m"; "(x,1/2,z) 	(-x,1/2,-z)"; "2	m	m";
  "(x,0,z) 	(-x,0,-z)"; "2	l	2"; "(1/2,y,1/2) 	(1/2,-y,1/2)"; "2	k	2";
  "(0,y,1/2) 	(0,-y,1/2)"; "2	j	2"; "(1/2,y,0) 	(1/2,-y,0)"; "2	i	2";
  "(0,y,0) 	(0,-y,0)"; "1	h	2/m"; "(1/2,1/2,1/2)"; "1	g	2/m";
  "(1/2,0,1/2)"; "1	f	2/m"; "(0,1/2,1/2)"; "1	e	2/m";
  "(1/2,1/2,0)"; "1	d	2/m"; "(1/2,0,0)"; "1	c	2/m";
  "(0,0,1/2)"; "1	b	2/m"; "(0,1/2,0)"; "1	a	2/m";
  "(0,0,0)"; ""; " 10  2  4  1  2   P 2/m"; "4	o	1";
  "(x,y,z) 	(-x,-y,z) 	(-x,-y,-z) 	(x,y,-z)"; "2	n	m"; "(x,y,1/2) 	(-x,-y,1/2)"; "2	m	m";
  "(x,y,0) 	(-x,-y,0)"; "2	l	2"; "(1/2,1/2,z) 	(1/2,1/2,-z)"; "2	k	2";
  "(1/2,0,z) 	(1/2,0,-z)"; "2	j	2"; "(0,1/2,z) 	(0,1/2,-z)"; "2	i	2";
  "(0,0,z) 	(0,0,-z)"; "1	h	2/m"; "(1/2,1/2,1/2)"; "1	g	2/m";
  "(1/2,1/2,0)"; "1	f	2/m"; "(1/2,0,1/2)"; "1	e	2/m";
  "(0,1/2,1/2)"; "1	d	2/m"; "(0,1/2,0)"; "1	c	2/m";
  "(1/2,0,0)"; "1	b	2/m"; "(0,0,1/2)"; "1	a	2/m";
  "(0,0,0)"; ""; " 10  3  3  1  2   P 2/m"; "4	o	1";
  "(x,y,z)	(x,-y,-z)	(-x,-y,-z)	(-x,y,z)"; "2	n	m"; "(1/2,y,z)	(1/2,-y,-z)"; "2	m	m";
  "(0,y,z)	(0,-y,-z)"; "2	l	2"; "(x,1/2,1/2)	(-x,1/2,1/2)"; "2	k	2";
  "(x,1/2,0)	(-x,1/2,0)"; "2	j	2"; "(x,0,1/2)	(-x,0,1/2)"; "2	i	2";
  "(x,0,0)	(-x,0,0)"; "1	h	2/m"; "(1/2,1/2,1/2)"; "1	g	2/m";
  "(0,1/2,1/2)"; "1	f	2/m"; "(1/2,1/2,0)"; "1	e	2/m";
  "(1/2,0,1/2)"; "1	d	2/m"; "(0,0,1/2)"; "1	c	2/m";
  "(0,1/2,0)"; "1	b	2/m"; "(1/2,0,0)"; "1	a	2/m";
  "(0,0,0)"; ""; " 11  1  3  1  2   P 21/m"; "4	f	1";
  "(x,y,z) 	(-x,y+1/2,-z) 	(-x,-y,-z) 	(x,-y+1/2,z)"; "2	e	m"; "(x,1/4,z) 	(-x,3/4,-z)"; "2	d	-1";
  "(1/2,0,1/2) 	(1/2,1/2,1/2)"; "2	c	-1"; "(0,0,1/2) 	(0,1/2,1/2)"; "2	b	-1";
  "(1/2,0,0) 	(1/2,1/2,0)"; "2	a	-1"; "(0,0,0) 	(0,1/2,0)"; "";
  " 11  2  4  1  2   P 21/m"; "4	f	1"; "(x,y,z) 	(-x,-y,z+1/2) 	(-x,-y,-z) 	(x,y,-z+1/2)"; "2	e	m";
  "(x,y,1/4) 	(-x,-y,3/4)"; "2	d	-1"; "(1/2,1/2,0) 	(1/2,1/2,1/2)"; "2	c	-1";
  "(1/2,0,0) 	(1/2,0,1/2)"; "2	b	-1"; "(0,1/2,0) 	(0,1/2,1/2)"; "2	a	-1";
  "(0,0,0) 	(0,0,1/2)"; ""; " 11  3  3  1  2   P 21/m"; "4	f	1";
  "(x,y,z)	(x+1/2,-y,-z)	(-x,-y,-z)	(-x+1/2,y,z)"; "2	e	m"; "(1/4,y,z)	(3/4,-y,-z)"; "2	d	-1";
  "(0,1/2,1/2)	(1/2,1/2,1/2)"; "2	c	-1"; "(0,1/2,0)	(1/2,1/2,0)"; "2	b	-1";
  "(0,0,1/2)	(1/2,0,1/2)"; "2	a	-1"; "(0,0,0)	(1/2,0,0)"; "";
  " 12  1  3  1  2   C 2/m"; "8	j	1"; "(x,y,z) 	(-x,y,-z) 	(-x,-y,-z) 	(x,-y,z)"; "4	i	m";
  "(x,0,z) 	(-x,0,-z)"; "4	h	2"; "(0,y,1/2) 	(0,-y,1/2)"; "4	g	2";
  "(0,y,0) 	(0,-y,0)"; "4	f	-1"; "(1/4,1/4,1/2) 	(3/4,1/4,1/2)"; "4	e	-1";
  "(1/4,1/4,0) 	(3/4,1/4,0)"; "2	d	2/m"; "(0,1/2,1/2)"; "2	c	2/m";
  "(0,0,1/2)"; "2	b	2/m"; "(0,1/2,0)"; "2	a	2/m";
  "(0,0,0)"; ""; " 12  2  3  1  2   A 2/m"; "8	j	1";
  "(x,y,z) 	(-x,y,-z) 	(-x,-y,-z) 	(x,-y,z)"; "4	i	m"; "(x,0,z) 	(-x,0,-z)"; "4	h	2";
  "(1/2,y,1/2) 	(1/2,-y,1/2)"; "4	g	2"; "(0,y,0) 	(0,-y,0)"; "4	f	-1";
  "(1/2,1/4,3/4) 	(1/2,1/4,1/4)"; "4	e	-1"; "(0,1/4,1/4) 	(0,1/4,3/4)"; "2	d	2/m";
  "(1/2,1/2,1/2)"; "2	c	2/m"; "(1/2,0,1/2)"; "2	b	2/m";
  "(0,1/2,0)"; "2	a	2/m"; "(0,0,0)"; "";
  " 12  3  3  1  2   I 2/m"; "8	j	1"; "(x,y,z) 	(-x,y,-z) 	(-x,-y,-z) 	(x,-y,z)"; "4	i	m";
  "(x,0,z) 	(-x,0,-z)"; "4	h	2"; "(1/2,y,0) 	(1/2,-y,0)"; "4	g	2";
  "(0,y,0) 	(0,-y,0)"; "4	f	-1"; "(1/4,1/4,3/4) 	(3/4,1/4,1/4)"; "4	e	-1";
  "(3/4,1/4,3/4) 	(1/4,1/4,1/4)"; "2	d	2/m"; "(1/2,1/2,0)"; "2	c	2/m";
  "(1/2,0,0)"; "2	b	2/m"; "(0,1/2,0)"; "2	a	2/m";
  "(0,0,0)"; ""; " 12  4  4  1  2   A 2/m"; "8	j	1";
  "(x,y,z) 	(-x,-y,z) 	(-x,-y,-z) 	(x,y,-z)"; "4	i	m"; "(x,y,0) 	(-x,-y,0)"; "4	h	2";
  "(1/2,0,z) 	(1/2,0,-z)"; "4	g	2"; "(0,0,z) 	(0,0,-z)"; "4	f	-1";
  "(1/2,1/4,1/4) 	(1/2,3/4,1/4)"; "4	e	-1"; "(0,1/4,1/4) 	(0,3/4,1/4)"; "2	d	2/m";
  "(1/2,0,1/2)"; "2	c	2/m"; "(1/2,0,0)"; "2	b	2/m";
  "(0,0,1/2)"; "2	a	2/m"; "(0,0,0)"; "";
  " 12  5  4  1  2   B 2/m"; "8	j	1"; "(x,y,z) 	(-x,-y,z) 	(-x,-y,-z) 	(x,y,-z)"; "4	i	m";
  "(x,y,0) 	(-x,-y,0)"; "4	h	2"; "(1/2,1/2,z) 	(1/2,1/2,-z)"; "4	g	2";
  "(0,0,z) 	(0,0,-z)"; "4	f	-1"; "(3/4,1/2,1/4) 	(1/4,1/2,1/4)"; "4	e	-1";
  "(1/4,0,1/4) 	(3/4,0,1/4)"; "2	d	2/m"; "(1/2,1/2,1/2)"; "2	c	2/m";
  "(1/2,1/2,0)"; "2	b	2/m"; "(0,0,1/2)"; "2	a	2/m";
  "(0,0,0)"; ""; " 12  6  4  1  2   I 2/m"; "8	j	1";
  "(x,y,z) 	(-x,-y,z) 	(-x,-y,-z) 	(x,y,-z)"; "4	i	m"; "(x,y,0) 	(-x,-y,0)"; "4	h	2";
  "(0,1/2,z) 	(0,1/2,-z)"; "4	g	2"; "(0,0,z) 	(0,0,-z)"; "4	f	-1";
  "(3/4,1/4,1/4) 	(1/4,3/4,1/4)"; "4	e	-1"; "(3/4,3/4,1/4) 	(1/4,1/4,1/4)"; "2	d	2/m";
  "(0,1/2,1/2)"; "2	c	2/m"; "(0,1/2,0)"; "2	b	2/m";
  "(0,0,1/2)"; "2	a	2/m"; "(0,0,0)"; "";
  " 12  7  3  1  2   B 2/m"; "8	j	1"; "(x,y,z)	(x,-y,-z)	(-x,-y,-z)	(-x,y,z)"; "4	i	m";
  "(0,y,z)	(0,-y,-z)"; "4	h	2"; "(x,1/2,0)	(-x,1/2,0)"; "4	g	2";
  "(x,0,0)	(-x,0,0)"; "4	f	-1"; "(1/4,1/2,1/4)	(1/4,1/2,3/4)"; "4	e	-1";
  "(1/4,0,1/4)	(1/4,0,3/4)"; "2	d	2/m"; "(1/2,1/2,0)"; "2	c	2/m";
  "(0,1/2,0)"; "2	b	2/m"; "(1/2,0,0)"; "2	a	2/m";
  "(0,0,0)"; ""; " 12  8  3  1  2   C 2/m"; "8	j	1";
  "(x,y,z)	(x,-y,-z)	(-x,-y,-z)	(-x,y,z)"; "4	i	m"; "(0,y,z)	(0,-y,-z)"; "4	h	2";
  "(x,1/2,1/2)	(-x,1/2,1/2)"; "4	g	2"; "(x,0,0)	(-x,0,0)"; "4	f	-1";
  "(1/4,3/4,1/2)	(1/4,1/4,1/2)"; "4	e	-1"; "(1/4,1/4,0)	(1/4,3/4,0)"; "2	d	2/m";
  "(1/2,1/2,1/2)"; "2	c	2/m"; "(0,1/2,1/2)"; "2	b	2/m";
  "(1/2,0,0)"; "2	a	2/m"; "(0,0,0)"; "";
  " 12  9  3  1  2   I 2/m"; "8	j	1"; "(x,y,z)	(x,-y,-z)	(-x,-y,-z)	(-x,y,z)"; "4	i	m";
  "(0,y,z)	(0,-y,-z)"; "4	h	2"; "(x,0,1/2)	(-x,0,1/2)"; "4	g	2";
  "(x,0,0)	(-x,0,0)"; "4	f	-1"; "(1/4,3/4,1/4)	(1/4,1/4,3/4)"; "4	e	-1";
  "(1/4,3/4,3/4)	(1/4,1/4,1/4)"; "2	d	2/m"; "(1/2,0,1/2)"; "2	c	2/m";
  "(0,0,1/2)"; "2	b	2/m"; "(1/2,0,0)"; "2	a	2/m";
  "(0,0,0)"; ""; " 13  1  3  1  2   P 2/c"; "4	g	1";
  "(x,y,z) 	(-x,y,-z+1/2) 	(-x,-y,-z) 	(x,-y,z+1/2)"; "2	f	2"; "(1/2,y,1/4) 	(1/2,-y,3/4)"; "2	e	2";
  "(0,y,1/4) 	(0,-y,3/4)"; "2	d	-1"; "(1/2,0,0) 	(1/2,0,1/2)"; "2	c	-1";
  "(0,1/2,0) 	(0,1/2,1/2)"; "2	b	-1"; "(1/2,1/2,0) 	(1/2,1/2,1/2)"; "2	a	-1";
  "(0,0,0) 	(0,0,1/2)"; ""; " 13  2  3  1  2   P 2/n"; "4	g	1";
  "(x,y,z) 	(-x+1/2,y,-z+1/2) 	(-x,-y,-z) 	(x+1/2,-y,z+1/2)"; "2	f	2"; "(3/4,y,1/4) 	(1/4,-y,3/4)"; "2	e	2";
  "(3/4,y,3/4) 	(1/4,-y,1/4)"; "2	d	-1"; "(0,0,1/2) 	(1/2,0,0)"; "2	c	-1";
  "(0,1/2,0) 	(1/2,1/2,1/2)"; "2	b	-1"; "(0,1/2,1/2) 	(1/2,1/2,0)"; "2	a	-1";
  "(0,0,0) 	(1/2,0,1/2)"; ""; " 13  3  3  1  2   P 2/a"; "4	g	1";
  "(x,y,z) 	(-x+1/2,y,-z) 	(-x,-y,-z) 	(x+1/2,-y,z)"; "2	f	2"; "(3/4,y,1/2) 	(1/4,-y,1/2)"; "2	e	2";
  "(1/4,y,0) 	(3/4,-y,0)"; "2	d	-1"; "(1/2,0,1/2) 	(0,0,1/2)"; "2	c	-1";
  "(0,1/2,0) 	(1/2,1/2,0)"; "2	b	-1"; "(1/2,1/2,1/2) 	(0,1/2,1/2)"; "2	a	-1";
  "(0,0,0) 	(1/2,0,0)"; ""; " 13  4  4  1  2   P 2/a"; "4	g	1";
  "(x,y,z) 	(-x+1/2,-y,z) 	(-x,-y,-z) 	(x+1/2,y,-z)"; "2	f	2"; "(1/4,1/2,z) 	(3/4,1/2,-z)"; "2	e	2";
  "(1/4,0,z) 	(3/4,0,-z)"; "2	d	-1"; "(0,1/2,0) 	(1/2,1/2,0)"; "2	c	-1";
  "(0,0,1/2) 	(1/2,0,1/2)"; "2	b	-1"; "(0,1/2,1/2) 	(1/2,1/2,1/2)"; "2	a	-1";
  "(0,0,0) 	(1/2,0,0)"; ""; " 13  5  4  1  2   P 2/n"; "4	g	1";
  "(x,y,z) 	(-x+1/2,-y+1/2,z) 	(-x,-y,-z) 	(x+1/2,y+1/2,-z)"; "2	f	2"; "(1/4,3/4,z) 	(3/4,1/4,-z)"; "2	e	2";
  "(3/4,3/4,z) 	(1/4,1/4,-z)"; "2	d	-1"; "(1/2,0,0) 	(0,1/2,0)"; "2	c	-1";
  "(0,0,1/2) 	(1/2,1/2,1/2)"; "2	b	-1"; "(1/2,0,1/2) 	(0,1/2,1/2)"; "2	a	-1";
  "(0,0,0) 	(1/2,1/2,0)"; ""; " 13  6  4  1  2   P 2/b"; "4	g	1";
  "(x,y,z) 	(-x,-y+1/2,z) 	(-x,-y,-z) 	(x,y+1/2,-z)"; "2	f	2"; "(1/2,3/4,z) 	(1/2,1/4,-z)"; "2	e	2";
  "(0,1/4,z) 	(0,3/4,-z)"; "2	d	-1"; "(1/2,1/2,0) 	(1/2,0,0)"; "2	c	-1";
  "(0,0,1/2) 	(0,1/2,1/2)"; "2	b	-1"; "(1/2,1/2,1/2) 	(1/2,0,1/2)"; "2	a	-1";
  "(0,0,0) 	(0,1/2,0)"; ""; " 13  7  3  1  2   P 2/b"; "4	g	1";
  "(x,y,z)	(x,-y+1/2,-z)	(-x,-y,-z)	(-x,y+1/2,z)"; "2	f	2"; "(x,1/4,1/2)	(-x,3/4,1/2)"; "2	e	2";
  "(x,1/4,0)	(-x,3/4,0)"; "2	d	-1"; "(0,0,1/2)	(0,1/2,1/2)"; "2	c	-1";
  "(1/2,0,0)	(1/2,1/2,0)"; "2	b	-1"; "(1/2,0,1/2)	(1/2,1/2,1/2)"; "2	a	-1";
  "(0,0,0)	(0,1/2,0)"; ""; " 13  8  3  1  2   P 2/n"; "4	g	1";
  "(x,y,z)	(x,-y+1/2,-z+1/2)	(-x,-y,-z)	(-x,y+1/2,z+1/2)"; "2	f	2"; "(x,1/4,3/4)	(-x,3/4,1/4)"; "2	e	2";
  "(x,3/4,3/4)	(-x,1/4,1/4)"; "2	d	-1"; "(0,1/2,0)	(0,0,1/2)"; "2	c	-1";
  "(1/2,0,0)	(1/2,1/2,1/2)"; "2	b	-1"; "(1/2,1/2,0)	(1/2,0,1/2)"; "2	a	-1";
  "(0,0,0)	(0,1/2,1/2)"; ""; " 13  9  3  1  2   P 2/c"; "4	g	1";
  "(x,y,z)	(x,-y,-z+1/2)	(-x,-y,-z)	(-x,y,z+1/2)"; "2	f	2"; "(x,1/2,3/4)	(-x,1/2,1/4)"; "2	e	2";
  "(x,0,1/4)	(-x,0,3/4)"; "2	d	-1"; "(0,1/2,1/2)	(0,1/2,0)"; "2	c	-1";
  "(1/2,0,0)	(1/2,0,1/2)"; "2	b	-1"; "(1/2,1/2,1/2)	(1/2,1/2,0)"; "2	a	-1";
  "(0,0,0)	(0,0,1/2)"; ""; " 14  1  3  1  2   P 21/c"; "4	e	1";
  "(x,y,z) 	(-x,y+1/2,-z+1/2) 	(-x,-y,-z) 	(x,-y+1/2,z+1/2)"; "2	d	-1"; "(1/2,0,1/2) 	(1/2,1/2,0)"; "2	c	-1";
  "(0,0,1/2) 	(0,1/2,0)"; "2	b	-1"; "(1/2,0,0) 	(1/2,1/2,1/2)"; "2	a	-1";
  "(0,0,0) 	(0,1/2,1/2)"; ""; " 14  2  3  1  2   P 21/n"; "4	e	1";
  "(x,y,z) 	(-x+1/2,y+1/2,-z+1/2) 	(-x,-y,-z) 	(x+1/2,-y+1/2,z+1/2)"; "2	d	-1"; "(1/2,0,0) 	(0,1/2,1/2)"; "2	c	-1";
  "(1/2,0,1/2) 	(0,1/2,0)"; "2	b	-1"; "(0,0,1/2) 	(1/2,1/2,0)"; "2	a	-1";
  "(0,0,0) 	(1/2,1/2,1/2)"; ""; " 14  3  3  1  2   P 21/a"; "4	e	1";
  "(x,y,z) 	(-x+1/2,y+1/2,-z) 	(-x,-y,-z) 	(x+1/2,-y+1/2,z)"; "2	d	-1"; "(0,0,1/2) 	(1/2,1/2,1/2)"; "2	c	-1";
  "(1/2,0,0) 	(0,1/2,0)"; "2	b	-1"; "(1/2,0,1/2) 	(0,1/2,1/2)"; "2	a	-1";
  "(0,0,0) 	(1/2,1/2,0)"; ""; " 14  4  4  1  2   P 21/a"; "4	e	1";
  "(x,y,z) 	(-x+1/2,-y,z+1/2) 	(-x,-y,-z) 	(x+1/2,y,-z+1/2)"; "2	d	-1"; "(1/2,1/2,0) 	(0,1/2,1/2)"; "2	c	-1";
  "(1/2,0,0) 	(0,0,1/2)"; "2	b	-1"; "(0,1/2,0) 	(1/2,1/2,1/2)"; "2	a	-1";
  "(0,0,0) 	(1/2,0,1/2)"; ""; " 14  5  4  1  2   P 21/n"; "4	e	1";
  "(x,y,z) 	(-x+1/2,-y+1/2,z+1/2) 	(-x,-y,-z) 	(x+1/2,y+1/2,-z+1/2)"; "2	d	-1"; "(0,1/2,0) 	(1/2,0,1/2)"; "2	c	-1";
  "(1/2,1/2,0) 	(0,0,1/2)"; "2	b	-1"; "(1/2,0,0) 	(0,1/2,1/2)"; "2	a	-1";
  "(0,0,0) 	(1/2,1/2,1/2)"; ""; " 14  6  4  1  2   P 21/b"; "4	e	1";
  "(x,y,z) 	(-x,-y+1/2,z+1/2) 	(-x,-y,-z) 	(x,y+1/2,-z+1/2)"; "2	d	-1"; "(1/2,0,0) 	(1/2,1/2,1/2)"; "2	c	-1";
  "(0,1/2,0) 	(0,0,1/2)"; "2	b	-1"; "(1/2,1/2,0) 	(1/2,0,1/2)"; "2	a	-1";
  "(0,0,0) 	(0,1/2,1/2)"; ""; " 14  7  3  1  2   P 21/b"; "4	e	1";
  "(x,y,z)	(x+1/2,-y+1/2,-z)	(-x,-y,-z)	(-x+1/2,y+1/2,z)"; "2	d	-1"; "(0,1/2,1/2)	(1/2,0,1/2)"; "2	c	-1";
  "(0,1/2,0)	(1/2,0,0)"; "2	b	-1"; "(0,0,1/2)	(1/2,1/2,1/2)"; "2	a	-1";
  "(0,0,0)	(1/2,1/2,0)"; ""; " 14  8  3  1  2   P 21/n"; "4	e	1";
  "(x,y,z)	(x+1/2,-y+1/2,-z+1/2)	(-x,-y,-z)	(-x+1/2,y+1/2,z+1/2)"; "2	d	-1"; "(0,0,1/2)	(1/2,1/2,0)"; "2	c	-1";
  "(0,1/2,1/2)	(1/2,0,0)"; "2	b	-1"; "(0,1/2,0)	(1/2,0,1/2)"; "2	a	-1";
  "(0,0,0)	(1/2,1/2,1/2)"; ""; " 14  9  3  1  2   P 21/c"; "4	e	1";
  "(x,y,z)	(x+1/2,-y,-z+1/2)	(-x,-y,-z)	(-x+1/2,y,z+1/2)"; "2	d	-1"; "(0,1/2,0)	(1/2,1/2,1/2)"; "2	c	-1";
  "(0,0,1/2)	(1/2,0,0)"; "2	b	-1"; "(0,1/2,1/2)	(1/2,1/2,0)"; "2	a	-1";
  "(0,0,0)	(1/2,0,1/2)"; ""; " 15  1  3  1  2   C 2/c"; "8	f	1";
  "(x,y,z) 	(-x,y,-z+1/2) 	(-x,-y,-z) 	(x,-y,z+1/2)"; "4	e	2"; "(0,y,1/4) 	(0,-y,3/4)"; "4	d	-1";
  "(1/4,1/4,1/2) 	(3/4,1/4,0)"; "4	c	-1"; "(1/4,1/4,0) 	(3/4,1/4,1/2)"; "4	b	-1";
  "(0,1/2,0) 	(0,1/2,1/2)"; "4	a	-1"; "(0,0,0) 	(0,0,1/2)"; "";
  " 15  2  3  1  2   A 2/n"; "8	f	1"; "(x,y,z) 	(-x+1/2,y,-z+1/2) 	(-x,-y,-z) 	(x+1/2,-y,z+1/2)"; "4	e	2";
  "(3/4,y,3/4) 	(1/4,-y,1/4)"; "4	d	-1"; "(1/2,1/4,3/4) 	(0,1/4,3/4)"; "4	c	-1";
  "(0,1/4,1/4) 	(1/2,1/4,1/4)"; "4	b	-1"; "(0,1/2,0) 	(1/2,1/2,1/2)"; "4	a	-1";
  "(0,0,0) 	(1/2,0,1/2)"; ""; " 15  3  3  1  2   I 2/a"; "8	f	1";
  "(x,y,z) 	(-x+1/2,y,-z) 	(-x,-y,-z) 	(x+1/2,-y,z)"; "4	e	2"; "(1/4,y,0) 	(3/4,-y,0)"; "4	d	-1";
  "(1/4,1/4,3/4) 	(1/4,1/4,1/4)"; "4	c	-1"; "(3/4,1/4,3/4) 	(3/4,1/4,1/4)"; "4	b	-1";
  "(0,1/2,0) 	(1/2,1/2,0)"; "4	a	-1"; "(0,0,0) 	(1/2,0,0)"; "";
  " 15  4  4  1  2   A 2/a"; "8	f	1"; "(x,y,z) 	(-x+1/2,-y,z) 	(-x,-y,-z) 	(x+1/2,y,-z)"; "4	e	2";
  "(1/4,0,z) 	(3/4,0,-z)"; "4	d	-1"; "(1/2,1/4,1/4) 	(0,3/4,1/4)"; "4	c	-1";
  "(0,1/4,1/4) 	(1/2,3/4,1/4)"; "4	b	-1"; "(0,0,1/2) 	(1/2,0,1/2)"; "4	a	-1";
  "(0,0,0) 	(1/2,0,0)"; ""; " 15  5  4  1  2   B 2/n"; "8	f	1";
  "(x,y,z) 	(-x+1/2,-y+1/2,z) 	(-x,-y,-z) 	(x+1/2,y+1/2,-z)"; "4	e	2"; "(3/4,3/4,z) 	(1/4,1/4,-z)"; "4	d	-1";
  "(3/4,1/2,1/4) 	(3/4,0,1/4)"; "4	c	-1"; "(1/4,0,1/4) 	(1/4,1/2,1/4)"; "4	b	-1";
  "(0,0,1/2) 	(1/2,1/2,1/2)"; "4	a	-1"; "(0,0,0) 	(1/2,1/2,0)"; "";
  " 15  6  4  1  2   I 2/b"; "8	f	1"; "(x,y,z) 	(-x,-y+1/2,z) 	(-x,-y,-z) 	(x,y+1/2,-z)"; "4	e	2";
  "(0,1/4,z) 	(0,3/4,-z)"; "4	d	-1"; "(3/4,1/4,1/4) 	(1/4,1/4,1/4)"; "4	c	-1";
  "(3/4,3/4,1/4) 	(1/4,3/4,1/4)"; "4	b	-1"; "(0,0,1/2) 	(0,1/2,1/2)"; "4	a	-1";
  "(0,0,0) 	(0,1/2,0)"; ""; " 15  7  3  1  2   B 2/b"; "8	f	1";
  "(x,y,z)	(x,-y+1/2,-z)	(-x,-y,-z)	(-x,y+1/2,z)"; "4	e	2"; "(x,1/4,0)	(-x,3/4,0)"; "4	d	-1";
  "(1/4,1/2,1/4)	(1/4,0,3/4)"; "4	c	-1"; "(1/4,0,1/4)	(1/4,1/2,3/4)"; "4	b	-1";
  "(1/2,0,0)	(1/2,1/2,0)"; "4	a	-1"; "(0,0,0)	(0,1/2,0)"; "";
  " 15  8  3  1  2   C 2/n"; "8	f	1"; "(x,y,z)	(x,-y+1/2,-z+1/2)	(-x,-y,-z)	(-x,y+1/2,z+1/2)"; "4	e	2";
  "(x,3/4,3/4)	(-x,1/4,1/4)"; "4	d	-1"; "(1/4,3/4,1/2)	(1/4,3/4,0)"; "4	c	-1";
  "(1/4,1/4,0)	(1/4,1/4,1/2)"; "4	b	-1"; "(1/2,0,0)	(1/2,1/2,1/2)"; "4	a	-1";
  "(0,0,0)	(0,1/2,1/2)"; ""; " 15  9  3  1  2   I 2/c"; "8	f	1";
  "(x,y,z)	(x,-y,-z+1/2)	(-x,-y,-z)	(-x,y,z+1/2)"; "4	e	2"; "(x,0,1/4)	(-x,0,3/4)"; "4	d	-1";
  "(1/4,3/4,1/4)	(1/4,1/4,1/4)"; "4	c	-1"; "(1/4,3/4,3/4)	(1/4,1/4,3/4)"; "4	b	-1";
  "(1/2,0,0)	(1/2,0,1/2)"; "4	a	-1"; "(0,0,0)	(0,0,1/2)"; "";
  " 15 10  3  1  2   A 2/a"; "8	f	1"; "(x,y,z)	(-x+1/2,y,-z)	(-x,-y,-z)	(x+1/2,-y,z)"; "4	e	2";
  "(1/4,y,0)	(3/4,-y,0)"; "4	d	-1"; "(1/2,3/4,1/4)	(0,3/4,3/4)"; "4	c	-1";
  "(0,3/4,1/4)	(1/2,3/4,3/4)"; "4	b	-1"; "(0,1/2,0)	(1/2,1/2,0)"; "4	a	-1";
  "(0,0,0)	(1/2,0,0)"; ""; " 15 11  3  1  2   C 2/n"; "8	f	1";
  "(x,y,z)	(-x+1/2,y,-z+1/2)	(-x,-y,-z)	(x+1/2,-y,z+1/2)"; "4	e	2"; "(3/4,y,3/4)	(1/4,-y,1/4)"; "4	d	-1";
  "(3/4,3/4,1/2)	(3/4,3/4,0)"; "4	c	-1"; "(1/4,3/4,0)	(1/4,3/4,1/2)"; "4	b	-1";
  "(0,1/2,0)	(1/2,1/2,1/2)"; "4	a	-1"; "(0,0,0)	(1/2,0,1/2)"; "";
  " 15 12  3  1  2   I 2/c"; "8	f	1"; "(x,y,z)	(-x,y,-z+1/2)	(-x,-y,-z)	(x,-y,z+1/2)"; "4	e	2";
  "(0,y,1/4)	(0,-y,3/4)"; "4	d	-1"; "(3/4,3/4,1/4)	(1/4,3/4,1/4)"; "4	c	-1";
  "(3/4,3/4,3/4)	(1/4,3/4,3/4)"; "4	b	-1"; "(0,1/2,0)	(0,1/2,1/2)"; "4	a	-1";
  "(0,0,0)	(0,0,1/2)"; ""; " 15 13  4  1  2   B 2/b"; "8	f	1";
  "(x,y,z)	(-x,-y+1/2,z)	(-x,-y,-z)	(x,y+1/2,-z)"; "4	e	2"; "(0,1/4,z)	(0,3/4,-z)"; "4	d	-1";
  "(1/4,1/2,3/4)	(3/4,0,3/4)"; "4	c	-1"; "(1/4,0,3/4)	(3/4,1/2,3/4)"; "4	b	-1";
  "(0,0,1/2)	(0,1/2,1/2)"; "4	a	-1"; "(0,0,0)	(0,1/2,0)"; "";
  " 15 14  4  1  2   A 2/n"; "8	f	1"; "(x,y,z)	(-x+1/2,-y+1/2,z)	(-x,-y,-z)	(x+1/2,y+1/2,-z)"; "4	e	2";
  "(3/4,3/4,z)	(1/4,1/4,-z)"; "4	d	-1"; "(1/2,3/4,3/4)	(0,3/4,3/4)"; "4	c	-1";
  "(0,1/4,3/4)	(1/2,1/4,3/4)"; "4	b	-1"; "(0,0,1/2)	(1/2,1/2,1/2)"; "4	a	-1";
  "(0,0,0)	(1/2,1/2,0)"; ""; " 15 15  4  1  2   I 2/a"; "8	f	1";
  "(x,y,z)	(-x+1/2,-y,z)	(-x,-y,-z)	(x+1/2,y,-z)"; "4	e	2"; "(1/4,0,z)	(3/4,0,-z)"; "4	d	-1";
  "(1/4,3/4,3/4)	(1/4,1/4,3/4)"; "4	c	-1"; "(3/4,3/4,3/4)	(3/4,1/4,3/4)"; "4	b	-1";
  "(0,0,1/2)	(1/2,0,1/2)"; "4	a	-1"; "(0,0,0)	(1/2,0,0)"; "";
  " 15 16  3  1  2   C 2/c"; "8	f	1"; "(x,y,z)	(x,-y,-z+1/2)	(-x,-y,-z)	(-x,y,z+1/2)"; "4	e	2";
  "(x,0,1/4)	(-x,0,3/4)"; "4	d	-1"; "(3/4,1/4,1/2)	(3/4,3/4,0)"; "4	c	-1";
  "(3/4,1/4,0)	(3/4,3/4,1/2)"; "4	b	-1"; "(1/2,0,0)	(1/2,0,1/2)"; "4	a	-1";
  "(0,0,0)	(0,0,1/2)"; ""; " 15 17  3  1  2   B 2/n"; "8	f	1";
  "(x,y,z)	(x,-y+1/2,-z+1/2)	(-x,-y,-z)	(-x,y+1/2,z+1/2)"; "4	e	2"; "(x,3/4,3/4)	(-x,1/4,1/4)"; "4	d	-1";
  "(3/4,1/2,3/4)	(3/4,0,3/4)"; "4	c	-1"; "(3/4,0,1/4)	(3/4,1/2,1/4)"; "4	b	-1";
  "(1/2,0,0)	(1/2,1/2,1/2)"; "4	a	-1"; "(0,0,0)	(0,1/2,1/2)"; "";
  " 15 18  3  1  2   I 2/b"; "8	f	1"; "(x,y,z)	(x,-y+1/2,-z)	(-x,-y,-z)	(-x,y+1/2,z)"; "4	e	2";
  "(x,1/4,0)	(-x,3/4,0)"; "4	d	-1"; "(3/4,1/4,3/4)	(3/4,1/4,1/4)"; "4	c	-1";
  "(3/4,3/4,3/4)	(3/4,3/4,1/4)"; "4	b	-1"; "(1/2,0,0)	(1/2,1/2,0)"; "4	a	-1";
  "(0,0,0)	(0,1/2,0)"; ""; " 16  1  5  0  4   P 2 2 2"; "4	u	1";
  "(x,y,z)	(-x,-y,z)	(-x,y,-z)	(x,-y,-z)"; "2	t	..2"; "(1/2,1/2,z)	(1/2,1/2,-z)"; "2	s	..2";
  "(0,1/2,z)	(0,1/2,-z)"; "2	r	..2"; "(1/2,0,z)	(1/2,0,-z)"; "2	q	..2";
  "(0,0,z)	(0,0,-z)"; "2	p	.2."; "(1/2,y,1/2)	(1/2,-y,1/2)"; "2	o	.2.";
  "(1/2,y,0)	(1/2,-y,0)"; "2	n	.2."; "(0,y,1/2)	(0,-y,1/2)"; "2	m	.2.";
  "(0,y,0)	(0,-y,0)"; "2	l	2.."; "(x,1/2,1/2)	(-x,1/2,1/2)"; "2	k	2..";
  "(x,1/2,0)	(-x,1/2,0)"; "2	j	2.."; "(x,0,1/2)	(-x,0,1/2)"; "2	i	2..";
  "(x,0,0)	(-x,0,0)"; "1	h	222"; "(1/2,1/2,1/2)"; "1	g	222";
  "(0,1/2,1/2)"; "1	f	222"; "(1/2,0,1/2)"; "1	e	222";
  "(1/2,1/2,0)"; "1	d	222"; "(0,0,1/2)"; "1	c	222";
  "(0,1/2,0)"; "1	b	222"; "(1/2,0,0)"; "1	a	222";
  "(0,0,0)"; ""; " 16  2  5  0  4   P 2 2 2"; "4	u	1";
  "(x,y,z)	(-x,-y,z)	(x,-y,-z)	(-x,y,-z)"; "2	t	..2"; "(1/2,1/2,z)	(1/2,1/2,-z)"; "2	s	..2";
  "(1/2,0,z)	(1/2,0,-z)"; "2	r	..2"; "(0,1/2,z)	(0,1/2,-z)"; "2	q	..2";
  "(0,0,z)	(0,0,-z)"; "2	p	.2."; "(x,1/2,1/2)	(-x,1/2,1/2)"; "2	o	.2.";
  "(x,1/2,0)	(-x,1/2,0)"; "2	n	.2."; "(x,0,1/2)	(-x,0,1/2)"; "2	m	.2.";
  "(x,0,0)	(-x,0,0)"; "2	l	2.."; "(1/2,y,1/2)	(1/2,-y,1/2)"; "2	k	2..";
  "(1/2,y,0)	(1/2,-y,0)"; "2	j	2.."; "(0,y,1/2)	(0,-y,1/2)"; "2	i	2..";
  "(0,y,0)	(0,-y,0)"; "1	h	222"; "(1/2,1/2,1/2)"; "1	g	222";
  "(1/2,0,1/2)"; "1	f	222"; "(0,1/2,1/2)"; "1	e	222";
  "(1/2,1/2,0)"; "1	d	222"; "(0,0,1/2)"; "1	c	222";
  "(1/2,0,0)"; "1	b	222"; "(0,1/2,0)"; "1	a	222";
  "(0,0,0)"; ""; " 16  3  5  0  4   P 2 2 2"; "4	u	1";
  "(x,y,z)	(x,-y,-z)	(-x,-y,z)	(-x,y,-z)"; "2	t	..2"; "(x,1/2,1/2)	(-x,1/2,1/2)"; "2	s	..2";
  "(x,0,1/2)	(-x,0,1/2)"; "2	r	..2"; "(x,1/2,0)	(-x,1/2,0)"; "2	q	..2";
  "(x,0,0)	(-x,0,0)"; "2	p	.2."; "(1/2,1/2,z)	(1/2,1/2,-z)"; "2	o	.2.";
  "(0,1/2,z)	(0,1/2,-z)"; "2	n	.2."; "(1/2,0,z)	(1/2,0,-z)"; "2	m	.2.";
  "(0,0,z)	(0,0,-z)"; "2	l	2.."; "(1/2,y,1/2)	(1/2,-y,1/2)"; "2	k	2..";
  "(0,y,1/2)	(0,-y,1/2)"; "2	j	2.."; "(1/2,y,0)	(1/2,-y,0)"; "2	i	2..";
  "(0,y,0)	(0,-y,0)"; "1	h	222"; "(1/2,1/2,1/2)"; "1	g	222";
  "(1/2,0,1/2)"; "1	f	222"; "(1/2,1/2,0)"; "1	e	222";
  "(0,1/2,1/2)"; "1	d	222"; "(1/2,0,0)"; "1	c	222";
  "(0,0,1/2)"; "1	b	222"; "(0,1/2,0)"; "1	a	222";
  "(0,0,0)"; ""; " 16  4  5  0  4   P 2 2 2"; "4	u	1";
  "(x,y,z)	(x,-y,-z)	(-x,y,-z)	(-x,-y,z)"; "2	t	..2"; "(x,1/2,1/2)	(-x,1/2,1/2)"; "2	s	..2";
  "(x,1/2,0)	(-x,1/2,0)"; "2	r	..2"; "(x,0,1/2)	(-x,0,1/2)"; "2	q	..2";
  "(x,0,0)	(-x,0,0)"; "2	p	.2."; "(1/2,y,1/2)	(1/2,-y,1/2)"; "2	o	.2.";
  "(0,y,1/2)	(0,-y,1/2)"; "2	n	.2."; "(1/2,y,0)	(1/2,-y,0)"; "2	m	.2.";
  "(0,y,0)	(0,-y,0)"; "2	l	2.."; "(1/2,1/2,z)	(1/2,1/2,-z)"; "2	k	2..";
  "(0,1/2,z)	(0,1/2,-z)"; "2	j	2.."; "(1/2,0,z)	(1/2,0,-z)"; "2	i	2..";
  "(0,0,z)	(0,0,-z)"; "1	h	222"; "(1/2,1/2,1/2)"; "1	g	222";
  "(1/2,1/2,0)"; "1	f	222"; "(1/2,0,1/2)"; "1	e	222";
  "(0,1/2,1/2)"; "1	d	222"; "(1/2,0,0)"; "1	c	222";
  "(0,1/2,0)"; "1	b	222"; "(0,0,1/2)"; "1	a	222";
  "(0,0,0)"; ""; " 16  5  5  0  4   P 2 2 2"; "4	u	1";
  "(x,y,z)	(-x,y,-z)	(x,-y,-z)	(-x,-y,z)"; "2	t	..2"; "(1/2,y,1/2)	(1/2,-y,1/2)"; "2	s	..2";
  "(1/2,y,0)	(1/2,-y,0)"; "2	r	..2"; "(0,y,1/2)	(0,-y,1/2)"; "2	q	..2";
  "(0,y,0)	(0,-y,0)"; "2	p	.2."; "(x,1/2,1/2)	(-x,1/2,1/2)"; "2	o	.2.";
  "(x,0,1/2)	(-x,0,1/2)"; "2	n	.2."; "(x,1/2,0)	(-x,1/2,0)"; "2	m	.2.";
  "(x,0,0)	(-x,0,0)"; "2	l	2.."; "(1/2,1/2,z)	(1/2,1/2,-z)"; "2	k	2..";
  "(1/2,0,z)	(1/2,0,-z)"; "2	j	2.."; "(0,1/2,z)	(0,1/2,-z)"; "2	i	2..";
  "(0,0,z)	(0,0,-z)"; "1	h	222"; "(1/2,1/2,1/2)"; "1	g	222";
  "(1/2,1/2,0)"; "1	f	222"; "(0,1/2,1/2)"; "1	e	222";
  "(1/2,0,1/2)"; "1	d	222"; "(0,1/2,0)"; "1	c	222";
  "(1/2,0,0)"; "1	b	222"; "(0,0,1/2)"; "1	a	222";
  "(0,0,0)"; ""; " 16  6  5  0  4   P 2 2 2"; "4	u	1";
  "(x,y,z)	(-x,y,-z)	(-x,-y,z)	(x,-y,-z)"; "2	t	..2"; "(1/2,y,1/2)	(1/2,-y,1/2)"; "2	s	..2";
  "(0,y,1/2)	(0,-y,1/2)"; "2	r	..2"; "(1/2,y,0)	(1/2,-y,0)"; "2	q	..2";
  "(0,y,0)	(0,-y,0)"; "2	p	.2."; "(1/2,1/2,z)	(1/2,1/2,-z)"; "2	o	.2.";
  "(1/2,0,z)	(1/2,0,-z)"; "2	n	.2."; "(0,1/2,z)	(0,1/2,-z)"; "2	m	.2.";
  "(0,0,z)	(0,0,-z)"; "2	l	2.."; "(x,1/2,1/2)	(-x,1/2,1/2)"; "2	k	2..";
  "(x,0,1/2)	(-x,0,1/2)"; "2	j	2.."; "(x,1/2,0)	(-x,1/2,0)"; "2	i	2..";
  "(x,0,0)	(-x,0,0)"; "1	h	222"; "(1/2,1/2,1/2)"; "1	g	222";
  "(0,1/2,1/2)"; "1	f	222"; "(1/2,1/2,0)"; "1	e	222";
  "(1/2,0,1/2)"; "1	d	222"; "(0,1/2,0)"; "1	c	222";
  "(0,0,1/2)"; "1	b	222"; "(1/2,0,0)"; "1	a	222";
  "(0,0,0)"; ""; " 17  1  5  0  4   P 2 2 21"; "4	e	1";
  "(x,y,z)	(-x,-y,z+1/2)	(-x,y,-z+1/2)	(x,-y,-z)"; "2	d	.2."; "(1/2,y,1/4)	(1/2,-y,3/4)"; "2	c	.2.";
  "(0,y,1/4)	(0,-y,3/4)"; "2	b	2.."; "(x,1/2,0)	(-x,1/2,1/2)"; "2	a	2..";
  "(x,0,0)	(-x,0,1/2)"; ""; " 17  2  5  0  4   P 2 2 21"; "4	e	1";
  "(x,y,z)	(-x,-y,z+1/2)	(x,-y,-z+1/2)	(-x,y,-z)"; "2	d	.2."; "(x,1/2,3/4)	(-x,1/2,1/4)"; "2	c	.2.";
  "(x,0,3/4)	(-x,0,1/4)"; "2	b	2.."; "(1/2,y,0)	(1/2,-y,1/2)"; "2	a	2..";
  "(0,y,0)	(0,-y,1/2)"; ""; " 17  3  5  0  4   P 21 2 2"; "4	e	1";
  "(x,y,z)	(x+1/2,-y,-z)	(-x+1/2,-y,z)	(-x,y,-z)"; "2	d	.2."; "(1/4,1/2,z)	(3/4,1/2,-z)"; "2	c	.2.";
  "(1/4,0,z)	(3/4,0,-z)"; "2	b	2.."; "(0,y,1/2)	(1/2,-y,1/2)"; "2	a	2..";
  "(0,y,0)	(1/2,-y,0)"; ""; " 17  4  5  0  4   P 21 2 2"; "4	e	1";
  "(x,y,z)	(x+1/2,-y,-z)	(-x+1/2,y,-z)	(-x,-y,z)"; "2	d	.2."; "(3/4,y,1/2)	(1/4,-y,1/2)"; "2	c	.2.";
  "(3/4,y,0)	(1/4,-y,0)"; "2	b	2.."; "(0,1/2,z)	(1/2,1/2,-z)"; "2	a	2..";
  "(0,0,z)	(1/2,0,-z)"; ""; " 17  5  5  0  4   P 2 21 2"; "4	e	1";
  "(x,y,z)	(-x,y+1/2,-z)	(x,-y+1/2,-z)	(-x,-y,z)"; "2	d	.2."; "(x,1/4,1/2)	(-x,3/4,1/2)"; "2	c	.2.";
  "(x,1/4,0)	(-x,3/4,0)"; "2	b	2.."; "(1/2,0,z)	(1/2,1/2,-z)"; "2	a	2..";
  "(0,0,z)	(0,1/2,-z)"; ""; " 17  6  5  0  4   P 2 21 2"; "4	e	1";
  "(x,y,z)	(-x,y+1/2,-z)	(-x,-y+1/2,z)	(x,-y,-z)"; "2	d	.2."; "(1/2,3/4,z)	(1/2,1/4,-z)"; "2	c	.2.";
  "(0,3/4,z)	(0,1/4,-z)"; "2	b	2.."; "(x,0,1/2)	(-x,1/2,1/2)"; "2	a	2..";
  "(x,0,0)	(-x,1/2,0)"; ""; " 18  1  5  0  4   P 21 21 2"; "4	c	1";
  "(x,y,z)	(-x,-y,z)	(-x+1/2,y+1/2,-z)	(x+1/2,-y+1/2,-z)"; "2	b	..2"; "(0,1/2,z)	(1/2,0,-z)"; "2	a	..2";
  "(0,0,z)	(1/2,1/2,-z)"; ""; " 18  2  5  0  4   P 21 21 2"; "4	c	1";
  "(x,y,z)	(-x,-y,z)	(x+1/2,-y+1/2,-z)	(-x+1/2,y+1/2,-z)"; "2	b	..2"; "(1/2,0,z)	(0,1/2,-z)"; "2	a	..2";
  "(0,0,z)	(1/2,1/2,-z)"; ""; " 18  3  5  0  4   P 2 21 21"; "4	c	1";
  "(x,y,z)	(x,-y,-z)	(-x,-y+1/2,z+1/2)	(-x,y+1/2,-z+1/2)"; "2	b	..2"; "(x,0,1/2)	(-x,1/2,0)"; "2	a	..2";
  "(x,0,0)	(-x,1/2,1/2)"; ""; " 18  4  5  0  4   P 2 21 21"; "4	c	1";
  "(x,y,z)	(x,-y,-z)	(-x,y+1/2,-z+1/2)	(-x,-y+1/2,z+1/2)"; "2	b	..2"; "(x,1/2,0)	(-x,0,1/2)"; "2	a	..2";
  "(x,0,0)	(-x,1/2,1/2)"; ""; " 18  5  5  0  4   P 21 2 21"; "4	c	1";
  "(x,y,z)	(-x,y,-z)	(x+1/2,-y,-z+1/2)	(-x+1/2,-y,z+1/2)"; "2	b	..2"; "(1/2,y,0)	(0,-y,1/2)"; "2	a	..2";
  "(0,y,0)	(1/2,-y,1/2)"; ""; " 18  6  5  0  4   P 21 2 21"; "4	c	1";
  "(x,y,z)	(-x,y,-z)	(-x+1/2,-y,z+1/2)	(x+1/2,-y,-z+1/2)"; "2	b	..2"; "(0,y,1/2)	(1/2,-y,0)"; "2	a	..2";
  "(0,y,0)	(1/2,-y,1/2)"; ""; " 19  1  5  0  4   P 21 21 21"; "4	a	1";
  "(x,y,z)	(-x+1/2,-y,z+1/2)	(-x,y+1/2,-z+1/2)	(x+1/2,-y+1/2,-z)"; ""; " 19  2  5  0  4   P 21 21 21"; "4	a	1";
  "(x,y,z)	(-x,-y+1/2,z+1/2)	(x+1/2,-y,-z+1/2)	(-x+1/2,y+1/2,-z)"; ""; " 19  3  5  0  4   P 21 21 21"; "4	a	1";
  "(x,y,z)	(x+1/2,-y+1/2,-z)	(-x+1/2,-y,z+1/2)	(-x,y+1/2,-z+1/2)"; ""; " 19  4  5  0  4   P 21 21 21"; "4	a	1";
  "(x,y,z)	(x+1/2,-y,-z+1/2)	(-x+1/2,y+1/2,-z)	(-x,-y+1/2,z+1/2)"; ""; " 19  5  5  0  4   P 21 21 21"; "4	a	1";
  "(x,y,z)	(-x,y+1/2,-z+1/2)	(x+1/2,-y+1/2,-z)	(-x+1/2,-y,z+1/2)"; ""; " 19  6  5  0  4   P 21 21 21"; "4	a	1";
  "(x,y,z)	(-x+1/2,y+1/2,-z)	(-x,-y+1/2,z+1/2)	(x+1/2,-y,-z+1/2)"; ""; " 20  1  5  0  4   C 2 2 21"; "8	c	1";
  "(x,y,z)	(-x,-y,z+1/2)	(-x,y,-z+1/2)	(x,-y,-z)"; "4	b	.2."; "(0,y,1/4)	(0,-y,3/4)"; "4	a	2..";
  "(x,0,0)	(-x,0,1/2)"; ""; " 20  2  5  0  4   C 2 2 21"; "8	c	1";
  "(x,y,z)	(-x,-y,z+1/2)	(x,-y,-z+1/2)	(-x,y,-z)"; "4	b	.2."; "(x,0,3/4)	(-x,0,1/4)"; "4	a	2..";
  "(0,y,0)	(0,-y,1/2)"; ""; " 20  3  5  0  4   A 21 2 2"; "8	c	1";
  "(x,y,z)	(x+1/2,-y,-z)	(-x+1/2,-y,z)	(-x,y,-z)"; "4	b	.2."; "(1/4,0,z)	(3/4,0,-z)"; "4	a	2..";
  "(0,y,0)	(1/2,-y,0)"; ""; " 20  4  5  0  4   A 21 2 2"; "8	c	1";
  "(x,y,z)	(x+1/2,-y,-z)	(-x+1/2,y,-z)	(-x,-y,z)"; "4	b	.2."; "(3/4,y,0)	(1/4,-y,0)"; "4	a	2..";
  "(0,0,z)	(1/2,0,-z)"; ""; " 20  5  5  0  4   B 2 21 2"; "8	c	1";
  "(x,y,z)	(-x,y+1/2,-z)	(x,-y+1/2,-z)	(-x,-y,z)"; "4	b	.2."; "(x,1/4,0)	(-x,3/4,0)"; "4	a	2..";
  "(0,0,z)	(0,1/2,-z)"; ""; " 20  6  5  0  4   B 2 21 2"; "8	c	1";
  "(x,y,z)	(-x,y+1/2,-z)	(-x,-y+1/2,z)	(x,-y,-z)"; "4	b	.2."; "(0,3/4,z)	(0,1/4,-z)"; "4	a	2..";
  "(x,0,0)	(-x,1/2,0)"; ""; " 21  1  5  0  4   C 2 2 2"; "8	l	1";
  "(x,y,z)	(-x,-y,z)	(-x,y,-z)	(x,-y,-z)"; "4	k	..2"; "(1/4,1/4,z)	(3/4,1/4,-z)"; "4	j	..2";
  "(0,1/2,z)	(0,1/2,-z)"; "4	i	..2"; "(0,0,z)	(0,0,-z)"; "4	h	.2.";
  "(0,y,1/2)	(0,-y,1/2)"; "4	g	.2."; "(0,y,0)	(0,-y,0)"; "4	f	2..";
  "(x,0,1/2)	(-x,0,1/2)"; "4	e	2.."; "(x,0,0)	(-x,0,0)"; "2	d	222";
  "(0,0,1/2)"; "2	c	222"; "(1/2,0,1/2)"; "2	b	222";
  "(0,1/2,0)"; "2	a	222"; "(0,0,0)"; "";
  " 21  2  5  0  4   C 2 2 2"; "8	l	1"; "(x,y,z)	(-x,-y,z)	(x,-y,-z)	(-x,y,-z)"; "4	k	..2";
  "(1/4,1/4,z)	(1/4,3/4,-z)"; "4	j	..2"; "(1/2,0,z)	(1/2,0,-z)"; "4	i	..2";
  "(0,0,z)	(0,0,-z)"; "4	h	.2."; "(x,0,1/2)	(-x,0,1/2)"; "4	g	.2.";
  "(x,0,0)	(-x,0,0)"; "4	f	2.."; "(0,y,1/2)	(0,-y,1/2)"; "4	e	2..";
  "(0,y,0)	(0,-y,0)"; "2	d	222"; "(0,0,1/2)"; "2	c	222";
  "(0,1/2,1/2)"; "2	b	222"; "(1/2,0,0)"; "2	a	222";
  "(0,0,0)"; ""; " 21  3  5  0  4   A 2 2 2"; "8	l	1";
  "(x,y,z)	(x,-y,-z)	(-x,-y,z)	(-x,y,-z)"; "4	k	..2"; "(x,1/4,1/4)	(-x,3/4,1/4)"; "4	j	..2";
  "(x,0,1/2)	(-x,0,1/2)"; "4	i	..2"; "(x,0,0)	(-x,0,0)"; "4	h	.2.";
  "(1/2,0,z)	(1/2,0,-z)"; "4	g	.2."; "(0,0,z)	(0,0,-z)"; "4	f	2..";
  "(1/2,y,0)	(1/2,-y,0)"; "4	e	2.."; "(0,y,0)	(0,-y,0)"; "2	d	222";
  "(1/2,0,0)"; "2	c	222"; "(1/2,1/2,0)"; "2	b	222";
  "(0,0,1/2)"; "2	a	222"; "(0,0,0)"; "";
  " 21  4  5  0  4   A 2 2 2"; "8	l	1"; "(x,y,z)	(x,-y,-z)	(-x,y,-z)	(-x,-y,z)"; "4	k	..2";
  "(x,1/4,1/4)	(-x,1/4,3/4)"; "4	j	..2"; "(x,1/2,0)	(-x,1/2,0)"; "4	i	..2";
  "(x,0,0)	(-x,0,0)"; "4	h	.2."; "(1/2,y,0)	(1/2,-y,0)"; "4	g	.2.";
  "(0,y,0)	(0,-y,0)"; "4	f	2.."; "(1/2,0,z)	(1/2,0,-z)"; "4	e	2..";
  "(0,0,z)	(0,0,-z)"; "2	d	222"; "(1/2,0,0)"; "2	c	222";
  "(1/2,0,1/2)"; "2	b	222"; "(0,1/2,0)"; "2	a	222";
  "(0,0,0)"; ""; " 21  5  5  0  4   B 2 2 2"; "8	l	1";
  "(x,y,z)	(-x,y,-z)	(x,-y,-z)	(-x,-y,z)"; "4	k	..2"; "(1/4,y,1/4)	(1/4,-y,3/4)"; "4	j	..2";
  "(1/2,y,0)	(1/2,-y,0)"; "4	i	..2"; "(0,y,0)	(0,-y,0)"; "4	h	.2.";
  "(x,1/2,0)	(-x,1/2,0)"; "4	g	.2."; "(x,0,0)	(-x,0,0)"; "4	f	2..";
  "(0,1/2,z)	(0,1/2,-z)"; "4	e	2.."; "(0,0,z)	(0,0,-z)"; "2	d	222";
  "(0,1/2,0)"; "2	c	222"; "(0,1/2,1/2)"; "2	b	222";
  "(1/2,0,0)"; "2	a	222"; "(0,0,0)"; "";
  " 21  6  5  0  4   B 2 2 2"; "8	l	1"; "(x,y,z)	(-x,y,-z)	(-x,-y,z)	(x,-y,-z)"; "4	k	..2";
  "(1/4,y,1/4)	(3/4,-y,1/4)"; "4	j	..2"; "(0,y,1/2)	(0,-y,1/2)"; "4	i	..2";
  "(0,y,0)	(0,-y,0)"; "4	h	.2."; "(0,1/2,z)	(0,1/2,-z)"; "4	g	.2.";
  "(0,0,z)	(0,0,-z)"; "4	f	2.."; "(x,1/2,0)	(-x,1/2,0)"; "4	e	2..";
  "(x,0,0)	(-x,0,0)"; "2	d	222"; "(0,1/2,0)"; "2	c	222";
  "(1/2,1/2,0)"; "2	b	222"; "(0,0,1/2)"; "2	a	222";
  "(0,0,0)"; ""; " 22  1  5  0  4   F 2 2 2"; "16	k	1";
  "(x,y,z)	(-x,-y,z)	(-x,y,-z)	(x,-y,-z)"; "8	j	2.."; "(x,1/4,1/4)	(-x,3/4,1/4)"; "8	i	.2.";
  "(1/4,y,1/4)	(3/4,-y,1/4)"; "8	h	..2"; "(1/4,1/4,z)	(3/4,1/4,-z)"; "8	g	..2";
  "(0,0,z)	(0,0,-z)"; "8	f	.2."; "(0,y,0)	(0,-y,0)"; "8	e	2..";
  "(x,0,0)	(-x,0,0)"; "4	d	222"; "(1/4,1/4,3/4)"; "4	c	222";
  "(1/4,1/4,1/4)"; "4	b	222"; "(0,0,1/2)"; "4	a	222";
  "(0,0,0)"; ""; " 22  2  5  0  4   F 2 2 2"; "16	k	1";
  "(x,y,z)	(-x,-y,z)	(x,-y,-z)	(-x,y,-z)"; "8	j	2.."; "(1/4,y,3/4)	(3/4,-y,3/4)"; "8	i	.2.";
  "(x,1/4,3/4)	(-x,3/4,3/4)"; "8	h	..2"; "(1/4,1/4,z)	(1/4,3/4,-z)"; "8	g	..2";
  "(0,0,z)	(0,0,-z)"; "8	f	.2."; "(x,0,0)	(-x,0,0)"; "8	e	2..";
  "(0,y,0)	(0,-y,0)"; "4	d	222"; "(1/4,1/4,1/4)"; "4	c	222";
  "(1/4,1/4,3/4)"; "4	b	222"; "(0,0,1/2)"; "4	a	222";
  "(0,0,0)"; ""; " 22  3  5  0  4   F 2 2 2"; "16	k	1";
  "(x,y,z)	(x,-y,-z)	(-x,-y,z)	(-x,y,-z)"; "8	j	2.."; "(1/4,y,1/4)	(1/4,-y,3/4)"; "8	i	.2.";
  "(1/4,1/4,z)	(1/4,3/4,-z)"; "8	h	..2"; "(x,1/4,1/4)	(-x,3/4,1/4)"; "8	g	..2";
  "(x,0,0)	(-x,0,0)"; "8	f	.2."; "(0,0,z)	(0,0,-z)"; "8	e	2..";
  "(0,y,0)	(0,-y,0)"; "4	d	222"; "(3/4,1/4,1/4)"; "4	c	222";
  "(1/4,1/4,1/4)"; "4	b	222"; "(1/2,0,0)"; "4	a	222";
  "(0,0,0)"; ""; " 22  4  5  0  4   F 2 2 2"; "16	k	1";
  "(x,y,z)	(x,-y,-z)	(-x,y,-z)	(-x,-y,z)"; "8	j	2.."; "(3/4,1/4,z)	(3/4,3/4,-z)"; "8	i	.2.";
  "(3/4,y,1/4)	(3/4,-y,3/4)"; "8	h	..2"; "(x,1/4,1/4)	(-x,1/4,3/4)"; "8	g	..2";
  "(x,0,0)	(-x,0,0)"; "8	f	.2."; "(0,y,0)	(0,-y,0)"; "8	e	2..";
  "(0,0,z)	(0,0,-z)"; "4	d	222"; "(1/4,1/4,1/4)"; "4	c	222";
  "(3/4,1/4,1/4)"; "4	b	222"; "(1/2,0,0)"; "4	a	222";
  "(0,0,0)"; ""; " 22  5  5  0  4   F 2 2 2"; "16	k	1";
  "(x,y,z)	(-x,y,-z)	(x,-y,-z)	(-x,-y,z)"; "8	j	2.."; "(1/4,1/4,z)	(3/4,1/4,-z)"; "8	i	.2.";
  "(x,1/4,1/4)	(-x,1/4,3/4)"; "8	h	..2"; "(1/4,y,1/4)	(1/4,-y,3/4)"; "8	g	..2";
  "(0,y,0)	(0,-y,0)"; "8	f	.2."; "(x,0,0)	(-x,0,0)"; "8	e	2..";
  "(0,0,z)	(0,0,-z)"; "4	d	222"; "(1/4,3/4,1/4)"; "4	c	222";
  "(1/4,1/4,1/4)"; "4	b	222"; "(0,1/2,0)"; "4	a	222";
  "(0,0,0)"; ""; " 22  6  5  0  4   F 2 2 2"; "16	k	1";
  "(x,y,z)	(-x,y,-z)	(-x,-y,z)	(x,-y,-z)"; "8	j	2.."; "(x,3/4,1/4)	(-x,3/4,3/4)"; "8	i	.2.";
  "(1/4,3/4,z)	(3/4,3/4,-z)"; "8	h	..2"; "(1/4,y,1/4)	(3/4,-y,1/4)"; "8	g	..2";
  "(0,y,0)	(0,-y,0)"; "8	f	.2."; "(0,0,z)	(0,0,-z)"; "8	e	2..";
  "(x,0,0)	(-x,0,0)"; "4	d	222"; "(1/4,1/4,1/4)"; "4	c	222";
  "(1/4,3/4,1/4)"; "4	b	222"; "(0,1/2,0)"; "4	a	222";
  "(0,0,0)"; ""; " 23  1  5  0  4   I 2 2 2"; "8	k	1";
  "(x,y,z)	(-x,-y,z)	(-x,y,-z)	(x,-y,-z)"; "4	j	..2"; "(0,1/2,z)	(0,1/2,-z)"; "4	i	..2";
  "(0,0,z)	(0,0,-z)"; "4	h	.2."; "(1/2,y,0)	(1/2,-y,0)"; "4	g	.2.";
  "(0,y,0)	(0,-y,0)"; "4	f	2.."; "(x,0,1/2)	(-x,0,1/2)"; "4	e	2..";
  "(x,0,0)	(-x,0,0)"; "2	d	222"; "(0,1/2,0)"; "2	c	222";
  "(0,0,1/2)"; "2	b	222"; "(1/2,0,0)"; "2	a	222";
  "(0,0,0)"; ""; " 23  2  5  0  4   I 2 2 2"; "8	k	1";
  "(x,y,z)	(-x,-y,z)	(x,-y,-z)	(-x,y,-z)"; "4	j	..2"; "(1/2,0,z)	(1/2,0,-z)"; "4	i	..2";
  "(0,0,z)	(0,0,-z)"; "4	h	.2."; "(x,1/2,0)	(-x,1/2,0)"; "4	g	.2.";
  "(x,0,0)	(-x,0,0)"; "4	f	2.."; "(0,y,1/2)	(0,-y,1/2)"; "4	e	2..";
  "(0,y,0)	(0,-y,0)"; "2	d	222"; "(1/2,0,0)"; "2	c	222";
  "(0,0,1/2)"; "2	b	222"; "(0,1/2,0)"; "2	a	222";
  "(0,0,0)"; ""; " 23  3  5  0  4   I 2 2 2"; "8	k	1";
  "(x,y,z)	(x,-y,-z)	(-x,-y,z)	(-x,y,-z)"; "4	j	..2"; "(x,0,1/2)	(-x,0,1/2)"; "4	i	..2";
  "(x,0,0)	(-x,0,0)"; "4	h	.2."; "(0,1/2,z)	(0,1/2,-z)"; "4	g	.2.";
  "(0,0,z)	(0,0,-z)"; "4	f	2.."; "(1/2,y,0)	(1/2,-y,0)"; "4	e	2..";
  "(0,y,0)	(0,-y,0)"; "2	d	222"; "(0,0,1/2)"; "2	c	222";
  "(1/2,0,0)"; "2	b	222"; "(0,1/2,0)"; "2	a	222";
  "(0,0,0)"; ""; " 23  4  5  0  4   I 2 2 2"; "8	k	1";
  "(x,y,z)	(x,-y,-z)	(-x,y,-z)	(-x,-y,z)"; "4	j	..2"; "(x,1/2,0)	(-x,1/2,0)"; "4	i	..2";
  "(x,0,0)	(-x,0,0)"; "4	h	.2."; "(0,y,1/2)	(0,-y,1/2)"; "4	g	.2.";
  "(0,y,0)	(0,-y,0)"; "4	f	2.."; "(1/2,0,z)	(1/2,0,-z)"; "4	e	2..";
  "(0,0,z)	(0,0,-z)"; "2	d	222"; "(0,1/2,0)"; "2	c	222";
  "(1/2,0,0)"; "2	b	222"; "(0,0,1/2)"; "2	a	222";
  "(0,0,0)"; ""; " 23  5  5  0  4   I 2 2 2"; "8	k	1";
  "(x,y,z)	(-x,y,-z)	(x,-y,-z)	(-x,-y,z)"; "4	j	..2"; "(1/2,y,0)	(1/2,-y,0)"; "4	i	..2";
  "(0,y,0)	(0,-y,0)"; "4	h	.2."; "(x,0,1/2)	(-x,0,1/2)"; "4	g	.2.";
  "(x,0,0)	(-x,0,0)"; "4	f	2.."; "(0,1/2,z)	(0,1/2,-z)"; "4	e	2..";
  "(0,0,z)	(0,0,-z)"; "2	d	222"; "(1/2,0,0)"; "2	c	222";
  "(0,1/2,0)"; "2	b	222"; "(0,0,1/2)"; "2	a	222";
  "(0,0,0)"; ""; " 23  6  5  0  4   I 2 2 2"; "8	k	1";
  "(x,y,z)	(-x,y,-z)	(-x,-y,z)	(x,-y,-z)"; "4	j	..2"; "(0,y,1/2)	(0,-y,1/2)"; "4	i	..2";
  "(0,y,0)	(0,-y,0)"; "4	h	.2."; "(1/2,0,z)	(1/2,0,-z)"; "4	g	.2.";
  "(0,0,z)	(0,0,-z)"; "4	f	2.."; "(x,1/2,0)	(-x,1/2,0)"; "4	e	2..";
  "(x,0,0)	(-x,0,0)"; "2	d	222"; "(0,0,1/2)"; "2	c	222";
  "(0,1/2,0)"; "2	b	222"; "(1/2,0,0)"; "2	a	222";
  "(0,0,0)"; ""; " 24  1  5  0  4   I 21 21 21"; "8	d	1";
  "(x,y,z)	(-x+1/2,-y,z+1/2)	(-x,y+1/2,-z+1/2)	(x+1/2,-y+1/2,-z)"; "4	c	..2"; "(0,1/4,z)	(0,3/4,-z+1/2)"; "4	b	.2.";
  "(1/4,y,0)	(1/4,-y,1/2)"; "4	a	2.."; "(x,0,1/4)	(-x+1/2,0,3/4)"; "";
  " 24  2  5  0  4   I 21 21 21"; "8	d	1"; "(x,y,z)	(-x,-y+1/2,z+1/2)	(x+1/2,-y,-z+1/2)	(-x+1/2,y+1/2,-z)"; "4	c	..2";
  "(1/4,0,z)	(3/4,0,-z+1/2)"; "4	b	.2."; "(x,1/4,0)	(-x,1/4,1/2)"; "4	a	2..";
  "(0,y,3/4)	(0,-y+1/2,1/4)"; ""; " 24  3  5  0  4   I 21 21 21"; "8	d	1";
  "(x,y,z)	(x+1/2,-y+1/2,-z)	(-x+1/2,-y,z+1/2)	(-x,y+1/2,-z+1/2)"; "4	c	..2"; "(x,0,1/4)	(-x+1/2,0,3/4)"; "4	b	.2.";
  "(0,1/4,z)	(1/2,1/4,-z)"; "4	a	2.."; "(1/4,y,0)	(3/4,-y+1/2,0)"; "";
  " 24  4  5  0  4   I 21 21 21"; "8	d	1"; "(x,y,z)	(x+1/2,-y,-z+1/2)	(-x+1/2,y+1/2,-z)	(-x,-y+1/2,z+1/2)"; "4	c	..2";
  "(x,1/4,0)	(-x+1/2,3/4,0)"; "4	b	.2."; "(0,y,1/4)	(1/2,-y,1/4)"; "4	a	2..";
  "(3/4,0,z)	(1/4,0,-z+1/2)"; ""; " 24  5  5  0  4   I 21 21 21"; "8	d	1";
  "(x,y,z)	(-x,y+1/2,-z+1/2)	(x+1/2,-y+1/2,-z)	(-x+1/2,-y,z+1/2)"; "4	c	..2"; "(1/4,y,0)	(3/4,-y+1/2,0)"; "4	b	.2.";
  "(x,0,1/4)	(-x,1/2,1/4)"; "4	a	2.."; "(0,1/4,z)	(0,3/4,-z+1/2)"; "";
  " 24  6  5  0  4   I 21 21 21"; "8	d	1"; "(x,y,z)	(-x+1/2,y+1/2,-z)	(-x,-y+1/2,z+1/2)	(x+1/2,-y,-z+1/2)"; "4	c	..2";
  "(0,y,1/4)	(0,-y+1/2,3/4)"; "4	b	.2."; "(1/4,0,z)	(1/4,1/2,-z)"; "4	a	2..";
  "(x,3/4,0)	(-x+1/2,1/4,0)"; ""; " 25  1  5  0  4   P m m 2"; "4	i	1";
  "(x,y,z)	(-x,-y,z)	(x,-y,z)	(-x,y,z)"; "2	h	m.."; "(1/2,y,z)	(1/2,-y,z)"; "2	g	m..";
  "(0,y,z)	(0,-y,z)"; "2	f	.m."; "(x,1/2,z)	(-x,1/2,z)"; "2	e	.m.";
  "(x,0,z)	(-x,0,z)"; "1	d	mm2"; "(1/2,1/2,z)"; "1	c	mm2";
  "(1/2,0,z)"; "1	b	mm2"; "(0,1/2,z)"; "1	a	mm2";
  "(0,0,z)"; ""; " 25  2  5  0  4   P m m 2"; "4	i	1";
  "(x,y,z)	(-x,-y,z)	(-x,y,z)	(x,-y,z)"; "2	h	m.."; "(x,1/2,z)	(-x,1/2,z)"; "2	g	m..";
  "(x,0,z)	(-x,0,z)"; "2	f	.m."; "(1/2,y,z)	(1/2,-y,z)"; "2	e	.m.";
  "(0,y,z)	(0,-y,z)"; "1	d	mm2"; "(1/2,1/2,z)"; "1	c	mm2";
  "(0,1/2,z)"; "1	b	mm2"; "(1/2,0,z)"; "1	a	mm2";
  "(0,0,z)"; ""; " 25  3  5  0  4   P m m 2"; "4	i	1";
  "(x,y,z)	(x,-y,-z)	(x,y,-z)	(x,-y,z)"; "2	h	m.."; "(x,1/2,z)	(x,1/2,-z)"; "2	g	m..";
  "(x,0,z)	(x,0,-z)"; "2	f	.m."; "(x,y,1/2)	(x,-y,1/2)"; "2	e	.m.";
  "(x,y,0)	(x,-y,0)"; "1	d	mm2"; "(x,1/2,1/2)"; "1	c	mm2";
  "(x,1/2,0)"; "1	b	mm2"; "(x,0,1/2)"; "1	a	mm2";
  "(x,0,0)"; ""; " 25  4  5  0  4   P m m 2"; "4	i	1";
  "(x,y,z)	(x,-y,-z)	(x,-y,z)	(x,y,-z)"; "2	h	m.."; "(x,y,1/2)	(x,-y,1/2)"; "2	g	m..";
  "(x,y,0)	(x,-y,0)"; "2	f	.m."; "(x,1/2,z)	(x,1/2,-z)"; "2	e	.m.";
  "(x,0,z)	(x,0,-z)"; "1	d	mm2"; "(x,1/2,1/2)"; "1	c	mm2";
  "(x,0,1/2)"; "1	b	mm2"; "(x,1/2,0)"; "1	a	mm2";
  "(x,0,0)"; ""; " 25  5  5  0  4   P m m 2"; "4	i	1";
  "(x,y,z)	(-x,y,-z)	(-x,y,z)	(x,y,-z)"; "2	h	m.."; "(x,y,1/2)	(-x,y,1/2)"; "2	g	m..";
  "(x,y,0)	(-x,y,0)"; "2	f	.m."; "(1/2,y,z)	(1/2,y,-z)"; "2	e	.m.";
  "(0,y,z)	(0,y,-z)"; "1	d	mm2"; "(1/2,y,1/2)"; "1	c	mm2";
  "(0,y,1/2)"; "1	b	mm2"; "(1/2,y,0)"; "1	a	mm2";
  "(0,y,0)"; ""; " 25  6  5  0  4   P m m 2"; "4	i	1";
  "(x,y,z)	(-x,y,-z)	(x,y,-z)	(-x,y,z)"; "2	h	m.."; "(1/2,y,z)	(1/2,y,-z)"; "2	g	m..";
  "(0,y,z)	(0,y,-z)"; "2	f	.m."; "(x,y,1/2)	(-x,y,1/2)"; "2	e	.m.";
  "(x,y,0)	(-x,y,0)"; "1	d	mm2"; "(1/2,y,1/2)"; "1	c	mm2";
  "(1/2,y,0)"; "1	b	mm2"; "(0,y,1/2)"; "1	a	mm2";
  "(0,y,0)"; ""; " 26  1  5  0  4   P m c 21"; "4	c	1";
  "(x,y,z)	(-x,-y,z+1/2)	(x,-y,z+1/2)	(-x,y,z)"; "2	b	m.."; "(1/2,y,z)	(1/2,-y,z+1/2)"; "2	a	m..";
  "(0,y,z)	(0,-y,z+1/2)"; ""; " 26  2  5  0  4   P c m 21"; "4	c	1";
  "(x,y,z)	(-x,-y,z+1/2)	(-x,y,z+1/2)	(x,-y,z)"; "2	b	m.."; "(x,1/2,z)	(-x,1/2,z+1/2)"; "2	a	m..";
  "(x,0,z)	(-x,0,z+1/2)"; ""; " 26  3  5  0  4   P 21 m a"; "4	c	1";
  "(x,y,z)	(x+1/2,-y,-z)	(x+1/2,y,-z)	(x,-y,z)"; "2	b	m.."; "(x,1/2,z)	(x+1/2,1/2,-z)"; "2	a	m..";
  "(x,0,z)	(x+1/2,0,-z)"; ""; " 26  4  5  0  4   P 21 a m"; "4	c	1";
  "(x,y,z)	(x+1/2,-y,-z)	(x+1/2,-y,z)	(x,y,-z)"; "2	b	m.."; "(x,y,1/2)	(x+1/2,-y,1/2)"; "2	a	m..";
  "(x,y,0)	(x+1/2,-y,0)"; ""; " 26  5  5  0  4   P b 21 m"; "4	c	1";
  "(x,y,z)	(-x,y+1/2,-z)	(-x,y+1/2,z)	(x,y,-z)"; "2	b	m.."; "(x,y,1/2)	(-x,y+1/2,1/2)"; "2	a	m..";
  "(x,y,0)	(-x,y+1/2,0)"; ""; " 26  6  5  0  4   P m 21 b"; "4	c	1";
  "(x,y,z)	(-x,y+1/2,-z)	(x,y+1/2,-z)	(-x,y,z)"; "2	b	m.."; "(1/2,y,z)	(1/2,y+1/2,-z)"; "2	a	m..";
  "(0,y,z)	(0,y+1/2,-z)"; ""; " 27  1  5  0  4   P c c 2"; "4	e	1";
  "(x,y,z)	(-x,-y,z)	(x,-y,z+1/2)	(-x,y,z+1/2)"; "2	d	..2"; "(1/2,1/2,z)	(1/2,1/2,z+1/2)"; "2	c	..2";
  "(1/2,0,z)	(1/2,0,z+1/2)"; "2	b	..2"; "(0,1/2,z)	(0,1/2,z+1/2)"; "2	a	..2";
  "(0,0,z)	(0,0,z+1/2)"; ""; " 27  2  5  0  4   P c c 2"; "4	e	1";
  "(x,y,z)	(-x,-y,z)	(-x,y,z+1/2)	(x,-y,z+1/2)"; "2	d	..2"; "(1/2,1/2,z)	(1/2,1/2,z+1/2)"; "2	c	..2";
  "(0,1/2,z)	(0,1/2,z+1/2)"; "2	b	..2"; "(1/2,0,z)	(1/2,0,z+1/2)"; "2	a	..2";
  "(0,0,z)	(0,0,z+1/2)"; ""; " 27  3  5  0  4   P 2 a a"; "4	e	1";
  "(x,y,z)	(x,-y,-z)	(x+1/2,y,-z)	(x+1/2,-y,z)"; "2	d	..2"; "(x,1/2,1/2)	(x+1/2,1/2,1/2)"; "2	c	..2";
  "(x,1/2,0)	(x+1/2,1/2,0)"; "2	b	..2"; "(x,0,1/2)	(x+1/2,0,1/2)"; "2	a	..2";
  "(x,0,0)	(x+1/2,0,0)"; ""; " 27  4  5  0  4   P 2 a a"; "4	e	1";
  "(x,y,z)	(x,-y,-z)	(x+1/2,-y,z)	(x+1/2,y,-z)"; "2	d	..2"; "(x,1/2,1/2)	(x+1/2,1/2,1/2)"; "2	c	..2";
  "(x,0,1/2)	(x+1/2,0,1/2)"; "2	b	..2"; "(x,1/2,0)	(x+1/2,1/2,0)"; "2	a	..2";
  "(x,0,0)	(x+1/2,0,0)"; ""; " 27  5  5  0  4   P b 2 b"; "4	e	1";
  "(x,y,z)	(-x,y,-z)	(-x,y+1/2,z)	(x,y+1/2,-z)"; "2	d	..2"; "(1/2,y,1/2)	(1/2,y+1/2,1/2)"; "2	c	..2";
  "(0,y,1/2)	(0,y+1/2,1/2)"; "2	b	..2"; "(1/2,y,0)	(1/2,y+1/2,0)"; "2	a	..2";
  "(0,y,0)	(0,y+1/2,0)"; ""; " 27  6  5  0  4   P b 2 b"; "4	e	1";
  "(x,y,z)	(-x,y,-z)	(x,y+1/2,-z)	(-x,y+1/2,z)"; "2	d	..2"; "(1/2,y,1/2)	(1/2,y+1/2,1/2)"; "2	c	..2";
  "(1/2,y,0)	(1/2,y+1/2,0)"; "2	b	..2"; "(0,y,1/2)	(0,y+1/2,1/2)"; "2	a	..2";
  "(0,y,0)	(0,y+1/2,0)"; ""; " 28  1  5  0  4   P m a 2"; "4	d	1";
  "(x,y,z)	(-x,-y,z)	(x+1/2,-y,z)	(-x+1/2,y,z)"; "2	c	m.."; "(1/4,y,z)	(3/4,-y,z)"; "2	b	..2";
  "(0,1/2,z)	(1/2,1/2,z)"; "2	a	..2"; "(0,0,z)	(1/2,0,z)"; "";
  " 28  2  5  0  4   P b m 2"; "4	d	1"; "(x,y,z)	(-x,-y,z)	(-x,y+1/2,z)	(x,-y+1/2,z)"; "2	c	m..";
  "(x,1/4,z)	(-x,3/4,z)"; "2	b	..2"; "(1/2,0,z)	(1/2,1/2,z)"; "2	a	..2";
  "(0,0,z)	(0,1/2,z)"; ""; " 28  3  5  0  4   P 2 m b"; "4	d	1";
  "(x,y,z)	(x,-y,-z)	(x,y+1/2,-z)	(x,-y+1/2,z)"; "2	c	m.."; "(x,1/4,z)	(x,3/4,-z)"; "2	b	..2";
  "(x,0,1/2)	(x,1/2,1/2)"; "2	a	..2"; "(x,0,0)	(x,1/2,0)"; "";
  " 28  4  5  0  4   P 2 c m"; "4	d	1"; "(x,y,z)	(x,-y,-z)	(x,-y,z+1/2)	(x,y,-z+1/2)"; "2	c	m..";
  "(x,y,1/4)	(x,-y,3/4)"; "2	b	..2"; "(x,1/2,0)	(x,1/2,1/2)"; "2	a	..2";
  "(x,0,0)	(x,0,1/2)"; ""; " 28  5  5  0  4   P c 2 m"; "4	d	1";
  "(x,y,z)	(-x,y,-z)	(-x,y,z+1/2)	(x,y,-z+1/2)"; "2	c	m.."; "(x,y,1/4)	(-x,y,3/4)"; "2	b	..2";
  "(1/2,y,0)	(1/2,y,1/2)"; "2	a	..2"; "(0,y,0)	(0,y,1/2)"; "";
  " 28  6  5  0  4   P m 2 a"; "4	d	1"; "(x,y,z)	(-x,y,-z)	(x+1/2,y,-z)	(-x+1/2,y,z)"; "2	c	m..";
  "(1/4,y,z)	(3/4,y,-z)"; "2	b	..2"; "(0,y,1/2)	(1/2,y,1/2)"; "2	a	..2";
  "(0,y,0)	(1/2,y,0)"; ""; " 29  1  5  0  4   P c a 21"; "4	a	1";
  "(x,y,z)	(-x,-y,z+1/2)	(x+1/2,-y,z)	(-x+1/2,y,z+1/2)"; ""; " 29  2  5  0  4   P b c 21"; "4	a	1";
  "(x,y,z)	(-x,-y,z+1/2)	(-x,y+1/2,z)	(x,-y+1/2,z+1/2)"; ""; " 29  3  5  0  4   P 21 a b"; "4	a	1";
  "(x,y,z)	(x+1/2,-y,-z)	(x,y+1/2,-z)	(x+1/2,-y+1/2,z)"; ""; " 29  4  5  0  4   P 21 c a"; "4	a	1";
  "(x,y,z)	(x+1/2,-y,-z)	(x,-y,z+1/2)	(x+1/2,y,-z+1/2)"; ""; " 29  5  5  0  4   P c 21 b"; "4	a	1";
  "(x,y,z)	(-x,y+1/2,-z)	(-x,y,z+1/2)	(x,y+1/2,-z+1/2)"; ""; " 29  6  5  0  4   P b 21 a"; "4	a	1";
  "(x,y,z)	(-x,y+1/2,-z)	(x+1/2,y,-z)	(-x+1/2,y+1/2,z)"; ""; " 30  1  5  0  4   P n c 2"; "4	c	1";
  "(x,y,z)	(-x,-y,z)	(x,-y+1/2,z+1/2)	(-x,y+1/2,z+1/2)"; "2	b	..2"; "(1/2,0,z)	(1/2,1/2,z+1/2)"; "2	a	..2";
  "(0,0,z)	(0,1/2,z+1/2)"; ""; " 30  2  5  0  4   P c n 2"; "4	c	1";
  "(x,y,z)	(-x,-y,z)	(-x+1/2,y,z+1/2)	(x+1/2,-y,z+1/2)"; "2	b	..2"; "(0,1/2,z)	(1/2,1/2,z+1/2)"; "2	a	..2";
  "(0,0,z)	(1/2,0,z+1/2)"; ""; " 30  3  5  0  4   P 2 n a"; "4	c	1";
  "(x,y,z)	(x,-y,-z)	(x+1/2,y,-z+1/2)	(x+1/2,-y,z+1/2)"; "2	b	..2"; "(x,1/2,0)	(x+1/2,1/2,1/2)"; "2	a	..2";
  "(x,0,0)	(x+1/2,0,1/2)"; ""; " 30  4  5  0  4   P 2 a n"; "4	c	1";
  "(x,y,z)	(x,-y,-z)	(x+1/2,-y+1/2,z)	(x+1/2,y+1/2,-z)"; "2	b	..2"; "(x,0,1/2)	(x+1/2,1/2,1/2)"; "2	a	..2";
  "(x,0,0)	(x+1/2,1/2,0)"; ""; " 30  5  5  0  4   P b 2 n"; "4	c	1";
  "(x,y,z)	(-x,y,-z)	(-x+1/2,y+1/2,z)	(x+1/2,y+1/2,-z)"; "2	b	..2"; "(0,y,1/2)	(1/2,y+1/2,1/2)"; "2	a	..2";
  "(0,y,0)	(1/2,y+1/2,0)"; ""; " 30  6  5  0  4   P n 2 b"; "4	c	1";
  "(x,y,z)	(-x,y,-z)	(x,y+1/2,-z+1/2)	(-x,y+1/2,z+1/2)"; "2	b	..2"; "(1/2,y,0)	(1/2,y+1/2,1/2)"; "2	a	..2";
  "(0,y,0)	(0,y+1/2,1/2)"; ""; " 31  1  5  0  4   P m n 21"; "4	b	1";
  "(x,y,z)	(-x+1/2,-y,z+1/2)	(x+1/2,-y,z+1/2)	(-x,y,z)"; "2	a	m.."; "(0,y,z)	(1/2,-y,z+1/2)"; "";
  " 31  2  5  0  4   P n m 21"; "4	b	1"; "(x,y,z)	(-x,-y+1/2,z+1/2)	(-x,y+1/2,z+1/2)	(x,-y,z)"; "2	a	m..";
  "(x,0,z)	(-x,1/2,z+1/2)"; ""; " 31  3  5  0  4   P 21 m n"; "4	b	1";
  "(x,y,z)	(x+1/2,-y+1/2,-z)	(x+1/2,y+1/2,-z)	(x,-y,z)"; "2	a	m.."; "(x,0,z)	(x+1/2,1/2,-z)"; "";
  " 31  4  5  0  4   P 21 n m"; "4	b	1"; "(x,y,z)	(x+1/2,-y,-z+1/2)	(x+1/2,-y,z+1/2)	(x,y,-z)"; "2	a	m..";
  "(x,y,0)	(x+1/2,-y,1/2)"; ""; " 31  5  5  0  4   P n 21 m"; "4	b	1";
  "(x,y,z)	(-x,y+1/2,-z+1/2)	(-x,y+1/2,z+1/2)	(x,y,-z)"; "2	a	m.."; "(x,y,0)	(-x,y+1/2,1/2)"; "";
  " 31  6  5  0  4   P m 21 n"; "4	b	1"; "(x,y,z)	(-x+1/2,y+1/2,-z)	(x+1/2,y+1/2,-z)	(-x,y,z)"; "2	a	m..";
  "(0,y,z)	(1/2,y+1/2,-z)"; ""; " 32  1  5  0  4   P b a 2"; "4	c	1";
  "(x,y,z)	(-x,-y,z)	(x+1/2,-y+1/2,z)	(-x+1/2,y+1/2,z)"; "2	b	..2"; "(0,1/2,z)	(1/2,0,z)"; "2	a	..2";
  "(0,0,z)	(1/2,1/2,z)"; ""; " 32  2  5  0  4   P b a 2"; "4	c	1";
  "(x,y,z)	(-x,-y,z)	(-x+1/2,y+1/2,z)	(x+1/2,-y+1/2,z)"; "2	b	..2"; "(1/2,0,z)	(0,1/2,z)"; "2	a	..2";
  "(0,0,z)	(1/2,1/2,z)"; ""; " 32  3  5  0  4   P 2 c b"; "4	c	1";
  "(x,y,z)	(x,-y,-z)	(x,y+1/2,-z+1/2)	(x,-y+1/2,z+1/2)"; "2	b	..2"; "(x,0,1/2)	(x,1/2,0)"; "2	a	..2";
  "(x,0,0)	(x,1/2,1/2)"; ""; " 32  4  5  0  4   P 2 c b"; "4	c	1";
  "(x,y,z)	(x,-y,-z)	(x,-y+1/2,z+1/2)	(x,y+1/2,-z+1/2)"; "2	b	..2"; "(x,1/2,0)	(x,0,1/2)"; "2	a	..2";
  "(x,0,0)	(x,1/2,1/2)"; ""; " 32  5  5  0  4   P c 2 a"; "4	c	1";
  "(x,y,z)	(-x,y,-z)	(-x+1/2,y,z+1/2)	(x+1/2,y,-z+1/2)"; "2	b	..2"; "(1/2,y,0)	(0,y,1/2)"; "2	a	..2";
  "(0,y,0)	(1/2,y,1/2)"; ""; " 32  6  5  0  4   P c 2 a"; "4	c	1";
  "(x,y,z)	(-x,y,-z)	(x+1/2,y,-z+1/2)	(-x+1/2,y,z+1/2)"; "2	b	..2"; "(0,y,1/2)	(1/2,y,0)"; "2	a	..2";
  "(0,y,0)	(1/2,y,1/2)"; ""; " 33  1  5  0  4   P n a 21"; "4	a	1";
  "(x,y,z)	(-x,-y,z+1/2)	(x+1/2,-y+1/2,z)	(-x+1/2,y+1/2,z+1/2)"; ""; " 33  2  5  0  4   P b n 21"; "4	a	1";
  "(x,y,z)	(-x,-y,z+1/2)	(-x+1/2,y+1/2,z)	(x+1/2,-y+1/2,z+1/2)"; ""; " 33  3  5  0  4   P 21 n b"; "4	a	1";
  "(x,y,z)	(x+1/2,-y,-z)	(x,y+1/2,-z+1/2)	(x+1/2,-y+1/2,z+1/2)"; ""; " 33  4  5  0  4   P 21 c n"; "4	a	1";
  "(x,y,z)	(x+1/2,-y,-z)	(x,-y+1/2,z+1/2)	(x+1/2,y+1/2,-z+1/2)"; ""; " 33  5  5  0  4   P c 21 n"; "4	a	1";
  "(x,y,z)	(-x,y+1/2,-z)	(-x+1/2,y,z+1/2)	(x+1/2,y+1/2,-z+1/2)"; ""; " 33  6  5  0  4   P n 21 a"; "4	a	1";
  "(x,y,z)	(-x,y+1/2,-z)	(x+1/2,y,-z+1/2)	(-x+1/2,y+1/2,z+1/2)"; ""; " 34  1  5  0  4   P n n 2"; "4	c	1";
  "(x,y,z)	(-x,-y,z)	(x+1/2,-y+1/2,z+1/2)	(-x+1/2,y+1/2,z+1/2)"; "2	b	..2"; "(0,1/2,z)	(1/2,0,z+1/2)"; "2	a	..2";
  "(0,0,z)	(1/2,1/2,z+1/2)"; ""; " 34  2  5  0  4   P n n 2"; "4	c	1";
  "(x,y,z)	(-x,-y,z)	(-x+1/2,y+1/2,z+1/2)	(x+1/2,-y+1/2,z+1/2)"; "2	b	..2"; "(1/2,0,z)	(0,1/2,z+1/2)"; "2	a	..2";
  "(0,0,z)	(1/2,1/2,z+1/2)"; ""; " 34  3  5  0  4   P 2 n n"; "4	c	1";
  "(x,y,z)	(x,-y,-z)	(x+1/2,y+1/2,-z+1/2)	(x+1/2,-y+1/2,z+1/2)"; "2	b	..2"; "(x,0,1/2)	(x+1/2,1/2,0)"; "2	a	..2";
  "(x,0,0)	(x+1/2,1/2,1/2)"; ""; " 34  4  5  0  4   P 2 n n"; "4	c	1";
  "(x,y,z)	(x,-y,-z)	(x+1/2,-y+1/2,z+1/2)	(x+1/2,y+1/2,-z+1/2)"; "2	b	..2"; "(x,1/2,0)	(x+1/2,0,1/2)"; "2	a	..2";
  "(x,0,0)	(x+1/2,1/2,1/2)"; ""; " 34  5  5  0  4   P n 2 n"; "4	c	1";
  "(x,y,z)	(-x,y,-z)	(-x+1/2,y+1/2,z+1/2)	(x+1/2,y+1/2,-z+1/2)"; "2	b	..2"; "(1/2,y,0)	(0,y+1/2,1/2)"; "2	a	..2";
  "(0,y,0)	(1/2,y+1/2,1/2)"; ""; " 34  6  5  0  4   P n 2 n"; "4	c	1";
  "(x,y,z)	(-x,y,-z)	(x+1/2,y+1/2,-z+1/2)	(-x+1/2,y+1/2,z+1/2)"; "2	b	..2"; "(0,y,1/2)	(1/2,y+1/2,0)"; "2	a	..2";
  "(0,y,0)	(1/2,y+1/2,1/2)"; ""; " 35  1  5  0  4   C m m 2"; "8	f	1";
  "(x,y,z)	(-x,-y,z)	(x,-y,z)	(-x,y,z)"; "4	e	m.."; "(0,y,z)	(0,-y,z)"; "4	d	.m.";
  "(x,0,z)	(-x,0,z)"; "4	c	..2"; "(1/4,1/4,z)	(1/4,3/4,z)"; "2	b	mm2";
  "(0,1/2,z)"; "2	a	mm2"; "(0,0,z)"; "";
  " 35  2  5  0  4   C m m 2"; "8	f	1"; "(x,y,z)	(-x,-y,z)	(-x,y,z)	(x,-y,z)"; "4	e	m..";
  "(x,0,z)	(-x,0,z)"; "4	d	.m."; "(0,y,z)	(0,-y,z)"; "4	c	..2";
  "(1/4,1/4,z)	(3/4,1/4,z)"; "2	b	mm2"; "(1/2,0,z)"; "2	a	mm2";
  "(0,0,z)"; ""; " 35  3  5  0  4   A 2 m m"; "8	f	1";
  "(x,y,z)	(x,-y,-z)	(x,y,-z)	(x,-y,z)"; "4	e	m.."; "(x,0,z)	(x,0,-z)"; "4	d	.m.";
  "(x,y,0)	(x,-y,0)"; "4	c	..2"; "(x,1/4,1/4)	(x,1/4,3/4)"; "2	b	mm2";
  "(x,0,1/2)"; "2	a	mm2"; "(x,0,0)"; "";
  " 35  4  5  0  4   A 2 m m"; "8	f	1"; "(x,y,z)	(x,-y,-z)	(x,-y,z)	(x,y,-z)"; "4	e	m..";
  "(x,y,0)	(x,-y,0)"; "4	d	.m."; "(x,0,z)	(x,0,-z)"; "4	c	..2";
  "(x,1/4,1/4)	(x,3/4,1/4)"; "2	b	mm2"; "(x,1/2,0)"; "2	a	mm2";
  "(x,0,0)"; ""; " 35  5  5  0  4   B m 2 m"; "8	f	1";
  "(x,y,z)	(-x,y,-z)	(-x,y,z)	(x,y,-z)"; "4	e	m.."; "(x,y,0)	(-x,y,0)"; "4	d	.m.";
  "(0,y,z)	(0,y,-z)"; "4	c	..2"; "(1/4,y,1/4)	(3/4,y,1/4)"; "2	b	mm2";
  "(1/2,y,0)"; "2	a	mm2"; "(0,y,0)"; "";
  " 35  6  5  0  4   B m 2 m"; "8	f	1"; "(x,y,z)	(-x,y,-z)	(x,y,-z)	(-x,y,z)"; "4	e	m..";
  "(0,y,z)	(0,y,-z)"; "4	d	.m."; "(x,y,0)	(-x,y,0)"; "4	c	..2";
  "(1/4,y,1/4)	(1/4,y,3/4)"; "2	b	mm2"; "(0,y,1/2)"; "2	a	mm2";
  "(0,y,0)"; ""; " 36  1  5  0  4   C m c 21"; "8	b	1";
  "(x,y,z)	(-x,-y,z+1/2)	(x,-y,z+1/2)	(-x,y,z)"; "4	a	m.."; "(0,y,z)	(0,-y,z+1/2)"; "";
  " 36  2  5  0  4   C c m 21"; "8	b	1"; "(x,y,z)	(-x,-y,z+1/2)	(-x,y,z+1/2)	(x,-y,z)"; "4	a	m..";
  "(x,0,z)	(-x,0,z+1/2)"; ""; " 36  3  5  0  4   A 21 m a"; "8	b	1";
  "(x,y,z)	(x+1/2,-y,-z)	(x+1/2,y,-z)	(x,-y,z)"; "4	a	m.."; "(x,0,z)	(x+1/2,0,-z)"; "";
  " 36  4  5  0  4   A 21 a m"; "8	b	1"; "(x,y,z)	(x+1/2,-y,-z)	(x+1/2,-y,z)	(x,y,-z)"; "4	a	m..";
  "(x,y,0)	(x+1/2,-y,0)"; ""; " 36  5  5  0  4   B b 21 m"; "8	b	1";
  "(x,y,z)	(-x,y+1/2,-z)	(-x,y+1/2,z)	(x,y,-z)"; "4	a	m.."; "(x,y,0)	(-x,y+1/2,0)"; "";
  " 36  6  5  0  4   B m 21 b"; "8	b	1"; "(x,y,z)	(-x,y+1/2,-z)	(x,y+1/2,-z)	(-x,y,z)"; "4	a	m..";
  "(0,y,z)	(0,y+1/2,-z)"; ""; " 37  1  5  0  4   C c c 2"; "8	d	1";
  "(x,y,z)	(-x,-y,z)	(x,-y,z+1/2)	(-x,y,z+1/2)"; "4	c	..2"; "(1/4,1/4,z)	(1/4,3/4,z+1/2)"; "4	b	..2";
  "(0,1/2,z)	(0,1/2,z+1/2)"; "4	a	..2"; "(0,0,z)	(0,0,z+1/2)"; "";
  " 37  2  5  0  4   C c c 2"; "8	d	1"; "(x,y,z)	(-x,-y,z)	(-x,y,z+1/2)	(x,-y,z+1/2)"; "4	c	..2";
  "(1/4,1/4,z)	(3/4,1/4,z+1/2)"; "4	b	..2"; "(1/2,0,z)	(1/2,0,z+1/2)"; "4	a	..2";
  "(0,0,z)	(0,0,z+1/2)"; ""; " 37  3  5  0  4   A 2 a a"; "8	d	1";
  "(x,y,z)	(x,-y,-z)	(x+1/2,y,-z)	(x+1/2,-y,z)"; "4	c	..2"; "(x,1/4,1/4)	(x+1/2,1/4,3/4)"; "4	b	..2";
  "(x,0,1/2)	(x+1/2,0,1/2)"; "4	a	..2"; "(x,0,0)	(x+1/2,0,0)"; "";
  " 37  4  5  0  4   A 2 a a"; "8	d	1"; "(x,y,z)	(x,-y,-z)	(x+1/2,-y,z)	(x+1/2,y,-z)"; "4	c	..2";
  "(x,1/4,1/4)	(x+1/2,3/4,1/4)"; "4	b	..2"; "(x,1/2,0)	(x+1/2,1/2,0)"; "4	a	..2";
  "(x,0,0)	(x+1/2,0,0)"; ""; " 37  5  5  0  4   B b 2 b"; "8	d	1";
  "(x,y,z)	(-x,y,-z)	(-x,y+1/2,z)	(x,y+1/2,-z)"; "4	c	..2"; "(1/4,y,1/4)	(3/4,y+1/2,1/4)"; "4	b	..2";
  "(1/2,y,0)	(1/2,y+1/2,0)"; "4	a	..2"; "(0,y,0)	(0,y+1/2,0)"; "";
  " 37  6  5  0  4   B b 2 b"; "8	d	1"; "(x,y,z)	(-x,y,-z)	(x,y+1/2,-z)	(-x,y+1/2,z)"; "4	c	..2";
  "(1/4,y,1/4)	(1/4,y+1/2,3/4)"; "4	b	..2"; "(0,y,1/2)	(0,y+1/2,1/2)"; "4	a	..2";
  "(0,y,0)	(0,y+1/2,0)"; ""; " 38  1  5  0  4   A m m 2"; "8	f	1";
  "(x,y,z)	(-x,-y,z)	(x,-y,z)	(-x,y,z)"; "4	e	m.."; "(1/2,y,z)	(1/2,-y,z)"; "4	d	m..";
  "(0,y,z)	(0,-y,z)"; "4	c	.m."; "(x,0,z)	(-x,0,z)"; "2	b	mm2";
  "(1/2,0,z)"; "2	a	mm2"; "(0,0,z)"; "";
  " 38  2  5  0  4   B m m 2"; "8	f	1"; "(x,y,z)	(-x,-y,z)	(-x,y,z)	(x,-y,z)"; "4	e	m..";
  "(x,1/2,z)	(-x,1/2,z)"; "4	d	m.."; "(x,0,z)	(-x,0,z)"; "4	c	.m.";
  "(0,y,z)	(0,-y,z)"; "2	b	mm2"; "(0,1/2,z)"; "2	a	mm2";
  "(0,0,z)"; ""; " 38  3  5  0  4   B 2 m m"; "8	f	1";
  "(x,y,z)	(x,-y,-z)	(x,y,-z)	(x,-y,z)"; "4	e	m.."; "(x,1/2,z)	(x,1/2,-z)"; "4	d	m..";
  "(x,0,z)	(x,0,-z)"; "4	c	.m."; "(x,y,0)	(x,-y,0)"; "2	b	mm2";
  "(x,1/2,0)"; "2	a	mm2"; "(x,0,0)"; "";
  " 38  4  5  0  4   C 2 m m"; "8	f	1"; "(x,y,z)	(x,-y,-z)	(x,-y,z)	(x,y,-z)"; "4	e	m..";
  "(x,y,1/2)	(x,-y,1/2)"; "4	d	m.."; "(x,y,0)	(x,-y,0)"; "4	c	.m.";
  "(x,0,z)	(x,0,-z)"; "2	b	mm2"; "(x,0,1/2)"; "2	a	mm2";
  "(x,0,0)"; ""; " 38  5  5  0  4   C m 2 m"; "8	f	1";
  "(x,y,z)	(-x,y,-z)	(-x,y,z)	(x,y,-z)"; "4	e	m.."; "(x,y,1/2)	(-x,y,1/2)"; "4	d	m..";
  "(x,y,0)	(-x,y,0)"; "4	c	.m."; "(0,y,z)	(0,y,-z)"; "2	b	mm2";
  "(0,y,1/2)"; "2	a	mm2"; "(0,y,0)"; "";
  " 38  6  5  0  4   A m 2 m"; "8	f	1"; "(x,y,z)	(-x,y,-z)	(x,y,-z)	(-x,y,z)"; "4	e	m..";
  "(1/2,y,z)	(1/2,y,-z)"; "4	d	m.."; "(0,y,z)	(0,y,-z)"; "4	c	.m.";
  "(x,y,0)	(-x,y,0)"; "2	b	mm2"; "(1/2,y,0)"; "2	a	mm2";
  "(0,y,0)"; ""; " 39  1  5  0  4   A e m 2"; "8	d	1";
  "(x,y,z)	(-x,-y,z)	(x,-y+1/2,z)	(-x,y+1/2,z)"; "4	c	.m."; "(x,1/4,z)	(-x,3/4,z)"; "4	b	..2";
  "(1/2,0,z)	(1/2,1/2,z)"; "4	a	..2"; "(0,0,z)	(0,1/2,z)"; "";
  " 39  2  5  0  4   B m e 2"; "8	d	1"; "(x,y,z)	(-x,-y,z)	(-x+1/2,y,z)	(x+1/2,-y,z)"; "4	c	.m.";
  "(1/4,y,z)	(3/4,-y,z)"; "4	b	..2"; "(0,1/2,z)	(1/2,1/2,z)"; "4	a	..2";
  "(0,0,z)	(1/2,0,z)"; ""; " 39  3  5  0  4   B 2 e m"; "8	d	1";
  "(x,y,z)	(x,-y,-z)	(x,y,-z+1/2)	(x,-y,z+1/2)"; "4	c	.m."; "(x,y,1/4)	(x,-y,3/4)"; "4	b	..2";
  "(x,1/2,0)	(x,1/2,1/2)"; "4	a	..2"; "(x,0,0)	(x,0,1/2)"; "";
  " 39  4  5  0  4   C 2 m e"; "8	d	1"; "(x,y,z)	(x,-y,-z)	(x,-y+1/2,z)	(x,y+1/2,-z)"; "4	c	.m.";
  "(x,1/4,z)	(x,3/4,-z)"; "4	b	..2"; "(x,0,1/2)	(x,1/2,1/2)"; "4	a	..2";
  "(x,0,0)	(x,1/2,0)"; ""; " 39  5  5  0  4   C m 2 e"; "8	d	1";
  "(x,y,z)	(-x,y,-z)	(-x+1/2,y,z)	(x+1/2,y,-z)"; "4	c	.m."; "(1/4,y,z)	(3/4,y,-z)"; "4	b	..2";
  "(0,y,1/2)	(1/2,y,1/2)"; "4	a	..2"; "(0,y,0)	(1/2,y,0)"; "";
  " 39  6  5  0  4   A e 2 m"; "8	d	1"; "(x,y,z)	(-x,y,-z)	(x,y,-z+1/2)	(-x,y,z+1/2)"; "4	c	.m.";
  "(x,y,1/4)	(-x,y,3/4)"; "4	b	..2"; "(1/2,y,0)	(1/2,y,1/2)"; "4	a	..2";
  "(0,y,0)	(0,y,1/2)"; ""; " 40  1  5  0  4   A m a 2"; "8	c	1";
  "(x,y,z)	(-x,-y,z)	(x+1/2,-y,z)	(-x+1/2,y,z)"; "4	b	m.."; "(1/4,y,z)	(3/4,-y,z)"; "4	a	..2";
  "(0,0,z)	(1/2,0,z)"; ""; " 40  2  5  0  4   B b m 2"; "8	c	1";
  "(x,y,z)	(-x,-y,z)	(-x,y+1/2,z)	(x,-y+1/2,z)"; "4	b	m.."; "(x,1/4,z)	(-x,3/4,z)"; "4	a	..2";
  "(0,0,z)	(0,1/2,z)"; ""; " 40  3  5  0  4   B 2 m b"; "8	c	1";
  "(x,y,z)	(x,-y,-z)	(x,y+1/2,-z)	(x,-y+1/2,z)"; "4	b	m.."; "(x,1/4,z)	(x,3/4,-z)"; "4	a	..2";
  "(x,0,0)	(x,1/2,0)"; ""; " 40  4  5  0  4   C 2 c m"; "8	c	1";
  "(x,y,z)	(x,-y,-z)	(x,-y,z+1/2)	(x,y,-z+1/2)"; "4	b	m.."; "(x,y,1/4)	(x,-y,3/4)"; "4	a	..2";
  "(x,0,0)	(x,0,1/2)"; ""; " 40  5  5  0  4   C c 2 m"; "8	c	1";
  "(x,y,z)	(-x,y,-z)	(-x,y,z+1/2)	(x,y,-z+1/2)"; "4	b	m.."; "(x,y,1/4)	(-x,y,3/4)"; "4	a	..2";
  "(0,y,0)	(0,y,1/2)"; ""; " 40  6  5  0  4   A m 2 a"; "8	c	1";
  "(x,y,z)	(-x,y,-z)	(x+1/2,y,-z)	(-x+1/2,y,z)"; "4	b	m.."; "(1/4,y,z)	(3/4,y,-z)"; "4	a	..2";
  "(0,y,0)	(1/2,y,0)"; ""; " 41  1  5  0  4   A e a 2"; "8	b	1";
  "(x,y,z)	(-x,-y,z)	(x+1/2,-y+1/2,z)	(-x+1/2,y+1/2,z)"; "4	a	..2"; "(0,0,z)	(1/2,1/2,z)"; "";
  " 41  2  5  0  4   B b e 2"; "8	b	1"; "(x,y,z)	(-x,-y,z)	(-x+1/2,y+1/2,z)	(x+1/2,-y+1/2,z)"; "4	a	..2";
  "(0,0,z)	(1/2,1/2,z)"; ""; " 41  3  5  0  4   B 2 e b"; "8	b	1";
  "(x,y,z)	(x,-y,-z)	(x,y+1/2,-z+1/2)	(x,-y+1/2,z+1/2)"; "4	a	..2"; "(x,0,0)	(x,1/2,1/2)"; "";
  " 41  4  5  0  4   C 2 c e"; "8	b	1"; "(x,y,z)	(x,-y,-z)	(x,-y+1/2,z+1/2)	(x,y+1/2,-z+1/2)"; "4	a	..2";
  "(x,0,0)	(x,1/2,1/2)"; ""; " 41  5  5  0  4   C c 2 e"; "8	b	1";
  "(x,y,z)	(-x,y,-z)	(-x+1/2,y,z+1/2)	(x+1/2,y,-z+1/2)"; "4	a	..2"; "(0,y,0)	(1/2,y,1/2)"; "";
  " 41  6  5  0  4   A e 2 a"; "8	b	1"; "(x,y,z)	(-x,y,-z)	(x+1/2,y,-z+1/2)	(-x+1/2,y,z+1/2)"; "4	a	..2";
  "(0,y,0)	(1/2,y,1/2)"; ""; " 42  1  5  0  4   F m m 2"; "16	e	1";
  "(x,y,z)	(-x,-y,z)	(x,-y,z)	(-x,y,z)"; "8	d	.m."; "(x,0,z)	(-x,0,z)"; "8	c	m..";
  "(0,y,z)	(0,-y,z)"; "8	b	..2"; "(1/4,1/4,z)	(1/4,3/4,z)"; "4	a	mm2";
  "(0,0,z)"; ""; " 42  2  5  0  4   F m m 2"; "16	e	1";
  "(x,y,z)	(-x,-y,z)	(-x,y,z)	(x,-y,z)"; "8	d	.m."; "(0,y,z)	(0,-y,z)"; "8	c	m..";
  "(x,0,z)	(-x,0,z)"; "8	b	..2"; "(1/4,1/4,z)	(3/4,1/4,z)"; "4	a	mm2";
  "(0,0,z)"; ""; " 42  3  5  0  4   F 2 m m"; "16	e	1";
  "(x,y,z)	(x,-y,-z)	(x,y,-z)	(x,-y,z)"; "8	d	.m."; "(x,y,0)	(x,-y,0)"; "8	c	m..";
  "(x,0,z)	(x,0,-z)"; "8	b	..2"; "(x,1/4,1/4)	(x,1/4,3/4)"; "4	a	mm2";
  "(x,0,0)"; ""; " 42  4  5  0  4   F 2 m m"; "16	e	1";
  "(x,y,z)	(x,-y,-z)	(x,-y,z)	(x,y,-z)"; "8	d	.m."; "(x,0,z)	(x,0,-z)"; "8	c	m..";
  "(x,y,0)	(x,-y,0)"; "8	b	..2"; "(x,1/4,1/4)	(x,3/4,1/4)"; "4	a	mm2";
  "(x,0,0)"; ""; " 42  5  5  0  4   F m 2 m"; "16	e	1";
  "(x,y,z)	(-x,y,-z)	(-x,y,z)	(x,y,-z)"; "8	d	.m."; "(0,y,z)	(0,y,-z)"; "8	c	m..";
  "(x,y,0)	(-x,y,0)"; "8	b	..2"; "(1/4,y,1/4)	(3/4,y,1/4)"; "4	a	mm2";
  "(0,y,0)"; ""; " 42  6  5  0  4   F m 2 m"; "16	e	1";
  "(x,y,z)	(-x,y,-z)	(x,y,-z)	(-x,y,z)"; "8	d	.m."; "(x,y,0)	(-x,y,0)"; "8	c	m..";
  "(0,y,z)	(0,y,-z)"; "8	b	..2"; "(1/4,y,1/4)	(1/4,y,3/4)"; "4	a	mm2";
  "(0,y,0)"; ""; " 43  1  5  0  4   F d d 2"; "16	b	1";
  "(x,y,z)	(-x,-y,z)	(x+1/4,-y+1/4,z+1/4)	(-x+1/4,y+1/4,z+1/4)"; "8	a	..2"; "(0,0,z)	(1/4,1/4,z+1/4)"; "";
  " 43  2  5  0  4   F d d 2"; "16	b	1"; "(x,y,z)	(-x,-y,z)	(-x+1/4,y+1/4,z+3/4)	(x+1/4,-y+1/4,z+3/4)"; "8	a	..2";
  "(0,0,z)	(1/4,1/4,z+3/4)"; ""; " 43  3  5  0  4   F 2 d d"; "16	b	1";
  "(x,y,z)	(x,-y,-z)	(x+1/4,y+1/4,-z+1/4)	(x+1/4,-y+1/4,z+1/4)"; "8	a	..2"; "(x,0,0)	(x+1/4,1/4,1/4)"; "";
  " 43  4  5  0  4   F 2 d d"; "16	b	1"; "(x,y,z)	(x,-y,-z)	(x+3/4,-y+1/4,z+1/4)	(x+3/4,y+1/4,-z+1/4)"; "8	a	..2";
  "(x,0,0)	(x+3/4,1/4,1/4)"; ""; " 43  5  5  0  4   F d 2 d"; "16	b	1";
  "(x,y,z)	(-x,y,-z)	(-x+1/4,y+1/4,z+1/4)	(x+1/4,y+1/4,-z+1/4)"; "8	a	..2"; "(0,y,0)	(1/4,y+1/4,1/4)"; "";
  " 43  6  5  0  4   F d 2 d"; "16	b	1"; "(x,y,z)	(-x,y,-z)	(x+1/4,y+3/4,-z+1/4)	(-x+1/4,y+3/4,z+1/4)"; "8	a	..2";
  "(0,y,0)	(1/4,y+3/4,1/4)"; ""; " 44  1  5  0  4   I m m 2"; "8	e	1";
  "(x,y,z)	(-x,-y,z)	(x,-y,z)	(-x,y,z)"; "4	d	m.."; "(0,y,z)	(0,-y,z)"; "4	c	.m.";
  "(x,0,z)	(-x,0,z)"; "2	b	mm2"; "(0,1/2,z)"; "2	a	mm2";
  "(0,0,z)"; ""; " 44  2  5  0  4   I m m 2"; "8	e	1";
  "(x,y,z)	(-x,-y,z)	(-x,y,z)	(x,-y,z)"; "4	d	m.."; "(x,0,z)	(-x,0,z)"; "4	c	.m.";
  "(0,y,z)	(0,-y,z)"; "2	b	mm2"; "(1/2,0,z)"; "2	a	mm2";
  "(0,0,z)"; ""; " 44  3  5  0  4   I 2 m m"; "8	e	1";
  "(x,y,z)	(x,-y,-z)	(x,y,-z)	(x,-y,z)"; "4	d	m.."; "(x,0,z)	(x,0,-z)"; "4	c	.m.";
  "(x,y,0)	(x,-y,0)"; "2	b	mm2"; "(x,0,1/2)"; "2	a	mm2";
  "(x,0,0)"; ""; " 44  4  5  0  4   I 2 m m"; "8	e	1";
  "(x,y,z)	(x,-y,-z)	(x,-y,z)	(x,y,-z)"; "4	d	m.."; "(x,y,0)	(x,-y,0)"; "4	c	.m.";
  "(x,0,z)	(x,0,-z)"; "2	b	mm2"; "(x,1/2,0)"; "2	a	mm2";
  "(x,0,0)"; ""; " 44  5  5  0  4   I m 2 m"; "8	e	1";
  "(x,y,z)	(-x,y,-z)	(-x,y,z)	(x,y,-z)"; "4	d	m.."; "(x,y,0)	(-x,y,0)"; "4	c	.m.";
  "(0,y,z)	(0,y,-z)"; "2	b	mm2"; "(1/2,y,0)"; "2	a	mm2";
  "(0,y,0)"; ""; " 44  6  5  0  4   I m 2 m"; "8	e	1";
  "(x,y,z)	(-x,y,-z)	(x,y,-z)	(-x,y,z)"; "4	d	m.."; "(0,y,z)	(0,y,-z)"; "4	c	.m.";
  "(x,y,0)	(-x,y,0)"; "2	b	mm2"; "(0,y,1/2)"; "2	a	mm2";
  "(0,y,0)"; ""; " 45  1  5  0  4   I b a 2"; "8	c	1";
  "(x,y,z)	(-x,-y,z)	(x+1/2,-y+1/2,z)	(-x+1/2,y+1/2,z)"; "4	b	..2"; "(0,1/2,z)	(1/2,0,z)"; "4	a	..2";
  "(0,0,z)	(1/2,1/2,z)"; ""; " 45  2  5  0  4   I b a 2"; "8	c	1";
  "(x,y,z)	(-x,-y,z)	(-x+1/2,y+1/2,z)	(x+1/2,-y+1/2,z)"; "4	b	..2"; "(1/2,0,z)	(0,1/2,z)"; "4	a	..2";
  "(0,0,z)	(1/2,1/2,z)"; ""; " 45  3  5  0  4   I 2 c b"; "8	c	1";
  "(x,y,z)	(x,-y,-z)	(x,y+1/2,-z+1/2)	(x,-y+1/2,z+1/2)"; "4	b	..2"; "(x,0,1/2)	(x,1/2,0)"; "4	a	..2";
  "(x,0,0)	(x,1/2,1/2)"; ""; " 45  4  5  0  4   I 2 c b"; "8	c	1";
  "(x,y,z)	(x,-y,-z)	(x,-y+1/2,z+1/2)	(x,y+1/2,-z+1/2)"; "4	b	..2"; "(x,1/2,0)	(x,0,1/2)"; "4	a	..2";
  "(x,0,0)	(x,1/2,1/2)"; ""; " 45  5  5  0  4   I c 2 a"; "8	c	1";
  "(x,y,z)	(-x,y,-z)	(-x+1/2,y,z+1/2)	(x+1/2,y,-z+1/2)"; "4	b	..2"; "(1/2,y,0)	(0,y,1/2)"; "4	a	..2";
  "(0,y,0)	(1/2,y,1/2)"; ""; " 45  6  5  0  4   I c 2 a"; "8	c	1";
  "(x,y,z)	(-x,y,-z)	(x+1/2,y,-z+1/2)	(-x+1/2,y,z+1/2)"; "4	b	..2"; "(0,y,1/2)	(1/2,y,0)"; "4	a	..2";
  "(0,y,0)	(1/2,y,1/2)"; ""; " 46  1  5  0  4   I m a 2"; "8	c	1";
  "(x,y,z)	(-x,-y,z)	(x+1/2,-y,z)	(-x+1/2,y,z)"; "4	b	m.."; "(1/4,y,z)	(3/4,-y,z)"; "4	a	..2";
  "(0,0,z)	(1/2,0,z)"; ""; " 46  2  5  0  4   I b m 2"; "8	c	1";
  "(x,y,z)	(-x,-y,z)	(-x,y+1/2,z)	(x,-y+1/2,z)"; "4	b	m.."; "(x,1/4,z)	(-x,3/4,z)"; "4	a	..2";
  "(0,0,z)	(0,1/2,z)"; ""; " 46  3  5  0  4   I 2 m b"; "8	c	1";
  "(x,y,z)	(x,-y,-z)	(x,y+1/2,-z)	(x,-y+1/2,z)"; "4	b	m.."; "(x,1/4,z)	(x,3/4,-z)"; "4	a	..2";
  "(x,0,0)	(x,1/2,0)"; ""; " 46  4  5  0  4   I 2 c m"; "8	c	1";
  "(x,y,z)	(x,-y,-z)	(x,-y,z+1/2)	(x,y,-z+1/2)"; "4	b	m.."; "(x,y,1/4)	(x,-y,3/4)"; "4	a	..2";
  "(x,0,0)	(x,0,1/2)"; ""; " 46  5  5  0  4   I c 2 m"; "8	c	1";
  "(x,y,z)	(-x,y,-z)	(-x,y,z+1/2)	(x,y,-z+1/2)"; "4	b	m.."; "(x,y,1/4)	(-x,y,3/4)"; "4	a	..2";
  "(0,y,0)	(0,y,1/2)"; ""; " 46  6  5  0  4   I m 2 a"; "8	c	1";
  "(x,y,z)	(-x,y,-z)	(x+1/2,y,-z)	(-x+1/2,y,z)"; "4	b	m.."; "(1/4,y,z)	(3/4,y,-z)"; "4	a	..2";
  "(0,y,0)	(1/2,y,0)"; ""; " 47  1  5  1  4   P m m m"; "8	A	1";
  "(x,y,z)	(-x,-y,z)	(-x,y,-z)	(x,-y,-z)"; "(-x,-y,-z)	(x,y,-z)	(x,-y,z)	(-x,y,z)"; "4	z	..m"; "(x,y,1/2)	(-x,-y,1/2)	(-x,y,1/2)	(x,-y,1/2)";
  "4	y	..m"; "(x,y,0)	(-x,-y,0)	(-x,y,0)	(x,-y,0)"; "4	x	.m."; "(x,1/2,z)	(-x,1/2,z)	(-x,1/2,-z)	(x,1/2,-z)";
  "4	w	.m."; "(x,0,z)	(-x,0,z)	(-x,0,-z)	(x,0,-z)"; "4	v	m.."; "(1/2,y,z)	(1/2,-y,z)	(1/2,y,-z)	(1/2,-y,-z)";
  "4	u	m.."; "(0,y,z)	(0,-y,z)	(0,y,-z)	(0,-y,-z)"; "2	t	mm2"; "(1/2,1/2,z)	(1/2,1/2,-z)";
  "2	s	mm2"; "(1/2,0,z)	(1/2,0,-z)"; "2	r	mm2"; "(0,1/2,z)	(0,1/2,-z)";
  "2	q	mm2"; "(0,0,z)	(0,0,-z)"; "2	p	m2m"; "(1/2,y,1/2)	(1/2,-y,1/2)";
  "2	o	m2m"; "(1/2,y,0)	(1/2,-y,0)"; "2	n	m2m"; "(0,y,1/2)	(0,-y,1/2)";
  "2	m	m2m"; "(0,y,0)	(0,-y,0)"; "2	l	2mm"; "(x,1/2,1/2)	(-x,1/2,1/2)";
  "2	k	2mm"; "(x,1/2,0)	(-x,1/2,0)"; "2	j	2mm"; "(x,0,1/2)	(-x,0,1/2)";
  "2	i	2mm"; "(x,0,0)	(-x,0,0)"; "1	h	mmm"; "(1/2,1/2,1/2)";
  "1	g	mmm"; "(0,1/2,1/2)"; "1	f	mmm"; "(1/2,1/2,0)";
  "1	e	mmm"; "(0,1/2,0)"; "1	d	mmm"; "(1/2,0,1/2)";
  "1	c	mmm"; "(0,0,1/2)"; "1	b	mmm"; "(1/2,0,0)";
  "1	a	mmm"; "(0,0,0)"; ""; " 47  2  5  1  4   P m m m";
  "8	A	1"; "(x,y,z)	(-x,-y,z)	(x,-y,-z)	(-x,y,-z)"; "(-x,-y,-z)	(x,y,-z)	(-x,y,z)	(x,-y,z)"; "4	z	..m";
  "(x,y,1/2)	(-x,-y,1/2)	(x,-y,1/2)	(-x,y,1/2)"; "4	y	..m"; "(x,y,0)	(-x,-y,0)	(x,-y,0)	(-x,y,0)"; "4	x	.m.";
  "(1/2,y,z)	(1/2,-y,z)	(1/2,-y,-z)	(1/2,y,-z)"; "4	w	.m."; "(0,y,z)	(0,-y,z)	(0,-y,-z)	(0,y,-z)"; "4	v	m..";
  "(x,1/2,z)	(-x,1/2,z)	(x,1/2,-z)	(-x,1/2,-z)"; "4	u	m.."; "(x,0,z)	(-x,0,z)	(x,0,-z)	(-x,0,-z)"; "2	t	mm2";
  "(1/2,1/2,z)	(1/2,1/2,-z)"; "2	s	mm2"; "(0,1/2,z)	(0,1/2,-z)"; "2	r	mm2";
  "(1/2,0,z)	(1/2,0,-z)"; "2	q	mm2"; "(0,0,z)	(0,0,-z)"; "2	p	m2m";
  "(x,1/2,1/2)	(-x,1/2,1/2)"; "2	o	m2m"; "(x,1/2,0)	(-x,1/2,0)"; "2	n	m2m";
  "(x,0,1/2)	(-x,0,1/2)"; "2	m	m2m"; "(x,0,0)	(-x,0,0)"; "2	l	2mm";
  "(1/2,y,1/2)	(1/2,-y,1/2)"; "2	k	2mm"; "(1/2,y,0)	(1/2,-y,0)"; "2	j	2mm";
  "(0,y,1/2)	(0,-y,1/2)"; "2	i	2mm"; "(0,y,0)	(0,-y,0)"; "1	h	mmm";
  "(1/2,1/2,1/2)"; "1	g	mmm"; "(1/2,0,1/2)"; "1	f	mmm";
  "(1/2,1/2,0)"; "1	e	mmm"; "(1/2,0,0)"; "1	d	mmm";
  "(0,1/2,1/2)"; "1	c	mmm"; "(0,0,1/2)"; "1	b	mmm";
  "(0,1/2,0)"; "1	a	mmm"; "(0,0,0)"; "";
  " 47  3  5  1  4   P m m m"; "8	A	1"; "(x,y,z)	(x,-y,-z)	(-x,-y,z)	(-x,y,-z)"; "(-x,-y,-z)	(-x,y,z)	(x,y,-z)	(x,-y,z)";
  "4	z	..m"; "(1/2,y,z)	(1/2,-y,-z)	(1/2,-y,z)	(1/2,y,-z)"; "4	y	..m"; "(0,y,z)	(0,-y,-z)	(0,-y,z)	(0,y,-z)";
  "4	x	.m."; "(x,y,1/2)	(x,-y,1/2)	(-x,-y,1/2)	(-x,y,1/2)"; "4	w	.m."; "(x,y,0)	(x,-y,0)	(-x,-y,0)	(-x,y,0)";
  "4	v	m.."; "(x,1/2,z)	(x,1/2,-z)	(-x,1/2,z)	(-x,1/2,-z)"; "4	u	m.."; "(x,0,z)	(x,0,-z)	(-x,0,z)	(-x,0,-z)";
  "2	t	mm2"; "(x,1/2,1/2)	(-x,1/2,1/2)"; "2	s	mm2"; "(x,1/2,0)	(-x,1/2,0)";
  "2	r	mm2"; "(x,0,1/2)	(-x,0,1/2)"; "2	q	mm2"; "(x,0,0)	(-x,0,0)";
  "2	p	m2m"; "(1/2,1/2,z)	(1/2,1/2,-z)"; "2	o	m2m"; "(0,1/2,z)	(0,1/2,-z)";
  "2	n	m2m"; "(1/2,0,z)	(1/2,0,-z)"; "2	m	m2m"; "(0,0,z)	(0,0,-z)";
  "2	l	2mm"; "(1/2,y,1/2)	(1/2,-y,1/2)"; "2	k	2mm"; "(0,y,1/2)	(0,-y,1/2)";
  "2	j	2mm"; "(1/2,y,0)	(1/2,-y,0)"; "2	i	2mm"; "(0,y,0)	(0,-y,0)";
  "1	h	mmm"; "(1/2,1/2,1/2)"; "1	g	mmm"; "(1/2,0,1/2)";
  "1	f	mmm"; "(0,1/2,1/2)"; "1	e	mmm"; "(0,0,1/2)";
  "1	d	mmm"; "(1/2,1/2,0)"; "1	c	mmm"; "(1/2,0,0)";
  "1	b	mmm"; "(0,1/2,0)"; "1	a	mmm"; "(0,0,0)";
  ""; " 47  4  5  1  4   P m m m"; "8	A	1"; "(x,y,z)	(x,-y,-z)	(-x,y,-z)	(-x,-y,z)";
  "(-x,-y,-z)	(-x,y,z)	(x,-y,z)	(x,y,-z)"; "4	z	..m"; "(1/2,y,z)	(1/2,-y,-z)	(1/2,y,-z)	(1/2,-y,z)"; "4	y	..m";
  "(0,y,z)	(0,-y,-z)	(0,y,-z)	(0,-y,z)"; "4	x	.m."; "(x,1/2,z)	(x,1/2,-z)	(-x,1/2,-z)	(-x,1/2,z)"; "4	w	.m.";
  "(x,0,z)	(x,0,-z)	(-x,0,-z)	(-x,0,z)"; "4	v	m.."; "(x,y,1/2)	(x,-y,1/2)	(-x,y,1/2)	(-x,-y,1/2)"; "4	u	m..";
  "(x,y,0)	(x,-y,0)	(-x,y,0)	(-x,-y,0)"; "2	t	mm2"; "(x,1/2,1/2)	(-x,1/2,1/2)"; "2	s	mm2";
  "(x,0,1/2)	(-x,0,1/2)"; "2	r	mm2"; "(x,1/2,0)	(-x,1/2,0)"; "2	q	mm2";
  "(x,0,0)	(-x,0,0)"; "2	p	m2m"; "(1/2,y,1/2)	(1/2,-y,1/2)"; "2	o	m2m";
  "(0,y,1/2)	(0,-y,1/2)"; "2	n	m2m"; "(1/2,y,0)	(1/2,-y,0)"; "2	m	m2m";
  "(0,y,0)	(0,-y,0)"; "2	l	2mm"; "(1/2,1/2,z)	(1/2,1/2,-z)"; "2	k	2mm";
  "(0,1/2,z)	(0,1/2,-z)"; "2	j	2mm"; "(1/2,0,z)	(1/2,0,-z)"; "2	i	2mm";
  "(0,0,z)	(0,0,-z)"; "1	h	mmm"; "(1/2,1/2,1/2)"; "1	g	mmm";
  "(1/2,1/2,0)"; "1	f	mmm"; "(0,1/2,1/2)"; "1	e	mmm";
  "(0,1/2,0)"; "1	d	mmm"; "(1/2,0,1/2)"; "1	c	mmm";
  "(1/2,0,0)"; "1	b	mmm"; "(0,0,1/2)"; "1	a	mmm";
  "(0,0,0)"; ""; " 47  5  5  1  4   P m m m"; "8	A	1";
  "(x,y,z)	(-x,y,-z)	(x,-y,-z)	(-x,-y,z)"; "(-x,-y,-z)	(x,-y,z)	(-x,y,z)	(x,y,-z)"; "4	z	..m"; "(x,1/2,z)	(-x,1/2,-z)	(x,1/2,-z)	(-x,1/2,z)";
  "4	y	..m"; "(x,0,z)	(-x,0,-z)	(x,0,-z)	(-x,0,z)"; "4	x	.m."; "(1/2,y,z)	(1/2,y,-z)	(1/2,-y,-z)	(1/2,-y,z)";
  "4	w	.m."; "(0,y,z)	(0,y,-z)	(0,-y,-z)	(0,-y,z)"; "4	v	m.."; "(x,y,1/2)	(-x,y,1/2)	(x,-y,1/2)	(-x,-y,1/2)";
  "4	u	m.."; "(x,y,0)	(-x,y,0)	(x,-y,0)	(-x,-y,0)"; "2	t	mm2"; "(1/2,y,1/2)	(1/2,-y,1/2)";
  "2	s	mm2"; "(0,y,1/2)	(0,-y,1/2)"; "2	r	mm2"; "(1/2,y,0)	(1/2,-y,0)";
  "2	q	mm2"; "(0,y,0)	(0,-y,0)"; "2	p	m2m"; "(x,1/2,1/2)	(-x,1/2,1/2)";
  "2	o	m2m"; "(x,0,1/2)	(-x,0,1/2)"; "2	n	m2m"; "(x,1/2,0)	(-x,1/2,0)";
  "2	m	m2m"; "(x,0,0)	(-x,0,0)"; "2	l	2mm"; "(1/2,1/2,z)	(1/2,1/2,-z)";
  "2	k	2mm"; "(1/2,0,z)	(1/2,0,-z)"; "2	j	2mm"; "(0,1/2,z)	(0,1/2,-z)";
  "2	i	2mm"; "(0,0,z)	(0,0,-z)"; "1	h	mmm"; "(1/2,1/2,1/2)";
  "1	g	mmm"; "(1/2,1/2,0)"; "1	f	mmm"; "(1/2,0,1/2)";
  "1	e	mmm"; "(1/2,0,0)"; "1	d	mmm"; "(0,1/2,1/2)";
  "1	c	mmm"; "(0,1/2,0)"; "1	b	mmm"; "(0,0,1/2)";
  "1	a	mmm"; "(0,0,0)"; ""; " 47  6  5  1  4   P m m m";
  "8	A	1"; "(x,y,z)	(-x,y,-z)	(-x,-y,z)	(x,-y,-z)"; "(-x,-y,-z)	(x,-y,z)	(x,y,-z)	(-x,y,z)"; "4	z	..m";
  "(x,1/2,z)	(-x,1/2,-z)	(-x,1/2,z)	(x,1/2,-z)"; "4	y	..m"; "(x,0,z)	(-x,0,-z)	(-x,0,z)	(x,0,-z)"; "4	x	.m.";
  "(x,y,1/2)	(-x,y,1/2)	(-x,-y,1/2)	(x,-y,1/2)"; "4	w	.m."; "(x,y,0)	(-x,y,0)	(-x,-y,0)	(x,-y,0)"; "4	v	m..";
  "(1/2,y,z)	(1/2,y,-z)	(1/2,-y,z)	(1/2,-y,-z)"; "4	u	m.."; "(0,y,z)	(0,y,-z)	(0,-y,z)	(0,-y,-z)"; "2	t	mm2";
  "(1/2,y,1/2)	(1/2,-y,1/2)"; "2	s	mm2"; "(1/2,y,0)	(1/2,-y,0)"; "2	r	mm2";
  "(0,y,1/2)	(0,-y,1/2)"; "2	q	mm2"; "(0,y,0)	(0,-y,0)"; "2	p	m2m";
  "(1/2,1/2,z)	(1/2,1/2,-z)"; "2	o	m2m"; "(1/2,0,z)	(1/2,0,-z)"; "2	n	m2m";
  "(0,1/2,z)	(0,1/2,-z)"; "2	m	m2m"; "(0,0,z)	(0,0,-z)"; "2	l	2mm";
  "(x,1/2,1/2)	(-x,1/2,1/2)"; "2	k	2mm"; "(x,0,1/2)	(-x,0,1/2)"; "2	j	2mm";
  "(x,1/2,0)	(-x,1/2,0)"; "2	i	2mm"; "(x,0,0)	(-x,0,0)"; "1	h	mmm";
  "(1/2,1/2,1/2)"; "1	g	mmm"; "(0,1/2,1/2)"; "1	f	mmm";
  "(1/2,0,1/2)"; "1	e	mmm"; "(0,0,1/2)"; "1	d	mmm";
  "(1/2,1/2,0)"; "1	c	mmm"; "(0,1/2,0)"; "1	b	mmm";
  "(1/2,0,0)"; "1	a	mmm"; "(0,0,0)"; "";
  " 48  1  5  0  8   P n n n"; "8	m	1"; "(x,y,z)	(-x,-y,z)	(-x,y,-z)	(x,-y,-z)"; "(-x+1/2,-y+1/2,-z+1/2)	(x+1/2,y+1/2,-z+1/2)	(x+1/2,-y+1/2,z+1/2)	(-x+1/2,y+1/2,z+1/2)";
  "4	l	..2"; "(0,1/2,z)	(0,1/2,-z)	(1/2,0,-z+1/2)	(1/2,0,z+1/2)"; "4	k	..2"; "(0,0,z)	(0,0,-z)	(1/2,1/2,-z+1/2)	(1/2,1/2,z+1/2)";
  "4	j	.2."; "(1/2,y,0)	(1/2,-y,0)	(0,-y+1/2,1/2)	(0,y+1/2,1/2)"; "4	i	.2."; "(0,y,0)	(0,-y,0)	(1/2,-y+1/2,1/2)	(1/2,y+1/2,1/2)";
  "4	h	2.."; "(x,0,1/2)	(-x,0,1/2)	(-x+1/2,1/2,0)	(x+1/2,1/2,0)"; "4	g	2.."; "(x,0,0)	(-x,0,0)	(-x+1/2,1/2,1/2)	(x+1/2,1/2,1/2)";
  "4	f	-1"; "(3/4,3/4,3/4)	(1/4,1/4,3/4)	(1/4,3/4,1/4)	(3/4,1/4,1/4)"; "4	e	-1"; "(1/4,1/4,1/4)	(3/4,3/4,1/4)	(3/4,1/4,3/4)	(1/4,3/4,3/4)";
  "2	d	222"; "(0,1/2,0)	(1/2,0,1/2)"; "2	c	222"; "(0,0,1/2)	(1/2,1/2,0)";
  "2	b	222"; "(1/2,0,0)	(0,1/2,1/2)"; "2	a	222"; "(0,0,0)	(1/2,1/2,1/2)";
  ""; " 48  3  5  0  8   P n n n"; "8	m	1"; "(x,y,z)	(-x,-y,z)	(x,-y,-z)	(-x,y,-z)";
  "(-x+1/2,-y+1/2,-z+1/2)	(x+1/2,y+1/2,-z+1/2)	(-x+1/2,y+1/2,z+1/2)	(x+1/2,-y+1/2,z+1/2)"; "4	l	..2"; "(1/2,0,z)	(1/2,0,-z)	(0,1/2,-z+1/2)	(0,1/2,z+1/2)"; "4	k	..2";
  "(0,0,z)	(0,0,-z)	(1/2,1/2,-z+1/2)	(1/2,1/2,z+1/2)"; "4	j	.2."; "(x,1/2,0)	(-x,1/2,0)	(-x+1/2,0,1/2)	(x+1/2,0,1/2)"; "4	i	.2.";
  "(x,0,0)	(-x,0,0)	(-x+1/2,1/2,1/2)	(x+1/2,1/2,1/2)"; "4	h	2.."; "(0,y,1/2)	(0,-y,1/2)	(1/2,-y+1/2,0)	(1/2,y+1/2,0)"; "4	g	2..";
  "(0,y,0)	(0,-y,0)	(1/2,-y+1/2,1/2)	(1/2,y+1/2,1/2)"; "4	f	-1"; "(3/4,3/4,1/4)	(1/4,1/4,1/4)	(3/4,1/4,3/4)	(1/4,3/4,3/4)"; "4	e	-1";
  "(1/4,1/4,3/4)	(3/4,3/4,3/4)	(1/4,3/4,1/4)	(3/4,1/4,1/4)"; "2	d	222"; "(1/2,0,0)	(0,1/2,1/2)"; "2	c	222";
  "(0,0,1/2)	(1/2,1/2,0)"; "2	b	222"; "(0,1/2,0)	(1/2,0,1/2)"; "2	a	222";
  "(0,0,0)	(1/2,1/2,1/2)"; ""; " 48  5  5  0  8   P n n n"; "8	m	1";
  "(x,y,z)	(x,-y,-z)	(-x,-y,z)	(-x,y,-z)"; "(-x+1/2,-y+1/2,-z+1/2)	(-x+1/2,y+1/2,z+1/2)	(x+1/2,y+1/2,-z+1/2)	(x+1/2,-y+1/2,z+1/2)"; "4	l	..2"; "(x,0,1/2)	(-x,0,1/2)	(-x+1/2,1/2,0)	(x+1/2,1/2,0)";
  "4	k	..2"; "(x,0,0)	(-x,0,0)	(-x+1/2,1/2,1/2)	(x+1/2,1/2,1/2)"; "4	j	.2."; "(0,1/2,z)	(0,1/2,-z)	(1/2,0,-z+1/2)	(1/2,0,z+1/2)";
  "4	i	.2."; "(0,0,z)	(0,0,-z)	(1/2,1/2,-z+1/2)	(1/2,1/2,z+1/2)"; "4	h	2.."; "(1/2,y,0)	(1/2,-y,0)	(0,-y+1/2,1/2)	(0,y+1/2,1/2)";
  "4	g	2.."; "(0,y,0)	(0,-y,0)	(1/2,-y+1/2,1/2)	(1/2,y+1/2,1/2)"; "4	f	-1"; "(3/4,3/4,3/4)	(3/4,1/4,1/4)	(1/4,1/4,3/4)	(1/4,3/4,1/4)";
  "4	e	-1"; "(1/4,1/4,1/4)	(1/4,3/4,3/4)	(3/4,3/4,1/4)	(3/4,1/4,3/4)"; "2	d	222"; "(0,0,1/2)	(1/2,1/2,0)";
  "2	c	222"; "(1/2,0,0)	(0,1/2,1/2)"; "2	b	222"; "(0,1/2,0)	(1/2,0,1/2)";
  "2	a	222"; "(0,0,0)	(1/2,1/2,1/2)"; ""; " 48  7  5  0  8   P n n n";
  "8	m	1"; "(x,y,z)	(x,-y,-z)	(-x,y,-z)	(-x,-y,z)"; "(-x+1/2,-y+1/2,-z+1/2)	(-x+1/2,y+1/2,z+1/2)	(x+1/2,-y+1/2,z+1/2)	(x+1/2,y+1/2,-z+1/2)"; "4	l	..2";
  "(x,1/2,0)	(-x,1/2,0)	(-x+1/2,0,1/2)	(x+1/2,0,1/2)"; "4	k	..2"; "(x,0,0)	(-x,0,0)	(-x+1/2,1/2,1/2)	(x+1/2,1/2,1/2)"; "4	j	.2.";
  "(0,y,1/2)	(0,-y,1/2)	(1/2,-y+1/2,0)	(1/2,y+1/2,0)"; "4	i	.2."; "(0,y,0)	(0,-y,0)	(1/2,-y+1/2,1/2)	(1/2,y+1/2,1/2)"; "4	h	2..";
  "(1/2,0,z)	(1/2,0,-z)	(0,1/2,-z+1/2)	(0,1/2,z+1/2)"; "4	g	2.."; "(0,0,z)	(0,0,-z)	(1/2,1/2,-z+1/2)	(1/2,1/2,z+1/2)"; "4	f	-1";
  "(1/4,3/4,3/4)	(1/4,1/4,1/4)	(3/4,3/4,1/4)	(3/4,1/4,3/4)"; "4	e	-1"; "(3/4,1/4,1/4)	(3/4,3/4,3/4)	(1/4,1/4,3/4)	(1/4,3/4,1/4)"; "2	d	222";
  "(0,1/2,0)	(1/2,0,1/2)"; "2	c	222"; "(1/2,0,0)	(0,1/2,1/2)"; "2	b	222";
  "(0,0,1/2)	(1/2,1/2,0)"; "2	a	222"; "(0,0,0)	(1/2,1/2,1/2)"; "";
  " 48  9  5  0  8   P n n n"; "8	m	1"; "(x,y,z)	(-x,y,-z)	(x,-y,-z)	(-x,-y,z)"; "(-x+1/2,-y+1/2,-z+1/2)	(x+1/2,-y+1/2,z+1/2)	(-x+1/2,y+1/2,z+1/2)	(x+1/2,y+1/2,-z+1/2)";
  "4	l	..2"; "(1/2,y,0)	(1/2,-y,0)	(0,-y+1/2,1/2)	(0,y+1/2,1/2)"; "4	k	..2"; "(0,y,0)	(0,-y,0)	(1/2,-y+1/2,1/2)	(1/2,y+1/2,1/2)";
  "4	j	.2."; "(x,0,1/2)	(-x,0,1/2)	(-x+1/2,1/2,0)	(x+1/2,1/2,0)"; "4	i	.2."; "(x,0,0)	(-x,0,0)	(-x+1/2,1/2,1/2)	(x+1/2,1/2,1/2)";
  "4	h	2.."; "(0,1/2,z)	(0,1/2,-z)	(1/2,0,-z+1/2)	(1/2,0,z+1/2)"; "4	g	2.."; "(0,0,z)	(0,0,-z)	(1/2,1/2,-z+1/2)	(1/2,1/2,z+1/2)";
  "4	f	-1"; "(3/4,3/4,3/4)	(1/4,3/4,1/4)	(3/4,1/4,1/4)	(1/4,1/4,3/4)"; "4	e	-1"; "(1/4,1/4,1/4)	(3/4,1/4,3/4)	(1/4,3/4,3/4)	(3/4,3/4,1/4)";
  "2	d	222"; "(1/2,0,0)	(0,1/2,1/2)"; "2	c	222"; "(0,1/2,0)	(1/2,0,1/2)";
  "2	b	222"; "(0,0,1/2)	(1/2,1/2,0)"; "2	a	222"; "(0,0,0)	(1/2,1/2,1/2)";
  ""; " 48 11  5  0  8   P n n n"; "8	m	1"; "(x,y,z)	(-x,y,-z)	(-x,-y,z)	(x,-y,-z)";
  "(-x+1/2,-y+1/2,-z+1/2)	(x+1/2,-y+1/2,z+1/2)	(x+1/2,y+1/2,-z+1/2)	(-x+1/2,y+1/2,z+1/2)"; "4	l	..2"; "(0,y,1/2)	(0,-y,1/2)	(1/2,-y+1/2,0)	(1/2,y+1/2,0)"; "4	k	..2";
  "(0,y,0)	(0,-y,0)	(1/2,-y+1/2,1/2)	(1/2,y+1/2,1/2)"; "4	j	.2."; "(1/2,0,z)	(1/2,0,-z)	(0,1/2,-z+1/2)	(0,1/2,z+1/2)"; "4	i	.2.";
  "(0,0,z)	(0,0,-z)	(1/2,1/2,-z+1/2)	(1/2,1/2,z+1/2)"; "4	h	2.."; "(x,1/2,0)	(-x,1/2,0)	(-x+1/2,0,1/2)	(x+1/2,0,1/2)"; "4	g	2..";
  "(x,0,0)	(-x,0,0)	(-x+1/2,1/2,1/2)	(x+1/2,1/2,1/2)"; "4	f	-1"; "(3/4,1/4,3/4)	(1/4,1/4,1/4)	(1/4,3/4,3/4)	(3/4,3/4,1/4)"; "4	e	-1";
  "(1/4,3/4,1/4)	(3/4,3/4,3/4)	(3/4,1/4,1/4)	(1/4,1/4,3/4)"; "2	d	222"; "(0,0,1/2)	(1/2,1/2,0)"; "2	c	222";
  "(0,1/2,0)	(1/2,0,1/2)"; "2	b	222"; "(1/2,0,0)	(0,1/2,1/2)"; "2	a	222";
  "(0,0,0)	(1/2,1/2,1/2)"; ""; " 48  2  5  1  4   P n n n"; "8	m	1";
  "(x,y,z)	(-x+1/2,-y+1/2,z)	(-x+1/2,y,-z+1/2)	(x,-y+1/2,-z+1/2)"; "(-x,-y,-z)	(x+1/2,y+1/2,-z)	(x+1/2,-y,z+1/2)	(-x,y+1/2,z+1/2)"; "4	l	..2"; "(1/4,3/4,z)	(1/4,3/4,-z+1/2)	(3/4,1/4,-z)	(3/4,1/4,z+1/2)";
  "4	k	..2"; "(1/4,1/4,z)	(1/4,1/4,-z+1/2)	(3/4,3/4,-z)	(3/4,3/4,z+1/2)"; "4	j	.2."; "(3/4,y,1/4)	(3/4,-y+1/2,1/4)	(1/4,-y,3/4)	(1/4,y+1/2,3/4)";
  "4	i	.2."; "(1/4,y,1/4)	(1/4,-y+1/2,1/4)	(3/4,-y,3/4)	(3/4,y+1/2,3/4)"; "4	h	2.."; "(x,1/4,3/4)	(-x+1/2,1/4,3/4)	(-x,3/4,1/4)	(x+1/2,3/4,1/4)";
  "4	g	2.."; "(x,1/4,1/4)	(-x+1/2,1/4,1/4)	(-x,3/4,3/4)	(x+1/2,3/4,3/4)"; "4	f	-1"; "(0,0,0)	(1/2,1/2,0)	(1/2,0,1/2)	(0,1/2,1/2)";
  "4	e	-1"; "(1/2,1/2,1/2)	(0,0,1/2)	(0,1/2,0)	(1/2,0,0)"; "2	d	222"; "(1/4,3/4,1/4)	(3/4,1/4,3/4)";
  "2	c	222"; "(1/4,1/4,3/4)	(3/4,3/4,1/4)"; "2	b	222"; "(3/4,1/4,1/4)	(1/4,3/4,3/4)";
  "2	a	222"; "(1/4,1/4,1/4)	(3/4,3/4,3/4)"; ""; " 48  4  5  1  4   P n n n";
  "8	m	1"; "(x,y,z)	(-x+1/2,-y+1/2,z)	(x,-y+1/2,-z+1/2)	(-x+1/2,y,-z+1/2)"; "(-x,-y,-z)	(x+1/2,y+1/2,-z)	(-x,y+1/2,z+1/2)	(x+1/2,-y,z+1/2)"; "4	l	..2";
  "(3/4,1/4,z)	(3/4,1/4,-z+1/2)	(1/4,3/4,-z)	(1/4,3/4,z+1/2)"; "4	k	..2"; "(1/4,1/4,z)	(1/4,1/4,-z+1/2)	(3/4,3/4,-z)	(3/4,3/4,z+1/2)"; "4	j	.2.";
  "(x,3/4,3/4)	(-x+1/2,3/4,3/4)	(-x,1/4,1/4)	(x+1/2,1/4,1/4)"; "4	i	.2."; "(x,1/4,3/4)	(-x+1/2,1/4,3/4)	(-x,3/4,1/4)	(x+1/2,3/4,1/4)"; "4	h	2..";
  "(1/4,y,1/4)	(1/4,-y+1/2,1/4)	(3/4,-y,3/4)	(3/4,y+1/2,3/4)"; "4	g	2.."; "(1/4,y,3/4)	(1/4,-y+1/2,3/4)	(3/4,-y,1/4)	(3/4,y+1/2,1/4)"; "4	f	-1";
  "(0,0,0)	(1/2,1/2,0)	(0,1/2,1/2)	(1/2,0,1/2)"; "4	e	-1"; "(1/2,1/2,1/2)	(0,0,1/2)	(1/2,0,0)	(0,1/2,0)"; "2	d	222";
  "(3/4,1/4,3/4)	(1/4,3/4,1/4)"; "2	c	222"; "(1/4,1/4,1/4)	(3/4,3/4,3/4)"; "2	b	222";
  "(1/4,3/4,3/4)	(3/4,1/4,1/4)"; "2	a	222"; "(1/4,1/4,3/4)	(3/4,3/4,1/4)"; "";
  " 48  6  5  1  4   P n n n"; "8	m	1"; "(x,y,z)	(x,-y+1/2,-z+1/2)	(-x+1/2,-y+1/2,z)	(-x+1/2,y,-z+1/2)"; "(-x,-y,-z)	(-x,y+1/2,z+1/2)	(x+1/2,y+1/2,-z)	(x+1/2,-y,z+1/2)";
  "4	l	..2"; "(x,1/4,3/4)	(-x+1/2,1/4,3/4)	(-x,3/4,1/4)	(x+1/2,3/4,1/4)"; "4	k	..2"; "(x,1/4,1/4)	(-x+1/2,1/4,1/4)	(-x,3/4,3/4)	(x+1/2,3/4,3/4)";
  "4	j	.2."; "(1/4,3/4,z)	(1/4,3/4,-z+1/2)	(3/4,1/4,-z)	(3/4,1/4,z+1/2)"; "4	i	.2."; "(1/4,1/4,z)	(1/4,1/4,-z+1/2)	(3/4,3/4,-z)	(3/4,3/4,z+1/2)";
  "4	h	2.."; "(3/4,y,1/4)	(3/4,-y+1/2,1/4)	(1/4,-y,3/4)	(1/4,y+1/2,3/4)"; "4	g	2.."; "(1/4,y,1/4)	(1/4,-y+1/2,1/4)	(3/4,-y,3/4)	(3/4,y+1/2,3/4)";
  "4	f	-1"; "(0,0,0)	(0,1/2,1/2)	(1/2,1/2,0)	(1/2,0,1/2)"; "4	e	-1"; "(1/2,1/2,1/2)	(1/2,0,0)	(0,0,1/2)	(0,1/2,0)";
  "2	d	222"; "(1/4,1/4,3/4)	(3/4,3/4,1/4)"; "2	c	222"; "(3/4,1/4,1/4)	(1/4,3/4,3/4)";
  "2	b	222"; "(1/4,3/4,1/4)	(3/4,1/4,3/4)"; "2	a	222"; "(1/4,1/4,1/4)	(3/4,3/4,3/4)";
  ""; " 48  8  5  1  4   P n n n"; "8	m	1"; "(x,y,z)	(x,-y+1/2,-z+1/2)	(-x+1/2,y,-z+1/2)	(-x+1/2,-y+1/2,z)";
  "(-x,-y,-z)	(-x,y+1/2,z+1/2)	(x+1/2,-y,z+1/2)	(x+1/2,y+1/2,-z)"; "4	l	..2"; "(x,3/4,1/4)	(-x+1/2,3/4,1/4)	(-x,1/4,3/4)	(x+1/2,1/4,3/4)"; "4	k	..2";
  "(x,1/4,1/4)	(-x+1/2,1/4,1/4)	(-x,3/4,3/4)	(x+1/2,3/4,3/4)"; "4	j	.2."; "(3/4,y,3/4)	(3/4,-y+1/2,3/4)	(1/4,-y,1/4)	(1/4,y+1/2,1/4)"; "4	i	.2.";
  "(3/4,y,1/4)	(3/4,-y+1/2,1/4)	(1/4,-y,3/4)	(1/4,y+1/2,3/4)"; "4	h	2.."; "(1/4,1/4,z)	(1/4,1/4,-z+1/2)	(3/4,3/4,-z)	(3/4,3/4,z+1/2)"; "4	g	2..";
  "(3/4,1/4,z)	(3/4,1/4,-z+1/2)	(1/4,3/4,-z)	(1/4,3/4,z+1/2)"; "4	f	-1"; "(0,0,0)	(0,1/2,1/2)	(1/2,0,1/2)	(1/2,1/2,0)"; "4	e	-1";
  "(1/2,1/2,1/2)	(1/2,0,0)	(0,1/2,0)	(0,0,1/2)"; "2	d	222"; "(3/4,3/4,1/4)	(1/4,1/4,3/4)"; "2	c	222";
  "(1/4,1/4,1/4)	(3/4,3/4,3/4)"; "2	b	222"; "(3/4,1/4,3/4)	(1/4,3/4,1/4)"; "2	a	222";
  "(3/4,1/4,1/4)	(1/4,3/4,3/4)"; ""; " 48 10  5  1  4   P n n n"; "8	m	1";
  "(x,y,z)	(-x+1/2,y,-z+1/2)	(x,-y+1/2,-z+1/2)	(-x+1/2,-y+1/2,z)"; "(-x,-y,-z)	(x+1/2,-y,z+1/2)	(-x,y+1/2,z+1/2)	(x+1/2,y+1/2,-z)"; "4	l	..2"; "(3/4,y,1/4)	(3/4,-y+1/2,1/4)	(1/4,-y,3/4)	(1/4,y+1/2,3/4)";
  "4	k	..2"; "(1/4,y,1/4)	(1/4,-y+1/2,1/4)	(3/4,-y,3/4)	(3/4,y+1/2,3/4)"; "4	j	.2."; "(x,1/4,3/4)	(-x+1/2,1/4,3/4)	(-x,3/4,1/4)	(x+1/2,3/4,1/4)";
  "4	i	.2."; "(x,1/4,1/4)	(-x+1/2,1/4,1/4)	(-x,3/4,3/4)	(x+1/2,3/4,3/4)"; "4	h	2.."; "(1/4,3/4,z)	(1/4,3/4,-z+1/2)	(3/4,1/4,-z)	(3/4,1/4,z+1/2)";
  "4	g	2.."; "(1/4,1/4,z)	(1/4,1/4,-z+1/2)	(3/4,3/4,-z)	(3/4,3/4,z+1/2)"; "4	f	-1"; "(0,0,0)	(1/2,0,1/2)	(0,1/2,1/2)	(1/2,1/2,0)";
  "4	e	-1"; "(1/2,1/2,1/2)	(0,1/2,0)	(1/2,0,0)	(0,0,1/2)"; "2	d	222"; "(3/4,1/4,1/4)	(1/4,3/4,3/4)";
  "2	c	222"; "(1/4,3/4,1/4)	(3/4,1/4,3/4)"; "2	b	222"; "(1/4,1/4,3/4)	(3/4,3/4,1/4)";
  "2	a	222"; "(1/4,1/4,1/4)	(3/4,3/4,3/4)"; ""; " 48 12  5  1  4   P n n n";
  "8	m	1"; "(x,y,z)	(-x+1/2,y,-z+1/2)	(-x+1/2,-y+1/2,z)	(x,-y+1/2,-z+1/2)"; "(-x,-y,-z)	(x+1/2,-y,z+1/2)	(x+1/2,y+1/2,-z)	(-x,y+1/2,z+1/2)"; "4	l	..2";
  "(1/4,y,3/4)	(1/4,-y+1/2,3/4)	(3/4,-y,1/4)	(3/4,y+1/2,1/4)"; "4	k	..2"; "(1/4,y,1/4)	(1/4,-y+1/2,1/4)	(3/4,-y,3/4)	(3/4,y+1/2,3/4)"; "4	j	.2.";
  "(3/4,3/4,z)	(3/4,3/4,-z+1/2)	(1/4,1/4,-z)	(1/4,1/4,z+1/2)"; "4	i	.2."; "(1/4,3/4,z)	(1/4,3/4,-z+1/2)	(3/4,1/4,-z)	(3/4,1/4,z+1/2)"; "4	h	2..";
  "(x,1/4,1/4)	(-x+1/2,1/4,1/4)	(-x,3/4,3/4)	(x+1/2,3/4,3/4)"; "4	g	2.."; "(x,3/4,1/4)	(-x+1/2,3/4,1/4)	(-x,1/4,3/4)	(x+1/2,1/4,3/4)"; "4	f	-1";
  "(0,0,0)	(1/2,0,1/2)	(1/2,1/2,0)	(0,1/2,1/2)"; "4	e	-1"; "(1/2,1/2,1/2)	(0,1/2,0)	(0,0,1/2)	(1/2,0,0)"; "2	d	222";
  "(1/4,3/4,3/4)	(3/4,1/4,1/4)"; "2	c	222"; "(1/4,1/4,1/4)	(3/4,3/4,3/4)"; "2	b	222";
  "(3/4,3/4,1/4)	(1/4,1/4,3/4)"; "2	a	222"; "(1/4,3/4,1/4)	(3/4,1/4,3/4)"; "";
  " 49  1  5  1  4   P c c m"; "8	r	1"; "(x,y,z)	(-x,-y,z)	(-x,y,-z+1/2)	(x,-y,-z+1/2)"; "(-x,-y,-z)	(x,y,-z)	(x,-y,z+1/2)	(-x,y,z+1/2)";
  "4	q	..m"; "(x,y,0)	(-x,-y,0)	(-x,y,1/2)	(x,-y,1/2)"; "4	p	..2"; "(1/2,0,z)	(1/2,0,-z+1/2)	(1/2,0,-z)	(1/2,0,z+1/2)";
  "4	o	..2"; "(0,1/2,z)	(0,1/2,-z+1/2)	(0,1/2,-z)	(0,1/2,z+1/2)"; "4	n	..2"; "(1/2,1/2,z)	(1/2,1/2,-z+1/2)	(1/2,1/2,-z)	(1/2,1/2,z+1/2)";
  "4	m	..2"; "(0,0,z)	(0,0,-z+1/2)	(0,0,-z)	(0,0,z+1/2)"; "4	l	.2."; "(1/2,y,1/4)	(1/2,-y,1/4)	(1/2,-y,3/4)	(1/2,y,3/4)";
  "4	k	.2."; "(0,y,1/4)	(0,-y,1/4)	(0,-y,3/4)	(0,y,3/4)"; "4	j	2.."; "(x,1/2,1/4)	(-x,1/2,1/4)	(-x,1/2,3/4)	(x,1/2,3/4)";
  "4	i	2.."; "(x,0,1/4)	(-x,0,1/4)	(-x,0,3/4)	(x,0,3/4)"; "2	h	222"; "(1/2,1/2,1/4)	(1/2,1/2,3/4)";
  "2	g	222"; "(0,1/2,1/4)	(0,1/2,3/4)"; "2	f	222"; "(1/2,0,1/4)	(1/2,0,3/4)";
  "2	e	222"; "(0,0,1/4)	(0,0,3/4)"; "2	d	..2/m"; "(1/2,0,0)	(1/2,0,1/2)";
  "2	c	..2/m"; "(0,1/2,0)	(0,1/2,1/2)"; "2	b	..2/m"; "(1/2,1/2,0)	(1/2,1/2,1/2)";
  "2	a	..2/m"; "(0,0,0)	(0,0,1/2)"; ""; " 49  2  5  1  4   P c c m";
  "8	r	1"; "(x,y,z)	(-x,-y,z)	(x,-y,-z+1/2)	(-x,y,-z+1/2)"; "(-x,-y,-z)	(x,y,-z)	(-x,y,z+1/2)	(x,-y,z+1/2)"; "4	q	..m";
  "(x,y,0)	(-x,-y,0)	(x,-y,1/2)	(-x,y,1/2)"; "4	p	..2"; "(0,1/2,z)	(0,1/2,-z+1/2)	(0,1/2,-z)	(0,1/2,z+1/2)"; "4	o	..2";
  "(1/2,0,z)	(1/2,0,-z+1/2)	(1/2,0,-z)	(1/2,0,z+1/2)"; "4	n	..2"; "(1/2,1/2,z)	(1/2,1/2,-z+1/2)	(1/2,1/2,-z)	(1/2,1/2,z+1/2)"; "4	m	..2";
  "(0,0,z)	(0,0,-z+1/2)	(0,0,-z)	(0,0,z+1/2)"; "4	l	.2."; "(x,1/2,3/4)	(-x,1/2,3/4)	(-x,1/2,1/4)	(x,1/2,1/4)"; "4	k	.2.";
  "(x,0,3/4)	(-x,0,3/4)	(-x,0,1/4)	(x,0,1/4)"; "4	j	2.."; "(1/2,y,3/4)	(1/2,-y,3/4)	(1/2,-y,1/4)	(1/2,y,1/4)"; "4	i	2..";
  "(0,y,3/4)	(0,-y,3/4)	(0,-y,1/4)	(0,y,1/4)"; "2	h	222"; "(1/2,1/2,3/4)	(1/2,1/2,1/4)"; "2	g	222";
  "(1/2,0,3/4)	(1/2,0,1/4)"; "2	f	222"; "(0,1/2,3/4)	(0,1/2,1/4)"; "2	e	222";
  "(0,0,3/4)	(0,0,1/4)"; "2	d	..2/m"; "(0,1/2,0)	(0,1/2,1/2)"; "2	c	..2/m";
  "(1/2,0,0)	(1/2,0,1/2)"; "2	b	..2/m"; "(1/2,1/2,0)	(1/2,1/2,1/2)"; "2	a	..2/m";
  "(0,0,0)	(0,0,1/2)"; ""; " 49  3  5  1  4   P m a a"; "8	r	1";
  "(x,y,z)	(x,-y,-z)	(-x+1/2,-y,z)	(-x+1/2,y,-z)"; "(-x,-y,-z)	(-x,y,z)	(x+1/2,y,-z)	(x+1/2,-y,z)"; "4	q	..m"; "(0,y,z)	(0,-y,-z)	(1/2,-y,z)	(1/2,y,-z)";
  "4	p	..2"; "(x,1/2,0)	(-x+1/2,1/2,0)	(-x,1/2,0)	(x+1/2,1/2,0)"; "4	o	..2"; "(x,0,1/2)	(-x+1/2,0,1/2)	(-x,0,1/2)	(x+1/2,0,1/2)";
  "4	n	..2"; "(x,1/2,1/2)	(-x+1/2,1/2,1/2)	(-x,1/2,1/2)	(x+1/2,1/2,1/2)"; "4	m	..2"; "(x,0,0)	(-x+1/2,0,0)	(-x,0,0)	(x+1/2,0,0)";
  "4	l	.2."; "(1/4,1/2,z)	(1/4,1/2,-z)	(3/4,1/2,-z)	(3/4,1/2,z)"; "4	k	.2."; "(1/4,0,z)	(1/4,0,-z)	(3/4,0,-z)	(3/4,0,z)";
  "4	j	2.."; "(1/4,y,1/2)	(1/4,-y,1/2)	(3/4,-y,1/2)	(3/4,y,1/2)"; "4	i	2.."; "(1/4,y,0)	(1/4,-y,0)	(3/4,-y,0)	(3/4,y,0)";
  "2	h	222"; "(1/4,1/2,1/2)	(3/4,1/2,1/2)"; "2	g	222"; "(1/4,0,1/2)	(3/4,0,1/2)";
  "2	f	222"; "(1/4,1/2,0)	(3/4,1/2,0)"; "2	e	222"; "(1/4,0,0)	(3/4,0,0)";
  "2	d	..2/m"; "(0,1/2,0)	(1/2,1/2,0)"; "2	c	..2/m"; "(0,0,1/2)	(1/2,0,1/2)";
  "2	b	..2/m"; "(0,1/2,1/2)	(1/2,1/2,1/2)"; "2	a	..2/m"; "(0,0,0)	(1/2,0,0)";
  ""; " 49  4  5  1  4   P m a a"; "8	r	1"; "(x,y,z)	(x,-y,-z)	(-x+1/2,y,-z)	(-x+1/2,-y,z)";
  "(-x,-y,-z)	(-x,y,z)	(x+1/2,-y,z)	(x+1/2,y,-z)"; "4	q	..m"; "(0,y,z)	(0,-y,-z)	(1/2,y,-z)	(1/2,-y,z)"; "4	p	..2";
  "(x,0,1/2)	(-x+1/2,0,1/2)	(-x,0,1/2)	(x+1/2,0,1/2)"; "4	o	..2"; "(x,1/2,0)	(-x+1/2,1/2,0)	(-x,1/2,0)	(x+1/2,1/2,0)"; "4	n	..2";
  "(x,1/2,1/2)	(-x+1/2,1/2,1/2)	(-x,1/2,1/2)	(x+1/2,1/2,1/2)"; "4	m	..2"; "(x,0,0)	(-x+1/2,0,0)	(-x,0,0)	(x+1/2,0,0)"; "4	l	.2.";
  "(3/4,y,1/2)	(3/4,-y,1/2)	(1/4,-y,1/2)	(1/4,y,1/2)"; "4	k	.2."; "(3/4,y,0)	(3/4,-y,0)	(1/4,-y,0)	(1/4,y,0)"; "4	j	2..";
  "(3/4,1/2,z)	(3/4,1/2,-z)	(1/4,1/2,-z)	(1/4,1/2,z)"; "4	i	2.."; "(3/4,0,z)	(3/4,0,-z)	(1/4,0,-z)	(1/4,0,z)"; "2	h	222";
  "(3/4,1/2,1/2)	(1/4,1/2,1/2)"; "2	g	222"; "(3/4,1/2,0)	(1/4,1/2,0)"; "2	f	222";
  "(3/4,0,1/2)	(1/4,0,1/2)"; "2	e	222"; "(3/4,0,0)	(1/4,0,0)"; "2	d	..2/m";
  "(0,0,1/2)	(1/2,0,1/2)"; "2	c	..2/m"; "(0,1/2,0)	(1/2,1/2,0)"; "2	b	..2/m";
  "(0,1/2,1/2)	(1/2,1/2,1/2)"; "2	a	..2/m"; "(0,0,0)	(1/2,0,0)"; "";
  " 49  5  5  1  4   P b m b"; "8	r	1"; "(x,y,z)	(-x,y,-z)	(x,-y+1/2,-z)	(-x,-y+1/2,z)"; "(-x,-y,-z)	(x,-y,z)	(-x,y+1/2,z)	(x,y+1/2,-z)";
  "4	q	..m"; "(x,0,z)	(-x,0,-z)	(x,1/2,-z)	(-x,1/2,z)"; "4	p	..2"; "(0,y,1/2)	(0,-y+1/2,1/2)	(0,-y,1/2)	(0,y+1/2,1/2)";
  "4	o	..2"; "(1/2,y,0)	(1/2,-y+1/2,0)	(1/2,-y,0)	(1/2,y+1/2,0)"; "4	n	..2"; "(1/2,y,1/2)	(1/2,-y+1/2,1/2)	(1/2,-y,1/2)	(1/2,y+1/2,1/2)";
  "4	m	..2"; "(0,y,0)	(0,-y+1/2,0)	(0,-y,0)	(0,y+1/2,0)"; "4	l	.2."; "(x,1/4,1/2)	(-x,1/4,1/2)	(-x,3/4,1/2)	(x,3/4,1/2)";
  "4	k	.2."; "(x,1/4,0)	(-x,1/4,0)	(-x,3/4,0)	(x,3/4,0)"; "4	j	2.."; "(1/2,1/4,z)	(1/2,1/4,-z)	(1/2,3/4,-z)	(1/2,3/4,z)";
  "4	i	2.."; "(0,1/4,z)	(0,1/4,-z)	(0,3/4,-z)	(0,3/4,z)"; "2	h	222"; "(1/2,1/4,1/2)	(1/2,3/4,1/2)";
  "2	g	222"; "(1/2,1/4,0)	(1/2,3/4,0)"; "2	f	222"; "(0,1/4,1/2)	(0,3/4,1/2)";
  "2	e	222"; "(0,1/4,0)	(0,3/4,0)"; "2	d	..2/m"; "(0,0,1/2)	(0,1/2,1/2)";
  "2	c	..2/m"; "(1/2,0,0)	(1/2,1/2,0)"; "2	b	..2/m"; "(1/2,0,1/2)	(1/2,1/2,1/2)";
  "2	a	..2/m"; "(0,0,0)	(0,1/2,0)"; ""; " 49  6  5  1  4   P b m b";
  "8	r	1"; "(x,y,z)	(-x,y,-z)	(-x,-y+1/2,z)	(x,-y+1/2,-z)"; "(-x,-y,-z)	(x,-y,z)	(x,y+1/2,-z)	(-x,y+1/2,z)"; "4	q	..m";
  "(x,0,z)	(-x,0,-z)	(-x,1/2,z)	(x,1/2,-z)"; "4	p	..2"; "(1/2,y,0)	(1/2,-y+1/2,0)	(1/2,-y,0)	(1/2,y+1/2,0)"; "4	o	..2";
  "(0,y,1/2)	(0,-y+1/2,1/2)	(0,-y,1/2)	(0,y+1/2,1/2)"; "4	n	..2"; "(1/2,y,1/2)	(1/2,-y+1/2,1/2)	(1/2,-y,1/2)	(1/2,y+1/2,1/2)"; "4	m	..2";
  "(0,y,0)	(0,-y+1/2,0)	(0,-y,0)	(0,y+1/2,0)"; "4	l	.2."; "(1/2,3/4,z)	(1/2,3/4,-z)	(1/2,1/4,-z)	(1/2,1/4,z)"; "4	k	.2.";
  "(0,3/4,z)	(0,3/4,-z)	(0,1/4,-z)	(0,1/4,z)"; "4	j	2.."; "(x,3/4,1/2)	(-x,3/4,1/2)	(-x,1/4,1/2)	(x,1/4,1/2)"; "4	i	2..";
  "(x,3/4,0)	(-x,3/4,0)	(-x,1/4,0)	(x,1/4,0)"; "2	h	222"; "(1/2,3/4,1/2)	(1/2,1/4,1/2)"; "2	g	222";
  "(0,3/4,1/2)	(0,1/4,1/2)"; "2	f	222"; "(1/2,3/4,0)	(1/2,1/4,0)"; "2	e	222";
  "(0,3/4,0)	(0,1/4,0)"; "2	d	..2/m"; "(1/2,0,0)	(1/2,1/2,0)"; "2	c	..2/m";
  "(0,0,1/2)	(0,1/2,1/2)"; "2	b	..2/m"; "(1/2,0,1/2)	(1/2,1/2,1/2)"; "2	a	..2/m";
  "(0,0,0)	(0,1/2,0)"; ""; " 50  1  5  0  8   P b a n"; "8	m	1";
  "(x,y,z)	(-x,-y,z)	(-x,y,-z)	(x,-y,-z)"; "(-x+1/2,-y+1/2,-z)	(x+1/2,y+1/2,-z)	(x+1/2,-y+1/2,z)	(-x+1/2,y+1/2,z)"; "4	l	..2"; "(0,1/2,z)	(0,1/2,-z)	(1/2,0,-z)	(1/2,0,z)";
  "4	k	..2"; "(0,0,z)	(0,0,-z)	(1/2,1/2,-z)	(1/2,1/2,z)"; "4	j	.2."; "(0,y,1/2)	(0,-y,1/2)	(1/2,-y+1/2,1/2)	(1/2,y+1/2,1/2)";
  "4	i	.2."; "(0,y,0)	(0,-y,0)	(1/2,-y+1/2,0)	(1/2,y+1/2,0)"; "4	h	2.."; "(x,0,1/2)	(-x,0,1/2)	(-x+1/2,1/2,1/2)	(x+1/2,1/2,1/2)";
  "4	g	2.."; "(x,0,0)	(-x,0,0)	(-x+1/2,1/2,0)	(x+1/2,1/2,0)"; "4	f	-1"; "(1/4,1/4,1/2)	(3/4,3/4,1/2)	(3/4,1/4,1/2)	(1/4,3/4,1/2)";
  "4	e	-1"; "(1/4,1/4,0)	(3/4,3/4,0)	(3/4,1/4,0)	(1/4,3/4,0)"; "2	d	222"; "(0,0,1/2)	(1/2,1/2,1/2)";
  "2	c	222"; "(1/2,0,1/2)	(0,1/2,1/2)"; "2	b	222"; "(1/2,0,0)	(0,1/2,0)";
  "2	a	222"; "(0,0,0)	(1/2,1/2,0)"; ""; " 50  3  5  0  8   P b a n";
  "8	m	1"; "(x,y,z)	(-x,-y,z)	(x,-y,-z)	(-x,y,-z)"; "(-x+1/2,-y+1/2,-z)	(x+1/2,y+1/2,-z)	(-x+1/2,y+1/2,z)	(x+1/2,-y+1/2,z)"; "4	l	..2";
  "(1/2,0,z)	(1/2,0,-z)	(0,1/2,-z)	(0,1/2,z)"; "4	k	..2"; "(0,0,z)	(0,0,-z)	(1/2,1/2,-z)	(1/2,1/2,z)"; "4	j	.2.";
  "(x,0,1/2)	(-x,0,1/2)	(-x+1/2,1/2,1/2)	(x+1/2,1/2,1/2)"; "4	i	.2."; "(x,0,0)	(-x,0,0)	(-x+1/2,1/2,0)	(x+1/2,1/2,0)"; "4	h	2..";
  "(0,y,1/2)	(0,-y,1/2)	(1/2,-y+1/2,1/2)	(1/2,y+1/2,1/2)"; "4	g	2.."; "(0,y,0)	(0,-y,0)	(1/2,-y+1/2,0)	(1/2,y+1/2,0)"; "4	f	-1";
  "(1/4,1/4,1/2)	(3/4,3/4,1/2)	(1/4,3/4,1/2)	(3/4,1/4,1/2)"; "4	e	-1"; "(1/4,1/4,0)	(3/4,3/4,0)	(1/4,3/4,0)	(3/4,1/4,0)"; "2	d	222";
  "(0,0,1/2)	(1/2,1/2,1/2)"; "2	c	222"; "(0,1/2,1/2)	(1/2,0,1/2)"; "2	b	222";
  "(0,1/2,0)	(1/2,0,0)"; "2	a	222"; "(0,0,0)	(1/2,1/2,0)"; "";
  " 50  5  5  0  8   P n c b"; "8	m	1"; "(x,y,z)	(x,-y,-z)	(-x,-y,z)	(-x,y,-z)"; "(-x,-y+1/2,-z+1/2)	(-x,y+1/2,z+1/2)	(x,y+1/2,-z+1/2)	(x,-y+1/2,z+1/2)";
  "4	l	..2"; "(x,0,1/2)	(-x,0,1/2)	(-x,1/2,0)	(x,1/2,0)"; "4	k	..2"; "(x,0,0)	(-x,0,0)	(-x,1/2,1/2)	(x,1/2,1/2)";
  "4	j	.2."; "(1/2,0,z)	(1/2,0,-z)	(1/2,1/2,-z+1/2)	(1/2,1/2,z+1/2)"; "4	i	.2."; "(0,0,z)	(0,0,-z)	(0,1/2,-z+1/2)	(0,1/2,z+1/2)";
  "4	h	2.."; "(1/2,y,0)	(1/2,-y,0)	(1/2,-y+1/2,1/2)	(1/2,y+1/2,1/2)"; "4	g	2.."; "(0,y,0)	(0,-y,0)	(0,-y+1/2,1/2)	(0,y+1/2,1/2)";
  "4	f	-1"; "(1/2,1/4,1/4)	(1/2,3/4,3/4)	(1/2,3/4,1/4)	(1/2,1/4,3/4)"; "4	e	-1"; "(0,1/4,1/4)	(0,3/4,3/4)	(0,3/4,1/4)	(0,1/4,3/4)";
  "2	d	222"; "(1/2,0,0)	(1/2,1/2,1/2)"; "2	c	222"; "(1/2,1/2,0)	(1/2,0,1/2)";
  "2	b	222"; "(0,1/2,0)	(0,0,1/2)"; "2	a	222"; "(0,0,0)	(0,1/2,1/2)";
  ""; " 50  7  5  0  8   P n c b"; "8	m	1"; "(x,y,z)	(x,-y,-z)	(-x,y,-z)	(-x,-y,z)";
  "(-x,-y+1/2,-z+1/2)	(-x,y+1/2,z+1/2)	(x,-y+1/2,z+1/2)	(x,y+1/2,-z+1/2)"; "4	l	..2"; "(x,1/2,0)	(-x,1/2,0)	(-x,0,1/2)	(x,0,1/2)"; "4	k	..2";
  "(x,0,0)	(-x,0,0)	(-x,1/2,1/2)	(x,1/2,1/2)"; "4	j	.2."; "(1/2,y,0)	(1/2,-y,0)	(1/2,-y+1/2,1/2)	(1/2,y+1/2,1/2)"; "4	i	.2.";
  "(0,y,0)	(0,-y,0)	(0,-y+1/2,1/2)	(0,y+1/2,1/2)"; "4	h	2.."; "(1/2,0,z)	(1/2,0,-z)	(1/2,1/2,-z+1/2)	(1/2,1/2,z+1/2)"; "4	g	2..";
  "(0,0,z)	(0,0,-z)	(0,1/2,-z+1/2)	(0,1/2,z+1/2)"; "4	f	-1"; "(1/2,1/4,1/4)	(1/2,3/4,3/4)	(1/2,1/4,3/4)	(1/2,3/4,1/4)"; "4	e	-1";
  "(0,1/4,1/4)	(0,3/4,3/4)	(0,1/4,3/4)	(0,3/4,1/4)"; "2	d	222"; "(1/2,0,0)	(1/2,1/2,1/2)"; "2	c	222";
  "(1/2,0,1/2)	(1/2,1/2,0)"; "2	b	222"; "(0,0,1/2)	(0,1/2,0)"; "2	a	222";
  "(0,0,0)	(0,1/2,1/2)"; ""; " 50  9  5  0  8   P c n a"; "8	m	1";
  "(x,y,z)	(-x,y,-z)	(x,-y,-z)	(-x,-y,z)"; "(-x+1/2,-y,-z+1/2)	(x+1/2,-y,z+1/2)	(-x+1/2,y,z+1/2)	(x+1/2,y,-z+1/2)"; "4	l	..2"; "(1/2,y,0)	(1/2,-y,0)	(0,-y,1/2)	(0,y,1/2)";
  "4	k	..2"; "(0,y,0)	(0,-y,0)	(1/2,-y,1/2)	(1/2,y,1/2)"; "4	j	.2."; "(x,1/2,0)	(-x,1/2,0)	(-x+1/2,1/2,1/2)	(x+1/2,1/2,1/2)";
  "4	i	.2."; "(x,0,0)	(-x,0,0)	(-x+1/2,0,1/2)	(x+1/2,0,1/2)"; "4	h	2.."; "(0,1/2,z)	(0,1/2,-z)	(1/2,1/2,-z+1/2)	(1/2,1/2,z+1/2)";
  "4	g	2.."; "(0,0,z)	(0,0,-z)	(1/2,0,-z+1/2)	(1/2,0,z+1/2)"; "4	f	-1"; "(1/4,1/2,1/4)	(3/4,1/2,3/4)	(1/4,1/2,3/4)	(3/4,1/2,1/4)";
  "4	e	-1"; "(1/4,0,1/4)	(3/4,0,3/4)	(1/4,0,3/4)	(3/4,0,1/4)"; "2	d	222"; "(0,1/2,0)	(1/2,1/2,1/2)";
  "2	c	222"; "(0,1/2,1/2)	(1/2,1/2,0)"; "2	b	222"; "(0,0,1/2)	(1/2,0,0)";
  "2	a	222"; "(0,0,0)	(1/2,0,1/2)"; ""; " 50 11  5  0  8   P c n a";
  "8	m	1"; "(x,y,z)	(-x,y,-z)	(-x,-y,z)	(x,-y,-z)"; "(-x+1/2,-y,-z+1/2)	(x+1/2,-y,z+1/2)	(x+1/2,y,-z+1/2)	(-x+1/2,y,z+1/2)"; "4	l	..2";
  "(0,y,1/2)	(0,-y,1/2)	(1/2,-y,0)	(1/2,y,0)"; "4	k	..2"; "(0,y,0)	(0,-y,0)	(1/2,-y,1/2)	(1/2,y,1/2)"; "4	j	.2.";
  "(0,1/2,z)	(0,1/2,-z)	(1/2,1/2,-z+1/2)	(1/2,1/2,z+1/2)"; "4	i	.2."; "(0,0,z)	(0,0,-z)	(1/2,0,-z+1/2)	(1/2,0,z+1/2)"; "4	h	2..";
  "(x,1/2,0)	(-x,1/2,0)	(-x+1/2,1/2,1/2)	(x+1/2,1/2,1/2)"; "4	g	2.."; "(x,0,0)	(-x,0,0)	(-x+1/2,0,1/2)	(x+1/2,0,1/2)"; "4	f	-1";
  "(1/4,1/2,1/4)	(3/4,1/2,3/4)	(3/4,1/2,1/4)	(1/4,1/2,3/4)"; "4	e	-1"; "(1/4,0,1/4)	(3/4,0,3/4)	(3/4,0,1/4)	(1/4,0,3/4)"; "2	d	222";
  "(0,1/2,0)	(1/2,1/2,1/2)"; "2	c	222"; "(1/2,1/2,0)	(0,1/2,1/2)"; "2	b	222";
  "(1/2,0,0)	(0,0,1/2)"; "2	a	222"; "(0,0,0)	(1/2,0,1/2)"; "";
  " 50  2  5  1  4   P b a n"; "8	m	1"; "(x,y,z)	(-x+1/2,-y+1/2,z)	(-x+1/2,y,-z)	(x,-y+1/2,-z)"; "(-x,-y,-z)	(x+1/2,y+1/2,-z)	(x+1/2,-y,z)	(-x,y+1/2,z)";
  "4	l	..2"; "(1/4,3/4,z)	(1/4,3/4,-z)	(3/4,1/4,-z)	(3/4,1/4,z)"; "4	k	..2"; "(1/4,1/4,z)	(1/4,1/4,-z)	(3/4,3/4,-z)	(3/4,3/4,z)";
  "4	j	.2."; "(1/4,y,1/2)	(1/4,-y+1/2,1/2)	(3/4,-y,1/2)	(3/4,y+1/2,1/2)"; "4	i	.2."; "(1/4,y,0)	(1/4,-y+1/2,0)	(3/4,-y,0)	(3/4,y+1/2,0)";
  "4	h	2.."; "(x,1/4,1/2)	(-x+1/2,1/4,1/2)	(-x,3/4,1/2)	(x+1/2,3/4,1/2)"; "4	g	2.."; "(x,1/4,0)	(-x+1/2,1/4,0)	(-x,3/4,0)	(x+1/2,3/4,0)";
  "4	f	-1"; "(0,0,1/2)	(1/2,1/2,1/2)	(1/2,0,1/2)	(0,1/2,1/2)"; "4	e	-1"; "(0,0,0)	(1/2,1/2,0)	(1/2,0,0)	(0,1/2,0)";
  "2	d	222"; "(1/4,1/4,1/2)	(3/4,3/4,1/2)"; "2	c	222"; "(3/4,1/4,1/2)	(1/4,3/4,1/2)";
  "2	b	222"; "(3/4,1/4,0)	(1/4,3/4,0)"; "2	a	222"; "(1/4,1/4,0)	(3/4,3/4,0)";
  ""; " 50  4  5  1  4   P b a n"; "8	m	1"; "(x,y,z)	(-x+1/2,-y+1/2,z)	(x,-y+1/2,-z)	(-x+1/2,y,-z)";
  "(-x,-y,-z)	(x+1/2,y+1/2,-z)	(-x,y+1/2,z)	(x+1/2,-y,z)"; "4	l	..2"; "(3/4,1/4,z)	(3/4,1/4,-z)	(1/4,3/4,-z)	(1/4,3/4,z)"; "4	k	..2";
  "(1/4,1/4,z)	(1/4,1/4,-z)	(3/4,3/4,-z)	(3/4,3/4,z)"; "4	j	.2."; "(x,1/4,1/2)	(-x+1/2,1/4,1/2)	(-x,3/4,1/2)	(x+1/2,3/4,1/2)"; "4	i	.2.";
  "(x,1/4,0)	(-x+1/2,1/4,0)	(-x,3/4,0)	(x+1/2,3/4,0)"; "4	h	2.."; "(1/4,y,1/2)	(1/4,-y+1/2,1/2)	(3/4,-y,1/2)	(3/4,y+1/2,1/2)"; "4	g	2..";
  "(1/4,y,0)	(1/4,-y+1/2,0)	(3/4,-y,0)	(3/4,y+1/2,0)"; "4	f	-1"; "(0,0,1/2)	(1/2,1/2,1/2)	(0,1/2,1/2)	(1/2,0,1/2)"; "4	e	-1";
  "(0,0,0)	(1/2,1/2,0)	(0,1/2,0)	(1/2,0,0)"; "2	d	222"; "(1/4,1/4,1/2)	(3/4,3/4,1/2)"; "2	c	222";
  "(1/4,3/4,1/2)	(3/4,1/4,1/2)"; "2	b	222"; "(1/4,3/4,0)	(3/4,1/4,0)"; "2	a	222";
  "(1/4,1/4,0)	(3/4,3/4,0)"; ""; " 50  6  5  1  4   P n c b"; "8	m	1";
  "(x,y,z)	(x,-y+1/2,-z+1/2)	(-x,-y+1/2,z)	(-x,y,-z+1/2)"; "(-x,-y,-z)	(-x,y+1/2,z+1/2)	(x,y+1/2,-z)	(x,-y,z+1/2)"; "4	l	..2"; "(x,1/4,3/4)	(-x,1/4,3/4)	(-x,3/4,1/4)	(x,3/4,1/4)";
  "4	k	..2"; "(x,1/4,1/4)	(-x,1/4,1/4)	(-x,3/4,3/4)	(x,3/4,3/4)"; "4	j	.2."; "(1/2,1/4,z)	(1/2,1/4,-z+1/2)	(1/2,3/4,-z)	(1/2,3/4,z+1/2)";
  "4	i	.2."; "(0,1/4,z)	(0,1/4,-z+1/2)	(0,3/4,-z)	(0,3/4,z+1/2)"; "4	h	2.."; "(1/2,y,1/4)	(1/2,-y+1/2,1/4)	(1/2,-y,3/4)	(1/2,y+1/2,3/4)";
  "4	g	2.."; "(0,y,1/4)	(0,-y+1/2,1/4)	(0,-y,3/4)	(0,y+1/2,3/4)"; "4	f	-1"; "(1/2,0,0)	(1/2,1/2,1/2)	(1/2,1/2,0)	(1/2,0,1/2)";
  "4	e	-1"; "(0,0,0)	(0,1/2,1/2)	(0,1/2,0)	(0,0,1/2)"; "2	d	222"; "(1/2,1/4,1/4)	(1/2,3/4,3/4)";
  "2	c	222"; "(1/2,3/4,1/4)	(1/2,1/4,3/4)"; "2	b	222"; "(0,3/4,1/4)	(0,1/4,3/4)";
  "2	a	222"; "(0,1/4,1/4)	(0,3/4,3/4)"; ""; " 50  8  5  1  4   P n c b";
  "8	m	1"; "(x,y,z)	(x,-y+1/2,-z+1/2)	(-x,y,-z+1/2)	(-x,-y+1/2,z)"; "(-x,-y,-z)	(-x,y+1/2,z+1/2)	(x,-y,z+1/2)	(x,y+1/2,-z)"; "4	l	..2";
  "(x,3/4,1/4)	(-x,3/4,1/4)	(-x,1/4,3/4)	(x,1/4,3/4)"; "4	k	..2"; "(x,1/4,1/4)	(-x,1/4,1/4)	(-x,3/4,3/4)	(x,3/4,3/4)"; "4	j	.2.";
  "(1/2,y,1/4)	(1/2,-y+1/2,1/4)	(1/2,-y,3/4)	(1/2,y+1/2,3/4)"; "4	i	.2."; "(0,y,1/4)	(0,-y+1/2,1/4)	(0,-y,3/4)	(0,y+1/2,3/4)"; "4	h	2..";
  "(1/2,1/4,z)	(1/2,1/4,-z+1/2)	(1/2,3/4,-z)	(1/2,3/4,z+1/2)"; "4	g	2.."; "(0,1/4,z)	(0,1/4,-z+1/2)	(0,3/4,-z)	(0,3/4,z+1/2)"; "4	f	-1";
  "(1/2,0,0)	(1/2,1/2,1/2)	(1/2,0,1/2)	(1/2,1/2,0)"; "4	e	-1"; "(0,0,0)	(0,1/2,1/2)	(0,0,1/2)	(0,1/2,0)"; "2	d	222";
  "(1/2,1/4,1/4)	(1/2,3/4,3/4)"; "2	c	222"; "(1/2,1/4,3/4)	(1/2,3/4,1/4)"; "2	b	222";
  "(0,1/4,3/4)	(0,3/4,1/4)"; "2	a	222"; "(0,1/4,1/4)	(0,3/4,3/4)"; "";
  " 50 10  5  1  4   P c n a"; "8	m	1"; "(x,y,z)	(-x+1/2,y,-z+1/2)	(x,-y,-z+1/2)	(-x+1/2,-y,z)"; "(-x,-y,-z)	(x+1/2,-y,z+1/2)	(-x,y,z+1/2)	(x+1/2,y,-z)";
  "4	l	..2"; "(3/4,y,1/4)	(3/4,-y,1/4)	(1/4,-y,3/4)	(1/4,y,3/4)"; "4	k	..2"; "(1/4,y,1/4)	(1/4,-y,1/4)	(3/4,-y,3/4)	(3/4,y,3/4)";
  "4	j	.2."; "(x,1/2,1/4)	(-x+1/2,1/2,1/4)	(-x,1/2,3/4)	(x+1/2,1/2,3/4)"; "4	i	.2."; "(x,0,1/4)	(-x+1/2,0,1/4)	(-x,0,3/4)	(x+1/2,0,3/4)";
  "4	h	2.."; "(1/4,1/2,z)	(1/4,1/2,-z+1/2)	(3/4,1/2,-z)	(3/4,1/2,z+1/2)"; "4	g	2.."; "(1/4,0,z)	(1/4,0,-z+1/2)	(3/4,0,-z)	(3/4,0,z+1/2)";
  "4	f	-1"; "(0,1/2,0)	(1/2,1/2,1/2)	(0,1/2,1/2)	(1/2,1/2,0)"; "4	e	-1"; "(0,0,0)	(1/2,0,1/2)	(0,0,1/2)	(1/2,0,0)";
  "2	d	222"; "(1/4,1/2,1/4)	(3/4,1/2,3/4)"; "2	c	222"; "(1/4,1/2,3/4)	(3/4,1/2,1/4)";
  "2	b	222"; "(1/4,0,3/4)	(3/4,0,1/4)"; "2	a	222"; "(1/4,0,1/4)	(3/4,0,3/4)";
  ""; " 50 12  5  1  4   P c n a"; "8	m	1"; "(x,y,z)	(-x+1/2,y,-z+1/2)	(-x+1/2,-y,z)	(x,-y,-z+1/2)";
  "(-x,-y,-z)	(x+1/2,-y,z+1/2)	(x+1/2,y,-z)	(-x,y,z+1/2)"; "4	l	..2"; "(1/4,y,3/4)	(1/4,-y,3/4)	(3/4,-y,1/4)	(3/4,y,1/4)"; "4	k	..2";
  "(1/4,y,1/4)	(1/4,-y,1/4)	(3/4,-y,3/4)	(3/4,y,3/4)"; "4	j	.2."; "(1/4,1/2,z)	(1/4,1/2,-z+1/2)	(3/4,1/2,-z)	(3/4,1/2,z+1/2)"; "4	i	.2.";
  "(1/4,0,z)	(1/4,0,-z+1/2)	(3/4,0,-z)	(3/4,0,z+1/2)"; "4	h	2.."; "(x,1/2,1/4)	(-x+1/2,1/2,1/4)	(-x,1/2,3/4)	(x+1/2,1/2,3/4)"; "4	g	2..";
  "(x,0,1/4)	(-x+1/2,0,1/4)	(-x,0,3/4)	(x+1/2,0,3/4)"; "4	f	-1"; "(0,1/2,0)	(1/2,1/2,1/2)	(1/2,1/2,0)	(0,1/2,1/2)"; "4	e	-1";
  "(0,0,0)	(1/2,0,1/2)	(1/2,0,0)	(0,0,1/2)"; "2	d	222"; "(1/4,1/2,1/4)	(3/4,1/2,3/4)"; "2	c	222";
  "(3/4,1/2,1/4)	(1/4,1/2,3/4)"; "2	b	222"; "(3/4,0,1/4)	(1/4,0,3/4)"; "2	a	222";
  "(1/4,0,1/4)	(3/4,0,3/4)"; ""; " 51  1  5  1  4   P m m a"; "8	l	1";
  "(x,y,z)	(-x+1/2,-y,z)	(-x,y,-z)	(x+1/2,-y,-z)"; "(-x,-y,-z)	(x+1/2,y,-z)	(x,-y,z)	(-x+1/2,y,z)"; "4	k	m.."; "(1/4,y,z)	(1/4,-y,z)	(3/4,y,-z)	(3/4,-y,-z)";
  "4	j	.m."; "(x,1/2,z)	(-x+1/2,1/2,z)	(-x,1/2,-z)	(x+1/2,1/2,-z)"; "4	i	.m."; "(x,0,z)	(-x+1/2,0,z)	(-x,0,-z)	(x+1/2,0,-z)";
  "4	h	.2."; "(0,y,1/2)	(1/2,-y,1/2)	(0,-y,1/2)	(1/2,y,1/2)"; "4	g	.2."; "(0,y,0)	(1/2,-y,0)	(0,-y,0)	(1/2,y,0)";
  "2	f	mm2"; "(1/4,1/2,z)	(3/4,1/2,-z)"; "2	e	mm2"; "(1/4,0,z)	(3/4,0,-z)";
  "2	d	.2/m."; "(0,1/2,1/2)	(1/2,1/2,1/2)"; "2	c	.2/m."; "(0,0,1/2)	(1/2,0,1/2)";
  "2	b	.2/m."; "(0,1/2,0)	(1/2,1/2,0)"; "2	a	.2/m."; "(0,0,0)	(1/2,0,0)";
  ""; " 51  2  5  1  4   P m m b"; "8	l	1"; "(x,y,z)	(-x,-y+1/2,z)	(x,-y,-z)	(-x,y+1/2,-z)";
  "(-x,-y,-z)	(x,y+1/2,-z)	(-x,y,z)	(x,-y+1/2,z)"; "4	k	m.."; "(x,1/4,z)	(-x,1/4,z)	(x,3/4,-z)	(-x,3/4,-z)"; "4	j	.m.";
  "(1/2,y,z)	(1/2,-y+1/2,z)	(1/2,-y,-z)	(1/2,y+1/2,-z)"; "4	i	.m."; "(0,y,z)	(0,-y+1/2,z)	(0,-y,-z)	(0,y+1/2,-z)"; "4	h	.2.";
  "(x,0,1/2)	(-x,1/2,1/2)	(-x,0,1/2)	(x,1/2,1/2)"; "4	g	.2."; "(x,0,0)	(-x,1/2,0)	(-x,0,0)	(x,1/2,0)"; "2	f	mm2";
  "(1/2,1/4,z)	(1/2,3/4,-z)"; "2	e	mm2"; "(0,1/4,z)	(0,3/4,-z)"; "2	d	.2/m.";
  "(1/2,0,1/2)	(1/2,1/2,1/2)"; "2	c	.2/m."; "(0,0,1/2)	(0,1/2,1/2)"; "2	b	.2/m.";
  "(1/2,0,0)	(1/2,1/2,0)"; "2	a	.2/m."; "(0,0,0)	(0,1/2,0)"; "";
  " 51  3  5  1  4   P b m m"; "8	l	1"; "(x,y,z)	(x,-y+1/2,-z)	(-x,-y,z)	(-x,y+1/2,-z)"; "(-x,-y,-z)	(-x,y+1/2,z)	(x,y,-z)	(x,-y+1/2,z)";
  "4	k	m.."; "(x,1/4,z)	(x,1/4,-z)	(-x,3/4,z)	(-x,3/4,-z)"; "4	j	.m."; "(x,y,1/2)	(x,-y+1/2,1/2)	(-x,-y,1/2)	(-x,y+1/2,1/2)";
  "4	i	.m."; "(x,y,0)	(x,-y+1/2,0)	(-x,-y,0)	(-x,y+1/2,0)"; "4	h	.2."; "(1/2,0,z)	(1/2,1/2,-z)	(1/2,0,-z)	(1/2,1/2,z)";
  "4	g	.2."; "(0,0,z)	(0,1/2,-z)	(0,0,-z)	(0,1/2,z)"; "2	f	mm2"; "(x,1/4,1/2)	(-x,3/4,1/2)";
  "2	e	mm2"; "(x,1/4,0)	(-x,3/4,0)"; "2	d	.2/m."; "(1/2,0,1/2)	(1/2,1/2,1/2)";
  "2	c	.2/m."; "(1/2,0,0)	(1/2,1/2,0)"; "2	b	.2/m."; "(0,0,1/2)	(0,1/2,1/2)";
  "2	a	.2/m."; "(0,0,0)	(0,1/2,0)"; ""; " 51  4  5  1  4   P c m m";
  "8	l	1"; "(x,y,z)	(x,-y,-z+1/2)	(-x,y,-z)	(-x,-y,z+1/2)"; "(-x,-y,-z)	(-x,y,z+1/2)	(x,-y,z)	(x,y,-z+1/2)"; "4	k	m..";
  "(x,y,1/4)	(x,-y,1/4)	(-x,y,3/4)	(-x,-y,3/4)"; "4	j	.m."; "(x,1/2,z)	(x,1/2,-z+1/2)	(-x,1/2,-z)	(-x,1/2,z+1/2)"; "4	i	.m.";
  "(x,0,z)	(x,0,-z+1/2)	(-x,0,-z)	(-x,0,z+1/2)"; "4	h	.2."; "(1/2,y,0)	(1/2,-y,1/2)	(1/2,-y,0)	(1/2,y,1/2)"; "4	g	.2.";
  "(0,y,0)	(0,-y,1/2)	(0,-y,0)	(0,y,1/2)"; "2	f	mm2"; "(x,1/2,1/4)	(-x,1/2,3/4)"; "2	e	mm2";
  "(x,0,1/4)	(-x,0,3/4)"; "2	d	.2/m."; "(1/2,1/2,0)	(1/2,1/2,1/2)"; "2	c	.2/m.";
  "(1/2,0,0)	(1/2,0,1/2)"; "2	b	.2/m."; "(0,1/2,0)	(0,1/2,1/2)"; "2	a	.2/m.";
  "(0,0,0)	(0,0,1/2)"; ""; " 51  5  5  1  4   P m c m"; "8	l	1";
  "(x,y,z)	(-x,y,-z+1/2)	(x,-y,-z)	(-x,-y,z+1/2)"; "(-x,-y,-z)	(x,-y,z+1/2)	(-x,y,z)	(x,y,-z+1/2)"; "4	k	m.."; "(x,y,1/4)	(-x,y,1/4)	(x,-y,3/4)	(-x,-y,3/4)";
  "4	j	.m."; "(1/2,y,z)	(1/2,y,-z+1/2)	(1/2,-y,-z)	(1/2,-y,z+1/2)"; "4	i	.m."; "(0,y,z)	(0,y,-z+1/2)	(0,-y,-z)	(0,-y,z+1/2)";
  "4	h	.2."; "(x,1/2,0)	(-x,1/2,1/2)	(-x,1/2,0)	(x,1/2,1/2)"; "4	g	.2."; "(x,0,0)	(-x,0,1/2)	(-x,0,0)	(x,0,1/2)";
  "2	f	mm2"; "(1/2,y,1/4)	(1/2,-y,3/4)"; "2	e	mm2"; "(0,y,1/4)	(0,-y,3/4)";
  "2	d	.2/m."; "(1/2,1/2,0)	(1/2,1/2,1/2)"; "2	c	.2/m."; "(0,1/2,0)	(0,1/2,1/2)";
  "2	b	.2/m."; "(1/2,0,0)	(1/2,0,1/2)"; "2	a	.2/m."; "(0,0,0)	(0,0,1/2)";
  ""; " 51  6  5  1  4   P m a m"; "8	l	1"; "(x,y,z)	(-x+1/2,y,-z)	(-x,-y,z)	(x+1/2,-y,-z)";
  "(-x,-y,-z)	(x+1/2,-y,z)	(x,y,-z)	(-x+1/2,y,z)"; "4	k	m.."; "(1/4,y,z)	(1/4,y,-z)	(3/4,-y,z)	(3/4,-y,-z)"; "4	j	.m.";
  "(x,y,1/2)	(-x+1/2,y,1/2)	(-x,-y,1/2)	(x+1/2,-y,1/2)"; "4	i	.m."; "(x,y,0)	(-x+1/2,y,0)	(-x,-y,0)	(x+1/2,-y,0)"; "4	h	.2.";
  "(0,1/2,z)	(1/2,1/2,-z)	(0,1/2,-z)	(1/2,1/2,z)"; "4	g	.2."; "(0,0,z)	(1/2,0,-z)	(0,0,-z)	(1/2,0,z)"; "2	f	mm2";
  "(1/4,y,1/2)	(3/4,-y,1/2)"; "2	e	mm2"; "(1/4,y,0)	(3/4,-y,0)"; "2	d	.2/m.";
  "(0,1/2,1/2)	(1/2,1/2,1/2)"; "2	c	.2/m."; "(0,1/2,0)	(1/2,1/2,0)"; "2	b	.2/m.";
  "(0,0,1/2)	(1/2,0,1/2)"; "2	a	.2/m."; "(0,0,0)	(1/2,0,0)"; "";
  " 52  1  5  1  4   P n n a"; "8	e	1"; "(x,y,z)	(-x+1/2,-y,z)	(-x+1/2,y+1/2,-z+1/2)	(x,-y+1/2,-z+1/2)"; "(-x,-y,-z)	(x+1/2,y,-z)	(x+1/2,-y+1/2,z+1/2)	(-x,y+1/2,z+1/2)";
  "4	d	2.."; "(x,1/4,1/4)	(-x+1/2,3/4,1/4)	(-x,3/4,3/4)	(x+1/2,1/4,3/4)"; "4	c	..2"; "(1/4,0,z)	(1/4,1/2,-z+1/2)	(3/4,0,-z)	(3/4,1/2,z+1/2)";
  "4	b	-1"; "(0,0,1/2)	(1/2,0,1/2)	(1/2,1/2,0)	(0,1/2,0)"; "4	a	-1"; "(0,0,0)	(1/2,0,0)	(1/2,1/2,1/2)	(0,1/2,1/2)";
  ""; " 52  2  5  1  4   P n n b"; "8	e	1"; "(x,y,z)	(-x,-y+1/2,z)	(x+1/2,-y+1/2,-z+1/2)	(-x+1/2,y,-z+1/2)";
  "(-x,-y,-z)	(x,y+1/2,-z)	(-x+1/2,y+1/2,z+1/2)	(x+1/2,-y,z+1/2)"; "4	d	2.."; "(1/4,y,3/4)	(3/4,-y+1/2,3/4)	(3/4,-y,1/4)	(1/4,y+1/2,1/4)"; "4	c	..2";
  "(0,1/4,z)	(1/2,1/4,-z+1/2)	(0,3/4,-z)	(1/2,3/4,z+1/2)"; "4	b	-1"; "(0,0,1/2)	(0,1/2,1/2)	(1/2,1/2,0)	(1/2,0,0)"; "4	a	-1";
  "(0,0,0)	(0,1/2,0)	(1/2,1/2,1/2)	(1/2,0,1/2)"; ""; " 52  3  5  1  4   P b n n"; "8	e	1";
  "(x,y,z)	(x,-y+1/2,-z)	(-x+1/2,-y+1/2,z+1/2)	(-x+1/2,y,-z+1/2)"; "(-x,-y,-z)	(-x,y+1/2,z)	(x+1/2,y+1/2,-z+1/2)	(x+1/2,-y,z+1/2)"; "4	d	2.."; "(1/4,y,1/4)	(1/4,-y+1/2,3/4)	(3/4,-y,3/4)	(3/4,y+1/2,1/4)";
  "4	c	..2"; "(x,1/4,0)	(-x+1/2,1/4,1/2)	(-x,3/4,0)	(x+1/2,3/4,1/2)"; "4	b	-1"; "(1/2,0,0)	(1/2,1/2,0)	(0,1/2,1/2)	(0,0,1/2)";
  "4	a	-1"; "(0,0,0)	(0,1/2,0)	(1/2,1/2,1/2)	(1/2,0,1/2)"; ""; " 52  4  5  1  4   P c n n";
  "8	e	1"; "(x,y,z)	(x,-y,-z+1/2)	(-x+1/2,y+1/2,-z+1/2)	(-x+1/2,-y+1/2,z)"; "(-x,-y,-z)	(-x,y,z+1/2)	(x+1/2,-y+1/2,z+1/2)	(x+1/2,y+1/2,-z)"; "4	d	2..";
  "(3/4,1/4,z)	(3/4,3/4,-z+1/2)	(1/4,3/4,-z)	(1/4,1/4,z+1/2)"; "4	c	..2"; "(x,0,1/4)	(-x+1/2,1/2,1/4)	(-x,0,3/4)	(x+1/2,1/2,3/4)"; "4	b	-1";
  "(1/2,0,0)	(1/2,0,1/2)	(0,1/2,1/2)	(0,1/2,0)"; "4	a	-1"; "(0,0,0)	(0,0,1/2)	(1/2,1/2,1/2)	(1/2,1/2,0)"; "";
  " 52  5  5  1  4   P n c n"; "8	e	1"; "(x,y,z)	(-x,y,-z+1/2)	(x+1/2,-y+1/2,-z+1/2)	(-x+1/2,-y+1/2,z)"; "(-x,-y,-z)	(x,-y,z+1/2)	(-x+1/2,y+1/2,z+1/2)	(x+1/2,y+1/2,-z)";
  "4	d	2.."; "(1/4,1/4,z)	(3/4,1/4,-z+1/2)	(3/4,3/4,-z)	(1/4,3/4,z+1/2)"; "4	c	..2"; "(0,y,1/4)	(1/2,-y+1/2,1/4)	(0,-y,3/4)	(1/2,y+1/2,3/4)";
  "4	b	-1"; "(0,1/2,0)	(0,1/2,1/2)	(1/2,0,1/2)	(1/2,0,0)"; "4	a	-1"; "(0,0,0)	(0,0,1/2)	(1/2,1/2,1/2)	(1/2,1/2,0)";
  ""; " 52  6  5  1  4   P n a n"; "8	e	1"; "(x,y,z)	(-x+1/2,y,-z)	(-x+1/2,-y+1/2,z+1/2)	(x,-y+1/2,-z+1/2)";
  "(-x,-y,-z)	(x+1/2,-y,z)	(x+1/2,y+1/2,-z+1/2)	(-x,y+1/2,z+1/2)"; "4	d	2.."; "(x,3/4,1/4)	(-x+1/2,3/4,3/4)	(-x,1/4,3/4)	(x+1/2,1/4,1/4)"; "4	c	..2";
  "(1/4,y,0)	(1/4,-y+1/2,1/2)	(3/4,-y,0)	(3/4,y+1/2,1/2)"; "4	b	-1"; "(0,1/2,0)	(1/2,1/2,0)	(1/2,0,1/2)	(0,0,1/2)"; "4	a	-1";
  "(0,0,0)	(1/2,0,0)	(1/2,1/2,1/2)	(0,1/2,1/2)"; ""; " 53  1  5  1  4   P m n a"; "8	i	1";
  "(x,y,z)	(-x+1/2,-y,z+1/2)	(-x+1/2,y,-z+1/2)	(x,-y,-z)"; "(-x,-y,-z)	(x+1/2,y,-z+1/2)	(x+1/2,-y,z+1/2)	(-x,y,z)"; "4	h	m.."; "(0,y,z)	(1/2,-y,z+1/2)	(1/2,y,-z+1/2)	(0,-y,-z)";
  "4	g	.2."; "(1/4,y,1/4)	(1/4,-y,3/4)	(3/4,-y,3/4)	(3/4,y,1/4)"; "4	f	2.."; "(x,1/2,0)	(-x+1/2,1/2,1/2)	(-x,1/2,0)	(x+1/2,1/2,1/2)";
  "4	e	2.."; "(x,0,0)	(-x+1/2,0,1/2)	(-x,0,0)	(x+1/2,0,1/2)"; "2	d	2/m.."; "(0,1/2,0)	(1/2,1/2,1/2)";
  "2	c	2/m.."; "(1/2,1/2,0)	(0,1/2,1/2)"; "2	b	2/m.."; "(1/2,0,0)	(0,0,1/2)";
  "2	a	2/m.."; "(0,0,0)	(1/2,0,1/2)"; ""; " 53  2  5  1  4   P n m b";
  "8	i	1"; "(x,y,z)	(-x,-y+1/2,z+1/2)	(x,-y+1/2,-z+1/2)	(-x,y,-z)"; "(-x,-y,-z)	(x,y+1/2,-z+1/2)	(-x,y+1/2,z+1/2)	(x,-y,z)"; "4	h	m..";
  "(x,0,z)	(-x,1/2,z+1/2)	(x,1/2,-z+1/2)	(-x,0,-z)"; "4	g	.2."; "(x,1/4,3/4)	(-x,1/4,1/4)	(-x,3/4,1/4)	(x,3/4,3/4)"; "4	f	2..";
  "(1/2,y,0)	(1/2,-y+1/2,1/2)	(1/2,-y,0)	(1/2,y+1/2,1/2)"; "4	e	2.."; "(0,y,0)	(0,-y+1/2,1/2)	(0,-y,0)	(0,y+1/2,1/2)"; "2	d	2/m..";
  "(1/2,0,0)	(1/2,1/2,1/2)"; "2	c	2/m.."; "(1/2,1/2,0)	(1/2,0,1/2)"; "2	b	2/m..";
  "(0,1/2,0)	(0,0,1/2)"; "2	a	2/m.."; "(0,0,0)	(0,1/2,1/2)"; "";
  " 53  3  5  1  4   P b m n"; "8	i	1"; "(x,y,z)	(x+1/2,-y+1/2,-z)	(-x+1/2,-y+1/2,z)	(-x,y,-z)"; "(-x,-y,-z)	(-x+1/2,y+1/2,z)	(x+1/2,y+1/2,-z)	(x,-y,z)";
  "4	h	m.."; "(x,0,z)	(x+1/2,1/2,-z)	(-x+1/2,1/2,z)	(-x,0,-z)"; "4	g	.2."; "(1/4,1/4,z)	(3/4,1/4,-z)	(3/4,3/4,-z)	(1/4,3/4,z)";
  "4	f	2.."; "(0,y,1/2)	(1/2,-y+1/2,1/2)	(0,-y,1/2)	(1/2,y+1/2,1/2)"; "4	e	2.."; "(0,y,0)	(1/2,-y+1/2,0)	(0,-y,0)	(1/2,y+1/2,0)";
  "2	d	2/m.."; "(0,0,1/2)	(1/2,1/2,1/2)"; "2	c	2/m.."; "(0,1/2,1/2)	(1/2,0,1/2)";
  "2	b	2/m.."; "(0,1/2,0)	(1/2,0,0)"; "2	a	2/m.."; "(0,0,0)	(1/2,1/2,0)";
  ""; " 53  4  5  1  4   P c n m"; "8	i	1"; "(x,y,z)	(x+1/2,-y,-z+1/2)	(-x+1/2,y,-z+1/2)	(-x,-y,z)";
  "(-x,-y,-z)	(-x+1/2,y,z+1/2)	(x+1/2,-y,z+1/2)	(x,y,-z)"; "4	h	m.."; "(x,y,0)	(x+1/2,-y,1/2)	(-x+1/2,y,1/2)	(-x,-y,0)"; "4	g	.2.";
  "(3/4,y,1/4)	(1/4,-y,1/4)	(1/4,-y,3/4)	(3/4,y,3/4)"; "4	f	2.."; "(0,1/2,z)	(1/2,1/2,-z+1/2)	(0,1/2,-z)	(1/2,1/2,z+1/2)"; "4	e	2..";
  "(0,0,z)	(1/2,0,-z+1/2)	(0,0,-z)	(1/2,0,z+1/2)"; "2	d	2/m.."; "(0,1/2,0)	(1/2,1/2,1/2)"; "2	c	2/m..";
  "(0,1/2,1/2)	(1/2,1/2,0)"; "2	b	2/m.."; "(0,0,1/2)	(1/2,0,0)"; "2	a	2/m..";
  "(0,0,0)	(1/2,0,1/2)"; ""; " 53  5  5  1  4   P n c m"; "8	i	1";
  "(x,y,z)	(-x,y+1/2,-z+1/2)	(x,-y+1/2,-z+1/2)	(-x,-y,z)"; "(-x,-y,-z)	(x,-y+1/2,z+1/2)	(-x,y+1/2,z+1/2)	(x,y,-z)"; "4	h	m.."; "(x,y,0)	(-x,y+1/2,1/2)	(x,-y+1/2,1/2)	(-x,-y,0)";
  "4	g	.2."; "(x,1/4,1/4)	(-x,3/4,1/4)	(-x,3/4,3/4)	(x,1/4,3/4)"; "4	f	2.."; "(1/2,0,z)	(1/2,1/2,-z+1/2)	(1/2,0,-z)	(1/2,1/2,z+1/2)";
  "4	e	2.."; "(0,0,z)	(0,1/2,-z+1/2)	(0,0,-z)	(0,1/2,z+1/2)"; "2	d	2/m.."; "(1/2,0,0)	(1/2,1/2,1/2)";
  "2	c	2/m.."; "(1/2,0,1/2)	(1/2,1/2,0)"; "2	b	2/m.."; "(0,0,1/2)	(0,1/2,0)";
  "2	a	2/m.."; "(0,0,0)	(0,1/2,1/2)"; ""; " 53  6  5  1  4   P m a n";
  "8	i	1"; "(x,y,z)	(-x+1/2,y+1/2,-z)	(-x+1/2,-y+1/2,z)	(x,-y,-z)"; "(-x,-y,-z)	(x+1/2,-y+1/2,z)	(x+1/2,y+1/2,-z)	(-x,y,z)"; "4	h	m..";
  "(0,y,z)	(1/2,y+1/2,-z)	(1/2,-y+1/2,z)	(0,-y,-z)"; "4	g	.2."; "(1/4,3/4,z)	(1/4,1/4,-z)	(3/4,1/4,-z)	(3/4,3/4,z)"; "4	f	2..";
  "(x,0,1/2)	(-x+1/2,1/2,1/2)	(-x,0,1/2)	(x+1/2,1/2,1/2)"; "4	e	2.."; "(x,0,0)	(-x+1/2,1/2,0)	(-x,0,0)	(x+1/2,1/2,0)"; "2	d	2/m..";
  "(0,0,1/2)	(1/2,1/2,1/2)"; "2	c	2/m.."; "(1/2,0,1/2)	(0,1/2,1/2)"; "2	b	2/m..";
  "(1/2,0,0)	(0,1/2,0)"; "2	a	2/m.."; "(0,0,0)	(1/2,1/2,0)"; "";
  " 54  1  5  1  4   P c c a"; "8	f	1"; "(x,y,z)	(-x+1/2,-y,z)	(-x,y,-z+1/2)	(x+1/2,-y,-z+1/2)"; "(-x,-y,-z)	(x+1/2,y,-z)	(x,-y,z+1/2)	(-x+1/2,y,z+1/2)";
  "4	e	..2"; "(1/4,1/2,z)	(3/4,1/2,-z+1/2)	(3/4,1/2,-z)	(1/4,1/2,z+1/2)"; "4	d	..2"; "(1/4,0,z)	(3/4,0,-z+1/2)	(3/4,0,-z)	(1/4,0,z+1/2)";
  "4	c	.2."; "(0,y,1/4)	(1/2,-y,1/4)	(0,-y,3/4)	(1/2,y,3/4)"; "4	b	-1"; "(0,1/2,0)	(1/2,1/2,0)	(0,1/2,1/2)	(1/2,1/2,1/2)";
  "4	a	-1"; "(0,0,0)	(1/2,0,0)	(0,0,1/2)	(1/2,0,1/2)"; ""; " 54  2  5  1  4   P c c b";
  "8	f	1"; "(x,y,z)	(-x,-y+1/2,z)	(x,-y,-z+1/2)	(-x,y+1/2,-z+1/2)"; "(-x,-y,-z)	(x,y+1/2,-z)	(-x,y,z+1/2)	(x,-y+1/2,z+1/2)"; "4	e	..2";
  "(1/2,1/4,z)	(1/2,3/4,-z+1/2)	(1/2,3/4,-z)	(1/2,1/4,z+1/2)"; "4	d	..2"; "(0,1/4,z)	(0,3/4,-z+1/2)	(0,3/4,-z)	(0,1/4,z+1/2)"; "4	c	.2.";
  "(x,0,3/4)	(-x,1/2,3/4)	(-x,0,1/4)	(x,1/2,1/4)"; "4	b	-1"; "(1/2,0,0)	(1/2,1/2,0)	(1/2,0,1/2)	(1/2,1/2,1/2)"; "4	a	-1";
  "(0,0,0)	(0,1/2,0)	(0,0,1/2)	(0,1/2,1/2)"; ""; " 54  3  5  1  4   P b a a"; "8	f	1";
  "(x,y,z)	(x,-y+1/2,-z)	(-x+1/2,-y,z)	(-x+1/2,y+1/2,-z)"; "(-x,-y,-z)	(-x,y+1/2,z)	(x+1/2,y,-z)	(x+1/2,-y+1/2,z)"; "4	e	..2"; "(x,1/4,1/2)	(-x+1/2,3/4,1/2)	(-x,3/4,1/2)	(x+1/2,1/4,1/2)";
  "4	d	..2"; "(x,1/4,0)	(-x+1/2,3/4,0)	(-x,3/4,0)	(x+1/2,1/4,0)"; "4	c	.2."; "(1/4,0,z)	(1/4,1/2,-z)	(3/4,0,-z)	(3/4,1/2,z)";
  "4	b	-1"; "(0,0,1/2)	(0,1/2,1/2)	(1/2,0,1/2)	(1/2,1/2,1/2)"; "4	a	-1"; "(0,0,0)	(0,1/2,0)	(1/2,0,0)	(1/2,1/2,0)";
  ""; " 54  4  5  1  4   P c a a"; "8	f	1"; "(x,y,z)	(x,-y,-z+1/2)	(-x+1/2,y,-z)	(-x+1/2,-y,z+1/2)";
  "(-x,-y,-z)	(-x,y,z+1/2)	(x+1/2,-y,z)	(x+1/2,y,-z+1/2)"; "4	e	..2"; "(x,1/2,1/4)	(-x+1/2,1/2,3/4)	(-x,1/2,3/4)	(x+1/2,1/2,1/4)"; "4	d	..2";
  "(x,0,1/4)	(-x+1/2,0,3/4)	(-x,0,3/4)	(x+1/2,0,1/4)"; "4	c	.2."; "(3/4,y,0)	(3/4,-y,1/2)	(1/4,-y,0)	(1/4,y,1/2)"; "4	b	-1";
  "(0,1/2,0)	(0,1/2,1/2)	(1/2,1/2,0)	(1/2,1/2,1/2)"; "4	a	-1"; "(0,0,0)	(0,0,1/2)	(1/2,0,0)	(1/2,0,1/2)"; "";
  " 54  5  5  1  4   P b c b"; "8	f	1"; "(x,y,z)	(-x,y,-z+1/2)	(x,-y+1/2,-z)	(-x,-y+1/2,z+1/2)"; "(-x,-y,-z)	(x,-y,z+1/2)	(-x,y+1/2,z)	(x,y+1/2,-z+1/2)";
  "4	e	..2"; "(1/2,y,1/4)	(1/2,-y+1/2,3/4)	(1/2,-y,3/4)	(1/2,y+1/2,1/4)"; "4	d	..2"; "(0,y,1/4)	(0,-y+1/2,3/4)	(0,-y,3/4)	(0,y+1/2,1/4)";
  "4	c	.2."; "(x,1/4,0)	(-x,1/4,1/2)	(-x,3/4,0)	(x,3/4,1/2)"; "4	b	-1"; "(1/2,0,0)	(1/2,0,1/2)	(1/2,1/2,0)	(1/2,1/2,1/2)";
  "4	a	-1"; "(0,0,0)	(0,0,1/2)	(0,1/2,0)	(0,1/2,1/2)"; ""; " 54  6  5  1  4   P b a b";
  "8	f	1"; "(x,y,z)	(-x+1/2,y,-z)	(-x,-y+1/2,z)	(x+1/2,-y+1/2,-z)"; "(-x,-y,-z)	(x+1/2,-y,z)	(x,y+1/2,-z)	(-x+1/2,y+1/2,z)"; "4	e	..2";
  "(1/4,y,1/2)	(3/4,-y+1/2,1/2)	(3/4,-y,1/2)	(1/4,y+1/2,1/2)"; "4	d	..2"; "(1/4,y,0)	(3/4,-y+1/2,0)	(3/4,-y,0)	(1/4,y+1/2,0)"; "4	c	.2.";
  "(0,3/4,z)	(1/2,3/4,-z)	(0,1/4,-z)	(1/2,1/4,z)"; "4	b	-1"; "(0,0,1/2)	(1/2,0,1/2)	(0,1/2,1/2)	(1/2,1/2,1/2)"; "4	a	-1";
  "(0,0,0)	(1/2,0,0)	(0,1/2,0)	(1/2,1/2,0)"; ""; " 55  1  5  1  4   P b a m"; "8	i	1";
  "(x,y,z)	(-x,-y,z)	(-x+1/2,y+1/2,-z)	(x+1/2,-y+1/2,-z)"; "(-x,-y,-z)	(x,y,-z)	(x+1/2,-y+1/2,z)	(-x+1/2,y+1/2,z)"; "4	h	..m"; "(x,y,1/2)	(-x,-y,1/2)	(-x+1/2,y+1/2,1/2)	(x+1/2,-y+1/2,1/2)";
  "4	g	..m"; "(x,y,0)	(-x,-y,0)	(-x+1/2,y+1/2,0)	(x+1/2,-y+1/2,0)"; "4	f	..2"; "(0,1/2,z)	(1/2,0,-z)	(0,1/2,-z)	(1/2,0,z)";
  "4	e	..2"; "(0,0,z)	(1/2,1/2,-z)	(0,0,-z)	(1/2,1/2,z)"; "2	d	..2/m"; "(0,1/2,1/2)	(1/2,0,1/2)";
  "2	c	..2/m"; "(0,1/2,0)	(1/2,0,0)"; "2	b	..2/m"; "(0,0,1/2)	(1/2,1/2,1/2)";
  "2	a	..2/m"; "(0,0,0)	(1/2,1/2,0)"; ""; " 55  2  5  1  4   P b a m";
  "8	i	1"; "(x,y,z)	(-x,-y,z)	(x+1/2,-y+1/2,-z)	(-x+1/2,y+1/2,-z)"; "(-x,-y,-z)	(x,y,-z)	(-x+1/2,y+1/2,z)	(x+1/2,-y+1/2,z)"; "4	h	..m";
  "(x,y,1/2)	(-x,-y,1/2)	(x+1/2,-y+1/2,1/2)	(-x+1/2,y+1/2,1/2)"; "4	g	..m"; "(x,y,0)	(-x,-y,0)	(x+1/2,-y+1/2,0)	(-x+1/2,y+1/2,0)"; "4	f	..2";
  "(1/2,0,z)	(0,1/2,-z)	(1/2,0,-z)	(0,1/2,z)"; "4	e	..2"; "(0,0,z)	(1/2,1/2,-z)	(0,0,-z)	(1/2,1/2,z)"; "2	d	..2/m";
  "(1/2,0,1/2)	(0,1/2,1/2)"; "2	c	..2/m"; "(1/2,0,0)	(0,1/2,0)"; "2	b	..2/m";
  "(0,0,1/2)	(1/2,1/2,1/2)"; "2	a	..2/m"; "(0,0,0)	(1/2,1/2,0)"; "";
  " 55  3  5  1  4   P m c b"; "8	i	1"; "(x,y,z)	(x,-y,-z)	(-x,-y+1/2,z+1/2)	(-x,y+1/2,-z+1/2)"; "(-x,-y,-z)	(-x,y,z)	(x,y+1/2,-z+1/2)	(x,-y+1/2,z+1/2)";
  "4	h	..m"; "(1/2,y,z)	(1/2,-y,-z)	(1/2,-y+1/2,z+1/2)	(1/2,y+1/2,-z+1/2)"; "4	g	..m"; "(0,y,z)	(0,-y,-z)	(0,-y+1/2,z+1/2)	(0,y+1/2,-z+1/2)";
  "4	f	..2"; "(x,0,1/2)	(-x,1/2,0)	(-x,0,1/2)	(x,1/2,0)"; "4	e	..2"; "(x,0,0)	(-x,1/2,1/2)	(-x,0,0)	(x,1/2,1/2)";
  "2	d	..2/m"; "(1/2,0,1/2)	(1/2,1/2,0)"; "2	c	..2/m"; "(0,0,1/2)	(0,1/2,0)";
  "2	b	..2/m"; "(1/2,0,0)	(1/2,1/2,1/2)"; "2	a	..2/m"; "(0,0,0)	(0,1/2,1/2)";
  ""; " 55  4  5  1  4   P m c b"; "8	i	1"; "(x,y,z)	(x,-y,-z)	(-x,y+1/2,-z+1/2)	(-x,-y+1/2,z+1/2)";
  "(-x,-y,-z)	(-x,y,z)	(x,-y+1/2,z+1/2)	(x,y+1/2,-z+1/2)"; "4	h	..m"; "(1/2,y,z)	(1/2,-y,-z)	(1/2,y+1/2,-z+1/2)	(1/2,-y+1/2,z+1/2)"; "4	g	..m";
  "(0,y,z)	(0,-y,-z)	(0,y+1/2,-z+1/2)	(0,-y+1/2,z+1/2)"; "4	f	..2"; "(x,1/2,0)	(-x,0,1/2)	(-x,1/2,0)	(x,0,1/2)"; "4	e	..2";
  "(x,0,0)	(-x,1/2,1/2)	(-x,0,0)	(x,1/2,1/2)"; "2	d	..2/m"; "(1/2,1/2,0)	(1/2,0,1/2)"; "2	c	..2/m";
  "(0,1/2,0)	(0,0,1/2)"; "2	b	..2/m"; "(1/2,0,0)	(1/2,1/2,1/2)"; "2	a	..2/m";
  "(0,0,0)	(0,1/2,1/2)"; ""; " 55  5  5  1  4   P c m a"; "8	i	1";
  "(x,y,z)	(-x,y,-z)	(x+1/2,-y,-z+1/2)	(-x+1/2,-y,z+1/2)"; "(-x,-y,-z)	(x,-y,z)	(-x+1/2,y,z+1/2)	(x+1/2,y,-z+1/2)"; "4	h	..m"; "(x,1/2,z)	(-x,1/2,-z)	(x+1/2,1/2,-z+1/2)	(-x+1/2,1/2,z+1/2)";
  "4	g	..m"; "(x,0,z)	(-x,0,-z)	(x+1/2,0,-z+1/2)	(-x+1/2,0,z+1/2)"; "4	f	..2"; "(1/2,y,0)	(0,-y,1/2)	(1/2,-y,0)	(0,y,1/2)";
  "4	e	..2"; "(0,y,0)	(1/2,-y,1/2)	(0,-y,0)	(1/2,y,1/2)"; "2	d	..2/m"; "(1/2,1/2,0)	(0,1/2,1/2)";
  "2	c	..2/m"; "(1/2,0,0)	(0,0,1/2)"; "2	b	..2/m"; "(0,1/2,0)	(1/2,1/2,1/2)";
  "2	a	..2/m"; "(0,0,0)	(1/2,0,1/2)"; ""; " 55  6  5  1  4   P c m a";
  "8	i	1"; "(x,y,z)	(-x,y,-z)	(-x+1/2,-y,z+1/2)	(x+1/2,-y,-z+1/2)"; "(-x,-y,-z)	(x,-y,z)	(x+1/2,y,-z+1/2)	(-x+1/2,y,z+1/2)"; "4	h	..m";
  "(x,1/2,z)	(-x,1/2,-z)	(-x+1/2,1/2,z+1/2)	(x+1/2,1/2,-z+1/2)"; "4	g	..m"; "(x,0,z)	(-x,0,-z)	(-x+1/2,0,z+1/2)	(x+1/2,0,-z+1/2)"; "4	f	..2";
  "(0,y,1/2)	(1/2,-y,0)	(0,-y,1/2)	(1/2,y,0)"; "4	e	..2"; "(0,y,0)	(1/2,-y,1/2)	(0,-y,0)	(1/2,y,1/2)"; "2	d	..2/m";
  "(0,1/2,1/2)	(1/2,1/2,0)"; "2	c	..2/m"; "(0,0,1/2)	(1/2,0,0)"; "2	b	..2/m";
  "(0,1/2,0)	(1/2,1/2,1/2)"; "2	a	..2/m"; "(0,0,0)	(1/2,0,1/2)"; "";
  " 56  1  5  1  4   P c c n"; "8	e	1"; "(x,y,z)	(-x+1/2,-y+1/2,z)	(-x,y+1/2,-z+1/2)	(x+1/2,-y,-z+1/2)"; "(-x,-y,-z)	(x+1/2,y+1/2,-z)	(x,-y+1/2,z+1/2)	(-x+1/2,y,z+1/2)";
  "4	d	..2"; "(1/4,3/4,z)	(3/4,1/4,-z+1/2)	(3/4,1/4,-z)	(1/4,3/4,z+1/2)"; "4	c	..2"; "(1/4,1/4,z)	(3/4,3/4,-z+1/2)	(3/4,3/4,-z)	(1/4,1/4,z+1/2)";
  "4	b	-1"; "(0,0,1/2)	(1/2,1/2,1/2)	(0,1/2,0)	(1/2,0,0)"; "4	a	-1"; "(0,0,0)	(1/2,1/2,0)	(0,1/2,1/2)	(1/2,0,1/2)";
  ""; " 56  2  5  1  4   P c c n"; "8	e	1"; "(x,y,z)	(-x+1/2,-y+1/2,z)	(x+1/2,-y,-z+1/2)	(-x,y+1/2,-z+1/2)";
  "(-x,-y,-z)	(x+1/2,y+1/2,-z)	(-x+1/2,y,z+1/2)	(x,-y+1/2,z+1/2)"; "4	d	..2"; "(3/4,1/4,z)	(1/4,3/4,-z+1/2)	(1/4,3/4,-z)	(3/4,1/4,z+1/2)"; "4	c	..2";
  "(1/4,1/4,z)	(3/4,3/4,-z+1/2)	(3/4,3/4,-z)	(1/4,1/4,z+1/2)"; "4	b	-1"; "(0,0,1/2)	(1/2,1/2,1/2)	(1/2,0,0)	(0,1/2,0)"; "4	a	-1";
  "(0,0,0)	(1/2,1/2,0)	(1/2,0,1/2)	(0,1/2,1/2)"; ""; " 56  3  5  1  4   P n a a"; "8	e	1";
  "(x,y,z)	(x,-y+1/2,-z+1/2)	(-x+1/2,-y,z+1/2)	(-x+1/2,y+1/2,-z)"; "(-x,-y,-z)	(-x,y+1/2,z+1/2)	(x+1/2,y,-z+1/2)	(x+1/2,-y+1/2,z)"; "4	d	..2"; "(x,1/4,3/4)	(-x+1/2,3/4,1/4)	(-x,3/4,1/4)	(x+1/2,1/4,3/4)";
  "4	c	..2"; "(x,1/4,1/4)	(-x+1/2,3/4,3/4)	(-x,3/4,3/4)	(x+1/2,1/4,1/4)"; "4	b	-1"; "(1/2,0,0)	(1/2,1/2,1/2)	(0,0,1/2)	(0,1/2,0)";
  "4	a	-1"; "(0,0,0)	(0,1/2,1/2)	(1/2,0,1/2)	(1/2,1/2,0)"; ""; " 56  4  5  1  4   P n a a";
  "8	e	1"; "(x,y,z)	(x,-y+1/2,-z+1/2)	(-x+1/2,y+1/2,-z)	(-x+1/2,-y,z+1/2)"; "(-x,-y,-z)	(-x,y+1/2,z+1/2)	(x+1/2,-y+1/2,z)	(x+1/2,y,-z+1/2)"; "4	d	..2";
  "(x,3/4,1/4)	(-x+1/2,1/4,3/4)	(-x,1/4,3/4)	(x+1/2,3/4,1/4)"; "4	c	..2"; "(x,1/4,1/4)	(-x+1/2,3/4,3/4)	(-x,3/4,3/4)	(x+1/2,1/4,1/4)"; "4	b	-1";
  "(1/2,0,0)	(1/2,1/2,1/2)	(0,1/2,0)	(0,0,1/2)"; "4	a	-1"; "(0,0,0)	(0,1/2,1/2)	(1/2,1/2,0)	(1/2,0,1/2)"; "";
  " 56  5  5  1  4   P b n b"; "8	e	1"; "(x,y,z)	(-x+1/2,y,-z+1/2)	(x+1/2,-y+1/2,-z)	(-x,-y+1/2,z+1/2)"; "(-x,-y,-z)	(x+1/2,-y,z+1/2)	(-x+1/2,y+1/2,z)	(x,y+1/2,-z+1/2)";
  "4	d	..2"; "(3/4,y,1/4)	(1/4,-y+1/2,3/4)	(1/4,-y,3/4)	(3/4,y+1/2,1/4)"; "4	c	..2"; "(1/4,y,1/4)	(3/4,-y+1/2,3/4)	(3/4,-y,3/4)	(1/4,y+1/2,1/4)";
  "4	b	-1"; "(0,1/2,0)	(1/2,1/2,1/2)	(1/2,0,0)	(0,0,1/2)"; "4	a	-1"; "(0,0,0)	(1/2,0,1/2)	(1/2,1/2,0)	(0,1/2,1/2)";
  ""; " 56  6  5  1  4   P b n b"; "8	e	1"; "(x,y,z)	(-x+1/2,y,-z+1/2)	(-x,-y+1/2,z+1/2)	(x+1/2,-y+1/2,-z)";
  "(-x,-y,-z)	(x+1/2,-y,z+1/2)	(x,y+1/2,-z+1/2)	(-x+1/2,y+1/2,z)"; "4	d	..2"; "(1/4,y,3/4)	(3/4,-y+1/2,1/4)	(3/4,-y,1/4)	(1/4,y+1/2,3/4)"; "4	c	..2";
  "(1/4,y,1/4)	(3/4,-y+1/2,3/4)	(3/4,-y,3/4)	(1/4,y+1/2,1/4)"; "4	b	-1"; "(0,1/2,0)	(1/2,1/2,1/2)	(0,0,1/2)	(1/2,0,0)"; "4	a	-1";
  "(0,0,0)	(1/2,0,1/2)	(0,1/2,1/2)	(1/2,1/2,0)"; ""; " 57  1  5  1  4   P b c m"; "8	e	1";
  "(x,y,z)	(-x,-y,z+1/2)	(-x,y+1/2,-z+1/2)	(x,-y+1/2,-z)"; "(-x,-y,-z)	(x,y,-z+1/2)	(x,-y+1/2,z+1/2)	(-x,y+1/2,z)"; "4	d	..m"; "(x,y,1/4)	(-x,-y,3/4)	(-x,y+1/2,1/4)	(x,-y+1/2,3/4)";
  "4	c	2.."; "(x,1/4,0)	(-x,3/4,1/2)	(-x,3/4,0)	(x,1/4,1/2)"; "4	b	-1"; "(1/2,0,0)	(1/2,0,1/2)	(1/2,1/2,1/2)	(1/2,1/2,0)";
  "4	a	-1"; "(0,0,0)	(0,0,1/2)	(0,1/2,1/2)	(0,1/2,0)"; ""; " 57  2  5  1  4   P c a m";
  "8	e	1"; "(x,y,z)	(-x,-y,z+1/2)	(x+1/2,-y,-z+1/2)	(-x+1/2,y,-z)"; "(-x,-y,-z)	(x,y,-z+1/2)	(-x+1/2,y,z+1/2)	(x+1/2,-y,z)"; "4	d	..m";
  "(x,y,3/4)	(-x,-y,1/4)	(x+1/2,-y,3/4)	(-x+1/2,y,1/4)"; "4	c	2.."; "(1/4,y,0)	(3/4,-y,1/2)	(3/4,-y,0)	(1/4,y,1/2)"; "4	b	-1";
  "(0,1/2,0)	(0,1/2,1/2)	(1/2,1/2,1/2)	(1/2,1/2,0)"; "4	a	-1"; "(0,0,0)	(0,0,1/2)	(1/2,0,1/2)	(1/2,0,0)"; "";
  " 57  3  5  1  4   P m c a"; "8	e	1"; "(x,y,z)	(x+1/2,-y,-z)	(-x+1/2,-y,z+1/2)	(-x,y,-z+1/2)"; "(-x,-y,-z)	(-x+1/2,y,z)	(x+1/2,y,-z+1/2)	(x,-y,z+1/2)";
  "4	d	..m"; "(1/4,y,z)	(3/4,-y,-z)	(1/4,-y,z+1/2)	(3/4,y,-z+1/2)"; "4	c	2.."; "(0,y,1/4)	(1/2,-y,3/4)	(0,-y,3/4)	(1/2,y,1/4)";
  "4	b	-1"; "(0,1/2,0)	(1/2,1/2,0)	(1/2,1/2,1/2)	(0,1/2,1/2)"; "4	a	-1"; "(0,0,0)	(1/2,0,0)	(1/2,0,1/2)	(0,0,1/2)";
  ""; " 57  4  5  1  4   P m a b"; "8	e	1"; "(x,y,z)	(x+1/2,-y,-z)	(-x+1/2,y+1/2,-z)	(-x,-y+1/2,z)";
  "(-x,-y,-z)	(-x+1/2,y,z)	(x+1/2,-y+1/2,z)	(x,y+1/2,-z)"; "4	d	..m"; "(3/4,y,z)	(1/4,-y,-z)	(3/4,y+1/2,-z)	(1/4,-y+1/2,z)"; "4	c	2..";
  "(0,1/4,z)	(1/2,3/4,-z)	(0,3/4,-z)	(1/2,1/4,z)"; "4	b	-1"; "(0,0,1/2)	(1/2,0,1/2)	(1/2,1/2,1/2)	(0,1/2,1/2)"; "4	a	-1";
  "(0,0,0)	(1/2,0,0)	(1/2,1/2,0)	(0,1/2,0)"; ""; " 57  5  5  1  4   P b m a"; "8	e	1";
  "(x,y,z)	(-x,y+1/2,-z)	(x+1/2,-y+1/2,-z)	(-x+1/2,-y,z)"; "(-x,-y,-z)	(x,-y+1/2,z)	(-x+1/2,y+1/2,z)	(x+1/2,y,-z)"; "4	d	..m"; "(x,1/4,z)	(-x,3/4,-z)	(x+1/2,1/4,-z)	(-x+1/2,3/4,z)";
  "4	c	2.."; "(1/4,0,z)	(3/4,1/2,-z)	(3/4,0,-z)	(1/4,1/2,z)"; "4	b	-1"; "(0,0,1/2)	(0,1/2,1/2)	(1/2,1/2,1/2)	(1/2,0,1/2)";
  "4	a	-1"; "(0,0,0)	(0,1/2,0)	(1/2,1/2,0)	(1/2,0,0)"; ""; " 57  6  5  1  4   P c m b";
  "8	e	1"; "(x,y,z)	(-x,y+1/2,-z)	(-x,-y+1/2,z+1/2)	(x,-y,-z+1/2)"; "(-x,-y,-z)	(x,-y+1/2,z)	(x,y+1/2,-z+1/2)	(-x,y,z+1/2)"; "4	d	..m";
  "(x,3/4,z)	(-x,1/4,-z)	(-x,3/4,z+1/2)	(x,1/4,-z+1/2)"; "4	c	2.."; "(x,0,1/4)	(-x,1/2,3/4)	(-x,0,3/4)	(x,1/2,1/4)"; "4	b	-1";
  "(1/2,0,0)	(1/2,1/2,0)	(1/2,1/2,1/2)	(1/2,0,1/2)"; "4	a	-1"; "(0,0,0)	(0,1/2,0)	(0,1/2,1/2)	(0,0,1/2)"; "";
  " 58  1  5  1  4   P n n m"; "8	h	1"; "(x,y,z)	(-x,-y,z)	(-x+1/2,y+1/2,-z+1/2)	(x+1/2,-y+1/2,-z+1/2)"; "(-x,-y,-z)	(x,y,-z)	(x+1/2,-y+1/2,z+1/2)	(-x+1/2,y+1/2,z+1/2)";
  "4	g	..m"; "(x,y,0)	(-x,-y,0)	(-x+1/2,y+1/2,1/2)	(x+1/2,-y+1/2,1/2)"; "4	f	..2"; "(0,1/2,z)	(1/2,0,-z+1/2)	(0,1/2,-z)	(1/2,0,z+1/2)";
  "4	e	..2"; "(0,0,z)	(1/2,1/2,-z+1/2)	(0,0,-z)	(1/2,1/2,z+1/2)"; "2	d	..2/m"; "(0,1/2,1/2)	(1/2,0,0)";
  "2	c	..2/m"; "(0,1/2,0)	(1/2,0,1/2)"; "2	b	..2/m"; "(0,0,1/2)	(1/2,1/2,0)";
  "2	a	..2/m"; "(0,0,0)	(1/2,1/2,1/2)"; ""; " 58  2  5  1  4   P n n m";
  "8	h	1"; "(x,y,z)	(-x,-y,z)	(x+1/2,-y+1/2,-z+1/2)	(-x+1/2,y+1/2,-z+1/2)"; "(-x,-y,-z)	(x,y,-z)	(-x+1/2,y+1/2,z+1/2)	(x+1/2,-y+1/2,z+1/2)"; "4	g	..m";
  "(x,y,0)	(-x,-y,0)	(x+1/2,-y+1/2,1/2)	(-x+1/2,y+1/2,1/2)"; "4	f	..2"; "(1/2,0,z)	(0,1/2,-z+1/2)	(1/2,0,-z)	(0,1/2,z+1/2)"; "4	e	..2";
  "(0,0,z)	(1/2,1/2,-z+1/2)	(0,0,-z)	(1/2,1/2,z+1/2)"; "2	d	..2/m"; "(1/2,0,1/2)	(0,1/2,0)"; "2	c	..2/m";
  "(1/2,0,0)	(0,1/2,1/2)"; "2	b	..2/m"; "(0,0,1/2)	(1/2,1/2,0)"; "2	a	..2/m";
  "(0,0,0)	(1/2,1/2,1/2)"; ""; " 58  3  5  1  4   P m n n"; "8	h	1";
  "(x,y,z)	(x,-y,-z)	(-x+1/2,-y+1/2,z+1/2)	(-x+1/2,y+1/2,-z+1/2)"; "(-x,-y,-z)	(-x,y,z)	(x+1/2,y+1/2,-z+1/2)	(x+1/2,-y+1/2,z+1/2)"; "4	g	..m"; "(0,y,z)	(0,-y,-z)	(1/2,-y+1/2,z+1/2)	(1/2,y+1/2,-z+1/2)";
  "4	f	..2"; "(x,0,1/2)	(-x+1/2,1/2,0)	(-x,0,1/2)	(x+1/2,1/2,0)"; "4	e	..2"; "(x,0,0)	(-x+1/2,1/2,1/2)	(-x,0,0)	(x+1/2,1/2,1/2)";
  "2	d	..2/m"; "(1/2,0,1/2)	(0,1/2,0)"; "2	c	..2/m"; "(0,0,1/2)	(1/2,1/2,0)";
  "2	b	..2/m"; "(1/2,0,0)	(0,1/2,1/2)"; "2	a	..2/m"; "(0,0,0)	(1/2,1/2,1/2)";
  ""; " 58  4  5  1  4   P m n n"; "8	h	1"; "(x,y,z)	(x,-y,-z)	(-x+1/2,y+1/2,-z+1/2)	(-x+1/2,-y+1/2,z+1/2)";
  "(-x,-y,-z)	(-x,y,z)	(x+1/2,-y+1/2,z+1/2)	(x+1/2,y+1/2,-z+1/2)"; "4	g	..m"; "(0,y,z)	(0,-y,-z)	(1/2,y+1/2,-z+1/2)	(1/2,-y+1/2,z+1/2)"; "4	f	..2";
  "(x,1/2,0)	(-x+1/2,0,1/2)	(-x,1/2,0)	(x+1/2,0,1/2)"; "4	e	..2"; "(x,0,0)	(-x+1/2,1/2,1/2)	(-x,0,0)	(x+1/2,1/2,1/2)"; "2	d	..2/m";
  "(1/2,1/2,0)	(0,0,1/2)"; "2	c	..2/m"; "(0,1/2,0)	(1/2,0,1/2)"; "2	b	..2/m";
  "(1/2,0,0)	(0,1/2,1/2)"; "2	a	..2/m"; "(0,0,0)	(1/2,1/2,1/2)"; "";
  " 58  5  5  1  4   P n m n"; "8	h	1"; "(x,y,z)	(-x,y,-z)	(x+1/2,-y+1/2,-z+1/2)	(-x+1/2,-y+1/2,z+1/2)"; "(-x,-y,-z)	(x,-y,z)	(-x+1/2,y+1/2,z+1/2)	(x+1/2,y+1/2,-z+1/2)";
  "4	g	..m"; "(x,0,z)	(-x,0,-z)	(x+1/2,1/2,-z+1/2)	(-x+1/2,1/2,z+1/2)"; "4	f	..2"; "(1/2,y,0)	(0,-y+1/2,1/2)	(1/2,-y,0)	(0,y+1/2,1/2)";
  "4	e	..2"; "(0,y,0)	(1/2,-y+1/2,1/2)	(0,-y,0)	(1/2,y+1/2,1/2)"; "2	d	..2/m"; "(1/2,1/2,0)	(0,0,1/2)";
  "2	c	..2/m"; "(1/2,0,0)	(0,1/2,1/2)"; "2	b	..2/m"; "(0,1/2,0)	(1/2,0,1/2)";
  "2	a	..2/m"; "(0,0,0)	(1/2,1/2,1/2)"; ""; " 58  6  5  1  4   P n m n";
  "8	h	1"; "(x,y,z)	(-x,y,-z)	(-x+1/2,-y+1/2,z+1/2)	(x+1/2,-y+1/2,-z+1/2)"; "(-x,-y,-z)	(x,-y,z)	(x+1/2,y+1/2,-z+1/2)	(-x+1/2,y+1/2,z+1/2)"; "4	g	..m";
  "(x,0,z)	(-x,0,-z)	(-x+1/2,1/2,z+1/2)	(x+1/2,1/2,-z+1/2)"; "4	f	..2"; "(0,y,1/2)	(1/2,-y+1/2,0)	(0,-y,1/2)	(1/2,y+1/2,0)"; "4	e	..2";
  "(0,y,0)	(1/2,-y+1/2,1/2)	(0,-y,0)	(1/2,y+1/2,1/2)"; "2	d	..2/m"; "(0,1/2,1/2)	(1/2,0,0)"; "2	c	..2/m";
  "(0,0,1/2)	(1/2,1/2,0)"; "2	b	..2/m"; "(0,1/2,0)	(1/2,0,1/2)"; "2	a	..2/m";
  "(0,0,0)	(1/2,1/2,1/2)"; ""; " 59  1  5  0  8   P m m n"; "8	g	1";
  "(x,y,z)	(-x,-y,z)	(-x+1/2,y+1/2,-z)	(x+1/2,-y+1/2,-z)"; "(-x+1/2,-y+1/2,-z)	(x+1/2,y+1/2,-z)	(x,-y,z)	(-x,y,z)"; "4	f	.m."; "(x,0,z)	(-x,0,z)	(-x+1/2,1/2,-z)	(x+1/2,1/2,-z)";
  "4	e	m.."; "(0,y,z)	(0,-y,z)	(1/2,y+1/2,-z)	(1/2,-y+1/2,-z)"; "4	d	-1"; "(1/4,1/4,1/2)	(3/4,3/4,1/2)	(1/4,3/4,1/2)	(3/4,1/4,1/2)";
  "4	c	-1"; "(1/4,1/4,0)	(3/4,3/4,0)	(1/4,3/4,0)	(3/4,1/4,0)"; "2	b	mm2"; "(0,1/2,z)	(1/2,0,-z)";
  "2	a	mm2"; "(0,0,z)	(1/2,1/2,-z)"; ""; " 59  3  5  0  8   P m m n";
  "8	g	1"; "(x,y,z)	(-x,-y,z)	(x+1/2,-y+1/2,-z)	(-x+1/2,y+1/2,-z)"; "(-x+1/2,-y+1/2,-z)	(x+1/2,y+1/2,-z)	(-x,y,z)	(x,-y,z)"; "4	f	.m.";
  "(0,y,z)	(0,-y,z)	(1/2,-y+1/2,-z)	(1/2,y+1/2,-z)"; "4	e	m.."; "(x,0,z)	(-x,0,z)	(x+1/2,1/2,-z)	(-x+1/2,1/2,-z)"; "4	d	-1";
  "(1/4,1/4,1/2)	(3/4,3/4,1/2)	(3/4,1/4,1/2)	(1/4,3/4,1/2)"; "4	c	-1"; "(1/4,1/4,0)	(3/4,3/4,0)	(3/4,1/4,0)	(1/4,3/4,0)"; "2	b	mm2";
  "(1/2,0,z)	(0,1/2,-z)"; "2	a	mm2"; "(0,0,z)	(1/2,1/2,-z)"; "";
  " 59  5  5  0  8   P n m m"; "8	g	1"; "(x,y,z)	(x,-y,-z)	(-x,-y+1/2,z+1/2)	(-x,y+1/2,-z+1/2)"; "(-x,-y+1/2,-z+1/2)	(-x,y+1/2,z+1/2)	(x,y,-z)	(x,-y,z)";
  "4	f	.m."; "(x,y,0)	(x,-y,0)	(-x,-y+1/2,1/2)	(-x,y+1/2,1/2)"; "4	e	m.."; "(x,0,z)	(x,0,-z)	(-x,1/2,z+1/2)	(-x,1/2,-z+1/2)";
  "4	d	-1"; "(1/2,1/4,1/4)	(1/2,3/4,3/4)	(1/2,1/4,3/4)	(1/2,3/4,1/4)"; "4	c	-1"; "(0,1/4,1/4)	(0,3/4,3/4)	(0,1/4,3/4)	(0,3/4,1/4)";
  "2	b	mm2"; "(x,0,1/2)	(-x,1/2,0)"; "2	a	mm2"; "(x,0,0)	(-x,1/2,1/2)";
  ""; " 59  7  5  0  8   P n m m"; "8	g	1"; "(x,y,z)	(x,-y,-z)	(-x,y+1/2,-z+1/2)	(-x,-y+1/2,z+1/2)";
  "(-x,-y+1/2,-z+1/2)	(-x,y+1/2,z+1/2)	(x,-y,z)	(x,y,-z)"; "4	f	.m."; "(x,0,z)	(x,0,-z)	(-x,1/2,-z+1/2)	(-x,1/2,z+1/2)"; "4	e	m..";
  "(x,y,0)	(x,-y,0)	(-x,y+1/2,1/2)	(-x,-y+1/2,1/2)"; "4	d	-1"; "(1/2,1/4,1/4)	(1/2,3/4,3/4)	(1/2,3/4,1/4)	(1/2,1/4,3/4)"; "4	c	-1";
  "(0,1/4,1/4)	(0,3/4,3/4)	(0,3/4,1/4)	(0,1/4,3/4)"; "2	b	mm2"; "(x,1/2,0)	(-x,0,1/2)"; "2	a	mm2";
  "(x,0,0)	(-x,1/2,1/2)"; ""; " 59  9  5  0  8   P m n m"; "8	g	1";
  "(x,y,z)	(-x,y,-z)	(x+1/2,-y,-z+1/2)	(-x+1/2,-y,z+1/2)"; "(-x+1/2,-y,-z+1/2)	(x+1/2,-y,z+1/2)	(-x,y,z)	(x,y,-z)"; "4	f	.m."; "(0,y,z)	(0,y,-z)	(1/2,-y,-z+1/2)	(1/2,-y,z+1/2)";
  "4	e	m.."; "(x,y,0)	(-x,y,0)	(x+1/2,-y,1/2)	(-x+1/2,-y,1/2)"; "4	d	-1"; "(1/4,1/2,1/4)	(3/4,1/2,3/4)	(3/4,1/2,1/4)	(1/4,1/2,3/4)";
  "4	c	-1"; "(1/4,0,1/4)	(3/4,0,3/4)	(3/4,0,1/4)	(1/4,0,3/4)"; "2	b	mm2"; "(1/2,y,0)	(0,-y,1/2)";
  "2	a	mm2"; "(0,y,0)	(1/2,-y,1/2)"; ""; " 59 11  5  0  8   P m n m";
  "8	g	1"; "(x,y,z)	(-x,y,-z)	(-x+1/2,-y,z+1/2)	(x+1/2,-y,-z+1/2)"; "(-x+1/2,-y,-z+1/2)	(x+1/2,-y,z+1/2)	(x,y,-z)	(-x,y,z)"; "4	f	.m.";
  "(x,y,0)	(-x,y,0)	(-x+1/2,-y,1/2)	(x+1/2,-y,1/2)"; "4	e	m.."; "(0,y,z)	(0,y,-z)	(1/2,-y,z+1/2)	(1/2,-y,-z+1/2)"; "4	d	-1";
  "(1/4,1/2,1/4)	(3/4,1/2,3/4)	(1/4,1/2,3/4)	(3/4,1/2,1/4)"; "4	c	-1"; "(1/4,0,1/4)	(3/4,0,3/4)	(1/4,0,3/4)	(3/4,0,1/4)"; "2	b	mm2";
  "(0,y,1/2)	(1/2,-y,0)"; "2	a	mm2"; "(0,y,0)	(1/2,-y,1/2)"; "";
  " 59  2  5  1  4   P m m n"; "8	g	1"; "(x,y,z)	(-x+1/2,-y+1/2,z)	(-x,y+1/2,-z)	(x+1/2,-y,-z)"; "(-x,-y,-z)	(x+1/2,y+1/2,-z)	(x,-y+1/2,z)	(-x+1/2,y,z)";
  "4	f	.m."; "(x,1/4,z)	(-x+1/2,1/4,z)	(-x,3/4,-z)	(x+1/2,3/4,-z)"; "4	e	m.."; "(1/4,y,z)	(1/4,-y+1/2,z)	(3/4,y+1/2,-z)	(3/4,-y,-z)";
  "4	d	-1"; "(0,0,1/2)	(1/2,1/2,1/2)	(0,1/2,1/2)	(1/2,0,1/2)"; "4	c	-1"; "(0,0,0)	(1/2,1/2,0)	(0,1/2,0)	(1/2,0,0)";
  "2	b	mm2"; "(1/4,3/4,z)	(3/4,1/4,-z)"; "2	a	mm2"; "(1/4,1/4,z)	(3/4,3/4,-z)";
  ""; " 59  4  5  1  4   P m m n"; "8	g	1"; "(x,y,z)	(-x+1/2,-y+1/2,z)	(x+1/2,-y,-z)	(-x,y+1/2,-z)";
  "(-x,-y,-z)	(x+1/2,y+1/2,-z)	(-x+1/2,y,z)	(x,-y+1/2,z)"; "4	f	.m."; "(1/4,y,z)	(1/4,-y+1/2,z)	(3/4,-y,-z)	(3/4,y+1/2,-z)"; "4	e	m..";
  "(x,1/4,z)	(-x+1/2,1/4,z)	(x+1/2,3/4,-z)	(-x,3/4,-z)"; "4	d	-1"; "(0,0,1/2)	(1/2,1/2,1/2)	(1/2,0,1/2)	(0,1/2,1/2)"; "4	c	-1";
  "(0,0,0)	(1/2,1/2,0)	(1/2,0,0)	(0,1/2,0)"; "2	b	mm2"; "(3/4,1/4,z)	(1/4,3/4,-z)"; "2	a	mm2";
  "(1/4,1/4,z)	(3/4,3/4,-z)"; ""; " 59  6  5  1  4   P n m m"; "8	g	1";
  "(x,y,z)	(x,-y+1/2,-z+1/2)	(-x,-y,z+1/2)	(-x,y+1/2,-z)"; "(-x,-y,-z)	(-x,y+1/2,z+1/2)	(x,y,-z+1/2)	(x,-y+1/2,z)"; "4	f	.m."; "(x,y,1/4)	(x,-y+1/2,1/4)	(-x,-y,3/4)	(-x,y+1/2,3/4)";
  "4	e	m.."; "(x,1/4,z)	(x,1/4,-z+1/2)	(-x,3/4,z+1/2)	(-x,3/4,-z)"; "4	d	-1"; "(1/2,0,0)	(1/2,1/2,1/2)	(1/2,0,1/2)	(1/2,1/2,0)";
  "4	c	-1"; "(0,0,0)	(0,1/2,1/2)	(0,0,1/2)	(0,1/2,0)"; "2	b	mm2"; "(x,1/4,3/4)	(-x,3/4,1/4)";
  "2	a	mm2"; "(x,1/4,1/4)	(-x,3/4,3/4)"; ""; " 59  8  5  1  4   P n m m";
  "8	g	1"; "(x,y,z)	(x,-y+1/2,-z+1/2)	(-x,y+1/2,-z)	(-x,-y,z+1/2)"; "(-x,-y,-z)	(-x,y+1/2,z+1/2)	(x,-y+1/2,z)	(x,y,-z+1/2)"; "4	f	.m.";
  "(x,1/4,z)	(x,1/4,-z+1/2)	(-x,3/4,-z)	(-x,3/4,z+1/2)"; "4	e	m.."; "(x,y,1/4)	(x,-y+1/2,1/4)	(-x,y+1/2,3/4)	(-x,-y,3/4)"; "4	d	-1";
  "(1/2,0,0)	(1/2,1/2,1/2)	(1/2,1/2,0)	(1/2,0,1/2)"; "4	c	-1"; "(0,0,0)	(0,1/2,1/2)	(0,1/2,0)	(0,0,1/2)"; "2	b	mm2";
  "(x,3/4,1/4)	(-x,1/4,3/4)"; "2	a	mm2"; "(x,1/4,1/4)	(-x,3/4,3/4)"; "";
  " 59 10  5  1  4   P m n m"; "8	g	1"; "(x,y,z)	(-x+1/2,y,-z+1/2)	(x+1/2,-y,-z)	(-x,-y,z+1/2)"; "(-x,-y,-z)	(x+1/2,-y,z+1/2)	(-x+1/2,y,z)	(x,y,-z+1/2)";
  "4	f	.m."; "(1/4,y,z)	(1/4,y,-z+1/2)	(3/4,-y,-z)	(3/4,-y,z+1/2)"; "4	e	m.."; "(x,y,1/4)	(-x+1/2,y,1/4)	(x+1/2,-y,3/4)	(-x,-y,3/4)";
  "4	d	-1"; "(0,1/2,0)	(1/2,1/2,1/2)	(1/2,1/2,0)	(0,1/2,1/2)"; "4	c	-1"; "(0,0,0)	(1/2,0,1/2)	(1/2,0,0)	(0,0,1/2)";
  "2	b	mm2"; "(3/4,y,1/4)	(1/4,-y,3/4)"; "2	a	mm2"; "(1/4,y,1/4)	(3/4,-y,3/4)";
  ""; " 59 12  5  1  4   P m n m"; "8	g	1"; "(x,y,z)	(-x+1/2,y,-z+1/2)	(-x,-y,z+1/2)	(x+1/2,-y,-z)";
  "(-x,-y,-z)	(x+1/2,-y,z+1/2)	(x,y,-z+1/2)	(-x+1/2,y,z)"; "4	f	.m."; "(x,y,1/4)	(-x+1/2,y,1/4)	(-x,-y,3/4)	(x+1/2,-y,3/4)"; "4	e	m..";
  "(1/4,y,z)	(1/4,y,-z+1/2)	(3/4,-y,z+1/2)	(3/4,-y,-z)"; "4	d	-1"; "(0,1/2,0)	(1/2,1/2,1/2)	(0,1/2,1/2)	(1/2,1/2,0)"; "4	c	-1";
  "(0,0,0)	(1/2,0,1/2)	(0,0,1/2)	(1/2,0,0)"; "2	b	mm2"; "(1/4,y,3/4)	(3/4,-y,1/4)"; "2	a	mm2";
  "(1/4,y,1/4)	(3/4,-y,3/4)"; ""; " 60  1  5  1  4   P b c n"; "8	d	1";
  "(x,y,z)	(-x+1/2,-y+1/2,z+1/2)	(-x,y,-z+1/2)	(x+1/2,-y+1/2,-z)"; "(-x,-y,-z)	(x+1/2,y+1/2,-z+1/2)	(x,-y,z+1/2)	(-x+1/2,y+1/2,z)"; "4	c	.2."; "(0,y,1/4)	(1/2,-y+1/2,3/4)	(0,-y,3/4)	(1/2,y+1/2,1/4)";
  "4	b	-1"; "(0,1/2,0)	(1/2,0,1/2)	(0,1/2,1/2)	(1/2,0,0)"; "4	a	-1"; "(0,0,0)	(1/2,1/2,1/2)	(0,0,1/2)	(1/2,1/2,0)";
  ""; " 60  2  5  1  4   P c a n"; "8	d	1"; "(x,y,z)	(-x+1/2,-y+1/2,z+1/2)	(x,-y,-z+1/2)	(-x+1/2,y+1/2,-z)";
  "(-x,-y,-z)	(x+1/2,y+1/2,-z+1/2)	(-x,y,z+1/2)	(x+1/2,-y+1/2,z)"; "4	c	.2."; "(x,0,3/4)	(-x+1/2,1/2,1/4)	(-x,0,1/4)	(x+1/2,1/2,3/4)"; "4	b	-1";
  "(1/2,0,0)	(0,1/2,1/2)	(1/2,0,1/2)	(0,1/2,0)"; "4	a	-1"; "(0,0,0)	(1/2,1/2,1/2)	(0,0,1/2)	(1/2,1/2,0)"; "";
  " 60  3  5  1  4   P n c a"; "8	d	1"; "(x,y,z)	(x+1/2,-y+1/2,-z+1/2)	(-x+1/2,-y,z)	(-x,y+1/2,-z+1/2)"; "(-x,-y,-z)	(-x+1/2,y+1/2,z+1/2)	(x+1/2,y,-z)	(x,-y+1/2,z+1/2)";
  "4	c	.2."; "(1/4,0,z)	(3/4,1/2,-z+1/2)	(3/4,0,-z)	(1/4,1/2,z+1/2)"; "4	b	-1"; "(0,0,1/2)	(1/2,1/2,0)	(1/2,0,1/2)	(0,1/2,0)";
  "4	a	-1"; "(0,0,0)	(1/2,1/2,1/2)	(1/2,0,0)	(0,1/2,1/2)"; ""; " 60  4  5  1  4   P n a b";
  "8	d	1"; "(x,y,z)	(x+1/2,-y+1/2,-z+1/2)	(-x+1/2,y,-z)	(-x,-y+1/2,z+1/2)"; "(-x,-y,-z)	(-x+1/2,y+1/2,z+1/2)	(x+1/2,-y,z)	(x,y+1/2,-z+1/2)"; "4	c	.2.";
  "(3/4,y,0)	(1/4,-y+1/2,1/2)	(1/4,-y,0)	(3/4,y+1/2,1/2)"; "4	b	-1"; "(0,1/2,0)	(1/2,0,1/2)	(1/2,1/2,0)	(0,0,1/2)"; "4	a	-1";
  "(0,0,0)	(1/2,1/2,1/2)	(1/2,0,0)	(0,1/2,1/2)"; ""; " 60  5  5  1  4   P b n a"; "8	d	1";
  "(x,y,z)	(-x+1/2,y+1/2,-z+1/2)	(x,-y+1/2,-z)	(-x+1/2,-y,z+1/2)"; "(-x,-y,-z)	(x+1/2,-y+1/2,z+1/2)	(-x,y+1/2,z)	(x+1/2,y,-z+1/2)"; "4	c	.2."; "(x,1/4,0)	(-x+1/2,3/4,1/2)	(-x,3/4,0)	(x+1/2,1/4,1/2)";
  "4	b	-1"; "(1/2,0,0)	(0,1/2,1/2)	(1/2,1/2,0)	(0,0,1/2)"; "4	a	-1"; "(0,0,0)	(1/2,1/2,1/2)	(0,1/2,0)	(1/2,0,1/2)";
  ""; " 60  6  5  1  4   P c n b"; "8	d	1"; "(x,y,z)	(-x+1/2,y+1/2,-z+1/2)	(-x,-y+1/2,z)	(x+1/2,-y,-z+1/2)";
  "(-x,-y,-z)	(x+1/2,-y+1/2,z+1/2)	(x,y+1/2,-z)	(-x+1/2,y,z+1/2)"; "4	c	.2."; "(0,3/4,z)	(1/2,1/4,-z+1/2)	(0,1/4,-z)	(1/2,3/4,z+1/2)"; "4	b	-1";
  "(0,0,1/2)	(1/2,1/2,0)	(0,1/2,1/2)	(1/2,0,0)"; "4	a	-1"; "(0,0,0)	(1/2,1/2,1/2)	(0,1/2,0)	(1/2,0,1/2)"; "";
  " 61  1  5  1  4   P b c a"; "8	c	1"; "(x,y,z)	(-x+1/2,-y,z+1/2)	(-x,y+1/2,-z+1/2)	(x+1/2,-y+1/2,-z)"; "(-x,-y,-z)	(x+1/2,y,-z+1/2)	(x,-y+1/2,z+1/2)	(-x+1/2,y+1/2,z)";
  "4	b	-1"; "(0,0,1/2)	(1/2,0,0)	(0,1/2,0)	(1/2,1/2,1/2)"; "4	a	-1"; "(0,0,0)	(1/2,0,1/2)	(0,1/2,1/2)	(1/2,1/2,0)";
  ""; " 61  2  5  1  4   P c a b"; "8	c	1"; "(x,y,z)	(-x,-y+1/2,z+1/2)	(x+1/2,-y,-z+1/2)	(-x+1/2,y+1/2,-z)";
  "(-x,-y,-z)	(x,y+1/2,-z+1/2)	(-x+1/2,y,z+1/2)	(x+1/2,-y+1/2,z)"; "4	b	-1"; "(0,0,1/2)	(0,1/2,0)	(1/2,0,0)	(1/2,1/2,1/2)"; "4	a	-1";
  "(0,0,0)	(0,1/2,1/2)	(1/2,0,1/2)	(1/2,1/2,0)"; ""; " 61  3  5  1  4   P b c a"; "8	c	1";
  "(x,y,z)	(x+1/2,-y+1/2,-z)	(-x+1/2,-y,z+1/2)	(-x,y+1/2,-z+1/2)"; "(-x,-y,-z)	(-x+1/2,y+1/2,z)	(x+1/2,y,-z+1/2)	(x,-y+1/2,z+1/2)"; "4	b	-1"; "(1/2,0,0)	(0,1/2,0)	(0,0,1/2)	(1/2,1/2,1/2)";
  "4	a	-1"; "(0,0,0)	(1/2,1/2,0)	(1/2,0,1/2)	(0,1/2,1/2)"; ""; " 61  4  5  1  4   P c a b";
  "8	c	1"; "(x,y,z)	(x+1/2,-y,-z+1/2)	(-x+1/2,y+1/2,-z)	(-x,-y+1/2,z+1/2)"; "(-x,-y,-z)	(-x+1/2,y,z+1/2)	(x+1/2,-y+1/2,z)	(x,y+1/2,-z+1/2)"; "4	b	-1";
  "(1/2,0,0)	(0,0,1/2)	(0,1/2,0)	(1/2,1/2,1/2)"; "4	a	-1"; "(0,0,0)	(1/2,0,1/2)	(1/2,1/2,0)	(0,1/2,1/2)"; "";
  " 61  5  5  1  4   P b c a"; "8	c	1"; "(x,y,z)	(-x,y+1/2,-z+1/2)	(x+1/2,-y+1/2,-z)	(-x+1/2,-y,z+1/2)"; "(-x,-y,-z)	(x,-y+1/2,z+1/2)	(-x+1/2,y+1/2,z)	(x+1/2,y,-z+1/2)";
  "4	b	-1"; "(0,1/2,0)	(0,0,1/2)	(1/2,0,0)	(1/2,1/2,1/2)"; "4	a	-1"; "(0,0,0)	(0,1/2,1/2)	(1/2,1/2,0)	(1/2,0,1/2)";
  ""; " 61  6  5  1  4   P c a b"; "8	c	1"; "(x,y,z)	(-x+1/2,y+1/2,-z)	(-x,-y+1/2,z+1/2)	(x+1/2,-y,-z+1/2)";
  "(-x,-y,-z)	(x+1/2,-y+1/2,z)	(x,y+1/2,-z+1/2)	(-x+1/2,y,z+1/2)"; "4	b	-1"; "(0,1/2,0)	(1/2,0,0)	(0,0,1/2)	(1/2,1/2,1/2)"; "4	a	-1";
  "(0,0,0)	(1/2,1/2,0)	(0,1/2,1/2)	(1/2,0,1/2)"; ""; " 62  1  5  1  4   P n m a"; "8	d	1";
  "(x,y,z)	(-x+1/2,-y,z+1/2)	(-x,y+1/2,-z)	(x+1/2,-y+1/2,-z+1/2)"; "(-x,-y,-z)	(x+1/2,y,-z+1/2)	(x,-y+1/2,z)	(-x+1/2,y+1/2,z+1/2)"; "4	c	.m."; "(x,1/4,z)	(-x+1/2,3/4,z+1/2)	(-x,3/4,-z)	(x+1/2,1/4,-z+1/2)";
  "4	b	-1"; "(0,0,1/2)	(1/2,0,0)	(0,1/2,1/2)	(1/2,1/2,0)"; "4	a	-1"; "(0,0,0)	(1/2,0,1/2)	(0,1/2,0)	(1/2,1/2,1/2)";
  ""; " 62  2  5  1  4   P m n b"; "8	d	1"; "(x,y,z)	(-x,-y+1/2,z+1/2)	(x+1/2,-y,-z)	(-x+1/2,y+1/2,-z+1/2)";
  "(-x,-y,-z)	(x,y+1/2,-z+1/2)	(-x+1/2,y,z)	(x+1/2,-y+1/2,z+1/2)"; "4	c	.m."; "(1/4,y,z)	(3/4,-y+1/2,z+1/2)	(3/4,-y,-z)	(1/4,y+1/2,-z+1/2)"; "4	b	-1";
  "(0,0,1/2)	(0,1/2,0)	(1/2,0,1/2)	(1/2,1/2,0)"; "4	a	-1"; "(0,0,0)	(0,1/2,1/2)	(1/2,0,0)	(1/2,1/2,1/2)"; "";
  " 62  3  5  1  4   P b n m"; "8	d	1"; "(x,y,z)	(x+1/2,-y+1/2,-z)	(-x,-y,z+1/2)	(-x+1/2,y+1/2,-z+1/2)"; "(-x,-y,-z)	(-x+1/2,y+1/2,z)	(x,y,-z+1/2)	(x+1/2,-y+1/2,z+1/2)";
  "4	c	.m."; "(x,y,1/4)	(x+1/2,-y+1/2,3/4)	(-x,-y,3/4)	(-x+1/2,y+1/2,1/4)"; "4	b	-1"; "(1/2,0,0)	(0,1/2,0)	(1/2,0,1/2)	(0,1/2,1/2)";
  "4	a	-1"; "(0,0,0)	(1/2,1/2,0)	(0,0,1/2)	(1/2,1/2,1/2)"; ""; " 62  4  5  1  4   P c m n";
  "8	d	1"; "(x,y,z)	(x+1/2,-y,-z+1/2)	(-x,y+1/2,-z)	(-x+1/2,-y+1/2,z+1/2)"; "(-x,-y,-z)	(-x+1/2,y,z+1/2)	(x,-y+1/2,z)	(x+1/2,y+1/2,-z+1/2)"; "4	c	.m.";
  "(x,1/4,z)	(x+1/2,3/4,-z+1/2)	(-x,3/4,-z)	(-x+1/2,1/4,z+1/2)"; "4	b	-1"; "(1/2,0,0)	(0,0,1/2)	(1/2,1/2,0)	(0,1/2,1/2)"; "4	a	-1";
  "(0,0,0)	(1/2,0,1/2)	(0,1/2,0)	(1/2,1/2,1/2)"; ""; " 62  5  5  1  4   P m c n"; "8	d	1";
  "(x,y,z)	(-x,y+1/2,-z+1/2)	(x+1/2,-y,-z)	(-x+1/2,-y+1/2,z+1/2)"; "(-x,-y,-z)	(x,-y+1/2,z+1/2)	(-x+1/2,y,z)	(x+1/2,y+1/2,-z+1/2)"; "4	c	.m."; "(1/4,y,z)	(3/4,y+1/2,-z+1/2)	(3/4,-y,-z)	(1/4,-y+1/2,z+1/2)";
  "4	b	-1"; "(0,1/2,0)	(0,0,1/2)	(1/2,1/2,0)	(1/2,0,1/2)"; "4	a	-1"; "(0,0,0)	(0,1/2,1/2)	(1/2,0,0)	(1/2,1/2,1/2)";
  ""; " 62  6  5  1  4   P n a m"; "8	d	1"; "(x,y,z)	(-x+1/2,y+1/2,-z)	(-x,-y,z+1/2)	(x+1/2,-y+1/2,-z+1/2)";
  "(-x,-y,-z)	(x+1/2,-y+1/2,z)	(x,y,-z+1/2)	(-x+1/2,y+1/2,z+1/2)"; "4	c	.m."; "(x,y,1/4)	(-x+1/2,y+1/2,3/4)	(-x,-y,3/4)	(x+1/2,-y+1/2,1/4)"; "4	b	-1";
  "(0,1/2,0)	(1/2,0,0)	(0,1/2,1/2)	(1/2,0,1/2)"; "4	a	-1"; "(0,0,0)	(1/2,1/2,0)	(0,0,1/2)	(1/2,1/2,1/2)"; "";
  " 63  1  5  1  4   C m c m"; "16	h	1"; "(x,y,z)	(-x,-y,z+1/2)	(-x,y,-z+1/2)	(x,-y,-z)"; "(-x,-y,-z)	(x,y,-z+1/2)	(x,-y,z+1/2)	(-x,y,z)";
  "8	g	..m"; "(x,y,1/4)	(-x,-y,3/4)	(-x,y,1/4)	(x,-y,3/4)"; "8	f	m.."; "(0,y,z)	(0,-y,z+1/2)	(0,y,-z+1/2)	(0,-y,-z)";
  "8	e	2.."; "(x,0,0)	(-x,0,1/2)	(-x,0,0)	(x,0,1/2)"; "8	d	-1"; "(1/4,1/4,0)	(3/4,3/4,1/2)	(3/4,1/4,1/2)	(1/4,3/4,0)";
  "4	c	m2m"; "(0,y,1/4)	(0,-y,3/4)"; "4	b	2/m.."; "(0,1/2,0)	(0,1/2,1/2)";
  "4	a	2/m.."; "(0,0,0)	(0,0,1/2)"; ""; " 63  2  5  1  4   C c m m";
  "16	h	1"; "(x,y,z)	(-x,-y,z+1/2)	(x,-y,-z+1/2)	(-x,y,-z)"; "(-x,-y,-z)	(x,y,-z+1/2)	(-x,y,z+1/2)	(x,-y,z)"; "8	g	..m";
  "(x,y,3/4)	(-x,-y,1/4)	(x,-y,3/4)	(-x,y,1/4)"; "8	f	m.."; "(x,0,z)	(-x,0,z+1/2)	(x,0,-z+1/2)	(-x,0,-z)"; "8	e	2..";
  "(0,y,0)	(0,-y,1/2)	(0,-y,0)	(0,y,1/2)"; "8	d	-1"; "(1/4,1/4,0)	(3/4,3/4,1/2)	(1/4,3/4,1/2)	(3/4,1/4,0)"; "4	c	m2m";
  "(x,0,3/4)	(-x,0,1/4)"; "4	b	2/m.."; "(1/2,0,0)	(1/2,0,1/2)"; "4	a	2/m..";
  "(0,0,0)	(0,0,1/2)"; ""; " 63  3  5  1  4   A m m a"; "16	h	1";
  "(x,y,z)	(x+1/2,-y,-z)	(-x+1/2,-y,z)	(-x,y,-z)"; "(-x,-y,-z)	(-x+1/2,y,z)	(x+1/2,y,-z)	(x,-y,z)"; "8	g	..m"; "(1/4,y,z)	(3/4,-y,-z)	(1/4,-y,z)	(3/4,y,-z)";
  "8	f	m.."; "(x,0,z)	(x+1/2,0,-z)	(-x+1/2,0,z)	(-x,0,-z)"; "8	e	2.."; "(0,y,0)	(1/2,-y,0)	(0,-y,0)	(1/2,y,0)";
  "8	d	-1"; "(0,1/4,1/4)	(1/2,3/4,3/4)	(1/2,3/4,1/4)	(0,1/4,3/4)"; "4	c	m2m"; "(1/4,0,z)	(3/4,0,-z)";
  "4	b	2/m.."; "(0,0,1/2)	(1/2,0,1/2)"; "4	a	2/m.."; "(0,0,0)	(1/2,0,0)";
  ""; " 63  4  5  1  4   A m a m"; "16	h	1"; "(x,y,z)	(x+1/2,-y,-z)	(-x+1/2,y,-z)	(-x,-y,z)";
  "(-x,-y,-z)	(-x+1/2,y,z)	(x+1/2,-y,z)	(x,y,-z)"; "8	g	..m"; "(3/4,y,z)	(1/4,-y,-z)	(3/4,y,-z)	(1/4,-y,z)"; "8	f	m..";
  "(x,y,0)	(x+1/2,-y,0)	(-x+1/2,y,0)	(-x,-y,0)"; "8	e	2.."; "(0,0,z)	(1/2,0,-z)	(0,0,-z)	(1/2,0,z)"; "8	d	-1";
  "(0,1/4,1/4)	(1/2,3/4,3/4)	(1/2,1/4,3/4)	(0,3/4,1/4)"; "4	c	m2m"; "(3/4,y,0)	(1/4,-y,0)"; "4	b	2/m..";
  "(0,1/2,0)	(1/2,1/2,0)"; "4	a	2/m.."; "(0,0,0)	(1/2,0,0)"; "";
  " 63  5  5  1  4   B b m m"; "16	h	1"; "(x,y,z)	(-x,y+1/2,-z)	(x,-y+1/2,-z)	(-x,-y,z)"; "(-x,-y,-z)	(x,-y+1/2,z)	(-x,y+1/2,z)	(x,y,-z)";
  "8	g	..m"; "(x,1/4,z)	(-x,3/4,-z)	(x,1/4,-z)	(-x,3/4,z)"; "8	f	m.."; "(x,y,0)	(-x,y+1/2,0)	(x,-y+1/2,0)	(-x,-y,0)";
  "8	e	2.."; "(0,0,z)	(0,1/2,-z)	(0,0,-z)	(0,1/2,z)"; "8	d	-1"; "(1/4,0,1/4)	(3/4,1/2,3/4)	(1/4,1/2,3/4)	(3/4,0,1/4)";
  "4	c	m2m"; "(x,1/4,0)	(-x,3/4,0)"; "4	b	2/m.."; "(1/2,0,0)	(1/2,1/2,0)";
  "4	a	2/m.."; "(0,0,0)	(0,1/2,0)"; ""; " 63  6  5  1  4   B m m b";
  "16	h	1"; "(x,y,z)	(-x,y+1/2,-z)	(-x,-y+1/2,z)	(x,-y,-z)"; "(-x,-y,-z)	(x,-y+1/2,z)	(x,y+1/2,-z)	(-x,y,z)"; "8	g	..m";
  "(x,3/4,z)	(-x,1/4,-z)	(-x,3/4,z)	(x,1/4,-z)"; "8	f	m.."; "(0,y,z)	(0,y+1/2,-z)	(0,-y+1/2,z)	(0,-y,-z)"; "8	e	2..";
  "(x,0,0)	(-x,1/2,0)	(-x,0,0)	(x,1/2,0)"; "8	d	-1"; "(1/4,0,1/4)	(3/4,1/2,3/4)	(3/4,1/2,1/4)	(1/4,0,3/4)"; "4	c	m2m";
  "(0,3/4,z)	(0,1/4,-z)"; "4	b	2/m.."; "(0,0,1/2)	(0,1/2,1/2)"; "4	a	2/m..";
  "(0,0,0)	(0,1/2,0)"; ""; " 64  1  5  1  4   C m c e"; "16	g	1";
  "(x,y,z)	(-x,-y+1/2,z+1/2)	(-x,y+1/2,-z+1/2)	(x,-y,-z)"; "(-x,-y,-z)	(x,y+1/2,-z+1/2)	(x,-y+1/2,z+1/2)	(-x,y,z)"; "8	f	m.."; "(0,y,z)	(0,-y+1/2,z+1/2)	(0,y+1/2,-z+1/2)	(0,-y,-z)";
  "8	e	.2."; "(1/4,y,1/4)	(3/4,-y+1/2,3/4)	(3/4,-y,3/4)	(1/4,y+1/2,1/4)"; "8	d	2.."; "(x,0,0)	(-x,1/2,1/2)	(-x,0,0)	(x,1/2,1/2)";
  "8	c	-1"; "(1/4,1/4,0)	(3/4,1/4,1/2)	(3/4,3/4,1/2)	(1/4,3/4,0)"; "4	b	2/m.."; "(1/2,0,0)	(1/2,1/2,1/2)";
  "4	a	2/m.."; "(0,0,0)	(0,1/2,1/2)"; ""; " 64  2  5  1  4   C c m e";
  "16	g	1"; "(x,y,z)	(-x+1/2,-y,z+1/2)	(x+1/2,-y,-z+1/2)	(-x,y,-z)"; "(-x,-y,-z)	(x+1/2,y,-z+1/2)	(-x+1/2,y,z+1/2)	(x,-y,z)"; "8	f	m..";
  "(x,0,z)	(-x+1/2,0,z+1/2)	(x+1/2,0,-z+1/2)	(-x,0,-z)"; "8	e	.2."; "(x,1/4,3/4)	(-x+1/2,3/4,1/4)	(-x,3/4,1/4)	(x+1/2,1/4,3/4)"; "8	d	2..";
  "(0,y,0)	(1/2,-y,1/2)	(0,-y,0)	(1/2,y,1/2)"; "8	c	-1"; "(1/4,1/4,0)	(1/4,3/4,1/2)	(3/4,3/4,1/2)	(3/4,1/4,0)"; "4	b	2/m..";
  "(0,1/2,0)	(1/2,1/2,1/2)"; "4	a	2/m.."; "(0,0,0)	(1/2,0,1/2)"; "";
  " 64  3  5  1  4   A e m a"; "16	g	1"; "(x,y,z)	(x+1/2,-y,-z+1/2)	(-x+1/2,-y,z+1/2)	(-x,y,-z)"; "(-x,-y,-z)	(-x+1/2,y,z+1/2)	(x+1/2,y,-z+1/2)	(x,-y,z)";
  "8	f	m.."; "(x,0,z)	(x+1/2,0,-z+1/2)	(-x+1/2,0,z+1/2)	(-x,0,-z)"; "8	e	.2."; "(1/4,1/4,z)	(3/4,3/4,-z+1/2)	(3/4,3/4,-z)	(1/4,1/4,z+1/2)";
  "8	d	2.."; "(0,y,0)	(1/2,-y,1/2)	(0,-y,0)	(1/2,y,1/2)"; "8	c	-1"; "(0,1/4,1/4)	(1/2,3/4,1/4)	(1/2,3/4,3/4)	(0,1/4,3/4)";
  "4	b	2/m.."; "(0,1/2,0)	(1/2,1/2,1/2)"; "4	a	2/m.."; "(0,0,0)	(1/2,0,1/2)";
  ""; " 64  4  5  1  4   A e a m"; "16	g	1"; "(x,y,z)	(x+1/2,-y+1/2,-z)	(-x+1/2,y+1/2,-z)	(-x,-y,z)";
  "(-x,-y,-z)	(-x+1/2,y+1/2,z)	(x+1/2,-y+1/2,z)	(x,y,-z)"; "8	f	m.."; "(x,y,0)	(x+1/2,-y+1/2,0)	(-x+1/2,y+1/2,0)	(-x,-y,0)"; "8	e	.2.";
  "(3/4,y,1/4)	(1/4,-y+1/2,3/4)	(1/4,-y,3/4)	(3/4,y+1/2,1/4)"; "8	d	2.."; "(0,0,z)	(1/2,1/2,-z)	(0,0,-z)	(1/2,1/2,z)"; "8	c	-1";
  "(0,1/4,1/4)	(1/2,1/4,3/4)	(1/2,3/4,3/4)	(0,3/4,1/4)"; "4	b	2/m.."; "(0,0,1/2)	(1/2,1/2,1/2)"; "4	a	2/m..";
  "(0,0,0)	(1/2,1/2,0)"; ""; " 64  5  5  1  4   B b e m"; "16	g	1";
  "(x,y,z)	(-x+1/2,y+1/2,-z)	(x+1/2,-y+1/2,-z)	(-x,-y,z)"; "(-x,-y,-z)	(x+1/2,-y+1/2,z)	(-x+1/2,y+1/2,z)	(x,y,-z)"; "8	f	m.."; "(x,y,0)	(-x+1/2,y+1/2,0)	(x+1/2,-y+1/2,0)	(-x,-y,0)";
  "8	e	.2."; "(x,1/4,1/4)	(-x+1/2,3/4,3/4)	(-x,3/4,3/4)	(x+1/2,1/4,1/4)"; "8	d	2.."; "(0,0,z)	(1/2,1/2,-z)	(0,0,-z)	(1/2,1/2,z)";
  "8	c	-1"; "(1/4,0,1/4)	(1/4,1/2,3/4)	(3/4,1/2,3/4)	(3/4,0,1/4)"; "4	b	2/m.."; "(0,0,1/2)	(1/2,1/2,1/2)";
  "4	a	2/m.."; "(0,0,0)	(1/2,1/2,0)"; ""; " 64  6  5  1  4   B m e b";
  "16	g	1"; "(x,y,z)	(-x,y+1/2,-z+1/2)	(-x,-y+1/2,z+1/2)	(x,-y,-z)"; "(-x,-y,-z)	(x,-y+1/2,z+1/2)	(x,y+1/2,-z+1/2)	(-x,y,z)"; "8	f	m..";
  "(0,y,z)	(0,y+1/2,-z+1/2)	(0,-y+1/2,z+1/2)	(0,-y,-z)"; "8	e	.2."; "(1/4,3/4,z)	(3/4,1/4,-z+1/2)	(3/4,1/4,-z)	(1/4,3/4,z+1/2)"; "8	d	2..";
  "(x,0,0)	(-x,1/2,1/2)	(-x,0,0)	(x,1/2,1/2)"; "8	c	-1"; "(1/4,0,1/4)	(3/4,1/2,1/4)	(3/4,1/2,3/4)	(1/4,0,3/4)"; "4	b	2/m..";
  "(1/2,0,0)	(1/2,1/2,1/2)"; "4	a	2/m.."; "(0,0,0)	(0,1/2,1/2)"; "";
  " 65  1  5  1  4   C m m m"; "16	r	1"; "(x,y,z)	(-x,-y,z)	(-x,y,-z)	(x,-y,-z)"; "(-x,-y,-z)	(x,y,-z)	(x,-y,z)	(-x,y,z)";
  "8	q	..m"; "(x,y,1/2)	(-x,-y,1/2)	(-x,y,1/2)	(x,-y,1/2)"; "8	p	..m"; "(x,y,0)	(-x,-y,0)	(-x,y,0)	(x,-y,0)";
  "8	o	.m."; "(x,0,z)	(-x,0,z)	(-x,0,-z)	(x,0,-z)"; "8	n	m.."; "(0,y,z)	(0,-y,z)	(0,y,-z)	(0,-y,-z)";
  "8	m	..2"; "(1/4,1/4,z)	(3/4,1/4,-z)	(3/4,3/4,-z)	(1/4,3/4,z)"; "4	l	mm2"; "(0,1/2,z)	(0,1/2,-z)";
  "4	k	mm2"; "(0,0,z)	(0,0,-z)"; "4	j	m2m"; "(0,y,1/2)	(0,-y,1/2)";
  "4	i	m2m"; "(0,y,0)	(0,-y,0)"; "4	h	2mm"; "(x,0,1/2)	(-x,0,1/2)";
  "4	g	2mm"; "(x,0,0)	(-x,0,0)"; "4	f	..2/m"; "(1/4,1/4,1/2)	(3/4,1/4,1/2)";
  "4	e	..2/m"; "(1/4,1/4,0)	(3/4,1/4,0)"; "2	d	mmm"; "(0,0,1/2)";
  "2	c	mmm"; "(1/2,0,1/2)"; "2	b	mmm"; "(1/2,0,0)";
  "2	a	mmm"; "(0,0,0)"; ""; " 65  2  5  1  4   C m m m";
  "16	r	1"; "(x,y,z)	(-x,-y,z)	(x,-y,-z)	(-x,y,-z)"; "(-x,-y,-z)	(x,y,-z)	(-x,y,z)	(x,-y,z)"; "8	q	..m";
  "(x,y,1/2)	(-x,-y,1/2)	(x,-y,1/2)	(-x,y,1/2)"; "8	p	..m"; "(x,y,0)	(-x,-y,0)	(x,-y,0)	(-x,y,0)"; "8	o	.m.";
  "(0,y,z)	(0,-y,z)	(0,-y,-z)	(0,y,-z)"; "8	n	m.."; "(x,0,z)	(-x,0,z)	(x,0,-z)	(-x,0,-z)"; "8	m	..2";
  "(1/4,1/4,z)	(1/4,3/4,-z)	(3/4,3/4,-z)	(3/4,1/4,z)"; "4	l	mm2"; "(1/2,0,z)	(1/2,0,-z)"; "4	k	mm2";
  "(0,0,z)	(0,0,-z)"; "4	j	m2m"; "(x,0,1/2)	(-x,0,1/2)"; "4	i	m2m";
  "(x,0,0)	(-x,0,0)"; "4	h	2mm"; "(0,y,1/2)	(0,-y,1/2)"; "4	g	2mm";
  "(0,y,0)	(0,-y,0)"; "4	f	..2/m"; "(1/4,1/4,1/2)	(1/4,3/4,1/2)"; "4	e	..2/m";
  "(1/4,1/4,0)	(1/4,3/4,0)"; "2	d	mmm"; "(0,0,1/2)"; "2	c	mmm";
  "(0,1/2,1/2)"; "2	b	mmm"; "(0,1/2,0)"; "2	a	mmm";
  "(0,0,0)"; ""; " 65  3  5  1  4   A m m m"; "16	r	1";
  "(x,y,z)	(x,-y,-z)	(-x,-y,z)	(-x,y,-z)"; "(-x,-y,-z)	(-x,y,z)	(x,y,-z)	(x,-y,z)"; "8	q	..m"; "(1/2,y,z)	(1/2,-y,-z)	(1/2,-y,z)	(1/2,y,-z)";
  "8	p	..m"; "(0,y,z)	(0,-y,-z)	(0,-y,z)	(0,y,-z)"; "8	o	.m."; "(x,y,0)	(x,-y,0)	(-x,-y,0)	(-x,y,0)";
  "8	n	m.."; "(x,0,z)	(x,0,-z)	(-x,0,z)	(-x,0,-z)"; "8	m	..2"; "(x,1/4,1/4)	(-x,3/4,1/4)	(-x,3/4,3/4)	(x,1/4,3/4)";
  "4	l	mm2"; "(x,0,1/2)	(-x,0,1/2)"; "4	k	mm2"; "(x,0,0)	(-x,0,0)";
  "4	j	m2m"; "(1/2,0,z)	(1/2,0,-z)"; "4	i	m2m"; "(0,0,z)	(0,0,-z)";
  "4	h	2mm"; "(1/2,y,0)	(1/2,-y,0)"; "4	g	2mm"; "(0,y,0)	(0,-y,0)";
  "4	f	..2/m"; "(1/2,1/4,1/4)	(1/2,3/4,1/4)"; "4	e	..2/m"; "(0,1/4,1/4)	(0,3/4,1/4)";
  "2	d	mmm"; "(1/2,0,0)"; "2	c	mmm"; "(1/2,1/2,0)";
  "2	b	mmm"; "(0,1/2,0)"; "2	a	mmm"; "(0,0,0)";
  ""; " 65  4  5  1  4   A m m m"; "16	r	1"; "(x,y,z)	(x,-y,-z)	(-x,y,-z)	(-x,-y,z)";
  "(-x,-y,-z)	(-x,y,z)	(x,-y,z)	(x,y,-z)"; "8	q	..m"; "(1/2,y,z)	(1/2,-y,-z)	(1/2,y,-z)	(1/2,-y,z)"; "8	p	..m";
  "(0,y,z)	(0,-y,-z)	(0,y,-z)	(0,-y,z)"; "8	o	.m."; "(x,0,z)	(x,0,-z)	(-x,0,-z)	(-x,0,z)"; "8	n	m..";
  "(x,y,0)	(x,-y,0)	(-x,y,0)	(-x,-y,0)"; "8	m	..2"; "(x,1/4,1/4)	(-x,1/4,3/4)	(-x,3/4,3/4)	(x,3/4,1/4)"; "4	l	mm2";
  "(x,1/2,0)	(-x,1/2,0)"; "4	k	mm2"; "(x,0,0)	(-x,0,0)"; "4	j	m2m";
  "(1/2,y,0)	(1/2,-y,0)"; "4	i	m2m"; "(0,y,0)	(0,-y,0)"; "4	h	2mm";
  "(1/2,0,z)	(1/2,0,-z)"; "4	g	2mm"; "(0,0,z)	(0,0,-z)"; "4	f	..2/m";
  "(1/2,1/4,1/4)	(1/2,1/4,3/4)"; "4	e	..2/m"; "(0,1/4,1/4)	(0,1/4,3/4)"; "2	d	mmm";
  "(1/2,0,0)"; "2	c	mmm"; "(1/2,0,1/2)"; "2	b	mmm";
  "(0,0,1/2)"; "2	a	mmm"; "(0,0,0)"; "";
  " 65  5  5  1  4   B m m m"; "16	r	1"; "(x,y,z)	(-x,y,-z)	(x,-y,-z)	(-x,-y,z)"; "(-x,-y,-z)	(x,-y,z)	(-x,y,z)	(x,y,-z)";
  "8	q	..m"; "(x,1/2,z)	(-x,1/2,-z)	(x,1/2,-z)	(-x,1/2,z)"; "8	p	..m"; "(x,0,z)	(-x,0,-z)	(x,0,-z)	(-x,0,z)";
  "8	o	.m."; "(0,y,z)	(0,y,-z)	(0,-y,-z)	(0,-y,z)"; "8	n	m.."; "(x,y,0)	(-x,y,0)	(x,-y,0)	(-x,-y,0)";
  "8	m	..2"; "(1/4,y,1/4)	(1/4,-y,3/4)	(3/4,-y,3/4)	(3/4,y,1/4)"; "4	l	mm2"; "(1/2,y,0)	(1/2,-y,0)";
  "4	k	mm2"; "(0,y,0)	(0,-y,0)"; "4	j	m2m"; "(x,1/2,0)	(-x,1/2,0)";
  "4	i	m2m"; "(x,0,0)	(-x,0,0)"; "4	h	2mm"; "(0,1/2,z)	(0,1/2,-z)";
  "4	g	2mm"; "(0,0,z)	(0,0,-z)"; "4	f	..2/m"; "(1/4,1/2,1/4)	(1/4,1/2,3/4)";
  "4	e	..2/m"; "(1/4,0,1/4)	(1/4,0,3/4)"; "2	d	mmm"; "(0,1/2,0)";
  "2	c	mmm"; "(0,1/2,1/2)"; "2	b	mmm"; "(0,0,1/2)";
  "2	a	mmm"; "(0,0,0)"; ""; " 65  6  5  1  4   B m m m";
  "16	r	1"; "(x,y,z)	(-x,y,-z)	(-x,-y,z)	(x,-y,-z)"; "(-x,-y,-z)	(x,-y,z)	(x,y,-z)	(-x,y,z)"; "8	q	..m";
  "(x,1/2,z)	(-x,1/2,-z)	(-x,1/2,z)	(x,1/2,-z)"; "8	p	..m"; "(x,0,z)	(-x,0,-z)	(-x,0,z)	(x,0,-z)"; "8	o	.m.";
  "(x,y,0)	(-x,y,0)	(-x,-y,0)	(x,-y,0)"; "8	n	m.."; "(0,y,z)	(0,y,-z)	(0,-y,z)	(0,-y,-z)"; "8	m	..2";
  "(1/4,y,1/4)	(3/4,-y,1/4)	(3/4,-y,3/4)	(1/4,y,3/4)"; "4	l	mm2"; "(0,y,1/2)	(0,-y,1/2)"; "4	k	mm2";
  "(0,y,0)	(0,-y,0)"; "4	j	m2m"; "(0,1/2,z)	(0,1/2,-z)"; "4	i	m2m";
  "(0,0,z)	(0,0,-z)"; "4	h	2mm"; "(x,1/2,0)	(-x,1/2,0)"; "4	g	2mm";
  "(x,0,0)	(-x,0,0)"; "4	f	..2/m"; "(1/4,1/2,1/4)	(3/4,1/2,1/4)"; "4	e	..2/m";
  "(1/4,0,1/4)	(3/4,0,1/4)"; "2	d	mmm"; "(0,1/2,0)"; "2	c	mmm";
  "(1/2,1/2,0)"; "2	b	mmm"; "(1/2,0,0)"; "2	a	mmm";
  "(0,0,0)"; ""; " 66  1  5  1  4   C c c m"; "16	m	1";
  "(x,y,z)	(-x,-y,z)	(-x,y,-z+1/2)	(x,-y,-z+1/2)"; "(-x,-y,-z)	(x,y,-z)	(x,-y,z+1/2)	(-x,y,z+1/2)"; "8	l	..m"; "(x,y,0)	(-x,-y,0)	(-x,y,1/2)	(x,-y,1/2)";
  "8	k	..2"; "(1/4,1/4,z)	(3/4,1/4,-z+1/2)	(3/4,3/4,-z)	(1/4,3/4,z+1/2)"; "8	j	..2"; "(0,1/2,z)	(0,1/2,-z+1/2)	(0,1/2,-z)	(0,1/2,z+1/2)";
  "8	i	..2"; "(0,0,z)	(0,0,-z+1/2)	(0,0,-z)	(0,0,z+1/2)"; "8	h	.2."; "(0,y,1/4)	(0,-y,1/4)	(0,-y,3/4)	(0,y,3/4)";
  "8	g	2.."; "(x,0,1/4)	(-x,0,1/4)	(-x,0,3/4)	(x,0,3/4)"; "4	f	..2/m"; "(1/4,3/4,0)	(3/4,3/4,1/2)";
  "4	e	..2/m"; "(1/4,1/4,0)	(3/4,1/4,1/2)"; "4	d	..2/m"; "(0,1/2,0)	(0,1/2,1/2)";
  "4	c	..2/m"; "(0,0,0)	(0,0,1/2)"; "4	b	222"; "(0,1/2,1/4)	(0,1/2,3/4)";
  "4	a	222"; "(0,0,1/4)	(0,0,3/4)"; ""; " 66  2  5  1  4   C c c m";
  "16	m	1"; "(x,y,z)	(-x,-y,z)	(x,-y,-z+1/2)	(-x,y,-z+1/2)"; "(-x,-y,-z)	(x,y,-z)	(-x,y,z+1/2)	(x,-y,z+1/2)"; "8	l	..m";
  "(x,y,0)	(-x,-y,0)	(x,-y,1/2)	(-x,y,1/2)"; "8	k	..2"; "(1/4,1/4,z)	(1/4,3/4,-z+1/2)	(3/4,3/4,-z)	(3/4,1/4,z+1/2)"; "8	j	..2";
  "(1/2,0,z)	(1/2,0,-z+1/2)	(1/2,0,-z)	(1/2,0,z+1/2)"; "8	i	..2"; "(0,0,z)	(0,0,-z+1/2)	(0,0,-z)	(0,0,z+1/2)"; "8	h	.2.";
  "(x,0,3/4)	(-x,0,3/4)	(-x,0,1/4)	(x,0,1/4)"; "8	g	2.."; "(0,y,3/4)	(0,-y,3/4)	(0,-y,1/4)	(0,y,1/4)"; "4	f	..2/m";
  "(3/4,1/4,0)	(3/4,3/4,1/2)"; "4	e	..2/m"; "(1/4,1/4,0)	(1/4,3/4,1/2)"; "4	d	..2/m";
  "(1/2,0,0)	(1/2,0,1/2)"; "4	c	..2/m"; "(0,0,0)	(0,0,1/2)"; "4	b	222";
  "(1/2,0,3/4)	(1/2,0,1/4)"; "4	a	222"; "(0,0,3/4)	(0,0,1/4)"; "";
  " 66  3  5  1  4   A m a a"; "16	m	1"; "(x,y,z)	(x,-y,-z)	(-x+1/2,-y,z)	(-x+1/2,y,-z)"; "(-x,-y,-z)	(-x,y,z)	(x+1/2,y,-z)	(x+1/2,-y,z)";
  "8	l	..m"; "(0,y,z)	(0,-y,-z)	(1/2,-y,z)	(1/2,y,-z)"; "8	k	..2"; "(x,1/4,1/4)	(-x+1/2,3/4,1/4)	(-x,3/4,3/4)	(x+1/2,1/4,3/4)";
  "8	j	..2"; "(x,0,1/2)	(-x+1/2,0,1/2)	(-x,0,1/2)	(x+1/2,0,1/2)"; "8	i	..2"; "(x,0,0)	(-x+1/2,0,0)	(-x,0,0)	(x+1/2,0,0)";
  "8	h	.2."; "(1/4,0,z)	(1/4,0,-z)	(3/4,0,-z)	(3/4,0,z)"; "8	g	2.."; "(1/4,y,0)	(1/4,-y,0)	(3/4,-y,0)	(3/4,y,0)";
  "4	f	..2/m"; "(0,1/4,3/4)	(1/2,3/4,3/4)"; "4	e	..2/m"; "(0,1/4,1/4)	(1/2,3/4,1/4)";
  "4	d	..2/m"; "(0,0,1/2)	(1/2,0,1/2)"; "4	c	..2/m"; "(0,0,0)	(1/2,0,0)";
  "4	b	222"; "(1/4,0,1/2)	(3/4,0,1/2)"; "4	a	222"; "(1/4,0,0)	(3/4,0,0)";
  ""; " 66  4  5  1  4   A m a a"; "16	m	1"; "(x,y,z)	(x,-y,-z)	(-x+1/2,y,-z)	(-x+1/2,-y,z)";
  "(-x,-y,-z)	(-x,y,z)	(x+1/2,-y,z)	(x+1/2,y,-z)"; "8	l	..m"; "(0,y,z)	(0,-y,-z)	(1/2,y,-z)	(1/2,-y,z)"; "8	k	..2";
  "(x,1/4,1/4)	(-x+1/2,1/4,3/4)	(-x,3/4,3/4)	(x+1/2,3/4,1/4)"; "8	j	..2"; "(x,1/2,0)	(-x+1/2,1/2,0)	(-x,1/2,0)	(x+1/2,1/2,0)"; "8	i	..2";
  "(x,0,0)	(-x+1/2,0,0)	(-x,0,0)	(x+1/2,0,0)"; "8	h	.2."; "(3/4,y,0)	(3/4,-y,0)	(1/4,-y,0)	(1/4,y,0)"; "8	g	2..";
  "(3/4,0,z)	(3/4,0,-z)	(1/4,0,-z)	(1/4,0,z)"; "4	f	..2/m"; "(0,3/4,1/4)	(1/2,3/4,3/4)"; "4	e	..2/m";
  "(0,1/4,1/4)	(1/2,1/4,3/4)"; "4	d	..2/m"; "(0,1/2,0)	(1/2,1/2,0)"; "4	c	..2/m";
  "(0,0,0)	(1/2,0,0)"; "4	b	222"; "(3/4,1/2,0)	(1/4,1/2,0)"; "4	a	222";
  "(3/4,0,0)	(1/4,0,0)"; ""; " 66  5  5  1  4   B b m b"; "16	m	1";
  "(x,y,z)	(-x,y,-z)	(x,-y+1/2,-z)	(-x,-y+1/2,z)"; "(-x,-y,-z)	(x,-y,z)	(-x,y+1/2,z)	(x,y+1/2,-z)"; "8	l	..m"; "(x,0,z)	(-x,0,-z)	(x,1/2,-z)	(-x,1/2,z)";
  "8	k	..2"; "(1/4,y,1/4)	(1/4,-y+1/2,3/4)	(3/4,-y,3/4)	(3/4,y+1/2,1/4)"; "8	j	..2"; "(1/2,y,0)	(1/2,-y+1/2,0)	(1/2,-y,0)	(1/2,y+1/2,0)";
  "8	i	..2"; "(0,y,0)	(0,-y+1/2,0)	(0,-y,0)	(0,y+1/2,0)"; "8	h	.2."; "(x,1/4,0)	(-x,1/4,0)	(-x,3/4,0)	(x,3/4,0)";
  "8	g	2.."; "(0,1/4,z)	(0,1/4,-z)	(0,3/4,-z)	(0,3/4,z)"; "4	f	..2/m"; "(3/4,0,1/4)	(3/4,1/2,3/4)";
  "4	e	..2/m"; "(1/4,0,1/4)	(1/4,1/2,3/4)"; "4	d	..2/m"; "(1/2,0,0)	(1/2,1/2,0)";
  "4	c	..2/m"; "(0,0,0)	(0,1/2,0)"; "4	b	222"; "(1/2,1/4,0)	(1/2,3/4,0)";
  "4	a	222"; "(0,1/4,0)	(0,3/4,0)"; ""; " 66  6  5  1  4   B b m b";
  "16	m	1"; "(x,y,z)	(-x,y,-z)	(-x,-y+1/2,z)	(x,-y+1/2,-z)"; "(-x,-y,-z)	(x,-y,z)	(x,y+1/2,-z)	(-x,y+1/2,z)"; "8	l	..m";
  "(x,0,z)	(-x,0,-z)	(-x,1/2,z)	(x,1/2,-z)"; "8	k	..2"; "(1/4,y,1/4)	(3/4,-y+1/2,1/4)	(3/4,-y,3/4)	(1/4,y+1/2,3/4)"; "8	j	..2";
  "(0,y,1/2)	(0,-y+1/2,1/2)	(0,-y,1/2)	(0,y+1/2,1/2)"; "8	i	..2"; "(0,y,0)	(0,-y+1/2,0)	(0,-y,0)	(0,y+1/2,0)"; "8	h	.2.";
  "(0,3/4,z)	(0,3/4,-z)	(0,1/4,-z)	(0,1/4,z)"; "8	g	2.."; "(x,3/4,0)	(-x,3/4,0)	(-x,1/4,0)	(x,1/4,0)"; "4	f	..2/m";
  "(1/4,0,3/4)	(3/4,1/2,3/4)"; "4	e	..2/m"; "(1/4,0,1/4)	(3/4,1/2,1/4)"; "4	d	..2/m";
  "(0,0,1/2)	(0,1/2,1/2)"; "4	c	..2/m"; "(0,0,0)	(0,1/2,0)"; "4	b	222";
  "(0,3/4,1/2)	(0,1/4,1/2)"; "4	a	222"; "(0,3/4,0)	(0,1/4,0)"; "";
  " 67  1  5  1  4   C m m e"; "16	o	1"; "(x,y,z)	(-x,-y+1/2,z)	(-x,y+1/2,-z)	(x,-y,-z)"; "(-x,-y,-z)	(x,y+1/2,-z)	(x,-y+1/2,z)	(-x,y,z)";
  "8	n	.m."; "(x,1/4,z)	(-x,1/4,z)	(-x,3/4,-z)	(x,3/4,-z)"; "8	m	m.."; "(0,y,z)	(0,-y+1/2,z)	(0,y+1/2,-z)	(0,-y,-z)";
  "8	l	..2"; "(1/4,0,z)	(3/4,1/2,-z)	(3/4,0,-z)	(1/4,1/2,z)"; "8	k	.2."; "(1/4,y,1/2)	(3/4,-y+1/2,1/2)	(3/4,-y,1/2)	(1/4,y+1/2,1/2)";
  "8	j	.2."; "(1/4,y,0)	(3/4,-y+1/2,0)	(3/4,-y,0)	(1/4,y+1/2,0)"; "8	i	2.."; "(x,0,1/2)	(-x,1/2,1/2)	(-x,0,1/2)	(x,1/2,1/2)";
  "8	h	2.."; "(x,0,0)	(-x,1/2,0)	(-x,0,0)	(x,1/2,0)"; "4	g	mm2"; "(0,1/4,z)	(0,3/4,-z)";
  "4	f	.2/m."; "(1/4,1/4,1/2)	(3/4,1/4,1/2)"; "4	e	.2/m."; "(1/4,1/4,0)	(3/4,1/4,0)";
  "4	d	2/m.."; "(0,0,1/2)	(0,1/2,1/2)"; "4	c	2/m.."; "(0,0,0)	(0,1/2,0)";
  "4	b	222"; "(1/4,0,1/2)	(3/4,0,1/2)"; "4	a	222"; "(1/4,0,0)	(3/4,0,0)";
  ""; " 67  2  5  1  4   C m m e"; "16	o	1"; "(x,y,z)	(-x+1/2,-y,z)	(x+1/2,-y,-z)	(-x,y,-z)";
  "(-x,-y,-z)	(x+1/2,y,-z)	(-x+1/2,y,z)	(x,-y,z)"; "8	n	.m."; "(1/4,y,z)	(1/4,-y,z)	(3/4,-y,-z)	(3/4,y,-z)"; "8	m	m..";
  "(x,0,z)	(-x+1/2,0,z)	(x+1/2,0,-z)	(-x,0,-z)"; "8	l	..2"; "(0,1/4,z)	(1/2,3/4,-z)	(0,3/4,-z)	(1/2,1/4,z)"; "8	k	.2.";
  "(x,1/4,1/2)	(-x+1/2,3/4,1/2)	(-x,3/4,1/2)	(x+1/2,1/4,1/2)"; "8	j	.2."; "(x,1/4,0)	(-x+1/2,3/4,0)	(-x,3/4,0)	(x+1/2,1/4,0)"; "8	i	2..";
  "(0,y,1/2)	(1/2,-y,1/2)	(0,-y,1/2)	(1/2,y,1/2)"; "8	h	2.."; "(0,y,0)	(1/2,-y,0)	(0,-y,0)	(1/2,y,0)"; "4	g	mm2";
  "(1/4,0,z)	(3/4,0,-z)"; "4	f	.2/m."; "(1/4,1/4,1/2)	(1/4,3/4,1/2)"; "4	e	.2/m.";
  "(1/4,1/4,0)	(1/4,3/4,0)"; "4	d	2/m.."; "(0,0,1/2)	(1/2,0,1/2)"; "4	c	2/m..";
  "(0,0,0)	(1/2,0,0)"; "4	b	222"; "(0,1/4,1/2)	(0,3/4,1/2)"; "4	a	222";
  "(0,1/4,0)	(0,3/4,0)"; ""; " 67  3  5  1  4   A e m m"; "16	o	1";
  "(x,y,z)	(x,-y,-z+1/2)	(-x,-y,z+1/2)	(-x,y,-z)"; "(-x,-y,-z)	(-x,y,z+1/2)	(x,y,-z+1/2)	(x,-y,z)"; "8	n	.m."; "(x,y,1/4)	(x,-y,1/4)	(-x,-y,3/4)	(-x,y,3/4)";
  "8	m	m.."; "(x,0,z)	(x,0,-z+1/2)	(-x,0,z+1/2)	(-x,0,-z)"; "8	l	..2"; "(x,1/4,0)	(-x,3/4,1/2)	(-x,3/4,0)	(x,1/4,1/2)";
  "8	k	.2."; "(1/2,1/4,z)	(1/2,3/4,-z+1/2)	(1/2,3/4,-z)	(1/2,1/4,z+1/2)"; "8	j	.2."; "(0,1/4,z)	(0,3/4,-z+1/2)	(0,3/4,-z)	(0,1/4,z+1/2)";
  "8	i	2.."; "(1/2,y,0)	(1/2,-y,1/2)	(1/2,-y,0)	(1/2,y,1/2)"; "8	h	2.."; "(0,y,0)	(0,-y,1/2)	(0,-y,0)	(0,y,1/2)";
  "4	g	mm2"; "(x,0,1/4)	(-x,0,3/4)"; "4	f	.2/m."; "(1/2,1/4,1/4)	(1/2,3/4,1/4)";
  "4	e	.2/m."; "(0,1/4,1/4)	(0,3/4,1/4)"; "4	d	2/m.."; "(1/2,0,0)	(1/2,0,1/2)";
  "4	c	2/m.."; "(0,0,0)	(0,0,1/2)"; "4	b	222"; "(1/2,1/4,0)	(1/2,3/4,0)";
  "4	a	222"; "(0,1/4,0)	(0,3/4,0)"; ""; " 67  4  5  1  4   A e m m";
  "16	o	1"; "(x,y,z)	(x,-y+1/2,-z)	(-x,y+1/2,-z)	(-x,-y,z)"; "(-x,-y,-z)	(-x,y+1/2,z)	(x,-y+1/2,z)	(x,y,-z)"; "8	n	.m.";
  "(x,1/4,z)	(x,1/4,-z)	(-x,3/4,-z)	(-x,3/4,z)"; "8	m	m.."; "(x,y,0)	(x,-y+1/2,0)	(-x,y+1/2,0)	(-x,-y,0)"; "8	l	..2";
  "(x,0,1/4)	(-x,1/2,3/4)	(-x,0,3/4)	(x,1/2,1/4)"; "8	k	.2."; "(1/2,y,1/4)	(1/2,-y+1/2,3/4)	(1/2,-y,3/4)	(1/2,y+1/2,1/4)"; "8	j	.2.";
  "(0,y,1/4)	(0,-y+1/2,3/4)	(0,-y,3/4)	(0,y+1/2,1/4)"; "8	i	2.."; "(1/2,0,z)	(1/2,1/2,-z)	(1/2,0,-z)	(1/2,1/2,z)"; "8	h	2..";
  "(0,0,z)	(0,1/2,-z)	(0,0,-z)	(0,1/2,z)"; "4	g	mm2"; "(x,1/4,0)	(-x,3/4,0)"; "4	f	.2/m.";
  "(1/2,1/4,1/4)	(1/2,1/4,3/4)"; "4	e	.2/m."; "(0,1/4,1/4)	(0,1/4,3/4)"; "4	d	2/m..";
  "(1/2,0,0)	(1/2,1/2,0)"; "4	c	2/m.."; "(0,0,0)	(0,1/2,0)"; "4	b	222";
  "(1/2,0,1/4)	(1/2,0,3/4)"; "4	a	222"; "(0,0,1/4)	(0,0,3/4)"; "";
  " 67  5  5  1  4   B m e m"; "16	o	1"; "(x,y,z)	(-x+1/2,y,-z)	(x+1/2,-y,-z)	(-x,-y,z)"; "(-x,-y,-z)	(x+1/2,-y,z)	(-x+1/2,y,z)	(x,y,-z)";
  "8	n	.m."; "(1/4,y,z)	(1/4,y,-z)	(3/4,-y,-z)	(3/4,-y,z)"; "8	m	m.."; "(x,y,0)	(-x+1/2,y,0)	(x+1/2,-y,0)	(-x,-y,0)";
  "8	l	..2"; "(0,y,1/4)	(1/2,-y,3/4)	(0,-y,3/4)	(1/2,y,1/4)"; "8	k	.2."; "(x,1/2,1/4)	(-x+1/2,1/2,3/4)	(-x,1/2,3/4)	(x+1/2,1/2,1/4)";
  "8	j	.2."; "(x,0,1/4)	(-x+1/2,0,3/4)	(-x,0,3/4)	(x+1/2,0,1/4)"; "8	i	2.."; "(0,1/2,z)	(1/2,1/2,-z)	(0,1/2,-z)	(1/2,1/2,z)";
  "8	h	2.."; "(0,0,z)	(1/2,0,-z)	(0,0,-z)	(1/2,0,z)"; "4	g	mm2"; "(1/4,y,0)	(3/4,-y,0)";
  "4	f	.2/m."; "(1/4,1/2,1/4)	(1/4,1/2,3/4)"; "4	e	.2/m."; "(1/4,0,1/4)	(1/4,0,3/4)";
  "4	d	2/m.."; "(0,1/2,0)	(1/2,1/2,0)"; "4	c	2/m.."; "(0,0,0)	(1/2,0,0)";
  "4	b	222"; "(0,1/2,1/4)	(0,1/2,3/4)"; "4	a	222"; "(0,0,1/4)	(0,0,3/4)";
  ""; " 67  6  5  1  4   B m e m"; "16	o	1"; "(x,y,z)	(-x,y,-z+1/2)	(-x,-y,z+1/2)	(x,-y,-z)";
  "(-x,-y,-z)	(x,-y,z+1/2)	(x,y,-z+1/2)	(-x,y,z)"; "8	n	.m."; "(x,y,1/4)	(-x,y,1/4)	(-x,-y,3/4)	(x,-y,3/4)"; "8	m	m..";
  "(0,y,z)	(0,y,-z+1/2)	(0,-y,z+1/2)	(0,-y,-z)"; "8	l	..2"; "(1/4,y,0)	(3/4,-y,1/2)	(3/4,-y,0)	(1/4,y,1/2)"; "8	k	.2.";
  "(1/4,1/2,z)	(3/4,1/2,-z+1/2)	(3/4,1/2,-z)	(1/4,1/2,z+1/2)"; "8	j	.2."; "(1/4,0,z)	(3/4,0,-z+1/2)	(3/4,0,-z)	(1/4,0,z+1/2)"; "8	i	2..";
  "(x,1/2,0)	(-x,1/2,1/2)	(-x,1/2,0)	(x,1/2,1/2)"; "8	h	2.."; "(x,0,0)	(-x,0,1/2)	(-x,0,0)	(x,0,1/2)"; "4	g	mm2";
  "(0,y,1/4)	(0,-y,3/4)"; "4	f	.2/m."; "(1/4,1/2,1/4)	(3/4,1/2,1/4)"; "4	e	.2/m.";
  "(1/4,0,1/4)	(3/4,0,1/4)"; "4	d	2/m.."; "(0,1/2,0)	(0,1/2,1/2)"; "4	c	2/m..";
  "(0,0,0)	(0,0,1/2)"; "4	b	222"; "(1/4,1/2,0)	(3/4,1/2,0)"; "4	a	222";
  "(1/4,0,0)	(3/4,0,0)"; ""; " 68  1  5  0  8   C c c e"; "16	i	1";
  "(x,y,z)	(-x+1/2,-y+1/2,z)	(-x,y,-z)	(x+1/2,-y+1/2,-z)"; "(-x,-y+1/2,-z+1/2)	(x+1/2,y,-z+1/2)	(x,-y+1/2,z+1/2)	(-x+1/2,y,z+1/2)"; "8	h	..2"; "(1/4,1/4,z)	(3/4,1/4,-z)	(3/4,1/4,-z+1/2)	(1/4,1/4,z+1/2)";
  "8	g	..2"; "(0,0,z)	(0,0,-z)	(0,1/2,-z+1/2)	(0,1/2,z+1/2)"; "8	f	.2."; "(0,y,0)	(1/2,-y+1/2,0)	(0,-y+1/2,1/2)	(1/2,y,1/2)";
  "8	e	2.."; "(x,0,0)	(-x+1/2,1/2,0)	(-x,1/2,1/2)	(x+1/2,0,1/2)"; "8	d	-1"; "(0,1/4,1/4)	(1/2,1/4,1/4)	(0,1/4,3/4)	(1/2,1/4,3/4)";
  "8	c	-1"; "(1/4,0,1/4)	(1/4,1/2,1/4)	(3/4,0,3/4)	(3/4,1/2,3/4)"; "4	b	222"; "(0,0,1/2)	(0,1/2,0)";
  "4	a	222"; "(0,0,0)	(0,1/2,1/2)"; ""; " 68  3  5  0  8   C c c e";
  "16	i	1"; "(x,y,z)	(-x+1/2,-y+1/2,z)	(x,-y,-z)	(-x+1/2,y+1/2,-z)"; "(-x+1/2,-y,-z+1/2)	(x,y+1/2,-z+1/2)	(-x+1/2,y,z+1/2)	(x,-y+1/2,z+1/2)"; "8	h	..2";
  "(1/4,1/4,z)	(1/4,3/4,-z)	(1/4,3/4,-z+1/2)	(1/4,1/4,z+1/2)"; "8	g	..2"; "(0,0,z)	(0,0,-z)	(1/2,0,-z+1/2)	(1/2,0,z+1/2)"; "8	f	.2.";
  "(x,0,0)	(-x+1/2,1/2,0)	(-x+1/2,0,1/2)	(x,1/2,1/2)"; "8	e	2.."; "(0,y,0)	(1/2,-y+1/2,0)	(1/2,-y,1/2)	(0,y+1/2,1/2)"; "8	d	-1";
  "(1/4,0,3/4)	(1/4,1/2,3/4)	(1/4,0,1/4)	(1/4,1/2,1/4)"; "8	c	-1"; "(0,1/4,3/4)	(1/2,1/4,3/4)	(0,3/4,1/4)	(1/2,3/4,1/4)"; "4	b	222";
  "(0,0,1/2)	(1/2,0,0)"; "4	a	222"; "(0,0,0)	(1/2,0,1/2)"; "";
  " 68  5  5  0  8   A e a a"; "16	i	1"; "(x,y,z)	(x,-y+1/2,-z+1/2)	(-x,-y,z)	(-x,y+1/2,-z+1/2)"; "(-x+1/2,-y,-z+1/2)	(-x+1/2,y+1/2,z)	(x+1/2,y,-z+1/2)	(x+1/2,-y+1/2,z)";
  "8	h	..2"; "(x,1/4,1/4)	(-x,3/4,1/4)	(-x+1/2,3/4,1/4)	(x+1/2,1/4,1/4)"; "8	g	..2"; "(x,0,0)	(-x,0,0)	(-x+1/2,0,1/2)	(x+1/2,0,1/2)";
  "8	f	.2."; "(0,0,z)	(0,1/2,-z+1/2)	(1/2,0,-z+1/2)	(1/2,1/2,z)"; "8	e	2.."; "(0,y,0)	(0,-y+1/2,1/2)	(1/2,-y,1/2)	(1/2,y+1/2,0)";
  "8	d	-1"; "(1/4,0,1/4)	(1/4,1/2,1/4)	(3/4,0,1/4)	(3/4,1/2,1/4)"; "8	c	-1"; "(1/4,1/4,0)	(1/4,1/4,1/2)	(3/4,3/4,0)	(3/4,3/4,1/2)";
  "4	b	222"; "(1/2,0,0)	(0,0,1/2)"; "4	a	222"; "(0,0,0)	(1/2,0,1/2)";
  ""; " 68  7  5  0  8   A e a a"; "16	i	1"; "(x,y,z)	(x,-y+1/2,-z+1/2)	(-x,y,-z)	(-x,-y+1/2,z+1/2)";
  "(-x+1/2,-y+1/2,-z)	(-x+1/2,y,z+1/2)	(x+1/2,-y+1/2,z)	(x+1/2,y,-z+1/2)"; "8	h	..2"; "(x,1/4,1/4)	(-x,1/4,3/4)	(-x+1/2,1/4,3/4)	(x+1/2,1/4,1/4)"; "8	g	..2";
  "(x,0,0)	(-x,0,0)	(-x+1/2,1/2,0)	(x+1/2,1/2,0)"; "8	f	.2."; "(0,y,0)	(0,-y+1/2,1/2)	(1/2,-y+1/2,0)	(1/2,y,1/2)"; "8	e	2..";
  "(0,0,z)	(0,1/2,-z+1/2)	(1/2,1/2,-z)	(1/2,0,z+1/2)"; "8	d	-1"; "(3/4,1/4,0)	(3/4,1/4,1/2)	(1/4,1/4,0)	(1/4,1/4,1/2)"; "8	c	-1";
  "(3/4,0,1/4)	(3/4,1/2,1/4)	(1/4,0,3/4)	(1/4,1/2,3/4)"; "4	b	222"; "(1/2,0,0)	(0,1/2,0)"; "4	a	222";
  "(0,0,0)	(1/2,1/2,0)"; ""; " 68  9  5  0  8   B b e b"; "16	i	1";
  "(x,y,z)	(-x+1/2,y,-z+1/2)	(x,-y,-z)	(-x+1/2,-y,z+1/2)"; "(-x+1/2,-y+1/2,-z)	(x,-y+1/2,z+1/2)	(-x+1/2,y+1/2,z)	(x,y+1/2,-z+1/2)"; "8	h	..2"; "(1/4,y,1/4)	(1/4,-y,3/4)	(1/4,-y+1/2,3/4)	(1/4,y+1/2,1/4)";
  "8	g	..2"; "(0,y,0)	(0,-y,0)	(1/2,-y+1/2,0)	(1/2,y+1/2,0)"; "8	f	.2."; "(x,0,0)	(-x+1/2,0,1/2)	(-x+1/2,1/2,0)	(x,1/2,1/2)";
  "8	e	2.."; "(0,0,z)	(1/2,0,-z+1/2)	(1/2,1/2,-z)	(0,1/2,z+1/2)"; "8	d	-1"; "(1/4,1/4,0)	(1/4,1/4,1/2)	(1/4,3/4,0)	(1/4,3/4,1/2)";
  "8	c	-1"; "(0,1/4,1/4)	(1/2,1/4,1/4)	(0,3/4,3/4)	(1/2,3/4,3/4)"; "4	b	222"; "(0,1/2,0)	(1/2,0,0)";
  "4	a	222"; "(0,0,0)	(1/2,1/2,0)"; ""; " 68 11  5  0  8   B b e b";
  "16	i	1"; "(x,y,z)	(-x+1/2,y,-z+1/2)	(-x,-y,z)	(x+1/2,-y,-z+1/2)"; "(-x,-y+1/2,-z+1/2)	(x+1/2,-y+1/2,z)	(x,y+1/2,-z+1/2)	(-x+1/2,y+1/2,z)"; "8	h	..2";
  "(1/4,y,1/4)	(3/4,-y,1/4)	(3/4,-y+1/2,1/4)	(1/4,y+1/2,1/4)"; "8	g	..2"; "(0,y,0)	(0,-y,0)	(0,-y+1/2,1/2)	(0,y+1/2,1/2)"; "8	f	.2.";
  "(0,0,z)	(1/2,0,-z+1/2)	(0,1/2,-z+1/2)	(1/2,1/2,z)"; "8	e	2.."; "(x,0,0)	(-x+1/2,0,1/2)	(-x,1/2,1/2)	(x+1/2,1/2,0)"; "8	d	-1";
  "(0,3/4,1/4)	(1/2,3/4,1/4)	(0,1/4,1/4)	(1/2,1/4,1/4)"; "8	c	-1"; "(1/4,3/4,0)	(1/4,3/4,1/2)	(3/4,1/4,0)	(3/4,1/4,1/2)"; "4	b	222";
  "(0,1/2,0)	(0,0,1/2)"; "4	a	222"; "(0,0,0)	(0,1/2,1/2)"; "";
  " 68  2  5  1  4   C c c e"; "16	i	1"; "(x,y,z)	(-x+1/2,-y,z)	(-x,y,-z+1/2)	(x+1/2,-y,-z+1/2)"; "(-x,-y,-z)	(x+1/2,y,-z)	(x,-y,z+1/2)	(-x+1/2,y,z+1/2)";
  "8	h	..2"; "(1/4,0,z)	(3/4,0,-z+1/2)	(3/4,0,-z)	(1/4,0,z+1/2)"; "8	g	..2"; "(0,1/4,z)	(0,1/4,-z+1/2)	(0,3/4,-z)	(0,3/4,z+1/2)";
  "8	f	.2."; "(0,y,1/4)	(1/2,-y,1/4)	(0,-y,3/4)	(1/2,y,3/4)"; "8	e	2.."; "(x,1/4,1/4)	(-x+1/2,3/4,1/4)	(-x,3/4,3/4)	(x+1/2,1/4,3/4)";
  "8	d	-1"; "(0,0,0)	(1/2,0,0)	(0,0,1/2)	(1/2,0,1/2)"; "8	c	-1"; "(1/4,3/4,0)	(1/4,1/4,0)	(3/4,3/4,1/2)	(3/4,1/4,1/2)";
  "4	b	222"; "(0,1/4,3/4)	(0,3/4,1/4)"; "4	a	222"; "(0,1/4,1/4)	(0,3/4,3/4)";
  ""; " 68  4  5  1  4   C c c e"; "16	i	1"; "(x,y,z)	(-x,-y+1/2,z)	(x,-y,-z+1/2)	(-x,y+1/2,-z+1/2)";
  "(-x,-y,-z)	(x,y+1/2,-z)	(-x,y,z+1/2)	(x,-y+1/2,z+1/2)"; "8	h	..2"; "(0,1/4,z)	(0,3/4,-z+1/2)	(0,3/4,-z)	(0,1/4,z+1/2)"; "8	g	..2";
  "(1/4,0,z)	(1/4,0,-z+1/2)	(3/4,0,-z)	(3/4,0,z+1/2)"; "8	f	.2."; "(x,0,3/4)	(-x,1/2,3/4)	(-x,0,1/4)	(x,1/2,1/4)"; "8	e	2..";
  "(1/4,y,3/4)	(3/4,-y+1/2,3/4)	(3/4,-y,1/4)	(1/4,y+1/2,1/4)"; "8	d	-1"; "(0,0,0)	(0,1/2,0)	(0,0,1/2)	(0,1/2,1/2)"; "8	c	-1";
  "(3/4,1/4,0)	(1/4,1/4,0)	(3/4,3/4,1/2)	(1/4,3/4,1/2)"; "4	b	222"; "(1/4,0,1/4)	(3/4,0,3/4)"; "4	a	222";
  "(1/4,0,3/4)	(3/4,0,1/4)"; ""; " 68  6  5  1  4   A e a a"; "16	i	1";
  "(x,y,z)	(x,-y+1/2,-z)	(-x+1/2,-y,z)	(-x+1/2,y+1/2,-z)"; "(-x,-y,-z)	(-x,y+1/2,z)	(x+1/2,y,-z)	(x+1/2,-y+1/2,z)"; "8	h	..2"; "(x,1/4,0)	(-x+1/2,3/4,0)	(-x,3/4,0)	(x+1/2,1/4,0)";
  "8	g	..2"; "(x,0,1/4)	(-x+1/2,0,1/4)	(-x,0,3/4)	(x+1/2,0,3/4)"; "8	f	.2."; "(1/4,0,z)	(1/4,1/2,-z)	(3/4,0,-z)	(3/4,1/2,z)";
  "8	e	2.."; "(1/4,y,1/4)	(1/4,-y+1/2,3/4)	(3/4,-y,3/4)	(3/4,y+1/2,1/4)"; "8	d	-1"; "(0,0,0)	(0,1/2,0)	(1/2,0,0)	(1/2,1/2,0)";
  "8	c	-1"; "(0,1/4,3/4)	(0,1/4,1/4)	(1/2,3/4,3/4)	(1/2,3/4,1/4)"; "4	b	222"; "(3/4,0,1/4)	(1/4,0,3/4)";
  "4	a	222"; "(1/4,0,1/4)	(3/4,0,3/4)"; ""; " 68  8  5  1  4   A e a a";
  "16	i	1"; "(x,y,z)	(x,-y,-z+1/2)	(-x+1/2,y,-z)	(-x+1/2,-y,z+1/2)"; "(-x,-y,-z)	(-x,y,z+1/2)	(x+1/2,-y,z)	(x+1/2,y,-z+1/2)"; "8	h	..2";
  "(x,0,1/4)	(-x+1/2,0,3/4)	(-x,0,3/4)	(x+1/2,0,1/4)"; "8	g	..2"; "(x,1/4,0)	(-x+1/2,1/4,0)	(-x,3/4,0)	(x+1/2,3/4,0)"; "8	f	.2.";
  "(3/4,y,0)	(3/4,-y,1/2)	(1/4,-y,0)	(1/4,y,1/2)"; "8	e	2.."; "(3/4,1/4,z)	(3/4,3/4,-z+1/2)	(1/4,3/4,-z)	(1/4,1/4,z+1/2)"; "8	d	-1";
  "(0,0,0)	(0,0,1/2)	(1/2,0,0)	(1/2,0,1/2)"; "8	c	-1"; "(0,3/4,1/4)	(0,1/4,1/4)	(1/2,3/4,3/4)	(1/2,1/4,3/4)"; "4	b	222";
  "(1/4,1/4,0)	(3/4,3/4,0)"; "4	a	222"; "(3/4,1/4,0)	(1/4,3/4,0)"; "";
  " 68 10  5  1  4   B b e b"; "16	i	1"; "(x,y,z)	(-x,y,-z+1/2)	(x,-y+1/2,-z)	(-x,-y+1/2,z+1/2)"; "(-x,-y,-z)	(x,-y,z+1/2)	(-x,y+1/2,z)	(x,y+1/2,-z+1/2)";
  "8	h	..2"; "(0,y,1/4)	(0,-y+1/2,3/4)	(0,-y,3/4)	(0,y+1/2,1/4)"; "8	g	..2"; "(1/4,y,0)	(1/4,-y+1/2,0)	(3/4,-y,0)	(3/4,y+1/2,0)";
  "8	f	.2."; "(x,1/4,0)	(-x,1/4,1/2)	(-x,3/4,0)	(x,3/4,1/2)"; "8	e	2.."; "(1/4,1/4,z)	(3/4,1/4,-z+1/2)	(3/4,3/4,-z)	(1/4,3/4,z+1/2)";
  "8	d	-1"; "(0,0,0)	(0,0,1/2)	(0,1/2,0)	(0,1/2,1/2)"; "8	c	-1"; "(3/4,0,1/4)	(1/4,0,1/4)	(3/4,1/2,3/4)	(1/4,1/2,3/4)";
  "4	b	222"; "(1/4,3/4,0)	(3/4,1/4,0)"; "4	a	222"; "(1/4,1/4,0)	(3/4,3/4,0)";
  ""; " 68 12  5  1  4   B b e b"; "16	i	1"; "(x,y,z)	(-x+1/2,y,-z)	(-x,-y+1/2,z)	(x+1/2,-y+1/2,-z)";
  "(-x,-y,-z)	(x+1/2,-y,z)	(x,y+1/2,-z)	(-x+1/2,y+1/2,z)"; "8	h	..2"; "(1/4,y,0)	(3/4,-y+1/2,0)	(3/4,-y,0)	(1/4,y+1/2,0)"; "8	g	..2";
  "(0,y,1/4)	(0,-y+1/2,1/4)	(0,-y,3/4)	(0,y+1/2,3/4)"; "8	f	.2."; "(0,3/4,z)	(1/2,3/4,-z)	(0,1/4,-z)	(1/2,1/4,z)"; "8	e	2..";
  "(x,3/4,1/4)	(-x+1/2,3/4,3/4)	(-x,1/4,3/4)	(x+1/2,1/4,1/4)"; "8	d	-1"; "(0,0,0)	(1/2,0,0)	(0,1/2,0)	(1/2,1/2,0)"; "8	c	-1";
  "(1/4,0,3/4)	(1/4,0,1/4)	(3/4,1/2,3/4)	(3/4,1/2,1/4)"; "4	b	222"; "(0,1/4,1/4)	(0,3/4,3/4)"; "4	a	222";
  "(0,3/4,1/4)	(0,1/4,3/4)"; ""; " 69  1  5  1  4   F m m m"; "32	p	1";
  "(x,y,z)	(-x,-y,z)	(-x,y,-z)	(x,-y,-z)"; "(-x,-y,-z)	(x,y,-z)	(x,-y,z)	(-x,y,z)"; "16	o	..m"; "(x,y,0)	(-x,-y,0)	(-x,y,0)	(x,-y,0)";
  "16	n	.m."; "(x,0,z)	(-x,0,z)	(-x,0,-z)	(x,0,-z)"; "16	m	m.."; "(0,y,z)	(0,-y,z)	(0,y,-z)	(0,-y,-z)";
  "16	l	2.."; "(x,1/4,1/4)	(-x,3/4,1/4)	(-x,3/4,3/4)	(x,1/4,3/4)"; "16	k	.2."; "(1/4,y,1/4)	(3/4,-y,1/4)	(3/4,-y,3/4)	(1/4,y,3/4)";
  "16	j	..2"; "(1/4,1/4,z)	(3/4,1/4,-z)	(3/4,3/4,-z)	(1/4,3/4,z)"; "8	i	mm2"; "(0,0,z)	(0,0,-z)";
  "8	h	m2m"; "(0,y,0)	(0,-y,0)"; "8	g	2mm"; "(x,0,0)	(-x,0,0)";
  "8	f	222"; "(1/4,1/4,1/4)	(3/4,3/4,3/4)"; "8	e	..2/m"; "(1/4,1/4,0)	(3/4,1/4,0)";
  "8	d	.2/m."; "(1/4,0,1/4)	(3/4,0,1/4)"; "8	c	2/m.."; "(0,1/4,1/4)	(0,3/4,1/4)";
  "4	b	mmm"; "(0,0,1/2)"; "4	a	mmm"; "(0,0,0)";
  ""; " 69  2  5  1  4   F m m m"; "32	p	1"; "(x,y,z)	(-x,-y,z)	(x,-y,-z)	(-x,y,-z)";
  "(-x,-y,-z)	(x,y,-z)	(-x,y,z)	(x,-y,z)"; "16	o	..m"; "(x,y,0)	(-x,-y,0)	(x,-y,0)	(-x,y,0)"; "16	n	.m.";
  "(0,y,z)	(0,-y,z)	(0,-y,-z)	(0,y,-z)"; "16	m	m.."; "(x,0,z)	(-x,0,z)	(x,0,-z)	(-x,0,-z)"; "16	l	2..";
  "(1/4,y,3/4)	(3/4,-y,3/4)	(3/4,-y,1/4)	(1/4,y,1/4)"; "16	k	.2."; "(x,1/4,3/4)	(-x,3/4,3/4)	(-x,3/4,1/4)	(x,1/4,1/4)"; "16	j	..2";
  "(1/4,1/4,z)	(1/4,3/4,-z)	(3/4,3/4,-z)	(3/4,1/4,z)"; "8	i	mm2"; "(0,0,z)	(0,0,-z)"; "8	h	m2m";
  "(x,0,0)	(-x,0,0)"; "8	g	2mm"; "(0,y,0)	(0,-y,0)"; "8	f	222";
  "(1/4,1/4,3/4)	(3/4,3/4,1/4)"; "8	e	..2/m"; "(1/4,1/4,0)	(1/4,3/4,0)"; "8	d	.2/m.";
  "(0,1/4,3/4)	(0,3/4,3/4)"; "8	c	2/m.."; "(1/4,0,3/4)	(3/4,0,3/4)"; "4	b	mmm";
  "(0,0,1/2)"; "4	a	mmm"; "(0,0,0)"; "";
  " 69  3  5  1  4   F m m m"; "32	p	1"; "(x,y,z)	(x,-y,-z)	(-x,-y,z)	(-x,y,-z)"; "(-x,-y,-z)	(-x,y,z)	(x,y,-z)	(x,-y,z)";
  "16	o	..m"; "(0,y,z)	(0,-y,-z)	(0,-y,z)	(0,y,-z)"; "16	n	.m."; "(x,y,0)	(x,-y,0)	(-x,-y,0)	(-x,y,0)";
  "16	m	m.."; "(x,0,z)	(x,0,-z)	(-x,0,z)	(-x,0,-z)"; "16	l	2.."; "(1/4,y,1/4)	(1/4,-y,3/4)	(3/4,-y,3/4)	(3/4,y,1/4)";
  "16	k	.2."; "(1/4,1/4,z)	(1/4,3/4,-z)	(3/4,3/4,-z)	(3/4,1/4,z)"; "16	j	..2"; "(x,1/4,1/4)	(-x,3/4,1/4)	(-x,3/4,3/4)	(x,1/4,3/4)";
  "8	i	mm2"; "(x,0,0)	(-x,0,0)"; "8	h	m2m"; "(0,0,z)	(0,0,-z)";
  "8	g	2mm"; "(0,y,0)	(0,-y,0)"; "8	f	222"; "(1/4,1/4,1/4)	(3/4,3/4,3/4)";
  "8	e	..2/m"; "(0,1/4,1/4)	(0,3/4,1/4)"; "8	d	.2/m."; "(1/4,1/4,0)	(1/4,3/4,0)";
  "8	c	2/m.."; "(1/4,0,1/4)	(1/4,0,3/4)"; "4	b	mmm"; "(1/2,0,0)";
  "4	a	mmm"; "(0,0,0)"; ""; " 69  4  5  1  4   F m m m";
  "32	p	1"; "(x,y,z)	(x,-y,-z)	(-x,y,-z)	(-x,-y,z)"; "(-x,-y,-z)	(-x,y,z)	(x,-y,z)	(x,y,-z)"; "16	o	..m";
  "(0,y,z)	(0,-y,-z)	(0,y,-z)	(0,-y,z)"; "16	n	.m."; "(x,0,z)	(x,0,-z)	(-x,0,-z)	(-x,0,z)"; "16	m	m..";
  "(x,y,0)	(x,-y,0)	(-x,y,0)	(-x,-y,0)"; "16	l	2.."; "(3/4,1/4,z)	(3/4,3/4,-z)	(1/4,3/4,-z)	(1/4,1/4,z)"; "16	k	.2.";
  "(3/4,y,1/4)	(3/4,-y,3/4)	(1/4,-y,3/4)	(1/4,y,1/4)"; "16	j	..2"; "(x,1/4,1/4)	(-x,1/4,3/4)	(-x,3/4,3/4)	(x,3/4,1/4)"; "8	i	mm2";
  "(x,0,0)	(-x,0,0)"; "8	h	m2m"; "(0,y,0)	(0,-y,0)"; "8	g	2mm";
  "(0,0,z)	(0,0,-z)"; "8	f	222"; "(3/4,1/4,1/4)	(1/4,3/4,3/4)"; "8	e	..2/m";
  "(0,1/4,1/4)	(0,1/4,3/4)"; "8	d	.2/m."; "(3/4,0,1/4)	(3/4,0,3/4)"; "8	c	2/m..";
  "(3/4,1/4,0)	(3/4,3/4,0)"; "4	b	mmm"; "(1/2,0,0)"; "4	a	mmm";
  "(0,0,0)"; ""; " 69  5  5  1  4   F m m m"; "32	p	1";
  "(x,y,z)	(-x,y,-z)	(x,-y,-z)	(-x,-y,z)"; "(-x,-y,-z)	(x,-y,z)	(-x,y,z)	(x,y,-z)"; "16	o	..m"; "(x,0,z)	(-x,0,-z)	(x,0,-z)	(-x,0,z)";
  "16	n	.m."; "(0,y,z)	(0,y,-z)	(0,-y,-z)	(0,-y,z)"; "16	m	m.."; "(x,y,0)	(-x,y,0)	(x,-y,0)	(-x,-y,0)";
  "16	l	2.."; "(1/4,1/4,z)	(3/4,1/4,-z)	(3/4,3/4,-z)	(1/4,3/4,z)"; "16	k	.2."; "(x,1/4,1/4)	(-x,1/4,3/4)	(-x,3/4,3/4)	(x,3/4,1/4)";
  "16	j	..2"; "(1/4,y,1/4)	(1/4,-y,3/4)	(3/4,-y,3/4)	(3/4,y,1/4)"; "8	i	mm2"; "(0,y,0)	(0,-y,0)";
  "8	h	m2m"; "(x,0,0)	(-x,0,0)"; "8	g	2mm"; "(0,0,z)	(0,0,-z)";
  "8	f	222"; "(1/4,1/4,1/4)	(3/4,3/4,3/4)"; "8	e	..2/m"; "(1/4,0,1/4)	(1/4,0,3/4)";
  "8	d	.2/m."; "(0,1/4,1/4)	(0,1/4,3/4)"; "8	c	2/m.."; "(1/4,1/4,0)	(3/4,1/4,0)";
  "4	b	mmm"; "(0,1/2,0)"; "4	a	mmm"; "(0,0,0)";
  ""; " 69  6  5  1  4   F m m m"; "32	p	1"; "(x,y,z)	(-x,y,-z)	(-x,-y,z)	(x,-y,-z)";
  "(-x,-y,-z)	(x,-y,z)	(x,y,-z)	(-x,y,z)"; "16	o	..m"; "(x,0,z)	(-x,0,-z)	(-x,0,z)	(x,0,-z)"; "16	n	.m.";
  "(x,y,0)	(-x,y,0)	(-x,-y,0)	(x,-y,0)"; "16	m	m.."; "(0,y,z)	(0,y,-z)	(0,-y,z)	(0,-y,-z)"; "16	l	2..";
  "(x,3/4,1/4)	(-x,3/4,3/4)	(-x,1/4,3/4)	(x,1/4,1/4)"; "16	k	.2."; "(1/4,3/4,z)	(3/4,3/4,-z)	(3/4,1/4,-z)	(1/4,1/4,z)"; "16	j	..2";
  "(1/4,y,1/4)	(3/4,-y,1/4)	(3/4,-y,3/4)	(1/4,y,3/4)"; "8	i	mm2"; "(0,y,0)	(0,-y,0)"; "8	h	m2m";
  "(0,0,z)	(0,0,-z)"; "8	g	2mm"; "(x,0,0)	(-x,0,0)"; "8	f	222";
  "(1/4,3/4,1/4)	(3/4,1/4,3/4)"; "8	e	..2/m"; "(1/4,0,1/4)	(3/4,0,1/4)"; "8	d	.2/m.";
  "(1/4,3/4,0)	(3/4,3/4,0)"; "8	c	2/m.."; "(0,3/4,1/4)	(0,3/4,3/4)"; "4	b	mmm";
  "(0,1/2,0)"; "4	a	mmm"; "(0,0,0)"; "";
  " 70  1  5  0  8   F d d d"; "32	h	1"; "(x,y,z)	(-x,-y,z)	(-x,y,-z)	(x,-y,-z)"; "(-x+1/4,-y+1/4,-z+1/4)	(x+1/4,y+1/4,-z+1/4)	(x+1/4,-y+1/4,z+1/4)	(-x+1/4,y+1/4,z+1/4)";
  "16	g	..2"; "(0,0,z)	(0,0,-z)	(1/4,1/4,-z+1/4)	(1/4,1/4,z+1/4)"; "16	f	.2."; "(0,y,0)	(0,-y,0)	(1/4,-y+1/4,1/4)	(1/4,y+1/4,1/4)";
  "16	e	2.."; "(x,0,0)	(-x,0,0)	(-x+1/4,1/4,1/4)	(x+1/4,1/4,1/4)"; "16	d	-1"; "(5/8,5/8,5/8)	(3/8,3/8,5/8)	(3/8,5/8,3/8)	(5/8,3/8,3/8)";
  "16	c	-1"; "(1/8,1/8,1/8)	(7/8,7/8,1/8)	(7/8,1/8,7/8)	(1/8,7/8,7/8)"; "8	b	222"; "(0,0,1/2)	(1/4,1/4,3/4)";
  "8	a	222"; "(0,0,0)	(1/4,1/4,1/4)"; ""; " 70  3  5  0  8   F d d d";
  "32	h	1"; "(x,y,z)	(-x,-y,z)	(x,-y,-z)	(-x,y,-z)"; "(-x+1/4,-y+1/4,-z+3/4)	(x+1/4,y+1/4,-z+3/4)	(-x+1/4,y+1/4,z+3/4)	(x+1/4,-y+1/4,z+3/4)"; "16	g	..2";
  "(0,0,z)	(0,0,-z)	(1/4,1/4,-z+3/4)	(1/4,1/4,z+3/4)"; "16	f	.2."; "(x,0,0)	(-x,0,0)	(-x+1/4,1/4,3/4)	(x+1/4,1/4,3/4)"; "16	e	2..";
  "(0,y,0)	(0,-y,0)	(1/4,-y+1/4,3/4)	(1/4,y+1/4,3/4)"; "16	d	-1"; "(5/8,5/8,3/8)	(3/8,3/8,3/8)	(5/8,3/8,5/8)	(3/8,5/8,5/8)"; "16	c	-1";
  "(1/8,1/8,7/8)	(7/8,7/8,7/8)	(1/8,7/8,1/8)	(7/8,1/8,1/8)"; "8	b	222"; "(0,0,1/2)	(1/4,1/4,1/4)"; "8	a	222";
  "(0,0,0)	(1/4,1/4,3/4)"; ""; " 70  5  5  0  8   F d d d"; "32	h	1";
  "(x,y,z)	(x,-y,-z)	(-x,-y,z)	(-x,y,-z)"; "(-x+1/4,-y+1/4,-z+1/4)	(-x+1/4,y+1/4,z+1/4)	(x+1/4,y+1/4,-z+1/4)	(x+1/4,-y+1/4,z+1/4)"; "16	g	..2"; "(x,0,0)	(-x,0,0)	(-x+1/4,1/4,1/4)	(x+1/4,1/4,1/4)";
  "16	f	.2."; "(0,0,z)	(0,0,-z)	(1/4,1/4,-z+1/4)	(1/4,1/4,z+1/4)"; "16	e	2.."; "(0,y,0)	(0,-y,0)	(1/4,-y+1/4,1/4)	(1/4,y+1/4,1/4)";
  "16	d	-1"; "(5/8,5/8,5/8)	(5/8,3/8,3/8)	(3/8,3/8,5/8)	(3/8,5/8,3/8)"; "16	c	-1"; "(1/8,1/8,1/8)	(1/8,7/8,7/8)	(7/8,7/8,1/8)	(7/8,1/8,7/8)";
  "8	b	222"; "(1/2,0,0)	(3/4,1/4,1/4)"; "8	a	222"; "(0,0,0)	(1/4,1/4,1/4)";
  ""; " 70  7  5  0  8   F d d d"; "32	h	1"; "(x,y,z)	(x,-y,-z)	(-x,y,-z)	(-x,-y,z)";
  "(-x+3/4,-y+1/4,-z+1/4)	(-x+3/4,y+1/4,z+1/4)	(x+3/4,-y+1/4,z+1/4)	(x+3/4,y+1/4,-z+1/4)"; "16	g	..2"; "(x,0,0)	(-x,0,0)	(-x+3/4,1/4,1/4)	(x+3/4,1/4,1/4)"; "16	f	.2.";
  "(0,y,0)	(0,-y,0)	(3/4,-y+1/4,1/4)	(3/4,y+1/4,1/4)"; "16	e	2.."; "(0,0,z)	(0,0,-z)	(3/4,1/4,-z+1/4)	(3/4,1/4,z+1/4)"; "16	d	-1";
  "(3/8,5/8,5/8)	(3/8,3/8,3/8)	(5/8,5/8,3/8)	(5/8,3/8,5/8)"; "16	c	-1"; "(7/8,1/8,1/8)	(7/8,7/8,7/8)	(1/8,1/8,7/8)	(1/8,7/8,1/8)"; "8	b	222";
  "(1/2,0,0)	(1/4,1/4,1/4)"; "8	a	222"; "(0,0,0)	(3/4,1/4,1/4)"; "";
  " 70  9  5  0  8   F d d d"; "32	h	1"; "(x,y,z)	(-x,y,-z)	(x,-y,-z)	(-x,-y,z)"; "(-x+1/4,-y+1/4,-z+1/4)	(x+1/4,-y+1/4,z+1/4)	(-x+1/4,y+1/4,z+1/4)	(x+1/4,y+1/4,-z+1/4)";
  "16	g	..2"; "(0,y,0)	(0,-y,0)	(1/4,-y+1/4,1/4)	(1/4,y+1/4,1/4)"; "16	f	.2."; "(x,0,0)	(-x,0,0)	(-x+1/4,1/4,1/4)	(x+1/4,1/4,1/4)";
  "16	e	2.."; "(0,0,z)	(0,0,-z)	(1/4,1/4,-z+1/4)	(1/4,1/4,z+1/4)"; "16	d	-1"; "(5/8,5/8,5/8)	(3/8,5/8,3/8)	(5/8,3/8,3/8)	(3/8,3/8,5/8)";
  "16	c	-1"; "(1/8,1/8,1/8)	(7/8,1/8,7/8)	(1/8,7/8,7/8)	(7/8,7/8,1/8)"; "8	b	222"; "(0,1/2,0)	(1/4,3/4,1/4)";
  "8	a	222"; "(0,0,0)	(1/4,1/4,1/4)"; ""; " 70 11  5  0  8   F d d d";
  "32	h	1"; "(x,y,z)	(-x,y,-z)	(-x,-y,z)	(x,-y,-z)"; "(-x+1/4,-y+3/4,-z+1/4)	(x+1/4,-y+3/4,z+1/4)	(x+1/4,y+3/4,-z+1/4)	(-x+1/4,y+3/4,z+1/4)"; "16	g	..2";
  "(0,y,0)	(0,-y,0)	(1/4,-y+3/4,1/4)	(1/4,y+3/4,1/4)"; "16	f	.2."; "(0,0,z)	(0,0,-z)	(1/4,3/4,-z+1/4)	(1/4,3/4,z+1/4)"; "16	e	2..";
  "(x,0,0)	(-x,0,0)	(-x+1/4,3/4,1/4)	(x+1/4,3/4,1/4)"; "16	d	-1"; "(5/8,3/8,5/8)	(3/8,3/8,3/8)	(3/8,5/8,5/8)	(5/8,5/8,3/8)"; "16	c	-1";
  "(1/8,7/8,1/8)	(7/8,7/8,7/8)	(7/8,1/8,1/8)	(1/8,1/8,7/8)"; "8	b	222"; "(0,1/2,0)	(1/4,1/4,1/4)"; "8	a	222";
  "(0,0,0)	(1/4,3/4,1/4)"; ""; " 70  2  5  1  4   F d d d"; "32	h	1";
  "(x,y,z)	(-x+3/4,-y+3/4,z)	(-x+3/4,y,-z+3/4)	(x,-y+3/4,-z+3/4)"; "(-x,-y,-z)	(x+1/4,y+1/4,-z)	(x+1/4,-y,z+1/4)	(-x,y+1/4,z+1/4)"; "16	g	..2"; "(1/8,1/8,z)	(5/8,1/8,-z+3/4)	(7/8,7/8,-z)	(3/8,7/8,z+1/4)";
  "16	f	.2."; "(1/8,y,1/8)	(5/8,-y+3/4,1/8)	(7/8,-y,7/8)	(3/8,y+1/4,7/8)"; "16	e	2.."; "(x,1/8,1/8)	(-x+3/4,5/8,1/8)	(-x,7/8,7/8)	(x+1/4,3/8,7/8)";
  "16	d	-1"; "(1/2,1/2,1/2)	(1/4,1/4,1/2)	(1/4,1/2,1/4)	(1/2,1/4,1/4)"; "16	c	-1"; "(0,0,0)	(3/4,3/4,0)	(3/4,0,3/4)	(0,3/4,3/4)";
  "8	b	222"; "(1/8,1/8,5/8)	(7/8,7/8,3/8)"; "8	a	222"; "(1/8,1/8,1/8)	(7/8,7/8,7/8)";
  ""; " 70  4  5  1  4   F d d d"; "32	h	1"; "(x,y,z)	(-x+3/4,-y+3/4,z)	(x,-y+3/4,-z+1/4)	(-x+3/4,y,-z+1/4)";
  "(-x,-y,-z)	(x+1/4,y+1/4,-z)	(-x,y+1/4,z+3/4)	(x+1/4,-y,z+3/4)"; "16	g	..2"; "(1/8,1/8,z)	(1/8,5/8,-z+1/4)	(7/8,7/8,-z)	(7/8,3/8,z+3/4)"; "16	f	.2.";
  "(x,1/8,7/8)	(-x+3/4,5/8,7/8)	(-x,7/8,1/8)	(x+1/4,3/8,1/8)"; "16	e	2.."; "(1/8,y,7/8)	(5/8,-y+3/4,7/8)	(7/8,-y,1/8)	(3/8,y+1/4,1/8)"; "16	d	-1";
  "(1/2,1/2,1/2)	(1/4,1/4,1/2)	(1/2,1/4,3/4)	(1/4,1/2,3/4)"; "16	c	-1"; "(0,0,0)	(3/4,3/4,0)	(0,3/4,1/4)	(3/4,0,1/4)"; "8	b	222";
  "(1/8,1/8,3/8)	(7/8,7/8,5/8)"; "8	a	222"; "(1/8,1/8,7/8)	(7/8,7/8,1/8)"; "";
  " 70  6  5  1  4   F d d d"; "32	h	1"; "(x,y,z)	(x,-y+3/4,-z+3/4)	(-x+3/4,-y+3/4,z)	(-x+3/4,y,-z+3/4)"; "(-x,-y,-z)	(-x,y+1/4,z+1/4)	(x+1/4,y+1/4,-z)	(x+1/4,-y,z+1/4)";
  "16	g	..2"; "(x,1/8,1/8)	(-x+3/4,5/8,1/8)	(-x,7/8,7/8)	(x+1/4,3/8,7/8)"; "16	f	.2."; "(1/8,1/8,z)	(1/8,5/8,-z+3/4)	(7/8,7/8,-z)	(7/8,3/8,z+1/4)";
  "16	e	2.."; "(1/8,y,1/8)	(1/8,-y+3/4,5/8)	(7/8,-y,7/8)	(7/8,y+1/4,3/8)"; "16	d	-1"; "(1/2,1/2,1/2)	(1/2,1/4,1/4)	(1/4,1/4,1/2)	(1/4,1/2,1/4)";
  "16	c	-1"; "(0,0,0)	(0,3/4,3/4)	(3/4,3/4,0)	(3/4,0,3/4)"; "8	b	222"; "(5/8,1/8,1/8)	(3/8,7/8,7/8)";
  "8	a	222"; "(1/8,1/8,1/8)	(7/8,7/8,7/8)"; ""; " 70  8  5  1  4   F d d d";
  "32	h	1"; "(x,y,z)	(x,-y+3/4,-z+3/4)	(-x+1/4,y,-z+3/4)	(-x+1/4,-y+3/4,z)"; "(-x,-y,-z)	(-x,y+1/4,z+1/4)	(x+3/4,-y,z+1/4)	(x+3/4,y+1/4,-z)"; "16	g	..2";
  "(x,1/8,1/8)	(-x+1/4,1/8,5/8)	(-x,7/8,7/8)	(x+3/4,7/8,3/8)"; "16	f	.2."; "(7/8,y,1/8)	(7/8,-y+3/4,5/8)	(1/8,-y,7/8)	(1/8,y+1/4,3/8)"; "16	e	2..";
  "(7/8,1/8,z)	(7/8,5/8,-z+3/4)	(1/8,7/8,-z)	(1/8,3/8,z+1/4)"; "16	d	-1"; "(1/2,1/2,1/2)	(1/2,1/4,1/4)	(3/4,1/2,1/4)	(3/4,1/4,1/2)"; "16	c	-1";
  "(0,0,0)	(0,3/4,3/4)	(1/4,0,3/4)	(1/4,3/4,0)"; "8	b	222"; "(3/8,1/8,1/8)	(5/8,7/8,7/8)"; "8	a	222";
  "(7/8,1/8,1/8)	(1/8,7/8,7/8)"; ""; " 70 10  5  1  4   F d d d"; "32	h	1";
  "(x,y,z)	(-x+3/4,y,-z+3/4)	(x,-y+3/4,-z+3/4)	(-x+3/4,-y+3/4,z)"; "(-x,-y,-z)	(x+1/4,-y,z+1/4)	(-x,y+1/4,z+1/4)	(x+1/4,y+1/4,-z)"; "16	g	..2"; "(1/8,y,1/8)	(1/8,-y+3/4,5/8)	(7/8,-y,7/8)	(7/8,y+1/4,3/8)";
  "16	f	.2."; "(x,1/8,1/8)	(-x+3/4,1/8,5/8)	(-x,7/8,7/8)	(x+1/4,7/8,3/8)"; "16	e	2.."; "(1/8,1/8,z)	(5/8,1/8,-z+3/4)	(7/8,7/8,-z)	(3/8,7/8,z+1/4)";
  "16	d	-1"; "(1/2,1/2,1/2)	(1/4,1/2,1/4)	(1/2,1/4,1/4)	(1/4,1/4,1/2)"; "16	c	-1"; "(0,0,0)	(3/4,0,3/4)	(0,3/4,3/4)	(3/4,3/4,0)";
  "8	b	222"; "(1/8,5/8,1/8)	(7/8,3/8,7/8)"; "8	a	222"; "(1/8,1/8,1/8)	(7/8,7/8,7/8)";
  ""; " 70 12  5  1  4   F d d d"; "32	h	1"; "(x,y,z)	(-x+3/4,y,-z+3/4)	(-x+3/4,-y+1/4,z)	(x,-y+1/4,-z+3/4)";
  "(-x,-y,-z)	(x+1/4,-y,z+1/4)	(x+1/4,y+3/4,-z)	(-x,y+3/4,z+1/4)"; "16	g	..2"; "(1/8,y,1/8)	(5/8,-y+1/4,1/8)	(7/8,-y,7/8)	(3/8,y+3/4,7/8)"; "16	f	.2.";
  "(1/8,7/8,z)	(5/8,7/8,-z+3/4)	(7/8,1/8,-z)	(3/8,1/8,z+1/4)"; "16	e	2.."; "(x,7/8,1/8)	(-x+3/4,7/8,5/8)	(-x,1/8,7/8)	(x+1/4,1/8,3/8)"; "16	d	-1";
  "(1/2,1/2,1/2)	(1/4,1/2,1/4)	(1/4,3/4,1/2)	(1/2,3/4,1/4)"; "16	c	-1"; "(0,0,0)	(3/4,0,3/4)	(3/4,1/4,0)	(0,1/4,3/4)"; "8	b	222";
  "(1/8,3/8,1/8)	(7/8,5/8,7/8)"; "8	a	222"; "(1/8,7/8,1/8)	(7/8,1/8,7/8)"; "";
  " 71  1  5  1  4   I m m m"; "16	o	1"; "(x,y,z)	(-x,-y,z)	(-x,y,-z)	(x,-y,-z)"; "(-x,-y,-z)	(x,y,-z)	(x,-y,z)	(-x,y,z)";
  "8	n	..m"; "(x,y,0)	(-x,-y,0)	(-x,y,0)	(x,-y,0)"; "8	m	.m."; "(x,0,z)	(-x,0,z)	(-x,0,-z)	(x,0,-z)";
  "8	l	m.."; "(0,y,z)	(0,-y,z)	(0,y,-z)	(0,-y,-z)"; "8	k	-1"; "(1/4,1/4,1/4)	(3/4,3/4,1/4)	(3/4,1/4,3/4)	(1/4,3/4,3/4)";
  "4	j	mm2"; "(1/2,0,z)	(1/2,0,-z)"; "4	i	mm2"; "(0,0,z)	(0,0,-z)";
  "4	h	m2m"; "(0,y,1/2)	(0,-y,1/2)"; "4	g	m2m"; "(0,y,0)	(0,-y,0)";
  "4	f	2mm"; "(x,1/2,0)	(-x,1/2,0)"; "4	e	2mm"; "(x,0,0)	(-x,0,0)";
  "2	d	mmm"; "(1/2,0,1/2)"; "2	c	mmm"; "(1/2,1/2,0)";
  "2	b	mmm"; "(0,1/2,1/2)"; "2	a	mmm"; "(0,0,0)";
  ""; " 71  2  5  1  4   I m m m"; "16	o	1"; "(x,y,z)	(-x,-y,z)	(x,-y,-z)	(-x,y,-z)";
  "(-x,-y,-z)	(x,y,-z)	(-x,y,z)	(x,-y,z)"; "8	n	..m"; "(x,y,0)	(-x,-y,0)	(x,-y,0)	(-x,y,0)"; "8	m	.m.";
  "(0,y,z)	(0,-y,z)	(0,-y,-z)	(0,y,-z)"; "8	l	m.."; "(x,0,z)	(-x,0,z)	(x,0,-z)	(-x,0,-z)"; "8	k	-1";
  "(1/4,1/4,3/4)	(3/4,3/4,3/4)	(1/4,3/4,1/4)	(3/4,1/4,1/4)"; "4	j	mm2"; "(0,1/2,z)	(0,1/2,-z)"; "4	i	mm2";
  "(0,0,z)	(0,0,-z)"; "4	h	m2m"; "(x,0,1/2)	(-x,0,1/2)"; "4	g	m2m";
  "(x,0,0)	(-x,0,0)"; "4	f	2mm"; "(1/2,y,0)	(1/2,-y,0)"; "4	e	2mm";
  "(0,y,0)	(0,-y,0)"; "2	d	mmm"; "(0,1/2,1/2)"; "2	c	mmm";
  "(1/2,1/2,0)"; "2	b	mmm"; "(1/2,0,1/2)"; "2	a	mmm";
  "(0,0,0)"; ""; " 71  3  5  1  4   I m m m"; "16	o	1";
  "(x,y,z)	(x,-y,-z)	(-x,-y,z)	(-x,y,-z)"; "(-x,-y,-z)	(-x,y,z)	(x,y,-z)	(x,-y,z)"; "8	n	..m"; "(0,y,z)	(0,-y,-z)	(0,-y,z)	(0,y,-z)";
  "8	m	.m."; "(x,y,0)	(x,-y,0)	(-x,-y,0)	(-x,y,0)"; "8	l	m.."; "(x,0,z)	(x,0,-z)	(-x,0,z)	(-x,0,-z)";
  "8	k	-1"; "(1/4,1/4,1/4)	(1/4,3/4,3/4)	(3/4,3/4,1/4)	(3/4,1/4,3/4)"; "4	j	mm2"; "(x,1/2,0)	(-x,1/2,0)";
  "4	i	mm2"; "(x,0,0)	(-x,0,0)"; "4	h	m2m"; "(1/2,0,z)	(1/2,0,-z)";
  "4	g	m2m"; "(0,0,z)	(0,0,-z)"; "4	f	2mm"; "(0,y,1/2)	(0,-y,1/2)";
  "4	e	2mm"; "(0,y,0)	(0,-y,0)"; "2	d	mmm"; "(1/2,1/2,0)";
  "2	c	mmm"; "(0,1/2,1/2)"; "2	b	mmm"; "(1/2,0,1/2)";
  "2	a	mmm"; "(0,0,0)"; ""; " 71  4  5  1  4   I m m m";
  "16	o	1"; "(x,y,z)	(x,-y,-z)	(-x,y,-z)	(-x,-y,z)"; "(-x,-y,-z)	(-x,y,z)	(x,-y,z)	(x,y,-z)"; "8	n	..m";
  "(0,y,z)	(0,-y,-z)	(0,y,-z)	(0,-y,z)"; "8	m	.m."; "(x,0,z)	(x,0,-z)	(-x,0,-z)	(-x,0,z)"; "8	l	m..";
  "(x,y,0)	(x,-y,0)	(-x,y,0)	(-x,-y,0)"; "8	k	-1"; "(3/4,1/4,1/4)	(3/4,3/4,3/4)	(1/4,1/4,3/4)	(1/4,3/4,1/4)"; "4	j	mm2";
  "(x,0,1/2)	(-x,0,1/2)"; "4	i	mm2"; "(x,0,0)	(-x,0,0)"; "4	h	m2m";
  "(1/2,y,0)	(1/2,-y,0)"; "4	g	m2m"; "(0,y,0)	(0,-y,0)"; "4	f	2mm";
  "(0,1/2,z)	(0,1/2,-z)"; "4	e	2mm"; "(0,0,z)	(0,0,-z)"; "2	d	mmm";
  "(1/2,0,1/2)"; "2	c	mmm"; "(0,1/2,1/2)"; "2	b	mmm";
  "(1/2,1/2,0)"; "2	a	mmm"; "(0,0,0)"; "";
  " 71  5  5  1  4   I m m m"; "16	o	1"; "(x,y,z)	(-x,y,-z)	(x,-y,-z)	(-x,-y,z)"; "(-x,-y,-z)	(x,-y,z)	(-x,y,z)	(x,y,-z)";
  "8	n	..m"; "(x,0,z)	(-x,0,-z)	(x,0,-z)	(-x,0,z)"; "8	m	.m."; "(0,y,z)	(0,y,-z)	(0,-y,-z)	(0,-y,z)";
  "8	l	m.."; "(x,y,0)	(-x,y,0)	(x,-y,0)	(-x,-y,0)"; "8	k	-1"; "(1/4,1/4,1/4)	(3/4,1/4,3/4)	(1/4,3/4,3/4)	(3/4,3/4,1/4)";
  "4	j	mm2"; "(0,y,1/2)	(0,-y,1/2)"; "4	i	mm2"; "(0,y,0)	(0,-y,0)";
  "4	h	m2m"; "(x,1/2,0)	(-x,1/2,0)"; "4	g	m2m"; "(x,0,0)	(-x,0,0)";
  "4	f	2mm"; "(1/2,0,z)	(1/2,0,-z)"; "4	e	2mm"; "(0,0,z)	(0,0,-z)";
  "2	d	mmm"; "(0,1/2,1/2)"; "2	c	mmm"; "(1/2,0,1/2)";
  "2	b	mmm"; "(1/2,1/2,0)"; "2	a	mmm"; "(0,0,0)";
  ""; " 71  6  5  1  4   I m m m"; "16	o	1"; "(x,y,z)	(-x,y,-z)	(-x,-y,z)	(x,-y,-z)";
  "(-x,-y,-z)	(x,-y,z)	(x,y,-z)	(-x,y,z)"; "8	n	..m"; "(x,0,z)	(-x,0,-z)	(-x,0,z)	(x,0,-z)"; "8	m	.m.";
  "(x,y,0)	(-x,y,0)	(-x,-y,0)	(x,-y,0)"; "8	l	m.."; "(0,y,z)	(0,y,-z)	(0,-y,z)	(0,-y,-z)"; "8	k	-1";
  "(1/4,3/4,1/4)	(3/4,3/4,3/4)	(3/4,1/4,1/4)	(1/4,1/4,3/4)"; "4	j	mm2"; "(1/2,y,0)	(1/2,-y,0)"; "4	i	mm2";
  "(0,y,0)	(0,-y,0)"; "4	h	m2m"; "(0,1/2,z)	(0,1/2,-z)"; "4	g	m2m";
  "(0,0,z)	(0,0,-z)"; "4	f	2mm"; "(x,0,1/2)	(-x,0,1/2)"; "4	e	2mm";
  "(x,0,0)	(-x,0,0)"; "2	d	mmm"; "(1/2,1/2,0)"; "2	c	mmm";
  "(1/2,0,1/2)"; "2	b	mmm"; "(0,1/2,1/2)"; "2	a	mmm";
  "(0,0,0)"; ""; " 72  1  5  1  4   I b a m"; "16	k	1";
  "(x,y,z)	(-x,-y,z)	(-x+1/2,y+1/2,-z)	(x+1/2,-y+1/2,-z)"; "(-x,-y,-z)	(x,y,-z)	(x+1/2,-y+1/2,z)	(-x+1/2,y+1/2,z)"; "8	j	..m"; "(x,y,0)	(-x,-y,0)	(-x+1/2,y+1/2,0)	(x+1/2,-y+1/2,0)";
  "8	i	..2"; "(0,1/2,z)	(1/2,0,-z)	(0,1/2,-z)	(1/2,0,z)"; "8	h	..2"; "(0,0,z)	(1/2,1/2,-z)	(0,0,-z)	(1/2,1/2,z)";
  "8	g	.2."; "(0,y,1/4)	(0,-y,1/4)	(0,-y,3/4)	(0,y,3/4)"; "8	f	2.."; "(x,0,1/4)	(-x,0,1/4)	(-x,0,3/4)	(x,0,3/4)";
  "8	e	-1"; "(1/4,1/4,1/4)	(3/4,3/4,1/4)	(1/4,3/4,3/4)	(3/4,1/4,3/4)"; "4	d	..2/m"; "(1/2,0,0)	(0,1/2,0)";
  "4	c	..2/m"; "(0,0,0)	(1/2,1/2,0)"; "4	b	222"; "(1/2,0,1/4)	(1/2,0,3/4)";
  "4	a	222"; "(0,0,1/4)	(0,0,3/4)"; ""; " 72  2  5  1  4   I b a m";
  "16	k	1"; "(x,y,z)	(-x,-y,z)	(x+1/2,-y+1/2,-z)	(-x+1/2,y+1/2,-z)"; "(-x,-y,-z)	(x,y,-z)	(-x+1/2,y+1/2,z)	(x+1/2,-y+1/2,z)"; "8	j	..m";
  "(x,y,0)	(-x,-y,0)	(x+1/2,-y+1/2,0)	(-x+1/2,y+1/2,0)"; "8	i	..2"; "(1/2,0,z)	(0,1/2,-z)	(1/2,0,-z)	(0,1/2,z)"; "8	h	..2";
  "(0,0,z)	(1/2,1/2,-z)	(0,0,-z)	(1/2,1/2,z)"; "8	g	.2."; "(x,0,3/4)	(-x,0,3/4)	(-x,0,1/4)	(x,0,1/4)"; "8	f	2..";
  "(0,y,3/4)	(0,-y,3/4)	(0,-y,1/4)	(0,y,1/4)"; "8	e	-1"; "(1/4,1/4,3/4)	(3/4,3/4,3/4)	(3/4,1/4,1/4)	(1/4,3/4,1/4)"; "4	d	..2/m";
  "(0,1/2,0)	(1/2,0,0)"; "4	c	..2/m"; "(0,0,0)	(1/2,1/2,0)"; "4	b	222";
  "(0,1/2,3/4)	(0,1/2,1/4)"; "4	a	222"; "(0,0,3/4)	(0,0,1/4)"; "";
  " 72  3  5  1  4   I m c b"; "16	k	1"; "(x,y,z)	(x,-y,-z)	(-x,-y+1/2,z+1/2)	(-x,y+1/2,-z+1/2)"; "(-x,-y,-z)	(-x,y,z)	(x,y+1/2,-z+1/2)	(x,-y+1/2,z+1/2)";
  "8	j	..m"; "(0,y,z)	(0,-y,-z)	(0,-y+1/2,z+1/2)	(0,y+1/2,-z+1/2)"; "8	i	..2"; "(x,0,1/2)	(-x,1/2,0)	(-x,0,1/2)	(x,1/2,0)";
  "8	h	..2"; "(x,0,0)	(-x,1/2,1/2)	(-x,0,0)	(x,1/2,1/2)"; "8	g	.2."; "(1/4,0,z)	(1/4,0,-z)	(3/4,0,-z)	(3/4,0,z)";
  "8	f	2.."; "(1/4,y,0)	(1/4,-y,0)	(3/4,-y,0)	(3/4,y,0)"; "8	e	-1"; "(1/4,1/4,1/4)	(1/4,3/4,3/4)	(3/4,1/4,3/4)	(3/4,3/4,1/4)";
  "4	d	..2/m"; "(0,1/2,0)	(0,0,1/2)"; "4	c	..2/m"; "(0,0,0)	(0,1/2,1/2)";
  "4	b	222"; "(1/4,1/2,0)	(3/4,1/2,0)"; "4	a	222"; "(1/4,0,0)	(3/4,0,0)";
  ""; " 72  4  5  1  4   I m c b"; "16	k	1"; "(x,y,z)	(x,-y,-z)	(-x,y+1/2,-z+1/2)	(-x,-y+1/2,z+1/2)";
  "(-x,-y,-z)	(-x,y,z)	(x,-y+1/2,z+1/2)	(x,y+1/2,-z+1/2)"; "8	j	..m"; "(0,y,z)	(0,-y,-z)	(0,y+1/2,-z+1/2)	(0,-y+1/2,z+1/2)"; "8	i	..2";
  "(x,1/2,0)	(-x,0,1/2)	(-x,1/2,0)	(x,0,1/2)"; "8	h	..2"; "(x,0,0)	(-x,1/2,1/2)	(-x,0,0)	(x,1/2,1/2)"; "8	g	.2.";
  "(3/4,y,0)	(3/4,-y,0)	(1/4,-y,0)	(1/4,y,0)"; "8	f	2.."; "(3/4,0,z)	(3/4,0,-z)	(1/4,0,-z)	(1/4,0,z)"; "8	e	-1";
  "(3/4,1/4,1/4)	(3/4,3/4,3/4)	(1/4,3/4,1/4)	(1/4,1/4,3/4)"; "4	d	..2/m"; "(0,0,1/2)	(0,1/2,0)"; "4	c	..2/m";
  "(0,0,0)	(0,1/2,1/2)"; "4	b	222"; "(3/4,0,1/2)	(1/4,0,1/2)"; "4	a	222";
  "(3/4,0,0)	(1/4,0,0)"; ""; " 72  5  5  1  4   I c m a"; "16	k	1";
  "(x,y,z)	(-x,y,-z)	(x+1/2,-y,-z+1/2)	(-x+1/2,-y,z+1/2)"; "(-x,-y,-z)	(x,-y,z)	(-x+1/2,y,z+1/2)	(x+1/2,y,-z+1/2)"; "8	j	..m"; "(x,0,z)	(-x,0,-z)	(x+1/2,0,-z+1/2)	(-x+1/2,0,z+1/2)";
  "8	i	..2"; "(1/2,y,0)	(0,-y,1/2)	(1/2,-y,0)	(0,y,1/2)"; "8	h	..2"; "(0,y,0)	(1/2,-y,1/2)	(0,-y,0)	(1/2,y,1/2)";
  "8	g	.2."; "(x,1/4,0)	(-x,1/4,0)	(-x,3/4,0)	(x,3/4,0)"; "8	f	2.."; "(0,1/4,z)	(0,1/4,-z)	(0,3/4,-z)	(0,3/4,z)";
  "8	e	-1"; "(1/4,1/4,1/4)	(3/4,1/4,3/4)	(3/4,3/4,1/4)	(1/4,3/4,3/4)"; "4	d	..2/m"; "(0,0,1/2)	(1/2,0,0)";
  "4	c	..2/m"; "(0,0,0)	(1/2,0,1/2)"; "4	b	222"; "(0,1/4,1/2)	(0,3/4,1/2)";
  "4	a	222"; "(0,1/4,0)	(0,3/4,0)"; ""; " 72  6  5  1  4   I c m a";
  "16	k	1"; "(x,y,z)	(-x,y,-z)	(-x+1/2,-y,z+1/2)	(x+1/2,-y,-z+1/2)"; "(-x,-y,-z)	(x,-y,z)	(x+1/2,y,-z+1/2)	(-x+1/2,y,z+1/2)"; "8	j	..m";
  "(x,0,z)	(-x,0,-z)	(-x+1/2,0,z+1/2)	(x+1/2,0,-z+1/2)"; "8	i	..2"; "(0,y,1/2)	(1/2,-y,0)	(0,-y,1/2)	(1/2,y,0)"; "8	h	..2";
  "(0,y,0)	(1/2,-y,1/2)	(0,-y,0)	(1/2,y,1/2)"; "8	g	.2."; "(0,3/4,z)	(0,3/4,-z)	(0,1/4,-z)	(0,1/4,z)"; "8	f	2..";
  "(x,3/4,0)	(-x,3/4,0)	(-x,1/4,0)	(x,1/4,0)"; "8	e	-1"; "(1/4,3/4,1/4)	(3/4,3/4,3/4)	(1/4,1/4,3/4)	(3/4,1/4,1/4)"; "4	d	..2/m";
  "(1/2,0,0)	(0,0,1/2)"; "4	c	..2/m"; "(0,0,0)	(1/2,0,1/2)"; "4	b	222";
  "(1/2,3/4,0)	(1/2,1/4,0)"; "4	a	222"; "(0,3/4,0)	(0,1/4,0)"; "";
  " 73  1  5  1  4   I b c a"; "16	f	1"; "(x,y,z)	(-x+1/2,-y,z+1/2)	(-x,y+1/2,-z+1/2)	(x+1/2,-y+1/2,-z)"; "(-x,-y,-z)	(x+1/2,y,-z+1/2)	(x,-y+1/2,z+1/2)	(-x+1/2,y+1/2,z)";
  "8	e	..2"; "(0,1/4,z)	(0,3/4,-z+1/2)	(0,3/4,-z)	(0,1/4,z+1/2)"; "8	d	.2."; "(1/4,y,0)	(1/4,-y,1/2)	(3/4,-y,0)	(3/4,y,1/2)";
  "8	c	2.."; "(x,0,1/4)	(-x+1/2,0,3/4)	(-x,0,3/4)	(x+1/2,0,1/4)"; "8	b	-1"; "(1/4,1/4,1/4)	(1/4,3/4,3/4)	(3/4,3/4,1/4)	(3/4,1/4,3/4)";
  "8	a	-1"; "(0,0,0)	(1/2,0,1/2)	(0,1/2,1/2)	(1/2,1/2,0)"; ""; " 73  2  5  1  4   I c a b";
  "16	f	1"; "(x,y,z)	(-x,-y+1/2,z+1/2)	(x+1/2,-y,-z+1/2)	(-x+1/2,y+1/2,-z)"; "(-x,-y,-z)	(x,y+1/2,-z+1/2)	(-x+1/2,y,z+1/2)	(x+1/2,-y+1/2,z)"; "8	e	..2";
  "(1/4,0,z)	(3/4,0,-z+1/2)	(3/4,0,-z)	(1/4,0,z+1/2)"; "8	d	.2."; "(x,1/4,0)	(-x,1/4,1/2)	(-x,3/4,0)	(x,3/4,1/2)"; "8	c	2..";
  "(0,y,3/4)	(0,-y+1/2,1/4)	(0,-y,1/4)	(0,y+1/2,3/4)"; "8	b	-1"; "(1/4,1/4,3/4)	(3/4,1/4,1/4)	(3/4,3/4,3/4)	(1/4,3/4,1/4)"; "8	a	-1";
  "(0,0,0)	(0,1/2,1/2)	(1/2,0,1/2)	(1/2,1/2,0)"; ""; " 73  3  5  1  4   I b c a"; "16	f	1";
  "(x,y,z)	(x+1/2,-y+1/2,-z)	(-x+1/2,-y,z+1/2)	(-x,y+1/2,-z+1/2)"; "(-x,-y,-z)	(-x+1/2,y+1/2,z)	(x+1/2,y,-z+1/2)	(x,-y+1/2,z+1/2)"; "8	e	..2"; "(x,0,1/4)	(-x+1/2,0,3/4)	(-x,0,3/4)	(x+1/2,0,1/4)";
  "8	d	.2."; "(0,1/4,z)	(1/2,1/4,-z)	(0,3/4,-z)	(1/2,3/4,z)"; "8	c	2.."; "(1/4,y,0)	(3/4,-y+1/2,0)	(3/4,-y,0)	(1/4,y+1/2,0)";
  "8	b	-1"; "(1/4,1/4,1/4)	(3/4,1/4,3/4)	(1/4,3/4,3/4)	(3/4,3/4,1/4)"; "8	a	-1"; "(0,0,0)	(1/2,1/2,0)	(1/2,0,1/2)	(0,1/2,1/2)";
  ""; " 73  4  5  1  4   I c a b"; "16	f	1"; "(x,y,z)	(x+1/2,-y,-z+1/2)	(-x+1/2,y+1/2,-z)	(-x,-y+1/2,z+1/2)";
  "(-x,-y,-z)	(-x+1/2,y,z+1/2)	(x+1/2,-y+1/2,z)	(x,y+1/2,-z+1/2)"; "8	e	..2"; "(x,1/4,0)	(-x+1/2,3/4,0)	(-x,3/4,0)	(x+1/2,1/4,0)"; "8	d	.2.";
  "(0,y,1/4)	(1/2,-y,1/4)	(0,-y,3/4)	(1/2,y,3/4)"; "8	c	2.."; "(3/4,0,z)	(1/4,0,-z+1/2)	(1/4,0,-z)	(3/4,0,z+1/2)"; "8	b	-1";
  "(3/4,1/4,1/4)	(1/4,3/4,1/4)	(3/4,3/4,3/4)	(1/4,1/4,3/4)"; "8	a	-1"; "(0,0,0)	(1/2,0,1/2)	(1/2,1/2,0)	(0,1/2,1/2)"; "";
  " 73  5  5  1  4   I b c a"; "16	f	1"; "(x,y,z)	(-x,y+1/2,-z+1/2)	(x+1/2,-y+1/2,-z)	(-x+1/2,-y,z+1/2)"; "(-x,-y,-z)	(x,-y+1/2,z+1/2)	(-x+1/2,y+1/2,z)	(x+1/2,y,-z+1/2)";
  "8	e	..2"; "(1/4,y,0)	(3/4,-y+1/2,0)	(3/4,-y,0)	(1/4,y+1/2,0)"; "8	d	.2."; "(x,0,1/4)	(-x,1/2,1/4)	(-x,0,3/4)	(x,1/2,3/4)";
  "8	c	2.."; "(0,1/4,z)	(0,3/4,-z+1/2)	(0,3/4,-z)	(0,1/4,z+1/2)"; "8	b	-1"; "(1/4,1/4,1/4)	(3/4,3/4,1/4)	(3/4,1/4,3/4)	(1/4,3/4,3/4)";
  "8	a	-1"; "(0,0,0)	(0,1/2,1/2)	(1/2,1/2,0)	(1/2,0,1/2)"; ""; " 73  6  5  1  4   I c a b";
  "16	f	1"; "(x,y,z)	(-x+1/2,y+1/2,-z)	(-x,-y+1/2,z+1/2)	(x+1/2,-y,-z+1/2)"; "(-x,-y,-z)	(x+1/2,-y+1/2,z)	(x,y+1/2,-z+1/2)	(-x+1/2,y,z+1/2)"; "8	e	..2";
  "(0,y,1/4)	(0,-y+1/2,3/4)	(0,-y,3/4)	(0,y+1/2,1/4)"; "8	d	.2."; "(1/4,0,z)	(1/4,1/2,-z)	(3/4,0,-z)	(3/4,1/2,z)"; "8	c	2..";
  "(x,3/4,0)	(-x+1/2,1/4,0)	(-x,1/4,0)	(x+1/2,3/4,0)"; "8	b	-1"; "(1/4,3/4,1/4)	(1/4,1/4,3/4)	(3/4,3/4,3/4)	(3/4,1/4,1/4)"; "8	a	-1";
  "(0,0,0)	(1/2,1/2,0)	(0,1/2,1/2)	(1/2,0,1/2)"; ""; " 74  1  5  1  4   I m m a"; "16	j	1";
  "(x,y,z)	(-x,-y+1/2,z)	(-x,y+1/2,-z)	(x,-y,-z)"; "(-x,-y,-z)	(x,y+1/2,-z)	(x,-y+1/2,z)	(-x,y,z)"; "8	i	.m."; "(x,1/4,z)	(-x,1/4,z)	(-x,3/4,-z)	(x,3/4,-z)";
  "8	h	m.."; "(0,y,z)	(0,-y+1/2,z)	(0,y+1/2,-z)	(0,-y,-z)"; "8	g	.2."; "(1/4,y,1/4)	(3/4,-y+1/2,1/4)	(3/4,-y,3/4)	(1/4,y+1/2,3/4)";
  "8	f	2.."; "(x,0,0)	(-x,1/2,0)	(-x,0,0)	(x,1/2,0)"; "4	e	mm2"; "(0,1/4,z)	(0,3/4,-z)";
  "4	d	.2/m."; "(1/4,1/4,3/4)	(3/4,1/4,3/4)"; "4	c	.2/m."; "(1/4,1/4,1/4)	(3/4,1/4,1/4)";
  "4	b	2/m.."; "(0,0,1/2)	(0,1/2,1/2)"; "4	a	2/m.."; "(0,0,0)	(0,1/2,0)";
  ""; " 74  2  5  1  4   I m m b"; "16	j	1"; "(x,y,z)	(-x+1/2,-y,z)	(x+1/2,-y,-z)	(-x,y,-z)";
  "(-x,-y,-z)	(x+1/2,y,-z)	(-x+1/2,y,z)	(x,-y,z)"; "8	i	.m."; "(1/4,y,z)	(1/4,-y,z)	(3/4,-y,-z)	(3/4,y,-z)"; "8	h	m..";
  "(x,0,z)	(-x+1/2,0,z)	(x+1/2,0,-z)	(-x,0,-z)"; "8	g	.2."; "(x,1/4,3/4)	(-x+1/2,3/4,3/4)	(-x,3/4,1/4)	(x+1/2,1/4,1/4)"; "8	f	2..";
  "(0,y,0)	(1/2,-y,0)	(0,-y,0)	(1/2,y,0)"; "4	e	mm2"; "(1/4,0,z)	(3/4,0,-z)"; "4	d	.2/m.";
  "(1/4,1/4,1/4)	(1/4,3/4,1/4)"; "4	c	.2/m."; "(1/4,1/4,3/4)	(1/4,3/4,3/4)"; "4	b	2/m..";
  "(0,0,1/2)	(1/2,0,1/2)"; "4	a	2/m.."; "(0,0,0)	(1/2,0,0)"; "";
  " 74  3  5  1  4   I b m m"; "16	j	1"; "(x,y,z)	(x,-y,-z+1/2)	(-x,-y,z+1/2)	(-x,y,-z)"; "(-x,-y,-z)	(-x,y,z+1/2)	(x,y,-z+1/2)	(x,-y,z)";
  "8	i	.m."; "(x,y,1/4)	(x,-y,1/4)	(-x,-y,3/4)	(-x,y,3/4)"; "8	h	m.."; "(x,0,z)	(x,0,-z+1/2)	(-x,0,z+1/2)	(-x,0,-z)";
  "8	g	.2."; "(1/4,1/4,z)	(1/4,3/4,-z+1/2)	(3/4,3/4,-z)	(3/4,1/4,z+1/2)"; "8	f	2.."; "(0,y,0)	(0,-y,1/2)	(0,-y,0)	(0,y,1/2)";
  "4	e	mm2"; "(x,0,1/4)	(-x,0,3/4)"; "4	d	.2/m."; "(3/4,1/4,1/4)	(3/4,3/4,1/4)";
  "4	c	.2/m."; "(1/4,1/4,1/4)	(1/4,3/4,1/4)"; "4	b	2/m.."; "(1/2,0,0)	(1/2,0,1/2)";
  "4	a	2/m.."; "(0,0,0)	(0,0,1/2)"; ""; " 74  4  5  1  4   I c m m";
  "16	j	1"; "(x,y,z)	(x,-y+1/2,-z)	(-x,y+1/2,-z)	(-x,-y,z)"; "(-x,-y,-z)	(-x,y+1/2,z)	(x,-y+1/2,z)	(x,y,-z)"; "8	i	.m.";
  "(x,1/4,z)	(x,1/4,-z)	(-x,3/4,-z)	(-x,3/4,z)"; "8	h	m.."; "(x,y,0)	(x,-y+1/2,0)	(-x,y+1/2,0)	(-x,-y,0)"; "8	g	.2.";
  "(3/4,y,1/4)	(3/4,-y+1/2,3/4)	(1/4,-y,3/4)	(1/4,y+1/2,1/4)"; "8	f	2.."; "(0,0,z)	(0,1/2,-z)	(0,0,-z)	(0,1/2,z)"; "4	e	mm2";
  "(x,1/4,0)	(-x,3/4,0)"; "4	d	.2/m."; "(1/4,1/4,1/4)	(1/4,1/4,3/4)"; "4	c	.2/m.";
  "(3/4,1/4,1/4)	(3/4,1/4,3/4)"; "4	b	2/m.."; "(1/2,0,0)	(1/2,1/2,0)"; "4	a	2/m..";
  "(0,0,0)	(0,1/2,0)"; ""; " 74  5  5  1  4   I m c m"; "16	j	1";
  "(x,y,z)	(-x+1/2,y,-z)	(x+1/2,-y,-z)	(-x,-y,z)"; "(-x,-y,-z)	(x+1/2,-y,z)	(-x+1/2,y,z)	(x,y,-z)"; "8	i	.m."; "(1/4,y,z)	(1/4,y,-z)	(3/4,-y,-z)	(3/4,-y,z)";
  "8	h	m.."; "(x,y,0)	(-x+1/2,y,0)	(x+1/2,-y,0)	(-x,-y,0)"; "8	g	.2."; "(x,1/4,1/4)	(-x+1/2,1/4,3/4)	(-x,3/4,3/4)	(x+1/2,3/4,1/4)";
  "8	f	2.."; "(0,0,z)	(1/2,0,-z)	(0,0,-z)	(1/2,0,z)"; "4	e	mm2"; "(1/4,y,0)	(3/4,-y,0)";
  "4	d	.2/m."; "(1/4,3/4,1/4)	(1/4,3/4,3/4)"; "4	c	.2/m."; "(1/4,1/4,1/4)	(1/4,1/4,3/4)";
  "4	b	2/m.."; "(0,1/2,0)	(1/2,1/2,0)"; "4	a	2/m.."; "(0,0,0)	(1/2,0,0)";
  ""; " 74  6  5  1  4   I m a m"; "16	j	1"; "(x,y,z)	(-x,y,-z+1/2)	(-x,-y,z+1/2)	(x,-y,-z)";
  "(-x,-y,-z)	(x,-y,z+1/2)	(x,y,-z+1/2)	(-x,y,z)"; "8	i	.m."; "(x,y,1/4)	(-x,y,1/4)	(-x,-y,3/4)	(x,-y,3/4)"; "8	h	m..";
  "(0,y,z)	(0,y,-z+1/2)	(0,-y,z+1/2)	(0,-y,-z)"; "8	g	.2."; "(1/4,3/4,z)	(3/4,3/4,-z+1/2)	(3/4,1/4,-z)	(1/4,1/4,z+1/2)"; "8	f	2..";
  "(x,0,0)	(-x,0,1/2)	(-x,0,0)	(x,0,1/2)"; "4	e	mm2"; "(0,y,1/4)	(0,-y,3/4)"; "4	d	.2/m.";
  "(1/4,1/4,1/4)	(3/4,1/4,1/4)"; "4	c	.2/m."; "(1/4,3/4,1/4)	(3/4,3/4,1/4)"; "4	b	2/m..";
  "(0,1/2,0)	(0,1/2,1/2)"; "4	a	2/m.."; "(0,0,0)	(0,0,1/2)"; "";
  " 75  1  6  0  4   P 4"; "4	d	1"; "(x,y,z) 	(-x,-y,z) 	(-y,x,z) 	(y,-x,z)"; "2	c	2..";
  "(0,1/2,z) 	(1/2,0,z)"; "1	b	4.."; "(1/2,1/2,z)"; "1	a	4..";
  "(0,0,z)"; ""; " 76  1  6  0  4   P 41"; "4	a	1";
  "(x,y,z) 	(-x,-y,z+1/2) 	(-y,x,z+1/4) 	(y,-x,z+3/4)"; ""; " 77  1  6  0  4   P 42"; "4	d	1";
  "(x,y,z) 	(-x,-y,z) 	(-y,x,z+1/2) 	(y,-x,z+1/2)"; "2	c	2.."; "(0,1/2,z) 	(1/2,0,z+1/2)"; "2	b	2..";
  "(1/2,1/2,z) 	(1/2,1/2,z+1/2)"; "2	a	2.."; "(0,0,z) 	(0,0,z+1/2)"; "";
  " 78  1  6  0  4   P 43"; "4	a	1"; "(x,y,z) 	(-x,-y,z+1/2) 	(-y,x,z+3/4) 	(y,-x,z+1/4)"; "";
  " 79  1  6  0  4   I 4"; "8	c	1"; "(x,y,z) 	(-x,-y,z) 	(-y,x,z) 	(y,-x,z)"; "4	b	2..";
  "(0,1/2,z) 	(1/2,0,z)"; "2	a	4.."; "(0,0,z)"; "";
  " 80  1  6  0  4   I 41"; "8	b	1"; "(x,y,z) 	(-x+1/2,-y+1/2,z+1/2) 	(-y,x+1/2,z+1/4) 	(y+1/2,-x,z+3/4)"; "4	a	2..";
  "(0,0,z) 	(0,1/2,z+1/4)"; ""; " 81  1  6  0  4   P -4"; "4	h	1";
  "(x,y,z) 	(-x,-y,z) 	(y,-x,-z) 	(-y,x,-z)"; "2	g	2.."; "(0,1/2,z) 	(1/2,0,-z)"; "2	f	2..";
  "(1/2,1/2,z) 	(1/2,1/2,-z)"; "2	e	2.."; "(0,0,z) 	(0,0,-z)"; "1	d	-4..";
  "(1/2,1/2,1/2)"; "1	c	-4.."; "(1/2,1/2,0)"; "1	b	-4..";
  "(0,0,1/2)"; "1	a	-4.."; "(0,0,0)"; "";
  " 82  1  6  0  4   I -4"; "8	g	1"; "(x,y,z) 	(-x,-y,z) 	(y,-x,-z) 	(-y,x,-z)"; "4	f	2..";
  "(0,1/2,z) 	(1/2,0,-z)"; "4	e	2.."; "(0,0,z) 	(0,0,-z)"; "2	d	-4..";
  "(0,1/2,3/4)"; "2	c	-4.."; "(0,1/2,1/4)"; "2	b	-4..";
  "(0,0,1/2)"; "2	a	-4.."; "(0,0,0)"; "";
  " 83  1  6  1  4   P 4/m"; "8	l	1"; "(x,y,z) 	(-x,-y,z) 	(-y,x,z) 	(y,-x,z)"; "(-x,-y,-z) 	(x,y,-z) 	(y,-x,-z) 	(-y,x,-z)";
  "4	k	m.."; "(x,y,1/2) 	(-x,-y,1/2) 	(-y,x,1/2) 	(y,-x,1/2)"; "4	j	m.."; "(x,y,0) 	(-x,-y,0) 	(-y,x,0) 	(y,-x,0)";
  "4	i	2.."; "(0,1/2,z) 	(1/2,0,z) 	(0,1/2,-z) 	(1/2,0,-z)"; "2	h	4.."; "(1/2,1/2,z) 	(1/2,1/2,-z)";
  "2	g	4.."; "(0,0,z) 	(0,0,-z)"; "2	f	2/m.."; "(0,1/2,1/2) 	(1/2,0,1/2)";
  "2	e	2/m.."; "(0,1/2,0) 	(1/2,0,0)"; "1	d	4/m.."; "(1/2,1/2,1/2)";
  "1	c	4/m.."; "(1/2,1/2,0)"; "1	b	4/m.."; "(0,0,1/2)";
  "1	a	4/m.."; "(0,0,0)"; ""; " 84  1  6  1  4   P 42/m";
  "8	k	1"; "(x,y,z) 	(-x,-y,z) 	(-y,x,z+1/2) 	(y,-x,z+1/2)"; "(-x,-y,-z) 	(x,y,-z) 	(y,-x,-z+1/2) 	(-y,x,-z+1/2)"; "4	j	m..";
  "(x,y,0) 	(-x,-y,0) 	(-y,x,1/2) 	(y,-x,1/2)"; "4	i	2.."; "(0,1/2,z) 	(1/2,0,z+1/2) 	(0,1/2,-z) 	(1/2,0,-z+1/2)"; "4	h	2..";
  "(1/2,1/2,z) 	(1/2,1/2,z+1/2) 	(1/2,1/2,-z) 	(1/2,1/2,-z+1/2)"; "4	g	2.."; "(0,0,z) 	(0,0,z+1/2) 	(0,0,-z) 	(0,0,-z+1/2)"; "2	f	-4..";
  "(1/2,1/2,1/4) 	(1/2,1/2,3/4)"; "2	e	-4.."; "(0,0,1/4) 	(0,0,3/4)"; "2	d	2/m..";
  "(0,1/2,1/2) 	(1/2,0,0)"; "2	c	2/m.."; "(0,1/2,0) 	(1/2,0,1/2)"; "2	b	2/m..";
  "(1/2,1/2,0) 	(1/2,1/2,1/2)"; "2	a	2/m.."; "(0,0,0) 	(0,0,1/2)"; "";
  " 85  1  6  0  8   P 4/n"; "8	g	1"; "(x,y,z) 	(-x,-y,z) 	(-y+1/2,x+1/2,z) 	(y+1/2,-x+1/2,z)"; "(-x+1/2,-y+1/2,-z) 	(x+1/2,y+1/2,-z) 	(y,-x,-z) 	(-y,x,-z)";
  "4	f	2.."; "(0,0,z) 	(1/2,1/2,z) 	(1/2,1/2,-z) 	(0,0,-z)"; "4	e	-1"; "(1/4,1/4,1/2) 	(3/4,3/4,1/2) 	(1/4,3/4,1/2) 	(3/4,1/4,1/2)";
  "4	d	-1"; "(1/4,1/4,0) 	(3/4,3/4,0) 	(1/4,3/4,0) 	(3/4,1/4,0)"; "2	c	4.."; "(0,1/2,z) 	(1/2,0,-z)";
  "2	b	-4.."; "(0,0,1/2) 	(1/2,1/2,1/2)"; "2	a	-4.."; "(0,0,0) 	(1/2,1/2,0)";
  ""; " 85  2  6  1  4   P 4/n"; "8	g	1"; "(x,y,z) 	(-x+1/2,-y+1/2,z) 	(-y+1/2,x,z) 	(y,-x+1/2,z)";
  "(-x,-y,-z) 	(x+1/2,y+1/2,-z) 	(y+1/2,-x,-z) 	(-y,x+1/2,-z)"; "4	f	2.."; "(1/4,3/4,z) 	(3/4,1/4,z) 	(3/4,1/4,-z) 	(1/4,3/4,-z)"; "4	e	-1";
  "(0,0,1/2) 	(1/2,1/2,1/2) 	(1/2,0,1/2) 	(0,1/2,1/2)"; "4	d	-1"; "(0,0,0) 	(1/2,1/2,0) 	(1/2,0,0) 	(0,1/2,0)"; "2	c	4..";
  "(1/4,1/4,z) 	(3/4,3/4,-z)"; "2	b	-4.."; "(1/4,3/4,1/2) 	(3/4,1/4,1/2)"; "2	a	-4..";
  "(1/4,3/4,0) 	(3/4,1/4,0)"; ""; " 86  1  6  0  8   P 42/n"; "8	g	1";
  "(x,y,z) 	(-x,-y,z) 	(-y+1/2,x+1/2,z+1/2) 	(y+1/2,-x+1/2,z+1/2)"; "(-x+1/2,-y+1/2,-z+1/2) 	(x+1/2,y+1/2,-z+1/2) 	(y,-x,-z) 	(-y,x,-z)"; "4	f	2.."; "(0,0,z) 	(1/2,1/2,z+1/2) 	(1/2,1/2,-z+1/2) 	(0,0,-z)";
  "4	e	2.."; "(0,1/2,z) 	(0,1/2,z+1/2) 	(1/2,0,-z+1/2) 	(1/2,0,-z)"; "4	d	-1"; "(1/4,1/4,3/4) 	(3/4,3/4,3/4) 	(1/4,3/4,1/4) 	(3/4,1/4,1/4)";
  "4	c	-1"; "(1/4,1/4,1/4) 	(3/4,3/4,1/4) 	(1/4,3/4,3/4) 	(3/4,1/4,3/4)"; "2	b	-4.."; "(0,0,1/2) 	(1/2,1/2,0)";
  "2	a	-4.."; "(0,0,0) 	(1/2,1/2,1/2)"; ""; " 86  2  6  1  4   P 42/n";
  "8	g	1"; "(x,y,z) 	(-x+1/2,-y+1/2,z) 	(-y,x+1/2,z+1/2) 	(y+1/2,-x,z+1/2)"; "(-x,-y,-z) 	(x+1/2,y+1/2,-z) 	(y,-x+1/2,-z+1/2) 	(-y+1/2,x,-z+1/2)"; "4	f	2..";
  "(1/4,1/4,z) 	(3/4,3/4,z+1/2) 	(3/4,3/4,-z) 	(1/4,1/4,-z+1/2)"; "4	e	2.."; "(3/4,1/4,z) 	(3/4,1/4,z+1/2) 	(1/4,3/4,-z) 	(1/4,3/4,-z+1/2)"; "4	d	-1";
  "(0,0,1/2) 	(1/2,1/2,1/2) 	(0,1/2,0) 	(1/2,0,0)"; "4	c	-1"; "(0,0,0) 	(1/2,1/2,0) 	(0,1/2,1/2) 	(1/2,0,1/2)"; "2	b	-4..";
  "(1/4,1/4,3/4) 	(3/4,3/4,1/4)"; "2	a	-4.."; "(1/4,1/4,1/4) 	(3/4,3/4,3/4)"; "";
  " 87  1  6  1  4   I 4/m"; "16	i	1"; "(x,y,z) 	(-x,-y,z) 	(-y,x,z) 	(y,-x,z)"; "(-x,-y,-z) 	(x,y,-z) 	(y,-x,-z) 	(-y,x,-z)";
  "8	h	m.."; "(x,y,0) 	(-x,-y,0) 	(-y,x,0) 	(y,-x,0)"; "8	g	2.."; "(0,1/2,z) 	(1/2,0,z) 	(0,1/2,-z) 	(1/2,0,-z)";
  "8	f	-1"; "(1/4,1/4,1/4) 	(3/4,3/4,1/4) 	(3/4,1/4,1/4) 	(1/4,3/4,1/4)"; "4	e	4.."; "(0,0,z) 	(0,0,-z)";
  "4	d	-4.."; "(0,1/2,1/4) 	(1/2,0,1/4)"; "4	c	2/m.."; "(0,1/2,0) 	(1/2,0,0)";
  "2	b	4/m.."; "(0,0,1/2)"; "2	a	4/m.."; "(0,0,0)";
  ""; " 88  1  6  0  8   I 41/a"; "16	f	1"; "(x,y,z) 	(-x+1/2,-y+1/2,z+1/2) 	(-y,x+1/2,z+1/4) 	(y+1/2,-x,z+3/4)";
  "(-x,-y+1/2,-z+1/4) 	(x+1/2,y,-z+3/4) 	(y,-x,-z) 	(-y+1/2,x+1/2,-z+1/2)"; "8	e	2.."; "(0,0,z) 	(0,1/2,z+1/4) 	(0,1/2,-z+1/4) 	(0,0,-z)"; "8	d	-1";
  "(0,1/4,5/8) 	(1/2,1/4,1/8) 	(3/4,1/2,7/8) 	(3/4,0,3/8)"; "8	c	-1"; "(0,1/4,1/8) 	(1/2,1/4,5/8) 	(3/4,1/2,3/8) 	(3/4,0,7/8)"; "4	b	-4..";
  "(0,0,1/2) 	(0,1/2,3/4)"; "4	a	-4.."; "(0,0,0) 	(0,1/2,1/4)"; "";
  " 88  2  6  1  4   I 41/a"; "16	f	1"; "(x,y,z) 	(-x+1/2,-y,z+1/2) 	(-y+3/4,x+1/4,z+1/4) 	(y+3/4,-x+3/4,z+3/4)"; "(-x,-y,-z) 	(x+1/2,y,-z+1/2) 	(y+1/4,-x+3/4,-z+3/4) 	(-y+1/4,x+1/4,-z+1/4)";
  "8	e	2.."; "(0,1/4,z) 	(1/2,1/4,z+1/4) 	(0,3/4,-z) 	(1/2,3/4,-z+3/4)"; "8	d	-1"; "(0,0,1/2) 	(1/2,0,0) 	(3/4,1/4,3/4) 	(3/4,3/4,1/4)";
  "8	c	-1"; "(0,0,0) 	(1/2,0,1/2) 	(3/4,1/4,1/4) 	(3/4,3/4,3/4)"; "4	b	-4.."; "(0,1/4,5/8) 	(1/2,1/4,7/8)";
  "4	a	-4.."; "(0,1/4,1/8) 	(1/2,1/4,3/8)"; ""; " 89  1  7  0  8   P 4 2 2";
  "8	p	1"; "(x,y,z) 	(-x,-y,z) 	(-y,x,z) 	(y,-x,z)"; "(-x,y,-z) 	(x,-y,-z) 	(y,x,-z) 	(-y,-x,-z)"; "4	o	.2.";
  "(x,1/2,0) 	(-x,1/2,0) 	(1/2,x,0) 	(1/2,-x,0)"; "4	n	.2."; "(x,0,1/2) 	(-x,0,1/2) 	(0,x,1/2) 	(0,-x,1/2)"; "4	m	.2.";
  "(x,1/2,1/2) 	(-x,1/2,1/2) 	(1/2,x,1/2) 	(1/2,-x,1/2)"; "4	l	.2."; "(x,0,0) 	(-x,0,0) 	(0,x,0) 	(0,-x,0)"; "4	k	..2";
  "(x,x,1/2) 	(-x,-x,1/2) 	(-x,x,1/2) 	(x,-x,1/2)"; "4	j	..2"; "(x,x,0) 	(-x,-x,0) 	(-x,x,0) 	(x,-x,0)"; "4	i	2..";
  "(0,1/2,z) 	(1/2,0,z) 	(0,1/2,-z) 	(1/2,0,-z)"; "2	h	4.."; "(1/2,1/2,z) 	(1/2,1/2,-z)"; "2	g	4..";
  "(0,0,z) 	(0,0,-z)"; "2	f	222 ."; "(1/2,0,1/2) 	(0,1/2,1/2)"; "2	e	222 .";
  "(1/2,0,0) 	(0,1/2,0)"; "1	d	422"; "(1/2,1/2,1/2)"; "1	c	422";
  "(1/2,1/2,0)"; "1	b	422"; "(0,0,1/2)"; "1	a	422";
  "(0,0,0)"; ""; " 90  1  7  0  8   P 4 21 2"; "8	g	1";
  "(x,y,z) 	(-x,-y,z) 	(-y+1/2,x+1/2,z) 	(y+1/2,-x+1/2,z)"; "(-x+1/2,y+1/2,-z) 	(x+1/2,-y+1/2,-z) 	(y,x,-z) 	(-y,-x,-z)"; "4	f	..2"; "(x,x,1/2) 	(-x,-x,1/2) 	(-x+1/2,x+1/2,1/2) 	(x+1/2,-x+1/2,1/2)";
  "4	e	..2"; "(x,x,0) 	(-x,-x,0) 	(-x+1/2,x+1/2,0) 	(x+1/2,-x+1/2,0)"; "4	d	2.."; "(0,0,z) 	(1/2,1/2,z) 	(1/2,1/2,-z) 	(0,0,-z)";
  "2	c	4.."; "(0,1/2,z) 	(1/2,0,-z)"; "2	b	2.2 2"; "(0,0,1/2) 	(1/2,1/2,1/2)";
  "2	a	2.2 2"; "(0,0,0) 	(1/2,1/2,0)"; ""; " 91  1  7  0  8   P 41 2 2";
  "8	d	1"; "(x,y,z) 	(-x,-y,z+1/2) 	(-y,x,z+1/4) 	(y,-x,z+3/4)"; "(-x,y,-z) 	(x,-y,-z+1/2) 	(y,x,-z+3/4) 	(-y,-x,-z+1/4)"; "4	c	..2";
  "(x,x,3/8) 	(-x,-x,7/8) 	(-x,x,5/8) 	(x,-x,1/8)"; "4	b	.2."; "(1/2,y,0) 	(1/2,-y,1/2) 	(-y,1/2,1/4) 	(y,1/2,3/4)"; "4	a	.2.";
  "(0,y,0) 	(0,-y,1/2) 	(-y,0,1/4) 	(y,0,3/4)"; ""; " 92  1  7  0  8   P 41 21 2"; "8	b	1";
  "(x,y,z) 	(-x,-y,z+1/2) 	(-y+1/2,x+1/2,z+1/4) 	(y+1/2,-x+1/2,z+3/4)"; "(-x+1/2,y+1/2,-z+1/4) 	(x+1/2,-y+1/2,-z+3/4) 	(y,x,-z) 	(-y,-x,-z+1/2)"; "4	a	..2"; "(x,x,0) 	(-x,-x,1/2) 	(-x+1/2,x+1/2,1/4) 	(x+1/2,-x+1/2,3/4)";
  ""; " 93  1  7  0  8   P 42 2 2"; "8	p	1"; "(x,y,z) 	(-x,-y,z) 	(-y,x,z+1/2) 	(y,-x,z+1/2)";
  "(-x,y,-z) 	(x,-y,-z) 	(y,x,-z+1/2) 	(-y,-x,-z+1/2)"; "4	o	..2"; "(x,x,3/4) 	(-x,-x,3/4) 	(-x,x,1/4) 	(x,-x,1/4)"; "4	n	..2";
  "(x,x,1/4) 	(-x,-x,1/4) 	(-x,x,3/4) 	(x,-x,3/4)"; "4	m	.2."; "(x,1/2,0) 	(-x,1/2,0) 	(1/2,x,1/2) 	(1/2,-x,1/2)"; "4	l	.2.";
  "(x,0,1/2) 	(-x,0,1/2) 	(0,x,0) 	(0,-x,0)"; "4	k	.2."; "(x,1/2,1/2) 	(-x,1/2,1/2) 	(1/2,x,0) 	(1/2,-x,0)"; "4	j	.2.";
  "(x,0,0) 	(-x,0,0) 	(0,x,1/2) 	(0,-x,1/2)"; "4	i	2.."; "(0,1/2,z) 	(1/2,0,z+1/2) 	(0,1/2,-z) 	(1/2,0,-z+1/2)"; "4	h	2..";
  "(1/2,1/2,z) 	(1/2,1/2,z+1/2) 	(1/2,1/2,-z) 	(1/2,1/2,-z+1/2)"; "4	g	2.."; "(0,0,z) 	(0,0,z+1/2) 	(0,0,-z) 	(0,0,-z+1/2)"; "2	f	2.2 2";
  "(1/2,1/2,1/4) 	(1/2,1/2,3/4)"; "2	e	2.2 2"; "(0,0,1/4) 	(0,0,3/4)"; "2	d	222 .";
  "(0,1/2,1/2) 	(1/2,0,0)"; "2	c	222 ."; "(0,1/2,0) 	(1/2,0,1/2)"; "2	b	222 .";
  "(1/2,1/2,0) 	(1/2,1/2,1/2)"; "2	a	222 ."; "(0,0,0) 	(0,0,1/2)"; "";
  " 94  1  7  0  8   P 42 21 2"; "8	g	1"; "(x,y,z) 	(-x,-y,z) 	(-y+1/2,x+1/2,z+1/2) 	(y+1/2,-x+1/2,z+1/2)"; "(-x+1/2,y+1/2,-z+1/2) 	(x+1/2,-y+1/2,-z+1/2) 	(y,x,-z) 	(-y,-x,-z)";
  "4	f	..2"; "(x,x,1/2) 	(-x,-x,1/2) 	(-x+1/2,x+1/2,0) 	(x+1/2,-x+1/2,0)"; "4	e	..2"; "(x,x,0) 	(-x,-x,0) 	(-x+1/2,x+1/2,1/2) 	(x+1/2,-x+1/2,1/2)";
  "4	d	2.."; "(0,1/2,z) 	(0,1/2,z+1/2) 	(1/2,0,-z+1/2) 	(1/2,0,-z)"; "4	c	2.."; "(0,0,z) 	(1/2,1/2,z+1/2) 	(1/2,1/2,-z+1/2) 	(0,0,-z)";
  "2	b	2.2 2"; "(0,0,1/2) 	(1/2,1/2,0)"; "2	a	2.2 2"; "(0,0,0) 	(1/2,1/2,1/2)";
  ""; " 95  1  7  0  8   P 43 2 2"; "8	d	1"; "(x,y,z) 	(-x,-y,z+1/2) 	(-y,x,z+3/4) 	(y,-x,z+1/4)";
  "(-x,y,-z) 	(x,-y,-z+1/2) 	(y,x,-z+1/4) 	(-y,-x,-z+3/4)"; "4	c	..2"; "(x,x,5/8) 	(-x,-x,1/8) 	(-x,x,3/8) 	(x,-x,7/8)"; "4	b	.2.";
  "(1/2,y,0) 	(1/2,-y,1/2) 	(-y,1/2,3/4) 	(y,1/2,1/4)"; "4	a	.2."; "(0,y,0) 	(0,-y,1/2) 	(-y,0,3/4) 	(y,0,1/4)"; "";
  " 96  1  7  0  8   P 43 21 2"; "8	b	1"; "(x,y,z) 	(-x,-y,z+1/2) 	(-y+1/2,x+1/2,z+3/4) 	(y+1/2,-x+1/2,z+1/4)"; "(-x+1/2,y+1/2,-z+3/4) 	(x+1/2,-y+1/2,-z+1/4) 	(y,x,-z) 	(-y,-x,-z+1/2)";
  "4	a	..2"; "(x,x,0) 	(-x,-x,1/2) 	(-x+1/2,x+1/2,3/4) 	(x+1/2,-x+1/2,1/4)"; ""; " 97  1  7  0  8   I 4 2 2";
  "16	k	1"; "(x,y,z) 	(-x,-y,z) 	(-y,x,z) 	(y,-x,z)"; "(-x,y,-z) 	(x,-y,-z) 	(y,x,-z) 	(-y,-x,-z)"; "8	j	..2";
  "(x,x+1/2,1/4) 	(-x,-x+1/2,1/4) 	(-x+1/2,x,1/4) 	(x+1/2,-x,1/4)"; "8	i	.2."; "(x,0,1/2) 	(-x,0,1/2) 	(0,x,1/2) 	(0,-x,1/2)"; "8	h	.2.";
  "(x,0,0) 	(-x,0,0) 	(0,x,0) 	(0,-x,0)"; "8	g	..2"; "(x,x,0) 	(-x,-x,0) 	(-x,x,0) 	(x,-x,0)"; "8	f	2..";
  "(0,1/2,z) 	(1/2,0,z) 	(0,1/2,-z) 	(1/2,0,-z)"; "4	e	4.."; "(0,0,z) 	(0,0,-z)"; "4	d	2.2 2";
  "(0,1/2,1/4) 	(1/2,0,1/4)"; "4	c	222 ."; "(0,1/2,0) 	(1/2,0,0)"; "2	b	422";
  "(0,0,1/2)"; "2	a	422"; "(0,0,0)"; "";
  " 98  1  7  0  8   I 41 2 2"; "16	g	1"; "(x,y,z) 	(-x+1/2,-y+1/2,z+1/2) 	(-y,x+1/2,z+1/4) 	(y+1/2,-x,z+3/4)"; "(-x+1/2,y,-z+3/4) 	(x,-y+1/2,-z+1/4) 	(y+1/2,x+1/2,-z+1/2) 	(-y,-x,-z)";
  "8	f	.2."; "(x,1/4,1/8) 	(-x+1/2,1/4,5/8) 	(3/4,x+1/2,3/8) 	(3/4,-x,7/8)"; "8	e	..2"; "(x,-x,0) 	(-x+1/2,x+1/2,1/2) 	(x,x+1/2,1/4) 	(-x+1/2,-x,3/4)";
  "8	d	..2"; "(x,x,0) 	(-x+1/2,-x+1/2,1/2) 	(-x,x+1/2,1/4) 	(x+1/2,-x,3/4)"; "8	c	2.."; "(0,0,z) 	(0,1/2,z+1/4) 	(1/2,0,-z+3/4) 	(1/2,1/2,-z+1/2)";
  "4	b	2.2 2"; "(0,0,1/2) 	(0,1/2,3/4)"; "4	a	2.2 2"; "(0,0,0) 	(0,1/2,1/4)";
  ""; " 99  1  7  0  8   P 4 m m"; "8	g	1"; "(x,y,z) 	(-x,-y,z) 	(-y,x,z) 	(y,-x,z)";
  "(x,-y,z) 	(-x,y,z) 	(-y,-x,z) 	(y,x,z)"; "4	f	.m."; "(x,1/2,z) 	(-x,1/2,z) 	(1/2,x,z) 	(1/2,-x,z)"; "4	e	.m.";
  "(x,0,z) 	(-x,0,z) 	(0,x,z) 	(0,-x,z)"; "4	d	..m"; "(x,x,z) 	(-x,-x,z) 	(-x,x,z) 	(x,-x,z)"; "2	c	2mm .";
  "(1/2,0,z) 	(0,1/2,z)"; "1	b	4mm"; "(1/2,1/2,z)"; "1	a	4mm";
  "(0,0,z)"; ""; "100  1  7  0  8   P 4 b m"; "8	d	1";
  "(x,y,z) 	(-x,-y,z) 	(-y,x,z) 	(y,-x,z)"; "(x+1/2,-y+1/2,z) 	(-x+1/2,y+1/2,z) 	(-y+1/2,-x+1/2,z) 	(y+1/2,x+1/2,z)"; "4	c	..m"; "(x,x+1/2,z) 	(-x,-x+1/2,z) 	(-x+1/2,x,z) 	(x+1/2,-x,z)";
  "2	b	2.m m"; "(1/2,0,z) 	(0,1/2,z)"; "2	a	4.."; "(0,0,z) 	(1/2,1/2,z)";
  ""; "101  1  7  0  8   P 42 c m"; "8	e	1"; "(x,y,z) 	(-x,-y,z) 	(-y,x,z+1/2) 	(y,-x,z+1/2)";
  "(x,-y,z+1/2) 	(-x,y,z+1/2) 	(-y,-x,z) 	(y,x,z)"; "4	d	..m"; "(x,x,z) 	(-x,-x,z) 	(-x,x,z+1/2) 	(x,-x,z+1/2)"; "4	c	2..";
  "(0,1/2,z) 	(1/2,0,z+1/2) 	(0,1/2,z+1/2) 	(1/2,0,z)"; "2	b	2.m m"; "(1/2,1/2,z) 	(1/2,1/2,z+1/2)"; "2	a	2.m m";
  "(0,0,z) 	(0,0,z+1/2)"; ""; "102  1  7  0  8   P 42 n m"; "8	d	1";
  "(x,y,z) 	(-x,-y,z) 	(-y+1/2,x+1/2,z+1/2) 	(y+1/2,-x+1/2,z+1/2)"; "(x+1/2,-y+1/2,z+1/2) 	(-x+1/2,y+1/2,z+1/2) 	(-y,-x,z) 	(y,x,z)"; "4	c	..m"; "(x,x,z) 	(-x,-x,z) 	(-x+1/2,x+1/2,z+1/2) 	(x+1/2,-x+1/2,z+1/2)";
  "4	b	2.."; "(0,1/2,z) 	(0,1/2,z+1/2) 	(1/2,0,z+1/2) 	(1/2,0,z)"; "2	a	2.m m"; "(0,0,z) 	(1/2,1/2,z+1/2)";
  ""; "103  1  7  0  8   P 4 c c"; "8	d	1"; "(x,y,z) 	(-x,-y,z) 	(-y,x,z) 	(y,-x,z)";
  "(x,-y,z+1/2) 	(-x,y,z+1/2) 	(-y,-x,z+1/2) 	(y,x,z+1/2)"; "4	c	2.."; "(0,1/2,z) 	(1/2,0,z) 	(0,1/2,z+1/2) 	(1/2,0,z+1/2)"; "2	b	4..";
  "(1/2,1/2,z) 	(1/2,1/2,z+1/2)"; "2	a	4.."; "(0,0,z) 	(0,0,z+1/2)"; "";
  "104  1  7  0  8   P 4 n c"; "8	c	1"; "(x,y,z) 	(-x,-y,z) 	(-y,x,z) 	(y,-x,z)"; "(x+1/2,-y+1/2,z+1/2) 	(-x+1/2,y+1/2,z+1/2) 	(-y+1/2,-x+1/2,z+1/2) 	(y+1/2,x+1/2,z+1/2)";
  "4	b	2.."; "(0,1/2,z) 	(1/2,0,z) 	(1/2,0,z+1/2) 	(0,1/2,z+1/2)"; "2	a	4.."; "(0,0,z) 	(1/2,1/2,z+1/2)";
  ""; "105  1  7  0  8   P 42 m c"; "8	f	1"; "(x,y,z) 	(-x,-y,z) 	(-y,x,z+1/2) 	(y,-x,z+1/2)";
  "(x,-y,z) 	(-x,y,z) 	(-y,-x,z+1/2) 	(y,x,z+1/2)"; "4	e	.m."; "(x,1/2,z) 	(-x,1/2,z) 	(1/2,x,z+1/2) 	(1/2,-x,z+1/2)"; "4	d	.m.";
  "(x,0,z) 	(-x,0,z) 	(0,x,z+1/2) 	(0,-x,z+1/2)"; "2	c	2mm ."; "(0,1/2,z) 	(1/2,0,z+1/2)"; "2	b	2mm .";
  "(1/2,1/2,z) 	(1/2,1/2,z+1/2)"; "2	a	2mm ."; "(0,0,z) 	(0,0,z+1/2)"; "";
  "106  1  7  0  8   P 42 b c"; "8	c	1"; "(x,y,z) 	(-x,-y,z) 	(-y,x,z+1/2) 	(y,-x,z+1/2)"; "(x+1/2,-y+1/2,z) 	(-x+1/2,y+1/2,z) 	(-y+1/2,-x+1/2,z+1/2) 	(y+1/2,x+1/2,z+1/2)";
  "4	b	2.."; "(0,1/2,z) 	(1/2,0,z+1/2) 	(1/2,0,z) 	(0,1/2,z+1/2)"; "4	a	2.."; "(0,0,z) 	(0,0,z+1/2) 	(1/2,1/2,z) 	(1/2,1/2,z+1/2)";
  ""; "107  1  7  0  8   I 4 m m"; "16	e	1"; "(x,y,z) 	(-x,-y,z) 	(-y,x,z) 	(y,-x,z)";
  "(x,-y,z) 	(-x,y,z) 	(-y,-x,z) 	(y,x,z)"; "8	d	.m."; "(x,0,z) 	(-x,0,z) 	(0,x,z) 	(0,-x,z)"; "8	c	..m";
  "(x,x,z) 	(-x,-x,z) 	(-x,x,z) 	(x,-x,z)"; "4	b	2mm ."; "(0,1/2,z) 	(1/2,0,z)"; "2	a	4mm";
  "(0,0,z)"; ""; "108  1  7  0  8   I 4 c m"; "16	d	1";
  "(x,y,z) 	(-x,-y,z) 	(-y,x,z) 	(y,-x,z)"; "(x,-y,z+1/2) 	(-x,y,z+1/2) 	(-y,-x,z+1/2) 	(y,x,z+1/2)"; "8	c	..m"; "(x,x+1/2,z) 	(-x,-x+1/2,z) 	(-x+1/2,x,z) 	(x+1/2,-x,z)";
  "4	b	2.m m"; "(1/2,0,z) 	(0,1/2,z)"; "4	a	4.."; "(0,0,z) 	(0,0,z+1/2)";
  ""; "109  1  7  0  8   I 41 m d"; "16	c	1"; "(x,y,z) 	(-x+1/2,-y+1/2,z+1/2) 	(-y,x+1/2,z+1/4) 	(y+1/2,-x,z+3/4)";
  "(x,-y,z) 	(-x+1/2,y+1/2,z+1/2) 	(-y,-x+1/2,z+1/4) 	(y+1/2,x,z+3/4)"; "8	b	.m."; "(0,y,z) 	(1/2,-y+1/2,z+1/2) 	(-y,1/2,z+1/4) 	(y+1/2,0,z+3/4)"; "4	a	2mm .";
  "(0,0,z) 	(0,1/2,z+1/4)"; ""; "110  1  7  0  8   I 41 c d"; "16	b	1";
  "(x,y,z) 	(-x+1/2,-y+1/2,z+1/2) 	(-y,x+1/2,z+1/4) 	(y+1/2,-x,z+3/4)"; "(x,-y,z+1/2) 	(-x+1/2,y+1/2,z) 	(-y,-x+1/2,z+3/4) 	(y+1/2,x,z+1/4)"; "8	a	2.."; "(0,0,z) 	(0,1/2,z+1/4) 	(0,0,z+1/2) 	(0,1/2,z+3/4)";
  ""; "111  1  7  0  8   P -4 2 m"; "8	o	1"; "(x,y,z) 	(-x,-y,z) 	(y,-x,-z) 	(-y,x,-z)";
  "(-x,y,-z) 	(x,-y,-z) 	(-y,-x,z) 	(y,x,z)"; "4	n	..m"; "(x,x,z) 	(-x,-x,z) 	(x,-x,-z) 	(-x,x,-z)"; "4	m	2..";
  "(0,1/2,z) 	(1/2,0,-z) 	(0,1/2,-z) 	(1/2,0,z)"; "4	l	.2."; "(x,1/2,0) 	(-x,1/2,0) 	(1/2,-x,0) 	(1/2,x,0)"; "4	k	.2.";
  "(x,0,1/2) 	(-x,0,1/2) 	(0,-x,1/2) 	(0,x,1/2)"; "4	j	.2."; "(x,1/2,1/2) 	(-x,1/2,1/2) 	(1/2,-x,1/2) 	(1/2,x,1/2)"; "4	i	.2.";
  "(x,0,0) 	(-x,0,0) 	(0,-x,0) 	(0,x,0)"; "2	h	2.m m"; "(1/2,1/2,z) 	(1/2,1/2,-z)"; "2	g	2.m m";
  "(0,0,z) 	(0,0,-z)"; "2	f	222 ."; "(1/2,0,1/2) 	(0,1/2,1/2)"; "2	e	222 .";
  "(1/2,0,0) 	(0,1/2,0)"; "1	d	-42m"; "(1/2,1/2,0)"; "1	c	-42m";
  "(0,0,1/2)"; "1	b	-42m"; "(1/2,1/2,1/2)"; "1	a	-42m";
  "(0,0,0)"; ""; "112  1  7  0  8   P -4 2 c"; "8	n	1";
  "(x,y,z) 	(-x,-y,z) 	(y,-x,-z) 	(-y,x,-z)"; "(-x,y,-z+1/2) 	(x,-y,-z+1/2) 	(-y,-x,z+1/2) 	(y,x,z+1/2)"; "4	m	2.."; "(0,1/2,z) 	(1/2,0,-z) 	(0,1/2,-z+1/2) 	(1/2,0,z+1/2)";
  "4	l	2.."; "(1/2,1/2,z) 	(1/2,1/2,-z) 	(1/2,1/2,-z+1/2) 	(1/2,1/2,z+1/2)"; "4	k	2.."; "(0,0,z) 	(0,0,-z) 	(0,0,-z+1/2) 	(0,0,z+1/2)";
  "4	j	.2."; "(0,y,1/4) 	(0,-y,1/4) 	(y,0,3/4) 	(-y,0,3/4)"; "4	i	.2."; "(x,1/2,1/4) 	(-x,1/2,1/4) 	(1/2,-x,3/4) 	(1/2,x,3/4)";
  "4	h	.2."; "(1/2,y,1/4) 	(1/2,-y,1/4) 	(y,1/2,3/4) 	(-y,1/2,3/4)"; "4	g	.2."; "(x,0,1/4) 	(-x,0,1/4) 	(0,-x,3/4) 	(0,x,3/4)";
  "2	f	-4.."; "(1/2,1/2,0) 	(1/2,1/2,1/2)"; "2	e	-4.."; "(0,0,0) 	(0,0,1/2)";
  "2	d	222 ."; "(0,1/2,1/4) 	(1/2,0,3/4)"; "2	c	222 ."; "(1/2,1/2,1/4) 	(1/2,1/2,3/4)";
  "2	b	222 ."; "(1/2,0,1/4) 	(0,1/2,3/4)"; "2	a	222 ."; "(0,0,1/4) 	(0,0,3/4)";
  ""; "113  1  7  0  8   P -4 21 m"; "8	f	1"; "(x,y,z) 	(-x,-y,z) 	(y,-x,-z) 	(-y,x,-z)";
  "(-x+1/2,y+1/2,-z) 	(x+1/2,-y+1/2,-z) 	(-y+1/2,-x+1/2,z) 	(y+1/2,x+1/2,z)"; "4	e	..m"; "(x,x+1/2,z) 	(-x,-x+1/2,z) 	(x+1/2,-x,-z) 	(-x+1/2,x,-z)"; "4	d	2..";
  "(0,0,z) 	(0,0,-z) 	(1/2,1/2,-z) 	(1/2,1/2,z)"; "2	c	2.m m"; "(0,1/2,z) 	(1/2,0,-z)"; "2	b	-4..";
  "(0,0,1/2) 	(1/2,1/2,1/2)"; "2	a	-4.."; "(0,0,0) 	(1/2,1/2,0)"; "";
  "114  1  7  0  8   P -4 21 c"; "8	e	1"; "(x,y,z) 	(-x,-y,z) 	(y,-x,-z) 	(-y,x,-z)"; "(-x+1/2,y+1/2,-z+1/2) 	(x+1/2,-y+1/2,-z+1/2) 	(-y+1/2,-x+1/2,z+1/2) 	(y+1/2,x+1/2,z+1/2)";
  "4	d	2.."; "(0,1/2,z) 	(1/2,0,-z) 	(1/2,0,-z+1/2) 	(0,1/2,z+1/2)"; "4	c	2.."; "(0,0,z) 	(0,0,-z) 	(1/2,1/2,-z+1/2) 	(1/2,1/2,z+1/2)";
  "2	b	-4.."; "(0,0,1/2) 	(1/2,1/2,0)"; "2	a	-4.."; "(0,0,0) 	(1/2,1/2,1/2)";
  ""; "115  1  7  0  8   P -4 m 2"; "8	l	1"; "(x,y,z) 	(-x,-y,z) 	(y,-x,-z) 	(-y,x,-z)";
  "(x,-y,z) 	(-x,y,z) 	(y,x,-z) 	(-y,-x,-z)"; "4	k	.m."; "(x,1/2,z) 	(-x,1/2,z) 	(1/2,-x,-z) 	(1/2,x,-z)"; "4	j	.m.";
  "(x,0,z) 	(-x,0,z) 	(0,-x,-z) 	(0,x,-z)"; "4	i	..2"; "(x,x,1/2) 	(-x,-x,1/2) 	(x,-x,1/2) 	(-x,x,1/2)"; "4	h	..2";
  "(x,x,0) 	(-x,-x,0) 	(x,-x,0) 	(-x,x,0)"; "2	g	2mm ."; "(0,1/2,z) 	(1/2,0,-z)"; "2	f	2mm .";
  "(1/2,1/2,z) 	(1/2,1/2,-z)"; "2	e	2mm ."; "(0,0,z) 	(0,0,-z)"; "1	d	-4m2";
  "(0,0,1/2)"; "1	c	-4m2"; "(1/2,1/2,1/2)"; "1	b	-4m2";
  "(1/2,1/2,0)"; "1	a	-4m2"; "(0,0,0)"; "";
  "116  1  7  0  8   P -4 c 2"; "8	j	1"; "(x,y,z) 	(-x,-y,z) 	(y,-x,-z) 	(-y,x,-z)"; "(x,-y,z+1/2) 	(-x,y,z+1/2) 	(y,x,-z+1/2) 	(-y,-x,-z+1/2)";
  "4	i	2.."; "(0,1/2,z) 	(1/2,0,-z) 	(0,1/2,z+1/2) 	(1/2,0,-z+1/2)"; "4	h	2.."; "(1/2,1/2,z) 	(1/2,1/2,-z) 	(1/2,1/2,z+1/2) 	(1/2,1/2,-z+1/2)";
  "4	g	2.."; "(0,0,z) 	(0,0,-z) 	(0,0,z+1/2) 	(0,0,-z+1/2)"; "4	f	..2"; "(x,x,3/4) 	(-x,-x,3/4) 	(x,-x,1/4) 	(-x,x,1/4)";
  "4	e	..2"; "(x,x,1/4) 	(-x,-x,1/4) 	(x,-x,3/4) 	(-x,x,3/4)"; "2	d	-4.."; "(1/2,1/2,0) 	(1/2,1/2,1/2)";
  "2	c	-4.."; "(0,0,0) 	(0,0,1/2)"; "2	b	2.2 2"; "(1/2,1/2,1/4) 	(1/2,1/2,3/4)";
  "2	a	2.2 2"; "(0,0,1/4) 	(0,0,3/4)"; ""; "117  1  7  0  8   P -4 b 2";
  "8	i	1"; "(x,y,z) 	(-x,-y,z) 	(y,-x,-z) 	(-y,x,-z)"; "(x+1/2,-y+1/2,z) 	(-x+1/2,y+1/2,z) 	(y+1/2,x+1/2,-z) 	(-y+1/2,-x+1/2,-z)"; "4	h	..2";
  "(x,x+1/2,1/2) 	(-x,-x+1/2,1/2) 	(x+1/2,-x,1/2) 	(-x+1/2,x,1/2)"; "4	g	..2"; "(x,x+1/2,0) 	(-x,-x+1/2,0) 	(x+1/2,-x,0) 	(-x+1/2,x,0)"; "4	f	2..";
  "(0,1/2,z) 	(1/2,0,-z) 	(1/2,0,z) 	(0,1/2,-z)"; "4	e	2.."; "(0,0,z) 	(0,0,-z) 	(1/2,1/2,z) 	(1/2,1/2,-z)"; "2	d	2.2 2";
  "(0,1/2,1/2) 	(1/2,0,1/2)"; "2	c	2.2 2"; "(0,1/2,0) 	(1/2,0,0)"; "2	b	-4..";
  "(0,0,1/2) 	(1/2,1/2,1/2)"; "2	a	-4.."; "(0,0,0) 	(1/2,1/2,0)"; "";
  "118  1  7  0  8   P -4 n 2"; "8	i	1"; "(x,y,z) 	(-x,-y,z) 	(y,-x,-z) 	(-y,x,-z)"; "(x+1/2,-y+1/2,z+1/2) 	(-x+1/2,y+1/2,z+1/2) 	(y+1/2,x+1/2,-z+1/2) 	(-y+1/2,-x+1/2,-z+1/2)";
  "4	h	2.."; "(0,1/2,z) 	(1/2,0,-z) 	(1/2,0,z+1/2) 	(0,1/2,-z+1/2)"; "4	g	..2"; "(x,x+1/2,1/4) 	(-x,-x+1/2,1/4) 	(x+1/2,-x,3/4) 	(-x+1/2,x,3/4)";
  "4	f	..2"; "(x,-x+1/2,1/4) 	(-x,x+1/2,1/4) 	(-x+1/2,-x,3/4) 	(x+1/2,x,3/4)"; "4	e	2.."; "(0,0,z) 	(0,0,-z) 	(1/2,1/2,z+1/2) 	(1/2,1/2,-z+1/2)";
  "2	d	2.2 2"; "(0,1/2,3/4) 	(1/2,0,1/4)"; "2	c	2.2 2"; "(0,1/2,1/4) 	(1/2,0,3/4)";
  "2	b	-4.."; "(0,0,1/2) 	(1/2,1/2,0)"; "2	a	-4.."; "(0,0,0) 	(1/2,1/2,1/2)";
  ""; "119  1  7  0  8   I -4 m 2"; "16	j	1"; "(x,y,z) 	(-x,-y,z) 	(y,-x,-z) 	(-y,x,-z)";
  "(x,-y,z) 	(-x,y,z) 	(y,x,-z) 	(-y,-x,-z)"; "8	i	.m."; "(x,0,z) 	(-x,0,z) 	(0,-x,-z) 	(0,x,-z)"; "8	h	..2";
  "(x,x+1/2,1/4) 	(-x,-x+1/2,1/4) 	(x+1/2,-x,3/4) 	(-x+1/2,x,3/4)"; "8	g	..2"; "(x,x,0) 	(-x,-x,0) 	(x,-x,0) 	(-x,x,0)"; "4	f	2mm .";
  "(0,1/2,z) 	(1/2,0,-z)"; "4	e	2mm ."; "(0,0,z) 	(0,0,-z)"; "2	d	-4m2";
  "(0,1/2,3/4)"; "2	c	-4m2"; "(0,1/2,1/4)"; "2	b	-4m2";
  "(0,0,1/2)"; "2	a	-4m2"; "(0,0,0)"; "";
  "120  1  7  0  8   I -4 c 2"; "16	i	1"; "(x,y,z) 	(-x,-y,z) 	(y,-x,-z) 	(-y,x,-z)"; "(x,-y,z+1/2) 	(-x,y,z+1/2) 	(y,x,-z+1/2) 	(-y,-x,-z+1/2)";
  "8	h	..2"; "(x,x+1/2,0) 	(-x,-x+1/2,0) 	(x+1/2,-x,0) 	(-x+1/2,x,0)"; "8	g	2.."; "(0,1/2,z) 	(1/2,0,-z) 	(0,1/2,z+1/2) 	(1/2,0,-z+1/2)";
  "8	f	2.."; "(0,0,z) 	(0,0,-z) 	(0,0,z+1/2) 	(0,0,-z+1/2)"; "8	e	..2"; "(x,x,1/4) 	(-x,-x,1/4) 	(x,-x,3/4) 	(-x,x,3/4)";
  "4	d	2.2 2"; "(0,1/2,0) 	(1/2,0,0)"; "4	c	-4.."; "(0,1/2,1/4) 	(0,1/2,3/4)";
  "4	b	-4.."; "(0,0,0) 	(0,0,1/2)"; "4	a	2.2 2"; "(0,0,1/4) 	(0,0,3/4)";
  ""; "121  1  7  0  8   I -4 2 m"; "16	j	1"; "(x,y,z) 	(-x,-y,z) 	(y,-x,-z) 	(-y,x,-z)";
  "(-x,y,-z) 	(x,-y,-z) 	(-y,-x,z) 	(y,x,z)"; "8	i	..m"; "(x,x,z) 	(-x,-x,z) 	(x,-x,-z) 	(-x,x,-z)"; "8	h	2..";
  "(0,1/2,z) 	(1/2,0,-z) 	(0,1/2,-z) 	(1/2,0,z)"; "8	g	.2."; "(x,0,1/2) 	(-x,0,1/2) 	(0,-x,1/2) 	(0,x,1/2)"; "8	f	.2.";
  "(x,0,0) 	(-x,0,0) 	(0,-x,0) 	(0,x,0)"; "4	e	2.m m"; "(0,0,z) 	(0,0,-z)"; "4	d	-4..";
  "(0,1/2,1/4) 	(0,1/2,3/4)"; "4	c	222 ."; "(0,1/2,0) 	(1/2,0,0)"; "2	b	-42m";
  "(0,0,1/2)"; "2	a	-42m"; "(0,0,0)"; "";
  "122  1  7  0  8   I -4 2 d"; "16	e	1"; "(x,y,z) 	(-x,-y,z) 	(y,-x,-z) 	(-y,x,-z)"; "(-x+1/2,y,-z+3/4) 	(x+1/2,-y,-z+3/4) 	(-y+1/2,-x,z+3/4) 	(y+1/2,x,z+3/4)";
  "8	d	.2."; "(x,1/4,1/8) 	(-x,3/4,1/8) 	(1/4,-x,7/8) 	(3/4,x,7/8)"; "8	c	2.."; "(0,0,z) 	(0,0,-z) 	(1/2,0,-z+3/4) 	(1/2,0,z+3/4)";
  "4	b	-4.."; "(0,0,1/2) 	(1/2,0,1/4)"; "4	a	-4.."; "(0,0,0) 	(1/2,0,3/4)";
  ""; "123  1  7  1  8   P 4/m m m"; "16	u	1"; "(x,y,z) 	(-x,-y,z) 	(-y,x,z) 	(y,-x,z)";
  "(-x,y,-z) 	(x,-y,-z) 	(y,x,-z) 	(-y,-x,-z)"; "(-x,-y,-z) 	(x,y,-z) 	(y,-x,-z) 	(-y,x,-z)"; "(x,-y,z) 	(-x,y,z) 	(-y,-x,z) 	(y,x,z)"; "8	t	.m.";
  "(x,1/2,z) 	(-x,1/2,z) 	(1/2,x,z) 	(1/2,-x,z)"; "(-x,1/2,-z) 	(x,1/2,-z) 	(1/2,x,-z) 	(1/2,-x,-z)"; "8	s	.m."; "(x,0,z) 	(-x,0,z) 	(0,x,z) 	(0,-x,z)";
  "(-x,0,-z) 	(x,0,-z) 	(0,x,-z) 	(0,-x,-z)"; "8	r	..m"; "(x,x,z) 	(-x,-x,z) 	(-x,x,z) 	(x,-x,z)"; "(-x,x,-z) 	(x,-x,-z) 	(x,x,-z) 	(-x,-x,-z)";
  "8	q	m.."; "(x,y,1/2) 	(-x,-y,1/2) 	(-y,x,1/2) 	(y,-x,1/2)"; "(-x,y,1/2) 	(x,-y,1/2) 	(y,x,1/2) 	(-y,-x,1/2)"; "8	p	m..";
  "(x,y,0) 	(-x,-y,0) 	(-y,x,0) 	(y,-x,0)"; "(-x,y,0) 	(x,-y,0) 	(y,x,0) 	(-y,-x,0)"; "4	o	m2m ."; "(x,1/2,1/2) 	(-x,1/2,1/2) 	(1/2,x,1/2) 	(1/2,-x,1/2)";
  "4	n	m2m ."; "(x,1/2,0) 	(-x,1/2,0) 	(1/2,x,0) 	(1/2,-x,0)"; "4	m	m2m ."; "(x,0,1/2) 	(-x,0,1/2) 	(0,x,1/2) 	(0,-x,1/2)";
  "4	l	m2m ."; "(x,0,0) 	(-x,0,0) 	(0,x,0) 	(0,-x,0)"; "4	k	m.2 m"; "(x,x,1/2) 	(-x,-x,1/2) 	(-x,x,1/2) 	(x,-x,1/2)";
  "4	j	m.2 m"; "(x,x,0) 	(-x,-x,0) 	(-x,x,0) 	(x,-x,0)"; "4	i	2mm ."; "(0,1/2,z) 	(1/2,0,z) 	(0,1/2,-z) 	(1/2,0,-z)";
  "2	h	4mm"; "(1/2,1/2,z) 	(1/2,1/2,-z)"; "2	g	4mm"; "(0,0,z) 	(0,0,-z)";
  "2	f	mmm ."; "(0,1/2,0) 	(1/2,0,0)"; "2	e	mmm ."; "(0,1/2,1/2) 	(1/2,0,1/2)";
  "1	d	4/mmm"; "(1/2,1/2,1/2)"; "1	c	4/mmm"; "(1/2,1/2,0)";
  "1	b	4/mmm"; "(0,0,1/2)"; "1	a	4/mmm"; "(0,0,0)";
  ""; "124  1  7  1  8   P 4/m c c"; "16	n	1"; "(x,y,z) 	(-x,-y,z) 	(-y,x,z) 	(y,-x,z)";
  "(-x,y,-z+1/2) 	(x,-y,-z+1/2) 	(y,x,-z+1/2) 	(-y,-x,-z+1/2)"; "(-x,-y,-z) 	(x,y,-z) 	(y,-x,-z) 	(-y,x,-z)"; "(x,-y,z+1/2) 	(-x,y,z+1/2) 	(-y,-x,z+1/2) 	(y,x,z+1/2)"; "8	m	m..";
  "(x,y,0) 	(-x,-y,0) 	(-y,x,0) 	(y,-x,0)"; "(-x,y,1/2) 	(x,-y,1/2) 	(y,x,1/2) 	(-y,-x,1/2)"; "8	l	.2."; "(x,1/2,1/4) 	(-x,1/2,1/4) 	(1/2,x,1/4) 	(1/2,-x,1/4)";
  "(-x,1/2,3/4) 	(x,1/2,3/4) 	(1/2,-x,3/4) 	(1/2,x,3/4)"; "8	k	.2."; "(x,0,1/4) 	(-x,0,1/4) 	(0,x,1/4) 	(0,-x,1/4)"; "(-x,0,3/4) 	(x,0,3/4) 	(0,-x,3/4) 	(0,x,3/4)";
  "8	j	..2"; "(x,x,1/4) 	(-x,-x,1/4) 	(-x,x,1/4) 	(x,-x,1/4)"; "(-x,-x,3/4) 	(x,x,3/4) 	(x,-x,3/4) 	(-x,x,3/4)"; "8	i	2..";
  "(0,1/2,z) 	(1/2,0,z) 	(0,1/2,-z+1/2) 	(1/2,0,-z+1/2)"; "(0,1/2,-z) 	(1/2,0,-z) 	(0,1/2,z+1/2) 	(1/2,0,z+1/2)"; "4	h	4.."; "(1/2,1/2,z) 	(1/2,1/2,-z+1/2) 	(1/2,1/2,-z) 	(1/2,1/2,z+1/2)";
  "4	g	4.."; "(0,0,z) 	(0,0,-z+1/2) 	(0,0,-z) 	(0,0,z+1/2)"; "4	f	222 ."; "(0,1/2,1/4) 	(1/2,0,1/4) 	(0,1/2,3/4) 	(1/2,0,3/4)";
  "4	e	2/m.."; "(0,1/2,0) 	(1/2,0,0) 	(0,1/2,1/2) 	(1/2,0,1/2)"; "2	d	4/m.."; "(1/2,1/2,0) 	(1/2,1/2,1/2)";
  "2	c	422"; "(1/2,1/2,1/4) 	(1/2,1/2,3/4)"; "2	b	4/m.."; "(0,0,0) 	(0,0,1/2)";
  "2	a	422"; "(0,0,1/4) 	(0,0,3/4)"; ""; "125  1  7  0 16   P 4/n b m";
  "16	n	1"; "(x,y,z) 	(-x,-y,z) 	(-y,x,z) 	(y,-x,z)"; "(-x,y,-z) 	(x,-y,-z) 	(y,x,-z) 	(-y,-x,-z)"; "(-x+1/2,-y+1/2,-z) 	(x+1/2,y+1/2,-z) 	(y+1/2,-x+1/2,-z) 	(-y+1/2,x+1/2,-z)";
  "(x+1/2,-y+1/2,z) 	(-x+1/2,y+1/2,z) 	(-y+1/2,-x+1/2,z) 	(y+1/2,x+1/2,z)"; "8	m	..m"; "(x,x+1/2,z) 	(-x,-x+1/2,z) 	(-x+1/2,x,z) 	(x+1/2,-x,z)"; "(-x,x+1/2,-z) 	(x,-x+1/2,-z) 	(x+1/2,x,-z) 	(-x+1/2,-x,-z)";
  "8	l	.2."; "(x,0,1/2) 	(-x,0,1/2) 	(0,x,1/2) 	(0,-x,1/2)"; "(-x+1/2,1/2,1/2) 	(x+1/2,1/2,1/2) 	(1/2,-x+1/2,1/2) 	(1/2,x+1/2,1/2)"; "8	k	.2.";
  "(x,0,0) 	(-x,0,0) 	(0,x,0) 	(0,-x,0)"; "(-x+1/2,1/2,0) 	(x+1/2,1/2,0) 	(1/2,-x+1/2,0) 	(1/2,x+1/2,0)"; "8	j	..2"; "(x,x,1/2) 	(-x,-x,1/2) 	(-x,x,1/2) 	(x,-x,1/2)";
  "(-x+1/2,-x+1/2,1/2) 	(x+1/2,x+1/2,1/2) 	(x+1/2,-x+1/2,1/2) 	(-x+1/2,x+1/2,1/2)"; "8	i	..2"; "(x,x,0) 	(-x,-x,0) 	(-x,x,0) 	(x,-x,0)"; "(-x+1/2,-x+1/2,0) 	(x+1/2,x+1/2,0) 	(x+1/2,-x+1/2,0) 	(-x+1/2,x+1/2,0)";
  "4	h	2.m m"; "(0,1/2,z) 	(1/2,0,z) 	(0,1/2,-z) 	(1/2,0,-z)"; "4	g	4.."; "(0,0,z) 	(0,0,-z) 	(1/2,1/2,-z) 	(1/2,1/2,z)";
  "4	f	..2/m"; "(1/4,1/4,1/2) 	(3/4,3/4,1/2) 	(3/4,1/4,1/2) 	(1/4,3/4,1/2)"; "4	e	..2/m"; "(1/4,1/4,0) 	(3/4,3/4,0) 	(3/4,1/4,0) 	(1/4,3/4,0)";
  "2	d	-42m"; "(0,1/2,1/2) 	(1/2,0,1/2)"; "2	c	-42m"; "(0,1/2,0) 	(1/2,0,0)";
  "2	b	422"; "(0,0,1/2) 	(1/2,1/2,1/2)"; "2	a	422"; "(0,0,0) 	(1/2,1/2,0)";
  ""; "125  2  7  1  8   P 4/n b m"; "16	n	1"; "(x,y,z) 	(-x+1/2,-y+1/2,z) 	(-y+1/2,x,z) 	(y,-x+1/2,z)";
  "(-x+1/2,y,-z) 	(x,-y+1/2,-z) 	(y,x,-z) 	(-y+1/2,-x+1/2,-z)"; "(-x,-y,-z) 	(x+1/2,y+1/2,-z) 	(y+1/2,-x,-z) 	(-y,x+1/2,-z)"; "(x+1/2,-y,z) 	(-x,y+1/2,z) 	(-y,-x,z) 	(y+1/2,x+1/2,z)"; "8	m	..m";
  "(x,-x,z) 	(-x+1/2,x+1/2,z) 	(x+1/2,x,z) 	(-x,-x+1/2,z)"; "(-x+1/2,-x,-z) 	(x,x+1/2,-z) 	(-x,x,-z) 	(x+1/2,-x+1/2,-z)"; "8	l	.2."; "(x,1/4,1/2) 	(-x+1/2,1/4,1/2) 	(1/4,x,1/2) 	(1/4,-x+1/2,1/2)";
  "(-x,3/4,1/2) 	(x+1/2,3/4,1/2) 	(3/4,-x,1/2) 	(3/4,x+1/2,1/2)"; "8	k	.2."; "(x,1/4,0) 	(-x+1/2,1/4,0) 	(1/4,x,0) 	(1/4,-x+1/2,0)"; "(-x,3/4,0) 	(x+1/2,3/4,0) 	(3/4,-x,0) 	(3/4,x+1/2,0)";
  "8	j	..2"; "(x,x,1/2) 	(-x+1/2,-x+1/2,1/2) 	(-x+1/2,x,1/2) 	(x,-x+1/2,1/2)"; "(-x,-x,1/2) 	(x+1/2,x+1/2,1/2) 	(x+1/2,-x,1/2) 	(-x,x+1/2,1/2)"; "8	i	..2";
  "(x,x,0) 	(-x+1/2,-x+1/2,0) 	(-x+1/2,x,0) 	(x,-x+1/2,0)"; "(-x,-x,0) 	(x+1/2,x+1/2,0) 	(x+1/2,-x,0) 	(-x,x+1/2,0)"; "4	h	2.m m"; "(3/4,1/4,z) 	(1/4,3/4,z) 	(3/4,1/4,-z) 	(1/4,3/4,-z)";
  "4	g	4.."; "(1/4,1/4,z) 	(1/4,1/4,-z) 	(3/4,3/4,-z) 	(3/4,3/4,z)"; "4	f	..2/m"; "(0,0,1/2) 	(1/2,1/2,1/2) 	(1/2,0,1/2) 	(0,1/2,1/2)";
  "4	e	..2/m"; "(0,0,0) 	(1/2,1/2,0) 	(1/2,0,0) 	(0,1/2,0)"; "2	d	-42m"; "(3/4,1/4,1/2) 	(1/4,3/4,1/2)";
  "2	c	-42m"; "(3/4,1/4,0) 	(1/4,3/4,0)"; "2	b	422"; "(1/4,1/4,1/2) 	(3/4,3/4,1/2)";
  "2	a	422"; "(1/4,1/4,0) 	(3/4,3/4,0)"; ""; "126  1  7  0 16   P 4/n n c";
  "16	k	1"; "(x,y,z) 	(-x,-y,z) 	(-y,x,z) 	(y,-x,z)"; "(-x,y,-z) 	(x,-y,-z) 	(y,x,-z) 	(-y,-x,-z)"; "(-x+1/2,-y+1/2,-z+1/2) 	(x+1/2,y+1/2,-z+1/2) 	(y+1/2,-x+1/2,-z+1/2) 	(-y+1/2,x+1/2,-z+1/2)";
  "(x+1/2,-y+1/2,z+1/2) 	(-x+1/2,y+1/2,z+1/2) 	(-y+1/2,-x+1/2,z+1/2) 	(y+1/2,x+1/2,z+1/2)"; "8	j	.2."; "(x,0,1/2) 	(-x,0,1/2) 	(0,x,1/2) 	(0,-x,1/2)"; "(-x+1/2,1/2,0) 	(x+1/2,1/2,0) 	(1/2,-x+1/2,0) 	(1/2,x+1/2,0)";
  "8	i	.2."; "(x,0,0) 	(-x,0,0) 	(0,x,0) 	(0,-x,0)"; "(-x+1/2,1/2,1/2) 	(x+1/2,1/2,1/2) 	(1/2,-x+1/2,1/2) 	(1/2,x+1/2,1/2)"; "8	h	..2";
  "(x,x,0) 	(-x,-x,0) 	(-x,x,0) 	(x,-x,0)"; "(-x+1/2,-x+1/2,1/2) 	(x+1/2,x+1/2,1/2) 	(x+1/2,-x+1/2,1/2) 	(-x+1/2,x+1/2,1/2)"; "8	g	2.."; "(1/2,0,z) 	(0,1/2,z) 	(1/2,0,-z) 	(0,1/2,-z)";
  "(0,1/2,-z+1/2) 	(1/2,0,-z+1/2) 	(0,1/2,z+1/2) 	(1/2,0,z+1/2)"; "8	f	-1"; "(1/4,1/4,1/4) 	(3/4,3/4,1/4) 	(3/4,1/4,1/4) 	(1/4,3/4,1/4)"; "(3/4,1/4,3/4) 	(1/4,3/4,3/4) 	(1/4,1/4,3/4) 	(3/4,3/4,3/4)";
  "4	e	4.."; "(0,0,z) 	(0,0,-z) 	(1/2,1/2,-z+1/2) 	(1/2,1/2,z+1/2)"; "4	d	-4.."; "(1/2,0,1/4) 	(0,1/2,1/4) 	(1/2,0,3/4) 	(0,1/2,3/4)";
  "4	c	222 ."; "(1/2,0,0) 	(0,1/2,0) 	(0,1/2,1/2) 	(1/2,0,1/2)"; "2	b	422"; "(0,0,1/2) 	(1/2,1/2,0)";
  "2	a	422"; "(0,0,0) 	(1/2,1/2,1/2)"; ""; "126  2  7  1  8   P 4/n n c";
  "16	k	1"; "(x,y,z) 	(-x+1/2,-y+1/2,z) 	(-y+1/2,x,z) 	(y,-x+1/2,z)"; "(-x+1/2,y,-z+1/2) 	(x,-y+1/2,-z+1/2) 	(y,x,-z+1/2) 	(-y+1/2,-x+1/2,-z+1/2)"; "(-x,-y,-z) 	(x+1/2,y+1/2,-z) 	(y+1/2,-x,-z) 	(-y,x+1/2,-z)";
  "(x+1/2,-y,z+1/2) 	(-x,y+1/2,z+1/2) 	(-y,-x,z+1/2) 	(y+1/2,x+1/2,z+1/2)"; "8	j	.2."; "(x,3/4,1/4) 	(-x+1/2,3/4,1/4) 	(3/4,x,1/4) 	(3/4,-x+1/2,1/4)"; "(-x,1/4,3/4) 	(x+1/2,1/4,3/4) 	(1/4,-x,3/4) 	(1/4,x+1/2,3/4)";
  "8	i	.2."; "(x,1/4,1/4) 	(-x+1/2,1/4,1/4) 	(1/4,x,1/4) 	(1/4,-x+1/2,1/4)"; "(-x,3/4,3/4) 	(x+1/2,3/4,3/4) 	(3/4,-x,3/4) 	(3/4,x+1/2,3/4)"; "8	h	..2";
  "(x,x,1/4) 	(-x+1/2,-x+1/2,1/4) 	(-x+1/2,x,1/4) 	(x,-x+1/2,1/4)"; "(-x,-x,3/4) 	(x+1/2,x+1/2,3/4) 	(x+1/2,-x,3/4) 	(-x,x+1/2,3/4)"; "8	g	2.."; "(1/4,3/4,z) 	(3/4,1/4,z) 	(1/4,3/4,-z+1/2) 	(3/4,1/4,-z+1/2)";
  "(3/4,1/4,-z) 	(1/4,3/4,-z) 	(3/4,1/4,z+1/2) 	(1/4,3/4,z+1/2)"; "8	f	-1"; "(0,0,0) 	(1/2,1/2,0) 	(1/2,0,0) 	(0,1/2,0)"; "(1/2,0,1/2) 	(0,1/2,1/2) 	(0,0,1/2) 	(1/2,1/2,1/2)";
  "4	e	4.."; "(1/4,1/4,z) 	(1/4,1/4,-z+1/2) 	(3/4,3/4,-z) 	(3/4,3/4,z+1/2)"; "4	d	-4.."; "(1/4,3/4,0) 	(3/4,1/4,0) 	(1/4,3/4,1/2) 	(3/4,1/4,1/2)";
  "4	c	222 ."; "(1/4,3/4,3/4) 	(3/4,1/4,3/4) 	(3/4,1/4,1/4) 	(1/4,3/4,1/4)"; "2	b	422"; "(1/4,1/4,3/4) 	(3/4,3/4,1/4)";
  "2	a	422"; "(1/4,1/4,1/4) 	(3/4,3/4,3/4)"; ""; "127  1  7  1  8   P 4/m b m";
  "16	l	1"; "(x,y,z) 	(-x,-y,z) 	(-y,x,z) 	(y,-x,z)"; "(-x+1/2,y+1/2,-z) 	(x+1/2,-y+1/2,-z) 	(y+1/2,x+1/2,-z) 	(-y+1/2,-x+1/2,-z)"; "(-x,-y,-z) 	(x,y,-z) 	(y,-x,-z) 	(-y,x,-z)";
  "(x+1/2,-y+1/2,z) 	(-x+1/2,y+1/2,z) 	(-y+1/2,-x+1/2,z) 	(y+1/2,x+1/2,z)"; "8	k	..m"; "(x,x+1/2,z) 	(-x,-x+1/2,z) 	(-x+1/2,x,z) 	(x+1/2,-x,z)"; "(-x+1/2,x,-z) 	(x+1/2,-x,-z) 	(x,x+1/2,-z) 	(-x,-x+1/2,-z)";
  "8	j	m.."; "(x,y,1/2) 	(-x,-y,1/2) 	(-y,x,1/2) 	(y,-x,1/2)"; "(-x+1/2,y+1/2,1/2) 	(x+1/2,-y+1/2,1/2) 	(y+1/2,x+1/2,1/2) 	(-y+1/2,-x+1/2,1/2)"; "8	i	m..";
  "(x,y,0) 	(-x,-y,0) 	(-y,x,0) 	(y,-x,0)"; "(-x+1/2,y+1/2,0) 	(x+1/2,-y+1/2,0) 	(y+1/2,x+1/2,0) 	(-y+1/2,-x+1/2,0)"; "4	h	m.2 m"; "(x,x+1/2,1/2) 	(-x,-x+1/2,1/2) 	(-x+1/2,x,1/2) 	(x+1/2,-x,1/2)";
  "4	g	m.2 m"; "(x,x+1/2,0) 	(-x,-x+1/2,0) 	(-x+1/2,x,0) 	(x+1/2,-x,0)"; "4	f	2.m m"; "(0,1/2,z) 	(1/2,0,z) 	(1/2,0,-z) 	(0,1/2,-z)";
  "4	e	4.."; "(0,0,z) 	(1/2,1/2,-z) 	(0,0,-z) 	(1/2,1/2,z)"; "2	d	m.m m"; "(0,1/2,0) 	(1/2,0,0)";
  "2	c	m.m m"; "(0,1/2,1/2) 	(1/2,0,1/2)"; "2	b	4/m.."; "(0,0,1/2) 	(1/2,1/2,1/2)";
  "2	a	4/m.."; "(0,0,0) 	(1/2,1/2,0)"; ""; "128  1  7  1  8   P 4/m n c";
  "16	i	1"; "(x,y,z) 	(-x,-y,z) 	(-y,x,z) 	(y,-x,z)"; "(-x+1/2,y+1/2,-z+1/2) 	(x+1/2,-y+1/2,-z+1/2) 	(y+1/2,x+1/2,-z+1/2) 	(-y+1/2,-x+1/2,-z+1/2)"; "(-x,-y,-z) 	(x,y,-z) 	(y,-x,-z) 	(-y,x,-z)";
  "(x+1/2,-y+1/2,z+1/2) 	(-x+1/2,y+1/2,z+1/2) 	(-y+1/2,-x+1/2,z+1/2) 	(y+1/2,x+1/2,z+1/2)"; "8	h	m.."; "(x,y,0) 	(-x,-y,0) 	(-y,x,0) 	(y,-x,0)"; "(-x+1/2,y+1/2,1/2) 	(x+1/2,-y+1/2,1/2) 	(y+1/2,x+1/2,1/2) 	(-y+1/2,-x+1/2,1/2)";
  "8	g	..2"; "(x,x+1/2,1/4) 	(-x,-x+1/2,1/4) 	(-x+1/2,x,1/4) 	(x+1/2,-x,1/4)"; "(-x,-x+1/2,3/4) 	(x,x+1/2,3/4) 	(x+1/2,-x,3/4) 	(-x+1/2,x,3/4)"; "8	f	2..";
  "(0,1/2,z) 	(1/2,0,z) 	(1/2,0,-z+1/2) 	(0,1/2,-z+1/2)"; "(0,1/2,-z) 	(1/2,0,-z) 	(1/2,0,z+1/2) 	(0,1/2,z+1/2)"; "4	e	4.."; "(0,0,z) 	(1/2,1/2,-z+1/2) 	(0,0,-z) 	(1/2,1/2,z+1/2)";
  "4	d	2.2 2"; "(0,1/2,1/4) 	(1/2,0,1/4) 	(0,1/2,3/4) 	(1/2,0,3/4)"; "4	c	2/m.."; "(0,1/2,0) 	(1/2,0,0) 	(1/2,0,1/2) 	(0,1/2,1/2)";
  "2	b	4/m.."; "(0,0,1/2) 	(1/2,1/2,0)"; "2	a	4/m.."; "(0,0,0) 	(1/2,1/2,1/2)";
  ""; "129  1  7  0 16   P 4/n m m"; "16	k	1"; "(x,y,z) 	(-x,-y,z) 	(-y+1/2,x+1/2,z) 	(y+1/2,-x+1/2,z)";
  "(-x+1/2,y+1/2,-z) 	(x+1/2,-y+1/2,-z) 	(y,x,-z) 	(-y,-x,-z)"; "(-x+1/2,-y+1/2,-z) 	(x+1/2,y+1/2,-z) 	(y,-x,-z) 	(-y,x,-z)"; "(x,-y,z) 	(-x,y,z) 	(-y+1/2,-x+1/2,z) 	(y+1/2,x+1/2,z)"; "8	j	..m";
  "(x,x+1/2,z) 	(-x,-x+1/2,z) 	(-x,x+1/2,z) 	(x,-x+1/2,z)"; "(-x+1/2,x,-z) 	(x+1/2,-x,-z) 	(x+1/2,x,-z) 	(-x+1/2,-x,-z)"; "8	i	.m."; "(0,y,z) 	(0,-y,z) 	(-y+1/2,1/2,z) 	(y+1/2,1/2,z)";
  "(1/2,y+1/2,-z) 	(1/2,-y+1/2,-z) 	(y,0,-z) 	(-y,0,-z)"; "8	h	..2"; "(x,x,1/2) 	(-x,-x,1/2) 	(-x+1/2,x+1/2,1/2) 	(x+1/2,-x+1/2,1/2)"; "(-x+1/2,-x+1/2,1/2) 	(x+1/2,x+1/2,1/2) 	(x,-x,1/2) 	(-x,x,1/2)";
  "8	g	..2"; "(x,x,0) 	(-x,-x,0) 	(-x+1/2,x+1/2,0) 	(x+1/2,-x+1/2,0)"; "(-x+1/2,-x+1/2,0) 	(x+1/2,x+1/2,0) 	(x,-x,0) 	(-x,x,0)"; "4	f	2mm .";
  "(0,0,z) 	(1/2,1/2,z) 	(1/2,1/2,-z) 	(0,0,-z)"; "4	e	..2/m"; "(1/4,1/4,1/2) 	(3/4,3/4,1/2) 	(1/4,3/4,1/2) 	(3/4,1/4,1/2)"; "4	d	..2/m";
  "(1/4,1/4,0) 	(3/4,3/4,0) 	(1/4,3/4,0) 	(3/4,1/4,0)"; "2	c	4mm"; "(0,1/2,z) 	(1/2,0,-z)"; "2	b	-4m2";
  "(0,0,1/2) 	(1/2,1/2,1/2)"; "2	a	-4m2"; "(0,0,0) 	(1/2,1/2,0)"; "";
  "129  2  7  1  8   P 4/n m m"; "16	k	1"; "(x,y,z) 	(-x+1/2,-y+1/2,z) 	(-y+1/2,x,z) 	(y,-x+1/2,z)"; "(-x,y+1/2,-z) 	(x+1/2,-y,-z) 	(y+1/2,x+1/2,-z) 	(-y,-x,-z)";
  "(-x,-y,-z) 	(x+1/2,y+1/2,-z) 	(y+1/2,-x,-z) 	(-y,x+1/2,-z)"; "(x,-y+1/2,z) 	(-x+1/2,y,z) 	(-y+1/2,-x+1/2,z) 	(y,x,z)"; "8	j	..m"; "(x,x,z) 	(-x+1/2,-x+1/2,z) 	(-x+1/2,x,z) 	(x,-x+1/2,z)";
  "(-x,x+1/2,-z) 	(x+1/2,-x,-z) 	(x+1/2,x+1/2,-z) 	(-x,-x,-z)"; "8	i	.m."; "(1/4,y,z) 	(1/4,-y+1/2,z) 	(-y+1/2,1/4,z) 	(y,1/4,z)"; "(3/4,y+1/2,-z) 	(3/4,-y,-z) 	(y+1/2,3/4,-z) 	(-y,3/4,-z)";
  "8	h	..2"; "(x,-x,1/2) 	(-x+1/2,x+1/2,1/2) 	(x+1/2,x,1/2) 	(-x,-x+1/2,1/2)"; "(-x,x,1/2) 	(x+1/2,-x+1/2,1/2) 	(-x+1/2,-x,1/2) 	(x,x+1/2,1/2)"; "8	g	..2";
  "(x,-x,0) 	(-x+1/2,x+1/2,0) 	(x+1/2,x,0) 	(-x,-x+1/2,0)"; "(-x,x,0) 	(x+1/2,-x+1/2,0) 	(-x+1/2,-x,0) 	(x,x+1/2,0)"; "4	f	2mm ."; "(3/4,1/4,z) 	(1/4,3/4,z) 	(1/4,3/4,-z) 	(3/4,1/4,-z)";
  "4	e	..2/m"; "(0,0,1/2) 	(1/2,1/2,1/2) 	(1/2,0,1/2) 	(0,1/2,1/2)"; "4	d	..2/m"; "(0,0,0) 	(1/2,1/2,0) 	(1/2,0,0) 	(0,1/2,0)";
  "2	c	4mm"; "(1/4,1/4,z) 	(3/4,3/4,-z)"; "2	b	-4m2"; "(3/4,1/4,1/2) 	(1/4,3/4,1/2)";
  "2	a	-4m2"; "(3/4,1/4,0) 	(1/4,3/4,0)"; ""; "130  1  7  0 16   P 4/n c c";
  "16	g	1"; "(x,y,z) 	(-x,-y,z) 	(-y+1/2,x+1/2,z) 	(y+1/2,-x+1/2,z)"; "(-x+1/2,y+1/2,-z+1/2) 	(x+1/2,-y+1/2,-z+1/2) 	(y,x,-z+1/2) 	(-y,-x,-z+1/2)"; "(-x+1/2,-y+1/2,-z) 	(x+1/2,y+1/2,-z) 	(y,-x,-z) 	(-y,x,-z)";
  "(x,-y,z+1/2) 	(-x,y,z+1/2) 	(-y+1/2,-x+1/2,z+1/2) 	(y+1/2,x+1/2,z+1/2)"; "8	f	..2"; "(x,x,1/4) 	(-x,-x,1/4) 	(-x+1/2,x+1/2,1/4) 	(x+1/2,-x+1/2,1/4)"; "(-x+1/2,-x+1/2,3/4) 	(x+1/2,x+1/2,3/4) 	(x,-x,3/4) 	(-x,x,3/4)";
  "8	e	2.."; "(0,0,z) 	(1/2,1/2,z) 	(1/2,1/2,-z+1/2) 	(0,0,-z+1/2)"; "(1/2,1/2,-z) 	(0,0,-z) 	(0,0,z+1/2) 	(1/2,1/2,z+1/2)"; "8	d	-1";
  "(1/4,1/4,0) 	(3/4,3/4,0) 	(1/4,3/4,0) 	(3/4,1/4,0)"; "(1/4,3/4,1/2) 	(3/4,1/4,1/2) 	(1/4,1/4,1/2) 	(3/4,3/4,1/2)"; "4	c	4.."; "(0,1/2,z) 	(1/2,0,-z+1/2) 	(1/2,0,-z) 	(0,1/2,z+1/2)";
  "4	b	-4.."; "(0,0,0) 	(1/2,1/2,0) 	(1/2,1/2,1/2) 	(0,0,1/2)"; "4	a	2.2 2"; "(0,0,1/4) 	(1/2,1/2,1/4) 	(1/2,1/2,3/4) 	(0,0,3/4)";
  ""; "130  2  7  1  8   P 4/n c c"; "16	g	1"; "(x,y,z) 	(-x+1/2,-y+1/2,z) 	(-y+1/2,x,z) 	(y,-x+1/2,z)";
  "(-x,y+1/2,-z+1/2) 	(x+1/2,-y,-z+1/2) 	(y+1/2,x+1/2,-z+1/2) 	(-y,-x,-z+1/2)"; "(-x,-y,-z) 	(x+1/2,y+1/2,-z) 	(y+1/2,-x,-z) 	(-y,x+1/2,-z)"; "(x,-y+1/2,z+1/2) 	(-x+1/2,y,z+1/2) 	(-y+1/2,-x+1/2,z+1/2) 	(y,x,z+1/2)"; "8	f	..2";
  "(x,-x,1/4) 	(-x+1/2,x+1/2,1/4) 	(x+1/2,x,1/4) 	(-x,-x+1/2,1/4)"; "(-x,x,3/4) 	(x+1/2,-x+1/2,3/4) 	(-x+1/2,-x,3/4) 	(x,x+1/2,3/4)"; "8	e	2.."; "(3/4,1/4,z) 	(1/4,3/4,z) 	(1/4,3/4,-z+1/2) 	(3/4,1/4,-z+1/2)";
  "(1/4,3/4,-z) 	(3/4,1/4,-z) 	(3/4,1/4,z+1/2) 	(1/4,3/4,z+1/2)"; "8	d	-1"; "(0,0,0) 	(1/2,1/2,0) 	(1/2,0,0) 	(0,1/2,0)"; "(0,1/2,1/2) 	(1/2,0,1/2) 	(1/2,1/2,1/2) 	(0,0,1/2)";
  "4	c	4.."; "(1/4,1/4,z) 	(3/4,3/4,-z+1/2) 	(3/4,3/4,-z) 	(1/4,1/4,z+1/2)"; "4	b	-4.."; "(3/4,1/4,0) 	(1/4,3/4,0) 	(1/4,3/4,1/2) 	(3/4,1/4,1/2)";
  "4	a	2.2 2"; "(3/4,1/4,1/4) 	(1/4,3/4,1/4) 	(1/4,3/4,3/4) 	(3/4,1/4,3/4)"; ""; "131  1  7  1  8   P 42/m m c";
  "16	r	1"; "(x,y,z) 	(-x,-y,z) 	(-y,x,z+1/2) 	(y,-x,z+1/2)"; "(-x,y,-z) 	(x,-y,-z) 	(y,x,-z+1/2) 	(-y,-x,-z+1/2)"; "(-x,-y,-z) 	(x,y,-z) 	(y,-x,-z+1/2) 	(-y,x,-z+1/2)";
  "(x,-y,z) 	(-x,y,z) 	(-y,-x,z+1/2) 	(y,x,z+1/2)"; "8	q	m.."; "(x,y,0) 	(-x,-y,0) 	(-y,x,1/2) 	(y,-x,1/2)"; "(-x,y,0) 	(x,-y,0) 	(y,x,1/2) 	(-y,-x,1/2)";
  "8	p	.m."; "(1/2,y,z) 	(1/2,-y,z) 	(-y,1/2,z+1/2) 	(y,1/2,z+1/2)"; "(1/2,y,-z) 	(1/2,-y,-z) 	(y,1/2,-z+1/2) 	(-y,1/2,-z+1/2)"; "8	o	.m.";
  "(0,y,z) 	(0,-y,z) 	(-y,0,z+1/2) 	(y,0,z+1/2)"; "(0,y,-z) 	(0,-y,-z) 	(y,0,-z+1/2) 	(-y,0,-z+1/2)"; "8	n	..2"; "(x,x,1/4) 	(-x,-x,1/4) 	(-x,x,3/4) 	(x,-x,3/4)";
  "(-x,-x,3/4) 	(x,x,3/4) 	(x,-x,1/4) 	(-x,x,1/4)"; "4	m	m2m ."; "(x,1/2,0) 	(-x,1/2,0) 	(1/2,x,1/2) 	(1/2,-x,1/2)"; "4	l	m2m .";
  "(x,0,1/2) 	(-x,0,1/2) 	(0,x,0) 	(0,-x,0)"; "4	k	m2m ."; "(x,1/2,1/2) 	(-x,1/2,1/2) 	(1/2,x,0) 	(1/2,-x,0)"; "4	j	m2m .";
  "(x,0,0) 	(-x,0,0) 	(0,x,1/2) 	(0,-x,1/2)"; "4	i	2mm ."; "(0,1/2,z) 	(1/2,0,z+1/2) 	(0,1/2,-z) 	(1/2,0,-z+1/2)"; "4	h	2mm .";
  "(1/2,1/2,z) 	(1/2,1/2,z+1/2) 	(1/2,1/2,-z) 	(1/2,1/2,-z+1/2)"; "4	g	2mm ."; "(0,0,z) 	(0,0,z+1/2) 	(0,0,-z) 	(0,0,-z+1/2)"; "2	f	-4m2";
  "(1/2,1/2,1/4) 	(1/2,1/2,3/4)"; "2	e	-4m2"; "(0,0,1/4) 	(0,0,3/4)"; "2	d	mmm .";
  "(0,1/2,1/2) 	(1/2,0,0)"; "2	c	mmm ."; "(0,1/2,0) 	(1/2,0,1/2)"; "2	b	mmm .";
  "(1/2,1/2,0) 	(1/2,1/2,1/2)"; "2	a	mmm ."; "(0,0,0) 	(0,0,1/2)"; "";
  "132  1  7  1  8   P 42/m c m"; "16	p	1"; "(x,y,z) 	(-x,-y,z) 	(-y,x,z+1/2) 	(y,-x,z+1/2)"; "(-x,y,-z+1/2) 	(x,-y,-z+1/2) 	(y,x,-z) 	(-y,-x,-z)";
  "(-x,-y,-z) 	(x,y,-z) 	(y,-x,-z+1/2) 	(-y,x,-z+1/2)"; "(x,-y,z+1/2) 	(-x,y,z+1/2) 	(-y,-x,z) 	(y,x,z)"; "8	o	..m"; "(x,x,z) 	(-x,-x,z) 	(-x,x,z+1/2) 	(x,-x,z+1/2)";
  "(-x,x,-z+1/2) 	(x,-x,-z+1/2) 	(x,x,-z) 	(-x,-x,-z)"; "8	n	m.."; "(x,y,0) 	(-x,-y,0) 	(-y,x,1/2) 	(y,-x,1/2)"; "(-x,y,1/2) 	(x,-y,1/2) 	(y,x,0) 	(-y,-x,0)";
  "8	m	.2."; "(x,1/2,1/4) 	(-x,1/2,1/4) 	(1/2,x,3/4) 	(1/2,-x,3/4)"; "(-x,1/2,3/4) 	(x,1/2,3/4) 	(1/2,-x,1/4) 	(1/2,x,1/4)"; "8	l	.2.";
  "(x,0,1/4) 	(-x,0,1/4) 	(0,x,3/4) 	(0,-x,3/4)"; "(-x,0,3/4) 	(x,0,3/4) 	(0,-x,1/4) 	(0,x,1/4)"; "8	k	2.."; "(0,1/2,z) 	(1/2,0,z+1/2) 	(0,1/2,-z+1/2) 	(1/2,0,-z)";
  "(0,1/2,-z) 	(1/2,0,-z+1/2) 	(0,1/2,z+1/2) 	(1/2,0,z)"; "4	j	m.2 m"; "(x,x,1/2) 	(-x,-x,1/2) 	(-x,x,0) 	(x,-x,0)"; "4	i	m.2 m";
  "(x,x,0) 	(-x,-x,0) 	(-x,x,1/2) 	(x,-x,1/2)"; "4	h	2.m m"; "(1/2,1/2,z) 	(1/2,1/2,z+1/2) 	(1/2,1/2,-z+1/2) 	(1/2,1/2,-z)"; "4	g	2.m m";
  "(0,0,z) 	(0,0,z+1/2) 	(0,0,-z+1/2) 	(0,0,-z)"; "4	f	2/m.."; "(0,1/2,0) 	(1/2,0,1/2) 	(0,1/2,1/2) 	(1/2,0,0)"; "4	e	222 .";
  "(0,1/2,1/4) 	(1/2,0,3/4) 	(0,1/2,3/4) 	(1/2,0,1/4)"; "2	d	-42m"; "(1/2,1/2,1/4) 	(1/2,1/2,3/4)"; "2	c	m.m m";
  "(1/2,1/2,0) 	(1/2,1/2,1/2)"; "2	b	-42m"; "(0,0,1/4) 	(0,0,3/4)"; "2	a	m.m m";
  "(0,0,0) 	(0,0,1/2)"; ""; "133  1  7  0 16   P 42/n b c"; "16	k	1";
  "(x,y,z) 	(-x,-y,z) 	(-y+1/2,x+1/2,z+1/2) 	(y+1/2,-x+1/2,z+1/2)"; "(-x,y,-z+1/2) 	(x,-y,-z+1/2) 	(y+1/2,x+1/2,-z) 	(-y+1/2,-x+1/2,-z)"; "(-x+1/2,-y+1/2,-z+1/2) 	(x+1/2,y+1/2,-z+1/2) 	(y,-x,-z) 	(-y,x,-z)"; "(x+1/2,-y+1/2,z) 	(-x+1/2,y+1/2,z) 	(-y,-x,z+1/2) 	(y,x,z+1/2)";
  "8	j	..2"; "(x,x+1/2,0) 	(-x,-x+1/2,0) 	(-x,x+1/2,1/2) 	(x,-x+1/2,1/2)"; "(-x+1/2,-x,1/2) 	(x+1/2,x,1/2) 	(x+1/2,-x,0) 	(-x+1/2,x,0)"; "8	i	.2.";
  "(x,0,3/4) 	(-x,0,3/4) 	(1/2,x+1/2,1/4) 	(1/2,-x+1/2,1/4)"; "(-x+1/2,1/2,3/4) 	(x+1/2,1/2,3/4) 	(0,-x,1/4) 	(0,x,1/4)"; "8	h	.2."; "(x,0,1/4) 	(-x,0,1/4) 	(1/2,x+1/2,3/4) 	(1/2,-x+1/2,3/4)";
  "(-x+1/2,1/2,1/4) 	(x+1/2,1/2,1/4) 	(0,-x,3/4) 	(0,x,3/4)"; "8	g	2.."; "(0,0,z) 	(1/2,1/2,z+1/2) 	(0,0,-z+1/2) 	(1/2,1/2,-z)"; "(1/2,1/2,-z+1/2) 	(0,0,-z) 	(1/2,1/2,z) 	(0,0,z+1/2)";
  "8	f	2.."; "(0,1/2,z) 	(0,1/2,z+1/2) 	(0,1/2,-z+1/2) 	(0,1/2,-z)"; "(1/2,0,-z+1/2) 	(1/2,0,-z) 	(1/2,0,z) 	(1/2,0,z+1/2)"; "8	e	-1";
  "(1/4,1/4,1/4) 	(3/4,3/4,1/4) 	(1/4,3/4,3/4) 	(3/4,1/4,3/4)"; "(3/4,1/4,1/4) 	(1/4,3/4,1/4) 	(3/4,3/4,3/4) 	(1/4,1/4,3/4)"; "4	d	-4.."; "(0,0,0) 	(1/2,1/2,1/2) 	(0,0,1/2) 	(1/2,1/2,0)";
  "4	c	2.2 2"; "(0,1/2,0) 	(0,1/2,1/2) 	(1/2,0,1/2) 	(1/2,0,0)"; "4	b	222 ."; "(0,0,1/4) 	(1/2,1/2,3/4) 	(1/2,1/2,1/4) 	(0,0,3/4)";
  "4	a	222 ."; "(0,1/2,1/4) 	(0,1/2,3/4) 	(1/2,0,1/4) 	(1/2,0,3/4)"; ""; "133  2  7  1  8   P 42/n b c";
  "16	k	1"; "(x,y,z) 	(-x+1/2,-y+1/2,z) 	(-y+1/2,x,z+1/2) 	(y,-x+1/2,z+1/2)"; "(-x+1/2,y,-z) 	(x,-y+1/2,-z) 	(y,x,-z+1/2) 	(-y+1/2,-x+1/2,-z+1/2)"; "(-x,-y,-z) 	(x+1/2,y+1/2,-z) 	(y+1/2,-x,-z+1/2) 	(-y,x+1/2,-z+1/2)";
  "(x+1/2,-y,z) 	(-x,y+1/2,z) 	(-y,-x,z+1/2) 	(y+1/2,x+1/2,z+1/2)"; "8	j	..2"; "(x,x,1/4) 	(-x+1/2,-x+1/2,1/4) 	(-x+1/2,x,3/4) 	(x,-x+1/2,3/4)"; "(-x,-x,3/4) 	(x+1/2,x+1/2,3/4) 	(x+1/2,-x,1/4) 	(-x,x+1/2,1/4)";
  "8	i	.2."; "(x,1/4,1/2) 	(-x+1/2,1/4,1/2) 	(1/4,x,0) 	(1/4,-x+1/2,0)"; "(-x,3/4,1/2) 	(x+1/2,3/4,1/2) 	(3/4,-x,0) 	(3/4,x+1/2,0)"; "8	h	.2.";
  "(x,1/4,0) 	(-x+1/2,1/4,0) 	(1/4,x,1/2) 	(1/4,-x+1/2,1/2)"; "(-x,3/4,0) 	(x+1/2,3/4,0) 	(3/4,-x,1/2) 	(3/4,x+1/2,1/2)"; "8	g	2.."; "(3/4,1/4,z) 	(1/4,3/4,z+1/2) 	(3/4,1/4,-z) 	(1/4,3/4,-z+1/2)";
  "(1/4,3/4,-z) 	(3/4,1/4,-z+1/2) 	(1/4,3/4,z) 	(3/4,1/4,z+1/2)"; "8	f	2.."; "(1/4,1/4,z) 	(1/4,1/4,z+1/2) 	(1/4,1/4,-z) 	(1/4,1/4,-z+1/2)"; "(3/4,3/4,-z) 	(3/4,3/4,-z+1/2) 	(3/4,3/4,z) 	(3/4,3/4,z+1/2)";
  "8	e	-1"; "(0,0,0) 	(1/2,1/2,0) 	(1/2,0,1/2) 	(0,1/2,1/2)"; "(1/2,0,0) 	(0,1/2,0) 	(0,0,1/2) 	(1/2,1/2,1/2)"; "4	d	-4..";
  "(3/4,1/4,3/4) 	(1/4,3/4,1/4) 	(3/4,1/4,1/4) 	(1/4,3/4,3/4)"; "4	c	2.2 2"; "(1/4,1/4,1/4) 	(1/4,1/4,3/4) 	(3/4,3/4,3/4) 	(3/4,3/4,1/4)"; "4	b	222 .";
  "(3/4,1/4,0) 	(1/4,3/4,1/2) 	(1/4,3/4,0) 	(3/4,1/4,1/2)"; "4	a	222 ."; "(1/4,1/4,0) 	(1/4,1/4,1/2) 	(3/4,3/4,0) 	(3/4,3/4,1/2)"; "";
  "134  1  7  0 16   P 42/n n m"; "16	n	1"; "(x,y,z) 	(-x,-y,z) 	(-y+1/2,x+1/2,z+1/2) 	(y+1/2,-x+1/2,z+1/2)"; "(-x,y,-z) 	(x,-y,-z) 	(y+1/2,x+1/2,-z+1/2) 	(-y+1/2,-x+1/2,-z+1/2)";
  "(-x+1/2,-y+1/2,-z+1/2) 	(x+1/2,y+1/2,-z+1/2) 	(y,-x,-z) 	(-y,x,-z)"; "(x+1/2,-y+1/2,z+1/2) 	(-x+1/2,y+1/2,z+1/2) 	(-y,-x,z) 	(y,x,z)"; "8	m	..m"; "(x,x,z) 	(-x,-x,z) 	(-x+1/2,x+1/2,z+1/2) 	(x+1/2,-x+1/2,z+1/2)";
  "(-x,x,-z) 	(x,-x,-z) 	(x+1/2,x+1/2,-z+1/2) 	(-x+1/2,-x+1/2,-z+1/2)"; "8	l	..2"; "(x,x+1/2,3/4) 	(-x,-x+1/2,3/4) 	(-x,x+1/2,1/4) 	(x,-x+1/2,1/4)"; "(-x+1/2,-x,3/4) 	(x+1/2,x,3/4) 	(x+1/2,-x,1/4) 	(-x+1/2,x,1/4)";
  "8	k	..2"; "(x,x+1/2,1/4) 	(-x,-x+1/2,1/4) 	(-x,x+1/2,3/4) 	(x,-x+1/2,3/4)"; "(-x+1/2,-x,1/4) 	(x+1/2,x,1/4) 	(x+1/2,-x,3/4) 	(-x+1/2,x,3/4)"; "8	j	.2.";
  "(x,0,1/2) 	(-x,0,1/2) 	(1/2,x+1/2,0) 	(1/2,-x+1/2,0)"; "(-x+1/2,1/2,0) 	(x+1/2,1/2,0) 	(0,-x,1/2) 	(0,x,1/2)"; "8	i	.2."; "(x,0,0) 	(-x,0,0) 	(1/2,x+1/2,1/2) 	(1/2,-x+1/2,1/2)";
  "(-x+1/2,1/2,1/2) 	(x+1/2,1/2,1/2) 	(0,-x,0) 	(0,x,0)"; "8	h	2.."; "(0,1/2,z) 	(0,1/2,z+1/2) 	(0,1/2,-z) 	(0,1/2,-z+1/2)"; "(1/2,0,-z+1/2) 	(1/2,0,-z) 	(1/2,0,z+1/2) 	(1/2,0,z)";
  "4	g	2.m m"; "(0,0,z) 	(1/2,1/2,z+1/2) 	(0,0,-z) 	(1/2,1/2,-z+1/2)"; "4	f	..2/m"; "(3/4,3/4,3/4) 	(1/4,1/4,3/4) 	(3/4,1/4,1/4) 	(1/4,3/4,1/4)";
  "4	e	..2/m"; "(1/4,1/4,1/4) 	(3/4,3/4,1/4) 	(1/4,3/4,3/4) 	(3/4,1/4,3/4)"; "4	d	2.2 2"; "(0,1/2,1/4) 	(0,1/2,3/4) 	(1/2,0,1/4) 	(1/2,0,3/4)";
  "4	c	222 ."; "(0,1/2,0) 	(0,1/2,1/2) 	(1/2,0,1/2) 	(1/2,0,0)"; "2	b	-42m"; "(0,0,1/2) 	(1/2,1/2,0)";
  "2	a	-42m"; "(0,0,0) 	(1/2,1/2,1/2)"; ""; "134  2  7  1  8   P 42/n n m";
  "16	n	1"; "(x,y,z) 	(-x+1/2,-y+1/2,z) 	(-y+1/2,x,z+1/2) 	(y,-x+1/2,z+1/2)"; "(-x+1/2,y,-z+1/2) 	(x,-y+1/2,-z+1/2) 	(y,x,-z) 	(-y+1/2,-x+1/2,-z)"; "(-x,-y,-z) 	(x+1/2,y+1/2,-z) 	(y+1/2,-x,-z+1/2) 	(-y,x+1/2,-z+1/2)";
  "(x+1/2,-y,z+1/2) 	(-x,y+1/2,z+1/2) 	(-y,-x,z) 	(y+1/2,x+1/2,z)"; "8	m	..m"; "(x,-x,z) 	(-x+1/2,x+1/2,z) 	(x+1/2,x,z+1/2) 	(-x,-x+1/2,z+1/2)"; "(-x+1/2,-x,-z+1/2) 	(x,x+1/2,-z+1/2) 	(-x,x,-z) 	(x+1/2,-x+1/2,-z)";
  "8	l	..2"; "(x,x,1/2) 	(-x+1/2,-x+1/2,1/2) 	(-x+1/2,x,0) 	(x,-x+1/2,0)"; "(-x,-x,1/2) 	(x+1/2,x+1/2,1/2) 	(x+1/2,-x,0) 	(-x,x+1/2,0)"; "8	k	..2";
  "(x,x,0) 	(-x+1/2,-x+1/2,0) 	(-x+1/2,x,1/2) 	(x,-x+1/2,1/2)"; "(-x,-x,0) 	(x+1/2,x+1/2,0) 	(x+1/2,-x,1/2) 	(-x,x+1/2,1/2)"; "8	j	.2."; "(x,1/4,1/4) 	(-x+1/2,1/4,1/4) 	(1/4,x,3/4) 	(1/4,-x+1/2,3/4)";
  "(-x,3/4,3/4) 	(x+1/2,3/4,3/4) 	(3/4,-x,1/4) 	(3/4,x+1/2,1/4)"; "8	i	.2."; "(x,1/4,3/4) 	(-x+1/2,1/4,3/4) 	(1/4,x,1/4) 	(1/4,-x+1/2,1/4)"; "(-x,3/4,1/4) 	(x+1/2,3/4,1/4) 	(3/4,-x,3/4) 	(3/4,x+1/2,3/4)";
  "8	h	2.."; "(1/4,1/4,z) 	(1/4,1/4,z+1/2) 	(1/4,1/4,-z+1/2) 	(1/4,1/4,-z)"; "(3/4,3/4,-z) 	(3/4,3/4,-z+1/2) 	(3/4,3/4,z+1/2) 	(3/4,3/4,z)"; "4	g	2.m m";
  "(3/4,1/4,z) 	(1/4,3/4,z+1/2) 	(3/4,1/4,-z+1/2) 	(1/4,3/4,-z)"; "4	f	..2/m"; "(0,0,0) 	(1/2,1/2,0) 	(1/2,0,1/2) 	(0,1/2,1/2)"; "4	e	..2/m";
  "(0,0,1/2) 	(1/2,1/2,1/2) 	(1/2,0,0) 	(0,1/2,0)"; "4	d	2.2 2"; "(1/4,1/4,0) 	(1/4,1/4,1/2) 	(3/4,3/4,0) 	(3/4,3/4,1/2)"; "4	c	222 .";
  "(1/4,1/4,1/4) 	(1/4,1/4,3/4) 	(3/4,3/4,3/4) 	(3/4,3/4,1/4)"; "2	b	-42m"; "(3/4,1/4,1/4) 	(1/4,3/4,3/4)"; "2	a	-42m";
  "(1/4,3/4,1/4) 	(3/4,1/4,3/4)"; ""; "135  1  7  1  8   P 42/m b c"; "16	i	1";
  "(x,y,z) 	(-x,-y,z) 	(-y,x,z+1/2) 	(y,-x,z+1/2)"; "(-x+1/2,y+1/2,-z) 	(x+1/2,-y+1/2,-z) 	(y+1/2,x+1/2,-z+1/2) 	(-y+1/2,-x+1/2,-z+1/2)"; "(-x,-y,-z) 	(x,y,-z) 	(y,-x,-z+1/2) 	(-y,x,-z+1/2)"; "(x+1/2,-y+1/2,z) 	(-x+1/2,y+1/2,z) 	(-y+1/2,-x+1/2,z+1/2) 	(y+1/2,x+1/2,z+1/2)";
  "8	h	m.."; "(x,y,0) 	(-x,-y,0) 	(-y,x,1/2) 	(y,-x,1/2)"; "(-x+1/2,y+1/2,0) 	(x+1/2,-y+1/2,0) 	(y+1/2,x+1/2,1/2) 	(-y+1/2,-x+1/2,1/2)"; "8	g	..2";
  "(x,x+1/2,1/4) 	(-x,-x+1/2,1/4) 	(-x+1/2,x,3/4) 	(x+1/2,-x,3/4)"; "(-x,-x+1/2,3/4) 	(x,x+1/2,3/4) 	(x+1/2,-x,1/4) 	(-x+1/2,x,1/4)"; "8	f	2.."; "(0,1/2,z) 	(1/2,0,z+1/2) 	(1/2,0,-z) 	(0,1/2,-z+1/2)";
  "(0,1/2,-z) 	(1/2,0,-z+1/2) 	(1/2,0,z) 	(0,1/2,z+1/2)"; "8	e	2.."; "(0,0,z) 	(0,0,z+1/2) 	(1/2,1/2,-z) 	(1/2,1/2,-z+1/2)"; "(0,0,-z) 	(0,0,-z+1/2) 	(1/2,1/2,z) 	(1/2,1/2,z+1/2)";
  "4	d	2.2 2"; "(0,1/2,1/4) 	(1/2,0,3/4) 	(0,1/2,3/4) 	(1/2,0,1/4)"; "4	c	2/m.."; "(0,1/2,0) 	(1/2,0,1/2) 	(1/2,0,0) 	(0,1/2,1/2)";
  "4	b	-4.."; "(0,0,1/4) 	(0,0,3/4) 	(1/2,1/2,3/4) 	(1/2,1/2,1/4)"; "4	a	2/m.."; "(0,0,0) 	(0,0,1/2) 	(1/2,1/2,0) 	(1/2,1/2,1/2)";
  ""; "136  1  7  1  8   P 42/m n m"; "16	k	1"; "(x,y,z) 	(-x,-y,z) 	(-y+1/2,x+1/2,z+1/2) 	(y+1/2,-x+1/2,z+1/2)";
  "(-x+1/2,y+1/2,-z+1/2) 	(x+1/2,-y+1/2,-z+1/2) 	(y,x,-z) 	(-y,-x,-z)"; "(-x,-y,-z) 	(x,y,-z) 	(y+1/2,-x+1/2,-z+1/2) 	(-y+1/2,x+1/2,-z+1/2)"; "(x+1/2,-y+1/2,z+1/2) 	(-x+1/2,y+1/2,z+1/2) 	(-y,-x,z) 	(y,x,z)"; "8	j	..m";
  "(x,x,z) 	(-x,-x,z) 	(-x+1/2,x+1/2,z+1/2) 	(x+1/2,-x+1/2,z+1/2)"; "(-x+1/2,x+1/2,-z+1/2) 	(x+1/2,-x+1/2,-z+1/2) 	(x,x,-z) 	(-x,-x,-z)"; "8	i	m.."; "(x,y,0) 	(-x,-y,0) 	(-y+1/2,x+1/2,1/2) 	(y+1/2,-x+1/2,1/2)";
  "(-x+1/2,y+1/2,1/2) 	(x+1/2,-y+1/2,1/2) 	(y,x,0) 	(-y,-x,0)"; "8	h	2.."; "(0,1/2,z) 	(0,1/2,z+1/2) 	(1/2,0,-z+1/2) 	(1/2,0,-z)"; "(0,1/2,-z) 	(0,1/2,-z+1/2) 	(1/2,0,z+1/2) 	(1/2,0,z)";
  "4	g	m.2 m"; "(x,-x,0) 	(-x,x,0) 	(x+1/2,x+1/2,1/2) 	(-x+1/2,-x+1/2,1/2)"; "4	f	m.2 m"; "(x,x,0) 	(-x,-x,0) 	(-x+1/2,x+1/2,1/2) 	(x+1/2,-x+1/2,1/2)";
  "4	e	2.m m"; "(0,0,z) 	(1/2,1/2,z+1/2) 	(1/2,1/2,-z+1/2) 	(0,0,-z)"; "4	d	-4.."; "(0,1/2,1/4) 	(0,1/2,3/4) 	(1/2,0,1/4) 	(1/2,0,3/4)";
  "4	c	2/m.."; "(0,1/2,0) 	(0,1/2,1/2) 	(1/2,0,1/2) 	(1/2,0,0)"; "2	b	m.m m"; "(0,0,1/2) 	(1/2,1/2,0)";
  "2	a	m.m m"; "(0,0,0) 	(1/2,1/2,1/2)"; ""; "137  1  7  0 16   P 42/n m c";
  "16	h	1"; "(x,y,z) 	(-x,-y,z) 	(-y+1/2,x+1/2,z+1/2) 	(y+1/2,-x+1/2,z+1/2)"; "(-x+1/2,y+1/2,-z+1/2) 	(x+1/2,-y+1/2,-z+1/2) 	(y,x,-z) 	(-y,-x,-z)"; "(-x+1/2,-y+1/2,-z+1/2) 	(x+1/2,y+1/2,-z+1/2) 	(y,-x,-z) 	(-y,x,-z)";
  "(x,-y,z) 	(-x,y,z) 	(-y+1/2,-x+1/2,z+1/2) 	(y+1/2,x+1/2,z+1/2)"; "8	g	.m."; "(0,y,z) 	(0,-y,z) 	(-y+1/2,1/2,z+1/2) 	(y+1/2,1/2,z+1/2)"; "(1/2,y+1/2,-z+1/2) 	(1/2,-y+1/2,-z+1/2) 	(y,0,-z) 	(-y,0,-z)";
  "8	f	..2"; "(x,x,0) 	(-x,-x,0) 	(-x+1/2,x+1/2,1/2) 	(x+1/2,-x+1/2,1/2)"; "(-x+1/2,-x+1/2,1/2) 	(x+1/2,x+1/2,1/2) 	(x,-x,0) 	(-x,x,0)"; "8	e	-1";
  "(1/4,1/4,1/4) 	(3/4,3/4,1/4) 	(1/4,3/4,3/4) 	(3/4,1/4,3/4)"; "(1/4,3/4,1/4) 	(3/4,1/4,1/4) 	(1/4,1/4,3/4) 	(3/4,3/4,3/4)"; "4	d	2mm ."; "(0,1/2,z) 	(0,1/2,z+1/2) 	(1/2,0,-z+1/2) 	(1/2,0,-z)";
  "4	c	2mm ."; "(0,0,z) 	(1/2,1/2,z+1/2) 	(1/2,1/2,-z+1/2) 	(0,0,-z)"; "2	b	-4m2"; "(0,0,1/2) 	(1/2,1/2,0)";
  "2	a	-4m2"; "(0,0,0) 	(1/2,1/2,1/2)"; ""; "137  2  7  1  8   P 42/n m c";
  "16	h	1"; "(x,y,z) 	(-x+1/2,-y+1/2,z) 	(-y+1/2,x,z+1/2) 	(y,-x+1/2,z+1/2)"; "(-x,y+1/2,-z) 	(x+1/2,-y,-z) 	(y+1/2,x+1/2,-z+1/2) 	(-y,-x,-z+1/2)"; "(-x,-y,-z) 	(x+1/2,y+1/2,-z) 	(y+1/2,-x,-z+1/2) 	(-y,x+1/2,-z+1/2)";
  "(x,-y+1/2,z) 	(-x+1/2,y,z) 	(-y+1/2,-x+1/2,z+1/2) 	(y,x,z+1/2)"; "8	g	.m."; "(1/4,y,z) 	(1/4,-y+1/2,z) 	(-y+1/2,1/4,z+1/2) 	(y,1/4,z+1/2)"; "(3/4,y+1/2,-z) 	(3/4,-y,-z) 	(y+1/2,3/4,-z+1/2) 	(-y,3/4,-z+1/2)";
  "8	f	..2"; "(x,-x,1/4) 	(-x+1/2,x+1/2,1/4) 	(x+1/2,x,3/4) 	(-x,-x+1/2,3/4)"; "(-x,x,3/4) 	(x+1/2,-x+1/2,3/4) 	(-x+1/2,-x,1/4) 	(x,x+1/2,1/4)"; "8	e	-1";
  "(0,0,0) 	(1/2,1/2,0) 	(1/2,0,1/2) 	(0,1/2,1/2)"; "(0,1/2,0) 	(1/2,0,0) 	(1/2,1/2,1/2) 	(0,0,1/2)"; "4	d	2mm ."; "(1/4,1/4,z) 	(1/4,1/4,z+1/2) 	(3/4,3/4,-z) 	(3/4,3/4,-z+1/2)";
  "4	c	2mm ."; "(3/4,1/4,z) 	(1/4,3/4,z+1/2) 	(1/4,3/4,-z) 	(3/4,1/4,-z+1/2)"; "2	b	-4m2"; "(3/4,1/4,1/4) 	(1/4,3/4,3/4)";
  "2	a	-4m2"; "(3/4,1/4,3/4) 	(1/4,3/4,1/4)"; ""; "138  1  7  0 16   P 42/n c m";
  "16	j	1"; "(x,y,z) 	(-x,-y,z) 	(-y+1/2,x+1/2,z+1/2) 	(y+1/2,-x+1/2,z+1/2)"; "(-x+1/2,y+1/2,-z) 	(x+1/2,-y+1/2,-z) 	(y,x,-z+1/2) 	(-y,-x,-z+1/2)"; "(-x+1/2,-y+1/2,-z+1/2) 	(x+1/2,y+1/2,-z+1/2) 	(y,-x,-z) 	(-y,x,-z)";
  "(x,-y,z+1/2) 	(-x,y,z+1/2) 	(-y+1/2,-x+1/2,z) 	(y+1/2,x+1/2,z)"; "8	i	..m"; "(x,x+1/2,z) 	(-x,-x+1/2,z) 	(-x,x+1/2,z+1/2) 	(x,-x+1/2,z+1/2)"; "(-x+1/2,x,-z) 	(x+1/2,-x,-z) 	(x+1/2,x,-z+1/2) 	(-x+1/2,-x,-z+1/2)";
  "8	h	..2"; "(x,x,3/4) 	(-x,-x,3/4) 	(-x+1/2,x+1/2,1/4) 	(x+1/2,-x+1/2,1/4)"; "(-x+1/2,-x+1/2,3/4) 	(x+1/2,x+1/2,3/4) 	(x,-x,1/4) 	(-x,x,1/4)"; "8	g	..2";
  "(x,x,1/4) 	(-x,-x,1/4) 	(-x+1/2,x+1/2,3/4) 	(x+1/2,-x+1/2,3/4)"; "(-x+1/2,-x+1/2,1/4) 	(x+1/2,x+1/2,1/4) 	(x,-x,3/4) 	(-x,x,3/4)"; "8	f	2.."; "(0,0,z) 	(1/2,1/2,z+1/2) 	(1/2,1/2,-z) 	(0,0,-z+1/2)";
  "(1/2,1/2,-z+1/2) 	(0,0,-z) 	(0,0,z+1/2) 	(1/2,1/2,z)"; "4	e	2.m m"; "(0,1/2,z) 	(0,1/2,z+1/2) 	(1/2,0,-z) 	(1/2,0,-z+1/2)"; "4	d	..2/m";
  "(1/4,1/4,3/4) 	(3/4,3/4,3/4) 	(1/4,3/4,1/4) 	(3/4,1/4,1/4)"; "4	c	..2/m"; "(1/4,1/4,1/4) 	(3/4,3/4,1/4) 	(1/4,3/4,3/4) 	(3/4,1/4,3/4)"; "4	b	-4..";
  "(0,0,0) 	(1/2,1/2,1/2) 	(1/2,1/2,0) 	(0,0,1/2)"; "4	a	2.2 2"; "(0,0,1/4) 	(1/2,1/2,3/4) 	(1/2,1/2,1/4) 	(0,0,3/4)"; "";
  "138  2  7  1  8   P 42/n c m"; "16	j	1"; "(x,y,z) 	(-x+1/2,-y+1/2,z) 	(-y+1/2,x,z+1/2) 	(y,-x+1/2,z+1/2)"; "(-x,y+1/2,-z+1/2) 	(x+1/2,-y,-z+1/2) 	(y+1/2,x+1/2,-z) 	(-y,-x,-z)";
  "(-x,-y,-z) 	(x+1/2,y+1/2,-z) 	(y+1/2,-x,-z+1/2) 	(-y,x+1/2,-z+1/2)"; "(x,-y+1/2,z+1/2) 	(-x+1/2,y,z+1/2) 	(-y+1/2,-x+1/2,z) 	(y,x,z)"; "8	i	..m"; "(x,x,z) 	(-x+1/2,-x+1/2,z) 	(-x+1/2,x,z+1/2) 	(x,-x+1/2,z+1/2)";
  "(-x,x+1/2,-z+1/2) 	(x+1/2,-x,-z+1/2) 	(x+1/2,x+1/2,-z) 	(-x,-x,-z)"; "8	h	..2"; "(x,-x,0) 	(-x+1/2,x+1/2,0) 	(x+1/2,x,1/2) 	(-x,-x+1/2,1/2)"; "(-x,x,0) 	(x+1/2,-x+1/2,0) 	(-x+1/2,-x,1/2) 	(x,x+1/2,1/2)";
  "8	g	..2"; "(x,-x,1/2) 	(-x+1/2,x+1/2,1/2) 	(x+1/2,x,0) 	(-x,-x+1/2,0)"; "(-x,x,1/2) 	(x+1/2,-x+1/2,1/2) 	(-x+1/2,-x,0) 	(x,x+1/2,0)"; "8	f	2..";
  "(3/4,1/4,z) 	(1/4,3/4,z+1/2) 	(1/4,3/4,-z+1/2) 	(3/4,1/4,-z)"; "(1/4,3/4,-z) 	(3/4,1/4,-z+1/2) 	(3/4,1/4,z+1/2) 	(1/4,3/4,z)"; "4	e	2.m m"; "(1/4,1/4,z) 	(1/4,1/4,z+1/2) 	(3/4,3/4,-z+1/2) 	(3/4,3/4,-z)";
  "4	d	..2/m"; "(0,0,0) 	(1/2,1/2,0) 	(1/2,0,1/2) 	(0,1/2,1/2)"; "4	c	..2/m"; "(0,0,1/2) 	(1/2,1/2,1/2) 	(1/2,0,0) 	(0,1/2,0)";
  "4	b	-4.."; "(3/4,1/4,3/4) 	(1/4,3/4,1/4) 	(1/4,3/4,3/4) 	(3/4,1/4,1/4)"; "4	a	2.2 2"; "(3/4,1/4,0) 	(1/4,3/4,1/2) 	(1/4,3/4,0) 	(3/4,1/4,1/2)";
  ""; "139  1  7  1  8   I 4/m m m"; "32	o	1"; "(x,y,z) 	(-x,-y,z) 	(-y,x,z) 	(y,-x,z)";
  "(-x,y,-z) 	(x,-y,-z) 	(y,x,-z) 	(-y,-x,-z)"; "(-x,-y,-z) 	(x,y,-z) 	(y,-x,-z) 	(-y,x,-z)"; "(x,-y,z) 	(-x,y,z) 	(-y,-x,z) 	(y,x,z)"; "16	n	.m.";
  "(0,y,z) 	(0,-y,z) 	(-y,0,z) 	(y,0,z)"; "(0,y,-z) 	(0,-y,-z) 	(y,0,-z) 	(-y,0,-z)"; "16	m	..m"; "(x,x,z) 	(-x,-x,z) 	(-x,x,z) 	(x,-x,z)";
  "(-x,x,-z) 	(x,-x,-z) 	(x,x,-z) 	(-x,-x,-z)"; "16	l	m.."; "(x,y,0) 	(-x,-y,0) 	(-y,x,0) 	(y,-x,0)"; "(-x,y,0) 	(x,-y,0) 	(y,x,0) 	(-y,-x,0)";
  "16	k	..2"; "(x,x+1/2,1/4) 	(-x,-x+1/2,1/4) 	(-x+1/2,x,1/4) 	(x+1/2,-x,1/4)"; "(-x,-x+1/2,3/4) 	(x,x+1/2,3/4) 	(x+1/2,-x,3/4) 	(-x+1/2,x,3/4)"; "8	j	m2m .";
  "(x,1/2,0) 	(-x,1/2,0) 	(1/2,x,0) 	(1/2,-x,0)"; "8	i	m2m ."; "(x,0,0) 	(-x,0,0) 	(0,x,0) 	(0,-x,0)"; "8	h	m.2 m";
  "(x,x,0) 	(-x,-x,0) 	(-x,x,0) 	(x,-x,0)"; "8	g	2mm ."; "(0,1/2,z) 	(1/2,0,z) 	(0,1/2,-z) 	(1/2,0,-z)"; "8	f	..2/m";
  "(1/4,1/4,1/4) 	(3/4,3/4,1/4) 	(3/4,1/4,1/4) 	(1/4,3/4,1/4)"; "4	e	4mm"; "(0,0,z) 	(0,0,-z)"; "4	d	-4m2";
  "(0,1/2,1/4) 	(1/2,0,1/4)"; "4	c	mmm ."; "(0,1/2,0) 	(1/2,0,0)"; "2	b	4/mmm";
  "(0,0,1/2)"; "2	a	4/mmm"; "(0,0,0)"; "";
  "140  1  7  1  8   I 4/m c m"; "32	m	1"; "(x,y,z) 	(-x,-y,z) 	(-y,x,z) 	(y,-x,z)"; "(-x,y,-z+1/2) 	(x,-y,-z+1/2) 	(y,x,-z+1/2) 	(-y,-x,-z+1/2)";
  "(-x,-y,-z) 	(x,y,-z) 	(y,-x,-z) 	(-y,x,-z)"; "(x,-y,z+1/2) 	(-x,y,z+1/2) 	(-y,-x,z+1/2) 	(y,x,z+1/2)"; "16	l	..m"; "(x,x+1/2,z) 	(-x,-x+1/2,z) 	(-x+1/2,x,z) 	(x+1/2,-x,z)";
  "(-x,x+1/2,-z+1/2) 	(x,-x+1/2,-z+1/2) 	(x+1/2,x,-z+1/2) 	(-x+1/2,-x,-z+1/2)"; "16	k	m.."; "(x,y,0) 	(-x,-y,0) 	(-y,x,0) 	(y,-x,0)"; "(-x,y,1/2) 	(x,-y,1/2) 	(y,x,1/2) 	(-y,-x,1/2)";
  "16	j	.2."; "(x,0,1/4) 	(-x,0,1/4) 	(0,x,1/4) 	(0,-x,1/4)"; "(-x,0,3/4) 	(x,0,3/4) 	(0,-x,3/4) 	(0,x,3/4)"; "16	i	..2";
  "(x,x,1/4) 	(-x,-x,1/4) 	(-x,x,1/4) 	(x,-x,1/4)"; "(-x,-x,3/4) 	(x,x,3/4) 	(x,-x,3/4) 	(-x,x,3/4)"; "8	h	m.2 m"; "(x,x+1/2,0) 	(-x,-x+1/2,0) 	(-x+1/2,x,0) 	(x+1/2,-x,0)";
  "8	g	2.m m"; "(0,1/2,z) 	(1/2,0,z) 	(0,1/2,-z+1/2) 	(1/2,0,-z+1/2)"; "8	f	4.."; "(0,0,z) 	(0,0,-z+1/2) 	(0,0,-z) 	(0,0,z+1/2)";
  "8	e	..2/m"; "(1/4,1/4,1/4) 	(3/4,3/4,1/4) 	(3/4,1/4,1/4) 	(1/4,3/4,1/4)"; "4	d	m.m m"; "(0,1/2,0) 	(1/2,0,0)";
  "4	c	4/m.."; "(0,0,0) 	(0,0,1/2)"; "4	b	-42m"; "(0,1/2,1/4) 	(1/2,0,1/4)";
  "4	a	422"; "(0,0,1/4) 	(0,0,3/4)"; ""; "141  1  7  0 16   I 41/a m d";
  "32	i	1"; "(x,y,z) 	(-x+1/2,-y+1/2,z+1/2) 	(-y,x+1/2,z+1/4) 	(y+1/2,-x,z+3/4)"; "(-x+1/2,y,-z+3/4) 	(x,-y+1/2,-z+1/4) 	(y+1/2,x+1/2,-z+1/2) 	(-y,-x,-z)"; "(-x,-y+1/2,-z+1/4) 	(x+1/2,y,-z+3/4) 	(y,-x,-z) 	(-y+1/2,x+1/2,-z+1/2)";
  "(x+1/2,-y+1/2,z+1/2) 	(-x,y,z) 	(-y+1/2,-x,z+3/4) 	(y,x+1/2,z+1/4)"; "16	h	.m."; "(0,y,z) 	(1/2,-y+1/2,z+1/2) 	(-y,1/2,z+1/4) 	(y+1/2,0,z+3/4)"; "(1/2,y,-z+3/4) 	(0,-y+1/2,-z+1/4) 	(y+1/2,1/2,-z+1/2) 	(-y,0,-z)";
  "16	g	..2"; "(x,x,0) 	(-x+1/2,-x+1/2,1/2) 	(-x,x+1/2,1/4) 	(x+1/2,-x,3/4)"; "(-x,-x+1/2,1/4) 	(x+1/2,x,3/4) 	(x,-x,0) 	(-x+1/2,x+1/2,1/2)"; "16	f	.2.";
  "(x,1/4,1/8) 	(-x+1/2,1/4,5/8) 	(3/4,x+1/2,3/8) 	(3/4,-x,7/8)"; "(-x,1/4,1/8) 	(x+1/2,1/4,5/8) 	(1/4,-x,7/8) 	(1/4,x+1/2,3/8)"; "8	e	2mm ."; "(0,0,z) 	(0,1/2,z+1/4) 	(1/2,0,-z+3/4) 	(1/2,1/2,-z+1/2)";
  "8	d	.2/m."; "(0,1/4,5/8) 	(1/2,1/4,1/8) 	(3/4,1/2,7/8) 	(3/4,0,3/8)"; "8	c	.2/m."; "(0,1/4,1/8) 	(1/2,1/4,5/8) 	(3/4,1/2,3/8) 	(3/4,0,7/8)";
  "4	b	-4m2"; "(0,0,1/2) 	(0,1/2,3/4)"; "4	a	-4m2"; "(0,0,0) 	(0,1/2,1/4)";
  ""; "141  2  7  1  8   I 41/a m d"; "32	i	1"; "(x,y,z) 	(-x+1/2,-y,z+1/2) 	(-y+1/4,x+3/4,z+1/4) 	(y+1/4,-x+1/4,z+3/4)";
  "(-x+1/2,y,-z+1/2) 	(x,-y,-z) 	(y+1/4,x+3/4,-z+1/4) 	(-y+1/4,-x+1/4,-z+3/4)"; "(-x,-y,-z) 	(x+1/2,y,-z+1/2) 	(y+3/4,-x+1/4,-z+3/4) 	(-y+3/4,x+3/4,-z+1/4)"; "(x+1/2,-y,z+1/2) 	(-x,y,z) 	(-y+3/4,-x+1/4,z+3/4) 	(y+3/4,x+3/4,z+1/4)"; "16	h	.m.";
  "(0,y,z) 	(1/2,-y,z+1/2) 	(-y+1/4,3/4,z+1/4) 	(y+1/4,1/4,z+3/4)"; "(1/2,y,-z+1/2) 	(0,-y,-z) 	(y+1/4,3/4,-z+1/4) 	(-y+1/4,1/4,-z+3/4)"; "16	g	..2"; "(x,x+1/4,7/8) 	(-x+1/2,-x+3/4,3/8) 	(-x,x+3/4,1/8) 	(x+1/2,-x+1/4,5/8)";
  "(-x,-x+3/4,1/8) 	(x+1/2,x+1/4,5/8) 	(x,-x+1/4,7/8) 	(-x+1/2,x+3/4,3/8)"; "16	f	.2."; "(x,0,0) 	(-x+1/2,0,1/2) 	(1/4,x+3/4,1/4) 	(1/4,-x+1/4,3/4)"; "(-x,0,0) 	(x+1/2,0,1/2) 	(3/4,-x+1/4,3/4) 	(3/4,x+3/4,1/4)";
  "8	e	2mm ."; "(0,1/4,z) 	(0,3/4,z+1/4) 	(1/2,1/4,-z+1/2) 	(1/2,3/4,-z+1/4)"; "8	d	.2/m."; "(0,0,1/2) 	(1/2,0,0) 	(1/4,3/4,3/4) 	(1/4,1/4,1/4)";
  "8	c	.2/m."; "(0,0,0) 	(1/2,0,1/2) 	(1/4,3/4,1/4) 	(1/4,1/4,3/4)"; "4	b	-4m2"; "(0,1/4,3/8) 	(0,3/4,5/8)";
  "4	a	-4m2"; "(0,3/4,1/8) 	(1/2,3/4,3/8)"; ""; "142  1  7  0 16   I 41/a c d";
  "32	g	1"; "(x,y,z) 	(-x+1/2,-y+1/2,z+1/2) 	(-y,x+1/2,z+1/4) 	(y+1/2,-x,z+3/4)"; "(-x+1/2,y,-z+1/4) 	(x,-y+1/2,-z+3/4) 	(y+1/2,x+1/2,-z) 	(-y,-x,-z+1/2)"; "(-x,-y+1/2,-z+1/4) 	(x+1/2,y,-z+3/4) 	(y,-x,-z) 	(-y+1/2,x+1/2,-z+1/2)";
  "(x+1/2,-y+1/2,z) 	(-x,y,z+1/2) 	(-y+1/2,-x,z+1/4) 	(y,x+1/2,z+3/4)"; "16	f	..2"; "(x,x,1/4) 	(-x+1/2,-x+1/2,3/4) 	(-x,x+1/2,1/2) 	(x+1/2,-x,0)"; "(-x,-x+1/2,0) 	(x+1/2,x,1/2) 	(x,-x,3/4) 	(-x+1/2,x+1/2,1/4)";
  "16	e	.2."; "(1/4,y,1/8) 	(1/4,-y+1/2,5/8) 	(-y,3/4,3/8) 	(y+1/2,3/4,7/8)"; "(3/4,-y+1/2,1/8) 	(3/4,y,5/8) 	(y,3/4,7/8) 	(-y+1/2,3/4,3/8)"; "16	d	2..";
  "(0,0,z) 	(0,1/2,z+1/4) 	(1/2,0,-z+1/4) 	(1/2,1/2,-z)"; "(0,1/2,-z+1/4) 	(0,0,-z) 	(1/2,1/2,z) 	(1/2,0,z+1/4)"; "16	c	-1"; "(0,1/4,1/8) 	(1/2,1/4,5/8) 	(3/4,1/2,3/8) 	(3/4,0,7/8)";
  "(1/2,1/4,1/8) 	(0,1/4,5/8) 	(3/4,1/2,7/8) 	(3/4,0,3/8)"; "8	b	2.2 2"; "(0,0,1/4) 	(0,1/2,1/2) 	(0,1/2,0) 	(0,0,3/4)"; "8	a	-4..";
  "(0,0,0) 	(0,1/2,1/4) 	(1/2,0,1/4) 	(1/2,1/2,0)"; ""; "142  2  7  1  8   I 41/a c d"; "32	g	1";
  "(x,y,z) 	(-x+1/2,-y,z+1/2) 	(-y+1/4,x+3/4,z+1/4) 	(y+1/4,-x+1/4,z+3/4)"; "(-x+1/2,y,-z) 	(x,-y,-z+1/2) 	(y+1/4,x+3/4,-z+3/4) 	(-y+1/4,-x+1/4,-z+1/4)"; "(-x,-y,-z) 	(x+1/2,y,-z+1/2) 	(y+3/4,-x+1/4,-z+3/4) 	(-y+3/4,x+3/4,-z+1/4)"; "(x+1/2,-y,z) 	(-x,y,z+1/2) 	(-y+3/4,-x+1/4,z+1/4) 	(y+3/4,x+3/4,z+3/4)";
  "16	f	..2"; "(x,x+1/4,1/8) 	(-x+1/2,-x+3/4,5/8) 	(-x,x+3/4,3/8) 	(x+1/2,-x+1/4,7/8)"; "(-x,-x+3/4,7/8) 	(x+1/2,x+1/4,3/8) 	(x,-x+1/4,5/8) 	(-x+1/2,x+3/4,1/8)"; "16	e	.2.";
  "(x,0,1/4) 	(-x+1/2,0,3/4) 	(1/4,x+3/4,1/2) 	(1/4,-x+1/4,0)"; "(-x,0,3/4) 	(x+1/2,0,1/4) 	(3/4,-x+1/4,1/2) 	(3/4,x+3/4,0)"; "16	d	2.."; "(0,1/4,z) 	(0,3/4,z+1/4) 	(1/2,1/4,-z) 	(1/2,3/4,-z+3/4)";
  "(0,3/4,-z) 	(0,1/4,-z+3/4) 	(1/2,3/4,z) 	(1/2,1/4,z+1/4)"; "16	c	-1"; "(0,0,0) 	(1/2,0,1/2) 	(1/4,3/4,1/4) 	(1/4,1/4,3/4)"; "(1/2,0,0) 	(0,0,1/2) 	(1/4,3/4,3/4) 	(1/4,1/4,1/4)";
  "8	b	2.2 2"; "(0,1/4,1/8) 	(0,3/4,3/8) 	(0,3/4,7/8) 	(0,1/4,5/8)"; "8	a	-4.."; "(0,1/4,3/8) 	(0,3/4,5/8) 	(1/2,1/4,5/8) 	(1/2,3/4,3/8)";
  ""; "143  1  9  0  3   P 3"; "3	d	1"; "(x,y,z) 	(-y,x-y,z) 	(-x+y,-x,z)";
  "1	c	3.."; "(2/3,1/3,z)"; "1	b	3.."; "(1/3,2/3,z)";
  "1	a	3.."; "(0,0,z)"; ""; "144  1  9  0  3   P 31";
  "3	a	1"; "(x,y,z) 	(-y,x-y,z+1/3) 	(-x+y,-x,z+2/3)"; ""; "145  1  9  0  3   P 32";
  "3	a	1"; "(x,y,z) 	(-y,x-y,z+2/3) 	(-x+y,-x,z+1/3)"; ""; "146  1  9  0  3   R 3";
  "9	b	1"; "(x,y,z) 	(-y,x-y,z) 	(-x+y,-x,z)"; "3	a	3."; "(0,0,z)";
  ""; "146  2  8  0  3   R 3"; "3	b	1"; "(x,y,z) 	(z,x,y) 	(y,z,x)";
  "1	a	3."; "(x,x,x)"; ""; "147  1  9  1  3   P -3";
  "6	g	1"; "(x,y,z) 	(-y,x-y,z) 	(-x+y,-x,z) 	(-x,-y,-z)"; "(y,-x+y,-z) 	(x-y,x,-z)"; "3	f	-1";
  "(1/2,0,1/2) 	(0,1/2,1/2) 	(1/2,1/2,1/2)"; "3	e	-1"; "(1/2,0,0) 	(0,1/2,0) 	(1/2,1/2,0)"; "2	d	3..";
  "(1/3,2/3,z) 	(2/3,1/3,-z)"; "2	c	3.."; "(0,0,z) 	(0,0,-z)"; "1	b	-3..";
  "(0,0,1/2)"; "1	a	-3.."; "(0,0,0)"; "";
  "148  1  9  1  3   R -3"; "18	f	1"; "(x,y,z) 	(-y,x-y,z) 	(-x+y,-x,z) 	(-x,-y,-z)"; "(y,-x+y,-z) 	(x-y,x,-z)";
  "9	e	-1"; "(1/2,0,0) 	(0,1/2,0) 	(1/2,1/2,0)"; "9	d	-1"; "(1/2,0,1/2) 	(0,1/2,1/2) 	(1/2,1/2,1/2)";
  "6	c	3."; "(0,0,z) 	(0,0,-z)"; "3	b	-3."; "(0,0,1/2)";
  "3	a	-3."; "(0,0,0)"; ""; "148  2  8  1  3   R -3";
  "6	f	1"; "(x,y,z) 	(z,x,y) 	(y,z,x) 	(-x,-y,-z)"; "(-z,-x,-y) 	(-y,-z,-x)"; "3	e	-1";
  "(0,1/2,1/2) 	(1/2,0,1/2) 	(1/2,1/2,0)"; "3	d	-1"; "(1/2,0,0) 	(0,1/2,0) 	(0,0,1/2)"; "2	c	3.";
  "(x,x,x) 	(-x,-x,-x)"; "1	b	-3."; "(1/2,1/2,1/2)"; "1	a	-3.";
  "(0,0,0)"; ""; "149  1 11  0  6   P 3 1 2"; "6	l	1";
  "(x,y,z) 	(-y,x-y,z) 	(-x+y,-x,z) 	(-y,-x,-z)"; "(-x+y,y,-z) 	(x,x-y,-z)"; "3	k	..2"; "(x,-x,1/2) 	(x,2x,1/2) 	(-2x,-x,1/2)";
  "3	j	..2"; "(x,-x,0) 	(x,2x,0) 	(-2x,-x,0)"; "2	i	3.."; "(2/3,1/3,z) 	(2/3,1/3,-z)";
  "2	h	3.."; "(1/3,2/3,z) 	(1/3,2/3,-z)"; "2	g	3.."; "(0,0,z) 	(0,0,-z)";
  "1	f	3.2"; "(2/3,1/3,1/2)"; "1	e	3.2"; "(2/3,1/3,0)";
  "1	d	3.2"; "(1/3,2/3,1/2)"; "1	c	3.2"; "(1/3,2/3,0)";
  "1	b	3.2"; "(0,0,1/2)"; "1	a	3.2"; "(0,0,0)";
  ""; "150  1 11  0  6   P 3 2 1"; "6	g	1"; "(x,y,z) 	(-y,x-y,z) 	(-x+y,-x,z) 	(y,x,-z)";
  "(x-y,-y,-z) 	(-x,-x+y,-z)"; "3	f	.2."; "(x,0,1/2) 	(0,x,1/2) 	(-x,-x,1/2)"; "3	e	.2.";
  "(x,0,0) 	(0,x,0) 	(-x,-x,0)"; "2	d	3.."; "(1/3,2/3,z) 	(2/3,1/3,-z)"; "2	c	3..";
  "(0,0,z) 	(0,0,-z)"; "1	b	32."; "(0,0,1/2)"; "1	a	32.";
  "(0,0,0)"; ""; "151  1 11  0  6   P 31 1 2"; "6	c	1";
  "(x,y,z) 	(-y,x-y,z+1/3) 	(-x+y,-x,z+2/3) 	(-y,-x,-z+2/3)"; "(-x+y,y,-z+1/3) 	(x,x-y,-z)"; "3	b	..2"; "(x,-x,5/6) 	(x,2x,1/6) 	(-2x,-x,1/2)";
  "3	a	..2"; "(x,-x,1/3) 	(x,2x,2/3) 	(-2x,-x,0)"; ""; "152  1 11  0  6   P 31 2 1";
  "6	c	1"; "(x,y,z) 	(-y,x-y,z+1/3) 	(-x+y,-x,z+2/3) 	(y,x,-z)"; "(x-y,-y,-z+2/3) 	(-x,-x+y,-z+1/3)"; "3	b	.2.";
  "(x,0,5/6) 	(0,x,1/6) 	(-x,-x,1/2)"; "3	a	.2."; "(x,0,1/3) 	(0,x,2/3) 	(-x,-x,0)"; "";
  "153  1 11  0  6   P 32 1 2"; "6	c	1"; "(x,y,z) 	(-y,x-y,z+2/3) 	(-x+y,-x,z+1/3) 	(-y,-x,-z+1/3)"; "(-x+y,y,-z+2/3) 	(x,x-y,-z)";
  "3	b	..2"; "(x,-x,1/6) 	(x,2x,5/6) 	(-2x,-x,1/2)"; "3	a	..2"; "(x,-x,2/3) 	(x,2x,1/3) 	(-2x,-x,0)";
  ""; "154  1 11  0  6   P 32 2 1"; "6	c	1"; "(x,y,z) 	(-y,x-y,z+2/3) 	(-x+y,-x,z+1/3) 	(y,x,-z)";
  "(x-y,-y,-z+1/3) 	(-x,-x+y,-z+2/3)"; "3	b	.2."; "(x,0,1/6) 	(0,x,5/6) 	(-x,-x,1/2)"; "3	a	.2.";
  "(x,0,2/3) 	(0,x,1/3) 	(-x,-x,0)"; ""; "155  1 11  0  6   R 3 2"; "18	f	1";
  "(x,y,z) 	(-y,x-y,z) 	(-x+y,-x,z) 	(y,x,-z)"; "(x-y,-y,-z) 	(-x,-x+y,-z)"; "9	e	.2"; "(x,0,1/2) 	(0,x,1/2) 	(-x,-x,1/2)";
  "9	d	.2"; "(x,0,0) 	(0,x,0) 	(-x,-x,0)"; "6	c	3."; "(0,0,z) 	(0,0,-z)";
  "3	b	32"; "(0,0,1/2)"; "3	a	32"; "(0,0,0)";
  ""; "155  2 10  0  6   R 3 2"; "6	f	1"; "(x,y,z) 	(z,x,y) 	(y,z,x) 	(-z,-y,-x)";
  "(-y,-x,-z) 	(-x,-z,-y)"; "3	e	.2"; "(1/2,y,-y) 	(-y,1/2,y) 	(y,-y,1/2)"; "3	d	.2";
  "(0,y,-y) 	(-y,0,y) 	(y,-y,0)"; "2	c	3."; "(x,x,x) 	(-x,-x,-x)"; "1	b	32";
  "(1/2,1/2,1/2)"; "1	a	32"; "(0,0,0)"; "";
  "156  1 11  0  6   P 3 m 1"; "6	e	1"; "(x,y,z) 	(-y,x-y,z) 	(-x+y,-x,z) 	(-y,-x,z)"; "(-x+y,y,z) 	(x,x-y,z)";
  "3	d	.m."; "(x,-x,z) 	(x,2x,z) 	(-2x,-x,z)"; "1	c	3m."; "(2/3,1/3,z)";
  "1	b	3m."; "(1/3,2/3,z)"; "1	a	3m."; "(0,0,z)";
  ""; "157  1 11  0  6   P 3 1 m"; "6	d	1"; "(x,y,z) 	(-y,x-y,z) 	(-x+y,-x,z) 	(y,x,z)";
  "(x-y,-y,z) 	(-x,-x+y,z)"; "3	c	..m"; "(x,0,z) 	(0,x,z) 	(-x,-x,z)"; "2	b	3..";
  "(1/3,2/3,z) 	(2/3,1/3,z)"; "1	a	3.m"; "(0,0,z)"; "";
  "158  1 11  0  6   P 3 c 1"; "6	d	1"; "(x,y,z) 	(-y,x-y,z) 	(-x+y,-x,z) 	(-y,-x,z+1/2)"; "(-x+y,y,z+1/2) 	(x,x-y,z+1/2)";
  "2	c	3.."; "(2/3,1/3,z) 	(2/3,1/3,z+1/2)"; "2	b	3.."; "(1/3,2/3,z) 	(1/3,2/3,z+1/2)";
  "2	a	3.."; "(0,0,z) 	(0,0,z+1/2)"; ""; "159  1 11  0  6   P 3 1 c";
  "6	c	1"; "(x,y,z) 	(-y,x-y,z) 	(-x+y,-x,z) 	(y,x,z+1/2)"; "(x-y,-y,z+1/2) 	(-x,-x+y,z+1/2)"; "2	b	3..";
  "(1/3,2/3,z) 	(2/3,1/3,z+1/2)"; "2	a	3.."; "(0,0,z) 	(0,0,z+1/2)"; "";
  "160  1 11  0  6   R 3 m"; "18	c	1"; "(x,y,z) 	(-y,x-y,z) 	(-x+y,-x,z) 	(-y,-x,z)"; "(-x+y,y,z) 	(x,x-y,z)";
  "9	b	.m"; "(x,-x,z) 	(x,2x,z) 	(-2x,-x,z)"; "3	a	3m"; "(0,0,z)";
  ""; "160  2 10  0  6   R 3 m"; "6	c	1"; "(x,y,z) 	(z,x,y) 	(y,z,x) 	(z,y,x)";
  "(y,x,z) 	(x,z,y)"; "3	b	.m"; "(x,x,z) 	(z,x,x) 	(x,z,x)"; "1	a	3m";
  "(x,x,x)"; ""; "161  1 11  0  6   R 3 c"; "18	b	1";
  "(x,y,z) 	(-y,x-y,z) 	(-x+y,-x,z) 	(-y,-x,z+1/2)"; "(-x+y,y,z+1/2) 	(x,x-y,z+1/2)"; "6	a	3."; "(0,0,z) 	(0,0,z+1/2)";
  ""; "161  2 10  0  6   R 3 c"; "6	b	1"; "(x,y,z) 	(z,x,y) 	(y,z,x) 	(z+1/2,y+1/2,x+1/2)";
  "(y+1/2,x+1/2,z+1/2) 	(x+1/2,z+1/2,y+1/2)"; "2	a	3."; "(x,x,x) 	(x+1/2,x+1/2,x+1/2)"; "";
  "162  1 11  1  6   P -3 1 m"; "12	l	1"; "(x,y,z) 	(-y,x-y,z) 	(-x+y,-x,z) 	(-y,-x,-z)"; "(-x+y,y,-z) 	(x,x-y,-z) 	(-x,-y,-z) 	(y,-x+y,-z)";
  "(x-y,x,-z) 	(y,x,z) 	(x-y,-y,z) 	(-x,-x+y,z)"; "6	k	..m"; "(x,0,z) 	(0,x,z) 	(-x,-x,z) 	(0,-x,-z)"; "(-x,0,-z) 	(x,x,-z)";
  "6	j	..2"; "(x,-x,1/2) 	(x,2x,1/2) 	(-2x,-x,1/2) 	(-x,x,1/2)"; "(-x,-2x,1/2) 	(2x,x,1/2)"; "6	i	..2";
  "(x,-x,0) 	(x,2x,0) 	(-2x,-x,0) 	(-x,x,0)"; "(-x,-2x,0) 	(2x,x,0)"; "4	h	3.."; "(1/3,2/3,z) 	(1/3,2/3,-z) 	(2/3,1/3,-z) 	(2/3,1/3,z)";
  "3	g	..2/m"; "(1/2,0,1/2) 	(0,1/2,1/2) 	(1/2,1/2,1/2)"; "3	f	..2/m"; "(1/2,0,0) 	(0,1/2,0) 	(1/2,1/2,0)";
  "2	e	3.m"; "(0,0,z) 	(0,0,-z)"; "2	d	3.2"; "(1/3,2/3,1/2) 	(2/3,1/3,1/2)";
  "2	c	3.2"; "(1/3,2/3,0) 	(2/3,1/3,0)"; "1	b	-3.m"; "(0,0,1/2)";
  "1	a	-3.m"; "(0,0,0)"; ""; "163  1 11  1  6   P -3 1 c";
  "12	i	1"; "(x,y,z) 	(-y,x-y,z) 	(-x+y,-x,z) 	(-y,-x,-z+1/2)"; "(-x+y,y,-z+1/2) 	(x,x-y,-z+1/2) 	(-x,-y,-z) 	(y,-x+y,-z)"; "(x-y,x,-z) 	(y,x,z+1/2) 	(x-y,-y,z+1/2) 	(-x,-x+y,z+1/2)";
  "6	h	..2"; "(x,-x,1/4) 	(x,2x,1/4) 	(-2x,-x,1/4) 	(-x,x,3/4)"; "(-x,-2x,3/4) 	(2x,x,3/4)"; "6	g	-1";
  "(1/2,0,0) 	(0,1/2,0) 	(1/2,1/2,0) 	(0,1/2,1/2)"; "(1/2,0,1/2) 	(1/2,1/2,1/2)"; "4	f	3.."; "(1/3,2/3,z) 	(1/3,2/3,-z+1/2) 	(2/3,1/3,-z) 	(2/3,1/3,z+1/2)";
  "4	e	3.."; "(0,0,z) 	(0,0,-z+1/2) 	(0,0,-z) 	(0,0,z+1/2)"; "2	d	3.2"; "(2/3,1/3,1/4) 	(1/3,2/3,3/4)";
  "2	c	3.2"; "(1/3,2/3,1/4) 	(2/3,1/3,3/4)"; "2	b	-3.."; "(0,0,0) 	(0,0,1/2)";
  "2	a	3.2"; "(0,0,1/4) 	(0,0,3/4)"; ""; "164  1 11  1  6   P -3 m 1";
  "12	j	1"; "(x,y,z) 	(-y,x-y,z) 	(-x+y,-x,z) 	(y,x,-z)"; "(x-y,-y,-z) 	(-x,-x+y,-z) 	(-x,-y,-z) 	(y,-x+y,-z)"; "(x-y,x,-z) 	(-y,-x,z) 	(-x+y,y,z) 	(x,x-y,z)";
  "6	i	.m."; "(x,-x,z) 	(x,2x,z) 	(-2x,-x,z) 	(-x,x,-z)"; "(2x,x,-z) 	(-x,-2x,-z)"; "6	h	.2.";
  "(x,0,1/2) 	(0,x,1/2) 	(-x,-x,1/2) 	(-x,0,1/2)"; "(0,-x,1/2) 	(x,x,1/2)"; "6	g	.2."; "(x,0,0) 	(0,x,0) 	(-x,-x,0) 	(-x,0,0)";
  "(0,-x,0) 	(x,x,0)"; "3	f	.2/m."; "(1/2,0,1/2) 	(0,1/2,1/2) 	(1/2,1/2,1/2)"; "3	e	.2/m.";
  "(1/2,0,0) 	(0,1/2,0) 	(1/2,1/2,0)"; "2	d	3m."; "(1/3,2/3,z) 	(2/3,1/3,-z)"; "2	c	3m.";
  "(0,0,z) 	(0,0,-z)"; "1	b	-3m."; "(0,0,1/2)"; "1	a	-3m.";
  "(0,0,0)"; ""; "165  1 11  1  6   P -3 c 1"; "12	g	1";
  "(x,y,z) 	(-y,x-y,z) 	(-x+y,-x,z) 	(y,x,-z+1/2)"; "(x-y,-y,-z+1/2) 	(-x,-x+y,-z+1/2) 	(-x,-y,-z) 	(y,-x+y,-z)"; "(x-y,x,-z) 	(-y,-x,z+1/2) 	(-x+y,y,z+1/2) 	(x,x-y,z+1/2)"; "6	f	.2.";
  "(x,0,1/4) 	(0,x,1/4) 	(-x,-x,1/4) 	(-x,0,3/4)"; "(0,-x,3/4) 	(x,x,3/4)"; "6	e	-1"; "(1/2,0,0) 	(0,1/2,0) 	(1/2,1/2,0) 	(0,1/2,1/2)";
  "(1/2,0,1/2) 	(1/2,1/2,1/2)"; "4	d	3.."; "(1/3,2/3,z) 	(2/3,1/3,-z+1/2) 	(2/3,1/3,-z) 	(1/3,2/3,z+1/2)"; "4	c	3..";
  "(0,0,z) 	(0,0,-z+1/2) 	(0,0,-z) 	(0,0,z+1/2)"; "2	b	-3.."; "(0,0,0) 	(0,0,1/2)"; "2	a	32.";
  "(0,0,1/4) 	(0,0,3/4)"; ""; "166  1 11  1  6   R -3 m"; "36	i	1";
  "(x,y,z) 	(-y,x-y,z) 	(-x+y,-x,z) 	(y,x,-z)"; "(x-y,-y,-z) 	(-x,-x+y,-z) 	(-x,-y,-z) 	(y,-x+y,-z)"; "(x-y,x,-z) 	(-y,-x,z) 	(-x+y,y,z) 	(x,x-y,z)"; "18	h	.m";
  "(x,-x,z) 	(x,2x,z) 	(-2x,-x,z) 	(-x,x,-z)"; "(2x,x,-z) 	(-x,-2x,-z)"; "18	g	.2"; "(x,0,1/2) 	(0,x,1/2) 	(-x,-x,1/2) 	(-x,0,1/2)";
  "(0,-x,1/2) 	(x,x,1/2)"; "18	f	.2"; "(x,0,0) 	(0,x,0) 	(-x,-x,0) 	(-x,0,0)"; "(0,-x,0) 	(x,x,0)";
  "9	e	.2/m"; "(1/2,0,0) 	(0,1/2,0) 	(1/2,1/2,0)"; "9	d	.2/m"; "(1/2,0,1/2) 	(0,1/2,1/2) 	(1/2,1/2,1/2)";
  "6	c	3m"; "(0,0,z) 	(0,0,-z)"; "3	b	-3m"; "(0,0,1/2)";
  "3	a	-3m"; "(0,0,0)"; ""; "166  2 10  1  6   R -3 m";
  "12	i	1"; "(x,y,z) 	(z,x,y) 	(y,z,x) 	(-z,-y,-x)"; "(-y,-x,-z) 	(-x,-z,-y) 	(-x,-y,-z) 	(-z,-x,-y)"; "(-y,-z,-x) 	(z,y,x) 	(y,x,z) 	(x,z,y)";
  "6	h	.m"; "(x,x,z) 	(z,x,x) 	(x,z,x) 	(-z,-x,-x)"; "(-x,-x,-z) 	(-x,-z,-x)"; "6	g	.2";
  "(x,-x,1/2) 	(1/2,x,-x) 	(-x,1/2,x) 	(-x,x,1/2)"; "(1/2,-x,x) 	(x,1/2,-x)"; "6	f	.2"; "(x,-x,0) 	(0,x,-x) 	(-x,0,x) 	(-x,x,0)";
  "(0,-x,x) 	(x,0,-x)"; "3	e	.2/m"; "(0,1/2,1/2) 	(1/2,0,1/2) 	(1/2,1/2,0)"; "3	d	.2/m";
  "(1/2,0,0) 	(0,1/2,0) 	(0,0,1/2)"; "2	c	3m"; "(x,x,x) 	(-x,-x,-x)"; "1	b	-3m";
  "(1/2,1/2,1/2)"; "1	a	-3m"; "(0,0,0)"; "";
  "167  1 11  1  6   R -3 c"; "36	f	1"; "(x,y,z) 	(-y,x-y,z) 	(-x+y,-x,z) 	(y,x,-z+1/2)"; "(x-y,-y,-z+1/2) 	(-x,-x+y,-z+1/2) 	(-x,-y,-z) 	(y,-x+y,-z)";
  "(x-y,x,-z) 	(-y,-x,z+1/2) 	(-x+y,y,z+1/2) 	(x,x-y,z+1/2)"; "18	e	.2"; "(x,0,1/4) 	(0,x,1/4) 	(-x,-x,1/4) 	(-x,0,3/4)"; "(0,-x,3/4) 	(x,x,3/4)";
  "18	d	-1"; "(1/2,0,0) 	(0,1/2,0) 	(1/2,1/2,0) 	(0,1/2,1/2)"; "(1/2,0,1/2) 	(1/2,1/2,1/2)"; "12	c	3.";
  "(0,0,z) 	(0,0,-z+1/2) 	(0,0,-z) 	(0,0,z+1/2)"; "6	b	-3."; "(0,0,0) 	(0,0,1/2)"; "6	a	32";
  "(0,0,1/4) 	(0,0,3/4)"; ""; "167  2 10  1  6   R -3 c"; "12	f	1";
  "(x,y,z) 	(z,x,y) 	(y,z,x) 	(-z+1/2,-y+1/2,-x+1/2)"; "(-y+1/2,-x+1/2,-z+1/2) 	(-x+1/2,-z+1/2,-y+1/2) 	(-x,-y,-z) 	(-z,-x,-y)"; "(-y,-z,-x) 	(z+1/2,y+1/2,x+1/2) 	(y+1/2,x+1/2,z+1/2) 	(x+1/2,z+1/2,y+1/2)"; "6	e	.2";
  "(x,-x+1/2,1/4) 	(1/4,x,-x+1/2) 	(-x+1/2,1/4,x) 	(-x,x+1/2,3/4)"; "(3/4,-x,x+1/2) 	(x+1/2,3/4,-x)"; "6	d	-1"; "(1/2,0,0) 	(0,1/2,0) 	(0,0,1/2) 	(1/2,1/2,0)";
  "(1/2,0,1/2) 	(0,1/2,1/2)"; "4	c	3."; "(x,x,x) 	(-x+1/2,-x+1/2,-x+1/2) 	(-x,-x,-x) 	(x+1/2,x+1/2,x+1/2)"; "2	b	-3.";
  "(0,0,0) 	(1/2,1/2,1/2)"; "2	a	32"; "(1/4,1/4,1/4) 	(3/4,3/4,3/4)"; "";
  "168  1 12  0  6   P 6"; "6	d	1"; "(x,y,z) 	(-y,x-y,z) 	(-x+y,-x,z) 	(-x,-y,z)"; "(y,-x+y,z) 	(x-y,x,z)";
  "3	c	2.."; "(1/2,0,z) 	(0,1/2,z) 	(1/2,1/2,z)"; "2	b	3.."; "(1/3,2/3,z) 	(2/3,1/3,z)";
  "1	a	6.."; "(0,0,z)"; ""; "169  1 12  0  6   P 61";
  "6	a	1"; "(x,y,z) 	(-y,x-y,z+1/3) 	(-x+y,-x,z+2/3) 	(-x,-y,z+1/2)"; "(y,-x+y,z+5/6) 	(x-y,x,z+1/6)"; "";
  "170  1 12  0  6   P 65"; "6	a	1"; "(x,y,z) 	(-y,x-y,z+2/3) 	(-x+y,-x,z+1/3) 	(-x,-y,z+1/2)"; "(y,-x+y,z+1/6) 	(x-y,x,z+5/6)";
  ""; "171  1 12  0  6   P 62"; "6	c	1"; "(x,y,z) 	(-y,x-y,z+2/3) 	(-x+y,-x,z+1/3) 	(-x,-y,z)";
  "(y,-x+y,z+2/3) 	(x-y,x,z+1/3)"; "3	b	2.."; "(1/2,1/2,z) 	(1/2,0,z+2/3) 	(0,1/2,z+1/3)"; "3	a	2..";
  "(0,0,z) 	(0,0,z+2/3) 	(0,0,z+1/3)"; ""; "172  1 12  0  6   P 64"; "6	c	1";
  "(x,y,z) 	(-y,x-y,z+1/3) 	(-x+y,-x,z+2/3) 	(-x,-y,z)"; "(y,-x+y,z+1/3) 	(x-y,x,z+2/3)"; "3	b	2.."; "(1/2,1/2,z) 	(1/2,0,z+1/3) 	(0,1/2,z+2/3)";
  "3	a	2.."; "(0,0,z) 	(0,0,z+1/3) 	(0,0,z+2/3)"; ""; "173  1 12  0  6   P 63";
  "6	c	1"; "(x,y,z) 	(-y,x-y,z) 	(-x+y,-x,z) 	(-x,-y,z+1/2)"; "(y,-x+y,z+1/2) 	(x-y,x,z+1/2)"; "2	b	3..";
  "(1/3,2/3,z) 	(2/3,1/3,z+1/2)"; "2	a	3.."; "(0,0,z) 	(0,0,z+1/2)"; "";
  "174  1 12  0  6   P -6"; "6	l	1"; "(x,y,z) 	(-y,x-y,z) 	(-x+y,-x,z) 	(x,y,-z)"; "(-y,x-y,-z) 	(-x+y,-x,-z)";
  "3	k	m.."; "(x,y,1/2) 	(-y,x-y,1/2) 	(-x+y,-x,1/2)"; "3	j	m.."; "(x,y,0) 	(-y,x-y,0) 	(-x+y,-x,0)";
  "2	i	3.."; "(2/3,1/3,z) 	(2/3,1/3,-z)"; "2	h	3.."; "(1/3,2/3,z) 	(1/3,2/3,-z)";
  "2	g	3.."; "(0,0,z) 	(0,0,-z)"; "1	f	-6.."; "(2/3,1/3,1/2)";
  "1	e	-6.."; "(2/3,1/3,0)"; "1	d	-6.."; "(1/3,2/3,1/2)";
  "1	c	-6.."; "(1/3,2/3,0)"; "1	b	-6.."; "(0,0,1/2)";
  "1	a	-6.."; "(0,0,0)"; ""; "175  1 12  1  6   P 6/m";
  "12	l	1"; "(x,y,z) 	(-y,x-y,z) 	(-x+y,-x,z) 	(-x,-y,z)"; "(y,-x+y,z) 	(x-y,x,z) 	(-x,-y,-z) 	(y,-x+y,-z)"; "(x-y,x,-z) 	(x,y,-z) 	(-y,x-y,-z) 	(-x+y,-x,-z)";
  "6	k	m.."; "(x,y,1/2) 	(-y,x-y,1/2) 	(-x+y,-x,1/2) 	(-x,-y,1/2)"; "(y,-x+y,1/2) 	(x-y,x,1/2)"; "6	j	m..";
  "(x,y,0) 	(-y,x-y,0) 	(-x+y,-x,0) 	(-x,-y,0)"; "(y,-x+y,0) 	(x-y,x,0)"; "6	i	2.."; "(1/2,0,z) 	(0,1/2,z) 	(1/2,1/2,z) 	(1/2,0,-z)";
  "(0,1/2,-z) 	(1/2,1/2,-z)"; "4	h	3.."; "(1/3,2/3,z) 	(2/3,1/3,z) 	(2/3,1/3,-z) 	(1/3,2/3,-z)"; "3	g	2/m..";
  "(1/2,0,1/2) 	(0,1/2,1/2) 	(1/2,1/2,1/2)"; "3	f	2/m.."; "(1/2,0,0) 	(0,1/2,0) 	(1/2,1/2,0)"; "2	e	6..";
  "(0,0,z) 	(0,0,-z)"; "2	d	-6.."; "(1/3,2/3,1/2) 	(2/3,1/3,1/2)"; "2	c	-6..";
  "(1/3,2/3,0) 	(2/3,1/3,0)"; "1	b	6/m.."; "(0,0,1/2)"; "1	a	6/m..";
  "(0,0,0)"; ""; "176  1 12  1  6   P 63/m"; "12	i	1";
  "(x,y,z) 	(-y,x-y,z) 	(-x+y,-x,z) 	(-x,-y,z+1/2)"; "(y,-x+y,z+1/2) 	(x-y,x,z+1/2) 	(-x,-y,-z) 	(y,-x+y,-z)"; "(x-y,x,-z) 	(x,y,-z+1/2) 	(-y,x-y,-z+1/2) 	(-x+y,-x,-z+1/2)"; "6	h	m..";
  "(x,y,1/4) 	(-y,x-y,1/4) 	(-x+y,-x,1/4) 	(-x,-y,3/4)"; "(y,-x+y,3/4) 	(x-y,x,3/4)"; "6	g	-1"; "(1/2,0,0) 	(0,1/2,0) 	(1/2,1/2,0) 	(1/2,0,1/2)";
  "(0,1/2,1/2) 	(1/2,1/2,1/2)"; "4	f	3.."; "(1/3,2/3,z) 	(2/3,1/3,z+1/2) 	(2/3,1/3,-z) 	(1/3,2/3,-z+1/2)"; "4	e	3..";
  "(0,0,z) 	(0,0,z+1/2) 	(0,0,-z) 	(0,0,-z+1/2)"; "2	d	-6.."; "(2/3,1/3,1/4) 	(1/3,2/3,3/4)"; "2	c	-6..";
  "(1/3,2/3,1/4) 	(2/3,1/3,3/4)"; "2	b	-3.."; "(0,0,0) 	(0,0,1/2)"; "2	a	-6..";
  "(0,0,1/4) 	(0,0,3/4)"; ""; "177  1 13  0 12   P 6 2 2"; "12	n	1";
  "(x,y,z) 	(-y,x-y,z) 	(-x+y,-x,z) 	(-x,-y,z)"; "(y,-x+y,z) 	(x-y,x,z) 	(y,x,-z) 	(x-y,-y,-z)"; "(-x,-x+y,-z) 	(-y,-x,-z) 	(-x+y,y,-z) 	(x,x-y,-z)"; "6	m	..2";
  "(x,-x,1/2) 	(x,2x,1/2) 	(-2x,-x,1/2) 	(-x,x,1/2)"; "(-x,-2x,1/2) 	(2x,x,1/2)"; "6	l	..2"; "(x,-x,0) 	(x,2x,0) 	(-2x,-x,0) 	(-x,x,0)";
  "(-x,-2x,0) 	(2x,x,0)"; "6	k	.2."; "(x,0,1/2) 	(0,x,1/2) 	(-x,-x,1/2) 	(-x,0,1/2)"; "(0,-x,1/2) 	(x,x,1/2)";
  "6	j	.2."; "(x,0,0) 	(0,x,0) 	(-x,-x,0) 	(-x,0,0)"; "(0,-x,0) 	(x,x,0)"; "6	i	2..";
  "(1/2,0,z) 	(0,1/2,z) 	(1/2,1/2,z) 	(0,1/2,-z)"; "(1/2,0,-z) 	(1/2,1/2,-z)"; "4	h	3.."; "(1/3,2/3,z) 	(2/3,1/3,z) 	(2/3,1/3,-z) 	(1/3,2/3,-z)";
  "3	g	222"; "(1/2,0,1/2) 	(0,1/2,1/2) 	(1/2,1/2,1/2)"; "3	f	222"; "(1/2,0,0) 	(0,1/2,0) 	(1/2,1/2,0)";
  "2	e	6.."; "(0,0,z) 	(0,0,-z)"; "2	d	3.2"; "(1/3,2/3,1/2) 	(2/3,1/3,1/2)";
  "2	c	3.2"; "(1/3,2/3,0) 	(2/3,1/3,0)"; "1	b	622"; "(0,0,1/2)";
  "1	a	622"; "(0,0,0)"; ""; "178  1 13  0 12   P 61 2 2";
  "12	c	1"; "(x,y,z) 	(-y,x-y,z+1/3) 	(-x+y,-x,z+2/3) 	(-x,-y,z+1/2)"; "(y,-x+y,z+5/6) 	(x-y,x,z+1/6) 	(y,x,-z+1/3) 	(x-y,-y,-z)"; "(-x,-x+y,-z+2/3) 	(-y,-x,-z+5/6) 	(-x+y,y,-z+1/2) 	(x,x-y,-z+1/6)";
  "6	b	..2"; "(x,2x,1/4) 	(-2x,-x,7/12) 	(x,-x,11/12) 	(-x,-2x,3/4)"; "(2x,x,1/12) 	(-x,x,5/12)"; "6	a	.2.";
  "(x,0,0) 	(0,x,1/3) 	(-x,-x,2/3) 	(-x,0,1/2)"; "(0,-x,5/6) 	(x,x,1/6)"; ""; "179  1 13  0 12   P 65 2 2";
  "12	c	1"; "(x,y,z) 	(-y,x-y,z+2/3) 	(-x+y,-x,z+1/3) 	(-x,-y,z+1/2)"; "(y,-x+y,z+1/6) 	(x-y,x,z+5/6) 	(y,x,-z+2/3) 	(x-y,-y,-z)"; "(-x,-x+y,-z+1/3) 	(-y,-x,-z+1/6) 	(-x+y,y,-z+1/2) 	(x,x-y,-z+5/6)";
  "6	b	..2"; "(x,2x,3/4) 	(-2x,-x,5/12) 	(x,-x,1/12) 	(-x,-2x,1/4)"; "(2x,x,11/12) 	(-x,x,7/12)"; "6	a	.2.";
  "(x,0,0) 	(0,x,2/3) 	(-x,-x,1/3) 	(-x,0,1/2)"; "(0,-x,1/6) 	(x,x,5/6)"; ""; "180  1 13  0 12   P 62 2 2";
  "12	k	1"; "(x,y,z) 	(-y,x-y,z+2/3) 	(-x+y,-x,z+1/3) 	(-x,-y,z)"; "(y,-x+y,z+2/3) 	(x-y,x,z+1/3) 	(y,x,-z+2/3) 	(x-y,-y,-z)"; "(-x,-x+y,-z+1/3) 	(-y,-x,-z+2/3) 	(-x+y,y,-z) 	(x,x-y,-z+1/3)";
  "6	j	..2"; "(x,2x,1/2) 	(-2x,-x,1/6) 	(x,-x,5/6) 	(-x,-2x,1/2)"; "(2x,x,1/6) 	(-x,x,5/6)"; "6	i	..2";
  "(x,2x,0) 	(-2x,-x,2/3) 	(x,-x,1/3) 	(-x,-2x,0)"; "(2x,x,2/3) 	(-x,x,1/3)"; "6	h	.2."; "(x,0,1/2) 	(0,x,1/6) 	(-x,-x,5/6) 	(-x,0,1/2)";
  "(0,-x,1/6) 	(x,x,5/6)"; "6	g	.2."; "(x,0,0) 	(0,x,2/3) 	(-x,-x,1/3) 	(-x,0,0)"; "(0,-x,2/3) 	(x,x,1/3)";
  "6	f	2.."; "(1/2,0,z) 	(0,1/2,z+2/3) 	(1/2,1/2,z+1/3) 	(0,1/2,-z+2/3)"; "(1/2,0,-z) 	(1/2,1/2,-z+1/3)"; "6	e	2..";
  "(0,0,z) 	(0,0,z+2/3) 	(0,0,z+1/3) 	(0,0,-z+2/3)"; "(0,0,-z) 	(0,0,-z+1/3)"; "3	d	222"; "(1/2,0,1/2) 	(0,1/2,1/6) 	(1/2,1/2,5/6)";
  "3	c	222"; "(1/2,0,0) 	(0,1/2,2/3) 	(1/2,1/2,1/3)"; "3	b	222"; "(0,0,1/2) 	(0,0,1/6) 	(0,0,5/6)";
  "3	a	222"; "(0,0,0) 	(0,0,2/3) 	(0,0,1/3)"; ""; "181  1 13  0 12   P 64 2 2";
  "12	k	1"; "(x,y,z) 	(-y,x-y,z+1/3) 	(-x+y,-x,z+2/3) 	(-x,-y,z)"; "(y,-x+y,z+1/3) 	(x-y,x,z+2/3) 	(y,x,-z+1/3) 	(x-y,-y,-z)"; "(-x,-x+y,-z+2/3) 	(-y,-x,-z+1/3) 	(-x+y,y,-z) 	(x,x-y,-z+2/3)";
  "6	j	..2"; "(x,2x,1/2) 	(-2x,-x,5/6) 	(x,-x,1/6) 	(-x,-2x,1/2)"; "(2x,x,5/6) 	(-x,x,1/6)"; "6	i	..2";
  "(x,2x,0) 	(-2x,-x,1/3) 	(x,-x,2/3) 	(-x,-2x,0)"; "(2x,x,1/3) 	(-x,x,2/3)"; "6	h	.2."; "(x,0,1/2) 	(0,x,5/6) 	(-x,-x,1/6) 	(-x,0,1/2)";
  "(0,-x,5/6) 	(x,x,1/6)"; "6	g	.2."; "(x,0,0) 	(0,x,1/3) 	(-x,-x,2/3) 	(-x,0,0)"; "(0,-x,1/3) 	(x,x,2/3)";
  "6	f	2.."; "(1/2,0,z) 	(0,1/2,z+1/3) 	(1/2,1/2,z+2/3) 	(0,1/2,-z+1/3)"; "(1/2,0,-z) 	(1/2,1/2,-z+2/3)"; "6	e	2..";
  "(0,0,z) 	(0,0,z+1/3) 	(0,0,z+2/3) 	(0,0,-z+1/3)"; "(0,0,-z) 	(0,0,-z+2/3)"; "3	d	222"; "(1/2,0,1/2) 	(0,1/2,5/6) 	(1/2,1/2,1/6)";
  "3	c	222"; "(1/2,0,0) 	(0,1/2,1/3) 	(1/2,1/2,2/3)"; "3	b	222"; "(0,0,1/2) 	(0,0,5/6) 	(0,0,1/6)";
  "3	a	222"; "(0,0,0) 	(0,0,1/3) 	(0,0,2/3)"; ""; "182  1 13  0 12   P 63 2 2";
  "12	i	1"; "(x,y,z) 	(-y,x-y,z) 	(-x+y,-x,z) 	(-x,-y,z+1/2)"; "(y,-x+y,z+1/2) 	(x-y,x,z+1/2) 	(y,x,-z) 	(x-y,-y,-z)"; "(-x,-x+y,-z) 	(-y,-x,-z+1/2) 	(-x+y,y,-z+1/2) 	(x,x-y,-z+1/2)";
  "6	h	..2"; "(x,2x,1/4) 	(-2x,-x,1/4) 	(x,-x,1/4) 	(-x,-2x,3/4)"; "(2x,x,3/4) 	(-x,x,3/4)"; "6	g	.2.";
  "(x,0,0) 	(0,x,0) 	(-x,-x,0) 	(-x,0,1/2)"; "(0,-x,1/2) 	(x,x,1/2)"; "4	f	3.."; "(1/3,2/3,z) 	(2/3,1/3,z+1/2) 	(2/3,1/3,-z) 	(1/3,2/3,-z+1/2)";
  "4	e	3.."; "(0,0,z) 	(0,0,z+1/2) 	(0,0,-z) 	(0,0,-z+1/2)"; "2	d	3.2"; "(1/3,2/3,3/4) 	(2/3,1/3,1/4)";
  "2	c	3.2"; "(1/3,2/3,1/4) 	(2/3,1/3,3/4)"; "2	b	3.2"; "(0,0,1/4) 	(0,0,3/4)";
  "2	a	32."; "(0,0,0) 	(0,0,1/2)"; ""; "183  1 13  0 12   P 6 m m";
  "12	f	1"; "(x,y,z) 	(-y,x-y,z) 	(-x+y,-x,z) 	(-x,-y,z)"; "(y,-x+y,z) 	(x-y,x,z) 	(-y,-x,z) 	(-x+y,y,z)"; "(x,x-y,z) 	(y,x,z) 	(x-y,-y,z) 	(-x,-x+y,z)";
  "6	e	.m."; "(x,-x,z) 	(x,2x,z) 	(-2x,-x,z) 	(-x,x,z)"; "(-x,-2x,z) 	(2x,x,z)"; "6	d	..m";
  "(x,0,z) 	(0,x,z) 	(-x,-x,z) 	(-x,0,z)"; "(0,-x,z) 	(x,x,z)"; "3	c	2mm"; "(1/2,0,z) 	(0,1/2,z) 	(1/2,1/2,z)";
  "2	b	3m."; "(1/3,2/3,z) 	(2/3,1/3,z)"; "1	a	6mm"; "(0,0,z)";
  ""; "184  1 13  0 12   P 6 c c"; "12	d	1"; "(x,y,z) 	(-y,x-y,z) 	(-x+y,-x,z) 	(-x,-y,z)";
  "(y,-x+y,z) 	(x-y,x,z) 	(-y,-x,z+1/2) 	(-x+y,y,z+1/2)"; "(x,x-y,z+1/2) 	(y,x,z+1/2) 	(x-y,-y,z+1/2) 	(-x,-x+y,z+1/2)"; "6	c	2.."; "(1/2,0,z) 	(0,1/2,z) 	(1/2,1/2,z) 	(0,1/2,z+1/2)";
  "(1/2,0,z+1/2) 	(1/2,1/2,z+1/2)"; "4	b	3.."; "(1/3,2/3,z) 	(2/3,1/3,z) 	(1/3,2/3,z+1/2) 	(2/3,1/3,z+1/2)"; "2	a	6..";
  "(0,0,z) 	(0,0,z+1/2)"; ""; "185  1 13  0 12   P 63 c m"; "12	d	1";
  "(x,y,z) 	(-y,x-y,z) 	(-x+y,-x,z) 	(-x,-y,z+1/2)"; "(y,-x+y,z+1/2) 	(x-y,x,z+1/2) 	(-y,-x,z+1/2) 	(-x+y,y,z+1/2)"; "(x,x-y,z+1/2) 	(y,x,z) 	(x-y,-y,z) 	(-x,-x+y,z)"; "6	c	..m";
  "(x,0,z) 	(0,x,z) 	(-x,-x,z) 	(-x,0,z+1/2)"; "(0,-x,z+1/2) 	(x,x,z+1/2)"; "4	b	3.."; "(1/3,2/3,z) 	(2/3,1/3,z+1/2) 	(1/3,2/3,z+1/2) 	(2/3,1/3,z)";
  "2	a	3.m"; "(0,0,z) 	(0,0,z+1/2)"; ""; "186  1 13  0 12   P 63 m c";
  "12	d	1"; "(x,y,z) 	(-y,x-y,z) 	(-x+y,-x,z) 	(-x,-y,z+1/2)"; "(y,-x+y,z+1/2) 	(x-y,x,z+1/2) 	(-y,-x,z) 	(-x+y,y,z)"; "(x,x-y,z) 	(y,x,z+1/2) 	(x-y,-y,z+1/2) 	(-x,-x+y,z+1/2)";
  "6	c	.m."; "(x,-x,z) 	(x,2x,z) 	(-2x,-x,z) 	(-x,x,z+1/2)"; "(-x,-2x,z+1/2) 	(2x,x,z+1/2)"; "2	b	3m.";
  "(1/3,2/3,z) 	(2/3,1/3,z+1/2)"; "2	a	3m."; "(0,0,z) 	(0,0,z+1/2)"; "";
  "187  1 13  0 12   P -6 m 2"; "12	o	1"; "(x,y,z) 	(-y,x-y,z) 	(-x+y,-x,z) 	(x,y,-z)"; "(-y,x-y,-z) 	(-x+y,-x,-z) 	(-y,-x,z) 	(-x+y,y,z)";
  "(x,x-y,z) 	(-y,-x,-z) 	(-x+y,y,-z) 	(x,x-y,-z)"; "6	n	.m."; "(x,-x,z) 	(x,2x,z) 	(-2x,-x,z) 	(x,-x,-z)"; "(x,2x,-z) 	(-2x,-x,-z)";
  "6	m	m.."; "(x,y,1/2) 	(-y,x-y,1/2) 	(-x+y,-x,1/2) 	(-y,-x,1/2)"; "(-x+y,y,1/2) 	(x,x-y,1/2)"; "6	l	m..";
  "(x,y,0) 	(-y,x-y,0) 	(-x+y,-x,0) 	(-y,-x,0)"; "(-x+y,y,0) 	(x,x-y,0)"; "3	k	mm2"; "(x,-x,1/2) 	(x,2x,1/2) 	(-2x,-x,1/2)";
  "3	j	mm2"; "(x,-x,0) 	(x,2x,0) 	(-2x,-x,0)"; "2	i	3m."; "(2/3,1/3,z) 	(2/3,1/3,-z)";
  "2	h	3m."; "(1/3,2/3,z) 	(1/3,2/3,-z)"; "2	g	3m."; "(0,0,z) 	(0,0,-z)";
  "1	f	-6m2"; "(2/3,1/3,1/2)"; "1	e	-6m2"; "(2/3,1/3,0)";
  "1	d	-6m2"; "(1/3,2/3,1/2)"; "1	c	-6m2"; "(1/3,2/3,0)";
  "1	b	-6m2"; "(0,0,1/2)"; "1	a	-6m2"; "(0,0,0)";
  ""; "188  1 13  0 12   P -6 c 2"; "12	l	1"; "(x,y,z) 	(-y,x-y,z) 	(-x+y,-x,z) 	(x,y,-z+1/2)";
  "(-y,x-y,-z+1/2) 	(-x+y,-x,-z+1/2) 	(-y,-x,z+1/2) 	(-x+y,y,z+1/2)"; "(x,x-y,z+1/2) 	(-y,-x,-z) 	(-x+y,y,-z) 	(x,x-y,-z)"; "6	k	m.."; "(x,y,1/4) 	(-y,x-y,1/4) 	(-x+y,-x,1/4) 	(-y,-x,3/4)";
  "(-x+y,y,3/4) 	(x,x-y,3/4)"; "6	j	..2"; "(x,-x,0) 	(x,2x,0) 	(-2x,-x,0) 	(x,-x,1/2)"; "(x,2x,1/2) 	(-2x,-x,1/2)";
  "4	i	3.."; "(2/3,1/3,z) 	(2/3,1/3,-z+1/2) 	(2/3,1/3,z+1/2) 	(2/3,1/3,-z)"; "4	h	3.."; "(1/3,2/3,z) 	(1/3,2/3,-z+1/2) 	(1/3,2/3,z+1/2) 	(1/3,2/3,-z)";
  "4	g	3.."; "(0,0,z) 	(0,0,-z+1/2) 	(0,0,z+1/2) 	(0,0,-z)"; "2	f	-6.."; "(2/3,1/3,1/4) 	(2/3,1/3,3/4)";
  "2	e	3.2"; "(2/3,1/3,0) 	(2/3,1/3,1/2)"; "2	d	-6.."; "(1/3,2/3,1/4) 	(1/3,2/3,3/4)";
  "2	c	3.2"; "(1/3,2/3,0) 	(1/3,2/3,1/2)"; "2	b	-6.."; "(0,0,1/4) 	(0,0,3/4)";
  "2	a	3.2"; "(0,0,0) 	(0,0,1/2)"; ""; "189  1 13  0 12   P -6 2 m";
  "12	l	1"; "(x,y,z) 	(-y,x-y,z) 	(-x+y,-x,z) 	(x,y,-z)"; "(-y,x-y,-z) 	(-x+y,-x,-z) 	(y,x,-z) 	(x-y,-y,-z)"; "(-x,-x+y,-z) 	(y,x,z) 	(x-y,-y,z) 	(-x,-x+y,z)";
  "6	k	m.."; "(x,y,1/2) 	(-y,x-y,1/2) 	(-x+y,-x,1/2) 	(y,x,1/2)"; "(x-y,-y,1/2) 	(-x,-x+y,1/2)"; "6	j	m..";
  "(x,y,0) 	(-y,x-y,0) 	(-x+y,-x,0) 	(y,x,0)"; "(x-y,-y,0) 	(-x,-x+y,0)"; "6	i	..m"; "(x,0,z) 	(0,x,z) 	(-x,-x,z) 	(x,0,-z)";
  "(0,x,-z) 	(-x,-x,-z)"; "4	h	3.."; "(1/3,2/3,z) 	(1/3,2/3,-z) 	(2/3,1/3,-z) 	(2/3,1/3,z)"; "3	g	m2m";
  "(x,0,1/2) 	(0,x,1/2) 	(-x,-x,1/2)"; "3	f	m2m"; "(x,0,0) 	(0,x,0) 	(-x,-x,0)"; "2	e	3.m";
  "(0,0,z) 	(0,0,-z)"; "2	d	-6.."; "(1/3,2/3,1/2) 	(2/3,1/3,1/2)"; "2	c	-6..";
  "(1/3,2/3,0) 	(2/3,1/3,0)"; "1	b	-62m"; "(0,0,1/2)"; "1	a	-62m";
  "(0,0,0)"; ""; "190  1 13  0 12   P -6 2 c"; "12	i	1";
  "(x,y,z) 	(-y,x-y,z) 	(-x+y,-x,z) 	(x,y,-z+1/2)"; "(-y,x-y,-z+1/2) 	(-x+y,-x,-z+1/2) 	(y,x,-z) 	(x-y,-y,-z)"; "(-x,-x+y,-z) 	(y,x,z+1/2) 	(x-y,-y,z+1/2) 	(-x,-x+y,z+1/2)"; "6	h	m..";
  "(x,y,1/4) 	(-y,x-y,1/4) 	(-x+y,-x,1/4) 	(y,x,3/4)"; "(x-y,-y,3/4) 	(-x,-x+y,3/4)"; "6	g	.2."; "(x,0,0) 	(0,x,0) 	(-x,-x,0) 	(x,0,1/2)";
  "(0,x,1/2) 	(-x,-x,1/2)"; "4	f	3.."; "(1/3,2/3,z) 	(1/3,2/3,-z+1/2) 	(2/3,1/3,-z) 	(2/3,1/3,z+1/2)"; "4	e	3..";
  "(0,0,z) 	(0,0,-z+1/2) 	(0,0,-z) 	(0,0,z+1/2)"; "2	d	-6.."; "(2/3,1/3,1/4) 	(1/3,2/3,3/4)"; "2	c	-6..";
  "(1/3,2/3,1/4) 	(2/3,1/3,3/4)"; "2	b	-6.."; "(0,0,1/4) 	(0,0,3/4)"; "2	a	32.";
  "(0,0,0) 	(0,0,1/2)"; ""; "191  1 13  1 12   P 6/m m m"; "24	r	1";
  "(x,y,z) 	(-y,x-y,z) 	(-x+y,-x,z) 	(-x,-y,z)"; "(y,-x+y,z) 	(x-y,x,z) 	(y,x,-z) 	(x-y,-y,-z)"; "(-x,-x+y,-z) 	(-y,-x,-z) 	(-x+y,y,-z) 	(x,x-y,-z)"; "(-x,-y,-z) 	(y,-x+y,-z) 	(x-y,x,-z) 	(x,y,-z)";
  "(-y,x-y,-z) 	(-x+y,-x,-z) 	(-y,-x,z) 	(-x+y,y,z)"; "(x,x-y,z) 	(y,x,z) 	(x-y,-y,z) 	(-x,-x+y,z)"; "12	q	m.."; "(x,y,1/2) 	(-y,x-y,1/2) 	(-x+y,-x,1/2) 	(-x,-y,1/2)";
  "(y,-x+y,1/2) 	(x-y,x,1/2) 	(y,x,1/2) 	(x-y,-y,1/2)"; "(-x,-x+y,1/2) 	(-y,-x,1/2) 	(-x+y,y,1/2) 	(x,x-y,1/2)"; "12	p	m.."; "(x,y,0) 	(-y,x-y,0) 	(-x+y,-x,0) 	(-x,-y,0)";
  "(y,-x+y,0) 	(x-y,x,0) 	(y,x,0) 	(x-y,-y,0)"; "(-x,-x+y,0) 	(-y,-x,0) 	(-x+y,y,0) 	(x,x-y,0)"; "12	o	.m."; "(x,2x,z) 	(-2x,-x,z) 	(x,-x,z) 	(-x,-2x,z)";
  "(2x,x,z) 	(-x,x,z) 	(2x,x,-z) 	(-x,-2x,-z)"; "(-x,x,-z) 	(-2x,-x,-z) 	(x,2x,-z) 	(x,-x,-z)"; "12	n	..m"; "(x,0,z) 	(0,x,z) 	(-x,-x,z) 	(-x,0,z)";
  "(0,-x,z) 	(x,x,z) 	(0,x,-z) 	(x,0,-z)"; "(-x,-x,-z) 	(0,-x,-z) 	(-x,0,-z) 	(x,x,-z)"; "6	m	mm2"; "(x,2x,1/2) 	(-2x,-x,1/2) 	(x,-x,1/2) 	(-x,-2x,1/2)";
  "(2x,x,1/2) 	(-x,x,1/2)"; "6	l	mm2"; "(x,2x,0) 	(-2x,-x,0) 	(x,-x,0) 	(-x,-2x,0)"; "(2x,x,0) 	(-x,x,0)";
  "6	k	m2m"; "(x,0,1/2) 	(0,x,1/2) 	(-x,-x,1/2) 	(-x,0,1/2)"; "(0,-x,1/2) 	(x,x,1/2)"; "6	j	m2m";
  "(x,0,0) 	(0,x,0) 	(-x,-x,0) 	(-x,0,0)"; "(0,-x,0) 	(x,x,0)"; "6	i	2mm"; "(1/2,0,z) 	(0,1/2,z) 	(1/2,1/2,z) 	(0,1/2,-z)";
  "(1/2,0,-z) 	(1/2,1/2,-z)"; "4	h	3m."; "(1/3,2/3,z) 	(2/3,1/3,z) 	(2/3,1/3,-z) 	(1/3,2/3,-z)"; "3	g	mmm";
  "(1/2,0,1/2) 	(0,1/2,1/2) 	(1/2,1/2,1/2)"; "3	f	mmm"; "(1/2,0,0) 	(0,1/2,0) 	(1/2,1/2,0)"; "2	e	6mm";
  "(0,0,z) 	(0,0,-z)"; "2	d	-6m2"; "(1/3,2/3,1/2) 	(2/3,1/3,1/2)"; "2	c	-6m2";
  "(1/3,2/3,0) 	(2/3,1/3,0)"; "1	b	6/mmm"; "(0,0,1/2)"; "1	a	6/mmm";
  "(0,0,0)"; ""; "192  1 13  1 12   P 6/m c c"; "24	m	1";
  "(x,y,z) 	(-y,x-y,z) 	(-x+y,-x,z) 	(-x,-y,z)"; "(y,-x+y,z) 	(x-y,x,z) 	(y,x,-z+1/2) 	(x-y,-y,-z+1/2)"; "(-x,-x+y,-z+1/2) 	(-y,-x,-z+1/2) 	(-x+y,y,-z+1/2) 	(x,x-y,-z+1/2)"; "(-x,-y,-z) 	(y,-x+y,-z) 	(x-y,x,-z) 	(x,y,-z)";
  "(-y,x-y,-z) 	(-x+y,-x,-z) 	(-y,-x,z+1/2) 	(-x+y,y,z+1/2)"; "(x,x-y,z+1/2) 	(y,x,z+1/2) 	(x-y,-y,z+1/2) 	(-x,-x+y,z+1/2)"; "12	l	m.."; "(x,y,0) 	(-y,x-y,0) 	(-x+y,-x,0) 	(-x,-y,0)";
  "(y,-x+y,0) 	(x-y,x,0) 	(y,x,1/2) 	(x-y,-y,1/2)"; "(-x,-x+y,1/2) 	(-y,-x,1/2) 	(-x+y,y,1/2) 	(x,x-y,1/2)"; "12	k	..2"; "(x,2x,1/4) 	(-2x,-x,1/4) 	(x,-x,1/4) 	(-x,-2x,1/4)";
  "(2x,x,1/4) 	(-x,x,1/4) 	(-x,-2x,3/4) 	(2x,x,3/4)"; "(-x,x,3/4) 	(x,2x,3/4) 	(-2x,-x,3/4) 	(x,-x,3/4)"; "12	j	.2."; "(x,0,1/4) 	(0,x,1/4) 	(-x,-x,1/4) 	(-x,0,1/4)";
  "(0,-x,1/4) 	(x,x,1/4) 	(-x,0,3/4) 	(0,-x,3/4)"; "(x,x,3/4) 	(x,0,3/4) 	(0,x,3/4) 	(-x,-x,3/4)"; "12	i	2.."; "(1/2,0,z) 	(0,1/2,z) 	(1/2,1/2,z) 	(0,1/2,-z+1/2)";
  "(1/2,0,-z+1/2) 	(1/2,1/2,-z+1/2) 	(1/2,0,-z) 	(0,1/2,-z)"; "(1/2,1/2,-z) 	(0,1/2,z+1/2) 	(1/2,0,z+1/2) 	(1/2,1/2,z+1/2)"; "8	h	3.."; "(1/3,2/3,z) 	(2/3,1/3,z) 	(2/3,1/3,-z+1/2) 	(1/3,2/3,-z+1/2)";
  "(2/3,1/3,-z) 	(1/3,2/3,-z) 	(1/3,2/3,z+1/2) 	(2/3,1/3,z+1/2)"; "6	g	2/m.."; "(1/2,0,0) 	(0,1/2,0) 	(1/2,1/2,0) 	(0,1/2,1/2)"; "(1/2,0,1/2) 	(1/2,1/2,1/2)";
  "6	f	222"; "(1/2,0,1/4) 	(0,1/2,1/4) 	(1/2,1/2,1/4) 	(1/2,0,3/4)"; "(0,1/2,3/4) 	(1/2,1/2,3/4)"; "4	e	6..";
  "(0,0,z) 	(0,0,-z+1/2) 	(0,0,-z) 	(0,0,z+1/2)"; "4	d	-6.."; "(1/3,2/3,0) 	(2/3,1/3,0) 	(2/3,1/3,1/2) 	(1/3,2/3,1/2)"; "4	c	3.2";
  "(1/3,2/3,1/4) 	(2/3,1/3,1/4) 	(2/3,1/3,3/4) 	(1/3,2/3,3/4)"; "2	b	6/m.."; "(0,0,0) 	(0,0,1/2)"; "2	a	622";
  "(0,0,1/4) 	(0,0,3/4)"; ""; "193  1 13  1 12   P 63/m c m"; "24	l	1";
  "(x,y,z) 	(-y,x-y,z) 	(-x+y,-x,z) 	(-x,-y,z+1/2)"; "(y,-x+y,z+1/2) 	(x-y,x,z+1/2) 	(y,x,-z+1/2) 	(x-y,-y,-z+1/2)"; "(-x,-x+y,-z+1/2) 	(-y,-x,-z) 	(-x+y,y,-z) 	(x,x-y,-z)"; "(-x,-y,-z) 	(y,-x+y,-z) 	(x-y,x,-z) 	(x,y,-z+1/2)";
  "(-y,x-y,-z+1/2) 	(-x+y,-x,-z+1/2) 	(-y,-x,z+1/2) 	(-x+y,y,z+1/2)"; "(x,x-y,z+1/2) 	(y,x,z) 	(x-y,-y,z) 	(-x,-x+y,z)"; "12	k	..m"; "(x,0,z) 	(0,x,z) 	(-x,-x,z) 	(-x,0,z+1/2)";
  "(0,-x,z+1/2) 	(x,x,z+1/2) 	(0,x,-z+1/2) 	(x,0,-z+1/2)"; "(-x,-x,-z+1/2) 	(0,-x,-z) 	(-x,0,-z) 	(x,x,-z)"; "12	j	m.."; "(x,y,1/4) 	(-y,x-y,1/4) 	(-x+y,-x,1/4) 	(-x,-y,3/4)";
  "(y,-x+y,3/4) 	(x-y,x,3/4) 	(y,x,1/4) 	(x-y,-y,1/4)"; "(-x,-x+y,1/4) 	(-y,-x,3/4) 	(-x+y,y,3/4) 	(x,x-y,3/4)"; "12	i	..2"; "(x,2x,0) 	(-2x,-x,0) 	(x,-x,0) 	(-x,-2x,1/2)";
  "(2x,x,1/2) 	(-x,x,1/2) 	(-x,-2x,0) 	(2x,x,0)"; "(-x,x,0) 	(x,2x,1/2) 	(-2x,-x,1/2) 	(x,-x,1/2)"; "8	h	3.."; "(1/3,2/3,z) 	(2/3,1/3,z+1/2) 	(2/3,1/3,-z+1/2) 	(1/3,2/3,-z)";
  "(2/3,1/3,-z) 	(1/3,2/3,-z+1/2) 	(1/3,2/3,z+1/2) 	(2/3,1/3,z)"; "6	g	m2m"; "(x,0,1/4) 	(0,x,1/4) 	(-x,-x,1/4) 	(-x,0,3/4)"; "(0,-x,3/4) 	(x,x,3/4)";
  "6	f	..2/m"; "(1/2,0,0) 	(0,1/2,0) 	(1/2,1/2,0) 	(1/2,0,1/2)"; "(0,1/2,1/2) 	(1/2,1/2,1/2)"; "4	e	3.m";
  "(0,0,z) 	(0,0,z+1/2) 	(0,0,-z+1/2) 	(0,0,-z)"; "4	d	3.2"; "(1/3,2/3,0) 	(2/3,1/3,1/2) 	(2/3,1/3,0) 	(1/3,2/3,1/2)"; "4	c	-6..";
  "(1/3,2/3,1/4) 	(2/3,1/3,3/4) 	(2/3,1/3,1/4) 	(1/3,2/3,3/4)"; "2	b	-3.m"; "(0,0,0) 	(0,0,1/2)"; "2	a	-62m";
  "(0,0,1/4) 	(0,0,3/4)"; ""; "194  1 13  1 12   P 63/m m c"; "24	l	1";
  "(x,y,z) 	(-y,x-y,z) 	(-x+y,-x,z) 	(-x,-y,z+1/2)"; "(y,-x+y,z+1/2) 	(x-y,x,z+1/2) 	(y,x,-z) 	(x-y,-y,-z)"; "(-x,-x+y,-z) 	(-y,-x,-z+1/2) 	(-x+y,y,-z+1/2) 	(x,x-y,-z+1/2)"; "(-x,-y,-z) 	(y,-x+y,-z) 	(x-y,x,-z) 	(x,y,-z+1/2)";
  "(-y,x-y,-z+1/2) 	(-x+y,-x,-z+1/2) 	(-y,-x,z) 	(-x+y,y,z)"; "(x,x-y,z) 	(y,x,z+1/2) 	(x-y,-y,z+1/2) 	(-x,-x+y,z+1/2)"; "12	k	.m."; "(x,2x,z) 	(-2x,-x,z) 	(x,-x,z) 	(-x,-2x,z+1/2)";
  "(2x,x,z+1/2) 	(-x,x,z+1/2) 	(2x,x,-z) 	(-x,-2x,-z)"; "(-x,x,-z) 	(-2x,-x,-z+1/2) 	(x,2x,-z+1/2) 	(x,-x,-z+1/2)"; "12	j	m.."; "(x,y,1/4) 	(-y,x-y,1/4) 	(-x+y,-x,1/4) 	(-x,-y,3/4)";
  "(y,-x+y,3/4) 	(x-y,x,3/4) 	(y,x,3/4) 	(x-y,-y,3/4)"; "(-x,-x+y,3/4) 	(-y,-x,1/4) 	(-x+y,y,1/4) 	(x,x-y,1/4)"; "12	i	.2."; "(x,0,0) 	(0,x,0) 	(-x,-x,0) 	(-x,0,1/2)";
  "(0,-x,1/2) 	(x,x,1/2) 	(-x,0,0) 	(0,-x,0)"; "(x,x,0) 	(x,0,1/2) 	(0,x,1/2) 	(-x,-x,1/2)"; "6	h	mm2"; "(x,2x,1/4) 	(-2x,-x,1/4) 	(x,-x,1/4) 	(-x,-2x,3/4)";
  "(2x,x,3/4) 	(-x,x,3/4)"; "6	g	.2/m."; "(1/2,0,0) 	(0,1/2,0) 	(1/2,1/2,0) 	(1/2,0,1/2)"; "(0,1/2,1/2) 	(1/2,1/2,1/2)";
  "4	f	3m."; "(1/3,2/3,z) 	(2/3,1/3,z+1/2) 	(2/3,1/3,-z) 	(1/3,2/3,-z+1/2)"; "4	e	3m."; "(0,0,z) 	(0,0,z+1/2) 	(0,0,-z) 	(0,0,-z+1/2)";
  "2	d	-6m2"; "(1/3,2/3,3/4) 	(2/3,1/3,1/4)"; "2	c	-6m2"; "(1/3,2/3,1/4) 	(2/3,1/3,3/4)";
  "2	b	-6m2"; "(0,0,1/4) 	(0,0,3/4)"; "2	a	-3m."; "(0,0,0) 	(0,0,1/2)";
  ""; "195  1 14  0 12   P 2 3"; "12	j	1"; "(x,y,z) 	(-x,-y,z) 	(-x,y,-z) 	(x,-y,-z)";
  "(z,x,y) 	(z,-x,-y) 	(-z,-x,y) 	(-z,x,-y)"; "(y,z,x) 	(-y,z,-x) 	(y,-z,-x) 	(-y,-z,x)"; "6	i	2.."; "(x,1/2,1/2) 	(-x,1/2,1/2) 	(1/2,x,1/2) 	(1/2,-x,1/2)";
  "(1/2,1/2,x) 	(1/2,1/2,-x)"; "6	h	2.."; "(x,1/2,0) 	(-x,1/2,0) 	(0,x,1/2) 	(0,-x,1/2)"; "(1/2,0,x) 	(1/2,0,-x)";
  "6	g	2.."; "(x,0,1/2) 	(-x,0,1/2) 	(1/2,x,0) 	(1/2,-x,0)"; "(0,1/2,x) 	(0,1/2,-x)"; "6	f	2..";
  "(x,0,0) 	(-x,0,0) 	(0,x,0) 	(0,-x,0)"; "(0,0,x) 	(0,0,-x)"; "4	e	.3."; "(x,x,x) 	(-x,-x,x) 	(-x,x,-x) 	(x,-x,-x)";
  "3	d	222 . ."; "(1/2,0,0) 	(0,1/2,0) 	(0,0,1/2)"; "3	c	222 . ."; "(0,1/2,1/2) 	(1/2,0,1/2) 	(1/2,1/2,0)";
  "1	b	23."; "(1/2,1/2,1/2)"; "1	a	23."; "(0,0,0)";
  ""; "196  1 14  0 12   F 2 3"; "48	h	1"; "(x,y,z) 	(-x,-y,z) 	(-x,y,-z) 	(x,-y,-z)";
  "(z,x,y) 	(z,-x,-y) 	(-z,-x,y) 	(-z,x,-y)"; "(y,z,x) 	(-y,z,-x) 	(y,-z,-x) 	(-y,-z,x)"; "24	g	2.."; "(x,1/4,1/4) 	(-x,3/4,1/4) 	(1/4,x,1/4) 	(1/4,-x,3/4)";
  "(1/4,1/4,x) 	(3/4,1/4,-x)"; "24	f	2.."; "(x,0,0) 	(-x,0,0) 	(0,x,0) 	(0,-x,0)"; "(0,0,x) 	(0,0,-x)";
  "16	e	.3."; "(x,x,x) 	(-x,-x,x) 	(-x,x,-x) 	(x,-x,-x)"; "4	d	23."; "(3/4,3/4,3/4)";
  "4	c	23."; "(1/4,1/4,1/4)"; "4	b	23."; "(1/2,1/2,1/2)";
  "4	a	23."; "(0,0,0)"; ""; "197  1 14  0 12   I 2 3";
  "24	f	1"; "(x,y,z) 	(-x,-y,z) 	(-x,y,-z) 	(x,-y,-z)"; "(z,x,y) 	(z,-x,-y) 	(-z,-x,y) 	(-z,x,-y)"; "(y,z,x) 	(-y,z,-x) 	(y,-z,-x) 	(-y,-z,x)";
  "12	e	2.."; "(x,1/2,0) 	(-x,1/2,0) 	(0,x,1/2) 	(0,-x,1/2)"; "(1/2,0,x) 	(1/2,0,-x)"; "12	d	2..";
  "(x,0,0) 	(-x,0,0) 	(0,x,0) 	(0,-x,0)"; "(0,0,x) 	(0,0,-x)"; "8	c	.3."; "(x,x,x) 	(-x,-x,x) 	(-x,x,-x) 	(x,-x,-x)";
  "6	b	222 . ."; "(0,1/2,1/2) 	(1/2,0,1/2) 	(1/2,1/2,0)"; "2	a	23."; "(0,0,0)";
  ""; "198  1 14  0 12   P 21 3"; "12	b	1"; "(x,y,z) 	(-x+1/2,-y,z+1/2) 	(-x,y+1/2,-z+1/2) 	(x+1/2,-y+1/2,-z)";
  "(z,x,y) 	(z+1/2,-x+1/2,-y) 	(-z+1/2,-x,y+1/2) 	(-z,x+1/2,-y+1/2)"; "(y,z,x) 	(-y,z+1/2,-x+1/2) 	(y+1/2,-z+1/2,-x) 	(-y+1/2,-z,x+1/2)"; "4	a	.3."; "(x,x,x) 	(-x+1/2,-x,x+1/2) 	(-x,x+1/2,-x+1/2) 	(x+1/2,-x+1/2,-x)";
  ""; "199  1 14  0 12   I 21 3"; "24	c	1"; "(x,y,z) 	(-x+1/2,-y,z+1/2) 	(-x,y+1/2,-z+1/2) 	(x+1/2,-y+1/2,-z)";
  "(z,x,y) 	(z+1/2,-x+1/2,-y) 	(-z+1/2,-x,y+1/2) 	(-z,x+1/2,-y+1/2)"; "(y,z,x) 	(-y,z+1/2,-x+1/2) 	(y+1/2,-z+1/2,-x) 	(-y+1/2,-z,x+1/2)"; "12	b	2.."; "(x,0,1/4) 	(-x+1/2,0,3/4) 	(1/4,x,0) 	(3/4,-x+1/2,0)";
  "(0,1/4,x) 	(0,3/4,-x+1/2)"; "8	a	.3."; "(x,x,x) 	(-x+1/2,-x,x+1/2) 	(-x,x+1/2,-x+1/2) 	(x+1/2,-x+1/2,-x)"; "";
  "200  1 14  1 12   P m -3"; "24	l	1"; "(x,y,z) 	(-x,-y,z) 	(-x,y,-z) 	(x,-y,-z)"; "(z,x,y) 	(z,-x,-y) 	(-z,-x,y) 	(-z,x,-y)";
  "(y,z,x) 	(-y,z,-x) 	(y,-z,-x) 	(-y,-z,x)"; "(-x,-y,-z) 	(x,y,-z) 	(x,-y,z) 	(-x,y,z)"; "(-z,-x,-y) 	(-z,x,y) 	(z,x,-y) 	(z,-x,y)"; "(-y,-z,-x) 	(y,-z,x) 	(-y,z,x) 	(y,z,-x)";
  "12	k	m.."; "(1/2,y,z) 	(1/2,-y,z) 	(1/2,y,-z) 	(1/2,-y,-z)"; "(z,1/2,y) 	(z,1/2,-y) 	(-z,1/2,y) 	(-z,1/2,-y)"; "(y,z,1/2) 	(-y,z,1/2) 	(y,-z,1/2) 	(-y,-z,1/2)";
  "12	j	m.."; "(0,y,z) 	(0,-y,z) 	(0,y,-z) 	(0,-y,-z)"; "(z,0,y) 	(z,0,-y) 	(-z,0,y) 	(-z,0,-y)"; "(y,z,0) 	(-y,z,0) 	(y,-z,0) 	(-y,-z,0)";
  "8	i	.3."; "(x,x,x) 	(-x,-x,x) 	(-x,x,-x) 	(x,-x,-x)"; "(-x,-x,-x) 	(x,x,-x) 	(x,-x,x) 	(-x,x,x)"; "6	h	mm2 . .";
  "(x,1/2,1/2) 	(-x,1/2,1/2) 	(1/2,x,1/2) 	(1/2,-x,1/2)"; "(1/2,1/2,x) 	(1/2,1/2,-x)"; "6	g	mm2 . ."; "(x,1/2,0) 	(-x,1/2,0) 	(0,x,1/2) 	(0,-x,1/2)";
  "(1/2,0,x) 	(1/2,0,-x)"; "6	f	mm2 . ."; "(x,0,1/2) 	(-x,0,1/2) 	(1/2,x,0) 	(1/2,-x,0)"; "(0,1/2,x) 	(0,1/2,-x)";
  "6	e	mm2 . ."; "(x,0,0) 	(-x,0,0) 	(0,x,0) 	(0,-x,0)"; "(0,0,x) 	(0,0,-x)"; "3	d	mmm . .";
  "(1/2,0,0) 	(0,1/2,0) 	(0,0,1/2)"; "3	c	mmm . ."; "(0,1/2,1/2) 	(1/2,0,1/2) 	(1/2,1/2,0)"; "1	b	m-3.";
  "(1/2,1/2,1/2)"; "1	a	m-3."; "(0,0,0)"; "";
  "201  1 14  0 24   P n -3"; "24	h	1"; "(x,y,z) 	(-x,-y,z) 	(-x,y,-z) 	(x,-y,-z)"; "(z,x,y) 	(z,-x,-y) 	(-z,-x,y) 	(-z,x,-y)";
  "(y,z,x) 	(-y,z,-x) 	(y,-z,-x) 	(-y,-z,x)"; "(-x+1/2,-y+1/2,-z+1/2) 	(x+1/2,y+1/2,-z+1/2) 	(x+1/2,-y+1/2,z+1/2) 	(-x+1/2,y+1/2,z+1/2)"; "(-z+1/2,-x+1/2,-y+1/2) 	(-z+1/2,x+1/2,y+1/2) 	(z+1/2,x+1/2,-y+1/2) 	(z+1/2,-x+1/2,y+1/2)"; "(-y+1/2,-z+1/2,-x+1/2) 	(y+1/2,-z+1/2,x+1/2) 	(-y+1/2,z+1/2,x+1/2) 	(y+1/2,z+1/2,-x+1/2)";
  "12	g	2.."; "(x,1/2,0) 	(-x,1/2,0) 	(0,x,1/2) 	(0,-x,1/2)"; "(1/2,0,x) 	(1/2,0,-x) 	(-x+1/2,0,1/2) 	(x+1/2,0,1/2)"; "(1/2,-x+1/2,0) 	(1/2,x+1/2,0) 	(0,1/2,-x+1/2) 	(0,1/2,x+1/2)";
  "12	f	2.."; "(x,0,0) 	(-x,0,0) 	(0,x,0) 	(0,-x,0)"; "(0,0,x) 	(0,0,-x) 	(-x+1/2,1/2,1/2) 	(x+1/2,1/2,1/2)"; "(1/2,-x+1/2,1/2) 	(1/2,x+1/2,1/2) 	(1/2,1/2,-x+1/2) 	(1/2,1/2,x+1/2)";
  "8	e	.3."; "(x,x,x) 	(-x,-x,x) 	(-x,x,-x) 	(x,-x,-x)"; "(-x+1/2,-x+1/2,-x+1/2) 	(x+1/2,x+1/2,-x+1/2) 	(x+1/2,-x+1/2,x+1/2) 	(-x+1/2,x+1/2,x+1/2)"; "6	d	222 . .";
  "(0,1/2,1/2) 	(1/2,0,1/2) 	(1/2,1/2,0) 	(1/2,0,0)"; "(0,1/2,0) 	(0,0,1/2)"; "4	c	.-3."; "(3/4,3/4,3/4) 	(1/4,1/4,3/4) 	(1/4,3/4,1/4) 	(3/4,1/4,1/4)";
  "4	b	.-3."; "(1/4,1/4,1/4) 	(3/4,3/4,1/4) 	(3/4,1/4,3/4) 	(1/4,3/4,3/4)"; "2	a	23."; "(0,0,0) 	(1/2,1/2,1/2)";
  ""; "201  2 14  1 12   P n -3"; "24	h	1"; "(x,y,z) 	(-x+1/2,-y+1/2,z) 	(-x+1/2,y,-z+1/2) 	(x,-y+1/2,-z+1/2)";
  "(z,x,y) 	(z,-x+1/2,-y+1/2) 	(-z+1/2,-x+1/2,y) 	(-z+1/2,x,-y+1/2)"; "(y,z,x) 	(-y+1/2,z,-x+1/2) 	(y,-z+1/2,-x+1/2) 	(-y+1/2,-z+1/2,x)"; "(-x,-y,-z) 	(x+1/2,y+1/2,-z) 	(x+1/2,-y,z+1/2) 	(-x,y+1/2,z+1/2)"; "(-z,-x,-y) 	(-z,x+1/2,y+1/2) 	(z+1/2,x+1/2,-y) 	(z+1/2,-x,y+1/2)";
  "(-y,-z,-x) 	(y+1/2,-z,x+1/2) 	(-y,z+1/2,x+1/2) 	(y+1/2,z+1/2,-x)"; "12	g	2.."; "(x,3/4,1/4) 	(-x+1/2,3/4,1/4) 	(1/4,x,3/4) 	(1/4,-x+1/2,3/4)"; "(3/4,1/4,x) 	(3/4,1/4,-x+1/2) 	(-x,1/4,3/4) 	(x+1/2,1/4,3/4)";
  "(3/4,-x,1/4) 	(3/4,x+1/2,1/4) 	(1/4,3/4,-x) 	(1/4,3/4,x+1/2)"; "12	f	2.."; "(x,1/4,1/4) 	(-x+1/2,1/4,1/4) 	(1/4,x,1/4) 	(1/4,-x+1/2,1/4)"; "(1/4,1/4,x) 	(1/4,1/4,-x+1/2) 	(-x,3/4,3/4) 	(x+1/2,3/4,3/4)";
  "(3/4,-x,3/4) 	(3/4,x+1/2,3/4) 	(3/4,3/4,-x) 	(3/4,3/4,x+1/2)"; "8	e	.3."; "(x,x,x) 	(-x+1/2,-x+1/2,x) 	(-x+1/2,x,-x+1/2) 	(x,-x+1/2,-x+1/2)"; "(-x,-x,-x) 	(x+1/2,x+1/2,-x) 	(x+1/2,-x,x+1/2) 	(-x,x+1/2,x+1/2)";
  "6	d	222 . ."; "(1/4,3/4,3/4) 	(3/4,1/4,3/4) 	(3/4,3/4,1/4) 	(3/4,1/4,1/4)"; "(1/4,3/4,1/4) 	(1/4,1/4,3/4)"; "4	c	.-3.";
  "(1/2,1/2,1/2) 	(0,0,1/2) 	(0,1/2,0) 	(1/2,0,0)"; "4	b	.-3."; "(0,0,0) 	(1/2,1/2,0) 	(1/2,0,1/2) 	(0,1/2,1/2)"; "2	a	23.";
  "(1/4,1/4,1/4) 	(3/4,3/4,3/4)"; ""; "202  1 14  1 12   F m -3"; "96	i	1";
  "(x,y,z) 	(-x,-y,z) 	(-x,y,-z) 	(x,-y,-z)"; "(z,x,y) 	(z,-x,-y) 	(-z,-x,y) 	(-z,x,-y)"; "(y,z,x) 	(-y,z,-x) 	(y,-z,-x) 	(-y,-z,x)"; "(-x,-y,-z) 	(x,y,-z) 	(x,-y,z) 	(-x,y,z)";
  "(-z,-x,-y) 	(-z,x,y) 	(z,x,-y) 	(z,-x,y)"; "(-y,-z,-x) 	(y,-z,x) 	(-y,z,x) 	(y,z,-x)"; "48	h	m.."; "(0,y,z) 	(0,-y,z) 	(0,y,-z) 	(0,-y,-z)";
  "(z,0,y) 	(z,0,-y) 	(-z,0,y) 	(-z,0,-y)"; "(y,z,0) 	(-y,z,0) 	(y,-z,0) 	(-y,-z,0)"; "48	g	2.."; "(x,1/4,1/4) 	(-x,3/4,1/4) 	(1/4,x,1/4) 	(1/4,-x,3/4)";
  "(1/4,1/4,x) 	(3/4,1/4,-x) 	(-x,3/4,3/4) 	(x,1/4,3/4)"; "(3/4,-x,3/4) 	(3/4,x,1/4) 	(3/4,3/4,-x) 	(1/4,3/4,x)"; "32	f	.3."; "(x,x,x) 	(-x,-x,x) 	(-x,x,-x) 	(x,-x,-x)";
  "(-x,-x,-x) 	(x,x,-x) 	(x,-x,x) 	(-x,x,x)"; "24	e	mm2 . ."; "(x,0,0) 	(-x,0,0) 	(0,x,0) 	(0,-x,0)"; "(0,0,x) 	(0,0,-x)";
  "24	d	2/m.."; "(0,1/4,1/4) 	(0,3/4,1/4) 	(1/4,0,1/4) 	(1/4,0,3/4)"; "(1/4,1/4,0) 	(3/4,1/4,0)"; "8	c	23.";
  "(1/4,1/4,1/4) 	(3/4,3/4,3/4)"; "4	b	m-3."; "(1/2,1/2,1/2)"; "4	a	m-3.";
  "(0,0,0)"; ""; "203  1 14  0 24   F d -3"; "96	g	1";
  "(x,y,z) 	(-x,-y,z) 	(-x,y,-z) 	(x,-y,-z)"; "(z,x,y) 	(z,-x,-y) 	(-z,-x,y) 	(-z,x,-y)"; "(y,z,x) 	(-y,z,-x) 	(y,-z,-x) 	(-y,-z,x)"; "(-x+1/4,-y+1/4,-z+1/4) 	(x+1/4,y+1/4,-z+1/4) 	(x+1/4,-y+1/4,z+1/4) 	(-x+1/4,y+1/4,z+1/4)";
  "(-z+1/4,-x+1/4,-y+1/4) 	(-z+1/4,x+1/4,y+1/4) 	(z+1/4,x+1/4,-y+1/4) 	(z+1/4,-x+1/4,y+1/4)"; "(-y+1/4,-z+1/4,-x+1/4) 	(y+1/4,-z+1/4,x+1/4) 	(-y+1/4,z+1/4,x+1/4) 	(y+1/4,z+1/4,-x+1/4)"; "48	f	2.."; "(x,0,0) 	(-x,0,0) 	(0,x,0) 	(0,-x,0)";
  "(0,0,x) 	(0,0,-x) 	(-x+1/4,1/4,1/4) 	(x+1/4,1/4,1/4)"; "(1/4,-x+1/4,1/4) 	(1/4,x+1/4,1/4) 	(1/4,1/4,-x+1/4) 	(1/4,1/4,x+1/4)"; "32	e	.3."; "(x,x,x) 	(-x,-x,x) 	(-x,x,-x) 	(x,-x,-x)";
  "(-x+1/4,-x+1/4,-x+1/4) 	(x+1/4,x+1/4,-x+1/4) 	(x+1/4,-x+1/4,x+1/4) 	(-x+1/4,x+1/4,x+1/4)"; "16	d	.-3."; "(5/8,5/8,5/8) 	(3/8,3/8,5/8) 	(3/8,5/8,3/8) 	(5/8,3/8,3/8)"; "16	c	.-3.";
  "(1/8,1/8,1/8) 	(7/8,7/8,1/8) 	(7/8,1/8,7/8) 	(1/8,7/8,7/8)"; "8	b	23."; "(1/2,1/2,1/2) 	(3/4,3/4,3/4)"; "8	a	23.";
  "(0,0,0) 	(1/4,1/4,1/4)"; ""; "203  2 14  1 12   F d -3"; "96	g	1";
  "(x,y,z) 	(-x+3/4,-y+3/4,z) 	(-x+3/4,y,-z+3/4) 	(x,-y+3/4,-z+3/4)"; "(z,x,y) 	(z,-x+3/4,-y+3/4) 	(-z+3/4,-x+3/4,y) 	(-z+3/4,x,-y+3/4)"; "(y,z,x) 	(-y+3/4,z,-x+3/4) 	(y,-z+3/4,-x+3/4) 	(-y+3/4,-z+3/4,x)"; "(-x,-y,-z) 	(x+1/4,y+1/4,-z) 	(x+1/4,-y,z+1/4) 	(-x,y+1/4,z+1/4)";
  "(-z,-x,-y) 	(-z,x+1/4,y+1/4) 	(z+1/4,x+1/4,-y) 	(z+1/4,-x,y+1/4)"; "(-y,-z,-x) 	(y+1/4,-z,x+1/4) 	(-y,z+1/4,x+1/4) 	(y+1/4,z+1/4,-x)"; "48	f	2.."; "(x,1/8,1/8) 	(-x+3/4,5/8,1/8) 	(1/8,x,1/8) 	(1/8,-x+3/4,5/8)";
  "(1/8,1/8,x) 	(5/8,1/8,-x+3/4) 	(-x,7/8,7/8) 	(x+1/4,3/8,7/8)"; "(7/8,-x,7/8) 	(7/8,x+1/4,3/8) 	(7/8,7/8,-x) 	(3/8,7/8,x+1/4)"; "32	e	.3."; "(x,x,x) 	(-x+3/4,-x+3/4,x) 	(-x+3/4,x,-x+3/4) 	(x,-x+3/4,-x+3/4)";
  "(-x,-x,-x) 	(x+1/4,x+1/4,-x) 	(x+1/4,-x,x+1/4) 	(-x,x+1/4,x+1/4)"; "16	d	.-3."; "(1/2,1/2,1/2) 	(1/4,1/4,1/2) 	(1/4,1/2,1/4) 	(1/2,1/4,1/4)"; "16	c	.-3.";
  "(0,0,0) 	(3/4,3/4,0) 	(3/4,0,3/4) 	(0,3/4,3/4)"; "8	b	23."; "(5/8,5/8,5/8) 	(3/8,3/8,3/8)"; "8	a	23.";
  "(1/8,1/8,1/8) 	(7/8,7/8,7/8)"; ""; "204  1 14  1 12   I m -3"; "48	h	1";
  "(x,y,z) 	(-x,-y,z) 	(-x,y,-z) 	(x,-y,-z)"; "(z,x,y) 	(z,-x,-y) 	(-z,-x,y) 	(-z,x,-y)"; "(y,z,x) 	(-y,z,-x) 	(y,-z,-x) 	(-y,-z,x)"; "(-x,-y,-z) 	(x,y,-z) 	(x,-y,z) 	(-x,y,z)";
  "(-z,-x,-y) 	(-z,x,y) 	(z,x,-y) 	(z,-x,y)"; "(-y,-z,-x) 	(y,-z,x) 	(-y,z,x) 	(y,z,-x)"; "24	g	m.."; "(0,y,z) 	(0,-y,z) 	(0,y,-z) 	(0,-y,-z)";
  "(z,0,y) 	(z,0,-y) 	(-z,0,y) 	(-z,0,-y)"; "(y,z,0) 	(-y,z,0) 	(y,-z,0) 	(-y,-z,0)"; "16	f	.3."; "(x,x,x) 	(-x,-x,x) 	(-x,x,-x) 	(x,-x,-x)";
  "(-x,-x,-x) 	(x,x,-x) 	(x,-x,x) 	(-x,x,x)"; "12	e	mm2 . ."; "(x,0,1/2) 	(-x,0,1/2) 	(1/2,x,0) 	(1/2,-x,0)"; "(0,1/2,x) 	(0,1/2,-x)";
  "12	d	mm2 . ."; "(x,0,0) 	(-x,0,0) 	(0,x,0) 	(0,-x,0)"; "(0,0,x) 	(0,0,-x)"; "8	c	.-3.";
  "(1/4,1/4,1/4) 	(3/4,3/4,1/4) 	(3/4,1/4,3/4) 	(1/4,3/4,3/4)"; "6	b	mmm . ."; "(0,1/2,1/2) 	(1/2,0,1/2) 	(1/2,1/2,0)"; "2	a	m-3.";
  "(0,0,0)"; ""; "205  1 14  1 12   P a -3"; "24	d	1";
  "(x,y,z) 	(-x+1/2,-y,z+1/2) 	(-x,y+1/2,-z+1/2) 	(x+1/2,-y+1/2,-z)"; "(z,x,y) 	(z+1/2,-x+1/2,-y) 	(-z+1/2,-x,y+1/2) 	(-z,x+1/2,-y+1/2)"; "(y,z,x) 	(-y,z+1/2,-x+1/2) 	(y+1/2,-z+1/2,-x) 	(-y+1/2,-z,x+1/2)"; "(-x,-y,-z) 	(x+1/2,y,-z+1/2) 	(x,-y+1/2,z+1/2) 	(-x+1/2,y+1/2,z)";
  "(-z,-x,-y) 	(-z+1/2,x+1/2,y) 	(z+1/2,x,-y+1/2) 	(z,-x+1/2,y+1/2)"; "(-y,-z,-x) 	(y,-z+1/2,x+1/2) 	(-y+1/2,z+1/2,x) 	(y+1/2,z,-x+1/2)"; "8	c	.3."; "(x,x,x) 	(-x+1/2,-x,x+1/2) 	(-x,x+1/2,-x+1/2) 	(x+1/2,-x+1/2,-x)";
  "(-x,-x,-x) 	(x+1/2,x,-x+1/2) 	(x,-x+1/2,x+1/2) 	(-x+1/2,x+1/2,x)"; "4	b	.-3."; "(1/2,1/2,1/2) 	(0,1/2,0) 	(1/2,0,0) 	(0,0,1/2)"; "4	a	.-3.";
  "(0,0,0) 	(1/2,0,1/2) 	(0,1/2,1/2) 	(1/2,1/2,0)"; ""; "206  1 14  1 12   I a -3"; "48	e	1";
  "(x,y,z) 	(-x+1/2,-y,z+1/2) 	(-x,y+1/2,-z+1/2) 	(x+1/2,-y+1/2,-z)"; "(z,x,y) 	(z+1/2,-x+1/2,-y) 	(-z+1/2,-x,y+1/2) 	(-z,x+1/2,-y+1/2)"; "(y,z,x) 	(-y,z+1/2,-x+1/2) 	(y+1/2,-z+1/2,-x) 	(-y+1/2,-z,x+1/2)"; "(-x,-y,-z) 	(x+1/2,y,-z+1/2) 	(x,-y+1/2,z+1/2) 	(-x+1/2,y+1/2,z)";
  "(-z,-x,-y) 	(-z+1/2,x+1/2,y) 	(z+1/2,x,-y+1/2) 	(z,-x+1/2,y+1/2)"; "(-y,-z,-x) 	(y,-z+1/2,x+1/2) 	(-y+1/2,z+1/2,x) 	(y+1/2,z,-x+1/2)"; "24	d	2.."; "(x,0,1/4) 	(-x+1/2,0,3/4) 	(1/4,x,0) 	(3/4,-x+1/2,0)";
  "(0,1/4,x) 	(0,3/4,-x+1/2) 	(-x,0,3/4) 	(x+1/2,0,1/4)"; "(3/4,-x,0) 	(1/4,x+1/2,0) 	(0,3/4,-x) 	(0,1/4,x+1/2)"; "16	c	.3."; "(x,x,x) 	(-x+1/2,-x,x+1/2) 	(-x,x+1/2,-x+1/2) 	(x+1/2,-x+1/2,-x)";
  "(-x,-x,-x) 	(x+1/2,x,-x+1/2) 	(x,-x+1/2,x+1/2) 	(-x+1/2,x+1/2,x)"; "8	b	.-3."; "(1/4,1/4,1/4) 	(1/4,3/4,3/4) 	(3/4,3/4,1/4) 	(3/4,1/4,3/4)"; "8	a	.-3.";
  "(0,0,0) 	(1/2,0,1/2) 	(0,1/2,1/2) 	(1/2,1/2,0)"; ""; "207  1 15  0 24   P 4 3 2"; "24	k	1";
  "(x,y,z) 	(-x,-y,z) 	(-x,y,-z) 	(x,-y,-z)"; "(z,x,y) 	(z,-x,-y) 	(-z,-x,y) 	(-z,x,-y)"; "(y,z,x) 	(-y,z,-x) 	(y,-z,-x) 	(-y,-z,x)"; "(y,x,-z) 	(-y,-x,-z) 	(y,-x,z) 	(-y,x,z)";
  "(x,z,-y) 	(-x,z,y) 	(-x,-z,-y) 	(x,-z,y)"; "(z,y,-x) 	(z,-y,x) 	(-z,y,x) 	(-z,-y,-x)"; "12	j	..2"; "(1/2,y,y) 	(1/2,-y,y) 	(1/2,y,-y) 	(1/2,-y,-y)";
  "(y,1/2,y) 	(y,1/2,-y) 	(-y,1/2,y) 	(-y,1/2,-y)"; "(y,y,1/2) 	(-y,y,1/2) 	(y,-y,1/2) 	(-y,-y,1/2)"; "12	i	..2"; "(0,y,y) 	(0,-y,y) 	(0,y,-y) 	(0,-y,-y)";
  "(y,0,y) 	(y,0,-y) 	(-y,0,y) 	(-y,0,-y)"; "(y,y,0) 	(-y,y,0) 	(y,-y,0) 	(-y,-y,0)"; "12	h	2.."; "(x,1/2,0) 	(-x,1/2,0) 	(0,x,1/2) 	(0,-x,1/2)";
  "(1/2,0,x) 	(1/2,0,-x) 	(1/2,x,0) 	(1/2,-x,0)"; "(x,0,1/2) 	(-x,0,1/2) 	(0,1/2,-x) 	(0,1/2,x)"; "8	g	.3."; "(x,x,x) 	(-x,-x,x) 	(-x,x,-x) 	(x,-x,-x)";
  "(x,x,-x) 	(-x,-x,-x) 	(x,-x,x) 	(-x,x,x)"; "6	f	4.."; "(x,1/2,1/2) 	(-x,1/2,1/2) 	(1/2,x,1/2) 	(1/2,-x,1/2)"; "(1/2,1/2,x) 	(1/2,1/2,-x)";
  "6	e	4.."; "(x,0,0) 	(-x,0,0) 	(0,x,0) 	(0,-x,0)"; "(0,0,x) 	(0,0,-x)"; "3	d	42. 2";
  "(1/2,0,0) 	(0,1/2,0) 	(0,0,1/2)"; "3	c	42. 2"; "(0,1/2,1/2) 	(1/2,0,1/2) 	(1/2,1/2,0)"; "1	b	432";
  "(1/2,1/2,1/2)"; "1	a	432"; "(0,0,0)"; "";
  "208  1 15  0 24   P 42 3 2"; "24	m	1"; "(x,y,z) 	(-x,-y,z) 	(-x,y,-z) 	(x,-y,-z)"; "(z,x,y) 	(z,-x,-y) 	(-z,-x,y) 	(-z,x,-y)";
  "(y,z,x) 	(-y,z,-x) 	(y,-z,-x) 	(-y,-z,x)"; "(y+1/2,x+1/2,-z+1/2) 	(-y+1/2,-x+1/2,-z+1/2) 	(y+1/2,-x+1/2,z+1/2) 	(-y+1/2,x+1/2,z+1/2)"; "(x+1/2,z+1/2,-y+1/2) 	(-x+1/2,z+1/2,y+1/2) 	(-x+1/2,-z+1/2,-y+1/2) 	(x+1/2,-z+1/2,y+1/2)"; "(z+1/2,y+1/2,-x+1/2) 	(z+1/2,-y+1/2,x+1/2) 	(-z+1/2,y+1/2,x+1/2) 	(-z+1/2,-y+1/2,-x+1/2)";
  "12	l	..2"; "(1/4,y,y+1/2) 	(3/4,-y,y+1/2) 	(3/4,y,-y+1/2) 	(1/4,-y,-y+1/2)"; "(y+1/2,1/4,y) 	(y+1/2,3/4,-y) 	(-y+1/2,3/4,y) 	(-y+1/2,1/4,-y)"; "(y,y+1/2,1/4) 	(-y,y+1/2,3/4) 	(y,-y+1/2,3/4) 	(-y,-y+1/2,1/4)";
  "12	k	..2"; "(1/4,y,-y+1/2) 	(3/4,-y,-y+1/2) 	(3/4,y,y+1/2) 	(1/4,-y,y+1/2)"; "(-y+1/2,1/4,y) 	(-y+1/2,3/4,-y) 	(y+1/2,3/4,y) 	(y+1/2,1/4,-y)"; "(y,-y+1/2,1/4) 	(-y,-y+1/2,3/4) 	(y,y+1/2,3/4) 	(-y,y+1/2,1/4)";
  "12	j	2.."; "(x,1/2,0) 	(-x,1/2,0) 	(0,x,1/2) 	(0,-x,1/2)"; "(1/2,0,x) 	(1/2,0,-x) 	(0,x+1/2,1/2) 	(0,-x+1/2,1/2)"; "(x+1/2,1/2,0) 	(-x+1/2,1/2,0) 	(1/2,0,-x+1/2) 	(1/2,0,x+1/2)";
  "12	i	2.."; "(x,0,1/2) 	(-x,0,1/2) 	(1/2,x,0) 	(1/2,-x,0)"; "(0,1/2,x) 	(0,1/2,-x) 	(1/2,x+1/2,0) 	(1/2,-x+1/2,0)"; "(x+1/2,0,1/2) 	(-x+1/2,0,1/2) 	(0,1/2,-x+1/2) 	(0,1/2,x+1/2)";
  "12	h	2.."; "(x,0,0) 	(-x,0,0) 	(0,x,0) 	(0,-x,0)"; "(0,0,x) 	(0,0,-x) 	(1/2,x+1/2,1/2) 	(1/2,-x+1/2,1/2)"; "(x+1/2,1/2,1/2) 	(-x+1/2,1/2,1/2) 	(1/2,1/2,-x+1/2) 	(1/2,1/2,x+1/2)";
  "8	g	.3."; "(x,x,x) 	(-x,-x,x) 	(-x,x,-x) 	(x,-x,-x)"; "(x+1/2,x+1/2,-x+1/2) 	(-x+1/2,-x+1/2,-x+1/2) 	(x+1/2,-x+1/2,x+1/2) 	(-x+1/2,x+1/2,x+1/2)"; "6	f	2.2 2";
  "(1/4,1/2,0) 	(3/4,1/2,0) 	(0,1/4,1/2) 	(0,3/4,1/2)"; "(1/2,0,1/4) 	(1/2,0,3/4)"; "6	e	2.2 2"; "(1/4,0,1/2) 	(3/4,0,1/2) 	(1/2,1/4,0) 	(1/2,3/4,0)";
  "(0,1/2,1/4) 	(0,1/2,3/4)"; "6	d	222 . ."; "(0,1/2,1/2) 	(1/2,0,1/2) 	(1/2,1/2,0) 	(0,1/2,0)"; "(1/2,0,0) 	(0,0,1/2)";
  "4	c	.32"; "(3/4,3/4,3/4) 	(1/4,1/4,3/4) 	(1/4,3/4,1/4) 	(3/4,1/4,1/4)"; "4	b	.32"; "(1/4,1/4,1/4) 	(3/4,3/4,1/4) 	(3/4,1/4,3/4) 	(1/4,3/4,3/4)";
  "2	a	23."; "(0,0,0) 	(1/2,1/2,1/2)"; ""; "209  1 15  0 24   F 4 3 2";
  "96	j	1"; "(x,y,z) 	(-x,-y,z) 	(-x,y,-z) 	(x,-y,-z)"; "(z,x,y) 	(z,-x,-y) 	(-z,-x,y) 	(-z,x,-y)"; "(y,z,x) 	(-y,z,-x) 	(y,-z,-x) 	(-y,-z,x)";
  "(y,x,-z) 	(-y,-x,-z) 	(y,-x,z) 	(-y,x,z)"; "(x,z,-y) 	(-x,z,y) 	(-x,-z,-y) 	(x,-z,y)"; "(z,y,-x) 	(z,-y,x) 	(-z,y,x) 	(-z,-y,-x)"; "48	i	2..";
  "(x,1/4,1/4) 	(-x,3/4,1/4) 	(1/4,x,1/4) 	(1/4,-x,3/4)"; "(1/4,1/4,x) 	(3/4,1/4,-x) 	(1/4,x,3/4) 	(3/4,-x,3/4)"; "(x,1/4,3/4) 	(-x,1/4,1/4) 	(1/4,1/4,-x) 	(1/4,3/4,x)"; "48	h	..2";
  "(1/2,y,y) 	(1/2,-y,y) 	(1/2,y,-y) 	(1/2,-y,-y)"; "(y,1/2,y) 	(y,1/2,-y) 	(-y,1/2,y) 	(-y,1/2,-y)"; "(y,y,1/2) 	(-y,y,1/2) 	(y,-y,1/2) 	(-y,-y,1/2)"; "48	g	..2";
  "(0,y,y) 	(0,-y,y) 	(0,y,-y) 	(0,-y,-y)"; "(y,0,y) 	(y,0,-y) 	(-y,0,y) 	(-y,0,-y)"; "(y,y,0) 	(-y,y,0) 	(y,-y,0) 	(-y,-y,0)"; "32	f	.3.";
  "(x,x,x) 	(-x,-x,x) 	(-x,x,-x) 	(x,-x,-x)"; "(x,x,-x) 	(-x,-x,-x) 	(x,-x,x) 	(-x,x,x)"; "24	e	4.."; "(x,0,0) 	(-x,0,0) 	(0,x,0) 	(0,-x,0)";
  "(0,0,x) 	(0,0,-x)"; "24	d	2.2 2"; "(0,1/4,1/4) 	(0,3/4,1/4) 	(1/4,0,1/4) 	(1/4,0,3/4)"; "(1/4,1/4,0) 	(3/4,1/4,0)";
  "8	c	23."; "(1/4,1/4,1/4) 	(1/4,1/4,3/4)"; "4	b	432"; "(1/2,1/2,1/2)";
  "4	a	432"; "(0,0,0)"; ""; "210  1 15  0 24   F 41 3 2";
  "96	h	1"; "(x,y,z) 	(-x,-y+1/2,z+1/2) 	(-x+1/2,y+1/2,-z) 	(x+1/2,-y,-z+1/2)"; "(z,x,y) 	(z+1/2,-x,-y+1/2) 	(-z,-x+1/2,y+1/2) 	(-z+1/2,x+1/2,-y)"; "(y,z,x) 	(-y+1/2,z+1/2,-x) 	(y+1/2,-z,-x+1/2) 	(-y,-z+1/2,x+1/2)";
  "(y+3/4,x+1/4,-z+3/4) 	(-y+1/4,-x+1/4,-z+1/4) 	(y+1/4,-x+3/4,z+3/4) 	(-y+3/4,x+3/4,z+1/4)"; "(x+3/4,z+1/4,-y+3/4) 	(-x+3/4,z+3/4,y+1/4) 	(-x+1/4,-z+1/4,-y+1/4) 	(x+1/4,-z+3/4,y+3/4)"; "(z+3/4,y+1/4,-x+3/4) 	(z+1/4,-y+3/4,x+3/4) 	(-z+3/4,y+3/4,x+1/4) 	(-z+1/4,-y+1/4,-x+1/4)"; "48	g	..2";
  "(1/8,y,-y+1/4) 	(7/8,-y+1/2,-y+3/4) 	(3/8,y+1/2,y+3/4) 	(5/8,-y,y+1/4)"; "(-y+1/4,1/8,y) 	(-y+3/4,7/8,-y+1/2) 	(y+3/4,3/8,y+1/2) 	(y+1/4,5/8,-y)"; "(y,-y+1/4,1/8) 	(-y+1/2,-y+3/4,7/8) 	(y+1/2,y+3/4,3/8) 	(-y,y+1/4,5/8)"; "48	f	2..";
  "(x,0,0) 	(-x,1/2,1/2) 	(0,x,0) 	(1/2,-x,1/2)"; "(0,0,x) 	(1/2,1/2,-x) 	(3/4,x+1/4,3/4) 	(1/4,-x+1/4,1/4)"; "(x+3/4,1/4,3/4) 	(-x+3/4,3/4,1/4) 	(3/4,1/4,-x+3/4) 	(1/4,3/4,x+3/4)"; "32	e	.3.";
  "(x,x,x) 	(-x,-x+1/2,x+1/2) 	(-x+1/2,x+1/2,-x) 	(x+1/2,-x,-x+1/2)"; "(x+3/4,x+1/4,-x+3/4) 	(-x+1/4,-x+1/4,-x+1/4) 	(x+1/4,-x+3/4,x+3/4) 	(-x+3/4,x+3/4,x+1/4)"; "16	d	.32"; "(5/8,5/8,5/8) 	(3/8,7/8,1/8) 	(7/8,1/8,3/8) 	(1/8,3/8,7/8)";
  "16	c	.32"; "(1/8,1/8,1/8) 	(7/8,3/8,5/8) 	(3/8,5/8,7/8) 	(5/8,7/8,3/8)"; "8	b	23."; "(1/2,1/2,1/2) 	(1/4,3/4,1/4)";
  "8	a	23."; "(0,0,0) 	(3/4,1/4,3/4)"; ""; "211  1 15  0 24   I 4 3 2";
  "48	j	1"; "(x,y,z) 	(-x,-y,z) 	(-x,y,-z) 	(x,-y,-z)"; "(z,x,y) 	(z,-x,-y) 	(-z,-x,y) 	(-z,x,-y)"; "(y,z,x) 	(-y,z,-x) 	(y,-z,-x) 	(-y,-z,x)";
  "(y,x,-z) 	(-y,-x,-z) 	(y,-x,z) 	(-y,x,z)"; "(x,z,-y) 	(-x,z,y) 	(-x,-z,-y) 	(x,-z,y)"; "(z,y,-x) 	(z,-y,x) 	(-z,y,x) 	(-z,-y,-x)"; "24	i	..2";
  "(1/4,y,-y+1/2) 	(3/4,-y,-y+1/2) 	(3/4,y,y+1/2) 	(1/4,-y,y+1/2)"; "(-y+1/2,1/4,y) 	(-y+1/2,3/4,-y) 	(y+1/2,3/4,y) 	(y+1/2,1/4,-y)"; "(y,-y+1/2,1/4) 	(-y,-y+1/2,3/4) 	(y,y+1/2,3/4) 	(-y,y+1/2,1/4)"; "24	h	..2";
  "(0,y,y) 	(0,-y,y) 	(0,y,-y) 	(0,-y,-y)"; "(y,0,y) 	(y,0,-y) 	(-y,0,y) 	(-y,0,-y)"; "(y,y,0) 	(-y,y,0) 	(y,-y,0) 	(-y,-y,0)"; "24	g	2..";
  "(x,1/2,0) 	(-x,1/2,0) 	(0,x,1/2) 	(0,-x,1/2)"; "(1/2,0,x) 	(1/2,0,-x) 	(1/2,x,0) 	(1/2,-x,0)"; "(x,0,1/2) 	(-x,0,1/2) 	(0,1/2,-x) 	(0,1/2,x)"; "16	f	.3.";
  "(x,x,x) 	(-x,-x,x) 	(-x,x,-x) 	(x,-x,-x)"; "(x,x,-x) 	(-x,-x,-x) 	(x,-x,x) 	(-x,x,x)"; "12	e	4.."; "(x,0,0) 	(-x,0,0) 	(0,x,0) 	(0,-x,0)";
  "(0,0,x) 	(0,0,-x)"; "12	d	2.2 2"; "(1/4,1/2,0) 	(3/4,1/2,0) 	(0,1/4,1/2) 	(0,3/4,1/2)"; "(1/2,0,1/4) 	(1/2,0,3/4)";
  "8	c	.32"; "(1/4,1/4,1/4) 	(3/4,3/4,1/4) 	(3/4,1/4,3/4) 	(1/4,3/4,3/4)"; "6	b	42. 2"; "(0,1/2,1/2) 	(1/2,0,1/2) 	(1/2,1/2,0)";
  "2	a	432"; "(0,0,0)"; ""; "212  1 15  0 24   P 43 3 2";
  "24	e	1"; "(x,y,z) 	(-x+1/2,-y,z+1/2) 	(-x,y+1/2,-z+1/2) 	(x+1/2,-y+1/2,-z)"; "(z,x,y) 	(z+1/2,-x+1/2,-y) 	(-z+1/2,-x,y+1/2) 	(-z,x+1/2,-y+1/2)"; "(y,z,x) 	(-y,z+1/2,-x+1/2) 	(y+1/2,-z+1/2,-x) 	(-y+1/2,-z,x+1/2)";
  "(y+1/4,x+3/4,-z+3/4) 	(-y+1/4,-x+1/4,-z+1/4) 	(y+3/4,-x+3/4,z+1/4) 	(-y+3/4,x+1/4,z+3/4)"; "(x+1/4,z+3/4,-y+3/4) 	(-x+3/4,z+1/4,y+3/4) 	(-x+1/4,-z+1/4,-y+1/4) 	(x+3/4,-z+3/4,y+1/4)"; "(z+1/4,y+3/4,-x+3/4) 	(z+3/4,-y+3/4,x+1/4) 	(-z+3/4,y+1/4,x+3/4) 	(-z+1/4,-y+1/4,-x+1/4)"; "12	d	..2";
  "(1/8,y,-y+1/4) 	(3/8,-y,-y+3/4) 	(7/8,y+1/2,y+1/4) 	(5/8,-y+1/2,y+3/4)"; "(-y+1/4,1/8,y) 	(-y+3/4,3/8,-y) 	(y+1/4,7/8,y+1/2) 	(y+3/4,5/8,-y+1/2)"; "(y,-y+1/4,1/8) 	(-y,-y+3/4,3/8) 	(y+1/2,y+1/4,7/8) 	(-y+1/2,y+3/4,5/8)"; "8	c	.3.";
  "(x,x,x) 	(-x+1/2,-x,x+1/2) 	(-x,x+1/2,-x+1/2) 	(x+1/2,-x+1/2,-x)"; "(x+1/4,x+3/4,-x+3/4) 	(-x+1/4,-x+1/4,-x+1/4) 	(x+3/4,-x+3/4,x+1/4) 	(-x+3/4,x+1/4,x+3/4)"; "4	b	.32"; "(5/8,5/8,5/8) 	(7/8,3/8,1/8) 	(3/8,1/8,7/8) 	(1/8,7/8,3/8)";
  "4	a	.32"; "(1/8,1/8,1/8) 	(3/8,7/8,5/8) 	(7/8,5/8,3/8) 	(5/8,3/8,7/8)"; ""; "213  1 15  0 24   P 41 3 2";
  "24	e	1"; "(x,y,z) 	(-x+1/2,-y,z+1/2) 	(-x,y+1/2,-z+1/2) 	(x+1/2,-y+1/2,-z)"; "(z,x,y) 	(z+1/2,-x+1/2,-y) 	(-z+1/2,-x,y+1/2) 	(-z,x+1/2,-y+1/2)"; "(y,z,x) 	(-y,z+1/2,-x+1/2) 	(y+1/2,-z+1/2,-x) 	(-y+1/2,-z,x+1/2)";
  "(y+3/4,x+1/4,-z+1/4) 	(-y+3/4,-x+3/4,-z+3/4) 	(y+1/4,-x+1/4,z+3/4) 	(-y+1/4,x+3/4,z+1/4)"; "(x+3/4,z+1/4,-y+1/4) 	(-x+1/4,z+3/4,y+1/4) 	(-x+3/4,-z+3/4,-y+3/4) 	(x+1/4,-z+1/4,y+3/4)"; "(z+3/4,y+1/4,-x+1/4) 	(z+1/4,-y+1/4,x+3/4) 	(-z+1/4,y+3/4,x+1/4) 	(-z+3/4,-y+3/4,-x+3/4)"; "12	d	..2";
  "(1/8,y,y+1/4) 	(3/8,-y,y+3/4) 	(7/8,y+1/2,-y+1/4) 	(5/8,-y+1/2,-y+3/4)"; "(y+1/4,1/8,y) 	(y+3/4,3/8,-y) 	(-y+1/4,7/8,y+1/2) 	(-y+3/4,5/8,-y+1/2)"; "(y,y+1/4,1/8) 	(-y,y+3/4,3/8) 	(y+1/2,-y+1/4,7/8) 	(-y+1/2,-y+3/4,5/8)"; "8	c	.3.";
  "(x,x,x) 	(-x+1/2,-x,x+1/2) 	(-x,x+1/2,-x+1/2) 	(x+1/2,-x+1/2,-x)"; "(x+3/4,x+1/4,-x+1/4) 	(-x+3/4,-x+3/4,-x+3/4) 	(x+1/4,-x+1/4,x+3/4) 	(-x+1/4,x+3/4,x+1/4)"; "4	b	.32"; "(7/8,7/8,7/8) 	(5/8,1/8,3/8) 	(1/8,3/8,5/8) 	(3/8,5/8,1/8)";
  "4	a	.32"; "(3/8,3/8,3/8) 	(1/8,5/8,7/8) 	(5/8,7/8,1/8) 	(7/8,1/8,5/8)"; ""; "214  1 15  0 24   I 41 3 2";
  "48	i	1"; "(x,y,z) 	(-x+1/2,-y,z+1/2) 	(-x,y+1/2,-z+1/2) 	(x+1/2,-y+1/2,-z)"; "(z,x,y) 	(z+1/2,-x+1/2,-y) 	(-z+1/2,-x,y+1/2) 	(-z,x+1/2,-y+1/2)"; "(y,z,x) 	(-y,z+1/2,-x+1/2) 	(y+1/2,-z+1/2,-x) 	(-y+1/2,-z,x+1/2)";
  "(y+3/4,x+1/4,-z+1/4) 	(-y+3/4,-x+3/4,-z+3/4) 	(y+1/4,-x+1/4,z+3/4) 	(-y+1/4,x+3/4,z+1/4)"; "(x+3/4,z+1/4,-y+1/4) 	(-x+1/4,z+3/4,y+1/4) 	(-x+3/4,-z+3/4,-y+3/4) 	(x+1/4,-z+1/4,y+3/4)"; "(z+3/4,y+1/4,-x+1/4) 	(z+1/4,-y+1/4,x+3/4) 	(-z+1/4,y+3/4,x+1/4) 	(-z+3/4,-y+3/4,-x+3/4)"; "24	h	..2";
  "(1/8,y,-y+1/4) 	(3/8,-y,-y+3/4) 	(7/8,y+1/2,y+1/4) 	(5/8,-y+1/2,y+3/4)"; "(-y+1/4,1/8,y) 	(-y+3/4,3/8,-y) 	(y+1/4,7/8,y+1/2) 	(y+3/4,5/8,-y+1/2)"; "(y,-y+1/4,1/8) 	(-y,-y+3/4,3/8) 	(y+1/2,y+1/4,7/8) 	(-y+1/2,y+3/4,5/8)"; "24	g	..2";
  "(1/8,y,y+1/4) 	(3/8,-y,y+3/4) 	(7/8,y+1/2,-y+1/4) 	(5/8,-y+1/2,-y+3/4)"; "(y+1/4,1/8,y) 	(y+3/4,3/8,-y) 	(-y+1/4,7/8,y+1/2) 	(-y+3/4,5/8,-y+1/2)"; "(y,y+1/4,1/8) 	(-y,y+3/4,3/8) 	(y+1/2,-y+1/4,7/8) 	(-y+1/2,-y+3/4,5/8)"; "24	f	2..";
  "(x,0,1/4) 	(-x+1/2,0,3/4) 	(1/4,x,0) 	(3/4,-x+1/2,0)"; "(0,1/4,x) 	(0,3/4,-x+1/2) 	(3/4,x+1/4,0) 	(3/4,-x+3/4,1/2)"; "(x+3/4,1/2,1/4) 	(-x+1/4,0,1/4) 	(0,1/4,-x+1/4) 	(1/2,1/4,x+3/4)"; "16	e	.3.";
  "(x,x,x) 	(-x+1/2,-x,x+1/2) 	(-x,x+1/2,-x+1/2) 	(x+1/2,-x+1/2,-x)"; "(x+3/4,x+1/4,-x+1/4) 	(-x+3/4,-x+3/4,-x+3/4) 	(x+1/4,-x+1/4,x+3/4) 	(-x+1/4,x+3/4,x+1/4)"; "12	d	2.2 2"; "(5/8,0,1/4) 	(7/8,0,3/4) 	(1/4,5/8,0) 	(3/4,7/8,0)";
  "(0,1/4,5/8) 	(0,3/4,7/8)"; "12	c	2.2 2"; "(1/8,0,1/4) 	(3/8,0,3/4) 	(1/4,1/8,0) 	(3/4,3/8,0)"; "(0,1/4,1/8) 	(0,3/4,3/8)";
  "8	b	.32"; "(7/8,7/8,7/8) 	(5/8,1/8,3/8) 	(1/8,3/8,5/8) 	(3/8,5/8,1/8)"; "8	a	.32"; "(1/8,1/8,1/8) 	(3/8,7/8,5/8) 	(7/8,5/8,3/8) 	(5/8,3/8,7/8)";
  ""; "215  1 15  0 24   P -4 3 m"; "24	j	1"; "(x,y,z) 	(-x,-y,z) 	(-x,y,-z) 	(x,-y,-z)";
  "(z,x,y) 	(z,-x,-y) 	(-z,-x,y) 	(-z,x,-y)"; "(y,z,x) 	(-y,z,-x) 	(y,-z,-x) 	(-y,-z,x)"; "(y,x,z) 	(-y,-x,z) 	(y,-x,-z) 	(-y,x,-z)"; "(x,z,y) 	(-x,z,-y) 	(-x,-z,y) 	(x,-z,-y)";
  "(z,y,x) 	(z,-y,-x) 	(-z,y,-x) 	(-z,-y,x)"; "12	i	..m"; "(x,x,z) 	(-x,-x,z) 	(-x,x,-z) 	(x,-x,-z)"; "(z,x,x) 	(z,-x,-x) 	(-z,-x,x) 	(-z,x,-x)";
  "(x,z,x) 	(-x,z,-x) 	(x,-z,-x) 	(-x,-z,x)"; "12	h	2.."; "(x,1/2,0) 	(-x,1/2,0) 	(0,x,1/2) 	(0,-x,1/2)"; "(1/2,0,x) 	(1/2,0,-x) 	(1/2,x,0) 	(1/2,-x,0)";
  "(x,0,1/2) 	(-x,0,1/2) 	(0,1/2,x) 	(0,1/2,-x)"; "6	g	2.m m"; "(x,1/2,1/2) 	(-x,1/2,1/2) 	(1/2,x,1/2) 	(1/2,-x,1/2)"; "(1/2,1/2,x) 	(1/2,1/2,-x)";
  "6	f	2.m m"; "(x,0,0) 	(-x,0,0) 	(0,x,0) 	(0,-x,0)"; "(0,0,x) 	(0,0,-x)"; "4	e	.3m";
  "(x,x,x) 	(-x,-x,x) 	(-x,x,-x) 	(x,-x,-x)"; "3	d	-42. m"; "(1/2,0,0) 	(0,1/2,0) 	(0,0,1/2)"; "3	c	-42. m";
  "(0,1/2,1/2) 	(1/2,0,1/2) 	(1/2,1/2,0)"; "1	b	-43m"; "(1/2,1/2,1/2)"; "1	a	-43m";
  "(0,0,0)"; ""; "216  1 15  0 24   F -4 3 m"; "96	i	1";
  "(x,y,z) 	(-x,-y,z) 	(-x,y,-z) 	(x,-y,-z)"; "(z,x,y) 	(z,-x,-y) 	(-z,-x,y) 	(-z,x,-y)"; "(y,z,x) 	(-y,z,-x) 	(y,-z,-x) 	(-y,-z,x)"; "(y,x,z) 	(-y,-x,z) 	(y,-x,-z) 	(-y,x,-z)";
  "(x,z,y) 	(-x,z,-y) 	(-x,-z,y) 	(x,-z,-y)"; "(z,y,x) 	(z,-y,-x) 	(-z,y,-x) 	(-z,-y,x)"; "48	h	..m"; "(x,x,z) 	(-x,-x,z) 	(-x,x,-z) 	(x,-x,-z)";
  "(z,x,x) 	(z,-x,-x) 	(-z,-x,x) 	(-z,x,-x)"; "(x,z,x) 	(-x,z,-x) 	(x,-z,-x) 	(-x,-z,x)"; "24	g	2.m m"; "(x,1/4,1/4) 	(-x,3/4,1/4) 	(1/4,x,1/4) 	(1/4,-x,3/4)";
  "(1/4,1/4,x) 	(3/4,1/4,-x)"; "24	f	2.m m"; "(x,0,0) 	(-x,0,0) 	(0,x,0) 	(0,-x,0)"; "(0,0,x) 	(0,0,-x)";
  "16	e	.3m"; "(x,x,x) 	(-x,-x,x) 	(-x,x,-x) 	(x,-x,-x)"; "4	d	-43m"; "(3/4,3/4,3/4)";
  "4	c	-43m"; "(1/4,1/4,1/4)"; "4	b	-43m"; "(1/2,1/2,1/2)";
  "4	a	-43m"; "(0,0,0)"; ""; "217  1 15  0 24   I -4 3 m";
  "48	h	1"; "(x,y,z) 	(-x,-y,z) 	(-x,y,-z) 	(x,-y,-z)"; "(z,x,y) 	(z,-x,-y) 	(-z,-x,y) 	(-z,x,-y)"; "(y,z,x) 	(-y,z,-x) 	(y,-z,-x) 	(-y,-z,x)";
  "(y,x,z) 	(-y,-x,z) 	(y,-x,-z) 	(-y,x,-z)"; "(x,z,y) 	(-x,z,-y) 	(-x,-z,y) 	(x,-z,-y)"; "(z,y,x) 	(z,-y,-x) 	(-z,y,-x) 	(-z,-y,x)"; "24	g	..m";
  "(x,x,z) 	(-x,-x,z) 	(-x,x,-z) 	(x,-x,-z)"; "(z,x,x) 	(z,-x,-x) 	(-z,-x,x) 	(-z,x,-x)"; "(x,z,x) 	(-x,z,-x) 	(x,-z,-x) 	(-x,-z,x)"; "24	f	2..";
  "(x,1/2,0) 	(-x,1/2,0) 	(0,x,1/2) 	(0,-x,1/2)"; "(1/2,0,x) 	(1/2,0,-x) 	(1/2,x,0) 	(1/2,-x,0)"; "(x,0,1/2) 	(-x,0,1/2) 	(0,1/2,x) 	(0,1/2,-x)"; "12	e	2.m m";
  "(x,0,0) 	(-x,0,0) 	(0,x,0) 	(0,-x,0)"; "(0,0,x) 	(0,0,-x)"; "12	d	-4.."; "(1/4,1/2,0) 	(3/4,1/2,0) 	(0,1/4,1/2) 	(0,3/4,1/2)";
  "(1/2,0,1/4) 	(1/2,0,3/4)"; "8	c	.3m"; "(x,x,x) 	(-x,-x,x) 	(-x,x,-x) 	(x,-x,-x)"; "6	b	-42. m";
  "(0,1/2,1/2) 	(1/2,0,1/2) 	(1/2,1/2,0)"; "2	a	-43m"; "(0,0,0)"; "";
  "218  1 15  0 24   P -4 3 n"; "24	i	1"; "(x,y,z) 	(-x,-y,z) 	(-x,y,-z) 	(x,-y,-z)"; "(z,x,y) 	(z,-x,-y) 	(-z,-x,y) 	(-z,x,-y)";
  "(y,z,x) 	(-y,z,-x) 	(y,-z,-x) 	(-y,-z,x)"; "(y+1/2,x+1/2,z+1/2) 	(-y+1/2,-x+1/2,z+1/2) 	(y+1/2,-x+1/2,-z+1/2) 	(-y+1/2,x+1/2,-z+1/2)"; "(x+1/2,z+1/2,y+1/2) 	(-x+1/2,z+1/2,-y+1/2) 	(-x+1/2,-z+1/2,y+1/2) 	(x+1/2,-z+1/2,-y+1/2)"; "(z+1/2,y+1/2,x+1/2) 	(z+1/2,-y+1/2,-x+1/2) 	(-z+1/2,y+1/2,-x+1/2) 	(-z+1/2,-y+1/2,x+1/2)";
  "12	h	2.."; "(x,0,1/2) 	(-x,0,1/2) 	(1/2,x,0) 	(1/2,-x,0)"; "(0,1/2,x) 	(0,1/2,-x) 	(1/2,x+1/2,0) 	(1/2,-x+1/2,0)"; "(x+1/2,0,1/2) 	(-x+1/2,0,1/2) 	(0,1/2,x+1/2) 	(0,1/2,-x+1/2)";
  "12	g	2.."; "(x,1/2,0) 	(-x,1/2,0) 	(0,x,1/2) 	(0,-x,1/2)"; "(1/2,0,x) 	(1/2,0,-x) 	(0,x+1/2,1/2) 	(0,-x+1/2,1/2)"; "(x+1/2,1/2,0) 	(-x+1/2,1/2,0) 	(1/2,0,x+1/2) 	(1/2,0,-x+1/2)";
  "12	f	2.."; "(x,0,0) 	(-x,0,0) 	(0,x,0) 	(0,-x,0)"; "(0,0,x) 	(0,0,-x) 	(1/2,x+1/2,1/2) 	(1/2,-x+1/2,1/2)"; "(x+1/2,1/2,1/2) 	(-x+1/2,1/2,1/2) 	(1/2,1/2,x+1/2) 	(1/2,1/2,-x+1/2)";
  "8	e	.3."; "(x,x,x) 	(-x,-x,x) 	(-x,x,-x) 	(x,-x,-x)"; "(x+1/2,x+1/2,x+1/2) 	(-x+1/2,-x+1/2,x+1/2) 	(x+1/2,-x+1/2,-x+1/2) 	(-x+1/2,x+1/2,-x+1/2)"; "6	d	-4..";
  "(1/4,0,1/2) 	(3/4,0,1/2) 	(1/2,1/4,0) 	(1/2,3/4,0)"; "(0,1/2,1/4) 	(0,1/2,3/4)"; "6	c	-4.."; "(1/4,1/2,0) 	(3/4,1/2,0) 	(0,1/4,1/2) 	(0,3/4,1/2)";
  "(1/2,0,1/4) 	(1/2,0,3/4)"; "6	b	222 . ."; "(0,1/2,1/2) 	(1/2,0,1/2) 	(1/2,1/2,0) 	(0,1/2,0)"; "(1/2,0,0) 	(0,0,1/2)";
  "2	a	23."; "(0,0,0) 	(1/2,1/2,1/2)"; ""; "219  1 15  0 24   F -4 3 c";
  "96	h	1"; "(x,y,z) 	(-x,-y,z) 	(-x,y,-z) 	(x,-y,-z)"; "(z,x,y) 	(z,-x,-y) 	(-z,-x,y) 	(-z,x,-y)"; "(y,z,x) 	(-y,z,-x) 	(y,-z,-x) 	(-y,-z,x)";
  "(y+1/2,x+1/2,z+1/2) 	(-y+1/2,-x+1/2,z+1/2) 	(y+1/2,-x+1/2,-z+1/2) 	(-y+1/2,x+1/2,-z+1/2)"; "(x+1/2,z+1/2,y+1/2) 	(-x+1/2,z+1/2,-y+1/2) 	(-x+1/2,-z+1/2,y+1/2) 	(x+1/2,-z+1/2,-y+1/2)"; "(z+1/2,y+1/2,x+1/2) 	(z+1/2,-y+1/2,-x+1/2) 	(-z+1/2,y+1/2,-x+1/2) 	(-z+1/2,-y+1/2,x+1/2)"; "48	g	2..";
  "(x,1/4,1/4) 	(-x,3/4,1/4) 	(1/4,x,1/4) 	(1/4,-x,3/4)"; "(1/4,1/4,x) 	(3/4,1/4,-x) 	(3/4,x+1/2,3/4) 	(1/4,-x+1/2,3/4)"; "(x+1/2,3/4,3/4) 	(-x+1/2,3/4,1/4) 	(3/4,3/4,x+1/2) 	(3/4,1/4,-x+1/2)"; "48	f	2..";
  "(x,0,0) 	(-x,0,0) 	(0,x,0) 	(0,-x,0)"; "(0,0,x) 	(0,0,-x) 	(1/2,x+1/2,1/2) 	(1/2,-x+1/2,1/2)"; "(x+1/2,1/2,1/2) 	(-x+1/2,1/2,1/2) 	(1/2,1/2,x+1/2) 	(1/2,1/2,-x+1/2)"; "32	e	.3.";
  "(x,x,x) 	(-x,-x,x) 	(-x,x,-x) 	(x,-x,-x)"; "(x+1/2,x+1/2,x+1/2) 	(-x+1/2,-x+1/2,x+1/2) 	(x+1/2,-x+1/2,-x+1/2) 	(-x+1/2,x+1/2,-x+1/2)"; "24	d	-4.."; "(1/4,0,0) 	(3/4,0,0) 	(0,1/4,0) 	(0,3/4,0)";
  "(0,0,1/4) 	(0,0,3/4)"; "24	c	-4.."; "(0,1/4,1/4) 	(0,3/4,1/4) 	(1/4,0,1/4) 	(1/4,0,3/4)"; "(1/4,1/4,0) 	(3/4,1/4,0)";
  "8	b	23."; "(1/4,1/4,1/4) 	(3/4,3/4,3/4)"; "8	a	23."; "(0,0,0) 	(1/2,1/2,1/2)";
  ""; "220  1 15  0 24   I -4 3 d"; "48	e	1"; "(x,y,z) 	(-x+1/2,-y,z+1/2) 	(-x,y+1/2,-z+1/2) 	(x+1/2,-y+1/2,-z)";
  "(z,x,y) 	(z+1/2,-x+1/2,-y) 	(-z+1/2,-x,y+1/2) 	(-z,x+1/2,-y+1/2)"; "(y,z,x) 	(-y,z+1/2,-x+1/2) 	(y+1/2,-z+1/2,-x) 	(-y+1/2,-z,x+1/2)"; "(y+1/4,x+1/4,z+1/4) 	(-y+1/4,-x+3/4,z+3/4) 	(y+3/4,-x+1/4,-z+3/4) 	(-y+3/4,x+3/4,-z+1/4)"; "(x+1/4,z+1/4,y+1/4) 	(-x+3/4,z+3/4,-y+1/4) 	(-x+1/4,-z+3/4,y+3/4) 	(x+3/4,-z+1/4,-y+3/4)";
  "(z+1/4,y+1/4,x+1/4) 	(z+3/4,-y+1/4,-x+3/4) 	(-z+3/4,y+3/4,-x+1/4) 	(-z+1/4,-y+3/4,x+3/4)"; "24	d	2.."; "(x,0,1/4) 	(-x+1/2,0,3/4) 	(1/4,x,0) 	(3/4,-x+1/2,0)"; "(0,1/4,x) 	(0,3/4,-x+1/2) 	(1/4,x+1/4,1/2) 	(1/4,-x+3/4,0)";
  "(x+1/4,1/2,1/4) 	(-x+3/4,0,1/4) 	(1/2,1/4,x+1/4) 	(0,1/4,-x+3/4)"; "16	c	.3."; "(x,x,x) 	(-x+1/2,-x,x+1/2) 	(-x,x+1/2,-x+1/2) 	(x+1/2,-x+1/2,-x)"; "(x+1/4,x+1/4,x+1/4) 	(-x+1/4,-x+3/4,x+3/4) 	(x+3/4,-x+1/4,-x+3/4) 	(-x+3/4,x+3/4,-x+1/4)";
  "12	b	-4.."; "(7/8,0,1/4) 	(5/8,0,3/4) 	(1/4,7/8,0) 	(3/4,5/8,0)"; "(0,1/4,7/8) 	(0,3/4,5/8)"; "12	a	-4..";
  "(3/8,0,1/4) 	(1/8,0,3/4) 	(1/4,3/8,0) 	(3/4,1/8,0)"; "(0,1/4,3/8) 	(0,3/4,1/8)"; ""; "221  1 15  1 24   P m -3 m";
  "48	n	1"; "(x,y,z) 	(-x,-y,z) 	(-x,y,-z) 	(x,-y,-z)"; "(z,x,y) 	(z,-x,-y) 	(-z,-x,y) 	(-z,x,-y)"; "(y,z,x) 	(-y,z,-x) 	(y,-z,-x) 	(-y,-z,x)";
  "(y,x,-z) 	(-y,-x,-z) 	(y,-x,z) 	(-y,x,z)"; "(x,z,-y) 	(-x,z,y) 	(-x,-z,-y) 	(x,-z,y)"; "(z,y,-x) 	(z,-y,x) 	(-z,y,x) 	(-z,-y,-x)"; "(-x,-y,-z) 	(x,y,-z) 	(x,-y,z) 	(-x,y,z)";
  "(-z,-x,-y) 	(-z,x,y) 	(z,x,-y) 	(z,-x,y)"; "(-y,-z,-x) 	(y,-z,x) 	(-y,z,x) 	(y,z,-x)"; "(-y,-x,z) 	(y,x,z) 	(-y,x,-z) 	(y,-x,-z)"; "(-x,-z,y) 	(x,-z,-y) 	(x,z,y) 	(-x,z,-y)";
  "(-z,-y,x) 	(-z,y,-x) 	(z,-y,-x) 	(z,y,x)"; "24	m	..m"; "(x,x,z) 	(-x,-x,z) 	(-x,x,-z) 	(x,-x,-z)"; "(z,x,x) 	(z,-x,-x) 	(-z,-x,x) 	(-z,x,-x)";
  "(x,z,x) 	(-x,z,-x) 	(x,-z,-x) 	(-x,-z,x)"; "(x,x,-z) 	(-x,-x,-z) 	(x,-x,z) 	(-x,x,z)"; "(x,z,-x) 	(-x,z,x) 	(-x,-z,-x) 	(x,-z,x)"; "(z,x,-x) 	(z,-x,x) 	(-z,x,x) 	(-z,-x,-x)";
  "24	l	m.."; "(1/2,y,z) 	(1/2,-y,z) 	(1/2,y,-z) 	(1/2,-y,-z)"; "(z,1/2,y) 	(z,1/2,-y) 	(-z,1/2,y) 	(-z,1/2,-y)"; "(y,z,1/2) 	(-y,z,1/2) 	(y,-z,1/2) 	(-y,-z,1/2)";
  "(y,1/2,-z) 	(-y,1/2,-z) 	(y,1/2,z) 	(-y,1/2,z)"; "(1/2,z,-y) 	(1/2,z,y) 	(1/2,-z,-y) 	(1/2,-z,y)"; "(z,y,1/2) 	(z,-y,1/2) 	(-z,y,1/2) 	(-z,-y,1/2)"; "24	k	m..";
  "(0,y,z) 	(0,-y,z) 	(0,y,-z) 	(0,-y,-z)"; "(z,0,y) 	(z,0,-y) 	(-z,0,y) 	(-z,0,-y)"; "(y,z,0) 	(-y,z,0) 	(y,-z,0) 	(-y,-z,0)"; "(y,0,-z) 	(-y,0,-z) 	(y,0,z) 	(-y,0,z)";
  "(0,z,-y) 	(0,z,y) 	(0,-z,-y) 	(0,-z,y)"; "(z,y,0) 	(z,-y,0) 	(-z,y,0) 	(-z,-y,0)"; "12	j	m.m 2"; "(1/2,y,y) 	(1/2,-y,y) 	(1/2,y,-y) 	(1/2,-y,-y)";
  "(y,1/2,y) 	(y,1/2,-y) 	(-y,1/2,y) 	(-y,1/2,-y)"; "(y,y,1/2) 	(-y,y,1/2) 	(y,-y,1/2) 	(-y,-y,1/2)"; "12	i	m.m 2"; "(0,y,y) 	(0,-y,y) 	(0,y,-y) 	(0,-y,-y)";
  "(y,0,y) 	(y,0,-y) 	(-y,0,y) 	(-y,0,-y)"; "(y,y,0) 	(-y,y,0) 	(y,-y,0) 	(-y,-y,0)"; "12	h	mm2 . ."; "(x,1/2,0) 	(-x,1/2,0) 	(0,x,1/2) 	(0,-x,1/2)";
  "(1/2,0,x) 	(1/2,0,-x) 	(1/2,x,0) 	(1/2,-x,0)"; "(x,0,1/2) 	(-x,0,1/2) 	(0,1/2,-x) 	(0,1/2,x)"; "8	g	.3m"; "(x,x,x) 	(-x,-x,x) 	(-x,x,-x) 	(x,-x,-x)";
  "(x,x,-x) 	(-x,-x,-x) 	(x,-x,x) 	(-x,x,x)"; "6	f	4m. m"; "(x,1/2,1/2) 	(-x,1/2,1/2) 	(1/2,x,1/2) 	(1/2,-x,1/2)"; "(1/2,1/2,x) 	(1/2,1/2,-x)";
  "6	e	4m. m"; "(x,0,0) 	(-x,0,0) 	(0,x,0) 	(0,-x,0)"; "(0,0,x) 	(0,0,-x)"; "3	d	4/mm. m";
  "(1/2,0,0) 	(0,1/2,0) 	(0,0,1/2)"; "3	c	4/mm. m"; "(0,1/2,1/2) 	(1/2,0,1/2) 	(1/2,1/2,0)"; "1	b	m-3m";
  "(1/2,1/2,1/2)"; "1	a	m-3m"; "(0,0,0)"; "";
  "222  1 15  0 48   P n -3 n"; "48	i	1"; "(x,y,z) 	(-x,-y,z) 	(-x,y,-z) 	(x,-y,-z)"; "(z,x,y) 	(z,-x,-y) 	(-z,-x,y) 	(-z,x,-y)";
  "(y,z,x) 	(-y,z,-x) 	(y,-z,-x) 	(-y,-z,x)"; "(y,x,-z) 	(-y,-x,-z) 	(y,-x,z) 	(-y,x,z)"; "(x,z,-y) 	(-x,z,y) 	(-x,-z,-y) 	(x,-z,y)"; "(z,y,-x) 	(z,-y,x) 	(-z,y,x) 	(-z,-y,-x)";
  "(-x+1/2,-y+1/2,-z+1/2) 	(x+1/2,y+1/2,-z+1/2) 	(x+1/2,-y+1/2,z+1/2) 	(-x+1/2,y+1/2,z+1/2)"; "(-z+1/2,-x+1/2,-y+1/2) 	(-z+1/2,x+1/2,y+1/2) 	(z+1/2,x+1/2,-y+1/2) 	(z+1/2,-x+1/2,y+1/2)"; "(-y+1/2,-z+1/2,-x+1/2) 	(y+1/2,-z+1/2,x+1/2) 	(-y+1/2,z+1/2,x+1/2) 	(y+1/2,z+1/2,-x+1/2)"; "(-y+1/2,-x+1/2,z+1/2) 	(y+1/2,x+1/2,z+1/2) 	(-y+1/2,x+1/2,-z+1/2) 	(y+1/2,-x+1/2,-z+1/2)";
  "(-x+1/2,-z+1/2,y+1/2) 	(x+1/2,-z+1/2,-y+1/2) 	(x+1/2,z+1/2,y+1/2) 	(-x+1/2,z+1/2,-y+1/2)"; "(-z+1/2,-y+1/2,x+1/2) 	(-z+1/2,y+1/2,-x+1/2) 	(z+1/2,-y+1/2,-x+1/2) 	(z+1/2,y+1/2,x+1/2)"; "24	h	..2"; "(0,y,y) 	(0,-y,y) 	(0,y,-y) 	(0,-y,-y)";
  "(y,0,y) 	(y,0,-y) 	(-y,0,y) 	(-y,0,-y)"; "(y,y,0) 	(-y,y,0) 	(y,-y,0) 	(-y,-y,0)"; "(1/2,-y+1/2,-y+1/2) 	(1/2,y+1/2,-y+1/2) 	(1/2,-y+1/2,y+1/2) 	(1/2,y+1/2,y+1/2)"; "(-y+1/2,1/2,-y+1/2) 	(-y+1/2,1/2,y+1/2) 	(y+1/2,1/2,-y+1/2) 	(y+1/2,1/2,y+1/2)";
  "(-y+1/2,-y+1/2,1/2) 	(y+1/2,-y+1/2,1/2) 	(-y+1/2,y+1/2,1/2) 	(y+1/2,y+1/2,1/2)"; "24	g	2.."; "(x,0,1/2) 	(-x,0,1/2) 	(1/2,x,0) 	(1/2,-x,0)"; "(0,1/2,x) 	(0,1/2,-x) 	(0,x,1/2) 	(0,-x,1/2)";
  "(x,1/2,0) 	(-x,1/2,0) 	(1/2,0,-x) 	(1/2,0,x)"; "(-x+1/2,1/2,0) 	(x+1/2,1/2,0) 	(0,-x+1/2,1/2) 	(0,x+1/2,1/2)"; "(1/2,0,-x+1/2) 	(1/2,0,x+1/2) 	(1/2,-x+1/2,0) 	(1/2,x+1/2,0)"; "(-x+1/2,0,1/2) 	(x+1/2,0,1/2) 	(0,1/2,x+1/2) 	(0,1/2,-x+1/2)";
  "16	f	.3."; "(x,x,x) 	(-x,-x,x) 	(-x,x,-x) 	(x,-x,-x)"; "(x,x,-x) 	(-x,-x,-x) 	(x,-x,x) 	(-x,x,x)"; "(-x+1/2,-x+1/2,-x+1/2) 	(x+1/2,x+1/2,-x+1/2) 	(x+1/2,-x+1/2,x+1/2) 	(-x+1/2,x+1/2,x+1/2)";
  "(-x+1/2,-x+1/2,x+1/2) 	(x+1/2,x+1/2,x+1/2) 	(-x+1/2,x+1/2,-x+1/2) 	(x+1/2,-x+1/2,-x+1/2)"; "12	e	4.."; "(x,0,0) 	(-x,0,0) 	(0,x,0) 	(0,-x,0)"; "(0,0,x) 	(0,0,-x) 	(-x+1/2,1/2,1/2) 	(x+1/2,1/2,1/2)";
  "(1/2,-x+1/2,1/2) 	(1/2,x+1/2,1/2) 	(1/2,1/2,-x+1/2) 	(1/2,1/2,x+1/2)"; "12	d	-4.."; "(1/4,0,1/2) 	(3/4,0,1/2) 	(1/2,1/4,0) 	(1/2,3/4,0)"; "(0,1/2,1/4) 	(0,1/2,3/4) 	(0,1/4,1/2) 	(0,3/4,1/2)";
  "(1/4,1/2,0) 	(3/4,1/2,0) 	(1/2,0,3/4) 	(1/2,0,1/4)"; "8	c	.-3."; "(1/4,1/4,1/4) 	(3/4,3/4,1/4) 	(3/4,1/4,3/4) 	(1/4,3/4,3/4)"; "(1/4,1/4,3/4) 	(3/4,3/4,3/4) 	(1/4,3/4,1/4) 	(3/4,1/4,1/4)";
  "6	b	42. 2"; "(0,1/2,1/2) 	(1/2,0,1/2) 	(1/2,1/2,0) 	(1/2,0,0)"; "(0,1/2,0) 	(0,0,1/2)"; "2	a	432";
  "(0,0,0) 	(1/2,1/2,1/2)"; ""; "222  2 15  1 24   P n -3 n"; "48	i	1";
  "(x,y,z) 	(-x+1/2,-y+1/2,z) 	(-x+1/2,y,-z+1/2) 	(x,-y+1/2,-z+1/2)"; "(z,x,y) 	(z,-x+1/2,-y+1/2) 	(-z+1/2,-x+1/2,y) 	(-z+1/2,x,-y+1/2)"; "(y,z,x) 	(-y+1/2,z,-x+1/2) 	(y,-z+1/2,-x+1/2) 	(-y+1/2,-z+1/2,x)"; "(y,x,-z+1/2) 	(-y+1/2,-x+1/2,-z+1/2) 	(y,-x+1/2,z) 	(-y+1/2,x,z)";
  "(x,z,-y+1/2) 	(-x+1/2,z,y) 	(-x+1/2,-z+1/2,-y+1/2) 	(x,-z+1/2,y)"; "(z,y,-x+1/2) 	(z,-y+1/2,x) 	(-z+1/2,y,x) 	(-z+1/2,-y+1/2,-x+1/2)"; "(-x,-y,-z) 	(x+1/2,y+1/2,-z) 	(x+1/2,-y,z+1/2) 	(-x,y+1/2,z+1/2)"; "(-z,-x,-y) 	(-z,x+1/2,y+1/2) 	(z+1/2,x+1/2,-y) 	(z+1/2,-x,y+1/2)";
  "(-y,-z,-x) 	(y+1/2,-z,x+1/2) 	(-y,z+1/2,x+1/2) 	(y+1/2,z+1/2,-x)"; "(-y,-x,z+1/2) 	(y+1/2,x+1/2,z+1/2) 	(-y,x+1/2,-z) 	(y+1/2,-x,-z)"; "(-x,-z,y+1/2) 	(x+1/2,-z,-y) 	(x+1/2,z+1/2,y+1/2) 	(-x,z+1/2,-y)"; "(-z,-y,x+1/2) 	(-z,y+1/2,-x) 	(z+1/2,-y,-x) 	(z+1/2,y+1/2,x+1/2)";
  "24	h	..2"; "(1/4,y,y) 	(1/4,-y+1/2,y) 	(1/4,y,-y+1/2) 	(1/4,-y+1/2,-y+1/2)"; "(y,1/4,y) 	(y,1/4,-y+1/2) 	(-y+1/2,1/4,y) 	(-y+1/2,1/4,-y+1/2)"; "(y,y,1/4) 	(-y+1/2,y,1/4) 	(y,-y+1/2,1/4) 	(-y+1/2,-y+1/2,1/4)";
  "(3/4,-y,-y) 	(3/4,y+1/2,-y) 	(3/4,-y,y+1/2) 	(3/4,y+1/2,y+1/2)"; "(-y,3/4,-y) 	(-y,3/4,y+1/2) 	(y+1/2,3/4,-y) 	(y+1/2,3/4,y+1/2)"; "(-y,-y,3/4) 	(y+1/2,-y,3/4) 	(-y,y+1/2,3/4) 	(y+1/2,y+1/2,3/4)"; "24	g	2..";
  "(x,3/4,1/4) 	(-x+1/2,3/4,1/4) 	(1/4,x,3/4) 	(1/4,-x+1/2,3/4)"; "(3/4,1/4,x) 	(3/4,1/4,-x+1/2) 	(3/4,x,1/4) 	(3/4,-x+1/2,1/4)"; "(x,1/4,3/4) 	(-x+1/2,1/4,3/4) 	(1/4,3/4,-x+1/2) 	(1/4,3/4,x)"; "(-x,1/4,3/4) 	(x+1/2,1/4,3/4) 	(3/4,-x,1/4) 	(3/4,x+1/2,1/4)";
  "(1/4,3/4,-x) 	(1/4,3/4,x+1/2) 	(1/4,-x,3/4) 	(1/4,x+1/2,3/4)"; "(-x,3/4,1/4) 	(x+1/2,3/4,1/4) 	(3/4,1/4,x+1/2) 	(3/4,1/4,-x)"; "16	f	.3."; "(x,x,x) 	(-x+1/2,-x+1/2,x) 	(-x+1/2,x,-x+1/2) 	(x,-x+1/2,-x+1/2)";
  "(x,x,-x+1/2) 	(-x+1/2,-x+1/2,-x+1/2) 	(x,-x+1/2,x) 	(-x+1/2,x,x)"; "(-x,-x,-x) 	(x+1/2,x+1/2,-x) 	(x+1/2,-x,x+1/2) 	(-x,x+1/2,x+1/2)"; "(-x,-x,x+1/2) 	(x+1/2,x+1/2,x+1/2) 	(-x,x+1/2,-x) 	(x+1/2,-x,-x)"; "12	e	4..";
  "(x,1/4,1/4) 	(-x+1/2,1/4,1/4) 	(1/4,x,1/4) 	(1/4,-x+1/2,1/4)"; "(1/4,1/4,x) 	(1/4,1/4,-x+1/2) 	(-x,3/4,3/4) 	(x+1/2,3/4,3/4)"; "(3/4,-x,3/4) 	(3/4,x+1/2,3/4) 	(3/4,3/4,-x) 	(3/4,3/4,x+1/2)"; "12	d	-4..";
  "(0,3/4,1/4) 	(1/2,3/4,1/4) 	(1/4,0,3/4) 	(1/4,1/2,3/4)"; "(3/4,1/4,0) 	(3/4,1/4,1/2) 	(3/4,0,1/4) 	(3/4,1/2,1/4)"; "(0,1/4,3/4) 	(1/2,1/4,3/4) 	(1/4,3/4,1/2) 	(1/4,3/4,0)"; "8	c	.-3.";
  "(0,0,0) 	(1/2,1/2,0) 	(1/2,0,1/2) 	(0,1/2,1/2)"; "(0,0,1/2) 	(1/2,1/2,1/2) 	(0,1/2,0) 	(1/2,0,0)"; "6	b	42. 2"; "(3/4,1/4,1/4) 	(1/4,3/4,1/4) 	(1/4,1/4,3/4) 	(1/4,3/4,3/4)";
  "(3/4,1/4,3/4) 	(3/4,3/4,1/4)"; "2	a	432"; "(1/4,1/4,1/4) 	(3/4,3/4,3/4)"; "";
  "223  1 15  1 24   P m -3 n"; "48	l	1"; "(x,y,z) 	(-x,-y,z) 	(-x,y,-z) 	(x,-y,-z)"; "(z,x,y) 	(z,-x,-y) 	(-z,-x,y) 	(-z,x,-y)";
  "(y,z,x) 	(-y,z,-x) 	(y,-z,-x) 	(-y,-z,x)"; "(y+1/2,x+1/2,-z+1/2) 	(-y+1/2,-x+1/2,-z+1/2) 	(y+1/2,-x+1/2,z+1/2) 	(-y+1/2,x+1/2,z+1/2)"; "(x+1/2,z+1/2,-y+1/2) 	(-x+1/2,z+1/2,y+1/2) 	(-x+1/2,-z+1/2,-y+1/2) 	(x+1/2,-z+1/2,y+1/2)"; "(z+1/2,y+1/2,-x+1/2) 	(z+1/2,-y+1/2,x+1/2) 	(-z+1/2,y+1/2,x+1/2) 	(-z+1/2,-y+1/2,-x+1/2)";
  "(-x,-y,-z) 	(x,y,-z) 	(x,-y,z) 	(-x,y,z)"; "(-z,-x,-y) 	(-z,x,y) 	(z,x,-y) 	(z,-x,y)"; "(-y,-z,-x) 	(y,-z,x) 	(-y,z,x) 	(y,z,-x)"; "(-y+1/2,-x+1/2,z+1/2) 	(y+1/2,x+1/2,z+1/2) 	(-y+1/2,x+1/2,-z+1/2) 	(y+1/2,-x+1/2,-z+1/2)";
  "(-x+1/2,-z+1/2,y+1/2) 	(x+1/2,-z+1/2,-y+1/2) 	(x+1/2,z+1/2,y+1/2) 	(-x+1/2,z+1/2,-y+1/2)"; "(-z+1/2,-y+1/2,x+1/2) 	(-z+1/2,y+1/2,-x+1/2) 	(z+1/2,-y+1/2,-x+1/2) 	(z+1/2,y+1/2,x+1/2)"; "24	k	m.."; "(0,y,z) 	(0,-y,z) 	(0,y,-z) 	(0,-y,-z)";
  "(z,0,y) 	(z,0,-y) 	(-z,0,y) 	(-z,0,-y)"; "(y,z,0) 	(-y,z,0) 	(y,-z,0) 	(-y,-z,0)"; "(y+1/2,1/2,-z+1/2) 	(-y+1/2,1/2,-z+1/2) 	(y+1/2,1/2,z+1/2) 	(-y+1/2,1/2,z+1/2)"; "(1/2,z+1/2,-y+1/2) 	(1/2,z+1/2,y+1/2) 	(1/2,-z+1/2,-y+1/2) 	(1/2,-z+1/2,y+1/2)";
  "(z+1/2,y+1/2,1/2) 	(z+1/2,-y+1/2,1/2) 	(-z+1/2,y+1/2,1/2) 	(-z+1/2,-y+1/2,1/2)"; "24	j	..2"; "(1/4,y,y+1/2) 	(3/4,-y,y+1/2) 	(3/4,y,-y+1/2) 	(1/4,-y,-y+1/2)"; "(y+1/2,1/4,y) 	(y+1/2,3/4,-y) 	(-y+1/2,3/4,y) 	(-y+1/2,1/4,-y)";
  "(y,y+1/2,1/4) 	(-y,y+1/2,3/4) 	(y,-y+1/2,3/4) 	(-y,-y+1/2,1/4)"; "(3/4,-y,-y+1/2) 	(1/4,y,-y+1/2) 	(1/4,-y,y+1/2) 	(3/4,y,y+1/2)"; "(-y+1/2,3/4,-y) 	(-y+1/2,1/4,y) 	(y+1/2,1/4,-y) 	(y+1/2,3/4,y)"; "(-y,-y+1/2,3/4) 	(y,-y+1/2,1/4) 	(-y,y+1/2,1/4) 	(y,y+1/2,3/4)";
  "16	i	.3."; "(x,x,x) 	(-x,-x,x) 	(-x,x,-x) 	(x,-x,-x)"; "(x+1/2,x+1/2,-x+1/2) 	(-x+1/2,-x+1/2,-x+1/2) 	(x+1/2,-x+1/2,x+1/2) 	(-x+1/2,x+1/2,x+1/2)"; "(-x,-x,-x) 	(x,x,-x) 	(x,-x,x) 	(-x,x,x)";
  "(-x+1/2,-x+1/2,x+1/2) 	(x+1/2,x+1/2,x+1/2) 	(-x+1/2,x+1/2,-x+1/2) 	(x+1/2,-x+1/2,-x+1/2)"; "12	h	mm2 . ."; "(x,1/2,0) 	(-x,1/2,0) 	(0,x,1/2) 	(0,-x,1/2)"; "(1/2,0,x) 	(1/2,0,-x) 	(0,x+1/2,1/2) 	(0,-x+1/2,1/2)";
  "(x+1/2,1/2,0) 	(-x+1/2,1/2,0) 	(1/2,0,-x+1/2) 	(1/2,0,x+1/2)"; "12	g	mm2 . ."; "(x,0,1/2) 	(-x,0,1/2) 	(1/2,x,0) 	(1/2,-x,0)"; "(0,1/2,x) 	(0,1/2,-x) 	(1/2,x+1/2,0) 	(1/2,-x+1/2,0)";
  "(x+1/2,0,1/2) 	(-x+1/2,0,1/2) 	(0,1/2,-x+1/2) 	(0,1/2,x+1/2)"; "12	f	mm2 . ."; "(x,0,0) 	(-x,0,0) 	(0,x,0) 	(0,-x,0)"; "(0,0,x) 	(0,0,-x) 	(1/2,x+1/2,1/2) 	(1/2,-x+1/2,1/2)";
  "(x+1/2,1/2,1/2) 	(-x+1/2,1/2,1/2) 	(1/2,1/2,-x+1/2) 	(1/2,1/2,x+1/2)"; "8	e	.32"; "(1/4,1/4,1/4) 	(3/4,3/4,1/4) 	(3/4,1/4,3/4) 	(1/4,3/4,3/4)"; "(3/4,3/4,3/4) 	(1/4,1/4,3/4) 	(1/4,3/4,1/4) 	(3/4,1/4,1/4)";
  "6	d	-4m. 2"; "(1/4,1/2,0) 	(3/4,1/2,0) 	(0,1/4,1/2) 	(0,3/4,1/2)"; "(1/2,0,1/4) 	(1/2,0,3/4)"; "6	c	-4m. 2";
  "(1/4,0,1/2) 	(3/4,0,1/2) 	(1/2,1/4,0) 	(1/2,3/4,0)"; "(0,1/2,1/4) 	(0,1/2,3/4)"; "6	b	mmm . ."; "(0,1/2,1/2) 	(1/2,0,1/2) 	(1/2,1/2,0) 	(0,1/2,0)";
  "(1/2,0,0) 	(0,0,1/2)"; "2	a	m-3."; "(0,0,0) 	(1/2,1/2,1/2)"; "";
  "224  1 15  0 48   P n -3 m"; "48	l	1"; "(x,y,z) 	(-x,-y,z) 	(-x,y,-z) 	(x,-y,-z)"; "(z,x,y) 	(z,-x,-y) 	(-z,-x,y) 	(-z,x,-y)";
  "(y,z,x) 	(-y,z,-x) 	(y,-z,-x) 	(-y,-z,x)"; "(y+1/2,x+1/2,-z+1/2) 	(-y+1/2,-x+1/2,-z+1/2) 	(y+1/2,-x+1/2,z+1/2) 	(-y+1/2,x+1/2,z+1/2)"; "(x+1/2,z+1/2,-y+1/2) 	(-x+1/2,z+1/2,y+1/2) 	(-x+1/2,-z+1/2,-y+1/2) 	(x+1/2,-z+1/2,y+1/2)"; "(z+1/2,y+1/2,-x+1/2) 	(z+1/2,-y+1/2,x+1/2) 	(-z+1/2,y+1/2,x+1/2) 	(-z+1/2,-y+1/2,-x+1/2)";
  "(-x+1/2,-y+1/2,-z+1/2) 	(x+1/2,y+1/2,-z+1/2) 	(x+1/2,-y+1/2,z+1/2) 	(-x+1/2,y+1/2,z+1/2)"; "(-z+1/2,-x+1/2,-y+1/2) 	(-z+1/2,x+1/2,y+1/2) 	(z+1/2,x+1/2,-y+1/2) 	(z+1/2,-x+1/2,y+1/2)"; "(-y+1/2,-z+1/2,-x+1/2) 	(y+1/2,-z+1/2,x+1/2) 	(-y+1/2,z+1/2,x+1/2) 	(y+1/2,z+1/2,-x+1/2)"; "(-y,-x,z) 	(y,x,z) 	(-y,x,-z) 	(y,-x,-z)";
  "(-x,-z,y) 	(x,-z,-y) 	(x,z,y) 	(-x,z,-y)"; "(-z,-y,x) 	(-z,y,-x) 	(z,-y,-x) 	(z,y,x)"; "24	k	..m"; "(x,x,z) 	(-x,-x,z) 	(-x,x,-z) 	(x,-x,-z)";
  "(z,x,x) 	(z,-x,-x) 	(-z,-x,x) 	(-z,x,-x)"; "(x,z,x) 	(-x,z,-x) 	(x,-z,-x) 	(-x,-z,x)"; "(x+1/2,x+1/2,-z+1/2) 	(-x+1/2,-x+1/2,-z+1/2) 	(x+1/2,-x+1/2,z+1/2) 	(-x+1/2,x+1/2,z+1/2)"; "(x+1/2,z+1/2,-x+1/2) 	(-x+1/2,z+1/2,x+1/2) 	(-x+1/2,-z+1/2,-x+1/2) 	(x+1/2,-z+1/2,x+1/2)";
  "(z+1/2,x+1/2,-x+1/2) 	(z+1/2,-x+1/2,x+1/2) 	(-z+1/2,x+1/2,x+1/2) 	(-z+1/2,-x+1/2,-x+1/2)"; "24	j	..2"; "(1/4,y,y+1/2) 	(3/4,-y,y+1/2) 	(3/4,y,-y+1/2) 	(1/4,-y,-y+1/2)"; "(y+1/2,1/4,y) 	(y+1/2,3/4,-y) 	(-y+1/2,3/4,y) 	(-y+1/2,1/4,-y)";
  "(y,y+1/2,1/4) 	(-y,y+1/2,3/4) 	(y,-y+1/2,3/4) 	(-y,-y+1/2,1/4)"; "(1/4,-y+1/2,-y) 	(3/4,y+1/2,-y) 	(3/4,-y+1/2,y) 	(1/4,y+1/2,y)"; "(-y,1/4,-y+1/2) 	(-y,3/4,y+1/2) 	(y,3/4,-y+1/2) 	(y,1/4,y+1/2)"; "(-y+1/2,-y,1/4) 	(y+1/2,-y,3/4) 	(-y+1/2,y,3/4) 	(y+1/2,y,1/4)";
  "24	i	..2"; "(1/4,y,-y+1/2) 	(3/4,-y,-y+1/2) 	(3/4,y,y+1/2) 	(1/4,-y,y+1/2)"; "(-y+1/2,1/4,y) 	(-y+1/2,3/4,-y) 	(y+1/2,3/4,y) 	(y+1/2,1/4,-y)"; "(y,-y+1/2,1/4) 	(-y,-y+1/2,3/4) 	(y,y+1/2,3/4) 	(-y,y+1/2,1/4)";
  "(1/4,-y+1/2,y) 	(3/4,y+1/2,y) 	(3/4,-y+1/2,-y) 	(1/4,y+1/2,-y)"; "(y,1/4,-y+1/2) 	(y,3/4,y+1/2) 	(-y,3/4,-y+1/2) 	(-y,1/4,y+1/2)"; "(-y+1/2,y,1/4) 	(y+1/2,y,3/4) 	(-y+1/2,-y,3/4) 	(y+1/2,-y,1/4)"; "24	h	2..";
  "(x,0,1/2) 	(-x,0,1/2) 	(1/2,x,0) 	(1/2,-x,0)"; "(0,1/2,x) 	(0,1/2,-x) 	(1/2,x+1/2,0) 	(1/2,-x+1/2,0)"; "(x+1/2,0,1/2) 	(-x+1/2,0,1/2) 	(0,1/2,-x+1/2) 	(0,1/2,x+1/2)"; "(-x+1/2,1/2,0) 	(x+1/2,1/2,0) 	(0,-x+1/2,1/2) 	(0,x+1/2,1/2)";
  "(1/2,0,-x+1/2) 	(1/2,0,x+1/2) 	(0,-x,1/2) 	(0,x,1/2)"; "(-x,1/2,0) 	(x,1/2,0) 	(1/2,0,x) 	(1/2,0,-x)"; "12	g	2.m m"; "(x,0,0) 	(-x,0,0) 	(0,x,0) 	(0,-x,0)";
  "(0,0,x) 	(0,0,-x) 	(1/2,x+1/2,1/2) 	(1/2,-x+1/2,1/2)"; "(x+1/2,1/2,1/2) 	(-x+1/2,1/2,1/2) 	(1/2,1/2,-x+1/2) 	(1/2,1/2,x+1/2)"; "12	f	2.2 2"; "(1/4,0,1/2) 	(3/4,0,1/2) 	(1/2,1/4,0) 	(1/2,3/4,0)";
  "(0,1/2,1/4) 	(0,1/2,3/4) 	(1/4,1/2,0) 	(3/4,1/2,0)"; "(0,1/4,1/2) 	(0,3/4,1/2) 	(1/2,0,1/4) 	(1/2,0,3/4)"; "8	e	.3m"; "(x,x,x) 	(-x,-x,x) 	(-x,x,-x) 	(x,-x,-x)";
  "(x+1/2,x+1/2,-x+1/2) 	(-x+1/2,-x+1/2,-x+1/2) 	(x+1/2,-x+1/2,x+1/2) 	(-x+1/2,x+1/2,x+1/2)"; "6	d	-42. m"; "(0,1/2,1/2) 	(1/2,0,1/2) 	(1/2,1/2,0) 	(0,1/2,0)"; "(1/2,0,0) 	(0,0,1/2)";
  "4	c	.-3m"; "(3/4,3/4,3/4) 	(1/4,1/4,3/4) 	(1/4,3/4,1/4) 	(3/4,1/4,1/4)"; "4	b	.-3m"; "(1/4,1/4,1/4) 	(3/4,3/4,1/4) 	(3/4,1/4,3/4) 	(1/4,3/4,3/4)";
  "2	a	-43m"; "(0,0,0) 	(1/2,1/2,1/2)"; ""; "224  2 15  1 24   P n -3 m";
  "48	l	1"; "(x,y,z) 	(-x+1/2,-y+1/2,z) 	(-x+1/2,y,-z+1/2) 	(x,-y+1/2,-z+1/2)"; "(z,x,y) 	(z,-x+1/2,-y+1/2) 	(-z+1/2,-x+1/2,y) 	(-z+1/2,x,-y+1/2)"; "(y,z,x) 	(-y+1/2,z,-x+1/2) 	(y,-z+1/2,-x+1/2) 	(-y+1/2,-z+1/2,x)";
  "(y+1/2,x+1/2,-z) 	(-y,-x,-z) 	(y+1/2,-x,z+1/2) 	(-y,x+1/2,z+1/2)"; "(x+1/2,z+1/2,-y) 	(-x,z+1/2,y+1/2) 	(-x,-z,-y) 	(x+1/2,-z,y+1/2)"; "(z+1/2,y+1/2,-x) 	(z+1/2,-y,x+1/2) 	(-z,y+1/2,x+1/2) 	(-z,-y,-x)"; "(-x,-y,-z) 	(x+1/2,y+1/2,-z) 	(x+1/2,-y,z+1/2) 	(-x,y+1/2,z+1/2)";
  "(-z,-x,-y) 	(-z,x+1/2,y+1/2) 	(z+1/2,x+1/2,-y) 	(z+1/2,-x,y+1/2)"; "(-y,-z,-x) 	(y+1/2,-z,x+1/2) 	(-y,z+1/2,x+1/2) 	(y+1/2,z+1/2,-x)"; "(-y+1/2,-x+1/2,z) 	(y,x,z) 	(-y+1/2,x,-z+1/2) 	(y,-x+1/2,-z+1/2)"; "(-x+1/2,-z+1/2,y) 	(x,-z+1/2,-y+1/2) 	(x,z,y) 	(-x+1/2,z,-y+1/2)";
  "(-z+1/2,-y+1/2,x) 	(-z+1/2,y,-x+1/2) 	(z,-y+1/2,-x+1/2) 	(z,y,x)"; "24	k	..m"; "(x,x,z) 	(-x+1/2,-x+1/2,z) 	(-x+1/2,x,-z+1/2) 	(x,-x+1/2,-z+1/2)"; "(z,x,x) 	(z,-x+1/2,-x+1/2) 	(-z+1/2,-x+1/2,x) 	(-z+1/2,x,-x+1/2)";
  "(x,z,x) 	(-x+1/2,z,-x+1/2) 	(x,-z+1/2,-x+1/2) 	(-x+1/2,-z+1/2,x)"; "(x+1/2,x+1/2,-z) 	(-x,-x,-z) 	(x+1/2,-x,z+1/2) 	(-x,x+1/2,z+1/2)"; "(x+1/2,z+1/2,-x) 	(-x,z+1/2,x+1/2) 	(-x,-z,-x) 	(x+1/2,-z,x+1/2)"; "(z+1/2,x+1/2,-x) 	(z+1/2,-x,x+1/2) 	(-z,x+1/2,x+1/2) 	(-z,-x,-x)";
  "24	j	..2"; "(1/2,y,-y) 	(0,-y+1/2,-y) 	(0,y,y+1/2) 	(1/2,-y+1/2,y+1/2)"; "(-y,1/2,y) 	(-y,0,-y+1/2) 	(y+1/2,0,y) 	(y+1/2,1/2,-y+1/2)"; "(y,-y,1/2) 	(-y+1/2,-y,0) 	(y,y+1/2,0) 	(-y+1/2,y+1/2,1/2)";
  "(1/2,-y,y) 	(0,y+1/2,y) 	(0,-y,-y+1/2) 	(1/2,y+1/2,-y+1/2)"; "(y,1/2,-y) 	(y,0,y+1/2) 	(-y+1/2,0,-y) 	(-y+1/2,1/2,y+1/2)"; "(-y,y,1/2) 	(y+1/2,y,0) 	(-y,-y+1/2,0) 	(y+1/2,-y+1/2,1/2)"; "24	i	..2";
  "(1/2,y,y+1/2) 	(0,-y+1/2,y+1/2) 	(0,y,-y) 	(1/2,-y+1/2,-y)"; "(y+1/2,1/2,y) 	(y+1/2,0,-y+1/2) 	(-y,0,y) 	(-y,1/2,-y+1/2)"; "(y,y+1/2,1/2) 	(-y+1/2,y+1/2,0) 	(y,-y,0) 	(-y+1/2,-y,1/2)"; "(1/2,-y,-y+1/2) 	(0,y+1/2,-y+1/2) 	(0,-y,y) 	(1/2,y+1/2,y)";
  "(-y+1/2,1/2,-y) 	(-y+1/2,0,y+1/2) 	(y,0,-y) 	(y,1/2,y+1/2)"; "(-y,-y+1/2,1/2) 	(y+1/2,-y+1/2,0) 	(-y,y,0) 	(y+1/2,y,1/2)"; "24	h	2.."; "(x,1/4,3/4) 	(-x+1/2,1/4,3/4) 	(3/4,x,1/4) 	(3/4,-x+1/2,1/4)";
  "(1/4,3/4,x) 	(1/4,3/4,-x+1/2) 	(3/4,x+1/2,1/4) 	(3/4,-x,1/4)"; "(x+1/2,1/4,3/4) 	(-x,1/4,3/4) 	(1/4,3/4,-x) 	(1/4,3/4,x+1/2)"; "(-x,3/4,1/4) 	(x+1/2,3/4,1/4) 	(1/4,-x,3/4) 	(1/4,x+1/2,3/4)"; "(3/4,1/4,-x) 	(3/4,1/4,x+1/2) 	(1/4,-x+1/2,3/4) 	(1/4,x,3/4)";
  "(-x+1/2,3/4,1/4) 	(x,3/4,1/4) 	(3/4,1/4,x) 	(3/4,1/4,-x+1/2)"; "12	g	2.m m"; "(x,1/4,1/4) 	(-x+1/2,1/4,1/4) 	(1/4,x,1/4) 	(1/4,-x+1/2,1/4)"; "(1/4,1/4,x) 	(1/4,1/4,-x+1/2) 	(3/4,x+1/2,3/4) 	(3/4,-x,3/4)";
  "(x+1/2,3/4,3/4) 	(-x,3/4,3/4) 	(3/4,3/4,-x) 	(3/4,3/4,x+1/2)"; "12	f	2.2 2"; "(1/2,1/4,3/4) 	(0,1/4,3/4) 	(3/4,1/2,1/4) 	(3/4,0,1/4)"; "(1/4,3/4,1/2) 	(1/4,3/4,0) 	(1/2,3/4,1/4) 	(0,3/4,1/4)";
  "(1/4,1/2,3/4) 	(1/4,0,3/4) 	(3/4,1/4,1/2) 	(3/4,1/4,0)"; "8	e	.3m"; "(x,x,x) 	(-x+1/2,-x+1/2,x) 	(-x+1/2,x,-x+1/2) 	(x,-x+1/2,-x+1/2)"; "(x+1/2,x+1/2,-x) 	(-x,-x,-x) 	(x+1/2,-x,x+1/2) 	(-x,x+1/2,x+1/2)";
  "6	d	-42. m"; "(1/4,3/4,3/4) 	(3/4,1/4,3/4) 	(3/4,3/4,1/4) 	(1/4,3/4,1/4)"; "(3/4,1/4,1/4) 	(1/4,1/4,3/4)"; "4	c	.-3m";
  "(1/2,1/2,1/2) 	(0,0,1/2) 	(0,1/2,0) 	(1/2,0,0)"; "4	b	.-3m"; "(0,0,0) 	(1/2,1/2,0) 	(1/2,0,1/2) 	(0,1/2,1/2)"; "2	a	-43m";
  "(1/4,1/4,1/4) 	(3/4,3/4,3/4)"; ""; "225  1 15  1 24   F m -3 m"; "192	l	1";
  "(x,y,z) 	(-x,-y,z) 	(-x,y,-z) 	(x,-y,-z)"; "(z,x,y) 	(z,-x,-y) 	(-z,-x,y) 	(-z,x,-y)"; "(y,z,x) 	(-y,z,-x) 	(y,-z,-x) 	(-y,-z,x)"; "(y,x,-z) 	(-y,-x,-z) 	(y,-x,z) 	(-y,x,z)";
  "(x,z,-y) 	(-x,z,y) 	(-x,-z,-y) 	(x,-z,y)"; "(z,y,-x) 	(z,-y,x) 	(-z,y,x) 	(-z,-y,-x)"; "(-x,-y,-z) 	(x,y,-z) 	(x,-y,z) 	(-x,y,z)"; "(-z,-x,-y) 	(-z,x,y) 	(z,x,-y) 	(z,-x,y)";
  "(-y,-z,-x) 	(y,-z,x) 	(-y,z,x) 	(y,z,-x)"; "(-y,-x,z) 	(y,x,z) 	(-y,x,-z) 	(y,-x,-z)"; "(-x,-z,y) 	(x,-z,-y) 	(x,z,y) 	(-x,z,-y)"; "(-z,-y,x) 	(-z,y,-x) 	(z,-y,-x) 	(z,y,x)";
  "96	k	..m"; "(x,x,z) 	(-x,-x,z) 	(-x,x,-z) 	(x,-x,-z)"; "(z,x,x) 	(z,-x,-x) 	(-z,-x,x) 	(-z,x,-x)"; "(x,z,x) 	(-x,z,-x) 	(x,-z,-x) 	(-x,-z,x)";
  "(x,x,-z) 	(-x,-x,-z) 	(x,-x,z) 	(-x,x,z)"; "(x,z,-x) 	(-x,z,x) 	(-x,-z,-x) 	(x,-z,x)"; "(z,x,-x) 	(z,-x,x) 	(-z,x,x) 	(-z,-x,-x)"; "96	j	m..";
  "(0,y,z) 	(0,-y,z) 	(0,y,-z) 	(0,-y,-z)"; "(z,0,y) 	(z,0,-y) 	(-z,0,y) 	(-z,0,-y)"; "(y,z,0) 	(-y,z,0) 	(y,-z,0) 	(-y,-z,0)"; "(y,0,-z) 	(-y,0,-z) 	(y,0,z) 	(-y,0,z)";
  "(0,z,-y) 	(0,z,y) 	(0,-z,-y) 	(0,-z,y)"; "(z,y,0) 	(z,-y,0) 	(-z,y,0) 	(-z,-y,0)"; "48	i	m.m 2"; "(1/2,y,y) 	(1/2,-y,y) 	(1/2,y,-y) 	(1/2,-y,-y)";
  "(y,1/2,y) 	(y,1/2,-y) 	(-y,1/2,y) 	(-y,1/2,-y)"; "(y,y,1/2) 	(-y,y,1/2) 	(y,-y,1/2) 	(-y,-y,1/2)"; "48	h	m.m 2"; "(0,y,y) 	(0,-y,y) 	(0,y,-y) 	(0,-y,-y)";
  "(y,0,y) 	(y,0,-y) 	(-y,0,y) 	(-y,0,-y)"; "(y,y,0) 	(-y,y,0) 	(y,-y,0) 	(-y,-y,0)"; "48	g	2.m m"; "(x,1/4,1/4) 	(-x,3/4,1/4) 	(1/4,x,1/4) 	(1/4,-x,3/4)";
  "(1/4,1/4,x) 	(3/4,1/4,-x) 	(1/4,x,3/4) 	(3/4,-x,3/4)"; "(x,1/4,3/4) 	(-x,1/4,1/4) 	(1/4,1/4,-x) 	(1/4,3/4,x)"; "32	f	.3m"; "(x,x,x) 	(-x,-x,x) 	(-x,x,-x) 	(x,-x,-x)";
  "(x,x,-x) 	(-x,-x,-x) 	(x,-x,x) 	(-x,x,x)"; "24	e	4m. m"; "(x,0,0) 	(-x,0,0) 	(0,x,0) 	(0,-x,0)"; "(0,0,x) 	(0,0,-x)";
  "24	d	m.m m"; "(0,1/4,1/4) 	(0,3/4,1/4) 	(1/4,0,1/4) 	(1/4,0,3/4)"; "(1/4,1/4,0) 	(3/4,1/4,0)"; "8	c	-43m";
  "(1/4,1/4,1/4) 	(1/4,1/4,3/4)"; "4	b	m-3m"; "(1/2,1/2,1/2)"; "4	a	m-3m";
  "(0,0,0)"; ""; "226  1 15  1 24   F m -3 c"; "192	j	1";
  "(x,y,z) 	(-x,-y,z) 	(-x,y,-z) 	(x,-y,-z)"; "(z,x,y) 	(z,-x,-y) 	(-z,-x,y) 	(-z,x,-y)"; "(y,z,x) 	(-y,z,-x) 	(y,-z,-x) 	(-y,-z,x)"; "(y+1/2,x+1/2,-z+1/2) 	(-y+1/2,-x+1/2,-z+1/2) 	(y+1/2,-x+1/2,z+1/2) 	(-y+1/2,x+1/2,z+1/2)";
  "(x+1/2,z+1/2,-y+1/2) 	(-x+1/2,z+1/2,y+1/2) 	(-x+1/2,-z+1/2,-y+1/2) 	(x+1/2,-z+1/2,y+1/2)"; "(z+1/2,y+1/2,-x+1/2) 	(z+1/2,-y+1/2,x+1/2) 	(-z+1/2,y+1/2,x+1/2) 	(-z+1/2,-y+1/2,-x+1/2)"; "(-x,-y,-z) 	(x,y,-z) 	(x,-y,z) 	(-x,y,z)"; "(-z,-x,-y) 	(-z,x,y) 	(z,x,-y) 	(z,-x,y)";
  "(-y,-z,-x) 	(y,-z,x) 	(-y,z,x) 	(y,z,-x)"; "(-y+1/2,-x+1/2,z+1/2) 	(y+1/2,x+1/2,z+1/2) 	(-y+1/2,x+1/2,-z+1/2) 	(y+1/2,-x+1/2,-z+1/2)"; "(-x+1/2,-z+1/2,y+1/2) 	(x+1/2,-z+1/2,-y+1/2) 	(x+1/2,z+1/2,y+1/2) 	(-x+1/2,z+1/2,-y+1/2)"; "(-z+1/2,-y+1/2,x+1/2) 	(-z+1/2,y+1/2,-x+1/2) 	(z+1/2,-y+1/2,-x+1/2) 	(z+1/2,y+1/2,x+1/2)";
  "96	i	m.."; "(0,y,z) 	(0,-y,z) 	(0,y,-z) 	(0,-y,-z)"; "(z,0,y) 	(z,0,-y) 	(-z,0,y) 	(-z,0,-y)"; "(y,z,0) 	(-y,z,0) 	(y,-z,0) 	(-y,-z,0)";
  "(y+1/2,1/2,-z+1/2) 	(-y+1/2,1/2,-z+1/2) 	(y+1/2,1/2,z+1/2) 	(-y+1/2,1/2,z+1/2)"; "(1/2,z+1/2,-y+1/2) 	(1/2,z+1/2,y+1/2) 	(1/2,-z+1/2,-y+1/2) 	(1/2,-z+1/2,y+1/2)"; "(z+1/2,y+1/2,1/2) 	(z+1/2,-y+1/2,1/2) 	(-z+1/2,y+1/2,1/2) 	(-z+1/2,-y+1/2,1/2)"; "96	h	..2";
  "(1/4,y,y) 	(3/4,-y,y) 	(3/4,y,-y) 	(1/4,-y,-y)"; "(y,1/4,y) 	(y,3/4,-y) 	(-y,3/4,y) 	(-y,1/4,-y)"; "(y,y,1/4) 	(-y,y,3/4) 	(y,-y,3/4) 	(-y,-y,1/4)"; "(3/4,-y,-y) 	(1/4,y,-y) 	(1/4,-y,y) 	(3/4,y,y)";
  "(-y,3/4,-y) 	(-y,1/4,y) 	(y,1/4,-y) 	(y,3/4,y)"; "(-y,-y,3/4) 	(y,-y,1/4) 	(-y,y,1/4) 	(y,y,3/4)"; "64	g	.3."; "(x,x,x) 	(-x,-x,x) 	(-x,x,-x) 	(x,-x,-x)";
  "(x+1/2,x+1/2,-x+1/2) 	(-x+1/2,-x+1/2,-x+1/2) 	(x+1/2,-x+1/2,x+1/2) 	(-x+1/2,x+1/2,x+1/2)"; "(-x,-x,-x) 	(x,x,-x) 	(x,-x,x) 	(-x,x,x)"; "(-x+1/2,-x+1/2,x+1/2) 	(x+1/2,x+1/2,x+1/2) 	(-x+1/2,x+1/2,-x+1/2) 	(x+1/2,-x+1/2,-x+1/2)"; "48	f	4..";
  "(x,1/4,1/4) 	(-x,3/4,1/4) 	(1/4,x,1/4) 	(1/4,-x,3/4)"; "(1/4,1/4,x) 	(3/4,1/4,-x) 	(-x,3/4,3/4) 	(x,1/4,3/4)"; "(3/4,-x,3/4) 	(3/4,x,1/4) 	(3/4,3/4,-x) 	(1/4,3/4,x)"; "48	e	mm2 . .";
  "(x,0,0) 	(-x,0,0) 	(0,x,0) 	(0,-x,0)"; "(0,0,x) 	(0,0,-x) 	(1/2,x+1/2,1/2) 	(1/2,-x+1/2,1/2)"; "(x+1/2,1/2,1/2) 	(-x+1/2,1/2,1/2) 	(1/2,1/2,-x+1/2) 	(1/2,1/2,x+1/2)"; "24	d	4/m..";
  "(0,1/4,1/4) 	(0,3/4,1/4) 	(1/4,0,1/4) 	(1/4,0,3/4)"; "(1/4,1/4,0) 	(3/4,1/4,0)"; "24	c	-4m. 2"; "(1/4,0,0) 	(3/4,0,0) 	(0,1/4,0) 	(0,3/4,0)";
  "(0,0,1/4) 	(0,0,3/4)"; "8	b	m-3."; "(0,0,0) 	(1/2,1/2,1/2)"; "8	a	432";
  "(1/4,1/4,1/4) 	(3/4,3/4,3/4)"; ""; "227  1 15  0 48   F d -3 m"; "192	i	1";
  "(x,y,z) 	(-x,-y+1/2,z+1/2) 	(-x+1/2,y+1/2,-z) 	(x+1/2,-y,-z+1/2)"; "(z,x,y) 	(z+1/2,-x,-y+1/2) 	(-z,-x+1/2,y+1/2) 	(-z+1/2,x+1/2,-y)"; "(y,z,x) 	(-y+1/2,z+1/2,-x) 	(y+1/2,-z,-x+1/2) 	(-y,-z+1/2,x+1/2)"; "(y+3/4,x+1/4,-z+3/4) 	(-y+1/4,-x+1/4,-z+1/4) 	(y+1/4,-x+3/4,z+3/4) 	(-y+3/4,x+3/4,z+1/4)";
  "(x+3/4,z+1/4,-y+3/4) 	(-x+3/4,z+3/4,y+1/4) 	(-x+1/4,-z+1/4,-y+1/4) 	(x+1/4,-z+3/4,y+3/4)"; "(z+3/4,y+1/4,-x+3/4) 	(z+1/4,-y+3/4,x+3/4) 	(-z+3/4,y+3/4,x+1/4) 	(-z+1/4,-y+1/4,-x+1/4)"; "(-x+1/4,-y+1/4,-z+1/4) 	(x+1/4,y+3/4,-z+3/4) 	(x+3/4,-y+3/4,z+1/4) 	(-x+3/4,y+1/4,z+3/4)"; "(-z+1/4,-x+1/4,-y+1/4) 	(-z+3/4,x+1/4,y+3/4) 	(z+1/4,x+3/4,-y+3/4) 	(z+3/4,-x+3/4,y+1/4)";
  "(-y+1/4,-z+1/4,-x+1/4) 	(y+3/4,-z+3/4,x+1/4) 	(-y+3/4,z+1/4,x+3/4) 	(y+1/4,z+3/4,-x+3/4)"; "(-y+1/2,-x,z+1/2) 	(y,x,z) 	(-y,x+1/2,-z+1/2) 	(y+1/2,-x+1/2,-z)"; "(-x+1/2,-z,y+1/2) 	(x+1/2,-z+1/2,-y) 	(x,z,y) 	(-x,z+1/2,-y+1/2)"; "(-z+1/2,-y,x+1/2) 	(-z,y+1/2,-x+1/2) 	(z+1/2,-y+1/2,-x) 	(z,y,x)";
  "96	h	..2"; "(1/8,y,-y+1/4) 	(7/8,-y+1/2,-y+3/4) 	(3/8,y+1/2,y+3/4) 	(5/8,-y,y+1/4)"; "(-y+1/4,1/8,y) 	(-y+3/4,7/8,-y+1/2) 	(y+3/4,3/8,y+1/2) 	(y+1/4,5/8,-y)"; "(y,-y+1/4,1/8) 	(-y+1/2,-y+3/4,7/8) 	(y+1/2,y+3/4,3/8) 	(-y,y+1/4,5/8)";
  "(1/8,-y+1/4,y) 	(3/8,y+3/4,y+1/2) 	(7/8,-y+3/4,-y+1/2) 	(5/8,y+1/4,-y)"; "(y,1/8,-y+1/4) 	(y+1/2,3/8,y+3/4) 	(-y+1/2,7/8,-y+3/4) 	(-y,5/8,y+1/4)"; "(-y+1/4,y,1/8) 	(y+3/4,y+1/2,3/8) 	(-y+3/4,-y+1/2,7/8) 	(y+1/4,-y,5/8)"; "96	g	..m";
  "(x,x,z) 	(-x,-x+1/2,z+1/2) 	(-x+1/2,x+1/2,-z) 	(x+1/2,-x,-z+1/2)"; "(z,x,x) 	(z+1/2,-x,-x+1/2) 	(-z,-x+1/2,x+1/2) 	(-z+1/2,x+1/2,-x)"; "(x,z,x) 	(-x+1/2,z+1/2,-x) 	(x+1/2,-z,-x+1/2) 	(-x,-z+1/2,x+1/2)"; "(x+3/4,x+1/4,-z+3/4) 	(-x+1/4,-x+1/4,-z+1/4) 	(x+1/4,-x+3/4,z+3/4) 	(-x+3/4,x+3/4,z+1/4)";
  "(x+3/4,z+1/4,-x+3/4) 	(-x+3/4,z+3/4,x+1/4) 	(-x+1/4,-z+1/4,-x+1/4) 	(x+1/4,-z+3/4,x+3/4)"; "(z+3/4,x+1/4,-x+3/4) 	(z+1/4,-x+3/4,x+3/4) 	(-z+3/4,x+3/4,x+1/4) 	(-z+1/4,-x+1/4,-x+1/4)"; "48	f	2.m m"; "(x,0,0) 	(-x,1/2,1/2) 	(0,x,0) 	(1/2,-x,1/2)";
  "(0,0,x) 	(1/2,1/2,-x) 	(3/4,x+1/4,3/4) 	(1/4,-x+1/4,1/4)"; "(x+3/4,1/4,3/4) 	(-x+3/4,3/4,1/4) 	(3/4,1/4,-x+3/4) 	(1/4,3/4,x+3/4)"; "32	e	.3m"; "(x,x,x) 	(-x,-x+1/2,x+1/2) 	(-x+1/2,x+1/2,-x) 	(x+1/2,-x,-x+1/2)";
  "(x+3/4,x+1/4,-x+3/4) 	(-x+1/4,-x+1/4,-x+1/4) 	(x+1/4,-x+3/4,x+3/4) 	(-x+3/4,x+3/4,x+1/4)"; "16	d	.-3m"; "(5/8,5/8,5/8) 	(3/8,7/8,1/8) 	(7/8,1/8,3/8) 	(1/8,3/8,7/8)"; "16	c	.-3m";
  "(1/8,1/8,1/8) 	(7/8,3/8,5/8) 	(3/8,5/8,7/8) 	(5/8,7/8,3/8)"; "8	b	-43m"; "(1/2,1/2,1/2) 	(1/4,3/4,1/4)"; "8	a	-43m";
  "(0,0,0) 	(3/4,1/4,3/4)"; ""; "227  2 15  1 24   F d -3 m"; "192	i	1";
  "(x,y,z) 	(-x+3/4,-y+1/4,z+1/2) 	(-x+1/4,y+1/2,-z+3/4) 	(x+1/2,-y+3/4,-z+1/4)"; "(z,x,y) 	(z+1/2,-x+3/4,-y+1/4) 	(-z+3/4,-x+1/4,y+1/2) 	(-z+1/4,x+1/2,-y+3/4)"; "(y,z,x) 	(-y+1/4,z+1/2,-x+3/4) 	(y+1/2,-z+3/4,-x+1/4) 	(-y+3/4,-z+1/4,x+1/2)"; "(y+3/4,x+1/4,-z+1/2) 	(-y,-x,-z) 	(y+1/4,-x+1/2,z+3/4) 	(-y+1/2,x+3/4,z+1/4)";
  "(x+3/4,z+1/4,-y+1/2) 	(-x+1/2,z+3/4,y+1/4) 	(-x,-z,-y) 	(x+1/4,-z+1/2,y+3/4)"; "(z+3/4,y+1/4,-x+1/2) 	(z+1/4,-y+1/2,x+3/4) 	(-z+1/2,y+3/4,x+1/4) 	(-z,-y,-x)"; "(-x,-y,-z) 	(x+1/4,y+3/4,-z+1/2) 	(x+3/4,-y+1/2,z+1/4) 	(-x+1/2,y+1/4,z+3/4)"; "(-z,-x,-y) 	(-z+1/2,x+1/4,y+3/4) 	(z+1/4,x+3/4,-y+1/2) 	(z+3/4,-x+1/2,y+1/4)";
  "(-y,-z,-x) 	(y+3/4,-z+1/2,x+1/4) 	(-y+1/2,z+1/4,x+3/4) 	(y+1/4,z+3/4,-x+1/2)"; "(-y+1/4,-x+3/4,z+1/2) 	(y,x,z) 	(-y+3/4,x+1/2,-z+1/4) 	(y+1/2,-x+1/4,-z+3/4)"; "(-x+1/4,-z+3/4,y+1/2) 	(x+1/2,-z+1/4,-y+3/4) 	(x,z,y) 	(-x+3/4,z+1/2,-y+1/4)"; "(-z+1/4,-y+3/4,x+1/2) 	(-z+3/4,y+1/2,-x+1/4) 	(z+1/2,-y+1/4,-x+3/4) 	(z,y,x)";
  "96	h	..2"; "(0,y,-y) 	(3/4,-y+1/4,-y+1/2) 	(1/4,y+1/2,y+3/4) 	(1/2,-y+3/4,y+1/4)"; "(-y,0,y) 	(-y+1/2,3/4,-y+1/4) 	(y+3/4,1/4,y+1/2) 	(y+1/4,1/2,-y+3/4)"; "(y,-y,0) 	(-y+1/4,-y+1/2,3/4) 	(y+1/2,y+3/4,1/4) 	(-y+3/4,y+1/4,1/2)";
  "(0,-y,y) 	(1/4,y+3/4,y+1/2) 	(3/4,-y+1/2,-y+1/4) 	(1/2,y+1/4,-y+3/4)"; "(y,0,-y) 	(y+1/2,1/4,y+3/4) 	(-y+1/4,3/4,-y+1/2) 	(-y+3/4,1/2,y+1/4)"; "(-y,y,0) 	(y+3/4,y+1/2,1/4) 	(-y+1/2,-y+1/4,3/4) 	(y+1/4,-y+3/4,1/2)"; "96	g	..m";
  "(x,x,z) 	(-x+3/4,-x+1/4,z+1/2) 	(-x+1/4,x+1/2,-z+3/4) 	(x+1/2,-x+3/4,-z+1/4)"; "(z,x,x) 	(z+1/2,-x+3/4,-x+1/4) 	(-z+3/4,-x+1/4,x+1/2) 	(-z+1/4,x+1/2,-x+3/4)"; "(x,z,x) 	(-x+1/4,z+1/2,-x+3/4) 	(x+1/2,-z+3/4,-x+1/4) 	(-x+3/4,-z+1/4,x+1/2)"; "(x+3/4,x+1/4,-z+1/2) 	(-x,-x,-z) 	(x+1/4,-x+1/2,z+3/4) 	(-x+1/2,x+3/4,z+1/4)";
  "(x+3/4,z+1/4,-x+1/2) 	(-x+1/2,z+3/4,x+1/4) 	(-x,-z,-x) 	(x+1/4,-z+1/2,x+3/4)"; "(z+3/4,x+1/4,-x+1/2) 	(z+1/4,-x+1/2,x+3/4) 	(-z+1/2,x+3/4,x+1/4) 	(-z,-x,-x)"; "48	f	2.m m"; "(x,1/8,1/8) 	(-x+3/4,1/8,5/8) 	(1/8,x,1/8) 	(5/8,-x+3/4,1/8)";
  "(1/8,1/8,x) 	(1/8,5/8,-x+3/4) 	(7/8,x+1/4,3/8) 	(7/8,-x,7/8)"; "(x+3/4,3/8,3/8) 	(-x+1/2,7/8,3/8) 	(7/8,3/8,-x+1/2) 	(3/8,3/8,x+3/4)"; "32	e	.3m"; "(x,x,x) 	(-x+3/4,-x+1/4,x+1/2) 	(-x+1/4,x+1/2,-x+3/4) 	(x+1/2,-x+3/4,-x+1/4)";
  "(x+3/4,x+1/4,-x+1/2) 	(-x,-x,-x) 	(x+1/4,-x+1/2,x+3/4) 	(-x+1/2,x+3/4,x+1/4)"; "16	d	.-3m"; "(1/2,1/2,1/2) 	(1/4,3/4,0) 	(3/4,0,1/4) 	(0,1/4,3/4)"; "16	c	.-3m";
  "(0,0,0) 	(3/4,1/4,1/2) 	(1/4,1/2,3/4) 	(1/2,3/4,1/4)"; "8	b	-43m"; "(3/8,3/8,3/8) 	(1/8,5/8,1/8)"; "8	a	-43m";
  "(1/8,1/8,1/8) 	(7/8,3/8,3/8)"; ""; "228  1 15  0 48   F d -3 c"; "192	h	1";
  "(x,y,z) 	(-x,-y+1/2,z+1/2) 	(-x+1/2,y+1/2,-z) 	(x+1/2,-y,-z+1/2)"; "(z,x,y) 	(z+1/2,-x,-y+1/2) 	(-z,-x+1/2,y+1/2) 	(-z+1/2,x+1/2,-y)"; "(y,z,x) 	(-y+1/2,z+1/2,-x) 	(y+1/2,-z,-x+1/2) 	(-y,-z+1/2,x+1/2)"; "(y+3/4,x+1/4,-z+3/4) 	(-y+1/4,-x+1/4,-z+1/4) 	(y+1/4,-x+3/4,z+3/4) 	(-y+3/4,x+3/4,z+1/4)";
  "(x+3/4,z+1/4,-y+3/4) 	(-x+3/4,z+3/4,y+1/4) 	(-x+1/4,-z+1/4,-y+1/4) 	(x+1/4,-z+3/4,y+3/4)"; "(z+3/4,y+1/4,-x+3/4) 	(z+1/4,-y+3/4,x+3/4) 	(-z+3/4,y+3/4,x+1/4) 	(-z+1/4,-y+1/4,-x+1/4)"; "(-x+3/4,-y+3/4,-z+3/4) 	(x+3/4,y+1/4,-z+1/4) 	(x+1/4,-y+1/4,z+3/4) 	(-x+1/4,y+3/4,z+1/4)"; "(-z+3/4,-x+3/4,-y+3/4) 	(-z+1/4,x+3/4,y+1/4) 	(z+3/4,x+1/4,-y+1/4) 	(z+1/4,-x+1/4,y+3/4)";
  "(-y+3/4,-z+3/4,-x+3/4) 	(y+1/4,-z+1/4,x+3/4) 	(-y+1/4,z+3/4,x+1/4) 	(y+3/4,z+1/4,-x+1/4)"; "(-y,-x+1/2,z) 	(y+1/2,x+1/2,z+1/2) 	(-y+1/2,x,-z) 	(y,-x,-z+1/2)"; "(-x,-z+1/2,y) 	(x,-z,-y+1/2) 	(x+1/2,z+1/2,y+1/2) 	(-x+1/2,z,-y)"; "(-z,-y+1/2,x) 	(-z+1/2,y,-x) 	(z,-y,-x+1/2) 	(z+1/2,y+1/2,x+1/2)";
  "96	g	..2"; "(1/8,y,-y+1/4) 	(7/8,-y+1/2,-y+3/4) 	(3/8,y+1/2,y+3/4) 	(5/8,-y,y+1/4)"; "(-y+1/4,1/8,y) 	(-y+3/4,7/8,-y+1/2) 	(y+3/4,3/8,y+1/2) 	(y+1/4,5/8,-y)"; "(y,-y+1/4,1/8) 	(-y+1/2,-y+3/4,7/8) 	(y+1/2,y+3/4,3/8) 	(-y,y+1/4,5/8)";
  "(5/8,-y+3/4,y+1/2) 	(7/8,y+1/4,y) 	(3/8,-y+1/4,-y) 	(1/8,y+3/4,-y+1/2)"; "(y+1/2,5/8,-y+3/4) 	(y,7/8,y+1/4) 	(-y,3/8,-y+1/4) 	(-y+1/2,1/8,y+3/4)"; "(-y+3/4,y+1/2,5/8) 	(y+1/4,y,7/8) 	(-y+1/4,-y,3/8) 	(y+3/4,-y+1/2,1/8)"; "96	f	2..";
  "(x,0,0) 	(-x,1/2,1/2) 	(0,x,0) 	(1/2,-x,1/2)"; "(0,0,x) 	(1/2,1/2,-x) 	(3/4,x+1/4,3/4) 	(1/4,-x+1/4,1/4)"; "(x+3/4,1/4,3/4) 	(-x+3/4,3/4,1/4) 	(3/4,1/4,-x+3/4) 	(1/4,3/4,x+3/4)"; "(-x+3/4,3/4,3/4) 	(x+3/4,1/4,1/4) 	(3/4,-x+3/4,3/4) 	(1/4,x+3/4,1/4)";
  "(3/4,3/4,-x+3/4) 	(1/4,1/4,x+3/4) 	(0,-x+1/2,0) 	(1/2,x+1/2,1/2)"; "(-x,1/2,0) 	(x,0,1/2) 	(0,1/2,x) 	(1/2,0,-x)"; "64	e	.3."; "(x,x,x) 	(-x,-x+1/2,x+1/2) 	(-x+1/2,x+1/2,-x) 	(x+1/2,-x,-x+1/2)";
  "(x+3/4,x+1/4,-x+3/4) 	(-x+1/4,-x+1/4,-x+1/4) 	(x+1/4,-x+3/4,x+3/4) 	(-x+3/4,x+3/4,x+1/4)"; "(-x+3/4,-x+3/4,-x+3/4) 	(x+3/4,x+1/4,-x+1/4) 	(x+1/4,-x+1/4,x+3/4) 	(-x+1/4,x+3/4,x+1/4)"; "(-x,-x+1/2,x) 	(x+1/2,x+1/2,x+1/2) 	(-x+1/2,x,-x) 	(x,-x,-x+1/2)"; "48	d	-4..";
  "(1/4,0,0) 	(3/4,1/2,1/2) 	(0,1/4,0) 	(1/2,3/4,1/2)"; "(0,0,1/4) 	(1/2,1/2,3/4) 	(3/4,1/2,3/4) 	(1/4,0,1/4)"; "(0,1/4,3/4) 	(1/2,3/4,1/4) 	(3/4,1/4,1/2) 	(1/4,3/4,0)"; "32	c	.-3.";
  "(3/8,3/8,3/8) 	(5/8,1/8,7/8) 	(1/8,7/8,5/8) 	(7/8,5/8,1/8)"; "(1/8,5/8,3/8) 	(7/8,7/8,7/8) 	(5/8,3/8,1/8) 	(3/8,1/8,5/8)"; "32	b	.32"; "(1/8,1/8,1/8) 	(7/8,3/8,5/8) 	(3/8,5/8,7/8) 	(5/8,7/8,3/8)";
  "(5/8,5/8,5/8) 	(7/8,3/8,1/8) 	(3/8,1/8,7/8) 	(1/8,7/8,3/8)"; "16	a	23."; "(0,0,0) 	(3/4,1/4,3/4) 	(3/4,3/4,3/4) 	(0,1/2,0)"; "";
  "228  2 15  1 24   F d -3 c"; "192	h	1"; "(x,y,z) 	(-x+1/4,-y+3/4,z+1/2) 	(-x+3/4,y+1/2,-z+1/4) 	(x+1/2,-y+1/4,-z+3/4)"; "(z,x,y) 	(z+1/2,-x+1/4,-y+3/4) 	(-z+1/4,-x+3/4,y+1/2) 	(-z+3/4,x+1/2,-y+1/4)";
  "(y,z,x) 	(-y+3/4,z+1/2,-x+1/4) 	(y+1/2,-z+1/4,-x+3/4) 	(-y+1/4,-z+3/4,x+1/2)"; "(y+3/4,x+1/4,-z) 	(-y+1/2,-x+1/2,-z+1/2) 	(y+1/4,-x,z+3/4) 	(-y,x+3/4,z+1/4)"; "(x+3/4,z+1/4,-y) 	(-x,z+3/4,y+1/4) 	(-x+1/2,-z+1/2,-y+1/2) 	(x+1/4,-z,y+3/4)"; "(z+3/4,y+1/4,-x) 	(z+1/4,-y,x+3/4) 	(-z,y+3/4,x+1/4) 	(-z+1/2,-y+1/2,-x+1/2)";
  "(-x,-y,-z) 	(x+3/4,y+1/4,-z+1/2) 	(x+1/4,-y+1/2,z+3/4) 	(-x+1/2,y+3/4,z+1/4)"; "(-z,-x,-y) 	(-z+1/2,x+3/4,y+1/4) 	(z+3/4,x+1/4,-y+1/2) 	(z+1/4,-x+1/2,y+3/4)"; "(-y,-z,-x) 	(y+1/4,-z+1/2,x+3/4) 	(-y+1/2,z+3/4,x+1/4) 	(y+3/4,z+1/4,-x+1/2)"; "(-y+1/4,-x+3/4,z) 	(y+1/2,x+1/2,z+1/2) 	(-y+3/4,x,-z+1/4) 	(y,-x+1/4,-z+3/4)";
  "(-x+1/4,-z+3/4,y) 	(x,-z+1/4,-y+3/4) 	(x+1/2,z+1/2,y+1/2) 	(-x+3/4,z,-y+1/4)"; "(-z+1/4,-y+3/4,x) 	(-z+3/4,y,-x+1/4) 	(z,-y+1/4,-x+3/4) 	(z+1/2,y+1/2,x+1/2)"; "96	g	..2"; "(1/4,y,-y) 	(0,-y+3/4,-y+1/2) 	(1/2,y+1/2,y+1/4) 	(3/4,-y+1/4,y+3/4)";
  "(-y,1/4,y) 	(-y+1/2,0,-y+3/4) 	(y+1/4,1/2,y+1/2) 	(y+3/4,3/4,-y+1/4)"; "(y,-y,1/4) 	(-y+3/4,-y+1/2,0) 	(y+1/2,y+1/4,1/2) 	(-y+1/4,y+3/4,3/4)"; "(3/4,-y,y) 	(0,y+1/4,y+1/2) 	(1/2,-y+1/2,-y+3/4) 	(1/4,y+3/4,-y+1/4)"; "(y,3/4,-y) 	(y+1/2,0,y+1/4) 	(-y+3/4,1/2,-y+1/2) 	(-y+1/4,1/4,y+3/4)";
  "(-y,y,3/4) 	(y+1/4,y+1/2,0) 	(-y+1/2,-y+3/4,1/2) 	(y+3/4,-y+1/4,1/4)"; "96	f	2.."; "(x,1/8,1/8) 	(-x+1/4,5/8,5/8) 	(1/8,x,1/8) 	(5/8,-x+1/4,5/8)"; "(1/8,1/8,x) 	(5/8,5/8,-x+1/4) 	(7/8,x+1/4,7/8) 	(3/8,-x+1/2,3/8)";
  "(x+3/4,3/8,7/8) 	(-x,7/8,3/8) 	(7/8,3/8,-x) 	(3/8,7/8,x+3/4)"; "(-x,7/8,7/8) 	(x+3/4,3/8,3/8) 	(7/8,-x,7/8) 	(3/8,x+3/4,3/8)"; "(7/8,7/8,-x) 	(3/8,3/8,x+3/4) 	(1/8,-x+3/4,1/8) 	(5/8,x+1/2,5/8)"; "(-x+1/4,5/8,1/8) 	(x,1/8,5/8) 	(1/8,5/8,x) 	(5/8,1/8,-x+1/4)";
  "64	e	.3."; "(x,x,x) 	(-x+1/4,-x+3/4,x+1/2) 	(-x+3/4,x+1/2,-x+1/4) 	(x+1/2,-x+1/4,-x+3/4)"; "(x+3/4,x+1/4,-x) 	(-x+1/2,-x+1/2,-x+1/2) 	(x+1/4,-x,x+3/4) 	(-x,x+3/4,x+1/4)"; "(-x,-x,-x) 	(x+3/4,x+1/4,-x+1/2) 	(x+1/4,-x+1/2,x+3/4) 	(-x+1/2,x+3/4,x+1/4)";
  "(-x+1/4,-x+3/4,x) 	(x+1/2,x+1/2,x+1/2) 	(-x+3/4,x,-x+1/4) 	(x,-x+1/4,-x+3/4)"; "48	d	-4.."; "(7/8,1/8,1/8) 	(3/8,5/8,5/8) 	(1/8,7/8,1/8) 	(5/8,3/8,5/8)"; "(1/8,1/8,7/8) 	(5/8,5/8,3/8) 	(7/8,1/8,7/8) 	(3/8,5/8,3/8)";
  "(5/8,3/8,7/8) 	(1/8,7/8,3/8) 	(7/8,3/8,1/8) 	(3/8,7/8,5/8)"; "32	c	.-3."; "(0,0,0) 	(1/4,3/4,1/2) 	(3/4,1/2,1/4) 	(1/2,1/4,3/4)"; "(3/4,1/4,0) 	(1/2,1/2,1/2) 	(1/4,0,3/4) 	(0,3/4,1/4)";
  "32	b	.32"; "(1/4,1/4,1/4) 	(0,1/2,3/4) 	(1/2,3/4,0) 	(3/4,0,1/2)"; "(3/4,3/4,3/4) 	(0,1/2,1/4) 	(1/2,1/4,0) 	(1/4,0,1/2)"; "16	a	23.";
  "(1/8,1/8,1/8) 	(7/8,3/8,7/8) 	(7/8,7/8,7/8) 	(1/8,5/8,1/8)"; ""; "229  1 15  1 24   I m -3 m"; "96	l	1";
  "(x,y,z) 	(-x,-y,z) 	(-x,y,-z) 	(x,-y,-z)"; "(z,x,y) 	(z,-x,-y) 	(-z,-x,y) 	(-z,x,-y)"; "(y,z,x) 	(-y,z,-x) 	(y,-z,-x) 	(-y,-z,x)"; "(y,x,-z) 	(-y,-x,-z) 	(y,-x,z) 	(-y,x,z)";
  "(x,z,-y) 	(-x,z,y) 	(-x,-z,-y) 	(x,-z,y)"; "(z,y,-x) 	(z,-y,x) 	(-z,y,x) 	(-z,-y,-x)"; "(-x,-y,-z) 	(x,y,-z) 	(x,-y,z) 	(-x,y,z)"; "(-z,-x,-y) 	(-z,x,y) 	(z,x,-y) 	(z,-x,y)";
  "(-y,-z,-x) 	(y,-z,x) 	(-y,z,x) 	(y,z,-x)"; "(-y,-x,z) 	(y,x,z) 	(-y,x,-z) 	(y,-x,-z)"; "(-x,-z,y) 	(x,-z,-y) 	(x,z,y) 	(-x,z,-y)"; "(-z,-y,x) 	(-z,y,-x) 	(z,-y,-x) 	(z,y,x)";
  "48	k	..m"; "(x,x,z) 	(-x,-x,z) 	(-x,x,-z) 	(x,-x,-z)"; "(z,x,x) 	(z,-x,-x) 	(-z,-x,x) 	(-z,x,-x)"; "(x,z,x) 	(-x,z,-x) 	(x,-z,-x) 	(-x,-z,x)";
  "(x,x,-z) 	(-x,-x,-z) 	(x,-x,z) 	(-x,x,z)"; "(x,z,-x) 	(-x,z,x) 	(-x,-z,-x) 	(x,-z,x)"; "(z,x,-x) 	(z,-x,x) 	(-z,x,x) 	(-z,-x,-x)"; "48	j	m..";
  "(0,y,z) 	(0,-y,z) 	(0,y,-z) 	(0,-y,-z)"; "(z,0,y) 	(z,0,-y) 	(-z,0,y) 	(-z,0,-y)"; "(y,z,0) 	(-y,z,0) 	(y,-z,0) 	(-y,-z,0)"; "(y,0,-z) 	(-y,0,-z) 	(y,0,z) 	(-y,0,z)";
  "(0,z,-y) 	(0,z,y) 	(0,-z,-y) 	(0,-z,y)"; "(z,y,0) 	(z,-y,0) 	(-z,y,0) 	(-z,-y,0)"; "48	i	..2"; "(1/4,y,-y+1/2) 	(3/4,-y,-y+1/2) 	(3/4,y,y+1/2) 	(1/4,-y,y+1/2)";
  "(-y+1/2,1/4,y) 	(-y+1/2,3/4,-y) 	(y+1/2,3/4,y) 	(y+1/2,1/4,-y)"; "(y,-y+1/2,1/4) 	(-y,-y+1/2,3/4) 	(y,y+1/2,3/4) 	(-y,y+1/2,1/4)"; "(3/4,-y,y+1/2) 	(1/4,y,y+1/2) 	(1/4,-y,-y+1/2) 	(3/4,y,-y+1/2)"; "(y+1/2,3/4,-y) 	(y+1/2,1/4,y) 	(-y+1/2,1/4,-y) 	(-y+1/2,3/4,y)";
  "(-y,y+1/2,3/4) 	(y,y+1/2,1/4) 	(-y,-y+1/2,1/4) 	(y,-y+1/2,3/4)"; "24	h	m.m 2"; "(0,y,y) 	(0,-y,y) 	(0,y,-y) 	(0,-y,-y)"; "(y,0,y) 	(y,0,-y) 	(-y,0,y) 	(-y,0,-y)";
  "(y,y,0) 	(-y,y,0) 	(y,-y,0) 	(-y,-y,0)"; "24	g	mm2 . ."; "(x,0,1/2) 	(-x,0,1/2) 	(1/2,x,0) 	(1/2,-x,0)"; "(0,1/2,x) 	(0,1/2,-x) 	(0,x,1/2) 	(0,-x,1/2)";
  "(x,1/2,0) 	(-x,1/2,0) 	(1/2,0,-x) 	(1/2,0,x)"; "16	f	.3m"; "(x,x,x) 	(-x,-x,x) 	(-x,x,-x) 	(x,-x,-x)"; "(x,x,-x) 	(-x,-x,-x) 	(x,-x,x) 	(-x,x,x)";
  "12	e	4m. m"; "(x,0,0) 	(-x,0,0) 	(0,x,0) 	(0,-x,0)"; "(0,0,x) 	(0,0,-x)"; "12	d	-4m. 2";
  "(1/4,0,1/2) 	(3/4,0,1/2) 	(1/2,1/4,0) 	(1/2,3/4,0)"; "(0,1/2,1/4) 	(0,1/2,3/4)"; "8	c	.-3m"; "(1/4,1/4,1/4) 	(3/4,3/4,1/4) 	(3/4,1/4,3/4) 	(1/4,3/4,3/4)";
  "6	b	4/mm. m"; "(0,1/2,1/2) 	(1/2,0,1/2) 	(1/2,1/2,0)"; "2	a	m-3m"; "(0,0,0)";
  ""; "230  1 15  1 24   I a -3 d"; "96	h	1"; "(x,y,z) 	(-x+1/2,-y,z+1/2) 	(-x,y+1/2,-z+1/2) 	(x+1/2,-y+1/2,-z)";
  "(z,x,y) 	(z+1/2,-x+1/2,-y) 	(-z+1/2,-x,y+1/2) 	(-z,x+1/2,-y+1/2)"; "(y,z,x) 	(-y,z+1/2,-x+1/2) 	(y+1/2,-z+1/2,-x) 	(-y+1/2,-z,x+1/2)"; "(y+3/4,x+1/4,-z+1/4) 	(-y+3/4,-x+3/4,-z+3/4) 	(y+1/4,-x+1/4,z+3/4) 	(-y+1/4,x+3/4,z+1/4)"; "(x+3/4,z+1/4,-y+1/4) 	(-x+1/4,z+3/4,y+1/4) 	(-x+3/4,-z+3/4,-y+3/4) 	(x+1/4,-z+1/4,y+3/4)";
  "(z+3/4,y+1/4,-x+1/4) 	(z+1/4,-y+1/4,x+3/4) 	(-z+1/4,y+3/4,x+1/4) 	(-z+3/4,-y+3/4,-x+3/4)"; "(-x,-y,-z) 	(x+1/2,y,-z+1/2) 	(x,-y+1/2,z+1/2) 	(-x+1/2,y+1/2,z)"; "(-z,-x,-y) 	(-z+1/2,x+1/2,y) 	(z+1/2,x,-y+1/2) 	(z,-x+1/2,y+1/2)"; "(-y,-z,-x) 	(y,-z+1/2,x+1/2) 	(-y+1/2,z+1/2,x) 	(y+1/2,z,-x+1/2)";
  "(-y+1/4,-x+3/4,z+3/4) 	(y+1/4,x+1/4,z+1/4) 	(-y+3/4,x+3/4,-z+1/4) 	(y+3/4,-x+1/4,-z+3/4)"; "(-x+1/4,-z+3/4,y+3/4) 	(x+3/4,-z+1/4,-y+3/4) 	(x+1/4,z+1/4,y+1/4) 	(-x+3/4,z+3/4,-y+1/4)"; "(-z+1/4,-y+3/4,x+3/4) 	(-z+3/4,y+3/4,-x+1/4) 	(z+3/4,-y+1/4,-x+3/4) 	(z+1/4,y+1/4,x+1/4)"; "48	g	..2";
  "(1/8,y,-y+1/4) 	(3/8,-y,-y+3/4) 	(7/8,y+1/2,y+1/4) 	(5/8,-y+1/2,y+3/4)"; "(-y+1/4,1/8,y) 	(-y+3/4,3/8,-y) 	(y+1/4,7/8,y+1/2) 	(y+3/4,5/8,-y+1/2)"; "(y,-y+1/4,1/8) 	(-y,-y+3/4,3/8) 	(y+1/2,y+1/4,7/8) 	(-y+1/2,y+3/4,5/8)"; "(7/8,-y,y+3/4) 	(5/8,y,y+1/4) 	(1/8,-y+1/2,-y+3/4) 	(3/8,y+1/2,-y+1/4)";
  "(y+3/4,7/8,-y) 	(y+1/4,5/8,y) 	(-y+3/4,1/8,-y+1/2) 	(-y+1/4,3/8,y+1/2)"; "(-y,y+3/4,7/8) 	(y,y+1/4,5/8) 	(-y+1/2,-y+3/4,1/8) 	(y+1/2,-y+1/4,3/8)"; "48	f	2.."; "(x,0,1/4) 	(-x+1/2,0,3/4) 	(1/4,x,0) 	(3/4,-x+1/2,0)";
  "(0,1/4,x) 	(0,3/4,-x+1/2) 	(3/4,x+1/4,0) 	(3/4,-x+3/4,1/2)"; "(x+3/4,1/2,1/4) 	(-x+1/4,0,1/4) 	(0,1/4,-x+1/4) 	(1/2,1/4,x+3/4)"; "(-x,0,3/4) 	(x+1/2,0,1/4) 	(3/4,-x,0) 	(1/4,x+1/2,0)"; "(0,3/4,-x) 	(0,1/4,x+1/2) 	(1/4,-x+3/4,0) 	(1/4,x+1/4,1/2)";
  "(-x+1/4,1/2,3/4) 	(x+3/4,0,3/4) 	(0,3/4,x+3/4) 	(1/2,3/4,-x+1/4)"; "32	e	.3."; "(x,x,x) 	(-x+1/2,-x,x+1/2) 	(-x,x+1/2,-x+1/2) 	(x+1/2,-x+1/2,-x)"; "(x+3/4,x+1/4,-x+1/4) 	(-x+3/4,-x+3/4,-x+3/4) 	(x+1/4,-x+1/4,x+3/4) 	(-x+1/4,x+3/4,x+1/4)";
  "(-x,-x,-x) 	(x+1/2,x,-x+1/2) 	(x,-x+1/2,x+1/2) 	(-x+1/2,x+1/2,x)"; "(-x+1/4,-x+3/4,x+3/4) 	(x+1/4,x+1/4,x+1/4) 	(-x+3/4,x+3/4,-x+1/4) 	(x+3/4,-x+1/4,-x+3/4)"; "24	d	-4.."; "(3/8,0,1/4) 	(1/8,0,3/4) 	(1/4,3/8,0) 	(3/4,1/8,0)";
  "(0,1/4,3/8) 	(0,3/4,1/8) 	(3/4,5/8,0) 	(3/4,3/8,1/2)"; "(1/8,1/2,1/4) 	(7/8,0,1/4) 	(0,1/4,7/8) 	(1/2,1/4,1/8)"; "24	c	2.2 2"; "(1/8,0,1/4) 	(3/8,0,3/4) 	(1/4,1/8,0) 	(3/4,3/8,0)";
  "(0,1/4,1/8) 	(0,3/4,3/8) 	(7/8,0,3/4) 	(5/8,0,1/4)"; "(3/4,7/8,0) 	(1/4,5/8,0) 	(0,3/4,7/8) 	(0,1/4,5/8)"; "16	b	.32"; "(1/8,1/8,1/8) 	(3/8,7/8,5/8) 	(7/8,5/8,3/8) 	(5/8,3/8,7/8)";
  "(7/8,7/8,7/8) 	(5/8,1/8,3/8) 	(1/8,3/8,5/8) 	(3/8,5/8,1/8)"; "16	a	.-3."; "(0,0,0) 	(1/2,0,1/2) 	(0,1/2,1/2) 	(1/2,1/2,0)"; "(3/4,1/4,1/4) 	(3/4,3/4,3/4) 	(1/4,1/4,3/4) 	(1/4,3/4,1/4) ";
  "" ].
