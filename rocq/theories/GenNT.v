(* GENERATED by tools/ragel2coq.py from /repo/nontransparent/parser.go lines 33-163. Do not edit. *)
(* One entry per Go label, in source order; the comment gives the line of the label. *)
From Coq Require Import List NArith.
From Verif Require Import GotoLang NonTransparentBaseDef.
Import ListNotations. Local Open Scope N_scope.

(* /repo/nontransparent/parser.go *)
Definition progNT_0 : list (label * code act cnd) := [
  (* parser.go:34 entry *) (LEntry, (KIf CPe (KGoto LEof KNil) KNil (KBlk (KIf (CCs [1]) (KGoto (LCase 1) KNil) (KIf (CCs [0]) (KGoto (LCase 0) KNil) (KIf (CCs [2]) (KGoto (LCase 2) KNil) (KIf (CCs [3]) (KGoto (LCase 3) KNil) KNil KNil) KNil) KNil) KNil) (KGoto LStOut KNil))));
  (* parser.go:48 stCase1 *) ((LCase 1), (KIf (CByte OEq 60) (KGoto (LTr 0) KNil) KNil (KGoto (LSt 0) KNil)));
  (* parser.go:53 stCase0 *) ((LCase 0), KNil);
  (* parser.go:54 st0 *) ((LSt 0), (KCs 0 (KGoto LOut KNil)));
  (* parser.go:57 tr0 *) ((LTr 0), (KIf (CExt CHasCandidate) (KAct NProcess KNil) KNil (KAct NCandReset (KGoto (LSt 2) KNil))));
  (* parser.go:65 st2 *) ((LSt 2), (KInc (KIf CPe (KGoto (LEofN 2) KNil) KNil KNil)));
  (* parser.go:69 stCase2 *) ((LCase 2), (KWide 0 (KBlk (KIf (CByte OGt 0) (KIf (CAnd (CByte OGe 10) (CByte OLe 10)) (KWide 256 (KIf (CExt CIsLF) (KWideAdd 256 KNil) KNil KNil)) KNil KNil) (KWide 768 (KIf (CExt CIsNUL) (KWideAdd 256 KNil) KNil KNil)) KNil) (KBlk (KIf (CWide OEq 266) (KGoto (LSt 2) KNil) (KIf (CWide OEq 522) (KGoto (LTr 3) KNil) (KIf (CWide OEq 768) (KGoto (LSt 2) KNil) (KIf (CWide OEq 1024) (KGoto (LTr 3) KNil) KNil KNil) KNil) KNil) KNil) (KBlk (KIf (CWide OGt 9) (KIf (CWide OGe 11) (KGoto (LSt 2) KNil) KNil KNil) (KIf (CWide OGe 1) (KGoto (LSt 2) KNil) KNil KNil) KNil) (KGoto (LSt 0) KNil))))));
  (* parser.go:104 tr3 *) ((LTr 3), (KAct NCandAppend (KGoto (LSt 3) KNil)));
  (* parser.go:109 st3 *) ((LSt 3), (KInc (KIf CPe (KGoto (LEofN 3) KNil) KNil KNil)));
  (* parser.go:113 stCase3 *) ((LCase 3), (KWide 0 (KBlk (KIf (CByte OGt 0) (KIf (CAnd (CByte OGe 10) (CByte OLe 10)) (KWide 256 (KIf (CExt CIsLF) (KWideAdd 256 KNil) KNil KNil)) KNil KNil) (KWide 768 (KIf (CExt CIsNUL) (KWideAdd 256 KNil) KNil KNil)) KNil) (KBlk (KIf (CWide OEq 60) (KGoto (LTr 0) KNil) (KIf (CWide OEq 266) (KGoto (LSt 2) KNil) (KIf (CWide OEq 522) (KGoto (LTr 3) KNil) (KIf (CWide OEq 768) (KGoto (LSt 2) KNil) (KIf (CWide OEq 1024) (KGoto (LTr 3) KNil) KNil KNil) KNil) KNil) KNil) KNil) (KBlk (KIf (CWide OGt 9) (KIf (CWide OGe 11) (KGoto (LSt 2) KNil) KNil KNil) (KIf (CWide OGe 1) (KGoto (LSt 2) KNil) KNil KNil) KNil) (KGoto (LSt 0) KNil))))));
  (* parser.go:150 stOut *) (LStOut, KNil);
  (* parser.go:151 _testEof2 *) ((LEofN 2), (KCs 2 (KGoto LEof KNil)));
  (* parser.go:154 _testEof3 *) ((LEofN 3), (KCs 3 (KGoto LEof KNil)));
  (* parser.go:158 _testEof *) (LEof, KNil);
  (* parser.go:161 _out *) (LOut, KNil)
].

(* /repo/nontransparent/parser.go lines 33-163: all blocks in source order *)
Definition progNT : list (label * code act cnd) :=
  progNT_0.
