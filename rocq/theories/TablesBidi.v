(** GENERATED by tools/gen_tables.py from the .rsv tables of /repo.  Do not edit. *)
From Coq Require Import List NArith.
From Verif Require Import Base RangeModel TableModel Enums TableTypes.
Import ListNotations.
Open Scope N_scope.
Local Notation R := mkRange.

(** unic/ucd/bidi/tables/bidi_class.rsv:1-1298 (1294 entries) *)
Definition BIDI_CLASS_TABLE_0 : list (CharRange * BidiClass) := [
  (R 0x0 0x8, BC_BoundaryNeutral);
  (R 0x9 0x9, BC_SegmentSeparator);
  (R 0xa 0xa, BC_ParagraphSeparator);
  (R 0xb 0xb, BC_SegmentSeparator);
  (R 0xc 0xc, BC_WhiteSpace);
  (R 0xd 0xd, BC_ParagraphSeparator);
  (R 0xe 0x1b, BC_BoundaryNeutral);
  (R 0x1c 0x1e, BC_ParagraphSeparator);
  (R 0x1f 0x1f, BC_SegmentSeparator);
  (R 0x20 0x20, BC_WhiteSpace);
  (R 0x21 0x22, BC_OtherNeutral);
  (R 0x23 0x25, BC_EuropeanTerminator);
  (R 0x26 0x2a, BC_OtherNeutral);
  (R 0x2b 0x2b, BC_EuropeanSeparator);
  (R 0x2c 0x2c, BC_CommonSeparator);
  (R 0x2d 0x2d, BC_EuropeanSeparator);
  (R 0x2e 0x2f, BC_CommonSeparator);
  (R 0x30 0x39, BC_EuropeanNumber);
  (R 0x3a 0x3a, BC_CommonSeparator);
  (R 0x3b 0x40, BC_OtherNeutral);
  (R 0x41 0x5a, BC_LeftToRight);
  (R 0x5b 0x60, BC_OtherNeutral);
  (R 0x61 0x7a, BC_LeftToRight);
  (R 0x7b 0x7e, BC_OtherNeutral);
  (R 0x7f 0x84, BC_BoundaryNeutral);
  (R 0x85 0x85, BC_ParagraphSeparator);
  (R 0x86 0x9f, BC_BoundaryNeutral);
  (R 0xa0 0xa0, BC_CommonSeparator);
  (R 0xa1 0xa1, BC_OtherNeutral);
  (R 0xa2 0xa5, BC_EuropeanTerminator);
  (R 0xa6 0xa9, BC_OtherNeutral);
  (R 0xaa 0xaa, BC_LeftToRight);
  (R 0xab 0xac, BC_OtherNeutral);
  (R 0xad 0xad, BC_BoundaryNeutral);
  (R 0xae 0xaf, BC_OtherNeutral);
  (R 0xb0 0xb1, BC_EuropeanTerminator);
  (R 0xb2 0xb3, BC_EuropeanNumber);
  (R 0xb4 0xb4, BC_OtherNeutral);
  (R 0xb5 0xb5, BC_LeftToRight);
  (R 0xb6 0xb8, BC_OtherNeutral);
  (R 0xb9 0xb9, BC_EuropeanNumber);
  (R 0xba 0xba, BC_LeftToRight);
  (R 0xbb 0xbf, BC_OtherNeutral);
  (R 0xc0 0xd6, BC_LeftToRight);
  (R 0xd7 0xd7, BC_OtherNeutral);
  (R 0xd8 0xf6, BC_LeftToRight);
  (R 0xf7 0xf7, BC_OtherNeutral);
  (R 0xf8 0x2b8, BC_LeftToRight);
  (R 0x2b9 0x2ba, BC_OtherNeutral);
  (R 0x2bb 0x2c1, BC_LeftToRight);
  (R 0x2c2 0x2cf, BC_OtherNeutral);
  (R 0x2d0 0x2d1, BC_LeftToRight);
  (R 0x2d2 0x2df, BC_OtherNeutral);
  (R 0x2e0 0x2e4, BC_LeftToRight);
  (R 0x2e5 0x2ed, BC_OtherNeutral);
  (R 0x2ee 0x2ee, BC_LeftToRight);
  (R 0x2ef 0x2ff, BC_OtherNeutral);
  (R 0x300 0x36f, BC_NonspacingMark);
  (R 0x370 0x373, BC_LeftToRight);
  (R 0x374 0x375, BC_OtherNeutral);
  (R 0x376 0x377, BC_LeftToRight);
  (R 0x37a 0x37d, BC_LeftToRight);
  (R 0x37e 0x37e, BC_OtherNeutral);
  (R 0x37f 0x37f, BC_LeftToRight);
  (R 0x384 0x385, BC_OtherNeutral);
  (R 0x386 0x386, BC_LeftToRight);
  (R 0x387 0x387, BC_OtherNeutral);
  (R 0x388 0x38a, BC_LeftToRight);
  (R 0x38c 0x38c, BC_LeftToRight);
  (R 0x38e 0x3a1, BC_LeftToRight);
  (R 0x3a3 0x3f5, BC_LeftToRight);
  (R 0x3f6 0x3f6, BC_OtherNeutral);
  (R 0x3f7 0x482, BC_LeftToRight);
  (R 0x483 0x489, BC_NonspacingMark);
  (R 0x48a 0x52f, BC_LeftToRight);
  (R 0x531 0x556, BC_LeftToRight);
  (R 0x559 0x55f, BC_LeftToRight);
  (R 0x561 0x587, BC_LeftToRight);
  (R 0x589 0x589, BC_LeftToRight);
  (R 0x58a 0x58a, BC_OtherNeutral);
  (R 0x58d 0x58e, BC_OtherNeutral);
  (R 0x58f 0x58f, BC_EuropeanTerminator);
  (R 0x590 0x590, BC_RightToLeft);
  (R 0x591 0x5bd, BC_NonspacingMark);
  (R 0x5be 0x5be, BC_RightToLeft);
  (R 0x5bf 0x5bf, BC_NonspacingMark);
  (R 0x5c0 0x5c0, BC_RightToLeft);
  (R 0x5c1 0x5c2, BC_NonspacingMark);
  (R 0x5c3 0x5c3, BC_RightToLeft);
  (R 0x5c4 0x5c5, BC_NonspacingMark);
  (R 0x5c6 0x5c6, BC_RightToLeft);
  (R 0x5c7 0x5c7, BC_NonspacingMark);
  (R 0x5c8 0x5ff, BC_RightToLeft);
  (R 0x600 0x605, BC_ArabicNumber);
  (R 0x606 0x607, BC_OtherNeutral);
  (R 0x608 0x608, BC_ArabicLetter);
  (R 0x609 0x60a, BC_EuropeanTerminator);
  (R 0x60b 0x60b, BC_ArabicLetter);
  (R 0x60c 0x60c, BC_CommonSeparator);
  (R 0x60d 0x60d, BC_ArabicLetter);
  (R 0x60e 0x60f, BC_OtherNeutral);
  (R 0x610 0x61a, BC_NonspacingMark);
  (R 0x61b 0x64a, BC_ArabicLetter);
  (R 0x64b 0x65f, BC_NonspacingMark);
  (R 0x660 0x669, BC_ArabicNumber);
  (R 0x66a 0x66a, BC_EuropeanTerminator);
  (R 0x66b 0x66c, BC_ArabicNumber);
  (R 0x66d 0x66f, BC_ArabicLetter);
  (R 0x670 0x670, BC_NonspacingMark);
  (R 0x671 0x6d5, BC_ArabicLetter);
  (R 0x6d6 0x6dc, BC_NonspacingMark);
  (R 0x6dd 0x6dd, BC_ArabicNumber);
  (R 0x6de 0x6de, BC_OtherNeutral);
  (R 0x6df 0x6e4, BC_NonspacingMark);
  (R 0x6e5 0x6e6, BC_ArabicLetter);
  (R 0x6e7 0x6e8, BC_NonspacingMark);
  (R 0x6e9 0x6e9, BC_OtherNeutral);
  (R 0x6ea 0x6ed, BC_NonspacingMark);
  (R 0x6ee 0x6ef, BC_ArabicLetter);
  (R 0x6f0 0x6f9, BC_EuropeanNumber);
  (R 0x6fa 0x710, BC_ArabicLetter);
  (R 0x711 0x711, BC_NonspacingMark);
  (R 0x712 0x72f, BC_ArabicLetter);
  (R 0x730 0x74a, BC_NonspacingMark);
  (R 0x74b 0x7a5, BC_ArabicLetter);
  (R 0x7a6 0x7b0, BC_NonspacingMark);
  (R 0x7b1 0x7bf, BC_ArabicLetter);
  (R 0x7c0 0x7ea, BC_RightToLeft);
  (R 0x7eb 0x7f3, BC_NonspacingMark);
  (R 0x7f4 0x7f5, BC_RightToLeft);
  (R 0x7f6 0x7f9, BC_OtherNeutral);
  (R 0x7fa 0x815, BC_RightToLeft);
  (R 0x816 0x819, BC_NonspacingMark);
  (R 0x81a 0x81a, BC_RightToLeft);
  (R 0x81b 0x823, BC_NonspacingMark);
  (R 0x824 0x824, BC_RightToLeft);
  (R 0x825 0x827, BC_NonspacingMark);
  (R 0x828 0x828, BC_RightToLeft);
  (R 0x829 0x82d, BC_NonspacingMark);
  (R 0x82e 0x858, BC_RightToLeft);
  (R 0x859 0x85b, BC_NonspacingMark);
  (R 0x85c 0x85f, BC_RightToLeft);
  (R 0x860 0x86a, BC_ArabicLetter);
  (R 0x86b 0x89f, BC_RightToLeft);
  (R 0x8a0 0x8d3, BC_ArabicLetter);
  (R 0x8d4 0x8e1, BC_NonspacingMark);
  (R 0x8e2 0x8e2, BC_ArabicNumber);
  (R 0x8e3 0x902, BC_NonspacingMark);
  (R 0x903 0x939, BC_LeftToRight);
  (R 0x93a 0x93a, BC_NonspacingMark);
  (R 0x93b 0x93b, BC_LeftToRight);
  (R 0x93c 0x93c, BC_NonspacingMark);
  (R 0x93d 0x940, BC_LeftToRight);
  (R 0x941 0x948, BC_NonspacingMark);
  (R 0x949 0x94c, BC_LeftToRight);
  (R 0x94d 0x94d, BC_NonspacingMark);
  (R 0x94e 0x950, BC_LeftToRight);
  (R 0x951 0x957, BC_NonspacingMark);
  (R 0x958 0x961, BC_LeftToRight);
  (R 0x962 0x963, BC_NonspacingMark);
  (R 0x964 0x980, BC_LeftToRight);
  (R 0x981 0x981, BC_NonspacingMark);
  (R 0x982 0x983, BC_LeftToRight);
  (R 0x985 0x98c, BC_LeftToRight);
  (R 0x98f 0x990, BC_LeftToRight);
  (R 0x993 0x9a8, BC_LeftToRight);
  (R 0x9aa 0x9b0, BC_LeftToRight);
  (R 0x9b2 0x9b2, BC_LeftToRight);
  (R 0x9b6 0x9b9, BC_LeftToRight);
  (R 0x9bc 0x9bc, BC_NonspacingMark);
  (R 0x9bd 0x9c0, BC_LeftToRight);
  (R 0x9c1 0x9c4, BC_NonspacingMark);
  (R 0x9c7 0x9c8, BC_LeftToRight);
  (R 0x9cb 0x9cc, BC_LeftToRight);
  (R 0x9cd 0x9cd, BC_NonspacingMark);
  (R 0x9ce 0x9ce, BC_LeftToRight);
  (R 0x9d7 0x9d7, BC_LeftToRight);
  (R 0x9dc 0x9dd, BC_LeftToRight);
  (R 0x9df 0x9e1, BC_LeftToRight);
  (R 0x9e2 0x9e3, BC_NonspacingMark);
  (R 0x9e6 0x9f1, BC_LeftToRight);
  (R 0x9f2 0x9f3, BC_EuropeanTerminator);
  (R 0x9f4 0x9fa, BC_LeftToRight);
  (R 0x9fb 0x9fb, BC_EuropeanTerminator);
  (R 0x9fc 0x9fd, BC_LeftToRight);
  (R 0xa01 0xa02, BC_NonspacingMark);
  (R 0xa03 0xa03, BC_LeftToRight);
  (R 0xa05 0xa0a, BC_LeftToRight);
  (R 0xa0f 0xa10, BC_LeftToRight);
  (R 0xa13 0xa28, BC_LeftToRight);
  (R 0xa2a 0xa30, BC_LeftToRight);
  (R 0xa32 0xa33, BC_LeftToRight);
  (R 0xa35 0xa36, BC_LeftToRight);
  (R 0xa38 0xa39, BC_LeftToRight);
  (R 0xa3c 0xa3c, BC_NonspacingMark);
  (R 0xa3e 0xa40, BC_LeftToRight);
  (R 0xa41 0xa42, BC_NonspacingMark);
  (R 0xa47 0xa48, BC_NonspacingMark);
  (R 0xa4b 0xa4d, BC_NonspacingMark);
  (R 0xa51 0xa51, BC_NonspacingMark);
  (R 0xa59 0xa5c, BC_LeftToRight);
  (R 0xa5e 0xa5e, BC_LeftToRight);
  (R 0xa66 0xa6f, BC_LeftToRight);
  (R 0xa70 0xa71, BC_NonspacingMark);
  (R 0xa72 0xa74, BC_LeftToRight);
  (R 0xa75 0xa75, BC_NonspacingMark);
  (R 0xa81 0xa82, BC_NonspacingMark);
  (R 0xa83 0xa83, BC_LeftToRight);
  (R 0xa85 0xa8d, BC_LeftToRight);
  (R 0xa8f 0xa91, BC_LeftToRight);
  (R 0xa93 0xaa8, BC_LeftToRight);
  (R 0xaaa 0xab0, BC_LeftToRight);
  (R 0xab2 0xab3, BC_LeftToRight);
  (R 0xab5 0xab9, BC_LeftToRight);
  (R 0xabc 0xabc, BC_NonspacingMark);
  (R 0xabd 0xac0, BC_LeftToRight);
  (R 0xac1 0xac5, BC_NonspacingMark);
  (R 0xac7 0xac8, BC_NonspacingMark);
  (R 0xac9 0xac9, BC_LeftToRight);
  (R 0xacb 0xacc, BC_LeftToRight);
  (R 0xacd 0xacd, BC_NonspacingMark);
  (R 0xad0 0xad0, BC_LeftToRight);
  (R 0xae0 0xae1, BC_LeftToRight);
  (R 0xae2 0xae3, BC_NonspacingMark);
  (R 0xae6 0xaf0, BC_LeftToRight);
  (R 0xaf1 0xaf1, BC_EuropeanTerminator);
  (R 0xaf9 0xaf9, BC_LeftToRight);
  (R 0xafa 0xaff, BC_NonspacingMark);
  (R 0xb01 0xb01, BC_NonspacingMark);
  (R 0xb02 0xb03, BC_LeftToRight);
  (R 0xb05 0xb0c, BC_LeftToRight);
  (R 0xb0f 0xb10, BC_LeftToRight);
  (R 0xb13 0xb28, BC_LeftToRight);
  (R 0xb2a 0xb30, BC_LeftToRight);
  (R 0xb32 0xb33, BC_LeftToRight);
  (R 0xb35 0xb39, BC_LeftToRight);
  (R 0xb3c 0xb3c, BC_NonspacingMark);
  (R 0xb3d 0xb3e, BC_LeftToRight);
  (R 0xb3f 0xb3f, BC_NonspacingMark);
  (R 0xb40 0xb40, BC_LeftToRight);
  (R 0xb41 0xb44, BC_NonspacingMark);
  (R 0xb47 0xb48, BC_LeftToRight);
  (R 0xb4b 0xb4c, BC_LeftToRight);
  (R 0xb4d 0xb4d, BC_NonspacingMark);
  (R 0xb56 0xb56, BC_NonspacingMark);
  (R 0xb57 0xb57, BC_LeftToRight);
  (R 0xb5c 0xb5d, BC_LeftToRight);
  (R 0xb5f 0xb61, BC_LeftToRight);
  (R 0xb62 0xb63, BC_NonspacingMark);
  (R 0xb66 0xb77, BC_LeftToRight);
  (R 0xb82 0xb82, BC_NonspacingMark);
  (R 0xb83 0xb83, BC_LeftToRight);
  (R 0xb85 0xb8a, BC_LeftToRight);
  (R 0xb8e 0xb90, BC_LeftToRight);
  (R 0xb92 0xb95, BC_LeftToRight);
  (R 0xb99 0xb9a, BC_LeftToRight);
  (R 0xb9c 0xb9c, BC_LeftToRight);
  (R 0xb9e 0xb9f, BC_LeftToRight);
  (R 0xba3 0xba4, BC_LeftToRight);
  (R 0xba8 0xbaa, BC_LeftToRight);
  (R 0xbae 0xbb9, BC_LeftToRight);
  (R 0xbbe 0xbbf, BC_LeftToRight);
  (R 0xbc0 0xbc0, BC_NonspacingMark);
  (R 0xbc1 0xbc2, BC_LeftToRight);
  (R 0xbc6 0xbc8, BC_LeftToRight);
  (R 0xbca 0xbcc, BC_LeftToRight);
  (R 0xbcd 0xbcd, BC_NonspacingMark);
  (R 0xbd0 0xbd0, BC_LeftToRight);
  (R 0xbd7 0xbd7, BC_LeftToRight);
  (R 0xbe6 0xbf2, BC_LeftToRight);
  (R 0xbf3 0xbf8, BC_OtherNeutral);
  (R 0xbf9 0xbf9, BC_EuropeanTerminator);
  (R 0xbfa 0xbfa, BC_OtherNeutral);
  (R 0xc00 0xc00, BC_NonspacingMark);
  (R 0xc01 0xc03, BC_LeftToRight);
  (R 0xc05 0xc0c, BC_LeftToRight);
  (R 0xc0e 0xc10, BC_LeftToRight);
  (R 0xc12 0xc28, BC_LeftToRight);
  (R 0xc2a 0xc39, BC_LeftToRight);
  (R 0xc3d 0xc3d, BC_LeftToRight);
  (R 0xc3e 0xc40, BC_NonspacingMark);
  (R 0xc41 0xc44, BC_LeftToRight);
  (R 0xc46 0xc48, BC_NonspacingMark);
  (R 0xc4a 0xc4d, BC_NonspacingMark);
  (R 0xc55 0xc56, BC_NonspacingMark);
  (R 0xc58 0xc5a, BC_LeftToRight);
  (R 0xc60 0xc61, BC_LeftToRight);
  (R 0xc62 0xc63, BC_NonspacingMark);
  (R 0xc66 0xc6f, BC_LeftToRight);
  (R 0xc78 0xc7e, BC_OtherNeutral);
  (R 0xc7f 0xc80, BC_LeftToRight);
  (R 0xc81 0xc81, BC_NonspacingMark);
  (R 0xc82 0xc83, BC_LeftToRight);
  (R 0xc85 0xc8c, BC_LeftToRight);
  (R 0xc8e 0xc90, BC_LeftToRight);
  (R 0xc92 0xca8, BC_LeftToRight);
  (R 0xcaa 0xcb3, BC_LeftToRight);
  (R 0xcb5 0xcb9, BC_LeftToRight);
  (R 0xcbc 0xcbc, BC_NonspacingMark);
  (R 0xcbd 0xcc4, BC_LeftToRight);
  (R 0xcc6 0xcc8, BC_LeftToRight);
  (R 0xcca 0xccb, BC_LeftToRight);
  (R 0xccc 0xccd, BC_NonspacingMark);
  (R 0xcd5 0xcd6, BC_LeftToRight);
  (R 0xcde 0xcde, BC_LeftToRight);
  (R 0xce0 0xce1, BC_LeftToRight);
  (R 0xce2 0xce3, BC_NonspacingMark);
  (R 0xce6 0xcef, BC_LeftToRight);
  (R 0xcf1 0xcf2, BC_LeftToRight);
  (R 0xd00 0xd01, BC_NonspacingMark);
  (R 0xd02 0xd03, BC_LeftToRight);
  (R 0xd05 0xd0c, BC_LeftToRight);
  (R 0xd0e 0xd10, BC_LeftToRight);
  (R 0xd12 0xd3a, BC_LeftToRight);
  (R 0xd3b 0xd3c, BC_NonspacingMark);
  (R 0xd3d 0xd40, BC_LeftToRight);
  (R 0xd41 0xd44, BC_NonspacingMark);
  (R 0xd46 0xd48, BC_LeftToRight);
  (R 0xd4a 0xd4c, BC_LeftToRight);
  (R 0xd4d 0xd4d, BC_NonspacingMark);
  (R 0xd4e 0xd4f, BC_LeftToRight);
  (R 0xd54 0xd61, BC_LeftToRight);
  (R 0xd62 0xd63, BC_NonspacingMark);
  (R 0xd66 0xd7f, BC_LeftToRight);
  (R 0xd82 0xd83, BC_LeftToRight);
  (R 0xd85 0xd96, BC_LeftToRight);
  (R 0xd9a 0xdb1, BC_LeftToRight);
  (R 0xdb3 0xdbb, BC_LeftToRight);
  (R 0xdbd 0xdbd, BC_LeftToRight);
  (R 0xdc0 0xdc6, BC_LeftToRight);
  (R 0xdca 0xdca, BC_NonspacingMark);
  (R 0xdcf 0xdd1, BC_LeftToRight);
  (R 0xdd2 0xdd4, BC_NonspacingMark);
  (R 0xdd6 0xdd6, BC_NonspacingMark);
  (R 0xdd8 0xddf, BC_LeftToRight);
  (R 0xde6 0xdef, BC_LeftToRight);
  (R 0xdf2 0xdf4, BC_LeftToRight);
  (R 0xe01 0xe30, BC_LeftToRight);
  (R 0xe31 0xe31, BC_NonspacingMark);
  (R 0xe32 0xe33, BC_LeftToRight);
  (R 0xe34 0xe3a, BC_NonspacingMark);
  (R 0xe3f 0xe3f, BC_EuropeanTerminator);
  (R 0xe40 0xe46, BC_LeftToRight);
  (R 0xe47 0xe4e, BC_NonspacingMark);
  (R 0xe4f 0xe5b, BC_LeftToRight);
  (R 0xe81 0xe82, BC_LeftToRight);
  (R 0xe84 0xe84, BC_LeftToRight);
  (R 0xe87 0xe88, BC_LeftToRight);
  (R 0xe8a 0xe8a, BC_LeftToRight);
  (R 0xe8d 0xe8d, BC_LeftToRight);
  (R 0xe94 0xe97, BC_LeftToRight);
  (R 0xe99 0xe9f, BC_LeftToRight);
  (R 0xea1 0xea3, BC_LeftToRight);
  (R 0xea5 0xea5, BC_LeftToRight);
  (R 0xea7 0xea7, BC_LeftToRight);
  (R 0xeaa 0xeab, BC_LeftToRight);
  (R 0xead 0xeb0, BC_LeftToRight);
  (R 0xeb1 0xeb1, BC_NonspacingMark);
  (R 0xeb2 0xeb3, BC_LeftToRight);
  (R 0xeb4 0xeb9, BC_NonspacingMark);
  (R 0xebb 0xebc, BC_NonspacingMark);
  (R 0xebd 0xebd, BC_LeftToRight);
  (R 0xec0 0xec4, BC_LeftToRight);
  (R 0xec6 0xec6, BC_LeftToRight);
  (R 0xec8 0xecd, BC_NonspacingMark);
  (R 0xed0 0xed9, BC_LeftToRight);
  (R 0xedc 0xedf, BC_LeftToRight);
  (R 0xf00 0xf17, BC_LeftToRight);
  (R 0xf18 0xf19, BC_NonspacingMark);
  (R 0xf1a 0xf34, BC_LeftToRight);
  (R 0xf35 0xf35, BC_NonspacingMark);
  (R 0xf36 0xf36, BC_LeftToRight);
  (R 0xf37 0xf37, BC_NonspacingMark);
  (R 0xf38 0xf38, BC_LeftToRight);
  (R 0xf39 0xf39, BC_NonspacingMark);
  (R 0xf3a 0xf3d, BC_OtherNeutral);
  (R 0xf3e 0xf47, BC_LeftToRight);
  (R 0xf49 0xf6c, BC_LeftToRight);
  (R 0xf71 0xf7e, BC_NonspacingMark);
  (R 0xf7f 0xf7f, BC_LeftToRight);
  (R 0xf80 0xf84, BC_NonspacingMark);
  (R 0xf85 0xf85, BC_LeftToRight);
  (R 0xf86 0xf87, BC_NonspacingMark);
  (R 0xf88 0xf8c, BC_LeftToRight);
  (R 0xf8d 0xf97, BC_NonspacingMark);
  (R 0xf99 0xfbc, BC_NonspacingMark);
  (R 0xfbe 0xfc5, BC_LeftToRight);
  (R 0xfc6 0xfc6, BC_NonspacingMark);
  (R 0xfc7 0xfcc, BC_LeftToRight);
  (R 0xfce 0xfda, BC_LeftToRight);
  (R 0x1000 0x102c, BC_LeftToRight);
  (R 0x102d 0x1030, BC_NonspacingMark);
  (R 0x1031 0x1031, BC_LeftToRight);
  (R 0x1032 0x1037, BC_NonspacingMark);
  (R 0x1038 0x1038, BC_LeftToRight);
  (R 0x1039 0x103a, BC_NonspacingMark);
  (R 0x103b 0x103c, BC_LeftToRight);
  (R 0x103d 0x103e, BC_NonspacingMark);
  (R 0x103f 0x1057, BC_LeftToRight);
  (R 0x1058 0x1059, BC_NonspacingMark)].

Definition BIDI_CLASS_TABLE_1 : list (CharRange * BidiClass) := [
  (R 0x105a 0x105d, BC_LeftToRight);
  (R 0x105e 0x1060, BC_NonspacingMark);
  (R 0x1061 0x1070, BC_LeftToRight);
  (R 0x1071 0x1074, BC_NonspacingMark);
  (R 0x1075 0x1081, BC_LeftToRight);
  (R 0x1082 0x1082, BC_NonspacingMark);
  (R 0x1083 0x1084, BC_LeftToRight);
  (R 0x1085 0x1086, BC_NonspacingMark);
  (R 0x1087 0x108c, BC_LeftToRight);
  (R 0x108d 0x108d, BC_NonspacingMark);
  (R 0x108e 0x109c, BC_LeftToRight);
  (R 0x109d 0x109d, BC_NonspacingMark);
  (R 0x109e 0x10c5, BC_LeftToRight);
  (R 0x10c7 0x10c7, BC_LeftToRight);
  (R 0x10cd 0x10cd, BC_LeftToRight);
  (R 0x10d0 0x1248, BC_LeftToRight);
  (R 0x124a 0x124d, BC_LeftToRight);
  (R 0x1250 0x1256, BC_LeftToRight);
  (R 0x1258 0x1258, BC_LeftToRight);
  (R 0x125a 0x125d, BC_LeftToRight);
  (R 0x1260 0x1288, BC_LeftToRight);
  (R 0x128a 0x128d, BC_LeftToRight);
  (R 0x1290 0x12b0, BC_LeftToRight);
  (R 0x12b2 0x12b5, BC_LeftToRight);
  (R 0x12b8 0x12be, BC_LeftToRight);
  (R 0x12c0 0x12c0, BC_LeftToRight);
  (R 0x12c2 0x12c5, BC_LeftToRight);
  (R 0x12c8 0x12d6, BC_LeftToRight);
  (R 0x12d8 0x1310, BC_LeftToRight);
  (R 0x1312 0x1315, BC_LeftToRight);
  (R 0x1318 0x135a, BC_LeftToRight);
  (R 0x135d 0x135f, BC_NonspacingMark);
  (R 0x1360 0x137c, BC_LeftToRight);
  (R 0x1380 0x138f, BC_LeftToRight);
  (R 0x1390 0x1399, BC_OtherNeutral);
  (R 0x13a0 0x13f5, BC_LeftToRight);
  (R 0x13f8 0x13fd, BC_LeftToRight);
  (R 0x1400 0x1400, BC_OtherNeutral);
  (R 0x1401 0x167f, BC_LeftToRight);
  (R 0x1680 0x1680, BC_WhiteSpace);
  (R 0x1681 0x169a, BC_LeftToRight);
  (R 0x169b 0x169c, BC_OtherNeutral);
  (R 0x16a0 0x16f8, BC_LeftToRight);
  (R 0x1700 0x170c, BC_LeftToRight);
  (R 0x170e 0x1711, BC_LeftToRight);
  (R 0x1712 0x1714, BC_NonspacingMark);
  (R 0x1720 0x1731, BC_LeftToRight);
  (R 0x1732 0x1734, BC_NonspacingMark);
  (R 0x1735 0x1736, BC_LeftToRight);
  (R 0x1740 0x1751, BC_LeftToRight);
  (R 0x1752 0x1753, BC_NonspacingMark);
  (R 0x1760 0x176c, BC_LeftToRight);
  (R 0x176e 0x1770, BC_LeftToRight);
  (R 0x1772 0x1773, BC_NonspacingMark);
  (R 0x1780 0x17b3, BC_LeftToRight);
  (R 0x17b4 0x17b5, BC_NonspacingMark);
  (R 0x17b6 0x17b6, BC_LeftToRight);
  (R 0x17b7 0x17bd, BC_NonspacingMark);
  (R 0x17be 0x17c5, BC_LeftToRight);
  (R 0x17c6 0x17c6, BC_NonspacingMark);
  (R 0x17c7 0x17c8, BC_LeftToRight);
  (R 0x17c9 0x17d3, BC_NonspacingMark);
  (R 0x17d4 0x17da, BC_LeftToRight);
  (R 0x17db 0x17db, BC_EuropeanTerminator);
  (R 0x17dc 0x17dc, BC_LeftToRight);
  (R 0x17dd 0x17dd, BC_NonspacingMark);
  (R 0x17e0 0x17e9, BC_LeftToRight);
  (R 0x17f0 0x17f9, BC_OtherNeutral);
  (R 0x1800 0x180a, BC_OtherNeutral);
  (R 0x180b 0x180d, BC_NonspacingMark);
  (R 0x180e 0x180e, BC_BoundaryNeutral);
  (R 0x1810 0x1819, BC_LeftToRight);
  (R 0x1820 0x1877, BC_LeftToRight);
  (R 0x1880 0x1884, BC_LeftToRight);
  (R 0x1885 0x1886, BC_NonspacingMark);
  (R 0x1887 0x18a8, BC_LeftToRight);
  (R 0x18a9 0x18a9, BC_NonspacingMark);
  (R 0x18aa 0x18aa, BC_LeftToRight);
  (R 0x18b0 0x18f5, BC_LeftToRight);
  (R 0x1900 0x191e, BC_LeftToRight);
  (R 0x1920 0x1922, BC_NonspacingMark);
  (R 0x1923 0x1926, BC_LeftToRight);
  (R 0x1927 0x1928, BC_NonspacingMark);
  (R 0x1929 0x192b, BC_LeftToRight);
  (R 0x1930 0x1931, BC_LeftToRight);
  (R 0x1932 0x1932, BC_NonspacingMark);
  (R 0x1933 0x1938, BC_LeftToRight);
  (R 0x1939 0x193b, BC_NonspacingMark);
  (R 0x1940 0x1940, BC_OtherNeutral);
  (R 0x1944 0x1945, BC_OtherNeutral);
  (R 0x1946 0x196d, BC_LeftToRight);
  (R 0x1970 0x1974, BC_LeftToRight);
  (R 0x1980 0x19ab, BC_LeftToRight);
  (R 0x19b0 0x19c9, BC_LeftToRight);
  (R 0x19d0 0x19da, BC_LeftToRight);
  (R 0x19de 0x19ff, BC_OtherNeutral);
  (R 0x1a00 0x1a16, BC_LeftToRight);
  (R 0x1a17 0x1a18, BC_NonspacingMark);
  (R 0x1a19 0x1a1a, BC_LeftToRight);
  (R 0x1a1b 0x1a1b, BC_NonspacingMark);
  (R 0x1a1e 0x1a55, BC_LeftToRight);
  (R 0x1a56 0x1a56, BC_NonspacingMark);
  (R 0x1a57 0x1a57, BC_LeftToRight);
  (R 0x1a58 0x1a5e, BC_NonspacingMark);
  (R 0x1a60 0x1a60, BC_NonspacingMark);
  (R 0x1a61 0x1a61, BC_LeftToRight);
  (R 0x1a62 0x1a62, BC_NonspacingMark);
  (R 0x1a63 0x1a64, BC_LeftToRight);
  (R 0x1a65 0x1a6c, BC_NonspacingMark);
  (R 0x1a6d 0x1a72, BC_LeftToRight);
  (R 0x1a73 0x1a7c, BC_NonspacingMark);
  (R 0x1a7f 0x1a7f, BC_NonspacingMark);
  (R 0x1a80 0x1a89, BC_LeftToRight);
  (R 0x1a90 0x1a99, BC_LeftToRight);
  (R 0x1aa0 0x1aad, BC_LeftToRight);
  (R 0x1ab0 0x1abe, BC_NonspacingMark);
  (R 0x1b00 0x1b03, BC_NonspacingMark);
  (R 0x1b04 0x1b33, BC_LeftToRight);
  (R 0x1b34 0x1b34, BC_NonspacingMark);
  (R 0x1b35 0x1b35, BC_LeftToRight);
  (R 0x1b36 0x1b3a, BC_NonspacingMark);
  (R 0x1b3b 0x1b3b, BC_LeftToRight);
  (R 0x1b3c 0x1b3c, BC_NonspacingMark);
  (R 0x1b3d 0x1b41, BC_LeftToRight);
  (R 0x1b42 0x1b42, BC_NonspacingMark);
  (R 0x1b43 0x1b4b, BC_LeftToRight);
  (R 0x1b50 0x1b6a, BC_LeftToRight);
  (R 0x1b6b 0x1b73, BC_NonspacingMark);
  (R 0x1b74 0x1b7c, BC_LeftToRight);
  (R 0x1b80 0x1b81, BC_NonspacingMark);
  (R 0x1b82 0x1ba1, BC_LeftToRight);
  (R 0x1ba2 0x1ba5, BC_NonspacingMark);
  (R 0x1ba6 0x1ba7, BC_LeftToRight);
  (R 0x1ba8 0x1ba9, BC_NonspacingMark);
  (R 0x1baa 0x1baa, BC_LeftToRight);
  (R 0x1bab 0x1bad, BC_NonspacingMark);
  (R 0x1bae 0x1be5, BC_LeftToRight);
  (R 0x1be6 0x1be6, BC_NonspacingMark);
  (R 0x1be7 0x1be7, BC_LeftToRight);
  (R 0x1be8 0x1be9, BC_NonspacingMark);
  (R 0x1bea 0x1bec, BC_LeftToRight);
  (R 0x1bed 0x1bed, BC_NonspacingMark);
  (R 0x1bee 0x1bee, BC_LeftToRight);
  (R 0x1bef 0x1bf1, BC_NonspacingMark);
  (R 0x1bf2 0x1bf3, BC_LeftToRight);
  (R 0x1bfc 0x1c2b, BC_LeftToRight);
  (R 0x1c2c 0x1c33, BC_NonspacingMark);
  (R 0x1c34 0x1c35, BC_LeftToRight);
  (R 0x1c36 0x1c37, BC_NonspacingMark);
  (R 0x1c3b 0x1c49, BC_LeftToRight);
  (R 0x1c4d 0x1c88, BC_LeftToRight);
  (R 0x1cc0 0x1cc7, BC_LeftToRight);
  (R 0x1cd0 0x1cd2, BC_NonspacingMark);
  (R 0x1cd3 0x1cd3, BC_LeftToRight);
  (R 0x1cd4 0x1ce0, BC_NonspacingMark);
  (R 0x1ce1 0x1ce1, BC_LeftToRight);
  (R 0x1ce2 0x1ce8, BC_NonspacingMark);
  (R 0x1ce9 0x1cec, BC_LeftToRight);
  (R 0x1ced 0x1ced, BC_NonspacingMark);
  (R 0x1cee 0x1cf3, BC_LeftToRight);
  (R 0x1cf4 0x1cf4, BC_NonspacingMark);
  (R 0x1cf5 0x1cf7, BC_LeftToRight);
  (R 0x1cf8 0x1cf9, BC_NonspacingMark);
  (R 0x1d00 0x1dbf, BC_LeftToRight);
  (R 0x1dc0 0x1df9, BC_NonspacingMark);
  (R 0x1dfb 0x1dff, BC_NonspacingMark);
  (R 0x1e00 0x1f15, BC_LeftToRight);
  (R 0x1f18 0x1f1d, BC_LeftToRight);
  (R 0x1f20 0x1f45, BC_LeftToRight);
  (R 0x1f48 0x1f4d, BC_LeftToRight);
  (R 0x1f50 0x1f57, BC_LeftToRight);
  (R 0x1f59 0x1f59, BC_LeftToRight);
  (R 0x1f5b 0x1f5b, BC_LeftToRight);
  (R 0x1f5d 0x1f5d, BC_LeftToRight);
  (R 0x1f5f 0x1f7d, BC_LeftToRight);
  (R 0x1f80 0x1fb4, BC_LeftToRight);
  (R 0x1fb6 0x1fbc, BC_LeftToRight);
  (R 0x1fbd 0x1fbd, BC_OtherNeutral);
  (R 0x1fbe 0x1fbe, BC_LeftToRight);
  (R 0x1fbf 0x1fc1, BC_OtherNeutral);
  (R 0x1fc2 0x1fc4, BC_LeftToRight);
  (R 0x1fc6 0x1fcc, BC_LeftToRight);
  (R 0x1fcd 0x1fcf, BC_OtherNeutral);
  (R 0x1fd0 0x1fd3, BC_LeftToRight);
  (R 0x1fd6 0x1fdb, BC_LeftToRight);
  (R 0x1fdd 0x1fdf, BC_OtherNeutral);
  (R 0x1fe0 0x1fec, BC_LeftToRight);
  (R 0x1fed 0x1fef, BC_OtherNeutral);
  (R 0x1ff2 0x1ff4, BC_LeftToRight);
  (R 0x1ff6 0x1ffc, BC_LeftToRight);
  (R 0x1ffd 0x1ffe, BC_OtherNeutral);
  (R 0x2000 0x200a, BC_WhiteSpace);
  (R 0x200b 0x200d, BC_BoundaryNeutral);
  (R 0x200e 0x200e, BC_LeftToRight);
  (R 0x200f 0x200f, BC_RightToLeft);
  (R 0x2010 0x2027, BC_OtherNeutral);
  (R 0x2028 0x2028, BC_WhiteSpace);
  (R 0x2029 0x2029, BC_ParagraphSeparator);
  (R 0x202a 0x202a, BC_LeftToRightEmbedding);
  (R 0x202b 0x202b, BC_RightToLeftEmbedding);
  (R 0x202c 0x202c, BC_PopDirectionalFormat);
  (R 0x202d 0x202d, BC_LeftToRightOverride);
  (R 0x202e 0x202e, BC_RightToLeftOverride);
  (R 0x202f 0x202f, BC_CommonSeparator);
  (R 0x2030 0x2034, BC_EuropeanTerminator);
  (R 0x2035 0x2043, BC_OtherNeutral);
  (R 0x2044 0x2044, BC_CommonSeparator);
  (R 0x2045 0x205e, BC_OtherNeutral);
  (R 0x205f 0x205f, BC_WhiteSpace);
  (R 0x2060 0x2064, BC_BoundaryNeutral);
  (R 0x2066 0x2066, BC_LeftToRightIsolate);
  (R 0x2067 0x2067, BC_RightToLeftIsolate);
  (R 0x2068 0x2068, BC_FirstStrongIsolate);
  (R 0x2069 0x2069, BC_PopDirectionalIsolate);
  (R 0x206a 0x206f, BC_BoundaryNeutral);
  (R 0x2070 0x2070, BC_EuropeanNumber);
  (R 0x2071 0x2071, BC_LeftToRight);
  (R 0x2074 0x2079, BC_EuropeanNumber);
  (R 0x207a 0x207b, BC_EuropeanSeparator);
  (R 0x207c 0x207e, BC_OtherNeutral);
  (R 0x207f 0x207f, BC_LeftToRight);
  (R 0x2080 0x2089, BC_EuropeanNumber);
  (R 0x208a 0x208b, BC_EuropeanSeparator);
  (R 0x208c 0x208e, BC_OtherNeutral);
  (R 0x2090 0x209c, BC_LeftToRight);
  (R 0x20a0 0x20cf, BC_EuropeanTerminator);
  (R 0x20d0 0x20f0, BC_NonspacingMark);
  (R 0x2100 0x2101, BC_OtherNeutral);
  (R 0x2102 0x2102, BC_LeftToRight);
  (R 0x2103 0x2106, BC_OtherNeutral);
  (R 0x2107 0x2107, BC_LeftToRight);
  (R 0x2108 0x2109, BC_OtherNeutral);
  (R 0x210a 0x2113, BC_LeftToRight);
  (R 0x2114 0x2114, BC_OtherNeutral);
  (R 0x2115 0x2115, BC_LeftToRight);
  (R 0x2116 0x2118, BC_OtherNeutral);
  (R 0x2119 0x211d, BC_LeftToRight);
  (R 0x211e 0x2123, BC_OtherNeutral);
  (R 0x2124 0x2124, BC_LeftToRight);
  (R 0x2125 0x2125, BC_OtherNeutral);
  (R 0x2126 0x2126, BC_LeftToRight);
  (R 0x2127 0x2127, BC_OtherNeutral);
  (R 0x2128 0x2128, BC_LeftToRight);
  (R 0x2129 0x2129, BC_OtherNeutral);
  (R 0x212a 0x212d, BC_LeftToRight);
  (R 0x212e 0x212e, BC_EuropeanTerminator);
  (R 0x212f 0x2139, BC_LeftToRight);
  (R 0x213a 0x213b, BC_OtherNeutral);
  (R 0x213c 0x213f, BC_LeftToRight);
  (R 0x2140 0x2144, BC_OtherNeutral);
  (R 0x2145 0x2149, BC_LeftToRight);
  (R 0x214a 0x214d, BC_OtherNeutral);
  (R 0x214e 0x214f, BC_LeftToRight);
  (R 0x2150 0x215f, BC_OtherNeutral);
  (R 0x2160 0x2188, BC_LeftToRight);
  (R 0x2189 0x218b, BC_OtherNeutral);
  (R 0x2190 0x2211, BC_OtherNeutral);
  (R 0x2212 0x2212, BC_EuropeanSeparator);
  (R 0x2213 0x2213, BC_EuropeanTerminator);
  (R 0x2214 0x2335, BC_OtherNeutral);
  (R 0x2336 0x237a, BC_LeftToRight);
  (R 0x237b 0x2394, BC_OtherNeutral);
  (R 0x2395 0x2395, BC_LeftToRight);
  (R 0x2396 0x2426, BC_OtherNeutral);
  (R 0x2440 0x244a, BC_OtherNeutral);
  (R 0x2460 0x2487, BC_OtherNeutral);
  (R 0x2488 0x249b, BC_EuropeanNumber);
  (R 0x249c 0x24e9, BC_LeftToRight);
  (R 0x24ea 0x26ab, BC_OtherNeutral);
  (R 0x26ac 0x26ac, BC_LeftToRight);
  (R 0x26ad 0x27ff, BC_OtherNeutral);
  (R 0x2800 0x28ff, BC_LeftToRight);
  (R 0x2900 0x2b73, BC_OtherNeutral);
  (R 0x2b76 0x2b95, BC_OtherNeutral);
  (R 0x2b98 0x2bb9, BC_OtherNeutral);
  (R 0x2bbd 0x2bc8, BC_OtherNeutral);
  (R 0x2bca 0x2bd2, BC_OtherNeutral);
  (R 0x2bec 0x2bef, BC_OtherNeutral);
  (R 0x2c00 0x2c2e, BC_LeftToRight);
  (R 0x2c30 0x2c5e, BC_LeftToRight);
  (R 0x2c60 0x2ce4, BC_LeftToRight);
  (R 0x2ce5 0x2cea, BC_OtherNeutral);
  (R 0x2ceb 0x2cee, BC_LeftToRight);
  (R 0x2cef 0x2cf1, BC_NonspacingMark);
  (R 0x2cf2 0x2cf3, BC_LeftToRight);
  (R 0x2cf9 0x2cff, BC_OtherNeutral);
  (R 0x2d00 0x2d25, BC_LeftToRight);
  (R 0x2d27 0x2d27, BC_LeftToRight);
  (R 0x2d2d 0x2d2d, BC_LeftToRight);
  (R 0x2d30 0x2d67, BC_LeftToRight);
  (R 0x2d6f 0x2d70, BC_LeftToRight);
  (R 0x2d7f 0x2d7f, BC_NonspacingMark);
  (R 0x2d80 0x2d96, BC_LeftToRight);
  (R 0x2da0 0x2da6, BC_LeftToRight);
  (R 0x2da8 0x2dae, BC_LeftToRight);
  (R 0x2db0 0x2db6, BC_LeftToRight);
  (R 0x2db8 0x2dbe, BC_LeftToRight);
  (R 0x2dc0 0x2dc6, BC_LeftToRight);
  (R 0x2dc8 0x2dce, BC_LeftToRight);
  (R 0x2dd0 0x2dd6, BC_LeftToRight);
  (R 0x2dd8 0x2dde, BC_LeftToRight);
  (R 0x2de0 0x2dff, BC_NonspacingMark);
  (R 0x2e00 0x2e49, BC_OtherNeutral);
  (R 0x2e80 0x2e99, BC_OtherNeutral);
  (R 0x2e9b 0x2ef3, BC_OtherNeutral);
  (R 0x2f00 0x2fd5, BC_OtherNeutral);
  (R 0x2ff0 0x2ffb, BC_OtherNeutral);
  (R 0x3000 0x3000, BC_WhiteSpace);
  (R 0x3001 0x3004, BC_OtherNeutral);
  (R 0x3005 0x3007, BC_LeftToRight);
  (R 0x3008 0x3020, BC_OtherNeutral);
  (R 0x3021 0x3029, BC_LeftToRight);
  (R 0x302a 0x302d, BC_NonspacingMark);
  (R 0x302e 0x302f, BC_LeftToRight);
  (R 0x3030 0x3030, BC_OtherNeutral);
  (R 0x3031 0x3035, BC_LeftToRight);
  (R 0x3036 0x3037, BC_OtherNeutral);
  (R 0x3038 0x303c, BC_LeftToRight);
  (R 0x303d 0x303f, BC_OtherNeutral);
  (R 0x3041 0x3096, BC_LeftToRight);
  (R 0x3099 0x309a, BC_NonspacingMark);
  (R 0x309b 0x309c, BC_OtherNeutral);
  (R 0x309d 0x309f, BC_LeftToRight);
  (R 0x30a0 0x30a0, BC_OtherNeutral);
  (R 0x30a1 0x30fa, BC_LeftToRight);
  (R 0x30fb 0x30fb, BC_OtherNeutral);
  (R 0x30fc 0x30ff, BC_LeftToRight);
  (R 0x3105 0x312e, BC_LeftToRight);
  (R 0x3131 0x318e, BC_LeftToRight);
  (R 0x3190 0x31ba, BC_LeftToRight);
  (R 0x31c0 0x31e3, BC_OtherNeutral);
  (R 0x31f0 0x321c, BC_LeftToRight);
  (R 0x321d 0x321e, BC_OtherNeutral);
  (R 0x3220 0x324f, BC_LeftToRight);
  (R 0x3250 0x325f, BC_OtherNeutral);
  (R 0x3260 0x327b, BC_LeftToRight);
  (R 0x327c 0x327e, BC_OtherNeutral);
  (R 0x327f 0x32b0, BC_LeftToRight);
  (R 0x32b1 0x32bf, BC_OtherNeutral);
  (R 0x32c0 0x32cb, BC_LeftToRight);
  (R 0x32cc 0x32cf, BC_OtherNeutral);
  (R 0x32d0 0x32fe, BC_LeftToRight);
  (R 0x3300 0x3376, BC_LeftToRight);
  (R 0x3377 0x337a, BC_OtherNeutral);
  (R 0x337b 0x33dd, BC_LeftToRight);
  (R 0x33de 0x33df, BC_OtherNeutral);
  (R 0x33e0 0x33fe, BC_LeftToRight);
  (R 0x33ff 0x33ff, BC_OtherNeutral);
  (R 0x3400 0x4db5, BC_LeftToRight);
  (R 0x4dc0 0x4dff, BC_OtherNeutral);
  (R 0x4e00 0x9fea, BC_LeftToRight);
  (R 0xa000 0xa48c, BC_LeftToRight);
  (R 0xa490 0xa4c6, BC_OtherNeutral);
  (R 0xa4d0 0xa60c, BC_LeftToRight);
  (R 0xa60d 0xa60f, BC_OtherNeutral);
  (R 0xa610 0xa62b, BC_LeftToRight);
  (R 0xa640 0xa66e, BC_LeftToRight);
  (R 0xa66f 0xa672, BC_NonspacingMark);
  (R 0xa673 0xa673, BC_OtherNeutral);
  (R 0xa674 0xa67d, BC_NonspacingMark);
  (R 0xa67e 0xa67f, BC_OtherNeutral);
  (R 0xa680 0xa69d, BC_LeftToRight);
  (R 0xa69e 0xa69f, BC_NonspacingMark);
  (R 0xa6a0 0xa6ef, BC_LeftToRight);
  (R 0xa6f0 0xa6f1, BC_NonspacingMark);
  (R 0xa6f2 0xa6f7, BC_LeftToRight);
  (R 0xa700 0xa721, BC_OtherNeutral);
  (R 0xa722 0xa787, BC_LeftToRight);
  (R 0xa788 0xa788, BC_OtherNeutral);
  (R 0xa789 0xa7ae, BC_LeftToRight);
  (R 0xa7b0 0xa7b7, BC_LeftToRight);
  (R 0xa7f7 0xa801, BC_LeftToRight);
  (R 0xa802 0xa802, BC_NonspacingMark);
  (R 0xa803 0xa805, BC_LeftToRight);
  (R 0xa806 0xa806, BC_NonspacingMark);
  (R 0xa807 0xa80a, BC_LeftToRight);
  (R 0xa80b 0xa80b, BC_NonspacingMark);
  (R 0xa80c 0xa824, BC_LeftToRight);
  (R 0xa825 0xa826, BC_NonspacingMark);
  (R 0xa827 0xa827, BC_LeftToRight);
  (R 0xa828 0xa82b, BC_OtherNeutral);
  (R 0xa830 0xa837, BC_LeftToRight);
  (R 0xa838 0xa839, BC_EuropeanTerminator);
  (R 0xa840 0xa873, BC_LeftToRight);
  (R 0xa874 0xa877, BC_OtherNeutral);
  (R 0xa880 0xa8c3, BC_LeftToRight);
  (R 0xa8c4 0xa8c5, BC_NonspacingMark);
  (R 0xa8ce 0xa8d9, BC_LeftToRight);
  (R 0xa8e0 0xa8f1, BC_NonspacingMark);
  (R 0xa8f2 0xa8fd, BC_LeftToRight);
  (R 0xa900 0xa925, BC_LeftToRight);
  (R 0xa926 0xa92d, BC_NonspacingMark);
  (R 0xa92e 0xa946, BC_LeftToRight);
  (R 0xa947 0xa951, BC_NonspacingMark);
  (R 0xa952 0xa953, BC_LeftToRight);
  (R 0xa95f 0xa97c, BC_LeftToRight);
  (R 0xa980 0xa982, BC_NonspacingMark);
  (R 0xa983 0xa9b2, BC_LeftToRight);
  (R 0xa9b3 0xa9b3, BC_NonspacingMark);
  (R 0xa9b4 0xa9b5, BC_LeftToRight)].

Definition BIDI_CLASS_TABLE_2 : list (CharRange * BidiClass) := [
  (R 0xa9b6 0xa9b9, BC_NonspacingMark);
  (R 0xa9ba 0xa9bb, BC_LeftToRight);
  (R 0xa9bc 0xa9bc, BC_NonspacingMark);
  (R 0xa9bd 0xa9cd, BC_LeftToRight);
  (R 0xa9cf 0xa9d9, BC_LeftToRight);
  (R 0xa9de 0xa9e4, BC_LeftToRight);
  (R 0xa9e5 0xa9e5, BC_NonspacingMark);
  (R 0xa9e6 0xa9fe, BC_LeftToRight);
  (R 0xaa00 0xaa28, BC_LeftToRight);
  (R 0xaa29 0xaa2e, BC_NonspacingMark);
  (R 0xaa2f 0xaa30, BC_LeftToRight);
  (R 0xaa31 0xaa32, BC_NonspacingMark);
  (R 0xaa33 0xaa34, BC_LeftToRight);
  (R 0xaa35 0xaa36, BC_NonspacingMark);
  (R 0xaa40 0xaa42, BC_LeftToRight);
  (R 0xaa43 0xaa43, BC_NonspacingMark);
  (R 0xaa44 0xaa4b, BC_LeftToRight);
  (R 0xaa4c 0xaa4c, BC_NonspacingMark);
  (R 0xaa4d 0xaa4d, BC_LeftToRight);
  (R 0xaa50 0xaa59, BC_LeftToRight);
  (R 0xaa5c 0xaa7b, BC_LeftToRight);
  (R 0xaa7c 0xaa7c, BC_NonspacingMark);
  (R 0xaa7d 0xaaaf, BC_LeftToRight);
  (R 0xaab0 0xaab0, BC_NonspacingMark);
  (R 0xaab1 0xaab1, BC_LeftToRight);
  (R 0xaab2 0xaab4, BC_NonspacingMark);
  (R 0xaab5 0xaab6, BC_LeftToRight);
  (R 0xaab7 0xaab8, BC_NonspacingMark);
  (R 0xaab9 0xaabd, BC_LeftToRight);
  (R 0xaabe 0xaabf, BC_NonspacingMark);
  (R 0xaac0 0xaac0, BC_LeftToRight);
  (R 0xaac1 0xaac1, BC_NonspacingMark);
  (R 0xaac2 0xaac2, BC_LeftToRight);
  (R 0xaadb 0xaaeb, BC_LeftToRight);
  (R 0xaaec 0xaaed, BC_NonspacingMark);
  (R 0xaaee 0xaaf5, BC_LeftToRight);
  (R 0xaaf6 0xaaf6, BC_NonspacingMark);
  (R 0xab01 0xab06, BC_LeftToRight);
  (R 0xab09 0xab0e, BC_LeftToRight);
  (R 0xab11 0xab16, BC_LeftToRight);
  (R 0xab20 0xab26, BC_LeftToRight);
  (R 0xab28 0xab2e, BC_LeftToRight);
  (R 0xab30 0xab65, BC_LeftToRight);
  (R 0xab70 0xabe4, BC_LeftToRight);
  (R 0xabe5 0xabe5, BC_NonspacingMark);
  (R 0xabe6 0xabe7, BC_LeftToRight);
  (R 0xabe8 0xabe8, BC_NonspacingMark);
  (R 0xabe9 0xabec, BC_LeftToRight);
  (R 0xabed 0xabed, BC_NonspacingMark);
  (R 0xabf0 0xabf9, BC_LeftToRight);
  (R 0xac00 0xd7a3, BC_LeftToRight);
  (R 0xd7b0 0xd7c6, BC_LeftToRight);
  (R 0xd7cb 0xd7fb, BC_LeftToRight);
  (R 0xe000 0xfa6d, BC_LeftToRight);
  (R 0xfa70 0xfad9, BC_LeftToRight);
  (R 0xfb00 0xfb06, BC_LeftToRight);
  (R 0xfb13 0xfb17, BC_LeftToRight);
  (R 0xfb1d 0xfb1d, BC_RightToLeft);
  (R 0xfb1e 0xfb1e, BC_NonspacingMark);
  (R 0xfb1f 0xfb28, BC_RightToLeft);
  (R 0xfb29 0xfb29, BC_EuropeanSeparator);
  (R 0xfb2a 0xfb4f, BC_RightToLeft);
  (R 0xfb50 0xfd3d, BC_ArabicLetter);
  (R 0xfd3e 0xfd3f, BC_OtherNeutral);
  (R 0xfd40 0xfdcf, BC_ArabicLetter);
  (R 0xfdf0 0xfdfc, BC_ArabicLetter);
  (R 0xfdfd 0xfdfd, BC_OtherNeutral);
  (R 0xfdfe 0xfdff, BC_ArabicLetter);
  (R 0xfe00 0xfe0f, BC_NonspacingMark);
  (R 0xfe10 0xfe19, BC_OtherNeutral);
  (R 0xfe20 0xfe2f, BC_NonspacingMark);
  (R 0xfe30 0xfe4f, BC_OtherNeutral);
  (R 0xfe50 0xfe50, BC_CommonSeparator);
  (R 0xfe51 0xfe51, BC_OtherNeutral);
  (R 0xfe52 0xfe52, BC_CommonSeparator);
  (R 0xfe54 0xfe54, BC_OtherNeutral);
  (R 0xfe55 0xfe55, BC_CommonSeparator);
  (R 0xfe56 0xfe5e, BC_OtherNeutral);
  (R 0xfe5f 0xfe5f, BC_EuropeanTerminator);
  (R 0xfe60 0xfe61, BC_OtherNeutral);
  (R 0xfe62 0xfe63, BC_EuropeanSeparator);
  (R 0xfe64 0xfe66, BC_OtherNeutral);
  (R 0xfe68 0xfe68, BC_OtherNeutral);
  (R 0xfe69 0xfe6a, BC_EuropeanTerminator);
  (R 0xfe6b 0xfe6b, BC_OtherNeutral);
  (R 0xfe70 0xfefe, BC_ArabicLetter);
  (R 0xfeff 0xfeff, BC_BoundaryNeutral);
  (R 0xff01 0xff02, BC_OtherNeutral);
  (R 0xff03 0xff05, BC_EuropeanTerminator);
  (R 0xff06 0xff0a, BC_OtherNeutral);
  (R 0xff0b 0xff0b, BC_EuropeanSeparator);
  (R 0xff0c 0xff0c, BC_CommonSeparator);
  (R 0xff0d 0xff0d, BC_EuropeanSeparator);
  (R 0xff0e 0xff0f, BC_CommonSeparator);
  (R 0xff10 0xff19, BC_EuropeanNumber);
  (R 0xff1a 0xff1a, BC_CommonSeparator);
  (R 0xff1b 0xff20, BC_OtherNeutral);
  (R 0xff21 0xff3a, BC_LeftToRight);
  (R 0xff3b 0xff40, BC_OtherNeutral);
  (R 0xff41 0xff5a, BC_LeftToRight);
  (R 0xff5b 0xff65, BC_OtherNeutral);
  (R 0xff66 0xffbe, BC_LeftToRight);
  (R 0xffc2 0xffc7, BC_LeftToRight);
  (R 0xffca 0xffcf, BC_LeftToRight);
  (R 0xffd2 0xffd7, BC_LeftToRight);
  (R 0xffda 0xffdc, BC_LeftToRight);
  (R 0xffe0 0xffe1, BC_EuropeanTerminator);
  (R 0xffe2 0xffe4, BC_OtherNeutral);
  (R 0xffe5 0xffe6, BC_EuropeanTerminator);
  (R 0xffe8 0xffee, BC_OtherNeutral);
  (R 0xfff9 0xfffd, BC_OtherNeutral);
  (R 0x10000 0x1000b, BC_LeftToRight);
  (R 0x1000d 0x10026, BC_LeftToRight);
  (R 0x10028 0x1003a, BC_LeftToRight);
  (R 0x1003c 0x1003d, BC_LeftToRight);
  (R 0x1003f 0x1004d, BC_LeftToRight);
  (R 0x10050 0x1005d, BC_LeftToRight);
  (R 0x10080 0x100fa, BC_LeftToRight);
  (R 0x10100 0x10100, BC_LeftToRight);
  (R 0x10101 0x10101, BC_OtherNeutral);
  (R 0x10102 0x10102, BC_LeftToRight);
  (R 0x10107 0x10133, BC_LeftToRight);
  (R 0x10137 0x1013f, BC_LeftToRight);
  (R 0x10140 0x1018c, BC_OtherNeutral);
  (R 0x1018d 0x1018e, BC_LeftToRight);
  (R 0x10190 0x1019b, BC_OtherNeutral);
  (R 0x101a0 0x101a0, BC_OtherNeutral);
  (R 0x101d0 0x101fc, BC_LeftToRight);
  (R 0x101fd 0x101fd, BC_NonspacingMark);
  (R 0x10280 0x1029c, BC_LeftToRight);
  (R 0x102a0 0x102d0, BC_LeftToRight);
  (R 0x102e0 0x102e0, BC_NonspacingMark);
  (R 0x102e1 0x102fb, BC_EuropeanNumber);
  (R 0x10300 0x10323, BC_LeftToRight);
  (R 0x1032d 0x1034a, BC_LeftToRight);
  (R 0x10350 0x10375, BC_LeftToRight);
  (R 0x10376 0x1037a, BC_NonspacingMark);
  (R 0x10380 0x1039d, BC_LeftToRight);
  (R 0x1039f 0x103c3, BC_LeftToRight);
  (R 0x103c8 0x103d5, BC_LeftToRight);
  (R 0x10400 0x1049d, BC_LeftToRight);
  (R 0x104a0 0x104a9, BC_LeftToRight);
  (R 0x104b0 0x104d3, BC_LeftToRight);
  (R 0x104d8 0x104fb, BC_LeftToRight);
  (R 0x10500 0x10527, BC_LeftToRight);
  (R 0x10530 0x10563, BC_LeftToRight);
  (R 0x1056f 0x1056f, BC_LeftToRight);
  (R 0x10600 0x10736, BC_LeftToRight);
  (R 0x10740 0x10755, BC_LeftToRight);
  (R 0x10760 0x10767, BC_LeftToRight);
  (R 0x10800 0x1091e, BC_RightToLeft);
  (R 0x1091f 0x1091f, BC_OtherNeutral);
  (R 0x10920 0x10a00, BC_RightToLeft);
  (R 0x10a01 0x10a03, BC_NonspacingMark);
  (R 0x10a04 0x10a04, BC_RightToLeft);
  (R 0x10a05 0x10a06, BC_NonspacingMark);
  (R 0x10a07 0x10a0b, BC_RightToLeft);
  (R 0x10a0c 0x10a0f, BC_NonspacingMark);
  (R 0x10a10 0x10a37, BC_RightToLeft);
  (R 0x10a38 0x10a3a, BC_NonspacingMark);
  (R 0x10a3b 0x10a3e, BC_RightToLeft);
  (R 0x10a3f 0x10a3f, BC_NonspacingMark);
  (R 0x10a40 0x10ae4, BC_RightToLeft);
  (R 0x10ae5 0x10ae6, BC_NonspacingMark);
  (R 0x10ae7 0x10b38, BC_RightToLeft);
  (R 0x10b39 0x10b3f, BC_OtherNeutral);
  (R 0x10b40 0x10e5f, BC_RightToLeft);
  (R 0x10e60 0x10e7e, BC_ArabicNumber);
  (R 0x10e7f 0x10fff, BC_RightToLeft);
  (R 0x11000 0x11000, BC_LeftToRight);
  (R 0x11001 0x11001, BC_NonspacingMark);
  (R 0x11002 0x11037, BC_LeftToRight);
  (R 0x11038 0x11046, BC_NonspacingMark);
  (R 0x11047 0x1104d, BC_LeftToRight);
  (R 0x11052 0x11065, BC_OtherNeutral);
  (R 0x11066 0x1106f, BC_LeftToRight);
  (R 0x1107f 0x11081, BC_NonspacingMark);
  (R 0x11082 0x110b2, BC_LeftToRight);
  (R 0x110b3 0x110b6, BC_NonspacingMark);
  (R 0x110b7 0x110b8, BC_LeftToRight);
  (R 0x110b9 0x110ba, BC_NonspacingMark);
  (R 0x110bb 0x110c1, BC_LeftToRight);
  (R 0x110d0 0x110e8, BC_LeftToRight);
  (R 0x110f0 0x110f9, BC_LeftToRight);
  (R 0x11100 0x11102, BC_NonspacingMark);
  (R 0x11103 0x11126, BC_LeftToRight);
  (R 0x11127 0x1112b, BC_NonspacingMark);
  (R 0x1112c 0x1112c, BC_LeftToRight);
  (R 0x1112d 0x11134, BC_NonspacingMark);
  (R 0x11136 0x11143, BC_LeftToRight);
  (R 0x11150 0x11172, BC_LeftToRight);
  (R 0x11173 0x11173, BC_NonspacingMark);
  (R 0x11174 0x11176, BC_LeftToRight);
  (R 0x11180 0x11181, BC_NonspacingMark);
  (R 0x11182 0x111b5, BC_LeftToRight);
  (R 0x111b6 0x111be, BC_NonspacingMark);
  (R 0x111bf 0x111c9, BC_LeftToRight);
  (R 0x111ca 0x111cc, BC_NonspacingMark);
  (R 0x111cd 0x111cd, BC_LeftToRight);
  (R 0x111d0 0x111df, BC_LeftToRight);
  (R 0x111e1 0x111f4, BC_LeftToRight);
  (R 0x11200 0x11211, BC_LeftToRight);
  (R 0x11213 0x1122e, BC_LeftToRight);
  (R 0x1122f 0x11231, BC_NonspacingMark);
  (R 0x11232 0x11233, BC_LeftToRight);
  (R 0x11234 0x11234, BC_NonspacingMark);
  (R 0x11235 0x11235, BC_LeftToRight);
  (R 0x11236 0x11237, BC_NonspacingMark);
  (R 0x11238 0x1123d, BC_LeftToRight);
  (R 0x1123e 0x1123e, BC_NonspacingMark);
  (R 0x11280 0x11286, BC_LeftToRight);
  (R 0x11288 0x11288, BC_LeftToRight);
  (R 0x1128a 0x1128d, BC_LeftToRight);
  (R 0x1128f 0x1129d, BC_LeftToRight);
  (R 0x1129f 0x112a9, BC_LeftToRight);
  (R 0x112b0 0x112de, BC_LeftToRight);
  (R 0x112df 0x112df, BC_NonspacingMark);
  (R 0x112e0 0x112e2, BC_LeftToRight);
  (R 0x112e3 0x112ea, BC_NonspacingMark);
  (R 0x112f0 0x112f9, BC_LeftToRight);
  (R 0x11300 0x11301, BC_NonspacingMark);
  (R 0x11302 0x11303, BC_LeftToRight);
  (R 0x11305 0x1130c, BC_LeftToRight);
  (R 0x1130f 0x11310, BC_LeftToRight);
  (R 0x11313 0x11328, BC_LeftToRight);
  (R 0x1132a 0x11330, BC_LeftToRight);
  (R 0x11332 0x11333, BC_LeftToRight);
  (R 0x11335 0x11339, BC_LeftToRight);
  (R 0x1133c 0x1133c, BC_NonspacingMark);
  (R 0x1133d 0x1133f, BC_LeftToRight);
  (R 0x11340 0x11340, BC_NonspacingMark);
  (R 0x11341 0x11344, BC_LeftToRight);
  (R 0x11347 0x11348, BC_LeftToRight);
  (R 0x1134b 0x1134d, BC_LeftToRight);
  (R 0x11350 0x11350, BC_LeftToRight);
  (R 0x11357 0x11357, BC_LeftToRight);
  (R 0x1135d 0x11363, BC_LeftToRight);
  (R 0x11366 0x1136c, BC_NonspacingMark);
  (R 0x11370 0x11374, BC_NonspacingMark);
  (R 0x11400 0x11437, BC_LeftToRight);
  (R 0x11438 0x1143f, BC_NonspacingMark);
  (R 0x11440 0x11441, BC_LeftToRight);
  (R 0x11442 0x11444, BC_NonspacingMark);
  (R 0x11445 0x11445, BC_LeftToRight);
  (R 0x11446 0x11446, BC_NonspacingMark);
  (R 0x11447 0x11459, BC_LeftToRight);
  (R 0x1145b 0x1145b, BC_LeftToRight);
  (R 0x1145d 0x1145d, BC_LeftToRight);
  (R 0x11480 0x114b2, BC_LeftToRight);
  (R 0x114b3 0x114b8, BC_NonspacingMark);
  (R 0x114b9 0x114b9, BC_LeftToRight);
  (R 0x114ba 0x114ba, BC_NonspacingMark);
  (R 0x114bb 0x114be, BC_LeftToRight);
  (R 0x114bf 0x114c0, BC_NonspacingMark);
  (R 0x114c1 0x114c1, BC_LeftToRight);
  (R 0x114c2 0x114c3, BC_NonspacingMark);
  (R 0x114c4 0x114c7, BC_LeftToRight);
  (R 0x114d0 0x114d9, BC_LeftToRight);
  (R 0x11580 0x115b1, BC_LeftToRight);
  (R 0x115b2 0x115b5, BC_NonspacingMark);
  (R 0x115b8 0x115bb, BC_LeftToRight);
  (R 0x115bc 0x115bd, BC_NonspacingMark);
  (R 0x115be 0x115be, BC_LeftToRight);
  (R 0x115bf 0x115c0, BC_NonspacingMark);
  (R 0x115c1 0x115db, BC_LeftToRight);
  (R 0x115dc 0x115dd, BC_NonspacingMark);
  (R 0x11600 0x11632, BC_LeftToRight);
  (R 0x11633 0x1163a, BC_NonspacingMark);
  (R 0x1163b 0x1163c, BC_LeftToRight);
  (R 0x1163d 0x1163d, BC_NonspacingMark);
  (R 0x1163e 0x1163e, BC_LeftToRight);
  (R 0x1163f 0x11640, BC_NonspacingMark);
  (R 0x11641 0x11644, BC_LeftToRight);
  (R 0x11650 0x11659, BC_LeftToRight);
  (R 0x11660 0x1166c, BC_OtherNeutral);
  (R 0x11680 0x116aa, BC_LeftToRight);
  (R 0x116ab 0x116ab, BC_NonspacingMark);
  (R 0x116ac 0x116ac, BC_LeftToRight);
  (R 0x116ad 0x116ad, BC_NonspacingMark);
  (R 0x116ae 0x116af, BC_LeftToRight);
  (R 0x116b0 0x116b5, BC_NonspacingMark);
  (R 0x116b6 0x116b6, BC_LeftToRight);
  (R 0x116b7 0x116b7, BC_NonspacingMark);
  (R 0x116c0 0x116c9, BC_LeftToRight);
  (R 0x11700 0x11719, BC_LeftToRight);
  (R 0x1171d 0x1171f, BC_NonspacingMark);
  (R 0x11720 0x11721, BC_LeftToRight);
  (R 0x11722 0x11725, BC_NonspacingMark);
  (R 0x11726 0x11726, BC_LeftToRight);
  (R 0x11727 0x1172b, BC_NonspacingMark);
  (R 0x11730 0x1173f, BC_LeftToRight);
  (R 0x118a0 0x118f2, BC_LeftToRight);
  (R 0x118ff 0x118ff, BC_LeftToRight);
  (R 0x11a00 0x11a00, BC_LeftToRight);
  (R 0x11a01 0x11a06, BC_NonspacingMark);
  (R 0x11a07 0x11a08, BC_LeftToRight);
  (R 0x11a09 0x11a0a, BC_NonspacingMark);
  (R 0x11a0b 0x11a32, BC_LeftToRight);
  (R 0x11a33 0x11a38, BC_NonspacingMark);
  (R 0x11a39 0x11a3a, BC_LeftToRight);
  (R 0x11a3b 0x11a3e, BC_NonspacingMark);
  (R 0x11a3f 0x11a46, BC_LeftToRight);
  (R 0x11a47 0x11a47, BC_NonspacingMark);
  (R 0x11a50 0x11a50, BC_LeftToRight);
  (R 0x11a51 0x11a56, BC_NonspacingMark);
  (R 0x11a57 0x11a58, BC_LeftToRight);
  (R 0x11a59 0x11a5b, BC_NonspacingMark);
  (R 0x11a5c 0x11a83, BC_LeftToRight);
  (R 0x11a86 0x11a89, BC_LeftToRight);
  (R 0x11a8a 0x11a96, BC_NonspacingMark);
  (R 0x11a97 0x11a97, BC_LeftToRight);
  (R 0x11a98 0x11a99, BC_NonspacingMark);
  (R 0x11a9a 0x11a9c, BC_LeftToRight);
  (R 0x11a9e 0x11aa2, BC_LeftToRight);
  (R 0x11ac0 0x11af8, BC_LeftToRight);
  (R 0x11c00 0x11c08, BC_LeftToRight);
  (R 0x11c0a 0x11c2f, BC_LeftToRight);
  (R 0x11c30 0x11c36, BC_NonspacingMark);
  (R 0x11c38 0x11c3d, BC_NonspacingMark);
  (R 0x11c3e 0x11c45, BC_LeftToRight);
  (R 0x11c50 0x11c6c, BC_LeftToRight);
  (R 0x11c70 0x11c8f, BC_LeftToRight);
  (R 0x11c92 0x11ca7, BC_NonspacingMark);
  (R 0x11ca9 0x11ca9, BC_LeftToRight);
  (R 0x11caa 0x11cb0, BC_NonspacingMark);
  (R 0x11cb1 0x11cb1, BC_LeftToRight);
  (R 0x11cb2 0x11cb3, BC_NonspacingMark);
  (R 0x11cb4 0x11cb4, BC_LeftToRight);
  (R 0x11cb5 0x11cb6, BC_NonspacingMark);
  (R 0x11d00 0x11d06, BC_LeftToRight);
  (R 0x11d08 0x11d09, BC_LeftToRight);
  (R 0x11d0b 0x11d30, BC_LeftToRight);
  (R 0x11d31 0x11d36, BC_NonspacingMark);
  (R 0x11d3a 0x11d3a, BC_NonspacingMark);
  (R 0x11d3c 0x11d3d, BC_NonspacingMark);
  (R 0x11d3f 0x11d45, BC_NonspacingMark);
  (R 0x11d46 0x11d46, BC_LeftToRight);
  (R 0x11d47 0x11d47, BC_NonspacingMark);
  (R 0x11d50 0x11d59, BC_LeftToRight);
  (R 0x12000 0x12399, BC_LeftToRight);
  (R 0x12400 0x1246e, BC_LeftToRight);
  (R 0x12470 0x12474, BC_LeftToRight);
  (R 0x12480 0x12543, BC_LeftToRight);
  (R 0x13000 0x1342e, BC_LeftToRight);
  (R 0x14400 0x14646, BC_LeftToRight);
  (R 0x16800 0x16a38, BC_LeftToRight);
  (R 0x16a40 0x16a5e, BC_LeftToRight);
  (R 0x16a60 0x16a69, BC_LeftToRight);
  (R 0x16a6e 0x16a6f, BC_LeftToRight);
  (R 0x16ad0 0x16aed, BC_LeftToRight);
  (R 0x16af0 0x16af4, BC_NonspacingMark);
  (R 0x16af5 0x16af5, BC_LeftToRight);
  (R 0x16b00 0x16b2f, BC_LeftToRight);
  (R 0x16b30 0x16b36, BC_NonspacingMark);
  (R 0x16b37 0x16b45, BC_LeftToRight);
  (R 0x16b50 0x16b59, BC_LeftToRight);
  (R 0x16b5b 0x16b61, BC_LeftToRight);
  (R 0x16b63 0x16b77, BC_LeftToRight);
  (R 0x16b7d 0x16b8f, BC_LeftToRight);
  (R 0x16f00 0x16f44, BC_LeftToRight);
  (R 0x16f50 0x16f7e, BC_LeftToRight);
  (R 0x16f8f 0x16f92, BC_NonspacingMark);
  (R 0x16f93 0x16f9f, BC_LeftToRight);
  (R 0x16fe0 0x16fe1, BC_LeftToRight);
  (R 0x17000 0x187ec, BC_LeftToRight);
  (R 0x18800 0x18af2, BC_LeftToRight);
  (R 0x1b000 0x1b11e, BC_LeftToRight);
  (R 0x1b170 0x1b2fb, BC_LeftToRight);
  (R 0x1bc00 0x1bc6a, BC_LeftToRight);
  (R 0x1bc70 0x1bc7c, BC_LeftToRight);
  (R 0x1bc80 0x1bc88, BC_LeftToRight);
  (R 0x1bc90 0x1bc99, BC_LeftToRight);
  (R 0x1bc9c 0x1bc9c, BC_LeftToRight);
  (R 0x1bc9d 0x1bc9e, BC_NonspacingMark);
  (R 0x1bc9f 0x1bc9f, BC_LeftToRight);
  (R 0x1bca0 0x1bca3, BC_BoundaryNeutral);
  (R 0x1d000 0x1d0f5, BC_LeftToRight);
  (R 0x1d100 0x1d126, BC_LeftToRight);
  (R 0x1d129 0x1d166, BC_LeftToRight);
  (R 0x1d167 0x1d169, BC_NonspacingMark);
  (R 0x1d16a 0x1d172, BC_LeftToRight);
  (R 0x1d173 0x1d17a, BC_BoundaryNeutral);
  (R 0x1d17b 0x1d182, BC_NonspacingMark);
  (R 0x1d183 0x1d184, BC_LeftToRight);
  (R 0x1d185 0x1d18b, BC_NonspacingMark);
  (R 0x1d18c 0x1d1a9, BC_LeftToRight);
  (R 0x1d1aa 0x1d1ad, BC_NonspacingMark);
  (R 0x1d1ae 0x1d1e8, BC_LeftToRight);
  (R 0x1d200 0x1d241, BC_OtherNeutral);
  (R 0x1d242 0x1d244, BC_NonspacingMark);
  (R 0x1d245 0x1d245, BC_OtherNeutral);
  (R 0x1d300 0x1d356, BC_OtherNeutral);
  (R 0x1d360 0x1d371, BC_LeftToRight);
  (R 0x1d400 0x1d454, BC_LeftToRight);
  (R 0x1d456 0x1d49c, BC_LeftToRight);
  (R 0x1d49e 0x1d49f, BC_LeftToRight);
  (R 0x1d4a2 0x1d4a2, BC_LeftToRight);
  (R 0x1d4a5 0x1d4a6, BC_LeftToRight);
  (R 0x1d4a9 0x1d4ac, BC_LeftToRight);
  (R 0x1d4ae 0x1d4b9, BC_LeftToRight)].

Definition BIDI_CLASS_TABLE_3 : list (CharRange * BidiClass) := [
  (R 0x1d4bb 0x1d4bb, BC_LeftToRight);
  (R 0x1d4bd 0x1d4c3, BC_LeftToRight);
  (R 0x1d4c5 0x1d505, BC_LeftToRight);
  (R 0x1d507 0x1d50a, BC_LeftToRight);
  (R 0x1d50d 0x1d514, BC_LeftToRight);
  (R 0x1d516 0x1d51c, BC_LeftToRight);
  (R 0x1d51e 0x1d539, BC_LeftToRight);
  (R 0x1d53b 0x1d53e, BC_LeftToRight);
  (R 0x1d540 0x1d544, BC_LeftToRight);
  (R 0x1d546 0x1d546, BC_LeftToRight);
  (R 0x1d54a 0x1d550, BC_LeftToRight);
  (R 0x1d552 0x1d6a5, BC_LeftToRight);
  (R 0x1d6a8 0x1d6da, BC_LeftToRight);
  (R 0x1d6db 0x1d6db, BC_OtherNeutral);
  (R 0x1d6dc 0x1d714, BC_LeftToRight);
  (R 0x1d715 0x1d715, BC_OtherNeutral);
  (R 0x1d716 0x1d74e, BC_LeftToRight);
  (R 0x1d74f 0x1d74f, BC_OtherNeutral);
  (R 0x1d750 0x1d788, BC_LeftToRight);
  (R 0x1d789 0x1d789, BC_OtherNeutral);
  (R 0x1d78a 0x1d7c2, BC_LeftToRight);
  (R 0x1d7c3 0x1d7c3, BC_OtherNeutral);
  (R 0x1d7c4 0x1d7cb, BC_LeftToRight);
  (R 0x1d7ce 0x1d7ff, BC_EuropeanNumber);
  (R 0x1d800 0x1d9ff, BC_LeftToRight);
  (R 0x1da00 0x1da36, BC_NonspacingMark);
  (R 0x1da37 0x1da3a, BC_LeftToRight);
  (R 0x1da3b 0x1da6c, BC_NonspacingMark);
  (R 0x1da6d 0x1da74, BC_LeftToRight);
  (R 0x1da75 0x1da75, BC_NonspacingMark);
  (R 0x1da76 0x1da83, BC_LeftToRight);
  (R 0x1da84 0x1da84, BC_NonspacingMark);
  (R 0x1da85 0x1da8b, BC_LeftToRight);
  (R 0x1da9b 0x1da9f, BC_NonspacingMark);
  (R 0x1daa1 0x1daaf, BC_NonspacingMark);
  (R 0x1e000 0x1e006, BC_NonspacingMark);
  (R 0x1e008 0x1e018, BC_NonspacingMark);
  (R 0x1e01b 0x1e021, BC_NonspacingMark);
  (R 0x1e023 0x1e024, BC_NonspacingMark);
  (R 0x1e026 0x1e02a, BC_NonspacingMark);
  (R 0x1e800 0x1e8cf, BC_RightToLeft);
  (R 0x1e8d0 0x1e8d6, BC_NonspacingMark);
  (R 0x1e8d7 0x1e943, BC_RightToLeft);
  (R 0x1e944 0x1e94a, BC_NonspacingMark);
  (R 0x1e94b 0x1edff, BC_RightToLeft);
  (R 0x1ee00 0x1eeef, BC_ArabicLetter);
  (R 0x1eef0 0x1eef1, BC_OtherNeutral);
  (R 0x1eef2 0x1eeff, BC_ArabicLetter);
  (R 0x1ef00 0x1efff, BC_RightToLeft);
  (R 0x1f000 0x1f02b, BC_OtherNeutral);
  (R 0x1f030 0x1f093, BC_OtherNeutral);
  (R 0x1f0a0 0x1f0ae, BC_OtherNeutral);
  (R 0x1f0b1 0x1f0bf, BC_OtherNeutral);
  (R 0x1f0c1 0x1f0cf, BC_OtherNeutral);
  (R 0x1f0d1 0x1f0f5, BC_OtherNeutral);
  (R 0x1f100 0x1f10a, BC_EuropeanNumber);
  (R 0x1f10b 0x1f10c, BC_OtherNeutral);
  (R 0x1f110 0x1f12e, BC_LeftToRight);
  (R 0x1f130 0x1f169, BC_LeftToRight);
  (R 0x1f16a 0x1f16b, BC_OtherNeutral);
  (R 0x1f170 0x1f1ac, BC_LeftToRight);
  (R 0x1f1e6 0x1f202, BC_LeftToRight);
  (R 0x1f210 0x1f23b, BC_LeftToRight);
  (R 0x1f240 0x1f248, BC_LeftToRight);
  (R 0x1f250 0x1f251, BC_LeftToRight);
  (R 0x1f260 0x1f265, BC_OtherNeutral);
  (R 0x1f300 0x1f6d4, BC_OtherNeutral);
  (R 0x1f6e0 0x1f6ec, BC_OtherNeutral);
  (R 0x1f6f0 0x1f6f8, BC_OtherNeutral);
  (R 0x1f700 0x1f773, BC_OtherNeutral);
  (R 0x1f780 0x1f7d4, BC_OtherNeutral);
  (R 0x1f800 0x1f80b, BC_OtherNeutral);
  (R 0x1f810 0x1f847, BC_OtherNeutral);
  (R 0x1f850 0x1f859, BC_OtherNeutral);
  (R 0x1f860 0x1f887, BC_OtherNeutral);
  (R 0x1f890 0x1f8ad, BC_OtherNeutral);
  (R 0x1f900 0x1f90b, BC_OtherNeutral);
  (R 0x1f910 0x1f93e, BC_OtherNeutral);
  (R 0x1f940 0x1f94c, BC_OtherNeutral);
  (R 0x1f950 0x1f96b, BC_OtherNeutral);
  (R 0x1f980 0x1f997, BC_OtherNeutral);
  (R 0x1f9c0 0x1f9c0, BC_OtherNeutral);
  (R 0x1f9d0 0x1f9e6, BC_OtherNeutral);
  (R 0x20000 0x2a6d6, BC_LeftToRight);
  (R 0x2a700 0x2b734, BC_LeftToRight);
  (R 0x2b740 0x2b81d, BC_LeftToRight);
  (R 0x2b820 0x2cea1, BC_LeftToRight);
  (R 0x2ceb0 0x2ebe0, BC_LeftToRight);
  (R 0x2f800 0x2fa1d, BC_LeftToRight);
  (R 0xe0001 0xe0001, BC_BoundaryNeutral);
  (R 0xe0020 0xe007f, BC_BoundaryNeutral);
  (R 0xe0100 0xe01ef, BC_NonspacingMark);
  (R 0xf0000 0xffffd, BC_LeftToRight);
  (R 0x100000 0x10fffd, BC_LeftToRight)].

Definition BIDI_CLASS_TABLE : CharDataTable BidiClass :=
  Range (BIDI_CLASS_TABLE_0 ++ BIDI_CLASS_TABLE_1 ++ BIDI_CLASS_TABLE_2 ++ BIDI_CLASS_TABLE_3).

(** unic/ucd/bidi/tables/bidi_mirrored.rsv:1-115 (111 entries) *)
Definition BIDI_MIRRORED : CharDataTable unit := Range [
  (R 0x28 0x29, tt);
  (R 0x3c 0x3c, tt);
  (R 0x3e 0x3e, tt);
  (R 0x5b 0x5b, tt);
  (R 0x5d 0x5d, tt);
  (R 0x7b 0x7b, tt);
  (R 0x7d 0x7d, tt);
  (R 0xab 0xab, tt);
  (R 0xbb 0xbb, tt);
  (R 0xf3a 0xf3d, tt);
  (R 0x169b 0x169c, tt);
  (R 0x2039 0x203a, tt);
  (R 0x2045 0x2046, tt);
  (R 0x207d 0x207e, tt);
  (R 0x208d 0x208e, tt);
  (R 0x2140 0x2140, tt);
  (R 0x2201 0x2204, tt);
  (R 0x2208 0x220d, tt);
  (R 0x2211 0x2211, tt);
  (R 0x2215 0x2216, tt);
  (R 0x221a 0x221d, tt);
  (R 0x221f 0x2222, tt);
  (R 0x2224 0x2224, tt);
  (R 0x2226 0x2226, tt);
  (R 0x222b 0x2233, tt);
  (R 0x2239 0x2239, tt);
  (R 0x223b 0x224c, tt);
  (R 0x2252 0x2255, tt);
  (R 0x225f 0x2260, tt);
  (R 0x2262 0x2262, tt);
  (R 0x2264 0x226b, tt);
  (R 0x226e 0x228c, tt);
  (R 0x228f 0x2292, tt);
  (R 0x2298 0x2298, tt);
  (R 0x22a2 0x22a3, tt);
  (R 0x22a6 0x22b8, tt);
  (R 0x22be 0x22bf, tt);
  (R 0x22c9 0x22cd, tt);
  (R 0x22d0 0x22d1, tt);
  (R 0x22d6 0x22ed, tt);
  (R 0x22f0 0x22ff, tt);
  (R 0x2308 0x230b, tt);
  (R 0x2320 0x2321, tt);
  (R 0x2329 0x232a, tt);
  (R 0x2768 0x2775, tt);
  (R 0x27c0 0x27c0, tt);
  (R 0x27c3 0x27c6, tt);
  (R 0x27c8 0x27c9, tt);
  (R 0x27cb 0x27cd, tt);
  (R 0x27d3 0x27d6, tt);
  (R 0x27dc 0x27de, tt);
  (R 0x27e2 0x27ef, tt);
  (R 0x2983 0x2998, tt);
  (R 0x299b 0x29af, tt);
  (R 0x29b8 0x29b8, tt);
  (R 0x29c0 0x29c5, tt);
  (R 0x29c9 0x29c9, tt);
  (R 0x29ce 0x29d2, tt);
  (R 0x29d4 0x29d5, tt);
  (R 0x29d8 0x29dc, tt);
  (R 0x29e1 0x29e1, tt);
  (R 0x29e3 0x29e5, tt);
  (R 0x29e8 0x29e9, tt);
  (R 0x29f4 0x29f9, tt);
  (R 0x29fc 0x29fd, tt);
  (R 0x2a0a 0x2a1c, tt);
  (R 0x2a1e 0x2a21, tt);
  (R 0x2a24 0x2a24, tt);
  (R 0x2a26 0x2a26, tt);
  (R 0x2a29 0x2a29, tt);
  (R 0x2a2b 0x2a2e, tt);
  (R 0x2a34 0x2a35, tt);
  (R 0x2a3c 0x2a3e, tt);
  (R 0x2a57 0x2a58, tt);
  (R 0x2a64 0x2a65, tt);
  (R 0x2a6a 0x2a6d, tt);
  (R 0x2a6f 0x2a70, tt);
  (R 0x2a73 0x2a74, tt);
  (R 0x2a79 0x2aa3, tt);
  (R 0x2aa6 0x2aad, tt);
  (R 0x2aaf 0x2ad6, tt);
  (R 0x2adc 0x2adc, tt);
  (R 0x2ade 0x2ade, tt);
  (R 0x2ae2 0x2ae6, tt);
  (R 0x2aec 0x2aee, tt);
  (R 0x2af3 0x2af3, tt);
  (R 0x2af7 0x2afb, tt);
  (R 0x2afd 0x2afd, tt);
  (R 0x2e02 0x2e05, tt);
  (R 0x2e09 0x2e0a, tt);
  (R 0x2e0c 0x2e0d, tt);
  (R 0x2e1c 0x2e1d, tt);
  (R 0x2e20 0x2e29, tt);
  (R 0x3008 0x3011, tt);
  (R 0x3014 0x301b, tt);
  (R 0xfe59 0xfe5e, tt);
  (R 0xfe64 0xfe65, tt);
  (R 0xff08 0xff09, tt);
  (R 0xff1c 0xff1c, tt);
  (R 0xff1e 0xff1e, tt);
  (R 0xff3b 0xff3b, tt);
  (R 0xff3d 0xff3d, tt);
  (R 0xff5b 0xff5b, tt);
  (R 0xff5d 0xff5d, tt);
  (R 0xff5f 0xff60, tt);
  (R 0xff62 0xff63, tt);
  (R 0x1d6db 0x1d6db, tt);
  (R 0x1d715 0x1d715, tt);
  (R 0x1d74f 0x1d74f, tt);
  (R 0x1d789 0x1d789, tt);
  (R 0x1d7c3 0x1d7c3, tt)].

(** unic/ucd/bidi/tables/bidi_control.rsv:1-8 (4 entries) *)
Definition BIDI_CONTROL : CharDataTable unit := Range [
  (R 0x61c 0x61c, tt);
  (R 0x200e 0x200f, tt);
  (R 0x202a 0x202e, tt);
  (R 0x2066 0x2069, tt)].
