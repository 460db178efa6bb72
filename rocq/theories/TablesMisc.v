(** GENERATED by tools/gen_tables.py from the .rsv tables of /repo.  Do not edit. *)
From Coq Require Import List NArith.
From Verif Require Import Base RangeModel TableModel Enums TableTypes.
Import ListNotations.
Open Scope N_scope.
Local Notation R := mkRange.

(** unic/ucd/age/tables/age_values.rsv:1-1405 (1401 entries) *)
Definition AGE_TABLE_0 : list (CharRange * UnicodeVersion) := [
  (R 0x0 0x1f5, mkVersion 1 1 0);
  (R 0x1f6 0x1f9, mkVersion 3 0 0);
  (R 0x1fa 0x217, mkVersion 1 1 0);
  (R 0x218 0x21f, mkVersion 3 0 0);
  (R 0x220 0x220, mkVersion 3 2 0);
  (R 0x221 0x221, mkVersion 4 0 0);
  (R 0x222 0x233, mkVersion 3 0 0);
  (R 0x234 0x236, mkVersion 4 0 0);
  (R 0x237 0x241, mkVersion 4 1 0);
  (R 0x242 0x24f, mkVersion 5 0 0);
  (R 0x250 0x2a8, mkVersion 1 1 0);
  (R 0x2a9 0x2ad, mkVersion 3 0 0);
  (R 0x2ae 0x2af, mkVersion 4 0 0);
  (R 0x2b0 0x2de, mkVersion 1 1 0);
  (R 0x2df 0x2df, mkVersion 3 0 0);
  (R 0x2e0 0x2e9, mkVersion 1 1 0);
  (R 0x2ea 0x2ee, mkVersion 3 0 0);
  (R 0x2ef 0x2ff, mkVersion 4 0 0);
  (R 0x300 0x345, mkVersion 1 1 0);
  (R 0x346 0x34e, mkVersion 3 0 0);
  (R 0x34f 0x34f, mkVersion 3 2 0);
  (R 0x350 0x357, mkVersion 4 0 0);
  (R 0x358 0x35c, mkVersion 4 1 0);
  (R 0x35d 0x35f, mkVersion 4 0 0);
  (R 0x360 0x361, mkVersion 1 1 0);
  (R 0x362 0x362, mkVersion 3 0 0);
  (R 0x363 0x36f, mkVersion 3 2 0);
  (R 0x370 0x373, mkVersion 5 1 0);
  (R 0x374 0x375, mkVersion 1 1 0);
  (R 0x376 0x377, mkVersion 5 1 0);
  (R 0x37a 0x37a, mkVersion 1 1 0);
  (R 0x37b 0x37d, mkVersion 5 0 0);
  (R 0x37e 0x37e, mkVersion 1 1 0);
  (R 0x37f 0x37f, mkVersion 7 0 0);
  (R 0x384 0x38a, mkVersion 1 1 0);
  (R 0x38c 0x38c, mkVersion 1 1 0);
  (R 0x38e 0x3a1, mkVersion 1 1 0);
  (R 0x3a3 0x3ce, mkVersion 1 1 0);
  (R 0x3cf 0x3cf, mkVersion 5 1 0);
  (R 0x3d0 0x3d6, mkVersion 1 1 0);
  (R 0x3d7 0x3d7, mkVersion 3 0 0);
  (R 0x3d8 0x3d9, mkVersion 3 2 0);
  (R 0x3da 0x3da, mkVersion 1 1 0);
  (R 0x3db 0x3db, mkVersion 3 0 0);
  (R 0x3dc 0x3dc, mkVersion 1 1 0);
  (R 0x3dd 0x3dd, mkVersion 3 0 0);
  (R 0x3de 0x3de, mkVersion 1 1 0);
  (R 0x3df 0x3df, mkVersion 3 0 0);
  (R 0x3e0 0x3e0, mkVersion 1 1 0);
  (R 0x3e1 0x3e1, mkVersion 3 0 0);
  (R 0x3e2 0x3f3, mkVersion 1 1 0);
  (R 0x3f4 0x3f5, mkVersion 3 1 0);
  (R 0x3f6 0x3f6, mkVersion 3 2 0);
  (R 0x3f7 0x3fb, mkVersion 4 0 0);
  (R 0x3fc 0x3ff, mkVersion 4 1 0);
  (R 0x400 0x400, mkVersion 3 0 0);
  (R 0x401 0x40c, mkVersion 1 1 0);
  (R 0x40d 0x40d, mkVersion 3 0 0);
  (R 0x40e 0x44f, mkVersion 1 1 0);
  (R 0x450 0x450, mkVersion 3 0 0);
  (R 0x451 0x45c, mkVersion 1 1 0);
  (R 0x45d 0x45d, mkVersion 3 0 0);
  (R 0x45e 0x486, mkVersion 1 1 0);
  (R 0x487 0x487, mkVersion 5 1 0);
  (R 0x488 0x489, mkVersion 3 0 0);
  (R 0x48a 0x48b, mkVersion 3 2 0);
  (R 0x48c 0x48f, mkVersion 3 0 0);
  (R 0x490 0x4c4, mkVersion 1 1 0);
  (R 0x4c5 0x4c6, mkVersion 3 2 0);
  (R 0x4c7 0x4c8, mkVersion 1 1 0);
  (R 0x4c9 0x4ca, mkVersion 3 2 0);
  (R 0x4cb 0x4cc, mkVersion 1 1 0);
  (R 0x4cd 0x4ce, mkVersion 3 2 0);
  (R 0x4cf 0x4cf, mkVersion 5 0 0);
  (R 0x4d0 0x4eb, mkVersion 1 1 0);
  (R 0x4ec 0x4ed, mkVersion 3 0 0);
  (R 0x4ee 0x4f5, mkVersion 1 1 0);
  (R 0x4f6 0x4f7, mkVersion 4 1 0);
  (R 0x4f8 0x4f9, mkVersion 1 1 0);
  (R 0x4fa 0x4ff, mkVersion 5 0 0);
  (R 0x500 0x50f, mkVersion 3 2 0);
  (R 0x510 0x513, mkVersion 5 0 0);
  (R 0x514 0x523, mkVersion 5 1 0);
  (R 0x524 0x525, mkVersion 5 2 0);
  (R 0x526 0x527, mkVersion 6 0 0);
  (R 0x528 0x52f, mkVersion 7 0 0);
  (R 0x531 0x556, mkVersion 1 1 0);
  (R 0x559 0x55f, mkVersion 1 1 0);
  (R 0x561 0x587, mkVersion 1 1 0);
  (R 0x589 0x589, mkVersion 1 1 0);
  (R 0x58a 0x58a, mkVersion 3 0 0);
  (R 0x58d 0x58e, mkVersion 7 0 0);
  (R 0x58f 0x58f, mkVersion 6 1 0);
  (R 0x591 0x5a1, mkVersion 2 0 0);
  (R 0x5a2 0x5a2, mkVersion 4 1 0);
  (R 0x5a3 0x5af, mkVersion 2 0 0);
  (R 0x5b0 0x5b9, mkVersion 1 1 0);
  (R 0x5ba 0x5ba, mkVersion 5 0 0);
  (R 0x5bb 0x5c3, mkVersion 1 1 0);
  (R 0x5c4 0x5c4, mkVersion 2 0 0);
  (R 0x5c5 0x5c7, mkVersion 4 1 0);
  (R 0x5d0 0x5ea, mkVersion 1 1 0);
  (R 0x5f0 0x5f4, mkVersion 1 1 0);
  (R 0x600 0x603, mkVersion 4 0 0);
  (R 0x604 0x604, mkVersion 6 1 0);
  (R 0x605 0x605, mkVersion 7 0 0);
  (R 0x606 0x60a, mkVersion 5 1 0);
  (R 0x60b 0x60b, mkVersion 4 1 0);
  (R 0x60c 0x60c, mkVersion 1 1 0);
  (R 0x60d 0x615, mkVersion 4 0 0);
  (R 0x616 0x61a, mkVersion 5 1 0);
  (R 0x61b 0x61b, mkVersion 1 1 0);
  (R 0x61c 0x61c, mkVersion 6 3 0);
  (R 0x61e 0x61e, mkVersion 4 1 0);
  (R 0x61f 0x61f, mkVersion 1 1 0);
  (R 0x620 0x620, mkVersion 6 0 0);
  (R 0x621 0x63a, mkVersion 1 1 0);
  (R 0x63b 0x63f, mkVersion 5 1 0);
  (R 0x640 0x652, mkVersion 1 1 0);
  (R 0x653 0x655, mkVersion 3 0 0);
  (R 0x656 0x658, mkVersion 4 0 0);
  (R 0x659 0x65e, mkVersion 4 1 0);
  (R 0x65f 0x65f, mkVersion 6 0 0);
  (R 0x660 0x66d, mkVersion 1 1 0);
  (R 0x66e 0x66f, mkVersion 3 2 0);
  (R 0x670 0x6b7, mkVersion 1 1 0);
  (R 0x6b8 0x6b9, mkVersion 3 0 0);
  (R 0x6ba 0x6be, mkVersion 1 1 0);
  (R 0x6bf 0x6bf, mkVersion 3 0 0);
  (R 0x6c0 0x6ce, mkVersion 1 1 0);
  (R 0x6cf 0x6cf, mkVersion 3 0 0);
  (R 0x6d0 0x6ed, mkVersion 1 1 0);
  (R 0x6ee 0x6ef, mkVersion 4 0 0);
  (R 0x6f0 0x6f9, mkVersion 1 1 0);
  (R 0x6fa 0x6fe, mkVersion 3 0 0);
  (R 0x6ff 0x6ff, mkVersion 4 0 0);
  (R 0x700 0x70d, mkVersion 3 0 0);
  (R 0x70f 0x72c, mkVersion 3 0 0);
  (R 0x72d 0x72f, mkVersion 4 0 0);
  (R 0x730 0x74a, mkVersion 3 0 0);
  (R 0x74d 0x74f, mkVersion 4 0 0);
  (R 0x750 0x76d, mkVersion 4 1 0);
  (R 0x76e 0x77f, mkVersion 5 1 0);
  (R 0x780 0x7b0, mkVersion 3 0 0);
  (R 0x7b1 0x7b1, mkVersion 3 2 0);
  (R 0x7c0 0x7fa, mkVersion 5 0 0);
  (R 0x800 0x82d, mkVersion 5 2 0);
  (R 0x830 0x83e, mkVersion 5 2 0);
  (R 0x840 0x85b, mkVersion 6 0 0);
  (R 0x85e 0x85e, mkVersion 6 0 0);
  (R 0x860 0x86a, mkVersion 10 0 0);
  (R 0x8a0 0x8a0, mkVersion 6 1 0);
  (R 0x8a1 0x8a1, mkVersion 7 0 0);
  (R 0x8a2 0x8ac, mkVersion 6 1 0);
  (R 0x8ad 0x8b2, mkVersion 7 0 0);
  (R 0x8b3 0x8b4, mkVersion 8 0 0);
  (R 0x8b6 0x8bd, mkVersion 9 0 0);
  (R 0x8d4 0x8e2, mkVersion 9 0 0);
  (R 0x8e3 0x8e3, mkVersion 8 0 0);
  (R 0x8e4 0x8fe, mkVersion 6 1 0);
  (R 0x8ff 0x8ff, mkVersion 7 0 0);
  (R 0x900 0x900, mkVersion 5 2 0);
  (R 0x901 0x903, mkVersion 1 1 0);
  (R 0x904 0x904, mkVersion 4 0 0);
  (R 0x905 0x939, mkVersion 1 1 0);
  (R 0x93a 0x93b, mkVersion 6 0 0);
  (R 0x93c 0x94d, mkVersion 1 1 0);
  (R 0x94e 0x94e, mkVersion 5 2 0);
  (R 0x94f 0x94f, mkVersion 6 0 0);
  (R 0x950 0x954, mkVersion 1 1 0);
  (R 0x955 0x955, mkVersion 5 2 0);
  (R 0x956 0x957, mkVersion 6 0 0);
  (R 0x958 0x970, mkVersion 1 1 0);
  (R 0x971 0x972, mkVersion 5 1 0);
  (R 0x973 0x977, mkVersion 6 0 0);
  (R 0x978 0x978, mkVersion 7 0 0);
  (R 0x979 0x97a, mkVersion 5 2 0);
  (R 0x97b 0x97c, mkVersion 5 0 0);
  (R 0x97d 0x97d, mkVersion 4 1 0);
  (R 0x97e 0x97f, mkVersion 5 0 0);
  (R 0x980 0x980, mkVersion 7 0 0);
  (R 0x981 0x983, mkVersion 1 1 0);
  (R 0x985 0x98c, mkVersion 1 1 0);
  (R 0x98f 0x990, mkVersion 1 1 0);
  (R 0x993 0x9a8, mkVersion 1 1 0);
  (R 0x9aa 0x9b0, mkVersion 1 1 0);
  (R 0x9b2 0x9b2, mkVersion 1 1 0);
  (R 0x9b6 0x9b9, mkVersion 1 1 0);
  (R 0x9bc 0x9bc, mkVersion 1 1 0);
  (R 0x9bd 0x9bd, mkVersion 4 0 0);
  (R 0x9be 0x9c4, mkVersion 1 1 0);
  (R 0x9c7 0x9c8, mkVersion 1 1 0);
  (R 0x9cb 0x9cd, mkVersion 1 1 0);
  (R 0x9ce 0x9ce, mkVersion 4 1 0);
  (R 0x9d7 0x9d7, mkVersion 1 1 0);
  (R 0x9dc 0x9dd, mkVersion 1 1 0);
  (R 0x9df 0x9e3, mkVersion 1 1 0);
  (R 0x9e6 0x9fa, mkVersion 1 1 0);
  (R 0x9fb 0x9fb, mkVersion 5 2 0);
  (R 0x9fc 0x9fd, mkVersion 10 0 0);
  (R 0xa01 0xa01, mkVersion 4 0 0);
  (R 0xa02 0xa02, mkVersion 1 1 0);
  (R 0xa03 0xa03, mkVersion 4 0 0);
  (R 0xa05 0xa0a, mkVersion 1 1 0);
  (R 0xa0f 0xa10, mkVersion 1 1 0);
  (R 0xa13 0xa28, mkVersion 1 1 0);
  (R 0xa2a 0xa30, mkVersion 1 1 0);
  (R 0xa32 0xa33, mkVersion 1 1 0);
  (R 0xa35 0xa36, mkVersion 1 1 0);
  (R 0xa38 0xa39, mkVersion 1 1 0);
  (R 0xa3c 0xa3c, mkVersion 1 1 0);
  (R 0xa3e 0xa42, mkVersion 1 1 0);
  (R 0xa47 0xa48, mkVersion 1 1 0);
  (R 0xa4b 0xa4d, mkVersion 1 1 0);
  (R 0xa51 0xa51, mkVersion 5 1 0);
  (R 0xa59 0xa5c, mkVersion 1 1 0);
  (R 0xa5e 0xa5e, mkVersion 1 1 0);
  (R 0xa66 0xa74, mkVersion 1 1 0);
  (R 0xa75 0xa75, mkVersion 5 1 0);
  (R 0xa81 0xa83, mkVersion 1 1 0);
  (R 0xa85 0xa8b, mkVersion 1 1 0);
  (R 0xa8c 0xa8c, mkVersion 4 0 0);
  (R 0xa8d 0xa8d, mkVersion 1 1 0);
  (R 0xa8f 0xa91, mkVersion 1 1 0);
  (R 0xa93 0xaa8, mkVersion 1 1 0);
  (R 0xaaa 0xab0, mkVersion 1 1 0);
  (R 0xab2 0xab3, mkVersion 1 1 0);
  (R 0xab5 0xab9, mkVersion 1 1 0);
  (R 0xabc 0xac5, mkVersion 1 1 0);
  (R 0xac7 0xac9, mkVersion 1 1 0);
  (R 0xacb 0xacd, mkVersion 1 1 0);
  (R 0xad0 0xad0, mkVersion 1 1 0);
  (R 0xae0 0xae0, mkVersion 1 1 0);
  (R 0xae1 0xae3, mkVersion 4 0 0);
  (R 0xae6 0xaef, mkVersion 1 1 0);
  (R 0xaf0 0xaf0, mkVersion 6 1 0);
  (R 0xaf1 0xaf1, mkVersion 4 0 0);
  (R 0xaf9 0xaf9, mkVersion 8 0 0);
  (R 0xafa 0xaff, mkVersion 10 0 0);
  (R 0xb01 0xb03, mkVersion 1 1 0);
  (R 0xb05 0xb0c, mkVersion 1 1 0);
  (R 0xb0f 0xb10, mkVersion 1 1 0);
  (R 0xb13 0xb28, mkVersion 1 1 0);
  (R 0xb2a 0xb30, mkVersion 1 1 0);
  (R 0xb32 0xb33, mkVersion 1 1 0);
  (R 0xb35 0xb35, mkVersion 4 0 0);
  (R 0xb36 0xb39, mkVersion 1 1 0);
  (R 0xb3c 0xb43, mkVersion 1 1 0);
  (R 0xb44 0xb44, mkVersion 5 1 0);
  (R 0xb47 0xb48, mkVersion 1 1 0);
  (R 0xb4b 0xb4d, mkVersion 1 1 0);
  (R 0xb56 0xb57, mkVersion 1 1 0);
  (R 0xb5c 0xb5d, mkVersion 1 1 0);
  (R 0xb5f 0xb61, mkVersion 1 1 0);
  (R 0xb62 0xb63, mkVersion 5 1 0);
  (R 0xb66 0xb70, mkVersion 1 1 0);
  (R 0xb71 0xb71, mkVersion 4 0 0);
  (R 0xb72 0xb77, mkVersion 6 0 0);
  (R 0xb82 0xb83, mkVersion 1 1 0);
  (R 0xb85 0xb8a, mkVersion 1 1 0);
  (R 0xb8e 0xb90, mkVersion 1 1 0);
  (R 0xb92 0xb95, mkVersion 1 1 0);
  (R 0xb99 0xb9a, mkVersion 1 1 0);
  (R 0xb9c 0xb9c, mkVersion 1 1 0);
  (R 0xb9e 0xb9f, mkVersion 1 1 0);
  (R 0xba3 0xba4, mkVersion 1 1 0);
  (R 0xba8 0xbaa, mkVersion 1 1 0);
  (R 0xbae 0xbb5, mkVersion 1 1 0);
  (R 0xbb6 0xbb6, mkVersion 4 1 0);
  (R 0xbb7 0xbb9, mkVersion 1 1 0);
  (R 0xbbe 0xbc2, mkVersion 1 1 0);
  (R 0xbc6 0xbc8, mkVersion 1 1 0);
  (R 0xbca 0xbcd, mkVersion 1 1 0);
  (R 0xbd0 0xbd0, mkVersion 5 1 0);
  (R 0xbd7 0xbd7, mkVersion 1 1 0);
  (R 0xbe6 0xbe6, mkVersion 4 1 0);
  (R 0xbe7 0xbf2, mkVersion 1 1 0);
  (R 0xbf3 0xbfa, mkVersion 4 0 0);
  (R 0xc00 0xc00, mkVersion 7 0 0);
  (R 0xc01 0xc03, mkVersion 1 1 0);
  (R 0xc05 0xc0c, mkVersion 1 1 0);
  (R 0xc0e 0xc10, mkVersion 1 1 0);
  (R 0xc12 0xc28, mkVersion 1 1 0);
  (R 0xc2a 0xc33, mkVersion 1 1 0);
  (R 0xc34 0xc34, mkVersion 7 0 0);
  (R 0xc35 0xc39, mkVersion 1 1 0);
  (R 0xc3d 0xc3d, mkVersion 5 1 0);
  (R 0xc3e 0xc44, mkVersion 1 1 0);
  (R 0xc46 0xc48, mkVersion 1 1 0);
  (R 0xc4a 0xc4d, mkVersion 1 1 0);
  (R 0xc55 0xc56, mkVersion 1 1 0);
  (R 0xc58 0xc59, mkVersion 5 1 0);
  (R 0xc5a 0xc5a, mkVersion 8 0 0);
  (R 0xc60 0xc61, mkVersion 1 1 0);
  (R 0xc62 0xc63, mkVersion 5 1 0);
  (R 0xc66 0xc6f, mkVersion 1 1 0);
  (R 0xc78 0xc7f, mkVersion 5 1 0);
  (R 0xc80 0xc80, mkVersion 9 0 0);
  (R 0xc81 0xc81, mkVersion 7 0 0);
  (R 0xc82 0xc83, mkVersion 1 1 0);
  (R 0xc85 0xc8c, mkVersion 1 1 0);
  (R 0xc8e 0xc90, mkVersion 1 1 0);
  (R 0xc92 0xca8, mkVersion 1 1 0);
  (R 0xcaa 0xcb3, mkVersion 1 1 0);
  (R 0xcb5 0xcb9, mkVersion 1 1 0);
  (R 0xcbc 0xcbd, mkVersion 4 0 0);
  (R 0xcbe 0xcc4, mkVersion 1 1 0);
  (R 0xcc6 0xcc8, mkVersion 1 1 0);
  (R 0xcca 0xccd, mkVersion 1 1 0);
  (R 0xcd5 0xcd6, mkVersion 1 1 0);
  (R 0xcde 0xcde, mkVersion 1 1 0);
  (R 0xce0 0xce1, mkVersion 1 1 0);
  (R 0xce2 0xce3, mkVersion 5 0 0);
  (R 0xce6 0xcef, mkVersion 1 1 0);
  (R 0xcf1 0xcf2, mkVersion 5 0 0);
  (R 0xd00 0xd00, mkVersion 10 0 0);
  (R 0xd01 0xd01, mkVersion 7 0 0);
  (R 0xd02 0xd03, mkVersion 1 1 0);
  (R 0xd05 0xd0c, mkVersion 1 1 0);
  (R 0xd0e 0xd10, mkVersion 1 1 0);
  (R 0xd12 0xd28, mkVersion 1 1 0);
  (R 0xd29 0xd29, mkVersion 6 0 0);
  (R 0xd2a 0xd39, mkVersion 1 1 0);
  (R 0xd3a 0xd3a, mkVersion 6 0 0);
  (R 0xd3b 0xd3c, mkVersion 10 0 0);
  (R 0xd3d 0xd3d, mkVersion 5 1 0);
  (R 0xd3e 0xd43, mkVersion 1 1 0);
  (R 0xd44 0xd44, mkVersion 5 1 0);
  (R 0xd46 0xd48, mkVersion 1 1 0);
  (R 0xd4a 0xd4d, mkVersion 1 1 0);
  (R 0xd4e 0xd4e, mkVersion 6 0 0);
  (R 0xd4f 0xd4f, mkVersion 9 0 0);
  (R 0xd54 0xd56, mkVersion 9 0 0);
  (R 0xd57 0xd57, mkVersion 1 1 0);
  (R 0xd58 0xd5e, mkVersion 9 0 0);
  (R 0xd5f 0xd5f, mkVersion 8 0 0);
  (R 0xd60 0xd61, mkVersion 1 1 0);
  (R 0xd62 0xd63, mkVersion 5 1 0);
  (R 0xd66 0xd6f, mkVersion 1 1 0);
  (R 0xd70 0xd75, mkVersion 5 1 0);
  (R 0xd76 0xd78, mkVersion 9 0 0);
  (R 0xd79 0xd7f, mkVersion 5 1 0);
  (R 0xd82 0xd83, mkVersion 3 0 0);
  (R 0xd85 0xd96, mkVersion 3 0 0);
  (R 0xd9a 0xdb1, mkVersion 3 0 0);
  (R 0xdb3 0xdbb, mkVersion 3 0 0);
  (R 0xdbd 0xdbd, mkVersion 3 0 0);
  (R 0xdc0 0xdc6, mkVersion 3 0 0);
  (R 0xdca 0xdca, mkVersion 3 0 0);
  (R 0xdcf 0xdd4, mkVersion 3 0 0);
  (R 0xdd6 0xdd6, mkVersion 3 0 0);
  (R 0xdd8 0xddf, mkVersion 3 0 0);
  (R 0xde6 0xdef, mkVersion 7 0 0);
  (R 0xdf2 0xdf4, mkVersion 3 0 0);
  (R 0xe01 0xe3a, mkVersion 1 1 0);
  (R 0xe3f 0xe5b, mkVersion 1 1 0);
  (R 0xe81 0xe82, mkVersion 1 1 0);
  (R 0xe84 0xe84, mkVersion 1 1 0);
  (R 0xe87 0xe88, mkVersion 1 1 0);
  (R 0xe8a 0xe8a, mkVersion 1 1 0);
  (R 0xe8d 0xe8d, mkVersion 1 1 0);
  (R 0xe94 0xe97, mkVersion 1 1 0);
  (R 0xe99 0xe9f, mkVersion 1 1 0);
  (R 0xea1 0xea3, mkVersion 1 1 0);
  (R 0xea5 0xea5, mkVersion 1 1 0);
  (R 0xea7 0xea7, mkVersion 1 1 0);
  (R 0xeaa 0xeab, mkVersion 1 1 0);
  (R 0xead 0xeb9, mkVersion 1 1 0);
  (R 0xebb 0xebd, mkVersion 1 1 0);
  (R 0xec0 0xec4, mkVersion 1 1 0);
  (R 0xec6 0xec6, mkVersion 1 1 0);
  (R 0xec8 0xecd, mkVersion 1 1 0);
  (R 0xed0 0xed9, mkVersion 1 1 0);
  (R 0xedc 0xedd, mkVersion 1 1 0);
  (R 0xede 0xedf, mkVersion 6 1 0);
  (R 0xf00 0xf47, mkVersion 2 0 0);
  (R 0xf49 0xf69, mkVersion 2 0 0);
  (R 0xf6a 0xf6a, mkVersion 3 0 0);
  (R 0xf6b 0xf6c, mkVersion 5 1 0);
  (R 0xf71 0xf8b, mkVersion 2 0 0);
  (R 0xf8c 0xf8f, mkVersion 6 0 0);
  (R 0xf90 0xf95, mkVersion 2 0 0);
  (R 0xf96 0xf96, mkVersion 3 0 0);
  (R 0xf97 0xf97, mkVersion 2 0 0);
  (R 0xf99 0xfad, mkVersion 2 0 0);
  (R 0xfae 0xfb0, mkVersion 3 0 0);
  (R 0xfb1 0xfb7, mkVersion 2 0 0);
  (R 0xfb8 0xfb8, mkVersion 3 0 0);
  (R 0xfb9 0xfb9, mkVersion 2 0 0);
  (R 0xfba 0xfbc, mkVersion 3 0 0);
  (R 0xfbe 0xfcc, mkVersion 3 0 0);
  (R 0xfce 0xfce, mkVersion 5 1 0);
  (R 0xfcf 0xfcf, mkVersion 3 0 0);
  (R 0xfd0 0xfd1, mkVersion 4 1 0);
  (R 0xfd2 0xfd4, mkVersion 5 1 0);
  (R 0xfd5 0xfd8, mkVersion 5 2 0);
  (R 0xfd9 0xfda, mkVersion 6 0 0);
  (R 0x1000 0x1021, mkVersion 3 0 0);
  (R 0x1022 0x1022, mkVersion 5 1 0);
  (R 0x1023 0x1027, mkVersion 3 0 0)].

Definition AGE_TABLE_1 : list (CharRange * UnicodeVersion) := [
  (R 0x1028 0x1028, mkVersion 5 1 0);
  (R 0x1029 0x102a, mkVersion 3 0 0);
  (R 0x102b 0x102b, mkVersion 5 1 0);
  (R 0x102c 0x1032, mkVersion 3 0 0);
  (R 0x1033 0x1035, mkVersion 5 1 0);
  (R 0x1036 0x1039, mkVersion 3 0 0);
  (R 0x103a 0x103f, mkVersion 5 1 0);
  (R 0x1040 0x1059, mkVersion 3 0 0);
  (R 0x105a 0x1099, mkVersion 5 1 0);
  (R 0x109a 0x109d, mkVersion 5 2 0);
  (R 0x109e 0x109f, mkVersion 5 1 0);
  (R 0x10a0 0x10c5, mkVersion 1 1 0);
  (R 0x10c7 0x10c7, mkVersion 6 1 0);
  (R 0x10cd 0x10cd, mkVersion 6 1 0);
  (R 0x10d0 0x10f6, mkVersion 1 1 0);
  (R 0x10f7 0x10f8, mkVersion 3 2 0);
  (R 0x10f9 0x10fa, mkVersion 4 1 0);
  (R 0x10fb 0x10fb, mkVersion 1 1 0);
  (R 0x10fc 0x10fc, mkVersion 4 1 0);
  (R 0x10fd 0x10ff, mkVersion 6 1 0);
  (R 0x1100 0x1159, mkVersion 1 1 0);
  (R 0x115a 0x115e, mkVersion 5 2 0);
  (R 0x115f 0x11a2, mkVersion 1 1 0);
  (R 0x11a3 0x11a7, mkVersion 5 2 0);
  (R 0x11a8 0x11f9, mkVersion 1 1 0);
  (R 0x11fa 0x11ff, mkVersion 5 2 0);
  (R 0x1200 0x1206, mkVersion 3 0 0);
  (R 0x1207 0x1207, mkVersion 4 1 0);
  (R 0x1208 0x1246, mkVersion 3 0 0);
  (R 0x1247 0x1247, mkVersion 4 1 0);
  (R 0x1248 0x1248, mkVersion 3 0 0);
  (R 0x124a 0x124d, mkVersion 3 0 0);
  (R 0x1250 0x1256, mkVersion 3 0 0);
  (R 0x1258 0x1258, mkVersion 3 0 0);
  (R 0x125a 0x125d, mkVersion 3 0 0);
  (R 0x1260 0x1286, mkVersion 3 0 0);
  (R 0x1287 0x1287, mkVersion 4 1 0);
  (R 0x1288 0x1288, mkVersion 3 0 0);
  (R 0x128a 0x128d, mkVersion 3 0 0);
  (R 0x1290 0x12ae, mkVersion 3 0 0);
  (R 0x12af 0x12af, mkVersion 4 1 0);
  (R 0x12b0 0x12b0, mkVersion 3 0 0);
  (R 0x12b2 0x12b5, mkVersion 3 0 0);
  (R 0x12b8 0x12be, mkVersion 3 0 0);
  (R 0x12c0 0x12c0, mkVersion 3 0 0);
  (R 0x12c2 0x12c5, mkVersion 3 0 0);
  (R 0x12c8 0x12ce, mkVersion 3 0 0);
  (R 0x12cf 0x12cf, mkVersion 4 1 0);
  (R 0x12d0 0x12d6, mkVersion 3 0 0);
  (R 0x12d8 0x12ee, mkVersion 3 0 0);
  (R 0x12ef 0x12ef, mkVersion 4 1 0);
  (R 0x12f0 0x130e, mkVersion 3 0 0);
  (R 0x130f 0x130f, mkVersion 4 1 0);
  (R 0x1310 0x1310, mkVersion 3 0 0);
  (R 0x1312 0x1315, mkVersion 3 0 0);
  (R 0x1318 0x131e, mkVersion 3 0 0);
  (R 0x131f 0x131f, mkVersion 4 1 0);
  (R 0x1320 0x1346, mkVersion 3 0 0);
  (R 0x1347 0x1347, mkVersion 4 1 0);
  (R 0x1348 0x135a, mkVersion 3 0 0);
  (R 0x135d 0x135e, mkVersion 6 0 0);
  (R 0x135f 0x1360, mkVersion 4 1 0);
  (R 0x1361 0x137c, mkVersion 3 0 0);
  (R 0x1380 0x1399, mkVersion 4 1 0);
  (R 0x13a0 0x13f4, mkVersion 3 0 0);
  (R 0x13f5 0x13f5, mkVersion 8 0 0);
  (R 0x13f8 0x13fd, mkVersion 8 0 0);
  (R 0x1400 0x1400, mkVersion 5 2 0);
  (R 0x1401 0x1676, mkVersion 3 0 0);
  (R 0x1677 0x167f, mkVersion 5 2 0);
  (R 0x1680 0x169c, mkVersion 3 0 0);
  (R 0x16a0 0x16f0, mkVersion 3 0 0);
  (R 0x16f1 0x16f8, mkVersion 7 0 0);
  (R 0x1700 0x170c, mkVersion 3 2 0);
  (R 0x170e 0x1714, mkVersion 3 2 0);
  (R 0x1720 0x1736, mkVersion 3 2 0);
  (R 0x1740 0x1753, mkVersion 3 2 0);
  (R 0x1760 0x176c, mkVersion 3 2 0);
  (R 0x176e 0x1770, mkVersion 3 2 0);
  (R 0x1772 0x1773, mkVersion 3 2 0);
  (R 0x1780 0x17dc, mkVersion 3 0 0);
  (R 0x17dd 0x17dd, mkVersion 4 0 0);
  (R 0x17e0 0x17e9, mkVersion 3 0 0);
  (R 0x17f0 0x17f9, mkVersion 4 0 0);
  (R 0x1800 0x180e, mkVersion 3 0 0);
  (R 0x1810 0x1819, mkVersion 3 0 0);
  (R 0x1820 0x1877, mkVersion 3 0 0);
  (R 0x1880 0x18a9, mkVersion 3 0 0);
  (R 0x18aa 0x18aa, mkVersion 5 1 0);
  (R 0x18b0 0x18f5, mkVersion 5 2 0);
  (R 0x1900 0x191c, mkVersion 4 0 0);
  (R 0x191d 0x191e, mkVersion 7 0 0);
  (R 0x1920 0x192b, mkVersion 4 0 0);
  (R 0x1930 0x193b, mkVersion 4 0 0);
  (R 0x1940 0x1940, mkVersion 4 0 0);
  (R 0x1944 0x196d, mkVersion 4 0 0);
  (R 0x1970 0x1974, mkVersion 4 0 0);
  (R 0x1980 0x19a9, mkVersion 4 1 0);
  (R 0x19aa 0x19ab, mkVersion 5 2 0);
  (R 0x19b0 0x19c9, mkVersion 4 1 0);
  (R 0x19d0 0x19d9, mkVersion 4 1 0);
  (R 0x19da 0x19da, mkVersion 5 2 0);
  (R 0x19de 0x19df, mkVersion 4 1 0);
  (R 0x19e0 0x19ff, mkVersion 4 0 0);
  (R 0x1a00 0x1a1b, mkVersion 4 1 0);
  (R 0x1a1e 0x1a1f, mkVersion 4 1 0);
  (R 0x1a20 0x1a5e, mkVersion 5 2 0);
  (R 0x1a60 0x1a7c, mkVersion 5 2 0);
  (R 0x1a7f 0x1a89, mkVersion 5 2 0);
  (R 0x1a90 0x1a99, mkVersion 5 2 0);
  (R 0x1aa0 0x1aad, mkVersion 5 2 0);
  (R 0x1ab0 0x1abe, mkVersion 7 0 0);
  (R 0x1b00 0x1b4b, mkVersion 5 0 0);
  (R 0x1b50 0x1b7c, mkVersion 5 0 0);
  (R 0x1b80 0x1baa, mkVersion 5 1 0);
  (R 0x1bab 0x1bad, mkVersion 6 1 0);
  (R 0x1bae 0x1bb9, mkVersion 5 1 0);
  (R 0x1bba 0x1bbf, mkVersion 6 1 0);
  (R 0x1bc0 0x1bf3, mkVersion 6 0 0);
  (R 0x1bfc 0x1bff, mkVersion 6 0 0);
  (R 0x1c00 0x1c37, mkVersion 5 1 0);
  (R 0x1c3b 0x1c49, mkVersion 5 1 0);
  (R 0x1c4d 0x1c7f, mkVersion 5 1 0);
  (R 0x1c80 0x1c88, mkVersion 9 0 0);
  (R 0x1cc0 0x1cc7, mkVersion 6 1 0);
  (R 0x1cd0 0x1cf2, mkVersion 5 2 0);
  (R 0x1cf3 0x1cf6, mkVersion 6 1 0);
  (R 0x1cf7 0x1cf7, mkVersion 10 0 0);
  (R 0x1cf8 0x1cf9, mkVersion 7 0 0);
  (R 0x1d00 0x1d6b, mkVersion 4 0 0);
  (R 0x1d6c 0x1dc3, mkVersion 4 1 0);
  (R 0x1dc4 0x1dca, mkVersion 5 0 0);
  (R 0x1dcb 0x1de6, mkVersion 5 1 0);
  (R 0x1de7 0x1df5, mkVersion 7 0 0);
  (R 0x1df6 0x1df9, mkVersion 10 0 0);
  (R 0x1dfb 0x1dfb, mkVersion 9 0 0);
  (R 0x1dfc 0x1dfc, mkVersion 6 0 0);
  (R 0x1dfd 0x1dfd, mkVersion 5 2 0);
  (R 0x1dfe 0x1dff, mkVersion 5 0 0);
  (R 0x1e00 0x1e9a, mkVersion 1 1 0);
  (R 0x1e9b 0x1e9b, mkVersion 2 0 0);
  (R 0x1e9c 0x1e9f, mkVersion 5 1 0);
  (R 0x1ea0 0x1ef9, mkVersion 1 1 0);
  (R 0x1efa 0x1eff, mkVersion 5 1 0);
  (R 0x1f00 0x1f15, mkVersion 1 1 0);
  (R 0x1f18 0x1f1d, mkVersion 1 1 0);
  (R 0x1f20 0x1f45, mkVersion 1 1 0);
  (R 0x1f48 0x1f4d, mkVersion 1 1 0);
  (R 0x1f50 0x1f57, mkVersion 1 1 0);
  (R 0x1f59 0x1f59, mkVersion 1 1 0);
  (R 0x1f5b 0x1f5b, mkVersion 1 1 0);
  (R 0x1f5d 0x1f5d, mkVersion 1 1 0);
  (R 0x1f5f 0x1f7d, mkVersion 1 1 0);
  (R 0x1f80 0x1fb4, mkVersion 1 1 0);
  (R 0x1fb6 0x1fc4, mkVersion 1 1 0);
  (R 0x1fc6 0x1fd3, mkVersion 1 1 0);
  (R 0x1fd6 0x1fdb, mkVersion 1 1 0);
  (R 0x1fdd 0x1fef, mkVersion 1 1 0);
  (R 0x1ff2 0x1ff4, mkVersion 1 1 0);
  (R 0x1ff6 0x1ffe, mkVersion 1 1 0);
  (R 0x2000 0x202e, mkVersion 1 1 0);
  (R 0x202f 0x202f, mkVersion 3 0 0);
  (R 0x2030 0x2046, mkVersion 1 1 0);
  (R 0x2047 0x2047, mkVersion 3 2 0);
  (R 0x2048 0x204d, mkVersion 3 0 0);
  (R 0x204e 0x2052, mkVersion 3 2 0);
  (R 0x2053 0x2054, mkVersion 4 0 0);
  (R 0x2055 0x2056, mkVersion 4 1 0);
  (R 0x2057 0x2057, mkVersion 3 2 0);
  (R 0x2058 0x205e, mkVersion 4 1 0);
  (R 0x205f 0x2063, mkVersion 3 2 0);
  (R 0x2064 0x2064, mkVersion 5 1 0);
  (R 0x2066 0x2069, mkVersion 6 3 0);
  (R 0x206a 0x2070, mkVersion 1 1 0);
  (R 0x2071 0x2071, mkVersion 3 2 0);
  (R 0x2074 0x208e, mkVersion 1 1 0);
  (R 0x2090 0x2094, mkVersion 4 1 0);
  (R 0x2095 0x209c, mkVersion 6 0 0);
  (R 0x20a0 0x20aa, mkVersion 1 1 0);
  (R 0x20ab 0x20ab, mkVersion 2 0 0);
  (R 0x20ac 0x20ac, mkVersion 2 1 0);
  (R 0x20ad 0x20af, mkVersion 3 0 0);
  (R 0x20b0 0x20b1, mkVersion 3 2 0);
  (R 0x20b2 0x20b5, mkVersion 4 1 0);
  (R 0x20b6 0x20b8, mkVersion 5 2 0);
  (R 0x20b9 0x20b9, mkVersion 6 0 0);
  (R 0x20ba 0x20ba, mkVersion 6 2 0);
  (R 0x20bb 0x20bd, mkVersion 7 0 0);
  (R 0x20be 0x20be, mkVersion 8 0 0);
  (R 0x20bf 0x20bf, mkVersion 10 0 0);
  (R 0x20d0 0x20e1, mkVersion 1 1 0);
  (R 0x20e2 0x20e3, mkVersion 3 0 0);
  (R 0x20e4 0x20ea, mkVersion 3 2 0);
  (R 0x20eb 0x20eb, mkVersion 4 1 0);
  (R 0x20ec 0x20ef, mkVersion 5 0 0);
  (R 0x20f0 0x20f0, mkVersion 5 1 0);
  (R 0x2100 0x2138, mkVersion 1 1 0);
  (R 0x2139 0x213a, mkVersion 3 0 0);
  (R 0x213b 0x213b, mkVersion 4 0 0);
  (R 0x213c 0x213c, mkVersion 4 1 0);
  (R 0x213d 0x214b, mkVersion 3 2 0);
  (R 0x214c 0x214c, mkVersion 4 1 0);
  (R 0x214d 0x214e, mkVersion 5 0 0);
  (R 0x214f 0x214f, mkVersion 5 1 0);
  (R 0x2150 0x2152, mkVersion 5 2 0);
  (R 0x2153 0x2182, mkVersion 1 1 0);
  (R 0x2183 0x2183, mkVersion 3 0 0);
  (R 0x2184 0x2184, mkVersion 5 0 0);
  (R 0x2185 0x2188, mkVersion 5 1 0);
  (R 0x2189 0x2189, mkVersion 5 2 0);
  (R 0x218a 0x218b, mkVersion 8 0 0);
  (R 0x2190 0x21ea, mkVersion 1 1 0);
  (R 0x21eb 0x21f3, mkVersion 3 0 0);
  (R 0x21f4 0x21ff, mkVersion 3 2 0);
  (R 0x2200 0x22f1, mkVersion 1 1 0);
  (R 0x22f2 0x22ff, mkVersion 3 2 0);
  (R 0x2300 0x2300, mkVersion 1 1 0);
  (R 0x2301 0x2301, mkVersion 3 0 0);
  (R 0x2302 0x237a, mkVersion 1 1 0);
  (R 0x237b 0x237b, mkVersion 3 0 0);
  (R 0x237c 0x237c, mkVersion 3 2 0);
  (R 0x237d 0x239a, mkVersion 3 0 0);
  (R 0x239b 0x23ce, mkVersion 3 2 0);
  (R 0x23cf 0x23d0, mkVersion 4 0 0);
  (R 0x23d1 0x23db, mkVersion 4 1 0);
  (R 0x23dc 0x23e7, mkVersion 5 0 0);
  (R 0x23e8 0x23e8, mkVersion 5 2 0);
  (R 0x23e9 0x23f3, mkVersion 6 0 0);
  (R 0x23f4 0x23fa, mkVersion 7 0 0);
  (R 0x23fb 0x23fe, mkVersion 9 0 0);
  (R 0x23ff 0x23ff, mkVersion 10 0 0);
  (R 0x2400 0x2424, mkVersion 1 1 0);
  (R 0x2425 0x2426, mkVersion 3 0 0);
  (R 0x2440 0x244a, mkVersion 1 1 0);
  (R 0x2460 0x24ea, mkVersion 1 1 0);
  (R 0x24eb 0x24fe, mkVersion 3 2 0);
  (R 0x24ff 0x24ff, mkVersion 4 0 0);
  (R 0x2500 0x2595, mkVersion 1 1 0);
  (R 0x2596 0x259f, mkVersion 3 2 0);
  (R 0x25a0 0x25ef, mkVersion 1 1 0);
  (R 0x25f0 0x25f7, mkVersion 3 0 0);
  (R 0x25f8 0x25ff, mkVersion 3 2 0);
  (R 0x2600 0x2613, mkVersion 1 1 0);
  (R 0x2614 0x2615, mkVersion 4 0 0);
  (R 0x2616 0x2617, mkVersion 3 2 0);
  (R 0x2618 0x2618, mkVersion 4 1 0);
  (R 0x2619 0x2619, mkVersion 3 0 0);
  (R 0x261a 0x266f, mkVersion 1 1 0);
  (R 0x2670 0x2671, mkVersion 3 0 0);
  (R 0x2672 0x267d, mkVersion 3 2 0);
  (R 0x267e 0x267f, mkVersion 4 1 0);
  (R 0x2680 0x2689, mkVersion 3 2 0);
  (R 0x268a 0x2691, mkVersion 4 0 0);
  (R 0x2692 0x269c, mkVersion 4 1 0);
  (R 0x269d 0x269d, mkVersion 5 1 0);
  (R 0x269e 0x269f, mkVersion 5 2 0);
  (R 0x26a0 0x26a1, mkVersion 4 0 0);
  (R 0x26a2 0x26b1, mkVersion 4 1 0);
  (R 0x26b2 0x26b2, mkVersion 5 0 0);
  (R 0x26b3 0x26bc, mkVersion 5 1 0);
  (R 0x26bd 0x26bf, mkVersion 5 2 0);
  (R 0x26c0 0x26c3, mkVersion 5 1 0);
  (R 0x26c4 0x26cd, mkVersion 5 2 0);
  (R 0x26ce 0x26ce, mkVersion 6 0 0);
  (R 0x26cf 0x26e1, mkVersion 5 2 0);
  (R 0x26e2 0x26e2, mkVersion 6 0 0);
  (R 0x26e3 0x26e3, mkVersion 5 2 0);
  (R 0x26e4 0x26e7, mkVersion 6 0 0);
  (R 0x26e8 0x26ff, mkVersion 5 2 0);
  (R 0x2700 0x2700, mkVersion 7 0 0);
  (R 0x2701 0x2704, mkVersion 1 1 0);
  (R 0x2705 0x2705, mkVersion 6 0 0);
  (R 0x2706 0x2709, mkVersion 1 1 0);
  (R 0x270a 0x270b, mkVersion 6 0 0);
  (R 0x270c 0x2727, mkVersion 1 1 0);
  (R 0x2728 0x2728, mkVersion 6 0 0);
  (R 0x2729 0x274b, mkVersion 1 1 0);
  (R 0x274c 0x274c, mkVersion 6 0 0);
  (R 0x274d 0x274d, mkVersion 1 1 0);
  (R 0x274e 0x274e, mkVersion 6 0 0);
  (R 0x274f 0x2752, mkVersion 1 1 0);
  (R 0x2753 0x2755, mkVersion 6 0 0);
  (R 0x2756 0x2756, mkVersion 1 1 0);
  (R 0x2757 0x2757, mkVersion 5 2 0);
  (R 0x2758 0x275e, mkVersion 1 1 0);
  (R 0x275f 0x2760, mkVersion 6 0 0);
  (R 0x2761 0x2767, mkVersion 1 1 0);
  (R 0x2768 0x2775, mkVersion 3 2 0);
  (R 0x2776 0x2794, mkVersion 1 1 0);
  (R 0x2795 0x2797, mkVersion 6 0 0);
  (R 0x2798 0x27af, mkVersion 1 1 0);
  (R 0x27b0 0x27b0, mkVersion 6 0 0);
  (R 0x27b1 0x27be, mkVersion 1 1 0);
  (R 0x27bf 0x27bf, mkVersion 6 0 0);
  (R 0x27c0 0x27c6, mkVersion 4 1 0);
  (R 0x27c7 0x27ca, mkVersion 5 0 0);
  (R 0x27cb 0x27cb, mkVersion 6 1 0);
  (R 0x27cc 0x27cc, mkVersion 5 1 0);
  (R 0x27cd 0x27cd, mkVersion 6 1 0);
  (R 0x27ce 0x27cf, mkVersion 6 0 0);
  (R 0x27d0 0x27eb, mkVersion 3 2 0);
  (R 0x27ec 0x27ef, mkVersion 5 1 0);
  (R 0x27f0 0x27ff, mkVersion 3 2 0);
  (R 0x2800 0x28ff, mkVersion 3 0 0);
  (R 0x2900 0x2aff, mkVersion 3 2 0);
  (R 0x2b00 0x2b0d, mkVersion 4 0 0);
  (R 0x2b0e 0x2b13, mkVersion 4 1 0);
  (R 0x2b14 0x2b1a, mkVersion 5 0 0);
  (R 0x2b1b 0x2b1f, mkVersion 5 1 0);
  (R 0x2b20 0x2b23, mkVersion 5 0 0);
  (R 0x2b24 0x2b4c, mkVersion 5 1 0);
  (R 0x2b4d 0x2b4f, mkVersion 7 0 0);
  (R 0x2b50 0x2b54, mkVersion 5 1 0);
  (R 0x2b55 0x2b59, mkVersion 5 2 0);
  (R 0x2b5a 0x2b73, mkVersion 7 0 0);
  (R 0x2b76 0x2b95, mkVersion 7 0 0);
  (R 0x2b98 0x2bb9, mkVersion 7 0 0);
  (R 0x2bbd 0x2bc8, mkVersion 7 0 0);
  (R 0x2bca 0x2bd1, mkVersion 7 0 0);
  (R 0x2bd2 0x2bd2, mkVersion 10 0 0);
  (R 0x2bec 0x2bef, mkVersion 8 0 0);
  (R 0x2c00 0x2c2e, mkVersion 4 1 0);
  (R 0x2c30 0x2c5e, mkVersion 4 1 0);
  (R 0x2c60 0x2c6c, mkVersion 5 0 0);
  (R 0x2c6d 0x2c6f, mkVersion 5 1 0);
  (R 0x2c70 0x2c70, mkVersion 5 2 0);
  (R 0x2c71 0x2c73, mkVersion 5 1 0);
  (R 0x2c74 0x2c77, mkVersion 5 0 0);
  (R 0x2c78 0x2c7d, mkVersion 5 1 0);
  (R 0x2c7e 0x2c7f, mkVersion 5 2 0);
  (R 0x2c80 0x2cea, mkVersion 4 1 0);
  (R 0x2ceb 0x2cf1, mkVersion 5 2 0);
  (R 0x2cf2 0x2cf3, mkVersion 6 1 0);
  (R 0x2cf9 0x2d25, mkVersion 4 1 0);
  (R 0x2d27 0x2d27, mkVersion 6 1 0);
  (R 0x2d2d 0x2d2d, mkVersion 6 1 0);
  (R 0x2d30 0x2d65, mkVersion 4 1 0);
  (R 0x2d66 0x2d67, mkVersion 6 1 0);
  (R 0x2d6f 0x2d6f, mkVersion 4 1 0);
  (R 0x2d70 0x2d70, mkVersion 6 0 0);
  (R 0x2d7f 0x2d7f, mkVersion 6 0 0);
  (R 0x2d80 0x2d96, mkVersion 4 1 0);
  (R 0x2da0 0x2da6, mkVersion 4 1 0);
  (R 0x2da8 0x2dae, mkVersion 4 1 0);
  (R 0x2db0 0x2db6, mkVersion 4 1 0);
  (R 0x2db8 0x2dbe, mkVersion 4 1 0);
  (R 0x2dc0 0x2dc6, mkVersion 4 1 0);
  (R 0x2dc8 0x2dce, mkVersion 4 1 0);
  (R 0x2dd0 0x2dd6, mkVersion 4 1 0);
  (R 0x2dd8 0x2dde, mkVersion 4 1 0);
  (R 0x2de0 0x2dff, mkVersion 5 1 0);
  (R 0x2e00 0x2e17, mkVersion 4 1 0);
  (R 0x2e18 0x2e1b, mkVersion 5 1 0);
  (R 0x2e1c 0x2e1d, mkVersion 4 1 0);
  (R 0x2e1e 0x2e30, mkVersion 5 1 0);
  (R 0x2e31 0x2e31, mkVersion 5 2 0);
  (R 0x2e32 0x2e3b, mkVersion 6 1 0);
  (R 0x2e3c 0x2e42, mkVersion 7 0 0);
  (R 0x2e43 0x2e44, mkVersion 9 0 0);
  (R 0x2e45 0x2e49, mkVersion 10 0 0);
  (R 0x2e80 0x2e99, mkVersion 3 0 0);
  (R 0x2e9b 0x2ef3, mkVersion 3 0 0);
  (R 0x2f00 0x2fd5, mkVersion 3 0 0);
  (R 0x2ff0 0x2ffb, mkVersion 3 0 0);
  (R 0x3000 0x3037, mkVersion 1 1 0);
  (R 0x3038 0x303a, mkVersion 3 0 0);
  (R 0x303b 0x303d, mkVersion 3 2 0);
  (R 0x303e 0x303e, mkVersion 3 0 0);
  (R 0x303f 0x303f, mkVersion 1 1 0);
  (R 0x3041 0x3094, mkVersion 1 1 0);
  (R 0x3095 0x3096, mkVersion 3 2 0);
  (R 0x3099 0x309e, mkVersion 1 1 0);
  (R 0x309f 0x30a0, mkVersion 3 2 0);
  (R 0x30a1 0x30fe, mkVersion 1 1 0);
  (R 0x30ff 0x30ff, mkVersion 3 2 0);
  (R 0x3105 0x312c, mkVersion 1 1 0);
  (R 0x312d 0x312d, mkVersion 5 1 0);
  (R 0x312e 0x312e, mkVersion 10 0 0);
  (R 0x3131 0x318e, mkVersion 1 1 0);
  (R 0x3190 0x319f, mkVersion 1 1 0);
  (R 0x31a0 0x31b7, mkVersion 3 0 0);
  (R 0x31b8 0x31ba, mkVersion 6 0 0);
  (R 0x31c0 0x31cf, mkVersion 4 1 0);
  (R 0x31d0 0x31e3, mkVersion 5 1 0);
  (R 0x31f0 0x31ff, mkVersion 3 2 0);
  (R 0x3200 0x321c, mkVersion 1 1 0);
  (R 0x321d 0x321e, mkVersion 4 0 0);
  (R 0x3220 0x3243, mkVersion 1 1 0);
  (R 0x3244 0x324f, mkVersion 5 2 0);
  (R 0x3250 0x3250, mkVersion 4 0 0);
  (R 0x3251 0x325f, mkVersion 3 2 0);
  (R 0x3260 0x327b, mkVersion 1 1 0);
  (R 0x327c 0x327d, mkVersion 4 0 0);
  (R 0x327e 0x327e, mkVersion 4 1 0);
  (R 0x327f 0x32b0, mkVersion 1 1 0);
  (R 0x32b1 0x32bf, mkVersion 3 2 0);
  (R 0x32c0 0x32cb, mkVersion 1 1 0);
  (R 0x32cc 0x32cf, mkVersion 4 0 0);
  (R 0x32d0 0x32fe, mkVersion 1 1 0);
  (R 0x3300 0x3376, mkVersion 1 1 0)].

Definition AGE_TABLE_2 : list (CharRange * UnicodeVersion) := [
  (R 0x3377 0x337a, mkVersion 4 0 0);
  (R 0x337b 0x33dd, mkVersion 1 1 0);
  (R 0x33de 0x33df, mkVersion 4 0 0);
  (R 0x33e0 0x33fe, mkVersion 1 1 0);
  (R 0x33ff 0x33ff, mkVersion 4 0 0);
  (R 0x3400 0x4db5, mkVersion 3 0 0);
  (R 0x4dc0 0x4dff, mkVersion 4 0 0);
  (R 0x4e00 0x9fa5, mkVersion 1 1 0);
  (R 0x9fa6 0x9fbb, mkVersion 4 1 0);
  (R 0x9fbc 0x9fc3, mkVersion 5 1 0);
  (R 0x9fc4 0x9fcb, mkVersion 5 2 0);
  (R 0x9fcc 0x9fcc, mkVersion 6 1 0);
  (R 0x9fcd 0x9fd5, mkVersion 8 0 0);
  (R 0x9fd6 0x9fea, mkVersion 10 0 0);
  (R 0xa000 0xa48c, mkVersion 3 0 0);
  (R 0xa490 0xa4a1, mkVersion 3 0 0);
  (R 0xa4a2 0xa4a3, mkVersion 3 2 0);
  (R 0xa4a4 0xa4b3, mkVersion 3 0 0);
  (R 0xa4b4 0xa4b4, mkVersion 3 2 0);
  (R 0xa4b5 0xa4c0, mkVersion 3 0 0);
  (R 0xa4c1 0xa4c1, mkVersion 3 2 0);
  (R 0xa4c2 0xa4c4, mkVersion 3 0 0);
  (R 0xa4c5 0xa4c5, mkVersion 3 2 0);
  (R 0xa4c6 0xa4c6, mkVersion 3 0 0);
  (R 0xa4d0 0xa4ff, mkVersion 5 2 0);
  (R 0xa500 0xa62b, mkVersion 5 1 0);
  (R 0xa640 0xa65f, mkVersion 5 1 0);
  (R 0xa660 0xa661, mkVersion 6 0 0);
  (R 0xa662 0xa673, mkVersion 5 1 0);
  (R 0xa674 0xa67b, mkVersion 6 1 0);
  (R 0xa67c 0xa697, mkVersion 5 1 0);
  (R 0xa698 0xa69d, mkVersion 7 0 0);
  (R 0xa69e 0xa69e, mkVersion 8 0 0);
  (R 0xa69f 0xa69f, mkVersion 6 1 0);
  (R 0xa6a0 0xa6f7, mkVersion 5 2 0);
  (R 0xa700 0xa716, mkVersion 4 1 0);
  (R 0xa717 0xa71a, mkVersion 5 0 0);
  (R 0xa71b 0xa71f, mkVersion 5 1 0);
  (R 0xa720 0xa721, mkVersion 5 0 0);
  (R 0xa722 0xa78c, mkVersion 5 1 0);
  (R 0xa78d 0xa78e, mkVersion 6 0 0);
  (R 0xa78f 0xa78f, mkVersion 8 0 0);
  (R 0xa790 0xa791, mkVersion 6 0 0);
  (R 0xa792 0xa793, mkVersion 6 1 0);
  (R 0xa794 0xa79f, mkVersion 7 0 0);
  (R 0xa7a0 0xa7a9, mkVersion 6 0 0);
  (R 0xa7aa 0xa7aa, mkVersion 6 1 0);
  (R 0xa7ab 0xa7ad, mkVersion 7 0 0);
  (R 0xa7ae 0xa7ae, mkVersion 9 0 0);
  (R 0xa7b0 0xa7b1, mkVersion 7 0 0);
  (R 0xa7b2 0xa7b7, mkVersion 8 0 0);
  (R 0xa7f7 0xa7f7, mkVersion 7 0 0);
  (R 0xa7f8 0xa7f9, mkVersion 6 1 0);
  (R 0xa7fa 0xa7fa, mkVersion 6 0 0);
  (R 0xa7fb 0xa7ff, mkVersion 5 1 0);
  (R 0xa800 0xa82b, mkVersion 4 1 0);
  (R 0xa830 0xa839, mkVersion 5 2 0);
  (R 0xa840 0xa877, mkVersion 5 0 0);
  (R 0xa880 0xa8c4, mkVersion 5 1 0);
  (R 0xa8c5 0xa8c5, mkVersion 9 0 0);
  (R 0xa8ce 0xa8d9, mkVersion 5 1 0);
  (R 0xa8e0 0xa8fb, mkVersion 5 2 0);
  (R 0xa8fc 0xa8fd, mkVersion 8 0 0);
  (R 0xa900 0xa953, mkVersion 5 1 0);
  (R 0xa95f 0xa95f, mkVersion 5 1 0);
  (R 0xa960 0xa97c, mkVersion 5 2 0);
  (R 0xa980 0xa9cd, mkVersion 5 2 0);
  (R 0xa9cf 0xa9d9, mkVersion 5 2 0);
  (R 0xa9de 0xa9df, mkVersion 5 2 0);
  (R 0xa9e0 0xa9fe, mkVersion 7 0 0);
  (R 0xaa00 0xaa36, mkVersion 5 1 0);
  (R 0xaa40 0xaa4d, mkVersion 5 1 0);
  (R 0xaa50 0xaa59, mkVersion 5 1 0);
  (R 0xaa5c 0xaa5f, mkVersion 5 1 0);
  (R 0xaa60 0xaa7b, mkVersion 5 2 0);
  (R 0xaa7c 0xaa7f, mkVersion 7 0 0);
  (R 0xaa80 0xaac2, mkVersion 5 2 0);
  (R 0xaadb 0xaadf, mkVersion 5 2 0);
  (R 0xaae0 0xaaf6, mkVersion 6 1 0);
  (R 0xab01 0xab06, mkVersion 6 0 0);
  (R 0xab09 0xab0e, mkVersion 6 0 0);
  (R 0xab11 0xab16, mkVersion 6 0 0);
  (R 0xab20 0xab26, mkVersion 6 0 0);
  (R 0xab28 0xab2e, mkVersion 6 0 0);
  (R 0xab30 0xab5f, mkVersion 7 0 0);
  (R 0xab60 0xab63, mkVersion 8 0 0);
  (R 0xab64 0xab65, mkVersion 7 0 0);
  (R 0xab70 0xabbf, mkVersion 8 0 0);
  (R 0xabc0 0xabed, mkVersion 5 2 0);
  (R 0xabf0 0xabf9, mkVersion 5 2 0);
  (R 0xac00 0xd7a3, mkVersion 2 0 0);
  (R 0xd7b0 0xd7c6, mkVersion 5 2 0);
  (R 0xd7cb 0xd7fb, mkVersion 5 2 0);
  (R 0xe000 0xfa2d, mkVersion 1 1 0);
  (R 0xfa2e 0xfa2f, mkVersion 6 1 0);
  (R 0xfa30 0xfa6a, mkVersion 3 2 0);
  (R 0xfa6b 0xfa6d, mkVersion 5 2 0);
  (R 0xfa70 0xfad9, mkVersion 4 1 0);
  (R 0xfb00 0xfb06, mkVersion 1 1 0);
  (R 0xfb13 0xfb17, mkVersion 1 1 0);
  (R 0xfb1d 0xfb1d, mkVersion 3 0 0);
  (R 0xfb1e 0xfb36, mkVersion 1 1 0);
  (R 0xfb38 0xfb3c, mkVersion 1 1 0);
  (R 0xfb3e 0xfb3e, mkVersion 1 1 0);
  (R 0xfb40 0xfb41, mkVersion 1 1 0);
  (R 0xfb43 0xfb44, mkVersion 1 1 0);
  (R 0xfb46 0xfbb1, mkVersion 1 1 0);
  (R 0xfbb2 0xfbc1, mkVersion 6 0 0);
  (R 0xfbd3 0xfd3f, mkVersion 1 1 0);
  (R 0xfd50 0xfd8f, mkVersion 1 1 0);
  (R 0xfd92 0xfdc7, mkVersion 1 1 0);
  (R 0xfdd0 0xfdef, mkVersion 3 1 0);
  (R 0xfdf0 0xfdfb, mkVersion 1 1 0);
  (R 0xfdfc 0xfdfc, mkVersion 3 2 0);
  (R 0xfdfd 0xfdfd, mkVersion 4 0 0);
  (R 0xfe00 0xfe0f, mkVersion 3 2 0);
  (R 0xfe10 0xfe19, mkVersion 4 1 0);
  (R 0xfe20 0xfe23, mkVersion 1 1 0);
  (R 0xfe24 0xfe26, mkVersion 5 1 0);
  (R 0xfe27 0xfe2d, mkVersion 7 0 0);
  (R 0xfe2e 0xfe2f, mkVersion 8 0 0);
  (R 0xfe30 0xfe44, mkVersion 1 1 0);
  (R 0xfe45 0xfe46, mkVersion 3 2 0);
  (R 0xfe47 0xfe48, mkVersion 4 0 0);
  (R 0xfe49 0xfe52, mkVersion 1 1 0);
  (R 0xfe54 0xfe66, mkVersion 1 1 0);
  (R 0xfe68 0xfe6b, mkVersion 1 1 0);
  (R 0xfe70 0xfe72, mkVersion 1 1 0);
  (R 0xfe73 0xfe73, mkVersion 3 2 0);
  (R 0xfe74 0xfe74, mkVersion 1 1 0);
  (R 0xfe76 0xfefc, mkVersion 1 1 0);
  (R 0xfeff 0xfeff, mkVersion 1 1 0);
  (R 0xff01 0xff5e, mkVersion 1 1 0);
  (R 0xff5f 0xff60, mkVersion 3 2 0);
  (R 0xff61 0xffbe, mkVersion 1 1 0);
  (R 0xffc2 0xffc7, mkVersion 1 1 0);
  (R 0xffca 0xffcf, mkVersion 1 1 0);
  (R 0xffd2 0xffd7, mkVersion 1 1 0);
  (R 0xffda 0xffdc, mkVersion 1 1 0);
  (R 0xffe0 0xffe6, mkVersion 1 1 0);
  (R 0xffe8 0xffee, mkVersion 1 1 0);
  (R 0xfff9 0xfffb, mkVersion 3 0 0);
  (R 0xfffc 0xfffc, mkVersion 2 1 0);
  (R 0xfffd 0xffff, mkVersion 1 1 0);
  (R 0x10000 0x1000b, mkVersion 4 0 0);
  (R 0x1000d 0x10026, mkVersion 4 0 0);
  (R 0x10028 0x1003a, mkVersion 4 0 0);
  (R 0x1003c 0x1003d, mkVersion 4 0 0);
  (R 0x1003f 0x1004d, mkVersion 4 0 0);
  (R 0x10050 0x1005d, mkVersion 4 0 0);
  (R 0x10080 0x100fa, mkVersion 4 0 0);
  (R 0x10100 0x10102, mkVersion 4 0 0);
  (R 0x10107 0x10133, mkVersion 4 0 0);
  (R 0x10137 0x1013f, mkVersion 4 0 0);
  (R 0x10140 0x1018a, mkVersion 4 1 0);
  (R 0x1018b 0x1018c, mkVersion 7 0 0);
  (R 0x1018d 0x1018e, mkVersion 9 0 0);
  (R 0x10190 0x1019b, mkVersion 5 1 0);
  (R 0x101a0 0x101a0, mkVersion 7 0 0);
  (R 0x101d0 0x101fd, mkVersion 5 1 0);
  (R 0x10280 0x1029c, mkVersion 5 1 0);
  (R 0x102a0 0x102d0, mkVersion 5 1 0);
  (R 0x102e0 0x102fb, mkVersion 7 0 0);
  (R 0x10300 0x1031e, mkVersion 3 1 0);
  (R 0x1031f 0x1031f, mkVersion 7 0 0);
  (R 0x10320 0x10323, mkVersion 3 1 0);
  (R 0x1032d 0x1032f, mkVersion 10 0 0);
  (R 0x10330 0x1034a, mkVersion 3 1 0);
  (R 0x10350 0x1037a, mkVersion 7 0 0);
  (R 0x10380 0x1039d, mkVersion 4 0 0);
  (R 0x1039f 0x1039f, mkVersion 4 0 0);
  (R 0x103a0 0x103c3, mkVersion 4 1 0);
  (R 0x103c8 0x103d5, mkVersion 4 1 0);
  (R 0x10400 0x10425, mkVersion 3 1 0);
  (R 0x10426 0x10427, mkVersion 4 0 0);
  (R 0x10428 0x1044d, mkVersion 3 1 0);
  (R 0x1044e 0x1049d, mkVersion 4 0 0);
  (R 0x104a0 0x104a9, mkVersion 4 0 0);
  (R 0x104b0 0x104d3, mkVersion 9 0 0);
  (R 0x104d8 0x104fb, mkVersion 9 0 0);
  (R 0x10500 0x10527, mkVersion 7 0 0);
  (R 0x10530 0x10563, mkVersion 7 0 0);
  (R 0x1056f 0x1056f, mkVersion 7 0 0);
  (R 0x10600 0x10736, mkVersion 7 0 0);
  (R 0x10740 0x10755, mkVersion 7 0 0);
  (R 0x10760 0x10767, mkVersion 7 0 0);
  (R 0x10800 0x10805, mkVersion 4 0 0);
  (R 0x10808 0x10808, mkVersion 4 0 0);
  (R 0x1080a 0x10835, mkVersion 4 0 0);
  (R 0x10837 0x10838, mkVersion 4 0 0);
  (R 0x1083c 0x1083c, mkVersion 4 0 0);
  (R 0x1083f 0x1083f, mkVersion 4 0 0);
  (R 0x10840 0x10855, mkVersion 5 2 0);
  (R 0x10857 0x1085f, mkVersion 5 2 0);
  (R 0x10860 0x1089e, mkVersion 7 0 0);
  (R 0x108a7 0x108af, mkVersion 7 0 0);
  (R 0x108e0 0x108f2, mkVersion 8 0 0);
  (R 0x108f4 0x108f5, mkVersion 8 0 0);
  (R 0x108fb 0x108ff, mkVersion 8 0 0);
  (R 0x10900 0x10919, mkVersion 5 0 0);
  (R 0x1091a 0x1091b, mkVersion 5 2 0);
  (R 0x1091f 0x1091f, mkVersion 5 0 0);
  (R 0x10920 0x10939, mkVersion 5 1 0);
  (R 0x1093f 0x1093f, mkVersion 5 1 0);
  (R 0x10980 0x109b7, mkVersion 6 1 0);
  (R 0x109bc 0x109bd, mkVersion 8 0 0);
  (R 0x109be 0x109bf, mkVersion 6 1 0);
  (R 0x109c0 0x109cf, mkVersion 8 0 0);
  (R 0x109d2 0x109ff, mkVersion 8 0 0);
  (R 0x10a00 0x10a03, mkVersion 4 1 0);
  (R 0x10a05 0x10a06, mkVersion 4 1 0);
  (R 0x10a0c 0x10a13, mkVersion 4 1 0);
  (R 0x10a15 0x10a17, mkVersion 4 1 0);
  (R 0x10a19 0x10a33, mkVersion 4 1 0);
  (R 0x10a38 0x10a3a, mkVersion 4 1 0);
  (R 0x10a3f 0x10a47, mkVersion 4 1 0);
  (R 0x10a50 0x10a58, mkVersion 4 1 0);
  (R 0x10a60 0x10a7f, mkVersion 5 2 0);
  (R 0x10a80 0x10a9f, mkVersion 7 0 0);
  (R 0x10ac0 0x10ae6, mkVersion 7 0 0);
  (R 0x10aeb 0x10af6, mkVersion 7 0 0);
  (R 0x10b00 0x10b35, mkVersion 5 2 0);
  (R 0x10b39 0x10b55, mkVersion 5 2 0);
  (R 0x10b58 0x10b72, mkVersion 5 2 0);
  (R 0x10b78 0x10b7f, mkVersion 5 2 0);
  (R 0x10b80 0x10b91, mkVersion 7 0 0);
  (R 0x10b99 0x10b9c, mkVersion 7 0 0);
  (R 0x10ba9 0x10baf, mkVersion 7 0 0);
  (R 0x10c00 0x10c48, mkVersion 5 2 0);
  (R 0x10c80 0x10cb2, mkVersion 8 0 0);
  (R 0x10cc0 0x10cf2, mkVersion 8 0 0);
  (R 0x10cfa 0x10cff, mkVersion 8 0 0);
  (R 0x10e60 0x10e7e, mkVersion 5 2 0);
  (R 0x11000 0x1104d, mkVersion 6 0 0);
  (R 0x11052 0x1106f, mkVersion 6 0 0);
  (R 0x1107f 0x1107f, mkVersion 7 0 0);
  (R 0x11080 0x110c1, mkVersion 5 2 0);
  (R 0x110d0 0x110e8, mkVersion 6 1 0);
  (R 0x110f0 0x110f9, mkVersion 6 1 0);
  (R 0x11100 0x11134, mkVersion 6 1 0);
  (R 0x11136 0x11143, mkVersion 6 1 0);
  (R 0x11150 0x11176, mkVersion 7 0 0);
  (R 0x11180 0x111c8, mkVersion 6 1 0);
  (R 0x111c9 0x111cc, mkVersion 8 0 0);
  (R 0x111cd 0x111cd, mkVersion 7 0 0);
  (R 0x111d0 0x111d9, mkVersion 6 1 0);
  (R 0x111da 0x111da, mkVersion 7 0 0);
  (R 0x111db 0x111df, mkVersion 8 0 0);
  (R 0x111e1 0x111f4, mkVersion 7 0 0);
  (R 0x11200 0x11211, mkVersion 7 0 0);
  (R 0x11213 0x1123d, mkVersion 7 0 0);
  (R 0x1123e 0x1123e, mkVersion 9 0 0);
  (R 0x11280 0x11286, mkVersion 8 0 0);
  (R 0x11288 0x11288, mkVersion 8 0 0);
  (R 0x1128a 0x1128d, mkVersion 8 0 0);
  (R 0x1128f 0x1129d, mkVersion 8 0 0);
  (R 0x1129f 0x112a9, mkVersion 8 0 0);
  (R 0x112b0 0x112ea, mkVersion 7 0 0);
  (R 0x112f0 0x112f9, mkVersion 7 0 0);
  (R 0x11300 0x11300, mkVersion 8 0 0);
  (R 0x11301 0x11303, mkVersion 7 0 0);
  (R 0x11305 0x1130c, mkVersion 7 0 0);
  (R 0x1130f 0x11310, mkVersion 7 0 0);
  (R 0x11313 0x11328, mkVersion 7 0 0);
  (R 0x1132a 0x11330, mkVersion 7 0 0);
  (R 0x11332 0x11333, mkVersion 7 0 0);
  (R 0x11335 0x11339, mkVersion 7 0 0);
  (R 0x1133c 0x11344, mkVersion 7 0 0);
  (R 0x11347 0x11348, mkVersion 7 0 0);
  (R 0x1134b 0x1134d, mkVersion 7 0 0);
  (R 0x11350 0x11350, mkVersion 8 0 0);
  (R 0x11357 0x11357, mkVersion 7 0 0);
  (R 0x1135d 0x11363, mkVersion 7 0 0);
  (R 0x11366 0x1136c, mkVersion 7 0 0);
  (R 0x11370 0x11374, mkVersion 7 0 0);
  (R 0x11400 0x11459, mkVersion 9 0 0);
  (R 0x1145b 0x1145b, mkVersion 9 0 0);
  (R 0x1145d 0x1145d, mkVersion 9 0 0);
  (R 0x11480 0x114c7, mkVersion 7 0 0);
  (R 0x114d0 0x114d9, mkVersion 7 0 0);
  (R 0x11580 0x115b5, mkVersion 7 0 0);
  (R 0x115b8 0x115c9, mkVersion 7 0 0);
  (R 0x115ca 0x115dd, mkVersion 8 0 0);
  (R 0x11600 0x11644, mkVersion 7 0 0);
  (R 0x11650 0x11659, mkVersion 7 0 0);
  (R 0x11660 0x1166c, mkVersion 9 0 0);
  (R 0x11680 0x116b7, mkVersion 6 1 0);
  (R 0x116c0 0x116c9, mkVersion 6 1 0);
  (R 0x11700 0x11719, mkVersion 8 0 0);
  (R 0x1171d 0x1172b, mkVersion 8 0 0);
  (R 0x11730 0x1173f, mkVersion 8 0 0);
  (R 0x118a0 0x118f2, mkVersion 7 0 0);
  (R 0x118ff 0x118ff, mkVersion 7 0 0);
  (R 0x11a00 0x11a47, mkVersion 10 0 0);
  (R 0x11a50 0x11a83, mkVersion 10 0 0);
  (R 0x11a86 0x11a9c, mkVersion 10 0 0);
  (R 0x11a9e 0x11aa2, mkVersion 10 0 0);
  (R 0x11ac0 0x11af8, mkVersion 7 0 0);
  (R 0x11c00 0x11c08, mkVersion 9 0 0);
  (R 0x11c0a 0x11c36, mkVersion 9 0 0);
  (R 0x11c38 0x11c45, mkVersion 9 0 0);
  (R 0x11c50 0x11c6c, mkVersion 9 0 0);
  (R 0x11c70 0x11c8f, mkVersion 9 0 0);
  (R 0x11c92 0x11ca7, mkVersion 9 0 0);
  (R 0x11ca9 0x11cb6, mkVersion 9 0 0);
  (R 0x11d00 0x11d06, mkVersion 10 0 0);
  (R 0x11d08 0x11d09, mkVersion 10 0 0);
  (R 0x11d0b 0x11d36, mkVersion 10 0 0);
  (R 0x11d3a 0x11d3a, mkVersion 10 0 0);
  (R 0x11d3c 0x11d3d, mkVersion 10 0 0);
  (R 0x11d3f 0x11d47, mkVersion 10 0 0);
  (R 0x11d50 0x11d59, mkVersion 10 0 0);
  (R 0x12000 0x1236e, mkVersion 5 0 0);
  (R 0x1236f 0x12398, mkVersion 7 0 0);
  (R 0x12399 0x12399, mkVersion 8 0 0);
  (R 0x12400 0x12462, mkVersion 5 0 0);
  (R 0x12463 0x1246e, mkVersion 7 0 0);
  (R 0x12470 0x12473, mkVersion 5 0 0);
  (R 0x12474 0x12474, mkVersion 7 0 0);
  (R 0x12480 0x12543, mkVersion 8 0 0);
  (R 0x13000 0x1342e, mkVersion 5 2 0);
  (R 0x14400 0x14646, mkVersion 8 0 0);
  (R 0x16800 0x16a38, mkVersion 6 0 0);
  (R 0x16a40 0x16a5e, mkVersion 7 0 0);
  (R 0x16a60 0x16a69, mkVersion 7 0 0);
  (R 0x16a6e 0x16a6f, mkVersion 7 0 0);
  (R 0x16ad0 0x16aed, mkVersion 7 0 0);
  (R 0x16af0 0x16af5, mkVersion 7 0 0);
  (R 0x16b00 0x16b45, mkVersion 7 0 0);
  (R 0x16b50 0x16b59, mkVersion 7 0 0);
  (R 0x16b5b 0x16b61, mkVersion 7 0 0);
  (R 0x16b63 0x16b77, mkVersion 7 0 0);
  (R 0x16b7d 0x16b8f, mkVersion 7 0 0);
  (R 0x16f00 0x16f44, mkVersion 6 1 0);
  (R 0x16f50 0x16f7e, mkVersion 6 1 0);
  (R 0x16f8f 0x16f9f, mkVersion 6 1 0);
  (R 0x16fe0 0x16fe0, mkVersion 9 0 0);
  (R 0x16fe1 0x16fe1, mkVersion 10 0 0);
  (R 0x17000 0x187ec, mkVersion 9 0 0);
  (R 0x18800 0x18af2, mkVersion 9 0 0);
  (R 0x1b000 0x1b001, mkVersion 6 0 0);
  (R 0x1b002 0x1b11e, mkVersion 10 0 0);
  (R 0x1b170 0x1b2fb, mkVersion 10 0 0);
  (R 0x1bc00 0x1bc6a, mkVersion 7 0 0);
  (R 0x1bc70 0x1bc7c, mkVersion 7 0 0);
  (R 0x1bc80 0x1bc88, mkVersion 7 0 0);
  (R 0x1bc90 0x1bc99, mkVersion 7 0 0);
  (R 0x1bc9c 0x1bca3, mkVersion 7 0 0);
  (R 0x1d000 0x1d0f5, mkVersion 3 1 0);
  (R 0x1d100 0x1d126, mkVersion 3 1 0);
  (R 0x1d129 0x1d129, mkVersion 5 1 0);
  (R 0x1d12a 0x1d1dd, mkVersion 3 1 0);
  (R 0x1d1de 0x1d1e8, mkVersion 8 0 0);
  (R 0x1d200 0x1d245, mkVersion 4 1 0);
  (R 0x1d300 0x1d356, mkVersion 4 0 0);
  (R 0x1d360 0x1d371, mkVersion 5 0 0);
  (R 0x1d400 0x1d454, mkVersion 3 1 0);
  (R 0x1d456 0x1d49c, mkVersion 3 1 0);
  (R 0x1d49e 0x1d49f, mkVersion 3 1 0);
  (R 0x1d4a2 0x1d4a2, mkVersion 3 1 0);
  (R 0x1d4a5 0x1d4a6, mkVersion 3 1 0);
  (R 0x1d4a9 0x1d4ac, mkVersion 3 1 0);
  (R 0x1d4ae 0x1d4b9, mkVersion 3 1 0);
  (R 0x1d4bb 0x1d4bb, mkVersion 3 1 0);
  (R 0x1d4bd 0x1d4c0, mkVersion 3 1 0);
  (R 0x1d4c1 0x1d4c1, mkVersion 4 0 0);
  (R 0x1d4c2 0x1d4c3, mkVersion 3 1 0);
  (R 0x1d4c5 0x1d505, mkVersion 3 1 0);
  (R 0x1d507 0x1d50a, mkVersion 3 1 0);
  (R 0x1d50d 0x1d514, mkVersion 3 1 0);
  (R 0x1d516 0x1d51c, mkVersion 3 1 0);
  (R 0x1d51e 0x1d539, mkVersion 3 1 0);
  (R 0x1d53b 0x1d53e, mkVersion 3 1 0);
  (R 0x1d540 0x1d544, mkVersion 3 1 0);
  (R 0x1d546 0x1d546, mkVersion 3 1 0);
  (R 0x1d54a 0x1d550, mkVersion 3 1 0);
  (R 0x1d552 0x1d6a3, mkVersion 3 1 0);
  (R 0x1d6a4 0x1d6a5, mkVersion 4 1 0);
  (R 0x1d6a8 0x1d7c9, mkVersion 3 1 0);
  (R 0x1d7ca 0x1d7cb, mkVersion 5 0 0);
  (R 0x1d7ce 0x1d7ff, mkVersion 3 1 0);
  (R 0x1d800 0x1da8b, mkVersion 8 0 0);
  (R 0x1da9b 0x1da9f, mkVersion 8 0 0);
  (R 0x1daa1 0x1daaf, mkVersion 8 0 0);
  (R 0x1e000 0x1e006, mkVersion 9 0 0);
  (R 0x1e008 0x1e018, mkVersion 9 0 0);
  (R 0x1e01b 0x1e021, mkVersion 9 0 0);
  (R 0x1e023 0x1e024, mkVersion 9 0 0);
  (R 0x1e026 0x1e02a, mkVersion 9 0 0);
  (R 0x1e800 0x1e8c4, mkVersion 7 0 0);
  (R 0x1e8c7 0x1e8d6, mkVersion 7 0 0);
  (R 0x1e900 0x1e94a, mkVersion 9 0 0);
  (R 0x1e950 0x1e959, mkVersion 9 0 0);
  (R 0x1e95e 0x1e95f, mkVersion 9 0 0);
  (R 0x1ee00 0x1ee03, mkVersion 6 1 0);
  (R 0x1ee05 0x1ee1f, mkVersion 6 1 0);
  (R 0x1ee21 0x1ee22, mkVersion 6 1 0);
  (R 0x1ee24 0x1ee24, mkVersion 6 1 0);
  (R 0x1ee27 0x1ee27, mkVersion 6 1 0);
  (R 0x1ee29 0x1ee32, mkVersion 6 1 0)].

Definition AGE_TABLE_3 : list (CharRange * UnicodeVersion) := [
  (R 0x1ee34 0x1ee37, mkVersion 6 1 0);
  (R 0x1ee39 0x1ee39, mkVersion 6 1 0);
  (R 0x1ee3b 0x1ee3b, mkVersion 6 1 0);
  (R 0x1ee42 0x1ee42, mkVersion 6 1 0);
  (R 0x1ee47 0x1ee47, mkVersion 6 1 0);
  (R 0x1ee49 0x1ee49, mkVersion 6 1 0);
  (R 0x1ee4b 0x1ee4b, mkVersion 6 1 0);
  (R 0x1ee4d 0x1ee4f, mkVersion 6 1 0);
  (R 0x1ee51 0x1ee52, mkVersion 6 1 0);
  (R 0x1ee54 0x1ee54, mkVersion 6 1 0);
  (R 0x1ee57 0x1ee57, mkVersion 6 1 0);
  (R 0x1ee59 0x1ee59, mkVersion 6 1 0);
  (R 0x1ee5b 0x1ee5b, mkVersion 6 1 0);
  (R 0x1ee5d 0x1ee5d, mkVersion 6 1 0);
  (R 0x1ee5f 0x1ee5f, mkVersion 6 1 0);
  (R 0x1ee61 0x1ee62, mkVersion 6 1 0);
  (R 0x1ee64 0x1ee64, mkVersion 6 1 0);
  (R 0x1ee67 0x1ee6a, mkVersion 6 1 0);
  (R 0x1ee6c 0x1ee72, mkVersion 6 1 0);
  (R 0x1ee74 0x1ee77, mkVersion 6 1 0);
  (R 0x1ee79 0x1ee7c, mkVersion 6 1 0);
  (R 0x1ee7e 0x1ee7e, mkVersion 6 1 0);
  (R 0x1ee80 0x1ee89, mkVersion 6 1 0);
  (R 0x1ee8b 0x1ee9b, mkVersion 6 1 0);
  (R 0x1eea1 0x1eea3, mkVersion 6 1 0);
  (R 0x1eea5 0x1eea9, mkVersion 6 1 0);
  (R 0x1eeab 0x1eebb, mkVersion 6 1 0);
  (R 0x1eef0 0x1eef1, mkVersion 6 1 0);
  (R 0x1f000 0x1f02b, mkVersion 5 1 0);
  (R 0x1f030 0x1f093, mkVersion 5 1 0);
  (R 0x1f0a0 0x1f0ae, mkVersion 6 0 0);
  (R 0x1f0b1 0x1f0be, mkVersion 6 0 0);
  (R 0x1f0bf 0x1f0bf, mkVersion 7 0 0);
  (R 0x1f0c1 0x1f0cf, mkVersion 6 0 0);
  (R 0x1f0d1 0x1f0df, mkVersion 6 0 0);
  (R 0x1f0e0 0x1f0f5, mkVersion 7 0 0);
  (R 0x1f100 0x1f10a, mkVersion 5 2 0);
  (R 0x1f10b 0x1f10c, mkVersion 7 0 0);
  (R 0x1f110 0x1f12e, mkVersion 5 2 0);
  (R 0x1f130 0x1f130, mkVersion 6 0 0);
  (R 0x1f131 0x1f131, mkVersion 5 2 0);
  (R 0x1f132 0x1f13c, mkVersion 6 0 0);
  (R 0x1f13d 0x1f13d, mkVersion 5 2 0);
  (R 0x1f13e 0x1f13e, mkVersion 6 0 0);
  (R 0x1f13f 0x1f13f, mkVersion 5 2 0);
  (R 0x1f140 0x1f141, mkVersion 6 0 0);
  (R 0x1f142 0x1f142, mkVersion 5 2 0);
  (R 0x1f143 0x1f145, mkVersion 6 0 0);
  (R 0x1f146 0x1f146, mkVersion 5 2 0);
  (R 0x1f147 0x1f149, mkVersion 6 0 0);
  (R 0x1f14a 0x1f14e, mkVersion 5 2 0);
  (R 0x1f14f 0x1f156, mkVersion 6 0 0);
  (R 0x1f157 0x1f157, mkVersion 5 2 0);
  (R 0x1f158 0x1f15e, mkVersion 6 0 0);
  (R 0x1f15f 0x1f15f, mkVersion 5 2 0);
  (R 0x1f160 0x1f169, mkVersion 6 0 0);
  (R 0x1f16a 0x1f16b, mkVersion 6 1 0);
  (R 0x1f170 0x1f178, mkVersion 6 0 0);
  (R 0x1f179 0x1f179, mkVersion 5 2 0);
  (R 0x1f17a 0x1f17a, mkVersion 6 0 0);
  (R 0x1f17b 0x1f17c, mkVersion 5 2 0);
  (R 0x1f17d 0x1f17e, mkVersion 6 0 0);
  (R 0x1f17f 0x1f17f, mkVersion 5 2 0);
  (R 0x1f180 0x1f189, mkVersion 6 0 0);
  (R 0x1f18a 0x1f18d, mkVersion 5 2 0);
  (R 0x1f18e 0x1f18f, mkVersion 6 0 0);
  (R 0x1f190 0x1f190, mkVersion 5 2 0);
  (R 0x1f191 0x1f19a, mkVersion 6 0 0);
  (R 0x1f19b 0x1f1ac, mkVersion 9 0 0);
  (R 0x1f1e6 0x1f1ff, mkVersion 6 0 0);
  (R 0x1f200 0x1f200, mkVersion 5 2 0);
  (R 0x1f201 0x1f202, mkVersion 6 0 0);
  (R 0x1f210 0x1f231, mkVersion 5 2 0);
  (R 0x1f232 0x1f23a, mkVersion 6 0 0);
  (R 0x1f23b 0x1f23b, mkVersion 9 0 0);
  (R 0x1f240 0x1f248, mkVersion 5 2 0);
  (R 0x1f250 0x1f251, mkVersion 6 0 0);
  (R 0x1f260 0x1f265, mkVersion 10 0 0);
  (R 0x1f300 0x1f320, mkVersion 6 0 0);
  (R 0x1f321 0x1f32c, mkVersion 7 0 0);
  (R 0x1f32d 0x1f32f, mkVersion 8 0 0);
  (R 0x1f330 0x1f335, mkVersion 6 0 0);
  (R 0x1f336 0x1f336, mkVersion 7 0 0);
  (R 0x1f337 0x1f37c, mkVersion 6 0 0);
  (R 0x1f37d 0x1f37d, mkVersion 7 0 0);
  (R 0x1f37e 0x1f37f, mkVersion 8 0 0);
  (R 0x1f380 0x1f393, mkVersion 6 0 0);
  (R 0x1f394 0x1f39f, mkVersion 7 0 0);
  (R 0x1f3a0 0x1f3c4, mkVersion 6 0 0);
  (R 0x1f3c5 0x1f3c5, mkVersion 7 0 0);
  (R 0x1f3c6 0x1f3ca, mkVersion 6 0 0);
  (R 0x1f3cb 0x1f3ce, mkVersion 7 0 0);
  (R 0x1f3cf 0x1f3d3, mkVersion 8 0 0);
  (R 0x1f3d4 0x1f3df, mkVersion 7 0 0);
  (R 0x1f3e0 0x1f3f0, mkVersion 6 0 0);
  (R 0x1f3f1 0x1f3f7, mkVersion 7 0 0);
  (R 0x1f3f8 0x1f3ff, mkVersion 8 0 0);
  (R 0x1f400 0x1f43e, mkVersion 6 0 0);
  (R 0x1f43f 0x1f43f, mkVersion 7 0 0);
  (R 0x1f440 0x1f440, mkVersion 6 0 0);
  (R 0x1f441 0x1f441, mkVersion 7 0 0);
  (R 0x1f442 0x1f4f7, mkVersion 6 0 0);
  (R 0x1f4f8 0x1f4f8, mkVersion 7 0 0);
  (R 0x1f4f9 0x1f4fc, mkVersion 6 0 0);
  (R 0x1f4fd 0x1f4fe, mkVersion 7 0 0);
  (R 0x1f4ff 0x1f4ff, mkVersion 8 0 0);
  (R 0x1f500 0x1f53d, mkVersion 6 0 0);
  (R 0x1f53e 0x1f53f, mkVersion 7 0 0);
  (R 0x1f540 0x1f543, mkVersion 6 1 0);
  (R 0x1f544 0x1f54a, mkVersion 7 0 0);
  (R 0x1f54b 0x1f54f, mkVersion 8 0 0);
  (R 0x1f550 0x1f567, mkVersion 6 0 0);
  (R 0x1f568 0x1f579, mkVersion 7 0 0);
  (R 0x1f57a 0x1f57a, mkVersion 9 0 0);
  (R 0x1f57b 0x1f5a3, mkVersion 7 0 0);
  (R 0x1f5a4 0x1f5a4, mkVersion 9 0 0);
  (R 0x1f5a5 0x1f5fa, mkVersion 7 0 0);
  (R 0x1f5fb 0x1f5ff, mkVersion 6 0 0);
  (R 0x1f600 0x1f600, mkVersion 6 1 0);
  (R 0x1f601 0x1f610, mkVersion 6 0 0);
  (R 0x1f611 0x1f611, mkVersion 6 1 0);
  (R 0x1f612 0x1f614, mkVersion 6 0 0);
  (R 0x1f615 0x1f615, mkVersion 6 1 0);
  (R 0x1f616 0x1f616, mkVersion 6 0 0);
  (R 0x1f617 0x1f617, mkVersion 6 1 0);
  (R 0x1f618 0x1f618, mkVersion 6 0 0);
  (R 0x1f619 0x1f619, mkVersion 6 1 0);
  (R 0x1f61a 0x1f61a, mkVersion 6 0 0);
  (R 0x1f61b 0x1f61b, mkVersion 6 1 0);
  (R 0x1f61c 0x1f61e, mkVersion 6 0 0);
  (R 0x1f61f 0x1f61f, mkVersion 6 1 0);
  (R 0x1f620 0x1f625, mkVersion 6 0 0);
  (R 0x1f626 0x1f627, mkVersion 6 1 0);
  (R 0x1f628 0x1f62b, mkVersion 6 0 0);
  (R 0x1f62c 0x1f62c, mkVersion 6 1 0);
  (R 0x1f62d 0x1f62d, mkVersion 6 0 0);
  (R 0x1f62e 0x1f62f, mkVersion 6 1 0);
  (R 0x1f630 0x1f633, mkVersion 6 0 0);
  (R 0x1f634 0x1f634, mkVersion 6 1 0);
  (R 0x1f635 0x1f640, mkVersion 6 0 0);
  (R 0x1f641 0x1f642, mkVersion 7 0 0);
  (R 0x1f643 0x1f644, mkVersion 8 0 0);
  (R 0x1f645 0x1f64f, mkVersion 6 0 0);
  (R 0x1f650 0x1f67f, mkVersion 7 0 0);
  (R 0x1f680 0x1f6c5, mkVersion 6 0 0);
  (R 0x1f6c6 0x1f6cf, mkVersion 7 0 0);
  (R 0x1f6d0 0x1f6d0, mkVersion 8 0 0);
  (R 0x1f6d1 0x1f6d2, mkVersion 9 0 0);
  (R 0x1f6d3 0x1f6d4, mkVersion 10 0 0);
  (R 0x1f6e0 0x1f6ec, mkVersion 7 0 0);
  (R 0x1f6f0 0x1f6f3, mkVersion 7 0 0);
  (R 0x1f6f4 0x1f6f6, mkVersion 9 0 0);
  (R 0x1f6f7 0x1f6f8, mkVersion 10 0 0);
  (R 0x1f700 0x1f773, mkVersion 6 0 0);
  (R 0x1f780 0x1f7d4, mkVersion 7 0 0);
  (R 0x1f800 0x1f80b, mkVersion 7 0 0);
  (R 0x1f810 0x1f847, mkVersion 7 0 0);
  (R 0x1f850 0x1f859, mkVersion 7 0 0);
  (R 0x1f860 0x1f887, mkVersion 7 0 0);
  (R 0x1f890 0x1f8ad, mkVersion 7 0 0);
  (R 0x1f900 0x1f90b, mkVersion 10 0 0);
  (R 0x1f910 0x1f918, mkVersion 8 0 0);
  (R 0x1f919 0x1f91e, mkVersion 9 0 0);
  (R 0x1f91f 0x1f91f, mkVersion 10 0 0);
  (R 0x1f920 0x1f927, mkVersion 9 0 0);
  (R 0x1f928 0x1f92f, mkVersion 10 0 0);
  (R 0x1f930 0x1f930, mkVersion 9 0 0);
  (R 0x1f931 0x1f932, mkVersion 10 0 0);
  (R 0x1f933 0x1f93e, mkVersion 9 0 0);
  (R 0x1f940 0x1f94b, mkVersion 9 0 0);
  (R 0x1f94c 0x1f94c, mkVersion 10 0 0);
  (R 0x1f950 0x1f95e, mkVersion 9 0 0);
  (R 0x1f95f 0x1f96b, mkVersion 10 0 0);
  (R 0x1f980 0x1f984, mkVersion 8 0 0);
  (R 0x1f985 0x1f991, mkVersion 9 0 0);
  (R 0x1f992 0x1f997, mkVersion 10 0 0);
  (R 0x1f9c0 0x1f9c0, mkVersion 8 0 0);
  (R 0x1f9d0 0x1f9e6, mkVersion 10 0 0);
  (R 0x1fffe 0x1ffff, mkVersion 2 0 0);
  (R 0x20000 0x2a6d6, mkVersion 3 1 0);
  (R 0x2a700 0x2b734, mkVersion 5 2 0);
  (R 0x2b740 0x2b81d, mkVersion 6 0 0);
  (R 0x2b820 0x2cea1, mkVersion 8 0 0);
  (R 0x2ceb0 0x2ebe0, mkVersion 10 0 0);
  (R 0x2f800 0x2fa1d, mkVersion 3 1 0);
  (R 0x2fffe 0x2ffff, mkVersion 2 0 0);
  (R 0x3fffe 0x3ffff, mkVersion 2 0 0);
  (R 0x4fffe 0x4ffff, mkVersion 2 0 0);
  (R 0x5fffe 0x5ffff, mkVersion 2 0 0);
  (R 0x6fffe 0x6ffff, mkVersion 2 0 0);
  (R 0x7fffe 0x7ffff, mkVersion 2 0 0);
  (R 0x8fffe 0x8ffff, mkVersion 2 0 0);
  (R 0x9fffe 0x9ffff, mkVersion 2 0 0);
  (R 0xafffe 0xaffff, mkVersion 2 0 0);
  (R 0xbfffe 0xbffff, mkVersion 2 0 0);
  (R 0xcfffe 0xcffff, mkVersion 2 0 0);
  (R 0xdfffe 0xdffff, mkVersion 2 0 0);
  (R 0xe0001 0xe0001, mkVersion 3 1 0);
  (R 0xe0020 0xe007f, mkVersion 3 1 0);
  (R 0xe0100 0xe01ef, mkVersion 4 0 0);
  (R 0xefffe 0x10ffff, mkVersion 2 0 0)].

Definition AGE_TABLE : CharDataTable UnicodeVersion :=
  Range (AGE_TABLE_0 ++ AGE_TABLE_1 ++ AGE_TABLE_2 ++ AGE_TABLE_3).

(** unic/ucd/block/tables/blocks.rsv:1-281 (277 entries) *)
Definition BLOCKS : CharDataTable str := Range [
  (R 0x0 0x7f, [0x42; 0x61; 0x73; 0x69; 0x63; 0x20; 0x4c; 0x61; 0x74; 0x69; 0x6e]);
  (R 0x80 0xff, [0x4c; 0x61; 0x74; 0x69; 0x6e; 0x2d; 0x31; 0x20; 0x53; 0x75; 0x70; 0x70; 0x6c; 0x65; 0x6d; 0x65; 0x6e; 0x74]);
  (R 0x100 0x17f, [0x4c; 0x61; 0x74; 0x69; 0x6e; 0x20; 0x45; 0x78; 0x74; 0x65; 0x6e; 0x64; 0x65; 0x64; 0x2d; 0x41]);
  (R 0x180 0x24f, [0x4c; 0x61; 0x74; 0x69; 0x6e; 0x20; 0x45; 0x78; 0x74; 0x65; 0x6e; 0x64; 0x65; 0x64; 0x2d; 0x42]);
  (R 0x250 0x2af, [0x49; 0x50; 0x41; 0x20; 0x45; 0x78; 0x74; 0x65; 0x6e; 0x73; 0x69; 0x6f; 0x6e; 0x73]);
  (R 0x2b0 0x2ff, [0x53; 0x70; 0x61; 0x63; 0x69; 0x6e; 0x67; 0x20; 0x4d; 0x6f; 0x64; 0x69; 0x66; 0x69; 0x65; 0x72; 0x20; 0x4c; 0x65; 0x74; 0x74; 0x65; 0x72; 0x73]);
  (R 0x300 0x36f, [0x43; 0x6f; 0x6d; 0x62; 0x69; 0x6e; 0x69; 0x6e; 0x67; 0x20; 0x44; 0x69; 0x61; 0x63; 0x72; 0x69; 0x74; 0x69; 0x63; 0x61; 0x6c; 0x20; 0x4d; 0x61; 0x72; 0x6b; 0x73]);
  (R 0x370 0x3ff, [0x47; 0x72; 0x65; 0x65; 0x6b; 0x20; 0x61; 0x6e; 0x64; 0x20; 0x43; 0x6f; 0x70; 0x74; 0x69; 0x63]);
  (R 0x400 0x4ff, [0x43; 0x79; 0x72; 0x69; 0x6c; 0x6c; 0x69; 0x63]);
  (R 0x500 0x52f, [0x43; 0x79; 0x72; 0x69; 0x6c; 0x6c; 0x69; 0x63; 0x20; 0x53; 0x75; 0x70; 0x70; 0x6c; 0x65; 0x6d; 0x65; 0x6e; 0x74]);
  (R 0x530 0x58f, [0x41; 0x72; 0x6d; 0x65; 0x6e; 0x69; 0x61; 0x6e]);
  (R 0x590 0x5ff, [0x48; 0x65; 0x62; 0x72; 0x65; 0x77]);
  (R 0x600 0x6ff, [0x41; 0x72; 0x61; 0x62; 0x69; 0x63]);
  (R 0x700 0x74f, [0x53; 0x79; 0x72; 0x69; 0x61; 0x63]);
  (R 0x750 0x77f, [0x41; 0x72; 0x61; 0x62; 0x69; 0x63; 0x20; 0x53; 0x75; 0x70; 0x70; 0x6c; 0x65; 0x6d; 0x65; 0x6e; 0x74]);
  (R 0x780 0x7bf, [0x54; 0x68; 0x61; 0x61; 0x6e; 0x61]);
  (R 0x7c0 0x7ff, [0x4e; 0x4b; 0x6f]);
  (R 0x800 0x83f, [0x53; 0x61; 0x6d; 0x61; 0x72; 0x69; 0x74; 0x61; 0x6e]);
  (R 0x840 0x85f, [0x4d; 0x61; 0x6e; 0x64; 0x61; 0x69; 0x63]);
  (R 0x860 0x86f, [0x53; 0x79; 0x72; 0x69; 0x61; 0x63; 0x20; 0x53; 0x75; 0x70; 0x70; 0x6c; 0x65; 0x6d; 0x65; 0x6e; 0x74]);
  (R 0x8a0 0x8ff, [0x41; 0x72; 0x61; 0x62; 0x69; 0x63; 0x20; 0x45; 0x78; 0x74; 0x65; 0x6e; 0x64; 0x65; 0x64; 0x2d; 0x41]);
  (R 0x900 0x97f, [0x44; 0x65; 0x76; 0x61; 0x6e; 0x61; 0x67; 0x61; 0x72; 0x69]);
  (R 0x980 0x9ff, [0x42; 0x65; 0x6e; 0x67; 0x61; 0x6c; 0x69]);
  (R 0xa00 0xa7f, [0x47; 0x75; 0x72; 0x6d; 0x75; 0x6b; 0x68; 0x69]);
  (R 0xa80 0xaff, [0x47; 0x75; 0x6a; 0x61; 0x72; 0x61; 0x74; 0x69]);
  (R 0xb00 0xb7f, [0x4f; 0x72; 0x69; 0x79; 0x61]);
  (R 0xb80 0xbff, [0x54; 0x61; 0x6d; 0x69; 0x6c]);
  (R 0xc00 0xc7f, [0x54; 0x65; 0x6c; 0x75; 0x67; 0x75]);
  (R 0xc80 0xcff, [0x4b; 0x61; 0x6e; 0x6e; 0x61; 0x64; 0x61]);
  (R 0xd00 0xd7f, [0x4d; 0x61; 0x6c; 0x61; 0x79; 0x61; 0x6c; 0x61; 0x6d]);
  (R 0xd80 0xdff, [0x53; 0x69; 0x6e; 0x68; 0x61; 0x6c; 0x61]);
  (R 0xe00 0xe7f, [0x54; 0x68; 0x61; 0x69]);
  (R 0xe80 0xeff, [0x4c; 0x61; 0x6f]);
  (R 0xf00 0xfff, [0x54; 0x69; 0x62; 0x65; 0x74; 0x61; 0x6e]);
  (R 0x1000 0x109f, [0x4d; 0x79; 0x61; 0x6e; 0x6d; 0x61; 0x72]);
  (R 0x10a0 0x10ff, [0x47; 0x65; 0x6f; 0x72; 0x67; 0x69; 0x61; 0x6e]);
  (R 0x1100 0x11ff, [0x48; 0x61; 0x6e; 0x67; 0x75; 0x6c; 0x20; 0x4a; 0x61; 0x6d; 0x6f]);
  (R 0x1200 0x137f, [0x45; 0x74; 0x68; 0x69; 0x6f; 0x70; 0x69; 0x63]);
  (R 0x1380 0x139f, [0x45; 0x74; 0x68; 0x69; 0x6f; 0x70; 0x69; 0x63; 0x20; 0x53; 0x75; 0x70; 0x70; 0x6c; 0x65; 0x6d; 0x65; 0x6e; 0x74]);
  (R 0x13a0 0x13ff, [0x43; 0x68; 0x65; 0x72; 0x6f; 0x6b; 0x65; 0x65]);
  (R 0x1400 0x167f, [0x55; 0x6e; 0x69; 0x66; 0x69; 0x65; 0x64; 0x20; 0x43; 0x61; 0x6e; 0x61; 0x64; 0x69; 0x61; 0x6e; 0x20; 0x41; 0x62; 0x6f; 0x72; 0x69; 0x67; 0x69; 0x6e; 0x61; 0x6c; 0x20; 0x53; 0x79; 0x6c; 0x6c; 0x61; 0x62; 0x69; 0x63; 0x73]);
  (R 0x1680 0x169f, [0x4f; 0x67; 0x68; 0x61; 0x6d]);
  (R 0x16a0 0x16ff, [0x52; 0x75; 0x6e; 0x69; 0x63]);
  (R 0x1700 0x171f, [0x54; 0x61; 0x67; 0x61; 0x6c; 0x6f; 0x67]);
  (R 0x1720 0x173f, [0x48; 0x61; 0x6e; 0x75; 0x6e; 0x6f; 0x6f]);
  (R 0x1740 0x175f, [0x42; 0x75; 0x68; 0x69; 0x64]);
  (R 0x1760 0x177f, [0x54; 0x61; 0x67; 0x62; 0x61; 0x6e; 0x77; 0x61]);
  (R 0x1780 0x17ff, [0x4b; 0x68; 0x6d; 0x65; 0x72]);
  (R 0x1800 0x18af, [0x4d; 0x6f; 0x6e; 0x67; 0x6f; 0x6c; 0x69; 0x61; 0x6e]);
  (R 0x18b0 0x18ff, [0x55; 0x6e; 0x69; 0x66; 0x69; 0x65; 0x64; 0x20; 0x43; 0x61; 0x6e; 0x61; 0x64; 0x69; 0x61; 0x6e; 0x20; 0x41; 0x62; 0x6f; 0x72; 0x69; 0x67; 0x69; 0x6e; 0x61; 0x6c; 0x20; 0x53; 0x79; 0x6c; 0x6c; 0x61; 0x62; 0x69; 0x63; 0x73; 0x20; 0x45; 0x78; 0x74; 0x65; 0x6e; 0x64; 0x65; 0x64]);
  (R 0x1900 0x194f, [0x4c; 0x69; 0x6d; 0x62; 0x75]);
  (R 0x1950 0x197f, [0x54; 0x61; 0x69; 0x20; 0x4c; 0x65]);
  (R 0x1980 0x19df, [0x4e; 0x65; 0x77; 0x20; 0x54; 0x61; 0x69; 0x20; 0x4c; 0x75; 0x65]);
  (R 0x19e0 0x19ff, [0x4b; 0x68; 0x6d; 0x65; 0x72; 0x20; 0x53; 0x79; 0x6d; 0x62; 0x6f; 0x6c; 0x73]);
  (R 0x1a00 0x1a1f, [0x42; 0x75; 0x67; 0x69; 0x6e; 0x65; 0x73; 0x65]);
  (R 0x1a20 0x1aaf, [0x54; 0x61; 0x69; 0x20; 0x54; 0x68; 0x61; 0x6d]);
  (R 0x1ab0 0x1aff, [0x43; 0x6f; 0x6d; 0x62; 0x69; 0x6e; 0x69; 0x6e; 0x67; 0x20; 0x44; 0x69; 0x61; 0x63; 0x72; 0x69; 0x74; 0x69; 0x63; 0x61; 0x6c; 0x20; 0x4d; 0x61; 0x72; 0x6b; 0x73; 0x20; 0x45; 0x78; 0x74; 0x65; 0x6e; 0x64; 0x65; 0x64]);
  (R 0x1b00 0x1b7f, [0x42; 0x61; 0x6c; 0x69; 0x6e; 0x65; 0x73; 0x65]);
  (R 0x1b80 0x1bbf, [0x53; 0x75; 0x6e; 0x64; 0x61; 0x6e; 0x65; 0x73; 0x65]);
  (R 0x1bc0 0x1bff, [0x42; 0x61; 0x74; 0x61; 0x6b]);
  (R 0x1c00 0x1c4f, [0x4c; 0x65; 0x70; 0x63; 0x68; 0x61]);
  (R 0x1c50 0x1c7f, [0x4f; 0x6c; 0x20; 0x43; 0x68; 0x69; 0x6b; 0x69]);
  (R 0x1c80 0x1c8f, [0x43; 0x79; 0x72; 0x69; 0x6c; 0x6c; 0x69; 0x63; 0x20; 0x45; 0x78; 0x74; 0x65; 0x6e; 0x64; 0x65; 0x64; 0x2d; 0x43]);
  (R 0x1cc0 0x1ccf, [0x53; 0x75; 0x6e; 0x64; 0x61; 0x6e; 0x65; 0x73; 0x65; 0x20; 0x53; 0x75; 0x70; 0x70; 0x6c; 0x65; 0x6d; 0x65; 0x6e; 0x74]);
  (R 0x1cd0 0x1cff, [0x56; 0x65; 0x64; 0x69; 0x63; 0x20; 0x45; 0x78; 0x74; 0x65; 0x6e; 0x73; 0x69; 0x6f; 0x6e; 0x73]);
  (R 0x1d00 0x1d7f, [0x50; 0x68; 0x6f; 0x6e; 0x65; 0x74; 0x69; 0x63; 0x20; 0x45; 0x78; 0x74; 0x65; 0x6e; 0x73; 0x69; 0x6f; 0x6e; 0x73]);
  (R 0x1d80 0x1dbf, [0x50; 0x68; 0x6f; 0x6e; 0x65; 0x74; 0x69; 0x63; 0x20; 0x45; 0x78; 0x74; 0x65; 0x6e; 0x73; 0x69; 0x6f; 0x6e; 0x73; 0x20; 0x53; 0x75; 0x70; 0x70; 0x6c; 0x65; 0x6d; 0x65; 0x6e; 0x74]);
  (R 0x1dc0 0x1dff, [0x43; 0x6f; 0x6d; 0x62; 0x69; 0x6e; 0x69; 0x6e; 0x67; 0x20; 0x44; 0x69; 0x61; 0x63; 0x72; 0x69; 0x74; 0x69; 0x63; 0x61; 0x6c; 0x20; 0x4d; 0x61; 0x72; 0x6b; 0x73; 0x20; 0x53; 0x75; 0x70; 0x70; 0x6c; 0x65; 0x6d; 0x65; 0x6e; 0x74]);
  (R 0x1e00 0x1eff, [0x4c; 0x61; 0x74; 0x69; 0x6e; 0x20; 0x45; 0x78; 0x74; 0x65; 0x6e; 0x64; 0x65; 0x64; 0x20; 0x41; 0x64; 0x64; 0x69; 0x74; 0x69; 0x6f; 0x6e; 0x61; 0x6c]);
  (R 0x1f00 0x1fff, [0x47; 0x72; 0x65; 0x65; 0x6b; 0x20; 0x45; 0x78; 0x74; 0x65; 0x6e; 0x64; 0x65; 0x64]);
  (R 0x2000 0x206f, [0x47; 0x65; 0x6e; 0x65; 0x72; 0x61; 0x6c; 0x20; 0x50; 0x75; 0x6e; 0x63; 0x74; 0x75; 0x61; 0x74; 0x69; 0x6f; 0x6e]);
  (R 0x2070 0x209f, [0x53; 0x75; 0x70; 0x65; 0x72; 0x73; 0x63; 0x72; 0x69; 0x70; 0x74; 0x73; 0x20; 0x61; 0x6e; 0x64; 0x20; 0x53; 0x75; 0x62; 0x73; 0x63; 0x72; 0x69; 0x70; 0x74; 0x73]);
  (R 0x20a0 0x20cf, [0x43; 0x75; 0x72; 0x72; 0x65; 0x6e; 0x63; 0x79; 0x20; 0x53; 0x79; 0x6d; 0x62; 0x6f; 0x6c; 0x73]);
  (R 0x20d0 0x20ff, [0x43; 0x6f; 0x6d; 0x62; 0x69; 0x6e; 0x69; 0x6e; 0x67; 0x20; 0x44; 0x69; 0x61; 0x63; 0x72; 0x69; 0x74; 0x69; 0x63; 0x61; 0x6c; 0x20; 0x4d; 0x61; 0x72; 0x6b; 0x73; 0x20; 0x66; 0x6f; 0x72; 0x20; 0x53; 0x79; 0x6d; 0x62; 0x6f; 0x6c; 0x73]);
  (R 0x2100 0x214f, [0x4c; 0x65; 0x74; 0x74; 0x65; 0x72; 0x6c; 0x69; 0x6b; 0x65; 0x20; 0x53; 0x79; 0x6d; 0x62; 0x6f; 0x6c; 0x73]);
  (R 0x2150 0x218f, [0x4e; 0x75; 0x6d; 0x62; 0x65; 0x72; 0x20; 0x46; 0x6f; 0x72; 0x6d; 0x73]);
  (R 0x2190 0x21ff, [0x41; 0x72; 0x72; 0x6f; 0x77; 0x73]);
  (R 0x2200 0x22ff, [0x4d; 0x61; 0x74; 0x68; 0x65; 0x6d; 0x61; 0x74; 0x69; 0x63; 0x61; 0x6c; 0x20; 0x4f; 0x70; 0x65; 0x72; 0x61; 0x74; 0x6f; 0x72; 0x73]);
  (R 0x2300 0x23ff, [0x4d; 0x69; 0x73; 0x63; 0x65; 0x6c; 0x6c; 0x61; 0x6e; 0x65; 0x6f; 0x75; 0x73; 0x20; 0x54; 0x65; 0x63; 0x68; 0x6e; 0x69; 0x63; 0x61; 0x6c]);
  (R 0x2400 0x243f, [0x43; 0x6f; 0x6e; 0x74; 0x72; 0x6f; 0x6c; 0x20; 0x50; 0x69; 0x63; 0x74; 0x75; 0x72; 0x65; 0x73]);
  (R 0x2440 0x245f, [0x4f; 0x70; 0x74; 0x69; 0x63; 0x61; 0x6c; 0x20; 0x43; 0x68; 0x61; 0x72; 0x61; 0x63; 0x74; 0x65; 0x72; 0x20; 0x52; 0x65; 0x63; 0x6f; 0x67; 0x6e; 0x69; 0x74; 0x69; 0x6f; 0x6e]);
  (R 0x2460 0x24ff, [0x45; 0x6e; 0x63; 0x6c; 0x6f; 0x73; 0x65; 0x64; 0x20; 0x41; 0x6c; 0x70; 0x68; 0x61; 0x6e; 0x75; 0x6d; 0x65; 0x72; 0x69; 0x63; 0x73]);
  (R 0x2500 0x257f, [0x42; 0x6f; 0x78; 0x20; 0x44; 0x72; 0x61; 0x77; 0x69; 0x6e; 0x67]);
  (R 0x2580 0x259f, [0x42; 0x6c; 0x6f; 0x63; 0x6b; 0x20; 0x45; 0x6c; 0x65; 0x6d; 0x65; 0x6e; 0x74; 0x73]);
  (R 0x25a0 0x25ff, [0x47; 0x65; 0x6f; 0x6d; 0x65; 0x74; 0x72; 0x69; 0x63; 0x20; 0x53; 0x68; 0x61; 0x70; 0x65; 0x73]);
  (R 0x2600 0x26ff, [0x4d; 0x69; 0x73; 0x63; 0x65; 0x6c; 0x6c; 0x61; 0x6e; 0x65; 0x6f; 0x75; 0x73; 0x20; 0x53; 0x79; 0x6d; 0x62; 0x6f; 0x6c; 0x73]);
  (R 0x2700 0x27bf, [0x44; 0x69; 0x6e; 0x67; 0x62; 0x61; 0x74; 0x73]);
  (R 0x27c0 0x27ef, [0x4d; 0x69; 0x73; 0x63; 0x65; 0x6c; 0x6c; 0x61; 0x6e; 0x65; 0x6f; 0x75; 0x73; 0x20; 0x4d; 0x61; 0x74; 0x68; 0x65; 0x6d; 0x61; 0x74; 0x69; 0x63; 0x61; 0x6c; 0x20; 0x53; 0x79; 0x6d; 0x62; 0x6f; 0x6c; 0x73; 0x2d; 0x41]);
  (R 0x27f0 0x27ff, [0x53; 0x75; 0x70; 0x70; 0x6c; 0x65; 0x6d; 0x65; 0x6e; 0x74; 0x61; 0x6c; 0x20; 0x41; 0x72; 0x72; 0x6f; 0x77; 0x73; 0x2d; 0x41]);
  (R 0x2800 0x28ff, [0x42; 0x72; 0x61; 0x69; 0x6c; 0x6c; 0x65; 0x20; 0x50; 0x61; 0x74; 0x74; 0x65; 0x72; 0x6e; 0x73]);
  (R 0x2900 0x297f, [0x53; 0x75; 0x70; 0x70; 0x6c; 0x65; 0x6d; 0x65; 0x6e; 0x74; 0x61; 0x6c; 0x20; 0x41; 0x72; 0x72; 0x6f; 0x77; 0x73; 0x2d; 0x42]);
  (R 0x2980 0x29ff, [0x4d; 0x69; 0x73; 0x63; 0x65; 0x6c; 0x6c; 0x61; 0x6e; 0x65; 0x6f; 0x75; 0x73; 0x20; 0x4d; 0x61; 0x74; 0x68; 0x65; 0x6d; 0x61; 0x74; 0x69; 0x63; 0x61; 0x6c; 0x20; 0x53; 0x79; 0x6d; 0x62; 0x6f; 0x6c; 0x73; 0x2d; 0x42]);
  (R 0x2a00 0x2aff, [0x53; 0x75; 0x70; 0x70; 0x6c; 0x65; 0x6d; 0x65; 0x6e; 0x74; 0x61; 0x6c; 0x20; 0x4d; 0x61; 0x74; 0x68; 0x65; 0x6d; 0x61; 0x74; 0x69; 0x63; 0x61; 0x6c; 0x20; 0x4f; 0x70; 0x65; 0x72; 0x61; 0x74; 0x6f; 0x72; 0x73]);
  (R 0x2b00 0x2bff, [0x4d; 0x69; 0x73; 0x63; 0x65; 0x6c; 0x6c; 0x61; 0x6e; 0x65; 0x6f; 0x75; 0x73; 0x20; 0x53; 0x79; 0x6d; 0x62; 0x6f; 0x6c; 0x73; 0x20; 0x61; 0x6e; 0x64; 0x20; 0x41; 0x72; 0x72; 0x6f; 0x77; 0x73]);
  (R 0x2c00 0x2c5f, [0x47; 0x6c; 0x61; 0x67; 0x6f; 0x6c; 0x69; 0x74; 0x69; 0x63]);
  (R 0x2c60 0x2c7f, [0x4c; 0x61; 0x74; 0x69; 0x6e; 0x20; 0x45; 0x78; 0x74; 0x65; 0x6e; 0x64; 0x65; 0x64; 0x2d; 0x43]);
  (R 0x2c80 0x2cff, [0x43; 0x6f; 0x70; 0x74; 0x69; 0x63]);
  (R 0x2d00 0x2d2f, [0x47; 0x65; 0x6f; 0x72; 0x67; 0x69; 0x61; 0x6e; 0x20; 0x53; 0x75; 0x70; 0x70; 0x6c; 0x65; 0x6d; 0x65; 0x6e; 0x74]);
  (R 0x2d30 0x2d7f, [0x54; 0x69; 0x66; 0x69; 0x6e; 0x61; 0x67; 0x68]);
  (R 0x2d80 0x2ddf, [0x45; 0x74; 0x68; 0x69; 0x6f; 0x70; 0x69; 0x63; 0x20; 0x45; 0x78; 0x74; 0x65; 0x6e; 0x64; 0x65; 0x64]);
  (R 0x2de0 0x2dff, [0x43; 0x79; 0x72; 0x69; 0x6c; 0x6c; 0x69; 0x63; 0x20; 0x45; 0x78; 0x74; 0x65; 0x6e; 0x64; 0x65; 0x64; 0x2d; 0x41]);
  (R 0x2e00 0x2e7f, [0x53; 0x75; 0x70; 0x70; 0x6c; 0x65; 0x6d; 0x65; 0x6e; 0x74; 0x61; 0x6c; 0x20; 0x50; 0x75; 0x6e; 0x63; 0x74; 0x75; 0x61; 0x74; 0x69; 0x6f; 0x6e]);
  (R 0x2e80 0x2eff, [0x43; 0x4a; 0x4b; 0x20; 0x52; 0x61; 0x64; 0x69; 0x63; 0x61; 0x6c; 0x73; 0x20; 0x53; 0x75; 0x70; 0x70; 0x6c; 0x65; 0x6d; 0x65; 0x6e; 0x74]);
  (R 0x2f00 0x2fdf, [0x4b; 0x61; 0x6e; 0x67; 0x78; 0x69; 0x20; 0x52; 0x61; 0x64; 0x69; 0x63; 0x61; 0x6c; 0x73]);
  (R 0x2ff0 0x2fff, [0x49; 0x64; 0x65; 0x6f; 0x67; 0x72; 0x61; 0x70; 0x68; 0x69; 0x63; 0x20; 0x44; 0x65; 0x73; 0x63; 0x72; 0x69; 0x70; 0x74; 0x69; 0x6f; 0x6e; 0x20; 0x43; 0x68; 0x61; 0x72; 0x61; 0x63; 0x74; 0x65; 0x72; 0x73]);
  (R 0x3000 0x303f, [0x43; 0x4a; 0x4b; 0x20; 0x53; 0x79; 0x6d; 0x62; 0x6f; 0x6c; 0x73; 0x20; 0x61; 0x6e; 0x64; 0x20; 0x50; 0x75; 0x6e; 0x63; 0x74; 0x75; 0x61; 0x74; 0x69; 0x6f; 0x6e]);
  (R 0x3040 0x309f, [0x48; 0x69; 0x72; 0x61; 0x67; 0x61; 0x6e; 0x61]);
  (R 0x30a0 0x30ff, [0x4b; 0x61; 0x74; 0x61; 0x6b; 0x61; 0x6e; 0x61]);
  (R 0x3100 0x312f, [0x42; 0x6f; 0x70; 0x6f; 0x6d; 0x6f; 0x66; 0x6f]);
  (R 0x3130 0x318f, [0x48; 0x61; 0x6e; 0x67; 0x75; 0x6c; 0x20; 0x43; 0x6f; 0x6d; 0x70; 0x61; 0x74; 0x69; 0x62; 0x69; 0x6c; 0x69; 0x74; 0x79; 0x20; 0x4a; 0x61; 0x6d; 0x6f]);
  (R 0x3190 0x319f, [0x4b; 0x61; 0x6e; 0x62; 0x75; 0x6e]);
  (R 0x31a0 0x31bf, [0x42; 0x6f; 0x70; 0x6f; 0x6d; 0x6f; 0x66; 0x6f; 0x20; 0x45; 0x78; 0x74; 0x65; 0x6e; 0x64; 0x65; 0x64]);
  (R 0x31c0 0x31ef, [0x43; 0x4a; 0x4b; 0x20; 0x53; 0x74; 0x72; 0x6f; 0x6b; 0x65; 0x73]);
  (R 0x31f0 0x31ff, [0x4b; 0x61; 0x74; 0x61; 0x6b; 0x61; 0x6e; 0x61; 0x20; 0x50; 0x68; 0x6f; 0x6e; 0x65; 0x74; 0x69; 0x63; 0x20; 0x45; 0x78; 0x74; 0x65; 0x6e; 0x73; 0x69; 0x6f; 0x6e; 0x73]);
  (R 0x3200 0x32ff, [0x45; 0x6e; 0x63; 0x6c; 0x6f; 0x73; 0x65; 0x64; 0x20; 0x43; 0x4a; 0x4b; 0x20; 0x4c; 0x65; 0x74; 0x74; 0x65; 0x72; 0x73; 0x20; 0x61; 0x6e; 0x64; 0x20; 0x4d; 0x6f; 0x6e; 0x74; 0x68; 0x73]);
  (R 0x3300 0x33ff, [0x43; 0x4a; 0x4b; 0x20; 0x43; 0x6f; 0x6d; 0x70; 0x61; 0x74; 0x69; 0x62; 0x69; 0x6c; 0x69; 0x74; 0x79]);
  (R 0x3400 0x4dbf, [0x43; 0x4a; 0x4b; 0x20; 0x55; 0x6e; 0x69; 0x66; 0x69; 0x65; 0x64; 0x20; 0x49; 0x64; 0x65; 0x6f; 0x67; 0x72; 0x61; 0x70; 0x68; 0x73; 0x20; 0x45; 0x78; 0x74; 0x65; 0x6e; 0x73; 0x69; 0x6f; 0x6e; 0x20; 0x41]);
  (R 0x4dc0 0x4dff, [0x59; 0x69; 0x6a; 0x69; 0x6e; 0x67; 0x20; 0x48; 0x65; 0x78; 0x61; 0x67; 0x72; 0x61; 0x6d; 0x20; 0x53; 0x79; 0x6d; 0x62; 0x6f; 0x6c; 0x73]);
  (R 0x4e00 0x9fff, [0x43; 0x4a; 0x4b; 0x20; 0x55; 0x6e; 0x69; 0x66; 0x69; 0x65; 0x64; 0x20; 0x49; 0x64; 0x65; 0x6f; 0x67; 0x72; 0x61; 0x70; 0x68; 0x73]);
  (R 0xa000 0xa48f, [0x59; 0x69; 0x20; 0x53; 0x79; 0x6c; 0x6c; 0x61; 0x62; 0x6c; 0x65; 0x73]);
  (R 0xa490 0xa4cf, [0x59; 0x69; 0x20; 0x52; 0x61; 0x64; 0x69; 0x63; 0x61; 0x6c; 0x73]);
  (R 0xa4d0 0xa4ff, [0x4c; 0x69; 0x73; 0x75]);
  (R 0xa500 0xa63f, [0x56; 0x61; 0x69]);
  (R 0xa640 0xa69f, [0x43; 0x79; 0x72; 0x69; 0x6c; 0x6c; 0x69; 0x63; 0x20; 0x45; 0x78; 0x74; 0x65; 0x6e; 0x64; 0x65; 0x64; 0x2d; 0x42]);
  (R 0xa6a0 0xa6ff, [0x42; 0x61; 0x6d; 0x75; 0x6d]);
  (R 0xa700 0xa71f, [0x4d; 0x6f; 0x64; 0x69; 0x66; 0x69; 0x65; 0x72; 0x20; 0x54; 0x6f; 0x6e; 0x65; 0x20; 0x4c; 0x65; 0x74; 0x74; 0x65; 0x72; 0x73]);
  (R 0xa720 0xa7ff, [0x4c; 0x61; 0x74; 0x69; 0x6e; 0x20; 0x45; 0x78; 0x74; 0x65; 0x6e; 0x64; 0x65; 0x64; 0x2d; 0x44]);
  (R 0xa800 0xa82f, [0x53; 0x79; 0x6c; 0x6f; 0x74; 0x69; 0x20; 0x4e; 0x61; 0x67; 0x72; 0x69]);
  (R 0xa830 0xa83f, [0x43; 0x6f; 0x6d; 0x6d; 0x6f; 0x6e; 0x20; 0x49; 0x6e; 0x64; 0x69; 0x63; 0x20; 0x4e; 0x75; 0x6d; 0x62; 0x65; 0x72; 0x20; 0x46; 0x6f; 0x72; 0x6d; 0x73]);
  (R 0xa840 0xa87f, [0x50; 0x68; 0x61; 0x67; 0x73; 0x2d; 0x70; 0x61]);
  (R 0xa880 0xa8df, [0x53; 0x61; 0x75; 0x72; 0x61; 0x73; 0x68; 0x74; 0x72; 0x61]);
  (R 0xa8e0 0xa8ff, [0x44; 0x65; 0x76; 0x61; 0x6e; 0x61; 0x67; 0x61; 0x72; 0x69; 0x20; 0x45; 0x78; 0x74; 0x65; 0x6e; 0x64; 0x65; 0x64]);
  (R 0xa900 0xa92f, [0x4b; 0x61; 0x79; 0x61; 0x68; 0x20; 0x4c; 0x69]);
  (R 0xa930 0xa95f, [0x52; 0x65; 0x6a; 0x61; 0x6e; 0x67]);
  (R 0xa960 0xa97f, [0x48; 0x61; 0x6e; 0x67; 0x75; 0x6c; 0x20; 0x4a; 0x61; 0x6d; 0x6f; 0x20; 0x45; 0x78; 0x74; 0x65; 0x6e; 0x64; 0x65; 0x64; 0x2d; 0x41]);
  (R 0xa980 0xa9df, [0x4a; 0x61; 0x76; 0x61; 0x6e; 0x65; 0x73; 0x65]);
  (R 0xa9e0 0xa9ff, [0x4d; 0x79; 0x61; 0x6e; 0x6d; 0x61; 0x72; 0x20; 0x45; 0x78; 0x74; 0x65; 0x6e; 0x64; 0x65; 0x64; 0x2d; 0x42]);
  (R 0xaa00 0xaa5f, [0x43; 0x68; 0x61; 0x6d]);
  (R 0xaa60 0xaa7f, [0x4d; 0x79; 0x61; 0x6e; 0x6d; 0x61; 0x72; 0x20; 0x45; 0x78; 0x74; 0x65; 0x6e; 0x64; 0x65; 0x64; 0x2d; 0x41]);
  (R 0xaa80 0xaadf, [0x54; 0x61; 0x69; 0x20; 0x56; 0x69; 0x65; 0x74]);
  (R 0xaae0 0xaaff, [0x4d; 0x65; 0x65; 0x74; 0x65; 0x69; 0x20; 0x4d; 0x61; 0x79; 0x65; 0x6b; 0x20; 0x45; 0x78; 0x74; 0x65; 0x6e; 0x73; 0x69; 0x6f; 0x6e; 0x73]);
  (R 0xab00 0xab2f, [0x45; 0x74; 0x68; 0x69; 0x6f; 0x70; 0x69; 0x63; 0x20; 0x45; 0x78; 0x74; 0x65; 0x6e; 0x64; 0x65; 0x64; 0x2d; 0x41]);
  (R 0xab30 0xab6f, [0x4c; 0x61; 0x74; 0x69; 0x6e; 0x20; 0x45; 0x78; 0x74; 0x65; 0x6e; 0x64; 0x65; 0x64; 0x2d; 0x45]);
  (R 0xab70 0xabbf, [0x43; 0x68; 0x65; 0x72; 0x6f; 0x6b; 0x65; 0x65; 0x20; 0x53; 0x75; 0x70; 0x70; 0x6c; 0x65; 0x6d; 0x65; 0x6e; 0x74]);
  (R 0xabc0 0xabff, [0x4d; 0x65; 0x65; 0x74; 0x65; 0x69; 0x20; 0x4d; 0x61; 0x79; 0x65; 0x6b]);
  (R 0xac00 0xd7af, [0x48; 0x61; 0x6e; 0x67; 0x75; 0x6c; 0x20; 0x53; 0x79; 0x6c; 0x6c; 0x61; 0x62; 0x6c; 0x65; 0x73]);
  (R 0xd7b0 0xd7ff, [0x48; 0x61; 0x6e; 0x67; 0x75; 0x6c; 0x20; 0x4a; 0x61; 0x6d; 0x6f; 0x20; 0x45; 0x78; 0x74; 0x65; 0x6e; 0x64; 0x65; 0x64; 0x2d; 0x42]);
  (R 0xe000 0xf8ff, [0x50; 0x72; 0x69; 0x76; 0x61; 0x74; 0x65; 0x20; 0x55; 0x73; 0x65; 0x20; 0x41; 0x72; 0x65; 0x61]);
  (R 0xf900 0xfaff, [0x43; 0x4a; 0x4b; 0x20; 0x43; 0x6f; 0x6d; 0x70; 0x61; 0x74; 0x69; 0x62; 0x69; 0x6c; 0x69; 0x74; 0x79; 0x20; 0x49; 0x64; 0x65; 0x6f; 0x67; 0x72; 0x61; 0x70; 0x68; 0x73]);
  (R 0xfb00 0xfb4f, [0x41; 0x6c; 0x70; 0x68; 0x61; 0x62; 0x65; 0x74; 0x69; 0x63; 0x20; 0x50; 0x72; 0x65; 0x73; 0x65; 0x6e; 0x74; 0x61; 0x74; 0x69; 0x6f; 0x6e; 0x20; 0x46; 0x6f; 0x72; 0x6d; 0x73]);
  (R 0xfb50 0xfdff, [0x41; 0x72; 0x61; 0x62; 0x69; 0x63; 0x20; 0x50; 0x72; 0x65; 0x73; 0x65; 0x6e; 0x74; 0x61; 0x74; 0x69; 0x6f; 0x6e; 0x20; 0x46; 0x6f; 0x72; 0x6d; 0x73; 0x2d; 0x41]);
  (R 0xfe00 0xfe0f, [0x56; 0x61; 0x72; 0x69; 0x61; 0x74; 0x69; 0x6f; 0x6e; 0x20; 0x53; 0x65; 0x6c; 0x65; 0x63; 0x74; 0x6f; 0x72; 0x73]);
  (R 0xfe10 0xfe1f, [0x56; 0x65; 0x72; 0x74; 0x69; 0x63; 0x61; 0x6c; 0x20; 0x46; 0x6f; 0x72; 0x6d; 0x73]);
  (R 0xfe20 0xfe2f, [0x43; 0x6f; 0x6d; 0x62; 0x69; 0x6e; 0x69; 0x6e; 0x67; 0x20; 0x48; 0x61; 0x6c; 0x66; 0x20; 0x4d; 0x61; 0x72; 0x6b; 0x73]);
  (R 0xfe30 0xfe4f, [0x43; 0x4a; 0x4b; 0x20; 0x43; 0x6f; 0x6d; 0x70; 0x61; 0x74; 0x69; 0x62; 0x69; 0x6c; 0x69; 0x74; 0x79; 0x20; 0x46; 0x6f; 0x72; 0x6d; 0x73]);
  (R 0xfe50 0xfe6f, [0x53; 0x6d; 0x61; 0x6c; 0x6c; 0x20; 0x46; 0x6f; 0x72; 0x6d; 0x20; 0x56; 0x61; 0x72; 0x69; 0x61; 0x6e; 0x74; 0x73]);
  (R 0xfe70 0xfeff, [0x41; 0x72; 0x61; 0x62; 0x69; 0x63; 0x20; 0x50; 0x72; 0x65; 0x73; 0x65; 0x6e; 0x74; 0x61; 0x74; 0x69; 0x6f; 0x6e; 0x20; 0x46; 0x6f; 0x72; 0x6d; 0x73; 0x2d; 0x42]);
  (R 0xff00 0xffef, [0x48; 0x61; 0x6c; 0x66; 0x77; 0x69; 0x64; 0x74; 0x68; 0x20; 0x61; 0x6e; 0x64; 0x20; 0x46; 0x75; 0x6c; 0x6c; 0x77; 0x69; 0x64; 0x74; 0x68; 0x20; 0x46; 0x6f; 0x72; 0x6d; 0x73]);
  (R 0xfff0 0xffff, [0x53; 0x70; 0x65; 0x63; 0x69; 0x61; 0x6c; 0x73]);
  (R 0x10000 0x1007f, [0x4c; 0x69; 0x6e; 0x65; 0x61; 0x72; 0x20; 0x42; 0x20; 0x53; 0x79; 0x6c; 0x6c; 0x61; 0x62; 0x61; 0x72; 0x79]);
  (R 0x10080 0x100ff, [0x4c; 0x69; 0x6e; 0x65; 0x61; 0x72; 0x20; 0x42; 0x20; 0x49; 0x64; 0x65; 0x6f; 0x67; 0x72; 0x61; 0x6d; 0x73]);
  (R 0x10100 0x1013f, [0x41; 0x65; 0x67; 0x65; 0x61; 0x6e; 0x20; 0x4e; 0x75; 0x6d; 0x62; 0x65; 0x72; 0x73]);
  (R 0x10140 0x1018f, [0x41; 0x6e; 0x63; 0x69; 0x65; 0x6e; 0x74; 0x20; 0x47; 0x72; 0x65; 0x65; 0x6b; 0x20; 0x4e; 0x75; 0x6d; 0x62; 0x65; 0x72; 0x73]);
  (R 0x10190 0x101cf, [0x41; 0x6e; 0x63; 0x69; 0x65; 0x6e; 0x74; 0x20; 0x53; 0x79; 0x6d; 0x62; 0x6f; 0x6c; 0x73]);
  (R 0x101d0 0x101ff, [0x50; 0x68; 0x61; 0x69; 0x73; 0x74; 0x6f; 0x73; 0x20; 0x44; 0x69; 0x73; 0x63]);
  (R 0x10280 0x1029f, [0x4c; 0x79; 0x63; 0x69; 0x61; 0x6e]);
  (R 0x102a0 0x102df, [0x43; 0x61; 0x72; 0x69; 0x61; 0x6e]);
  (R 0x102e0 0x102ff, [0x43; 0x6f; 0x70; 0x74; 0x69; 0x63; 0x20; 0x45; 0x70; 0x61; 0x63; 0x74; 0x20; 0x4e; 0x75; 0x6d; 0x62; 0x65; 0x72; 0x73]);
  (R 0x10300 0x1032f, [0x4f; 0x6c; 0x64; 0x20; 0x49; 0x74; 0x61; 0x6c; 0x69; 0x63]);
  (R 0x10330 0x1034f, [0x47; 0x6f; 0x74; 0x68; 0x69; 0x63]);
  (R 0x10350 0x1037f, [0x4f; 0x6c; 0x64; 0x20; 0x50; 0x65; 0x72; 0x6d; 0x69; 0x63]);
  (R 0x10380 0x1039f, [0x55; 0x67; 0x61; 0x72; 0x69; 0x74; 0x69; 0x63]);
  (R 0x103a0 0x103df, [0x4f; 0x6c; 0x64; 0x20; 0x50; 0x65; 0x72; 0x73; 0x69; 0x61; 0x6e]);
  (R 0x10400 0x1044f, [0x44; 0x65; 0x73; 0x65; 0x72; 0x65; 0x74]);
  (R 0x10450 0x1047f, [0x53; 0x68; 0x61; 0x76; 0x69; 0x61; 0x6e]);
  (R 0x10480 0x104af, [0x4f; 0x73; 0x6d; 0x61; 0x6e; 0x79; 0x61]);
  (R 0x104b0 0x104ff, [0x4f; 0x73; 0x61; 0x67; 0x65]);
  (R 0x10500 0x1052f, [0x45; 0x6c; 0x62; 0x61; 0x73; 0x61; 0x6e]);
  (R 0x10530 0x1056f, [0x43; 0x61; 0x75; 0x63; 0x61; 0x73; 0x69; 0x61; 0x6e; 0x20; 0x41; 0x6c; 0x62; 0x61; 0x6e; 0x69; 0x61; 0x6e]);
  (R 0x10600 0x1077f, [0x4c; 0x69; 0x6e; 0x65; 0x61; 0x72; 0x20; 0x41]);
  (R 0x10800 0x1083f, [0x43; 0x79; 0x70; 0x72; 0x69; 0x6f; 0x74; 0x20; 0x53; 0x79; 0x6c; 0x6c; 0x61; 0x62; 0x61; 0x72; 0x79]);
  (R 0x10840 0x1085f, [0x49; 0x6d; 0x70; 0x65; 0x72; 0x69; 0x61; 0x6c; 0x20; 0x41; 0x72; 0x61; 0x6d; 0x61; 0x69; 0x63]);
  (R 0x10860 0x1087f, [0x50; 0x61; 0x6c; 0x6d; 0x79; 0x72; 0x65; 0x6e; 0x65]);
  (R 0x10880 0x108af, [0x4e; 0x61; 0x62; 0x61; 0x74; 0x61; 0x65; 0x61; 0x6e]);
  (R 0x108e0 0x108ff, [0x48; 0x61; 0x74; 0x72; 0x61; 0x6e]);
  (R 0x10900 0x1091f, [0x50; 0x68; 0x6f; 0x65; 0x6e; 0x69; 0x63; 0x69; 0x61; 0x6e]);
  (R 0x10920 0x1093f, [0x4c; 0x79; 0x64; 0x69; 0x61; 0x6e]);
  (R 0x10980 0x1099f, [0x4d; 0x65; 0x72; 0x6f; 0x69; 0x74; 0x69; 0x63; 0x20; 0x48; 0x69; 0x65; 0x72; 0x6f; 0x67; 0x6c; 0x79; 0x70; 0x68; 0x73]);
  (R 0x109a0 0x109ff, [0x4d; 0x65; 0x72; 0x6f; 0x69; 0x74; 0x69; 0x63; 0x20; 0x43; 0x75; 0x72; 0x73; 0x69; 0x76; 0x65]);
  (R 0x10a00 0x10a5f, [0x4b; 0x68; 0x61; 0x72; 0x6f; 0x73; 0x68; 0x74; 0x68; 0x69]);
  (R 0x10a60 0x10a7f, [0x4f; 0x6c; 0x64; 0x20; 0x53; 0x6f; 0x75; 0x74; 0x68; 0x20; 0x41; 0x72; 0x61; 0x62; 0x69; 0x61; 0x6e]);
  (R 0x10a80 0x10a9f, [0x4f; 0x6c; 0x64; 0x20; 0x4e; 0x6f; 0x72; 0x74; 0x68; 0x20; 0x41; 0x72; 0x61; 0x62; 0x69; 0x61; 0x6e]);
  (R 0x10ac0 0x10aff, [0x4d; 0x61; 0x6e; 0x69; 0x63; 0x68; 0x61; 0x65; 0x61; 0x6e]);
  (R 0x10b00 0x10b3f, [0x41; 0x76; 0x65; 0x73; 0x74; 0x61; 0x6e]);
  (R 0x10b40 0x10b5f, [0x49; 0x6e; 0x73; 0x63; 0x72; 0x69; 0x70; 0x74; 0x69; 0x6f; 0x6e; 0x61; 0x6c; 0x20; 0x50; 0x61; 0x72; 0x74; 0x68; 0x69; 0x61; 0x6e]);
  (R 0x10b60 0x10b7f, [0x49; 0x6e; 0x73; 0x63; 0x72; 0x69; 0x70; 0x74; 0x69; 0x6f; 0x6e; 0x61; 0x6c; 0x20; 0x50; 0x61; 0x68; 0x6c; 0x61; 0x76; 0x69]);
  (R 0x10b80 0x10baf, [0x50; 0x73; 0x61; 0x6c; 0x74; 0x65; 0x72; 0x20; 0x50; 0x61; 0x68; 0x6c; 0x61; 0x76; 0x69]);
  (R 0x10c00 0x10c4f, [0x4f; 0x6c; 0x64; 0x20; 0x54; 0x75; 0x72; 0x6b; 0x69; 0x63]);
  (R 0x10c80 0x10cff, [0x4f; 0x6c; 0x64; 0x20; 0x48; 0x75; 0x6e; 0x67; 0x61; 0x72; 0x69; 0x61; 0x6e]);
  (R 0x10e60 0x10e7f, [0x52; 0x75; 0x6d; 0x69; 0x20; 0x4e; 0x75; 0x6d; 0x65; 0x72; 0x61; 0x6c; 0x20; 0x53; 0x79; 0x6d; 0x62; 0x6f; 0x6c; 0x73]);
  (R 0x11000 0x1107f, [0x42; 0x72; 0x61; 0x68; 0x6d; 0x69]);
  (R 0x11080 0x110cf, [0x4b; 0x61; 0x69; 0x74; 0x68; 0x69]);
  (R 0x110d0 0x110ff, [0x53; 0x6f; 0x72; 0x61; 0x20; 0x53; 0x6f; 0x6d; 0x70; 0x65; 0x6e; 0x67]);
  (R 0x11100 0x1114f, [0x43; 0x68; 0x61; 0x6b; 0x6d; 0x61]);
  (R 0x11150 0x1117f, [0x4d; 0x61; 0x68; 0x61; 0x6a; 0x61; 0x6e; 0x69]);
  (R 0x11180 0x111df, [0x53; 0x68; 0x61; 0x72; 0x61; 0x64; 0x61]);
  (R 0x111e0 0x111ff, [0x53; 0x69; 0x6e; 0x68; 0x61; 0x6c; 0x61; 0x20; 0x41; 0x72; 0x63; 0x68; 0x61; 0x69; 0x63; 0x20; 0x4e; 0x75; 0x6d; 0x62; 0x65; 0x72; 0x73]);
  (R 0x11200 0x1124f, [0x4b; 0x68; 0x6f; 0x6a; 0x6b; 0x69]);
  (R 0x11280 0x112af, [0x4d; 0x75; 0x6c; 0x74; 0x61; 0x6e; 0x69]);
  (R 0x112b0 0x112ff, [0x4b; 0x68; 0x75; 0x64; 0x61; 0x77; 0x61; 0x64; 0x69]);
  (R 0x11300 0x1137f, [0x47; 0x72; 0x61; 0x6e; 0x74; 0x68; 0x61]);
  (R 0x11400 0x1147f, [0x4e; 0x65; 0x77; 0x61]);
  (R 0x11480 0x114df, [0x54; 0x69; 0x72; 0x68; 0x75; 0x74; 0x61]);
  (R 0x11580 0x115ff, [0x53; 0x69; 0x64; 0x64; 0x68; 0x61; 0x6d]);
  (R 0x11600 0x1165f, [0x4d; 0x6f; 0x64; 0x69]);
  (R 0x11660 0x1167f, [0x4d; 0x6f; 0x6e; 0x67; 0x6f; 0x6c; 0x69; 0x61; 0x6e; 0x20; 0x53; 0x75; 0x70; 0x70; 0x6c; 0x65; 0x6d; 0x65; 0x6e; 0x74]);
  (R 0x11680 0x116cf, [0x54; 0x61; 0x6b; 0x72; 0x69]);
  (R 0x11700 0x1173f, [0x41; 0x68; 0x6f; 0x6d]);
  (R 0x118a0 0x118ff, [0x57; 0x61; 0x72; 0x61; 0x6e; 0x67; 0x20; 0x43; 0x69; 0x74; 0x69]);
  (R 0x11a00 0x11a4f, [0x5a; 0x61; 0x6e; 0x61; 0x62; 0x61; 0x7a; 0x61; 0x72; 0x20; 0x53; 0x71; 0x75; 0x61; 0x72; 0x65]);
  (R 0x11a50 0x11aaf, [0x53; 0x6f; 0x79; 0x6f; 0x6d; 0x62; 0x6f]);
  (R 0x11ac0 0x11aff, [0x50; 0x61; 0x75; 0x20; 0x43; 0x69; 0x6e; 0x20; 0x48; 0x61; 0x75]);
  (R 0x11c00 0x11c6f, [0x42; 0x68; 0x61; 0x69; 0x6b; 0x73; 0x75; 0x6b; 0x69]);
  (R 0x11c70 0x11cbf, [0x4d; 0x61; 0x72; 0x63; 0x68; 0x65; 0x6e]);
  (R 0x11d00 0x11d5f, [0x4d; 0x61; 0x73; 0x61; 0x72; 0x61; 0x6d; 0x20; 0x47; 0x6f; 0x6e; 0x64; 0x69]);
  (R 0x12000 0x123ff, [0x43; 0x75; 0x6e; 0x65; 0x69; 0x66; 0x6f; 0x72; 0x6d]);
  (R 0x12400 0x1247f, [0x43; 0x75; 0x6e; 0x65; 0x69; 0x66; 0x6f; 0x72; 0x6d; 0x20; 0x4e; 0x75; 0x6d; 0x62; 0x65; 0x72; 0x73; 0x20; 0x61; 0x6e; 0x64; 0x20; 0x50; 0x75; 0x6e; 0x63; 0x74; 0x75; 0x61; 0x74; 0x69; 0x6f; 0x6e]);
  (R 0x12480 0x1254f, [0x45; 0x61; 0x72; 0x6c; 0x79; 0x20; 0x44; 0x79; 0x6e; 0x61; 0x73; 0x74; 0x69; 0x63; 0x20; 0x43; 0x75; 0x6e; 0x65; 0x69; 0x66; 0x6f; 0x72; 0x6d]);
  (R 0x13000 0x1342f, [0x45; 0x67; 0x79; 0x70; 0x74; 0x69; 0x61; 0x6e; 0x20; 0x48; 0x69; 0x65; 0x72; 0x6f; 0x67; 0x6c; 0x79; 0x70; 0x68; 0x73]);
  (R 0x14400 0x1467f, [0x41; 0x6e; 0x61; 0x74; 0x6f; 0x6c; 0x69; 0x61; 0x6e; 0x20; 0x48; 0x69; 0x65; 0x72; 0x6f; 0x67; 0x6c; 0x79; 0x70; 0x68; 0x73]);
  (R 0x16800 0x16a3f, [0x42; 0x61; 0x6d; 0x75; 0x6d; 0x20; 0x53; 0x75; 0x70; 0x70; 0x6c; 0x65; 0x6d; 0x65; 0x6e; 0x74]);
  (R 0x16a40 0x16a6f, [0x4d; 0x72; 0x6f]);
  (R 0x16ad0 0x16aff, [0x42; 0x61; 0x73; 0x73; 0x61; 0x20; 0x56; 0x61; 0x68]);
  (R 0x16b00 0x16b8f, [0x50; 0x61; 0x68; 0x61; 0x77; 0x68; 0x20; 0x48; 0x6d; 0x6f; 0x6e; 0x67]);
  (R 0x16f00 0x16f9f, [0x4d; 0x69; 0x61; 0x6f]);
  (R 0x16fe0 0x16fff, [0x49; 0x64; 0x65; 0x6f; 0x67; 0x72; 0x61; 0x70; 0x68; 0x69; 0x63; 0x20; 0x53; 0x79; 0x6d; 0x62; 0x6f; 0x6c; 0x73; 0x20; 0x61; 0x6e; 0x64; 0x20; 0x50; 0x75; 0x6e; 0x63; 0x74; 0x75; 0x61; 0x74; 0x69; 0x6f; 0x6e]);
  (R 0x17000 0x187ff, [0x54; 0x61; 0x6e; 0x67; 0x75; 0x74]);
  (R 0x18800 0x18aff, [0x54; 0x61; 0x6e; 0x67; 0x75; 0x74; 0x20; 0x43; 0x6f; 0x6d; 0x70; 0x6f; 0x6e; 0x65; 0x6e; 0x74; 0x73]);
  (R 0x1b000 0x1b0ff, [0x4b; 0x61; 0x6e; 0x61; 0x20; 0x53; 0x75; 0x70; 0x70; 0x6c; 0x65; 0x6d; 0x65; 0x6e; 0x74]);
  (R 0x1b100 0x1b12f, [0x4b; 0x61; 0x6e; 0x61; 0x20; 0x45; 0x78; 0x74; 0x65; 0x6e; 0x64; 0x65; 0x64; 0x2d; 0x41]);
  (R 0x1b170 0x1b2ff, [0x4e; 0x75; 0x73; 0x68; 0x75]);
  (R 0x1bc00 0x1bc9f, [0x44; 0x75; 0x70; 0x6c; 0x6f; 0x79; 0x61; 0x6e]);
  (R 0x1bca0 0x1bcaf, [0x53; 0x68; 0x6f; 0x72; 0x74; 0x68; 0x61; 0x6e; 0x64; 0x20; 0x46; 0x6f; 0x72; 0x6d; 0x61; 0x74; 0x20; 0x43; 0x6f; 0x6e; 0x74; 0x72; 0x6f; 0x6c; 0x73]);
  (R 0x1d000 0x1d0ff, [0x42; 0x79; 0x7a; 0x61; 0x6e; 0x74; 0x69; 0x6e; 0x65; 0x20; 0x4d; 0x75; 0x73; 0x69; 0x63; 0x61; 0x6c; 0x20; 0x53; 0x79; 0x6d; 0x62; 0x6f; 0x6c; 0x73]);
  (R 0x1d100 0x1d1ff, [0x4d; 0x75; 0x73; 0x69; 0x63; 0x61; 0x6c; 0x20; 0x53; 0x79; 0x6d; 0x62; 0x6f; 0x6c; 0x73]);
  (R 0x1d200 0x1d24f, [0x41; 0x6e; 0x63; 0x69; 0x65; 0x6e; 0x74; 0x20; 0x47; 0x72; 0x65; 0x65; 0x6b; 0x20; 0x4d; 0x75; 0x73; 0x69; 0x63; 0x61; 0x6c; 0x20; 0x4e; 0x6f; 0x74; 0x61; 0x74; 0x69; 0x6f; 0x6e]);
  (R 0x1d300 0x1d35f, [0x54; 0x61; 0x69; 0x20; 0x58; 0x75; 0x61; 0x6e; 0x20; 0x4a; 0x69; 0x6e; 0x67; 0x20; 0x53; 0x79; 0x6d; 0x62; 0x6f; 0x6c; 0x73]);
  (R 0x1d360 0x1d37f, [0x43; 0x6f; 0x75; 0x6e; 0x74; 0x69; 0x6e; 0x67; 0x20; 0x52; 0x6f; 0x64; 0x20; 0x4e; 0x75; 0x6d; 0x65; 0x72; 0x61; 0x6c; 0x73]);
  (R 0x1d400 0x1d7ff, [0x4d; 0x61; 0x74; 0x68; 0x65; 0x6d; 0x61; 0x74; 0x69; 0x63; 0x61; 0x6c; 0x20; 0x41; 0x6c; 0x70; 0x68; 0x61; 0x6e; 0x75; 0x6d; 0x65; 0x72; 0x69; 0x63; 0x20; 0x53; 0x79; 0x6d; 0x62; 0x6f; 0x6c; 0x73]);
  (R 0x1d800 0x1daaf, [0x53; 0x75; 0x74; 0x74; 0x6f; 0x6e; 0x20; 0x53; 0x69; 0x67; 0x6e; 0x57; 0x72; 0x69; 0x74; 0x69; 0x6e; 0x67]);
  (R 0x1e000 0x1e02f, [0x47; 0x6c; 0x61; 0x67; 0x6f; 0x6c; 0x69; 0x74; 0x69; 0x63; 0x20; 0x53; 0x75; 0x70; 0x70; 0x6c; 0x65; 0x6d; 0x65; 0x6e; 0x74]);
  (R 0x1e800 0x1e8df, [0x4d; 0x65; 0x6e; 0x64; 0x65; 0x20; 0x4b; 0x69; 0x6b; 0x61; 0x6b; 0x75; 0x69]);
  (R 0x1e900 0x1e95f, [0x41; 0x64; 0x6c; 0x61; 0x6d]);
  (R 0x1ee00 0x1eeff, [0x41; 0x72; 0x61; 0x62; 0x69; 0x63; 0x20; 0x4d; 0x61; 0x74; 0x68; 0x65; 0x6d; 0x61; 0x74; 0x69; 0x63; 0x61; 0x6c; 0x20; 0x41; 0x6c; 0x70; 0x68; 0x61; 0x62; 0x65; 0x74; 0x69; 0x63; 0x20; 0x53; 0x79; 0x6d; 0x62; 0x6f; 0x6c; 0x73]);
  (R 0x1f000 0x1f02f, [0x4d; 0x61; 0x68; 0x6a; 0x6f; 0x6e; 0x67; 0x20; 0x54; 0x69; 0x6c; 0x65; 0x73]);
  (R 0x1f030 0x1f09f, [0x44; 0x6f; 0x6d; 0x69; 0x6e; 0x6f; 0x20; 0x54; 0x69; 0x6c; 0x65; 0x73]);
  (R 0x1f0a0 0x1f0ff, [0x50; 0x6c; 0x61; 0x79; 0x69; 0x6e; 0x67; 0x20; 0x43; 0x61; 0x72; 0x64; 0x73]);
  (R 0x1f100 0x1f1ff, [0x45; 0x6e; 0x63; 0x6c; 0x6f; 0x73; 0x65; 0x64; 0x20; 0x41; 0x6c; 0x70; 0x68; 0x61; 0x6e; 0x75; 0x6d; 0x65; 0x72; 0x69; 0x63; 0x20; 0x53; 0x75; 0x70; 0x70; 0x6c; 0x65; 0x6d; 0x65; 0x6e; 0x74]);
  (R 0x1f200 0x1f2ff, [0x45; 0x6e; 0x63; 0x6c; 0x6f; 0x73; 0x65; 0x64; 0x20; 0x49; 0x64; 0x65; 0x6f; 0x67; 0x72; 0x61; 0x70; 0x68; 0x69; 0x63; 0x20; 0x53; 0x75; 0x70; 0x70; 0x6c; 0x65; 0x6d; 0x65; 0x6e; 0x74]);
  (R 0x1f300 0x1f5ff, [0x4d; 0x69; 0x73; 0x63; 0x65; 0x6c; 0x6c; 0x61; 0x6e; 0x65; 0x6f; 0x75; 0x73; 0x20; 0x53; 0x79; 0x6d; 0x62; 0x6f; 0x6c; 0x73; 0x20; 0x61; 0x6e; 0x64; 0x20; 0x50; 0x69; 0x63; 0x74; 0x6f; 0x67; 0x72; 0x61; 0x70; 0x68; 0x73]);
  (R 0x1f600 0x1f64f, [0x45; 0x6d; 0x6f; 0x74; 0x69; 0x63; 0x6f; 0x6e; 0x73]);
  (R 0x1f650 0x1f67f, [0x4f; 0x72; 0x6e; 0x61; 0x6d; 0x65; 0x6e; 0x74; 0x61; 0x6c; 0x20; 0x44; 0x69; 0x6e; 0x67; 0x62; 0x61; 0x74; 0x73]);
  (R 0x1f680 0x1f6ff, [0x54; 0x72; 0x61; 0x6e; 0x73; 0x70; 0x6f; 0x72; 0x74; 0x20; 0x61; 0x6e; 0x64; 0x20; 0x4d; 0x61; 0x70; 0x20; 0x53; 0x79; 0x6d; 0x62; 0x6f; 0x6c; 0x73]);
  (R 0x1f700 0x1f77f, [0x41; 0x6c; 0x63; 0x68; 0x65; 0x6d; 0x69; 0x63; 0x61; 0x6c; 0x20; 0x53; 0x79; 0x6d; 0x62; 0x6f; 0x6c; 0x73]);
  (R 0x1f780 0x1f7ff, [0x47; 0x65; 0x6f; 0x6d; 0x65; 0x74; 0x72; 0x69; 0x63; 0x20; 0x53; 0x68; 0x61; 0x70; 0x65; 0x73; 0x20; 0x45; 0x78; 0x74; 0x65; 0x6e; 0x64; 0x65; 0x64]);
  (R 0x1f800 0x1f8ff, [0x53; 0x75; 0x70; 0x70; 0x6c; 0x65; 0x6d; 0x65; 0x6e; 0x74; 0x61; 0x6c; 0x20; 0x41; 0x72; 0x72; 0x6f; 0x77; 0x73; 0x2d; 0x43]);
  (R 0x1f900 0x1f9ff, [0x53; 0x75; 0x70; 0x70; 0x6c; 0x65; 0x6d; 0x65; 0x6e; 0x74; 0x61; 0x6c; 0x20; 0x53; 0x79; 0x6d; 0x62; 0x6f; 0x6c; 0x73; 0x20; 0x61; 0x6e; 0x64; 0x20; 0x50; 0x69; 0x63; 0x74; 0x6f; 0x67; 0x72; 0x61; 0x70; 0x68; 0x73]);
  (R 0x20000 0x2a6df, [0x43; 0x4a; 0x4b; 0x20; 0x55; 0x6e; 0x69; 0x66; 0x69; 0x65; 0x64; 0x20; 0x49; 0x64; 0x65; 0x6f; 0x67; 0x72; 0x61; 0x70; 0x68; 0x73; 0x20; 0x45; 0x78; 0x74; 0x65; 0x6e; 0x73; 0x69; 0x6f; 0x6e; 0x20; 0x42]);
  (R 0x2a700 0x2b73f, [0x43; 0x4a; 0x4b; 0x20; 0x55; 0x6e; 0x69; 0x66; 0x69; 0x65; 0x64; 0x20; 0x49; 0x64; 0x65; 0x6f; 0x67; 0x72; 0x61; 0x70; 0x68; 0x73; 0x20; 0x45; 0x78; 0x74; 0x65; 0x6e; 0x73; 0x69; 0x6f; 0x6e; 0x20; 0x43]);
  (R 0x2b740 0x2b81f, [0x43; 0x4a; 0x4b; 0x20; 0x55; 0x6e; 0x69; 0x66; 0x69; 0x65; 0x64; 0x20; 0x49; 0x64; 0x65; 0x6f; 0x67; 0x72; 0x61; 0x70; 0x68; 0x73; 0x20; 0x45; 0x78; 0x74; 0x65; 0x6e; 0x73; 0x69; 0x6f; 0x6e; 0x20; 0x44]);
  (R 0x2b820 0x2ceaf, [0x43; 0x4a; 0x4b; 0x20; 0x55; 0x6e; 0x69; 0x66; 0x69; 0x65; 0x64; 0x20; 0x49; 0x64; 0x65; 0x6f; 0x67; 0x72; 0x61; 0x70; 0x68; 0x73; 0x20; 0x45; 0x78; 0x74; 0x65; 0x6e; 0x73; 0x69; 0x6f; 0x6e; 0x20; 0x45]);
  (R 0x2ceb0 0x2ebef, [0x43; 0x4a; 0x4b; 0x20; 0x55; 0x6e; 0x69; 0x66; 0x69; 0x65; 0x64; 0x20; 0x49; 0x64; 0x65; 0x6f; 0x67; 0x72; 0x61; 0x70; 0x68; 0x73; 0x20; 0x45; 0x78; 0x74; 0x65; 0x6e; 0x73; 0x69; 0x6f; 0x6e; 0x20; 0x46]);
  (R 0x2f800 0x2fa1f, [0x43; 0x4a; 0x4b; 0x20; 0x43; 0x6f; 0x6d; 0x70; 0x61; 0x74; 0x69; 0x62; 0x69; 0x6c; 0x69; 0x74; 0x79; 0x20; 0x49; 0x64; 0x65; 0x6f; 0x67; 0x72; 0x61; 0x70; 0x68; 0x73; 0x20; 0x53; 0x75; 0x70; 0x70; 0x6c; 0x65; 0x6d; 0x65; 0x6e; 0x74]);
  (R 0xe0000 0xe007f, [0x54; 0x61; 0x67; 0x73]);
  (R 0xe0100 0xe01ef, [0x56; 0x61; 0x72; 0x69; 0x61; 0x74; 0x69; 0x6f; 0x6e; 0x20; 0x53; 0x65; 0x6c; 0x65; 0x63; 0x74; 0x6f; 0x72; 0x73; 0x20; 0x53; 0x75; 0x70; 0x70; 0x6c; 0x65; 0x6d; 0x65; 0x6e; 0x74]);
  (R 0xf0000 0xfffff, [0x53; 0x75; 0x70; 0x70; 0x6c; 0x65; 0x6d; 0x65; 0x6e; 0x74; 0x61; 0x72; 0x79; 0x20; 0x50; 0x72; 0x69; 0x76; 0x61; 0x74; 0x65; 0x20; 0x55; 0x73; 0x65; 0x20; 0x41; 0x72; 0x65; 0x61; 0x2d; 0x41]);
  (R 0x100000 0x10ffff, [0x53; 0x75; 0x70; 0x70; 0x6c; 0x65; 0x6d; 0x65; 0x6e; 0x74; 0x61; 0x72; 0x79; 0x20; 0x50; 0x72; 0x69; 0x76; 0x61; 0x74; 0x65; 0x20; 0x55; 0x73; 0x65; 0x20; 0x41; 0x72; 0x65; 0x61; 0x2d; 0x42])].

(** unic/ucd/name/tables/jamo.rsv:1-71 (67 entries) *)
Definition JAMO : CharDataTable str := Direct [
  (0x1100, [0x47]);
  (0x1101, [0x47; 0x47]);
  (0x1102, [0x4e]);
  (0x1103, [0x44]);
  (0x1104, [0x44; 0x44]);
  (0x1105, [0x52]);
  (0x1106, [0x4d]);
  (0x1107, [0x42]);
  (0x1108, [0x42; 0x42]);
  (0x1109, [0x53]);
  (0x110a, [0x53; 0x53]);
  (0x110b, []);
  (0x110c, [0x4a]);
  (0x110d, [0x4a; 0x4a]);
  (0x110e, [0x43]);
  (0x110f, [0x4b]);
  (0x1110, [0x54]);
  (0x1111, [0x50]);
  (0x1112, [0x48]);
  (0x1161, [0x41]);
  (0x1162, [0x41; 0x45]);
  (0x1163, [0x59; 0x41]);
  (0x1164, [0x59; 0x41; 0x45]);
  (0x1165, [0x45; 0x4f]);
  (0x1166, [0x45]);
  (0x1167, [0x59; 0x45; 0x4f]);
  (0x1168, [0x59; 0x45]);
  (0x1169, [0x4f]);
  (0x116a, [0x57; 0x41]);
  (0x116b, [0x57; 0x41; 0x45]);
  (0x116c, [0x4f; 0x45]);
  (0x116d, [0x59; 0x4f]);
  (0x116e, [0x55]);
  (0x116f, [0x57; 0x45; 0x4f]);
  (0x1170, [0x57; 0x45]);
  (0x1171, [0x57; 0x49]);
  (0x1172, [0x59; 0x55]);
  (0x1173, [0x45; 0x55]);
  (0x1174, [0x59; 0x49]);
  (0x1175, [0x49]);
  (0x11a8, [0x47]);
  (0x11a9, [0x47; 0x47]);
  (0x11aa, [0x47; 0x53]);
  (0x11ab, [0x4e]);
  (0x11ac, [0x4e; 0x4a]);
  (0x11ad, [0x4e; 0x48]);
  (0x11ae, [0x44]);
  (0x11af, [0x4c]);
  (0x11b0, [0x4c; 0x47]);
  (0x11b1, [0x4c; 0x4d]);
  (0x11b2, [0x4c; 0x42]);
  (0x11b3, [0x4c; 0x53]);
  (0x11b4, [0x4c; 0x54]);
  (0x11b5, [0x4c; 0x50]);
  (0x11b6, [0x4c; 0x48]);
  (0x11b7, [0x4d]);
  (0x11b8, [0x42]);
  (0x11b9, [0x42; 0x53]);
  (0x11ba, [0x53]);
  (0x11bb, [0x53; 0x53]);
  (0x11bc, [0x4e; 0x47]);
  (0x11bd, [0x4a]);
  (0x11be, [0x43]);
  (0x11bf, [0x4b]);
  (0x11c0, [0x54]);
  (0x11c1, [0x50]);
  (0x11c2, [0x48])].

(** unic/ucd/name_aliases/tables/corrections.rsv:1-28 (24 entries) *)
Definition NAME_ALIAS_CORRECTIONS : CharDataTable (list str) := Direct [
  (0x1a2, [[0x4c; 0x41; 0x54; 0x49; 0x4e; 0x20; 0x43; 0x41; 0x50; 0x49; 0x54; 0x41; 0x4c; 0x20; 0x4c; 0x45; 0x54; 0x54; 0x45; 0x52; 0x20; 0x47; 0x48; 0x41]]);
  (0x1a3, [[0x4c; 0x41; 0x54; 0x49; 0x4e; 0x20; 0x53; 0x4d; 0x41; 0x4c; 0x4c; 0x20; 0x4c; 0x45; 0x54; 0x54; 0x45; 0x52; 0x20; 0x47; 0x48; 0x41]]);
  (0x709, [[0x53; 0x59; 0x52; 0x49; 0x41; 0x43; 0x20; 0x53; 0x55; 0x42; 0x4c; 0x49; 0x4e; 0x45; 0x41; 0x52; 0x20; 0x43; 0x4f; 0x4c; 0x4f; 0x4e; 0x20; 0x53; 0x4b; 0x45; 0x57; 0x45; 0x44; 0x20; 0x4c; 0x45; 0x46; 0x54]]);
  (0xcde, [[0x4b; 0x41; 0x4e; 0x4e; 0x41; 0x44; 0x41; 0x20; 0x4c; 0x45; 0x54; 0x54; 0x45; 0x52; 0x20; 0x4c; 0x4c; 0x4c; 0x41]]);
  (0xe9d, [[0x4c; 0x41; 0x4f; 0x20; 0x4c; 0x45; 0x54; 0x54; 0x45; 0x52; 0x20; 0x46; 0x4f; 0x20; 0x46; 0x4f; 0x4e]]);
  (0xe9f, [[0x4c; 0x41; 0x4f; 0x20; 0x4c; 0x45; 0x54; 0x54; 0x45; 0x52; 0x20; 0x46; 0x4f; 0x20; 0x46; 0x41; 0x59]]);
  (0xea3, [[0x4c; 0x41; 0x4f; 0x20; 0x4c; 0x45; 0x54; 0x54; 0x45; 0x52; 0x20; 0x52; 0x4f]]);
  (0xea5, [[0x4c; 0x41; 0x4f; 0x20; 0x4c; 0x45; 0x54; 0x54; 0x45; 0x52; 0x20; 0x4c; 0x4f]]);
  (0xfd0, [[0x54; 0x49; 0x42; 0x45; 0x54; 0x41; 0x4e; 0x20; 0x4d; 0x41; 0x52; 0x4b; 0x20; 0x42; 0x4b; 0x41; 0x2d; 0x20; 0x53; 0x48; 0x4f; 0x47; 0x20; 0x47; 0x49; 0x20; 0x4d; 0x47; 0x4f; 0x20; 0x52; 0x47; 0x59; 0x41; 0x4e]]);
  (0x11ec, [[0x48; 0x41; 0x4e; 0x47; 0x55; 0x4c; 0x20; 0x4a; 0x4f; 0x4e; 0x47; 0x53; 0x45; 0x4f; 0x4e; 0x47; 0x20; 0x59; 0x45; 0x53; 0x49; 0x45; 0x55; 0x4e; 0x47; 0x2d; 0x4b; 0x49; 0x59; 0x45; 0x4f; 0x4b]]);
  (0x11ed, [[0x48; 0x41; 0x4e; 0x47; 0x55; 0x4c; 0x20; 0x4a; 0x4f; 0x4e; 0x47; 0x53; 0x45; 0x4f; 0x4e; 0x47; 0x20; 0x59; 0x45; 0x53; 0x49; 0x45; 0x55; 0x4e; 0x47; 0x2d; 0x53; 0x53; 0x41; 0x4e; 0x47; 0x4b; 0x49; 0x59; 0x45; 0x4f; 0x4b]]);
  (0x11ee, [[0x48; 0x41; 0x4e; 0x47; 0x55; 0x4c; 0x20; 0x4a; 0x4f; 0x4e; 0x47; 0x53; 0x45; 0x4f; 0x4e; 0x47; 0x20; 0x53; 0x53; 0x41; 0x4e; 0x47; 0x59; 0x45; 0x53; 0x49; 0x45; 0x55; 0x4e; 0x47]]);
  (0x11ef, [[0x48; 0x41; 0x4e; 0x47; 0x55; 0x4c; 0x20; 0x4a; 0x4f; 0x4e; 0x47; 0x53; 0x45; 0x4f; 0x4e; 0x47; 0x20; 0x59; 0x45; 0x53; 0x49; 0x45; 0x55; 0x4e; 0x47; 0x2d; 0x4b; 0x48; 0x49; 0x45; 0x55; 0x4b; 0x48]]);
  (0x2118, [[0x57; 0x45; 0x49; 0x45; 0x52; 0x53; 0x54; 0x52; 0x41; 0x53; 0x53; 0x20; 0x45; 0x4c; 0x4c; 0x49; 0x50; 0x54; 0x49; 0x43; 0x20; 0x46; 0x55; 0x4e; 0x43; 0x54; 0x49; 0x4f; 0x4e]]);
  (0x2448, [[0x4d; 0x49; 0x43; 0x52; 0x20; 0x4f; 0x4e; 0x20; 0x55; 0x53; 0x20; 0x53; 0x59; 0x4d; 0x42; 0x4f; 0x4c]]);
  (0x2449, [[0x4d; 0x49; 0x43; 0x52; 0x20; 0x44; 0x41; 0x53; 0x48; 0x20; 0x53; 0x59; 0x4d; 0x42; 0x4f; 0x4c]]);
  (0x2b7a, [[0x4c; 0x45; 0x46; 0x54; 0x57; 0x41; 0x52; 0x44; 0x53; 0x20; 0x54; 0x52; 0x49; 0x41; 0x4e; 0x47; 0x4c; 0x45; 0x2d; 0x48; 0x45; 0x41; 0x44; 0x45; 0x44; 0x20; 0x41; 0x52; 0x52; 0x4f; 0x57; 0x20; 0x57; 0x49; 0x54; 0x48; 0x20; 0x44; 0x4f; 0x55; 0x42; 0x4c; 0x45; 0x20; 0x56; 0x45; 0x52; 0x54; 0x49; 0x43; 0x41; 0x4c; 0x20; 0x53; 0x54; 0x52; 0x4f; 0x4b; 0x45]]);
  (0x2b7c, [[0x52; 0x49; 0x47; 0x48; 0x54; 0x57; 0x41; 0x52; 0x44; 0x53; 0x20; 0x54; 0x52; 0x49; 0x41; 0x4e; 0x47; 0x4c; 0x45; 0x2d; 0x48; 0x45; 0x41; 0x44; 0x45; 0x44; 0x20; 0x41; 0x52; 0x52; 0x4f; 0x57; 0x20; 0x57; 0x49; 0x54; 0x48; 0x20; 0x44; 0x4f; 0x55; 0x42; 0x4c; 0x45; 0x20; 0x56; 0x45; 0x52; 0x54; 0x49; 0x43; 0x41; 0x4c; 0x20; 0x53; 0x54; 0x52; 0x4f; 0x4b; 0x45]]);
  (0xa015, [[0x59; 0x49; 0x20; 0x53; 0x59; 0x4c; 0x4c; 0x41; 0x42; 0x4c; 0x45; 0x20; 0x49; 0x54; 0x45; 0x52; 0x41; 0x54; 0x49; 0x4f; 0x4e; 0x20; 0x4d; 0x41; 0x52; 0x4b]]);
  (0xfe18, [[0x50; 0x52; 0x45; 0x53; 0x45; 0x4e; 0x54; 0x41; 0x54; 0x49; 0x4f; 0x4e; 0x20; 0x46; 0x4f; 0x52; 0x4d; 0x20; 0x46; 0x4f; 0x52; 0x20; 0x56; 0x45; 0x52; 0x54; 0x49; 0x43; 0x41; 0x4c; 0x20; 0x52; 0x49; 0x47; 0x48; 0x54; 0x20; 0x57; 0x48; 0x49; 0x54; 0x45; 0x20; 0x4c; 0x45; 0x4e; 0x54; 0x49; 0x43; 0x55; 0x4c; 0x41; 0x52; 0x20; 0x42; 0x52; 0x41; 0x43; 0x4b; 0x45; 0x54]]);
  (0x122d4, [[0x43; 0x55; 0x4e; 0x45; 0x49; 0x46; 0x4f; 0x52; 0x4d; 0x20; 0x53; 0x49; 0x47; 0x4e; 0x20; 0x4e; 0x55; 0x31; 0x31; 0x20; 0x54; 0x45; 0x4e; 0x55]]);
  (0x122d5, [[0x43; 0x55; 0x4e; 0x45; 0x49; 0x46; 0x4f; 0x52; 0x4d; 0x20; 0x53; 0x49; 0x47; 0x4e; 0x20; 0x4e; 0x55; 0x31; 0x31; 0x20; 0x4f; 0x56; 0x45; 0x52; 0x20; 0x4e; 0x55; 0x31; 0x31; 0x20; 0x42; 0x55; 0x52; 0x20; 0x4f; 0x56; 0x45; 0x52; 0x20; 0x42; 0x55; 0x52]]);
  (0x1b001, [[0x48; 0x45; 0x4e; 0x54; 0x41; 0x49; 0x47; 0x41; 0x4e; 0x41; 0x20; 0x4c; 0x45; 0x54; 0x54; 0x45; 0x52; 0x20; 0x45; 0x2d; 0x31]]);
  (0x1d0c5, [[0x42; 0x59; 0x5a; 0x41; 0x4e; 0x54; 0x49; 0x4e; 0x45; 0x20; 0x4d; 0x55; 0x53; 0x49; 0x43; 0x41; 0x4c; 0x20; 0x53; 0x59; 0x4d; 0x42; 0x4f; 0x4c; 0x20; 0x46; 0x54; 0x48; 0x4f; 0x52; 0x41; 0x20; 0x53; 0x4b; 0x4c; 0x49; 0x52; 0x4f; 0x4e; 0x20; 0x43; 0x48; 0x52; 0x4f; 0x4d; 0x41; 0x20; 0x56; 0x41; 0x53; 0x49; 0x53]])].

(** unic/ucd/name_aliases/tables/controls.rsv:1-66 (62 entries) *)
Definition NAME_ALIAS_CONTROLS : CharDataTable (list str) := Direct [
  (0x0, [[0x4e; 0x55; 0x4c; 0x4c]]);
  (0x1, [[0x53; 0x54; 0x41; 0x52; 0x54; 0x20; 0x4f; 0x46; 0x20; 0x48; 0x45; 0x41; 0x44; 0x49; 0x4e; 0x47]]);
  (0x2, [[0x53; 0x54; 0x41; 0x52; 0x54; 0x20; 0x4f; 0x46; 0x20; 0x54; 0x45; 0x58; 0x54]]);
  (0x3, [[0x45; 0x4e; 0x44; 0x20; 0x4f; 0x46; 0x20; 0x54; 0x45; 0x58; 0x54]]);
  (0x4, [[0x45; 0x4e; 0x44; 0x20; 0x4f; 0x46; 0x20; 0x54; 0x52; 0x41; 0x4e; 0x53; 0x4d; 0x49; 0x53; 0x53; 0x49; 0x4f; 0x4e]]);
  (0x5, [[0x45; 0x4e; 0x51; 0x55; 0x49; 0x52; 0x59]]);
  (0x6, [[0x41; 0x43; 0x4b; 0x4e; 0x4f; 0x57; 0x4c; 0x45; 0x44; 0x47; 0x45]]);
  (0x7, [[0x41; 0x4c; 0x45; 0x52; 0x54]]);
  (0x8, [[0x42; 0x41; 0x43; 0x4b; 0x53; 0x50; 0x41; 0x43; 0x45]]);
  (0x9, [[0x43; 0x48; 0x41; 0x52; 0x41; 0x43; 0x54; 0x45; 0x52; 0x20; 0x54; 0x41; 0x42; 0x55; 0x4c; 0x41; 0x54; 0x49; 0x4f; 0x4e]; [0x48; 0x4f; 0x52; 0x49; 0x5a; 0x4f; 0x4e; 0x54; 0x41; 0x4c; 0x20; 0x54; 0x41; 0x42; 0x55; 0x4c; 0x41; 0x54; 0x49; 0x4f; 0x4e]]);
  (0xa, [[0x4c; 0x49; 0x4e; 0x45; 0x20; 0x46; 0x45; 0x45; 0x44]; [0x4e; 0x45; 0x57; 0x20; 0x4c; 0x49; 0x4e; 0x45]; [0x45; 0x4e; 0x44; 0x20; 0x4f; 0x46; 0x20; 0x4c; 0x49; 0x4e; 0x45]]);
  (0xb, [[0x4c; 0x49; 0x4e; 0x45; 0x20; 0x54; 0x41; 0x42; 0x55; 0x4c; 0x41; 0x54; 0x49; 0x4f; 0x4e]; [0x56; 0x45; 0x52; 0x54; 0x49; 0x43; 0x41; 0x4c; 0x20; 0x54; 0x41; 0x42; 0x55; 0x4c; 0x41; 0x54; 0x49; 0x4f; 0x4e]]);
  (0xc, [[0x46; 0x4f; 0x52; 0x4d; 0x20; 0x46; 0x45; 0x45; 0x44]]);
  (0xd, [[0x43; 0x41; 0x52; 0x52; 0x49; 0x41; 0x47; 0x45; 0x20; 0x52; 0x45; 0x54; 0x55; 0x52; 0x4e]]);
  (0xe, [[0x53; 0x48; 0x49; 0x46; 0x54; 0x20; 0x4f; 0x55; 0x54]; [0x4c; 0x4f; 0x43; 0x4b; 0x49; 0x4e; 0x47; 0x2d; 0x53; 0x48; 0x49; 0x46; 0x54; 0x20; 0x4f; 0x4e; 0x45]]);
  (0xf, [[0x53; 0x48; 0x49; 0x46; 0x54; 0x20; 0x49; 0x4e]; [0x4c; 0x4f; 0x43; 0x4b; 0x49; 0x4e; 0x47; 0x2d; 0x53; 0x48; 0x49; 0x46; 0x54; 0x20; 0x5a; 0x45; 0x52; 0x4f]]);
  (0x10, [[0x44; 0x41; 0x54; 0x41; 0x20; 0x4c; 0x49; 0x4e; 0x4b; 0x20; 0x45; 0x53; 0x43; 0x41; 0x50; 0x45]]);
  (0x11, [[0x44; 0x45; 0x56; 0x49; 0x43; 0x45; 0x20; 0x43; 0x4f; 0x4e; 0x54; 0x52; 0x4f; 0x4c; 0x20; 0x4f; 0x4e; 0x45]]);
  (0x12, [[0x44; 0x45; 0x56; 0x49; 0x43; 0x45; 0x20; 0x43; 0x4f; 0x4e; 0x54; 0x52; 0x4f; 0x4c; 0x20; 0x54; 0x57; 0x4f]]);
  (0x13, [[0x44; 0x45; 0x56; 0x49; 0x43; 0x45; 0x20; 0x43; 0x4f; 0x4e; 0x54; 0x52; 0x4f; 0x4c; 0x20; 0x54; 0x48; 0x52; 0x45; 0x45]]);
  (0x14, [[0x44; 0x45; 0x56; 0x49; 0x43; 0x45; 0x20; 0x43; 0x4f; 0x4e; 0x54; 0x52; 0x4f; 0x4c; 0x20; 0x46; 0x4f; 0x55; 0x52]]);
  (0x15, [[0x4e; 0x45; 0x47; 0x41; 0x54; 0x49; 0x56; 0x45; 0x20; 0x41; 0x43; 0x4b; 0x4e; 0x4f; 0x57; 0x4c; 0x45; 0x44; 0x47; 0x45]]);
  (0x16, [[0x53; 0x59; 0x4e; 0x43; 0x48; 0x52; 0x4f; 0x4e; 0x4f; 0x55; 0x53; 0x20; 0x49; 0x44; 0x4c; 0x45]]);
  (0x17, [[0x45; 0x4e; 0x44; 0x20; 0x4f; 0x46; 0x20; 0x54; 0x52; 0x41; 0x4e; 0x53; 0x4d; 0x49; 0x53; 0x53; 0x49; 0x4f; 0x4e; 0x20; 0x42; 0x4c; 0x4f; 0x43; 0x4b]]);
  (0x18, [[0x43; 0x41; 0x4e; 0x43; 0x45; 0x4c]]);
  (0x19, [[0x45; 0x4e; 0x44; 0x20; 0x4f; 0x46; 0x20; 0x4d; 0x45; 0x44; 0x49; 0x55; 0x4d]]);
  (0x1a, [[0x53; 0x55; 0x42; 0x53; 0x54; 0x49; 0x54; 0x55; 0x54; 0x45]]);
  (0x1b, [[0x45; 0x53; 0x43; 0x41; 0x50; 0x45]]);
  (0x1c, [[0x49; 0x4e; 0x46; 0x4f; 0x52; 0x4d; 0x41; 0x54; 0x49; 0x4f; 0x4e; 0x20; 0x53; 0x45; 0x50; 0x41; 0x52; 0x41; 0x54; 0x4f; 0x52; 0x20; 0x46; 0x4f; 0x55; 0x52]; [0x46; 0x49; 0x4c; 0x45; 0x20; 0x53; 0x45; 0x50; 0x41; 0x52; 0x41; 0x54; 0x4f; 0x52]]);
  (0x1d, [[0x49; 0x4e; 0x46; 0x4f; 0x52; 0x4d; 0x41; 0x54; 0x49; 0x4f; 0x4e; 0x20; 0x53; 0x45; 0x50; 0x41; 0x52; 0x41; 0x54; 0x4f; 0x52; 0x20; 0x54; 0x48; 0x52; 0x45; 0x45]; [0x47; 0x52; 0x4f; 0x55; 0x50; 0x20; 0x53; 0x45; 0x50; 0x41; 0x52; 0x41; 0x54; 0x4f; 0x52]]);
  (0x1e, [[0x49; 0x4e; 0x46; 0x4f; 0x52; 0x4d; 0x41; 0x54; 0x49; 0x4f; 0x4e; 0x20; 0x53; 0x45; 0x50; 0x41; 0x52; 0x41; 0x54; 0x4f; 0x52; 0x20; 0x54; 0x57; 0x4f]; [0x52; 0x45; 0x43; 0x4f; 0x52; 0x44; 0x20; 0x53; 0x45; 0x50; 0x41; 0x52; 0x41; 0x54; 0x4f; 0x52]]);
  (0x1f, [[0x49; 0x4e; 0x46; 0x4f; 0x52; 0x4d; 0x41; 0x54; 0x49; 0x4f; 0x4e; 0x20; 0x53; 0x45; 0x50; 0x41; 0x52; 0x41; 0x54; 0x4f; 0x52; 0x20; 0x4f; 0x4e; 0x45]; [0x55; 0x4e; 0x49; 0x54; 0x20; 0x53; 0x45; 0x50; 0x41; 0x52; 0x41; 0x54; 0x4f; 0x52]]);
  (0x7f, [[0x44; 0x45; 0x4c; 0x45; 0x54; 0x45]]);
  (0x82, [[0x42; 0x52; 0x45; 0x41; 0x4b; 0x20; 0x50; 0x45; 0x52; 0x4d; 0x49; 0x54; 0x54; 0x45; 0x44; 0x20; 0x48; 0x45; 0x52; 0x45]]);
  (0x83, [[0x4e; 0x4f; 0x20; 0x42; 0x52; 0x45; 0x41; 0x4b; 0x20; 0x48; 0x45; 0x52; 0x45]]);
  (0x84, [[0x49; 0x4e; 0x44; 0x45; 0x58]]);
  (0x85, [[0x4e; 0x45; 0x58; 0x54; 0x20; 0x4c; 0x49; 0x4e; 0x45]]);
  (0x86, [[0x53; 0x54; 0x41; 0x52; 0x54; 0x20; 0x4f; 0x46; 0x20; 0x53; 0x45; 0x4c; 0x45; 0x43; 0x54; 0x45; 0x44; 0x20; 0x41; 0x52; 0x45; 0x41]]);
  (0x87, [[0x45; 0x4e; 0x44; 0x20; 0x4f; 0x46; 0x20; 0x53; 0x45; 0x4c; 0x45; 0x43; 0x54; 0x45; 0x44; 0x20; 0x41; 0x52; 0x45; 0x41]]);
  (0x88, [[0x43; 0x48; 0x41; 0x52; 0x41; 0x43; 0x54; 0x45; 0x52; 0x20; 0x54; 0x41; 0x42; 0x55; 0x4c; 0x41; 0x54; 0x49; 0x4f; 0x4e; 0x20; 0x53; 0x45; 0x54]; [0x48; 0x4f; 0x52; 0x49; 0x5a; 0x4f; 0x4e; 0x54; 0x41; 0x4c; 0x20; 0x54; 0x41; 0x42; 0x55; 0x4c; 0x41; 0x54; 0x49; 0x4f; 0x4e; 0x20; 0x53; 0x45; 0x54]]);
  (0x89, [[0x43; 0x48; 0x41; 0x52; 0x41; 0x43; 0x54; 0x45; 0x52; 0x20; 0x54; 0x41; 0x42; 0x55; 0x4c; 0x41; 0x54; 0x49; 0x4f; 0x4e; 0x20; 0x57; 0x49; 0x54; 0x48; 0x20; 0x4a; 0x55; 0x53; 0x54; 0x49; 0x46; 0x49; 0x43; 0x41; 0x54; 0x49; 0x4f; 0x4e]; [0x48; 0x4f; 0x52; 0x49; 0x5a; 0x4f; 0x4e; 0x54; 0x41; 0x4c; 0x20; 0x54; 0x41; 0x42; 0x55; 0x4c; 0x41; 0x54; 0x49; 0x4f; 0x4e; 0x20; 0x57; 0x49; 0x54; 0x48; 0x20; 0x4a; 0x55; 0x53; 0x54; 0x49; 0x46; 0x49; 0x43; 0x41; 0x54; 0x49; 0x4f; 0x4e]]);
  (0x8a, [[0x4c; 0x49; 0x4e; 0x45; 0x20; 0x54; 0x41; 0x42; 0x55; 0x4c; 0x41; 0x54; 0x49; 0x4f; 0x4e; 0x20; 0x53; 0x45; 0x54]; [0x56; 0x45; 0x52; 0x54; 0x49; 0x43; 0x41; 0x4c; 0x20; 0x54; 0x41; 0x42; 0x55; 0x4c; 0x41; 0x54; 0x49; 0x4f; 0x4e; 0x20; 0x53; 0x45; 0x54]]);
  (0x8b, [[0x50; 0x41; 0x52; 0x54; 0x49; 0x41; 0x4c; 0x20; 0x4c; 0x49; 0x4e; 0x45; 0x20; 0x46; 0x4f; 0x52; 0x57; 0x41; 0x52; 0x44]; [0x50; 0x41; 0x52; 0x54; 0x49; 0x41; 0x4c; 0x20; 0x4c; 0x49; 0x4e; 0x45; 0x20; 0x44; 0x4f; 0x57; 0x4e]]);
  (0x8c, [[0x50; 0x41; 0x52; 0x54; 0x49; 0x41; 0x4c; 0x20; 0x4c; 0x49; 0x4e; 0x45; 0x20; 0x42; 0x41; 0x43; 0x4b; 0x57; 0x41; 0x52; 0x44]; [0x50; 0x41; 0x52; 0x54; 0x49; 0x41; 0x4c; 0x20; 0x4c; 0x49; 0x4e; 0x45; 0x20; 0x55; 0x50]]);
  (0x8d, [[0x52; 0x45; 0x56; 0x45; 0x52; 0x53; 0x45; 0x20; 0x4c; 0x49; 0x4e; 0x45; 0x20; 0x46; 0x45; 0x45; 0x44]; [0x52; 0x45; 0x56; 0x45; 0x52; 0x53; 0x45; 0x20; 0x49; 0x4e; 0x44; 0x45; 0x58]]);
  (0x8e, [[0x53; 0x49; 0x4e; 0x47; 0x4c; 0x45; 0x20; 0x53; 0x48; 0x49; 0x46; 0x54; 0x20; 0x54; 0x57; 0x4f]; [0x53; 0x49; 0x4e; 0x47; 0x4c; 0x45; 0x2d; 0x53; 0x48; 0x49; 0x46; 0x54; 0x2d; 0x32]]);
  (0x8f, [[0x53; 0x49; 0x4e; 0x47; 0x4c; 0x45; 0x20; 0x53; 0x48; 0x49; 0x46; 0x54; 0x20; 0x54; 0x48; 0x52; 0x45; 0x45]; [0x53; 0x49; 0x4e; 0x47; 0x4c; 0x45; 0x2d; 0x53; 0x48; 0x49; 0x46; 0x54; 0x2d; 0x33]]);
  (0x90, [[0x44; 0x45; 0x56; 0x49; 0x43; 0x45; 0x20; 0x43; 0x4f; 0x4e; 0x54; 0x52; 0x4f; 0x4c; 0x20; 0x53; 0x54; 0x52; 0x49; 0x4e; 0x47]]);
  (0x91, [[0x50; 0x52; 0x49; 0x56; 0x41; 0x54; 0x45; 0x20; 0x55; 0x53; 0x45; 0x20; 0x4f; 0x4e; 0x45]; [0x50; 0x52; 0x49; 0x56; 0x41; 0x54; 0x45; 0x20; 0x55; 0x53; 0x45; 0x2d; 0x31]]);
  (0x92, [[0x50; 0x52; 0x49; 0x56; 0x41; 0x54; 0x45; 0x20; 0x55; 0x53; 0x45; 0x20; 0x54; 0x57; 0x4f]; [0x50; 0x52; 0x49; 0x56; 0x41; 0x54; 0x45; 0x20; 0x55; 0x53; 0x45; 0x2d; 0x32]]);
  (0x93, [[0x53; 0x45; 0x54; 0x20; 0x54; 0x52; 0x41; 0x4e; 0x53; 0x4d; 0x49; 0x54; 0x20; 0x53; 0x54; 0x41; 0x54; 0x45]]);
  (0x94, [[0x43; 0x41; 0x4e; 0x43; 0x45; 0x4c; 0x20; 0x43; 0x48; 0x41; 0x52; 0x41; 0x43; 0x54; 0x45; 0x52]]);
  (0x95, [[0x4d; 0x45; 0x53; 0x53; 0x41; 0x47; 0x45; 0x20; 0x57; 0x41; 0x49; 0x54; 0x49; 0x4e; 0x47]]);
  (0x96, [[0x53; 0x54; 0x41; 0x52; 0x54; 0x20; 0x4f; 0x46; 0x20; 0x47; 0x55; 0x41; 0x52; 0x44; 0x45; 0x44; 0x20; 0x41; 0x52; 0x45; 0x41]; [0x53; 0x54; 0x41; 0x52; 0x54; 0x20; 0x4f; 0x46; 0x20; 0x50; 0x52; 0x4f; 0x54; 0x45; 0x43; 0x54; 0x45; 0x44; 0x20; 0x41; 0x52; 0x45; 0x41]]);
  (0x97, [[0x45; 0x4e; 0x44; 0x20; 0x4f; 0x46; 0x20; 0x47; 0x55; 0x41; 0x52; 0x44; 0x45; 0x44; 0x20; 0x41; 0x52; 0x45; 0x41]; [0x45; 0x4e; 0x44; 0x20; 0x4f; 0x46; 0x20; 0x50; 0x52; 0x4f; 0x54; 0x45; 0x43; 0x54; 0x45; 0x44; 0x20; 0x41; 0x52; 0x45; 0x41]]);
  (0x98, [[0x53; 0x54; 0x41; 0x52; 0x54; 0x20; 0x4f; 0x46; 0x20; 0x53; 0x54; 0x52; 0x49; 0x4e; 0x47]]);
  (0x9a, [[0x53; 0x49; 0x4e; 0x47; 0x4c; 0x45; 0x20; 0x43; 0x48; 0x41; 0x52; 0x41; 0x43; 0x54; 0x45; 0x52; 0x20; 0x49; 0x4e; 0x54; 0x52; 0x4f; 0x44; 0x55; 0x43; 0x45; 0x52]]);
  (0x9b, [[0x43; 0x4f; 0x4e; 0x54; 0x52; 0x4f; 0x4c; 0x20; 0x53; 0x45; 0x51; 0x55; 0x45; 0x4e; 0x43; 0x45; 0x20; 0x49; 0x4e; 0x54; 0x52; 0x4f; 0x44; 0x55; 0x43; 0x45; 0x52]]);
  (0x9c, [[0x53; 0x54; 0x52; 0x49; 0x4e; 0x47; 0x20; 0x54; 0x45; 0x52; 0x4d; 0x49; 0x4e; 0x41; 0x54; 0x4f; 0x52]]);
  (0x9d, [[0x4f; 0x50; 0x45; 0x52; 0x41; 0x54; 0x49; 0x4e; 0x47; 0x20; 0x53; 0x59; 0x53; 0x54; 0x45; 0x4d; 0x20; 0x43; 0x4f; 0x4d; 0x4d; 0x41; 0x4e; 0x44]]);
  (0x9e, [[0x50; 0x52; 0x49; 0x56; 0x41; 0x43; 0x59; 0x20; 0x4d; 0x45; 0x53; 0x53; 0x41; 0x47; 0x45]]);
  (0x9f, [[0x41; 0x50; 0x50; 0x4c; 0x49; 0x43; 0x41; 0x54; 0x49; 0x4f; 0x4e; 0x20; 0x50; 0x52; 0x4f; 0x47; 0x52; 0x41; 0x4d; 0x20; 0x43; 0x4f; 0x4d; 0x4d; 0x41; 0x4e; 0x44]])].

(** unic/ucd/name_aliases/tables/alternates.rsv:1-5 (1 entries) *)
Definition NAME_ALIAS_ALTERNATES : CharDataTable (list str) := Direct [
  (0xfeff, [[0x42; 0x59; 0x54; 0x45; 0x20; 0x4f; 0x52; 0x44; 0x45; 0x52; 0x20; 0x4d; 0x41; 0x52; 0x4b]])].

(** unic/ucd/name_aliases/tables/figments.rsv:1-7 (3 entries) *)
Definition NAME_ALIAS_FIGMENTS : CharDataTable (list str) := Direct [
  (0x80, [[0x50; 0x41; 0x44; 0x44; 0x49; 0x4e; 0x47; 0x20; 0x43; 0x48; 0x41; 0x52; 0x41; 0x43; 0x54; 0x45; 0x52]]);
  (0x81, [[0x48; 0x49; 0x47; 0x48; 0x20; 0x4f; 0x43; 0x54; 0x45; 0x54; 0x20; 0x50; 0x52; 0x45; 0x53; 0x45; 0x54]]);
  (0x99, [[0x53; 0x49; 0x4e; 0x47; 0x4c; 0x45; 0x20; 0x47; 0x52; 0x41; 0x50; 0x48; 0x49; 0x43; 0x20; 0x43; 0x48; 0x41; 0x52; 0x41; 0x43; 0x54; 0x45; 0x52; 0x20; 0x49; 0x4e; 0x54; 0x52; 0x4f; 0x44; 0x55; 0x43; 0x45; 0x52]])].

(** unic/ucd/name_aliases/tables/abbreviations.rsv:1-352 (348 entries) *)
Definition NAME_ALIAS_ABBREVIATIONS : CharDataTable (list str) := Direct [
  (0x0, [[0x4e; 0x55; 0x4c]]);
  (0x1, [[0x53; 0x4f; 0x48]]);
  (0x2, [[0x53; 0x54; 0x58]]);
  (0x3, [[0x45; 0x54; 0x58]]);
  (0x4, [[0x45; 0x4f; 0x54]]);
  (0x5, [[0x45; 0x4e; 0x51]]);
  (0x6, [[0x41; 0x43; 0x4b]]);
  (0x7, [[0x42; 0x45; 0x4c]]);
  (0x8, [[0x42; 0x53]]);
  (0x9, [[0x48; 0x54]; [0x54; 0x41; 0x42]]);
  (0xa, [[0x4c; 0x46]; [0x4e; 0x4c]; [0x45; 0x4f; 0x4c]]);
  (0xb, [[0x56; 0x54]]);
  (0xc, [[0x46; 0x46]]);
  (0xd, [[0x43; 0x52]]);
  (0xe, [[0x53; 0x4f]]);
  (0xf, [[0x53; 0x49]]);
  (0x10, [[0x44; 0x4c; 0x45]]);
  (0x11, [[0x44; 0x43; 0x31]]);
  (0x12, [[0x44; 0x43; 0x32]]);
  (0x13, [[0x44; 0x43; 0x33]]);
  (0x14, [[0x44; 0x43; 0x34]]);
  (0x15, [[0x4e; 0x41; 0x4b]]);
  (0x16, [[0x53; 0x59; 0x4e]]);
  (0x17, [[0x45; 0x54; 0x42]]);
  (0x18, [[0x43; 0x41; 0x4e]]);
  (0x19, [[0x45; 0x4f; 0x4d]]);
  (0x1a, [[0x53; 0x55; 0x42]]);
  (0x1b, [[0x45; 0x53; 0x43]]);
  (0x1c, [[0x46; 0x53]]);
  (0x1d, [[0x47; 0x53]]);
  (0x1e, [[0x52; 0x53]]);
  (0x1f, [[0x55; 0x53]]);
  (0x20, [[0x53; 0x50]]);
  (0x7f, [[0x44; 0x45; 0x4c]]);
  (0x80, [[0x50; 0x41; 0x44]]);
  (0x81, [[0x48; 0x4f; 0x50]]);
  (0x82, [[0x42; 0x50; 0x48]]);
  (0x83, [[0x4e; 0x42; 0x48]]);
  (0x84, [[0x49; 0x4e; 0x44]]);
  (0x85, [[0x4e; 0x45; 0x4c]]);
  (0x86, [[0x53; 0x53; 0x41]]);
  (0x87, [[0x45; 0x53; 0x41]]);
  (0x88, [[0x48; 0x54; 0x53]]);
  (0x89, [[0x48; 0x54; 0x4a]]);
  (0x8a, [[0x56; 0x54; 0x53]]);
  (0x8b, [[0x50; 0x4c; 0x44]]);
  (0x8c, [[0x50; 0x4c; 0x55]]);
  (0x8d, [[0x52; 0x49]]);
  (0x8e, [[0x53; 0x53; 0x32]]);
  (0x8f, [[0x53; 0x53; 0x33]]);
  (0x90, [[0x44; 0x43; 0x53]]);
  (0x91, [[0x50; 0x55; 0x31]]);
  (0x92, [[0x50; 0x55; 0x32]]);
  (0x93, [[0x53; 0x54; 0x53]]);
  (0x94, [[0x43; 0x43; 0x48]]);
  (0x95, [[0x4d; 0x57]]);
  (0x96, [[0x53; 0x50; 0x41]]);
  (0x97, [[0x45; 0x50; 0x41]]);
  (0x98, [[0x53; 0x4f; 0x53]]);
  (0x99, [[0x53; 0x47; 0x43]]);
  (0x9a, [[0x53; 0x43; 0x49]]);
  (0x9b, [[0x43; 0x53; 0x49]]);
  (0x9c, [[0x53; 0x54]]);
  (0x9d, [[0x4f; 0x53; 0x43]]);
  (0x9e, [[0x50; 0x4d]]);
  (0x9f, [[0x41; 0x50; 0x43]]);
  (0xa0, [[0x4e; 0x42; 0x53; 0x50]]);
  (0xad, [[0x53; 0x48; 0x59]]);
  (0x34f, [[0x43; 0x47; 0x4a]]);
  (0x61c, [[0x41; 0x4c; 0x4d]]);
  (0x180b, [[0x46; 0x56; 0x53; 0x31]]);
  (0x180c, [[0x46; 0x56; 0x53; 0x32]]);
  (0x180d, [[0x46; 0x56; 0x53; 0x33]]);
  (0x180e, [[0x4d; 0x56; 0x53]]);
  (0x200b, [[0x5a; 0x57; 0x53; 0x50]]);
  (0x200c, [[0x5a; 0x57; 0x4e; 0x4a]]);
  (0x200d, [[0x5a; 0x57; 0x4a]]);
  (0x200e, [[0x4c; 0x52; 0x4d]]);
  (0x200f, [[0x52; 0x4c; 0x4d]]);
  (0x202a, [[0x4c; 0x52; 0x45]]);
  (0x202b, [[0x52; 0x4c; 0x45]]);
  (0x202c, [[0x50; 0x44; 0x46]]);
  (0x202d, [[0x4c; 0x52; 0x4f]]);
  (0x202e, [[0x52; 0x4c; 0x4f]]);
  (0x202f, [[0x4e; 0x4e; 0x42; 0x53; 0x50]]);
  (0x205f, [[0x4d; 0x4d; 0x53; 0x50]]);
  (0x2060, [[0x57; 0x4a]]);
  (0x2066, [[0x4c; 0x52; 0x49]]);
  (0x2067, [[0x52; 0x4c; 0x49]]);
  (0x2068, [[0x46; 0x53; 0x49]]);
  (0x2069, [[0x50; 0x44; 0x49]]);
  (0xfe00, [[0x56; 0x53; 0x31]]);
  (0xfe01, [[0x56; 0x53; 0x32]]);
  (0xfe02, [[0x56; 0x53; 0x33]]);
  (0xfe03, [[0x56; 0x53; 0x34]]);
  (0xfe04, [[0x56; 0x53; 0x35]]);
  (0xfe05, [[0x56; 0x53; 0x36]]);
  (0xfe06, [[0x56; 0x53; 0x37]]);
  (0xfe07, [[0x56; 0x53; 0x38]]);
  (0xfe08, [[0x56; 0x53; 0x39]]);
  (0xfe09, [[0x56; 0x53; 0x31; 0x30]]);
  (0xfe0a, [[0x56; 0x53; 0x31; 0x31]]);
  (0xfe0b, [[0x56; 0x53; 0x31; 0x32]]);
  (0xfe0c, [[0x56; 0x53; 0x31; 0x33]]);
  (0xfe0d, [[0x56; 0x53; 0x31; 0x34]]);
  (0xfe0e, [[0x56; 0x53; 0x31; 0x35]]);
  (0xfe0f, [[0x56; 0x53; 0x31; 0x36]]);
  (0xfeff, [[0x42; 0x4f; 0x4d]; [0x5a; 0x57; 0x4e; 0x42; 0x53; 0x50]]);
  (0xe0100, [[0x56; 0x53; 0x31; 0x37]]);
  (0xe0101, [[0x56; 0x53; 0x31; 0x38]]);
  (0xe0102, [[0x56; 0x53; 0x31; 0x39]]);
  (0xe0103, [[0x56; 0x53; 0x32; 0x30]]);
  (0xe0104, [[0x56; 0x53; 0x32; 0x31]]);
  (0xe0105, [[0x56; 0x53; 0x32; 0x32]]);
  (0xe0106, [[0x56; 0x53; 0x32; 0x33]]);
  (0xe0107, [[0x56; 0x53; 0x32; 0x34]]);
  (0xe0108, [[0x56; 0x53; 0x32; 0x35]]);
  (0xe0109, [[0x56; 0x53; 0x32; 0x36]]);
  (0xe010a, [[0x56; 0x53; 0x32; 0x37]]);
  (0xe010b, [[0x56; 0x53; 0x32; 0x38]]);
  (0xe010c, [[0x56; 0x53; 0x32; 0x39]]);
  (0xe010d, [[0x56; 0x53; 0x33; 0x30]]);
  (0xe010e, [[0x56; 0x53; 0x33; 0x31]]);
  (0xe010f, [[0x56; 0x53; 0x33; 0x32]]);
  (0xe0110, [[0x56; 0x53; 0x33; 0x33]]);
  (0xe0111, [[0x56; 0x53; 0x33; 0x34]]);
  (0xe0112, [[0x56; 0x53; 0x33; 0x35]]);
  (0xe0113, [[0x56; 0x53; 0x33; 0x36]]);
  (0xe0114, [[0x56; 0x53; 0x33; 0x37]]);
  (0xe0115, [[0x56; 0x53; 0x33; 0x38]]);
  (0xe0116, [[0x56; 0x53; 0x33; 0x39]]);
  (0xe0117, [[0x56; 0x53; 0x34; 0x30]]);
  (0xe0118, [[0x56; 0x53; 0x34; 0x31]]);
  (0xe0119, [[0x56; 0x53; 0x34; 0x32]]);
  (0xe011a, [[0x56; 0x53; 0x34; 0x33]]);
  (0xe011b, [[0x56; 0x53; 0x34; 0x34]]);
  (0xe011c, [[0x56; 0x53; 0x34; 0x35]]);
  (0xe011d, [[0x56; 0x53; 0x34; 0x36]]);
  (0xe011e, [[0x56; 0x53; 0x34; 0x37]]);
  (0xe011f, [[0x56; 0x53; 0x34; 0x38]]);
  (0xe0120, [[0x56; 0x53; 0x34; 0x39]]);
  (0xe0121, [[0x56; 0x53; 0x35; 0x30]]);
  (0xe0122, [[0x56; 0x53; 0x35; 0x31]]);
  (0xe0123, [[0x56; 0x53; 0x35; 0x32]]);
  (0xe0124, [[0x56; 0x53; 0x35; 0x33]]);
  (0xe0125, [[0x56; 0x53; 0x35; 0x34]]);
  (0xe0126, [[0x56; 0x53; 0x35; 0x35]]);
  (0xe0127, [[0x56; 0x53; 0x35; 0x36]]);
  (0xe0128, [[0x56; 0x53; 0x35; 0x37]]);
  (0xe0129, [[0x56; 0x53; 0x35; 0x38]]);
  (0xe012a, [[0x56; 0x53; 0x35; 0x39]]);
  (0xe012b, [[0x56; 0x53; 0x36; 0x30]]);
  (0xe012c, [[0x56; 0x53; 0x36; 0x31]]);
  (0xe012d, [[0x56; 0x53; 0x36; 0x32]]);
  (0xe012e, [[0x56; 0x53; 0x36; 0x33]]);
  (0xe012f, [[0x56; 0x53; 0x36; 0x34]]);
  (0xe0130, [[0x56; 0x53; 0x36; 0x35]]);
  (0xe0131, [[0x56; 0x53; 0x36; 0x36]]);
  (0xe0132, [[0x56; 0x53; 0x36; 0x37]]);
  (0xe0133, [[0x56; 0x53; 0x36; 0x38]]);
  (0xe0134, [[0x56; 0x53; 0x36; 0x39]]);
  (0xe0135, [[0x56; 0x53; 0x37; 0x30]]);
  (0xe0136, [[0x56; 0x53; 0x37; 0x31]]);
  (0xe0137, [[0x56; 0x53; 0x37; 0x32]]);
  (0xe0138, [[0x56; 0x53; 0x37; 0x33]]);
  (0xe0139, [[0x56; 0x53; 0x37; 0x34]]);
  (0xe013a, [[0x56; 0x53; 0x37; 0x35]]);
  (0xe013b, [[0x56; 0x53; 0x37; 0x36]]);
  (0xe013c, [[0x56; 0x53; 0x37; 0x37]]);
  (0xe013d, [[0x56; 0x53; 0x37; 0x38]]);
  (0xe013e, [[0x56; 0x53; 0x37; 0x39]]);
  (0xe013f, [[0x56; 0x53; 0x38; 0x30]]);
  (0xe0140, [[0x56; 0x53; 0x38; 0x31]]);
  (0xe0141, [[0x56; 0x53; 0x38; 0x32]]);
  (0xe0142, [[0x56; 0x53; 0x38; 0x33]]);
  (0xe0143, [[0x56; 0x53; 0x38; 0x34]]);
  (0xe0144, [[0x56; 0x53; 0x38; 0x35]]);
  (0xe0145, [[0x56; 0x53; 0x38; 0x36]]);
  (0xe0146, [[0x56; 0x53; 0x38; 0x37]]);
  (0xe0147, [[0x56; 0x53; 0x38; 0x38]]);
  (0xe0148, [[0x56; 0x53; 0x38; 0x39]]);
  (0xe0149, [[0x56; 0x53; 0x39; 0x30]]);
  (0xe014a, [[0x56; 0x53; 0x39; 0x31]]);
  (0xe014b, [[0x56; 0x53; 0x39; 0x32]]);
  (0xe014c, [[0x56; 0x53; 0x39; 0x33]]);
  (0xe014d, [[0x56; 0x53; 0x39; 0x34]]);
  (0xe014e, [[0x56; 0x53; 0x39; 0x35]]);
  (0xe014f, [[0x56; 0x53; 0x39; 0x36]]);
  (0xe0150, [[0x56; 0x53; 0x39; 0x37]]);
  (0xe0151, [[0x56; 0x53; 0x39; 0x38]]);
  (0xe0152, [[0x56; 0x53; 0x39; 0x39]]);
  (0xe0153, [[0x56; 0x53; 0x31; 0x30; 0x30]]);
  (0xe0154, [[0x56; 0x53; 0x31; 0x30; 0x31]]);
  (0xe0155, [[0x56; 0x53; 0x31; 0x30; 0x32]]);
  (0xe0156, [[0x56; 0x53; 0x31; 0x30; 0x33]]);
  (0xe0157, [[0x56; 0x53; 0x31; 0x30; 0x34]]);
  (0xe0158, [[0x56; 0x53; 0x31; 0x30; 0x35]]);
  (0xe0159, [[0x56; 0x53; 0x31; 0x30; 0x36]]);
  (0xe015a, [[0x56; 0x53; 0x31; 0x30; 0x37]]);
  (0xe015b, [[0x56; 0x53; 0x31; 0x30; 0x38]]);
  (0xe015c, [[0x56; 0x53; 0x31; 0x30; 0x39]]);
  (0xe015d, [[0x56; 0x53; 0x31; 0x31; 0x30]]);
  (0xe015e, [[0x56; 0x53; 0x31; 0x31; 0x31]]);
  (0xe015f, [[0x56; 0x53; 0x31; 0x31; 0x32]]);
  (0xe0160, [[0x56; 0x53; 0x31; 0x31; 0x33]]);
  (0xe0161, [[0x56; 0x53; 0x31; 0x31; 0x34]]);
  (0xe0162, [[0x56; 0x53; 0x31; 0x31; 0x35]]);
  (0xe0163, [[0x56; 0x53; 0x31; 0x31; 0x36]]);
  (0xe0164, [[0x56; 0x53; 0x31; 0x31; 0x37]]);
  (0xe0165, [[0x56; 0x53; 0x31; 0x31; 0x38]]);
  (0xe0166, [[0x56; 0x53; 0x31; 0x31; 0x39]]);
  (0xe0167, [[0x56; 0x53; 0x31; 0x32; 0x30]]);
  (0xe0168, [[0x56; 0x53; 0x31; 0x32; 0x31]]);
  (0xe0169, [[0x56; 0x53; 0x31; 0x32; 0x32]]);
  (0xe016a, [[0x56; 0x53; 0x31; 0x32; 0x33]]);
  (0xe016b, [[0x56; 0x53; 0x31; 0x32; 0x34]]);
  (0xe016c, [[0x56; 0x53; 0x31; 0x32; 0x35]]);
  (0xe016d, [[0x56; 0x53; 0x31; 0x32; 0x36]]);
  (0xe016e, [[0x56; 0x53; 0x31; 0x32; 0x37]]);
  (0xe016f, [[0x56; 0x53; 0x31; 0x32; 0x38]]);
  (0xe0170, [[0x56; 0x53; 0x31; 0x32; 0x39]]);
  (0xe0171, [[0x56; 0x53; 0x31; 0x33; 0x30]]);
  (0xe0172, [[0x56; 0x53; 0x31; 0x33; 0x31]]);
  (0xe0173, [[0x56; 0x53; 0x31; 0x33; 0x32]]);
  (0xe0174, [[0x56; 0x53; 0x31; 0x33; 0x33]]);
  (0xe0175, [[0x56; 0x53; 0x31; 0x33; 0x34]]);
  (0xe0176, [[0x56; 0x53; 0x31; 0x33; 0x35]]);
  (0xe0177, [[0x56; 0x53; 0x31; 0x33; 0x36]]);
  (0xe0178, [[0x56; 0x53; 0x31; 0x33; 0x37]]);
  (0xe0179, [[0x56; 0x53; 0x31; 0x33; 0x38]]);
  (0xe017a, [[0x56; 0x53; 0x31; 0x33; 0x39]]);
  (0xe017b, [[0x56; 0x53; 0x31; 0x34; 0x30]]);
  (0xe017c, [[0x56; 0x53; 0x31; 0x34; 0x31]]);
  (0xe017d, [[0x56; 0x53; 0x31; 0x34; 0x32]]);
  (0xe017e, [[0x56; 0x53; 0x31; 0x34; 0x33]]);
  (0xe017f, [[0x56; 0x53; 0x31; 0x34; 0x34]]);
  (0xe0180, [[0x56; 0x53; 0x31; 0x34; 0x35]]);
  (0xe0181, [[0x56; 0x53; 0x31; 0x34; 0x36]]);
  (0xe0182, [[0x56; 0x53; 0x31; 0x34; 0x37]]);
  (0xe0183, [[0x56; 0x53; 0x31; 0x34; 0x38]]);
  (0xe0184, [[0x56; 0x53; 0x31; 0x34; 0x39]]);
  (0xe0185, [[0x56; 0x53; 0x31; 0x35; 0x30]]);
  (0xe0186, [[0x56; 0x53; 0x31; 0x35; 0x31]]);
  (0xe0187, [[0x56; 0x53; 0x31; 0x35; 0x32]]);
  (0xe0188, [[0x56; 0x53; 0x31; 0x35; 0x33]]);
  (0xe0189, [[0x56; 0x53; 0x31; 0x35; 0x34]]);
  (0xe018a, [[0x56; 0x53; 0x31; 0x35; 0x35]]);
  (0xe018b, [[0x56; 0x53; 0x31; 0x35; 0x36]]);
  (0xe018c, [[0x56; 0x53; 0x31; 0x35; 0x37]]);
  (0xe018d, [[0x56; 0x53; 0x31; 0x35; 0x38]]);
  (0xe018e, [[0x56; 0x53; 0x31; 0x35; 0x39]]);
  (0xe018f, [[0x56; 0x53; 0x31; 0x36; 0x30]]);
  (0xe0190, [[0x56; 0x53; 0x31; 0x36; 0x31]]);
  (0xe0191, [[0x56; 0x53; 0x31; 0x36; 0x32]]);
  (0xe0192, [[0x56; 0x53; 0x31; 0x36; 0x33]]);
  (0xe0193, [[0x56; 0x53; 0x31; 0x36; 0x34]]);
  (0xe0194, [[0x56; 0x53; 0x31; 0x36; 0x35]]);
  (0xe0195, [[0x56; 0x53; 0x31; 0x36; 0x36]]);
  (0xe0196, [[0x56; 0x53; 0x31; 0x36; 0x37]]);
  (0xe0197, [[0x56; 0x53; 0x31; 0x36; 0x38]]);
  (0xe0198, [[0x56; 0x53; 0x31; 0x36; 0x39]]);
  (0xe0199, [[0x56; 0x53; 0x31; 0x37; 0x30]]);
  (0xe019a, [[0x56; 0x53; 0x31; 0x37; 0x31]]);
  (0xe019b, [[0x56; 0x53; 0x31; 0x37; 0x32]]);
  (0xe019c, [[0x56; 0x53; 0x31; 0x37; 0x33]]);
  (0xe019d, [[0x56; 0x53; 0x31; 0x37; 0x34]]);
  (0xe019e, [[0x56; 0x53; 0x31; 0x37; 0x35]]);
  (0xe019f, [[0x56; 0x53; 0x31; 0x37; 0x36]]);
  (0xe01a0, [[0x56; 0x53; 0x31; 0x37; 0x37]]);
  (0xe01a1, [[0x56; 0x53; 0x31; 0x37; 0x38]]);
  (0xe01a2, [[0x56; 0x53; 0x31; 0x37; 0x39]]);
  (0xe01a3, [[0x56; 0x53; 0x31; 0x38; 0x30]]);
  (0xe01a4, [[0x56; 0x53; 0x31; 0x38; 0x31]]);
  (0xe01a5, [[0x56; 0x53; 0x31; 0x38; 0x32]]);
  (0xe01a6, [[0x56; 0x53; 0x31; 0x38; 0x33]]);
  (0xe01a7, [[0x56; 0x53; 0x31; 0x38; 0x34]]);
  (0xe01a8, [[0x56; 0x53; 0x31; 0x38; 0x35]]);
  (0xe01a9, [[0x56; 0x53; 0x31; 0x38; 0x36]]);
  (0xe01aa, [[0x56; 0x53; 0x31; 0x38; 0x37]]);
  (0xe01ab, [[0x56; 0x53; 0x31; 0x38; 0x38]]);
  (0xe01ac, [[0x56; 0x53; 0x31; 0x38; 0x39]]);
  (0xe01ad, [[0x56; 0x53; 0x31; 0x39; 0x30]]);
  (0xe01ae, [[0x56; 0x53; 0x31; 0x39; 0x31]]);
  (0xe01af, [[0x56; 0x53; 0x31; 0x39; 0x32]]);
  (0xe01b0, [[0x56; 0x53; 0x31; 0x39; 0x33]]);
  (0xe01b1, [[0x56; 0x53; 0x31; 0x39; 0x34]]);
  (0xe01b2, [[0x56; 0x53; 0x31; 0x39; 0x35]]);
  (0xe01b3, [[0x56; 0x53; 0x31; 0x39; 0x36]]);
  (0xe01b4, [[0x56; 0x53; 0x31; 0x39; 0x37]]);
  (0xe01b5, [[0x56; 0x53; 0x31; 0x39; 0x38]]);
  (0xe01b6, [[0x56; 0x53; 0x31; 0x39; 0x39]]);
  (0xe01b7, [[0x56; 0x53; 0x32; 0x30; 0x30]]);
  (0xe01b8, [[0x56; 0x53; 0x32; 0x30; 0x31]]);
  (0xe01b9, [[0x56; 0x53; 0x32; 0x30; 0x32]]);
  (0xe01ba, [[0x56; 0x53; 0x32; 0x30; 0x33]]);
  (0xe01bb, [[0x56; 0x53; 0x32; 0x30; 0x34]]);
  (0xe01bc, [[0x56; 0x53; 0x32; 0x30; 0x35]]);
  (0xe01bd, [[0x56; 0x53; 0x32; 0x30; 0x36]]);
  (0xe01be, [[0x56; 0x53; 0x32; 0x30; 0x37]]);
  (0xe01bf, [[0x56; 0x53; 0x32; 0x30; 0x38]]);
  (0xe01c0, [[0x56; 0x53; 0x32; 0x30; 0x39]]);
  (0xe01c1, [[0x56; 0x53; 0x32; 0x31; 0x30]]);
  (0xe01c2, [[0x56; 0x53; 0x32; 0x31; 0x31]]);
  (0xe01c3, [[0x56; 0x53; 0x32; 0x31; 0x32]]);
  (0xe01c4, [[0x56; 0x53; 0x32; 0x31; 0x33]]);
  (0xe01c5, [[0x56; 0x53; 0x32; 0x31; 0x34]]);
  (0xe01c6, [[0x56; 0x53; 0x32; 0x31; 0x35]]);
  (0xe01c7, [[0x56; 0x53; 0x32; 0x31; 0x36]]);
  (0xe01c8, [[0x56; 0x53; 0x32; 0x31; 0x37]]);
  (0xe01c9, [[0x56; 0x53; 0x32; 0x31; 0x38]]);
  (0xe01ca, [[0x56; 0x53; 0x32; 0x31; 0x39]]);
  (0xe01cb, [[0x56; 0x53; 0x32; 0x32; 0x30]]);
  (0xe01cc, [[0x56; 0x53; 0x32; 0x32; 0x31]]);
  (0xe01cd, [[0x56; 0x53; 0x32; 0x32; 0x32]]);
  (0xe01ce, [[0x56; 0x53; 0x32; 0x32; 0x33]]);
  (0xe01cf, [[0x56; 0x53; 0x32; 0x32; 0x34]]);
  (0xe01d0, [[0x56; 0x53; 0x32; 0x32; 0x35]]);
  (0xe01d1, [[0x56; 0x53; 0x32; 0x32; 0x36]]);
  (0xe01d2, [[0x56; 0x53; 0x32; 0x32; 0x37]]);
  (0xe01d3, [[0x56; 0x53; 0x32; 0x32; 0x38]]);
  (0xe01d4, [[0x56; 0x53; 0x32; 0x32; 0x39]]);
  (0xe01d5, [[0x56; 0x53; 0x32; 0x33; 0x30]]);
  (0xe01d6, [[0x56; 0x53; 0x32; 0x33; 0x31]]);
  (0xe01d7, [[0x56; 0x53; 0x32; 0x33; 0x32]]);
  (0xe01d8, [[0x56; 0x53; 0x32; 0x33; 0x33]]);
  (0xe01d9, [[0x56; 0x53; 0x32; 0x33; 0x34]]);
  (0xe01da, [[0x56; 0x53; 0x32; 0x33; 0x35]]);
  (0xe01db, [[0x56; 0x53; 0x32; 0x33; 0x36]]);
  (0xe01dc, [[0x56; 0x53; 0x32; 0x33; 0x37]]);
  (0xe01dd, [[0x56; 0x53; 0x32; 0x33; 0x38]]);
  (0xe01de, [[0x56; 0x53; 0x32; 0x33; 0x39]]);
  (0xe01df, [[0x56; 0x53; 0x32; 0x34; 0x30]]);
  (0xe01e0, [[0x56; 0x53; 0x32; 0x34; 0x31]]);
  (0xe01e1, [[0x56; 0x53; 0x32; 0x34; 0x32]]);
  (0xe01e2, [[0x56; 0x53; 0x32; 0x34; 0x33]]);
  (0xe01e3, [[0x56; 0x53; 0x32; 0x34; 0x34]]);
  (0xe01e4, [[0x56; 0x53; 0x32; 0x34; 0x35]]);
  (0xe01e5, [[0x56; 0x53; 0x32; 0x34; 0x36]]);
  (0xe01e6, [[0x56; 0x53; 0x32; 0x34; 0x37]]);
  (0xe01e7, [[0x56; 0x53; 0x32; 0x34; 0x38]]);
  (0xe01e8, [[0x56; 0x53; 0x32; 0x34; 0x39]]);
  (0xe01e9, [[0x56; 0x53; 0x32; 0x35; 0x30]]);
  (0xe01ea, [[0x56; 0x53; 0x32; 0x35; 0x31]]);
  (0xe01eb, [[0x56; 0x53; 0x32; 0x35; 0x32]]);
  (0xe01ec, [[0x56; 0x53; 0x32; 0x35; 0x33]]);
  (0xe01ed, [[0x56; 0x53; 0x32; 0x35; 0x34]]);
  (0xe01ee, [[0x56; 0x53; 0x32; 0x35; 0x35]]);
  (0xe01ef, [[0x56; 0x53; 0x32; 0x35; 0x36]])].

(** unic/ucd/name_aliases/tables/name_alias_types.rsv:1-376 (372 entries) *)
Definition NAME_ALIAS_TYPES : CharDataTable (list NameAliasType) := Direct [
  (0x0, [NA_ControlCodeNames; NA_NameAbbreviations]);
  (0x1, [NA_ControlCodeNames; NA_NameAbbreviations]);
  (0x2, [NA_ControlCodeNames; NA_NameAbbreviations]);
  (0x3, [NA_ControlCodeNames; NA_NameAbbreviations]);
  (0x4, [NA_ControlCodeNames; NA_NameAbbreviations]);
  (0x5, [NA_ControlCodeNames; NA_NameAbbreviations]);
  (0x6, [NA_ControlCodeNames; NA_NameAbbreviations]);
  (0x7, [NA_ControlCodeNames; NA_NameAbbreviations]);
  (0x8, [NA_ControlCodeNames; NA_NameAbbreviations]);
  (0x9, [NA_ControlCodeNames; NA_NameAbbreviations]);
  (0xa, [NA_ControlCodeNames; NA_NameAbbreviations]);
  (0xb, [NA_ControlCodeNames; NA_NameAbbreviations]);
  (0xc, [NA_ControlCodeNames; NA_NameAbbreviations]);
  (0xd, [NA_ControlCodeNames; NA_NameAbbreviations]);
  (0xe, [NA_ControlCodeNames; NA_NameAbbreviations]);
  (0xf, [NA_ControlCodeNames; NA_NameAbbreviations]);
  (0x10, [NA_ControlCodeNames; NA_NameAbbreviations]);
  (0x11, [NA_ControlCodeNames; NA_NameAbbreviations]);
  (0x12, [NA_ControlCodeNames; NA_NameAbbreviations]);
  (0x13, [NA_ControlCodeNames; NA_NameAbbreviations]);
  (0x14, [NA_ControlCodeNames; NA_NameAbbreviations]);
  (0x15, [NA_ControlCodeNames; NA_NameAbbreviations]);
  (0x16, [NA_ControlCodeNames; NA_NameAbbreviations]);
  (0x17, [NA_ControlCodeNames; NA_NameAbbreviations]);
  (0x18, [NA_ControlCodeNames; NA_NameAbbreviations]);
  (0x19, [NA_ControlCodeNames; NA_NameAbbreviations]);
  (0x1a, [NA_ControlCodeNames; NA_NameAbbreviations]);
  (0x1b, [NA_ControlCodeNames; NA_NameAbbreviations]);
  (0x1c, [NA_ControlCodeNames; NA_NameAbbreviations]);
  (0x1d, [NA_ControlCodeNames; NA_NameAbbreviations]);
  (0x1e, [NA_ControlCodeNames; NA_NameAbbreviations]);
  (0x1f, [NA_ControlCodeNames; NA_NameAbbreviations]);
  (0x20, [NA_NameAbbreviations]);
  (0x7f, [NA_ControlCodeNames; NA_NameAbbreviations]);
  (0x80, [NA_Figments; NA_NameAbbreviations]);
  (0x81, [NA_Figments; NA_NameAbbreviations]);
  (0x82, [NA_ControlCodeNames; NA_NameAbbreviations]);
  (0x83, [NA_ControlCodeNames; NA_NameAbbreviations]);
  (0x84, [NA_ControlCodeNames; NA_NameAbbreviations]);
  (0x85, [NA_ControlCodeNames; NA_NameAbbreviations]);
  (0x86, [NA_ControlCodeNames; NA_NameAbbreviations]);
  (0x87, [NA_ControlCodeNames; NA_NameAbbreviations]);
  (0x88, [NA_ControlCodeNames; NA_NameAbbreviations]);
  (0x89, [NA_ControlCodeNames; NA_NameAbbreviations]);
  (0x8a, [NA_ControlCodeNames; NA_NameAbbreviations]);
  (0x8b, [NA_ControlCodeNames; NA_NameAbbreviations]);
  (0x8c, [NA_ControlCodeNames; NA_NameAbbreviations]);
  (0x8d, [NA_ControlCodeNames; NA_NameAbbreviations]);
  (0x8e, [NA_ControlCodeNames; NA_NameAbbreviations]);
  (0x8f, [NA_ControlCodeNames; NA_NameAbbreviations]);
  (0x90, [NA_ControlCodeNames; NA_NameAbbreviations]);
  (0x91, [NA_ControlCodeNames; NA_NameAbbreviations]);
  (0x92, [NA_ControlCodeNames; NA_NameAbbreviations]);
  (0x93, [NA_ControlCodeNames; NA_NameAbbreviations]);
  (0x94, [NA_ControlCodeNames; NA_NameAbbreviations]);
  (0x95, [NA_ControlCodeNames; NA_NameAbbreviations]);
  (0x96, [NA_ControlCodeNames; NA_NameAbbreviations]);
  (0x97, [NA_ControlCodeNames; NA_NameAbbreviations]);
  (0x98, [NA_ControlCodeNames; NA_NameAbbreviations]);
  (0x99, [NA_Figments; NA_NameAbbreviations]);
  (0x9a, [NA_ControlCodeNames; NA_NameAbbreviations]);
  (0x9b, [NA_ControlCodeNames; NA_NameAbbreviations]);
  (0x9c, [NA_ControlCodeNames; NA_NameAbbreviations]);
  (0x9d, [NA_ControlCodeNames; NA_NameAbbreviations]);
  (0x9e, [NA_ControlCodeNames; NA_NameAbbreviations]);
  (0x9f, [NA_ControlCodeNames; NA_NameAbbreviations]);
  (0xa0, [NA_NameAbbreviations]);
  (0xad, [NA_NameAbbreviations]);
  (0x1a2, [NA_NameCorrections]);
  (0x1a3, [NA_NameCorrections]);
  (0x34f, [NA_NameAbbreviations]);
  (0x61c, [NA_NameAbbreviations]);
  (0x709, [NA_NameCorrections]);
  (0xcde, [NA_NameCorrections]);
  (0xe9d, [NA_NameCorrections]);
  (0xe9f, [NA_NameCorrections]);
  (0xea3, [NA_NameCorrections]);
  (0xea5, [NA_NameCorrections]);
  (0xfd0, [NA_NameCorrections]);
  (0x11ec, [NA_NameCorrections]);
  (0x11ed, [NA_NameCorrections]);
  (0x11ee, [NA_NameCorrections]);
  (0x11ef, [NA_NameCorrections]);
  (0x180b, [NA_NameAbbreviations]);
  (0x180c, [NA_NameAbbreviations]);
  (0x180d, [NA_NameAbbreviations]);
  (0x180e, [NA_NameAbbreviations]);
  (0x200b, [NA_NameAbbreviations]);
  (0x200c, [NA_NameAbbreviations]);
  (0x200d, [NA_NameAbbreviations]);
  (0x200e, [NA_NameAbbreviations]);
  (0x200f, [NA_NameAbbreviations]);
  (0x202a, [NA_NameAbbreviations]);
  (0x202b, [NA_NameAbbreviations]);
  (0x202c, [NA_NameAbbreviations]);
  (0x202d, [NA_NameAbbreviations]);
  (0x202e, [NA_NameAbbreviations]);
  (0x202f, [NA_NameAbbreviations]);
  (0x205f, [NA_NameAbbreviations]);
  (0x2060, [NA_NameAbbreviations]);
  (0x2066, [NA_NameAbbreviations]);
  (0x2067, [NA_NameAbbreviations]);
  (0x2068, [NA_NameAbbreviations]);
  (0x2069, [NA_NameAbbreviations]);
  (0x2118, [NA_NameCorrections]);
  (0x2448, [NA_NameCorrections]);
  (0x2449, [NA_NameCorrections]);
  (0x2b7a, [NA_NameCorrections]);
  (0x2b7c, [NA_NameCorrections]);
  (0xa015, [NA_NameCorrections]);
  (0xfe00, [NA_NameAbbreviations]);
  (0xfe01, [NA_NameAbbreviations]);
  (0xfe02, [NA_NameAbbreviations]);
  (0xfe03, [NA_NameAbbreviations]);
  (0xfe04, [NA_NameAbbreviations]);
  (0xfe05, [NA_NameAbbreviations]);
  (0xfe06, [NA_NameAbbreviations]);
  (0xfe07, [NA_NameAbbreviations]);
  (0xfe08, [NA_NameAbbreviations]);
  (0xfe09, [NA_NameAbbreviations]);
  (0xfe0a, [NA_NameAbbreviations]);
  (0xfe0b, [NA_NameAbbreviations]);
  (0xfe0c, [NA_NameAbbreviations]);
  (0xfe0d, [NA_NameAbbreviations]);
  (0xfe0e, [NA_NameAbbreviations]);
  (0xfe0f, [NA_NameAbbreviations]);
  (0xfe18, [NA_NameCorrections]);
  (0xfeff, [NA_AlternateNames; NA_NameAbbreviations]);
  (0x122d4, [NA_NameCorrections]);
  (0x122d5, [NA_NameCorrections]);
  (0x1b001, [NA_NameCorrections]);
  (0x1d0c5, [NA_NameCorrections]);
  (0xe0100, [NA_NameAbbreviations]);
  (0xe0101, [NA_NameAbbreviations]);
  (0xe0102, [NA_NameAbbreviations]);
  (0xe0103, [NA_NameAbbreviations]);
  (0xe0104, [NA_NameAbbreviations]);
  (0xe0105, [NA_NameAbbreviations]);
  (0xe0106, [NA_NameAbbreviations]);
  (0xe0107, [NA_NameAbbreviations]);
  (0xe0108, [NA_NameAbbreviations]);
  (0xe0109, [NA_NameAbbreviations]);
  (0xe010a, [NA_NameAbbreviations]);
  (0xe010b, [NA_NameAbbreviations]);
  (0xe010c, [NA_NameAbbreviations]);
  (0xe010d, [NA_NameAbbreviations]);
  (0xe010e, [NA_NameAbbreviations]);
  (0xe010f, [NA_NameAbbreviations]);
  (0xe0110, [NA_NameAbbreviations]);
  (0xe0111, [NA_NameAbbreviations]);
  (0xe0112, [NA_NameAbbreviations]);
  (0xe0113, [NA_NameAbbreviations]);
  (0xe0114, [NA_NameAbbreviations]);
  (0xe0115, [NA_NameAbbreviations]);
  (0xe0116, [NA_NameAbbreviations]);
  (0xe0117, [NA_NameAbbreviations]);
  (0xe0118, [NA_NameAbbreviations]);
  (0xe0119, [NA_NameAbbreviations]);
  (0xe011a, [NA_NameAbbreviations]);
  (0xe011b, [NA_NameAbbreviations]);
  (0xe011c, [NA_NameAbbreviations]);
  (0xe011d, [NA_NameAbbreviations]);
  (0xe011e, [NA_NameAbbreviations]);
  (0xe011f, [NA_NameAbbreviations]);
  (0xe0120, [NA_NameAbbreviations]);
  (0xe0121, [NA_NameAbbreviations]);
  (0xe0122, [NA_NameAbbreviations]);
  (0xe0123, [NA_NameAbbreviations]);
  (0xe0124, [NA_NameAbbreviations]);
  (0xe0125, [NA_NameAbbreviations]);
  (0xe0126, [NA_NameAbbreviations]);
  (0xe0127, [NA_NameAbbreviations]);
  (0xe0128, [NA_NameAbbreviations]);
  (0xe0129, [NA_NameAbbreviations]);
  (0xe012a, [NA_NameAbbreviations]);
  (0xe012b, [NA_NameAbbreviations]);
  (0xe012c, [NA_NameAbbreviations]);
  (0xe012d, [NA_NameAbbreviations]);
  (0xe012e, [NA_NameAbbreviations]);
  (0xe012f, [NA_NameAbbreviations]);
  (0xe0130, [NA_NameAbbreviations]);
  (0xe0131, [NA_NameAbbreviations]);
  (0xe0132, [NA_NameAbbreviations]);
  (0xe0133, [NA_NameAbbreviations]);
  (0xe0134, [NA_NameAbbreviations]);
  (0xe0135, [NA_NameAbbreviations]);
  (0xe0136, [NA_NameAbbreviations]);
  (0xe0137, [NA_NameAbbreviations]);
  (0xe0138, [NA_NameAbbreviations]);
  (0xe0139, [NA_NameAbbreviations]);
  (0xe013a, [NA_NameAbbreviations]);
  (0xe013b, [NA_NameAbbreviations]);
  (0xe013c, [NA_NameAbbreviations]);
  (0xe013d, [NA_NameAbbreviations]);
  (0xe013e, [NA_NameAbbreviations]);
  (0xe013f, [NA_NameAbbreviations]);
  (0xe0140, [NA_NameAbbreviations]);
  (0xe0141, [NA_NameAbbreviations]);
  (0xe0142, [NA_NameAbbreviations]);
  (0xe0143, [NA_NameAbbreviations]);
  (0xe0144, [NA_NameAbbreviations]);
  (0xe0145, [NA_NameAbbreviations]);
  (0xe0146, [NA_NameAbbreviations]);
  (0xe0147, [NA_NameAbbreviations]);
  (0xe0148, [NA_NameAbbreviations]);
  (0xe0149, [NA_NameAbbreviations]);
  (0xe014a, [NA_NameAbbreviations]);
  (0xe014b, [NA_NameAbbreviations]);
  (0xe014c, [NA_NameAbbreviations]);
  (0xe014d, [NA_NameAbbreviations]);
  (0xe014e, [NA_NameAbbreviations]);
  (0xe014f, [NA_NameAbbreviations]);
  (0xe0150, [NA_NameAbbreviations]);
  (0xe0151, [NA_NameAbbreviations]);
  (0xe0152, [NA_NameAbbreviations]);
  (0xe0153, [NA_NameAbbreviations]);
  (0xe0154, [NA_NameAbbreviations]);
  (0xe0155, [NA_NameAbbreviations]);
  (0xe0156, [NA_NameAbbreviations]);
  (0xe0157, [NA_NameAbbreviations]);
  (0xe0158, [NA_NameAbbreviations]);
  (0xe0159, [NA_NameAbbreviations]);
  (0xe015a, [NA_NameAbbreviations]);
  (0xe015b, [NA_NameAbbreviations]);
  (0xe015c, [NA_NameAbbreviations]);
  (0xe015d, [NA_NameAbbreviations]);
  (0xe015e, [NA_NameAbbreviations]);
  (0xe015f, [NA_NameAbbreviations]);
  (0xe0160, [NA_NameAbbreviations]);
  (0xe0161, [NA_NameAbbreviations]);
  (0xe0162, [NA_NameAbbreviations]);
  (0xe0163, [NA_NameAbbreviations]);
  (0xe0164, [NA_NameAbbreviations]);
  (0xe0165, [NA_NameAbbreviations]);
  (0xe0166, [NA_NameAbbreviations]);
  (0xe0167, [NA_NameAbbreviations]);
  (0xe0168, [NA_NameAbbreviations]);
  (0xe0169, [NA_NameAbbreviations]);
  (0xe016a, [NA_NameAbbreviations]);
  (0xe016b, [NA_NameAbbreviations]);
  (0xe016c, [NA_NameAbbreviations]);
  (0xe016d, [NA_NameAbbreviations]);
  (0xe016e, [NA_NameAbbreviations]);
  (0xe016f, [NA_NameAbbreviations]);
  (0xe0170, [NA_NameAbbreviations]);
  (0xe0171, [NA_NameAbbreviations]);
  (0xe0172, [NA_NameAbbreviations]);
  (0xe0173, [NA_NameAbbreviations]);
  (0xe0174, [NA_NameAbbreviations]);
  (0xe0175, [NA_NameAbbreviations]);
  (0xe0176, [NA_NameAbbreviations]);
  (0xe0177, [NA_NameAbbreviations]);
  (0xe0178, [NA_NameAbbreviations]);
  (0xe0179, [NA_NameAbbreviations]);
  (0xe017a, [NA_NameAbbreviations]);
  (0xe017b, [NA_NameAbbreviations]);
  (0xe017c, [NA_NameAbbreviations]);
  (0xe017d, [NA_NameAbbreviations]);
  (0xe017e, [NA_NameAbbreviations]);
  (0xe017f, [NA_NameAbbreviations]);
  (0xe0180, [NA_NameAbbreviations]);
  (0xe0181, [NA_NameAbbreviations]);
  (0xe0182, [NA_NameAbbreviations]);
  (0xe0183, [NA_NameAbbreviations]);
  (0xe0184, [NA_NameAbbreviations]);
  (0xe0185, [NA_NameAbbreviations]);
  (0xe0186, [NA_NameAbbreviations]);
  (0xe0187, [NA_NameAbbreviations]);
  (0xe0188, [NA_NameAbbreviations]);
  (0xe0189, [NA_NameAbbreviations]);
  (0xe018a, [NA_NameAbbreviations]);
  (0xe018b, [NA_NameAbbreviations]);
  (0xe018c, [NA_NameAbbreviations]);
  (0xe018d, [NA_NameAbbreviations]);
  (0xe018e, [NA_NameAbbreviations]);
  (0xe018f, [NA_NameAbbreviations]);
  (0xe0190, [NA_NameAbbreviations]);
  (0xe0191, [NA_NameAbbreviations]);
  (0xe0192, [NA_NameAbbreviations]);
  (0xe0193, [NA_NameAbbreviations]);
  (0xe0194, [NA_NameAbbreviations]);
  (0xe0195, [NA_NameAbbreviations]);
  (0xe0196, [NA_NameAbbreviations]);
  (0xe0197, [NA_NameAbbreviations]);
  (0xe0198, [NA_NameAbbreviations]);
  (0xe0199, [NA_NameAbbreviations]);
  (0xe019a, [NA_NameAbbreviations]);
  (0xe019b, [NA_NameAbbreviations]);
  (0xe019c, [NA_NameAbbreviations]);
  (0xe019d, [NA_NameAbbreviations]);
  (0xe019e, [NA_NameAbbreviations]);
  (0xe019f, [NA_NameAbbreviations]);
  (0xe01a0, [NA_NameAbbreviations]);
  (0xe01a1, [NA_NameAbbreviations]);
  (0xe01a2, [NA_NameAbbreviations]);
  (0xe01a3, [NA_NameAbbreviations]);
  (0xe01a4, [NA_NameAbbreviations]);
  (0xe01a5, [NA_NameAbbreviations]);
  (0xe01a6, [NA_NameAbbreviations]);
  (0xe01a7, [NA_NameAbbreviations]);
  (0xe01a8, [NA_NameAbbreviations]);
  (0xe01a9, [NA_NameAbbreviations]);
  (0xe01aa, [NA_NameAbbreviations]);
  (0xe01ab, [NA_NameAbbreviations]);
  (0xe01ac, [NA_NameAbbreviations]);
  (0xe01ad, [NA_NameAbbreviations]);
  (0xe01ae, [NA_NameAbbreviations]);
  (0xe01af, [NA_NameAbbreviations]);
  (0xe01b0, [NA_NameAbbreviations]);
  (0xe01b1, [NA_NameAbbreviations]);
  (0xe01b2, [NA_NameAbbreviations]);
  (0xe01b3, [NA_NameAbbreviations]);
  (0xe01b4, [NA_NameAbbreviations]);
  (0xe01b5, [NA_NameAbbreviations]);
  (0xe01b6, [NA_NameAbbreviations]);
  (0xe01b7, [NA_NameAbbreviations]);
  (0xe01b8, [NA_NameAbbreviations]);
  (0xe01b9, [NA_NameAbbreviations]);
  (0xe01ba, [NA_NameAbbreviations]);
  (0xe01bb, [NA_NameAbbreviations]);
  (0xe01bc, [NA_NameAbbreviations]);
  (0xe01bd, [NA_NameAbbreviations]);
  (0xe01be, [NA_NameAbbreviations]);
  (0xe01bf, [NA_NameAbbreviations]);
  (0xe01c0, [NA_NameAbbreviations]);
  (0xe01c1, [NA_NameAbbreviations]);
  (0xe01c2, [NA_NameAbbreviations]);
  (0xe01c3, [NA_NameAbbreviations]);
  (0xe01c4, [NA_NameAbbreviations]);
  (0xe01c5, [NA_NameAbbreviations]);
  (0xe01c6, [NA_NameAbbreviations]);
  (0xe01c7, [NA_NameAbbreviations]);
  (0xe01c8, [NA_NameAbbreviations]);
  (0xe01c9, [NA_NameAbbreviations]);
  (0xe01ca, [NA_NameAbbreviations]);
  (0xe01cb, [NA_NameAbbreviations]);
  (0xe01cc, [NA_NameAbbreviations]);
  (0xe01cd, [NA_NameAbbreviations]);
  (0xe01ce, [NA_NameAbbreviations]);
  (0xe01cf, [NA_NameAbbreviations]);
  (0xe01d0, [NA_NameAbbreviations]);
  (0xe01d1, [NA_NameAbbreviations]);
  (0xe01d2, [NA_NameAbbreviations]);
  (0xe01d3, [NA_NameAbbreviations]);
  (0xe01d4, [NA_NameAbbreviations]);
  (0xe01d5, [NA_NameAbbreviations]);
  (0xe01d6, [NA_NameAbbreviations]);
  (0xe01d7, [NA_NameAbbreviations]);
  (0xe01d8, [NA_NameAbbreviations]);
  (0xe01d9, [NA_NameAbbreviations]);
  (0xe01da, [NA_NameAbbreviations]);
  (0xe01db, [NA_NameAbbreviations]);
  (0xe01dc, [NA_NameAbbreviations]);
  (0xe01dd, [NA_NameAbbreviations]);
  (0xe01de, [NA_NameAbbreviations]);
  (0xe01df, [NA_NameAbbreviations]);
  (0xe01e0, [NA_NameAbbreviations]);
  (0xe01e1, [NA_NameAbbreviations]);
  (0xe01e2, [NA_NameAbbreviations]);
  (0xe01e3, [NA_NameAbbreviations]);
  (0xe01e4, [NA_NameAbbreviations]);
  (0xe01e5, [NA_NameAbbreviations]);
  (0xe01e6, [NA_NameAbbreviations]);
  (0xe01e7, [NA_NameAbbreviations]);
  (0xe01e8, [NA_NameAbbreviations]);
  (0xe01e9, [NA_NameAbbreviations]);
  (0xe01ea, [NA_NameAbbreviations]);
  (0xe01eb, [NA_NameAbbreviations]);
  (0xe01ec, [NA_NameAbbreviations]);
  (0xe01ed, [NA_NameAbbreviations]);
  (0xe01ee, [NA_NameAbbreviations]);
  (0xe01ef, [NA_NameAbbreviations])].
