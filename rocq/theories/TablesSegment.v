(** GENERATED by tools/gen_tables.py from the .rsv tables of /repo.  Do not edit. *)
From Coq Require Import List NArith.
From Verif Require Import Base RangeModel TableModel Enums TableTypes.
Import ListNotations.
Open Scope N_scope.
Local Notation R := mkRange.

(** unic/ucd/segment/tables/grapheme_cluster_break.rsv:1-1357 (1353 entries) *)
Definition GRAPHEME_CLUSTER_BREAK_0 : list (CharRange * GraphemeClusterBreak) := [
  (R 0x0 0x9, GCB_Control);
  (R 0xa 0xa, GCB_LF);
  (R 0xb 0xc, GCB_Control);
  (R 0xd 0xd, GCB_CR);
  (R 0xe 0x1f, GCB_Control);
  (R 0x7f 0x9f, GCB_Control);
  (R 0xad 0xad, GCB_Control);
  (R 0x300 0x36f, GCB_Extend);
  (R 0x483 0x489, GCB_Extend);
  (R 0x591 0x5bd, GCB_Extend);
  (R 0x5bf 0x5bf, GCB_Extend);
  (R 0x5c1 0x5c2, GCB_Extend);
  (R 0x5c4 0x5c5, GCB_Extend);
  (R 0x5c7 0x5c7, GCB_Extend);
  (R 0x600 0x605, GCB_Prepend);
  (R 0x610 0x61a, GCB_Extend);
  (R 0x61c 0x61c, GCB_Control);
  (R 0x64b 0x65f, GCB_Extend);
  (R 0x670 0x670, GCB_Extend);
  (R 0x6d6 0x6dc, GCB_Extend);
  (R 0x6dd 0x6dd, GCB_Prepend);
  (R 0x6df 0x6e4, GCB_Extend);
  (R 0x6e7 0x6e8, GCB_Extend);
  (R 0x6ea 0x6ed, GCB_Extend);
  (R 0x70f 0x70f, GCB_Prepend);
  (R 0x711 0x711, GCB_Extend);
  (R 0x730 0x74a, GCB_Extend);
  (R 0x7a6 0x7b0, GCB_Extend);
  (R 0x7eb 0x7f3, GCB_Extend);
  (R 0x816 0x819, GCB_Extend);
  (R 0x81b 0x823, GCB_Extend);
  (R 0x825 0x827, GCB_Extend);
  (R 0x829 0x82d, GCB_Extend);
  (R 0x859 0x85b, GCB_Extend);
  (R 0x8d4 0x8e1, GCB_Extend);
  (R 0x8e2 0x8e2, GCB_Prepend);
  (R 0x8e3 0x902, GCB_Extend);
  (R 0x903 0x903, GCB_SpacingMark);
  (R 0x93a 0x93a, GCB_Extend);
  (R 0x93b 0x93b, GCB_SpacingMark);
  (R 0x93c 0x93c, GCB_Extend);
  (R 0x93e 0x940, GCB_SpacingMark);
  (R 0x941 0x948, GCB_Extend);
  (R 0x949 0x94c, GCB_SpacingMark);
  (R 0x94d 0x94d, GCB_Extend);
  (R 0x94e 0x94f, GCB_SpacingMark);
  (R 0x951 0x957, GCB_Extend);
  (R 0x962 0x963, GCB_Extend);
  (R 0x981 0x981, GCB_Extend);
  (R 0x982 0x983, GCB_SpacingMark);
  (R 0x9bc 0x9bc, GCB_Extend);
  (R 0x9be 0x9be, GCB_Extend);
  (R 0x9bf 0x9c0, GCB_SpacingMark);
  (R 0x9c1 0x9c4, GCB_Extend);
  (R 0x9c7 0x9c8, GCB_SpacingMark);
  (R 0x9cb 0x9cc, GCB_SpacingMark);
  (R 0x9cd 0x9cd, GCB_Extend);
  (R 0x9d7 0x9d7, GCB_Extend);
  (R 0x9e2 0x9e3, GCB_Extend);
  (R 0xa01 0xa02, GCB_Extend);
  (R 0xa03 0xa03, GCB_SpacingMark);
  (R 0xa3c 0xa3c, GCB_Extend);
  (R 0xa3e 0xa40, GCB_SpacingMark);
  (R 0xa41 0xa42, GCB_Extend);
  (R 0xa47 0xa48, GCB_Extend);
  (R 0xa4b 0xa4d, GCB_Extend);
  (R 0xa51 0xa51, GCB_Extend);
  (R 0xa70 0xa71, GCB_Extend);
  (R 0xa75 0xa75, GCB_Extend);
  (R 0xa81 0xa82, GCB_Extend);
  (R 0xa83 0xa83, GCB_SpacingMark);
  (R 0xabc 0xabc, GCB_Extend);
  (R 0xabe 0xac0, GCB_SpacingMark);
  (R 0xac1 0xac5, GCB_Extend);
  (R 0xac7 0xac8, GCB_Extend);
  (R 0xac9 0xac9, GCB_SpacingMark);
  (R 0xacb 0xacc, GCB_SpacingMark);
  (R 0xacd 0xacd, GCB_Extend);
  (R 0xae2 0xae3, GCB_Extend);
  (R 0xafa 0xaff, GCB_Extend);
  (R 0xb01 0xb01, GCB_Extend);
  (R 0xb02 0xb03, GCB_SpacingMark);
  (R 0xb3c 0xb3c, GCB_Extend);
  (R 0xb3e 0xb3f, GCB_Extend);
  (R 0xb40 0xb40, GCB_SpacingMark);
  (R 0xb41 0xb44, GCB_Extend);
  (R 0xb47 0xb48, GCB_SpacingMark);
  (R 0xb4b 0xb4c, GCB_SpacingMark);
  (R 0xb4d 0xb4d, GCB_Extend);
  (R 0xb56 0xb57, GCB_Extend);
  (R 0xb62 0xb63, GCB_Extend);
  (R 0xb82 0xb82, GCB_Extend);
  (R 0xbbe 0xbbe, GCB_Extend);
  (R 0xbbf 0xbbf, GCB_SpacingMark);
  (R 0xbc0 0xbc0, GCB_Extend);
  (R 0xbc1 0xbc2, GCB_SpacingMark);
  (R 0xbc6 0xbc8, GCB_SpacingMark);
  (R 0xbca 0xbcc, GCB_SpacingMark);
  (R 0xbcd 0xbcd, GCB_Extend);
  (R 0xbd7 0xbd7, GCB_Extend);
  (R 0xc00 0xc00, GCB_Extend);
  (R 0xc01 0xc03, GCB_SpacingMark);
  (R 0xc3e 0xc40, GCB_Extend);
  (R 0xc41 0xc44, GCB_SpacingMark);
  (R 0xc46 0xc48, GCB_Extend);
  (R 0xc4a 0xc4d, GCB_Extend);
  (R 0xc55 0xc56, GCB_Extend);
  (R 0xc62 0xc63, GCB_Extend);
  (R 0xc81 0xc81, GCB_Extend);
  (R 0xc82 0xc83, GCB_SpacingMark);
  (R 0xcbc 0xcbc, GCB_Extend);
  (R 0xcbe 0xcbe, GCB_SpacingMark);
  (R 0xcbf 0xcbf, GCB_Extend);
  (R 0xcc0 0xcc1, GCB_SpacingMark);
  (R 0xcc2 0xcc2, GCB_Extend);
  (R 0xcc3 0xcc4, GCB_SpacingMark);
  (R 0xcc6 0xcc6, GCB_Extend);
  (R 0xcc7 0xcc8, GCB_SpacingMark);
  (R 0xcca 0xccb, GCB_SpacingMark);
  (R 0xccc 0xccd, GCB_Extend);
  (R 0xcd5 0xcd6, GCB_Extend);
  (R 0xce2 0xce3, GCB_Extend);
  (R 0xd00 0xd01, GCB_Extend);
  (R 0xd02 0xd03, GCB_SpacingMark);
  (R 0xd3b 0xd3c, GCB_Extend);
  (R 0xd3e 0xd3e, GCB_Extend);
  (R 0xd3f 0xd40, GCB_SpacingMark);
  (R 0xd41 0xd44, GCB_Extend);
  (R 0xd46 0xd48, GCB_SpacingMark);
  (R 0xd4a 0xd4c, GCB_SpacingMark);
  (R 0xd4d 0xd4d, GCB_Extend);
  (R 0xd4e 0xd4e, GCB_Prepend);
  (R 0xd57 0xd57, GCB_Extend);
  (R 0xd62 0xd63, GCB_Extend);
  (R 0xd82 0xd83, GCB_SpacingMark);
  (R 0xdca 0xdca, GCB_Extend);
  (R 0xdcf 0xdcf, GCB_Extend);
  (R 0xdd0 0xdd1, GCB_SpacingMark);
  (R 0xdd2 0xdd4, GCB_Extend);
  (R 0xdd6 0xdd6, GCB_Extend);
  (R 0xdd8 0xdde, GCB_SpacingMark);
  (R 0xddf 0xddf, GCB_Extend);
  (R 0xdf2 0xdf3, GCB_SpacingMark);
  (R 0xe31 0xe31, GCB_Extend);
  (R 0xe33 0xe33, GCB_SpacingMark);
  (R 0xe34 0xe3a, GCB_Extend);
  (R 0xe47 0xe4e, GCB_Extend);
  (R 0xeb1 0xeb1, GCB_Extend);
  (R 0xeb3 0xeb3, GCB_SpacingMark);
  (R 0xeb4 0xeb9, GCB_Extend);
  (R 0xebb 0xebc, GCB_Extend);
  (R 0xec8 0xecd, GCB_Extend);
  (R 0xf18 0xf19, GCB_Extend);
  (R 0xf35 0xf35, GCB_Extend);
  (R 0xf37 0xf37, GCB_Extend);
  (R 0xf39 0xf39, GCB_Extend);
  (R 0xf3e 0xf3f, GCB_SpacingMark);
  (R 0xf71 0xf7e, GCB_Extend);
  (R 0xf7f 0xf7f, GCB_SpacingMark);
  (R 0xf80 0xf84, GCB_Extend);
  (R 0xf86 0xf87, GCB_Extend);
  (R 0xf8d 0xf97, GCB_Extend);
  (R 0xf99 0xfbc, GCB_Extend);
  (R 0xfc6 0xfc6, GCB_Extend);
  (R 0x102d 0x1030, GCB_Extend);
  (R 0x1031 0x1031, GCB_SpacingMark);
  (R 0x1032 0x1037, GCB_Extend);
  (R 0x1039 0x103a, GCB_Extend);
  (R 0x103b 0x103c, GCB_SpacingMark);
  (R 0x103d 0x103e, GCB_Extend);
  (R 0x1056 0x1057, GCB_SpacingMark);
  (R 0x1058 0x1059, GCB_Extend);
  (R 0x105e 0x1060, GCB_Extend);
  (R 0x1071 0x1074, GCB_Extend);
  (R 0x1082 0x1082, GCB_Extend);
  (R 0x1084 0x1084, GCB_SpacingMark);
  (R 0x1085 0x1086, GCB_Extend);
  (R 0x108d 0x108d, GCB_Extend);
  (R 0x109d 0x109d, GCB_Extend);
  (R 0x1100 0x115f, GCB_L);
  (R 0x1160 0x11a7, GCB_V);
  (R 0x11a8 0x11ff, GCB_T);
  (R 0x135d 0x135f, GCB_Extend);
  (R 0x1712 0x1714, GCB_Extend);
  (R 0x1732 0x1734, GCB_Extend);
  (R 0x1752 0x1753, GCB_Extend);
  (R 0x1772 0x1773, GCB_Extend);
  (R 0x17b4 0x17b5, GCB_Extend);
  (R 0x17b6 0x17b6, GCB_SpacingMark);
  (R 0x17b7 0x17bd, GCB_Extend);
  (R 0x17be 0x17c5, GCB_SpacingMark);
  (R 0x17c6 0x17c6, GCB_Extend);
  (R 0x17c7 0x17c8, GCB_SpacingMark);
  (R 0x17c9 0x17d3, GCB_Extend);
  (R 0x17dd 0x17dd, GCB_Extend);
  (R 0x180b 0x180d, GCB_Extend);
  (R 0x180e 0x180e, GCB_Control);
  (R 0x1885 0x1886, GCB_Extend);
  (R 0x18a9 0x18a9, GCB_Extend);
  (R 0x1920 0x1922, GCB_Extend);
  (R 0x1923 0x1926, GCB_SpacingMark);
  (R 0x1927 0x1928, GCB_Extend);
  (R 0x1929 0x192b, GCB_SpacingMark);
  (R 0x1930 0x1931, GCB_SpacingMark);
  (R 0x1932 0x1932, GCB_Extend);
  (R 0x1933 0x1938, GCB_SpacingMark);
  (R 0x1939 0x193b, GCB_Extend);
  (R 0x1a17 0x1a18, GCB_Extend);
  (R 0x1a19 0x1a1a, GCB_SpacingMark);
  (R 0x1a1b 0x1a1b, GCB_Extend);
  (R 0x1a55 0x1a55, GCB_SpacingMark);
  (R 0x1a56 0x1a56, GCB_Extend);
  (R 0x1a57 0x1a57, GCB_SpacingMark);
  (R 0x1a58 0x1a5e, GCB_Extend);
  (R 0x1a60 0x1a60, GCB_Extend);
  (R 0x1a62 0x1a62, GCB_Extend);
  (R 0x1a65 0x1a6c, GCB_Extend);
  (R 0x1a6d 0x1a72, GCB_SpacingMark);
  (R 0x1a73 0x1a7c, GCB_Extend);
  (R 0x1a7f 0x1a7f, GCB_Extend);
  (R 0x1ab0 0x1abe, GCB_Extend);
  (R 0x1b00 0x1b03, GCB_Extend);
  (R 0x1b04 0x1b04, GCB_SpacingMark);
  (R 0x1b34 0x1b34, GCB_Extend);
  (R 0x1b35 0x1b35, GCB_SpacingMark);
  (R 0x1b36 0x1b3a, GCB_Extend);
  (R 0x1b3b 0x1b3b, GCB_SpacingMark);
  (R 0x1b3c 0x1b3c, GCB_Extend);
  (R 0x1b3d 0x1b41, GCB_SpacingMark);
  (R 0x1b42 0x1b42, GCB_Extend);
  (R 0x1b43 0x1b44, GCB_SpacingMark);
  (R 0x1b6b 0x1b73, GCB_Extend);
  (R 0x1b80 0x1b81, GCB_Extend);
  (R 0x1b82 0x1b82, GCB_SpacingMark);
  (R 0x1ba1 0x1ba1, GCB_SpacingMark);
  (R 0x1ba2 0x1ba5, GCB_Extend);
  (R 0x1ba6 0x1ba7, GCB_SpacingMark);
  (R 0x1ba8 0x1ba9, GCB_Extend);
  (R 0x1baa 0x1baa, GCB_SpacingMark);
  (R 0x1bab 0x1bad, GCB_Extend);
  (R 0x1be6 0x1be6, GCB_Extend);
  (R 0x1be7 0x1be7, GCB_SpacingMark);
  (R 0x1be8 0x1be9, GCB_Extend);
  (R 0x1bea 0x1bec, GCB_SpacingMark);
  (R 0x1bed 0x1bed, GCB_Extend);
  (R 0x1bee 0x1bee, GCB_SpacingMark);
  (R 0x1bef 0x1bf1, GCB_Extend);
  (R 0x1bf2 0x1bf3, GCB_SpacingMark);
  (R 0x1c24 0x1c2b, GCB_SpacingMark);
  (R 0x1c2c 0x1c33, GCB_Extend);
  (R 0x1c34 0x1c35, GCB_SpacingMark);
  (R 0x1c36 0x1c37, GCB_Extend);
  (R 0x1cd0 0x1cd2, GCB_Extend);
  (R 0x1cd4 0x1ce0, GCB_Extend);
  (R 0x1ce1 0x1ce1, GCB_SpacingMark);
  (R 0x1ce2 0x1ce8, GCB_Extend);
  (R 0x1ced 0x1ced, GCB_Extend);
  (R 0x1cf2 0x1cf3, GCB_SpacingMark);
  (R 0x1cf4 0x1cf4, GCB_Extend);
  (R 0x1cf7 0x1cf7, GCB_SpacingMark);
  (R 0x1cf8 0x1cf9, GCB_Extend);
  (R 0x1dc0 0x1df9, GCB_Extend);
  (R 0x1dfb 0x1dff, GCB_Extend);
  (R 0x200b 0x200b, GCB_Control);
  (R 0x200c 0x200c, GCB_Extend);
  (R 0x200d 0x200d, GCB_ZWJ);
  (R 0x200e 0x200f, GCB_Control);
  (R 0x2028 0x202e, GCB_Control);
  (R 0x2060 0x206f, GCB_Control);
  (R 0x20d0 0x20f0, GCB_Extend);
  (R 0x261d 0x261d, GCB_EBase);
  (R 0x2640 0x2640, GCB_GlueAfterZwj);
  (R 0x2642 0x2642, GCB_GlueAfterZwj);
  (R 0x2695 0x2696, GCB_GlueAfterZwj);
  (R 0x26f9 0x26f9, GCB_EBase);
  (R 0x2708 0x2708, GCB_GlueAfterZwj);
  (R 0x270a 0x270d, GCB_EBase);
  (R 0x2764 0x2764, GCB_GlueAfterZwj);
  (R 0x2cef 0x2cf1, GCB_Extend);
  (R 0x2d7f 0x2d7f, GCB_Extend);
  (R 0x2de0 0x2dff, GCB_Extend);
  (R 0x302a 0x302f, GCB_Extend);
  (R 0x3099 0x309a, GCB_Extend);
  (R 0xa66f 0xa672, GCB_Extend);
  (R 0xa674 0xa67d, GCB_Extend);
  (R 0xa69e 0xa69f, GCB_Extend);
  (R 0xa6f0 0xa6f1, GCB_Extend);
  (R 0xa802 0xa802, GCB_Extend);
  (R 0xa806 0xa806, GCB_Extend);
  (R 0xa80b 0xa80b, GCB_Extend);
  (R 0xa823 0xa824, GCB_SpacingMark);
  (R 0xa825 0xa826, GCB_Extend);
  (R 0xa827 0xa827, GCB_SpacingMark);
  (R 0xa880 0xa881, GCB_SpacingMark);
  (R 0xa8b4 0xa8c3, GCB_SpacingMark);
  (R 0xa8c4 0xa8c5, GCB_Extend);
  (R 0xa8e0 0xa8f1, GCB_Extend);
  (R 0xa926 0xa92d, GCB_Extend);
  (R 0xa947 0xa951, GCB_Extend);
  (R 0xa952 0xa953, GCB_SpacingMark);
  (R 0xa960 0xa97c, GCB_L);
  (R 0xa980 0xa982, GCB_Extend);
  (R 0xa983 0xa983, GCB_SpacingMark);
  (R 0xa9b3 0xa9b3, GCB_Extend);
  (R 0xa9b4 0xa9b5, GCB_SpacingMark);
  (R 0xa9b6 0xa9b9, GCB_Extend);
  (R 0xa9ba 0xa9bb, GCB_SpacingMark);
  (R 0xa9bc 0xa9bc, GCB_Extend);
  (R 0xa9bd 0xa9c0, GCB_SpacingMark);
  (R 0xa9e5 0xa9e5, GCB_Extend);
  (R 0xaa29 0xaa2e, GCB_Extend);
  (R 0xaa2f 0xaa30, GCB_SpacingMark);
  (R 0xaa31 0xaa32, GCB_Extend);
  (R 0xaa33 0xaa34, GCB_SpacingMark);
  (R 0xaa35 0xaa36, GCB_Extend);
  (R 0xaa43 0xaa43, GCB_Extend);
  (R 0xaa4c 0xaa4c, GCB_Extend);
  (R 0xaa4d 0xaa4d, GCB_SpacingMark);
  (R 0xaa7c 0xaa7c, GCB_Extend);
  (R 0xaab0 0xaab0, GCB_Extend);
  (R 0xaab2 0xaab4, GCB_Extend);
  (R 0xaab7 0xaab8, GCB_Extend);
  (R 0xaabe 0xaabf, GCB_Extend);
  (R 0xaac1 0xaac1, GCB_Extend);
  (R 0xaaeb 0xaaeb, GCB_SpacingMark);
  (R 0xaaec 0xaaed, GCB_Extend);
  (R 0xaaee 0xaaef, GCB_SpacingMark);
  (R 0xaaf5 0xaaf5, GCB_SpacingMark);
  (R 0xaaf6 0xaaf6, GCB_Extend);
  (R 0xabe3 0xabe4, GCB_SpacingMark);
  (R 0xabe5 0xabe5, GCB_Extend);
  (R 0xabe6 0xabe7, GCB_SpacingMark);
  (R 0xabe8 0xabe8, GCB_Extend);
  (R 0xabe9 0xabea, GCB_SpacingMark);
  (R 0xabec 0xabec, GCB_SpacingMark);
  (R 0xabed 0xabed, GCB_Extend);
  (R 0xac00 0xac00, GCB_LV);
  (R 0xac01 0xac1b, GCB_LVT);
  (R 0xac1c 0xac1c, GCB_LV);
  (R 0xac1d 0xac37, GCB_LVT);
  (R 0xac38 0xac38, GCB_LV);
  (R 0xac39 0xac53, GCB_LVT);
  (R 0xac54 0xac54, GCB_LV);
  (R 0xac55 0xac6f, GCB_LVT);
  (R 0xac70 0xac70, GCB_LV);
  (R 0xac71 0xac8b, GCB_LVT);
  (R 0xac8c 0xac8c, GCB_LV);
  (R 0xac8d 0xaca7, GCB_LVT);
  (R 0xaca8 0xaca8, GCB_LV);
  (R 0xaca9 0xacc3, GCB_LVT);
  (R 0xacc4 0xacc4, GCB_LV);
  (R 0xacc5 0xacdf, GCB_LVT);
  (R 0xace0 0xace0, GCB_LV);
  (R 0xace1 0xacfb, GCB_LVT);
  (R 0xacfc 0xacfc, GCB_LV);
  (R 0xacfd 0xad17, GCB_LVT);
  (R 0xad18 0xad18, GCB_LV);
  (R 0xad19 0xad33, GCB_LVT);
  (R 0xad34 0xad34, GCB_LV);
  (R 0xad35 0xad4f, GCB_LVT);
  (R 0xad50 0xad50, GCB_LV);
  (R 0xad51 0xad6b, GCB_LVT);
  (R 0xad6c 0xad6c, GCB_LV);
  (R 0xad6d 0xad87, GCB_LVT);
  (R 0xad88 0xad88, GCB_LV);
  (R 0xad89 0xada3, GCB_LVT);
  (R 0xada4 0xada4, GCB_LV);
  (R 0xada5 0xadbf, GCB_LVT);
  (R 0xadc0 0xadc0, GCB_LV);
  (R 0xadc1 0xaddb, GCB_LVT);
  (R 0xaddc 0xaddc, GCB_LV);
  (R 0xaddd 0xadf7, GCB_LVT);
  (R 0xadf8 0xadf8, GCB_LV);
  (R 0xadf9 0xae13, GCB_LVT);
  (R 0xae14 0xae14, GCB_LV);
  (R 0xae15 0xae2f, GCB_LVT);
  (R 0xae30 0xae30, GCB_LV);
  (R 0xae31 0xae4b, GCB_LVT);
  (R 0xae4c 0xae4c, GCB_LV);
  (R 0xae4d 0xae67, GCB_LVT);
  (R 0xae68 0xae68, GCB_LV);
  (R 0xae69 0xae83, GCB_LVT);
  (R 0xae84 0xae84, GCB_LV);
  (R 0xae85 0xae9f, GCB_LVT);
  (R 0xaea0 0xaea0, GCB_LV);
  (R 0xaea1 0xaebb, GCB_LVT);
  (R 0xaebc 0xaebc, GCB_LV);
  (R 0xaebd 0xaed7, GCB_LVT);
  (R 0xaed8 0xaed8, GCB_LV);
  (R 0xaed9 0xaef3, GCB_LVT);
  (R 0xaef4 0xaef4, GCB_LV);
  (R 0xaef5 0xaf0f, GCB_LVT);
  (R 0xaf10 0xaf10, GCB_LV);
  (R 0xaf11 0xaf2b, GCB_LVT);
  (R 0xaf2c 0xaf2c, GCB_LV);
  (R 0xaf2d 0xaf47, GCB_LVT);
  (R 0xaf48 0xaf48, GCB_LV);
  (R 0xaf49 0xaf63, GCB_LVT);
  (R 0xaf64 0xaf64, GCB_LV);
  (R 0xaf65 0xaf7f, GCB_LVT)].

Definition GRAPHEME_CLUSTER_BREAK_1 : list (CharRange * GraphemeClusterBreak) := [
  (R 0xaf80 0xaf80, GCB_LV);
  (R 0xaf81 0xaf9b, GCB_LVT);
  (R 0xaf9c 0xaf9c, GCB_LV);
  (R 0xaf9d 0xafb7, GCB_LVT);
  (R 0xafb8 0xafb8, GCB_LV);
  (R 0xafb9 0xafd3, GCB_LVT);
  (R 0xafd4 0xafd4, GCB_LV);
  (R 0xafd5 0xafef, GCB_LVT);
  (R 0xaff0 0xaff0, GCB_LV);
  (R 0xaff1 0xb00b, GCB_LVT);
  (R 0xb00c 0xb00c, GCB_LV);
  (R 0xb00d 0xb027, GCB_LVT);
  (R 0xb028 0xb028, GCB_LV);
  (R 0xb029 0xb043, GCB_LVT);
  (R 0xb044 0xb044, GCB_LV);
  (R 0xb045 0xb05f, GCB_LVT);
  (R 0xb060 0xb060, GCB_LV);
  (R 0xb061 0xb07b, GCB_LVT);
  (R 0xb07c 0xb07c, GCB_LV);
  (R 0xb07d 0xb097, GCB_LVT);
  (R 0xb098 0xb098, GCB_LV);
  (R 0xb099 0xb0b3, GCB_LVT);
  (R 0xb0b4 0xb0b4, GCB_LV);
  (R 0xb0b5 0xb0cf, GCB_LVT);
  (R 0xb0d0 0xb0d0, GCB_LV);
  (R 0xb0d1 0xb0eb, GCB_LVT);
  (R 0xb0ec 0xb0ec, GCB_LV);
  (R 0xb0ed 0xb107, GCB_LVT);
  (R 0xb108 0xb108, GCB_LV);
  (R 0xb109 0xb123, GCB_LVT);
  (R 0xb124 0xb124, GCB_LV);
  (R 0xb125 0xb13f, GCB_LVT);
  (R 0xb140 0xb140, GCB_LV);
  (R 0xb141 0xb15b, GCB_LVT);
  (R 0xb15c 0xb15c, GCB_LV);
  (R 0xb15d 0xb177, GCB_LVT);
  (R 0xb178 0xb178, GCB_LV);
  (R 0xb179 0xb193, GCB_LVT);
  (R 0xb194 0xb194, GCB_LV);
  (R 0xb195 0xb1af, GCB_LVT);
  (R 0xb1b0 0xb1b0, GCB_LV);
  (R 0xb1b1 0xb1cb, GCB_LVT);
  (R 0xb1cc 0xb1cc, GCB_LV);
  (R 0xb1cd 0xb1e7, GCB_LVT);
  (R 0xb1e8 0xb1e8, GCB_LV);
  (R 0xb1e9 0xb203, GCB_LVT);
  (R 0xb204 0xb204, GCB_LV);
  (R 0xb205 0xb21f, GCB_LVT);
  (R 0xb220 0xb220, GCB_LV);
  (R 0xb221 0xb23b, GCB_LVT);
  (R 0xb23c 0xb23c, GCB_LV);
  (R 0xb23d 0xb257, GCB_LVT);
  (R 0xb258 0xb258, GCB_LV);
  (R 0xb259 0xb273, GCB_LVT);
  (R 0xb274 0xb274, GCB_LV);
  (R 0xb275 0xb28f, GCB_LVT);
  (R 0xb290 0xb290, GCB_LV);
  (R 0xb291 0xb2ab, GCB_LVT);
  (R 0xb2ac 0xb2ac, GCB_LV);
  (R 0xb2ad 0xb2c7, GCB_LVT);
  (R 0xb2c8 0xb2c8, GCB_LV);
  (R 0xb2c9 0xb2e3, GCB_LVT);
  (R 0xb2e4 0xb2e4, GCB_LV);
  (R 0xb2e5 0xb2ff, GCB_LVT);
  (R 0xb300 0xb300, GCB_LV);
  (R 0xb301 0xb31b, GCB_LVT);
  (R 0xb31c 0xb31c, GCB_LV);
  (R 0xb31d 0xb337, GCB_LVT);
  (R 0xb338 0xb338, GCB_LV);
  (R 0xb339 0xb353, GCB_LVT);
  (R 0xb354 0xb354, GCB_LV);
  (R 0xb355 0xb36f, GCB_LVT);
  (R 0xb370 0xb370, GCB_LV);
  (R 0xb371 0xb38b, GCB_LVT);
  (R 0xb38c 0xb38c, GCB_LV);
  (R 0xb38d 0xb3a7, GCB_LVT);
  (R 0xb3a8 0xb3a8, GCB_LV);
  (R 0xb3a9 0xb3c3, GCB_LVT);
  (R 0xb3c4 0xb3c4, GCB_LV);
  (R 0xb3c5 0xb3df, GCB_LVT);
  (R 0xb3e0 0xb3e0, GCB_LV);
  (R 0xb3e1 0xb3fb, GCB_LVT);
  (R 0xb3fc 0xb3fc, GCB_LV);
  (R 0xb3fd 0xb417, GCB_LVT);
  (R 0xb418 0xb418, GCB_LV);
  (R 0xb419 0xb433, GCB_LVT);
  (R 0xb434 0xb434, GCB_LV);
  (R 0xb435 0xb44f, GCB_LVT);
  (R 0xb450 0xb450, GCB_LV);
  (R 0xb451 0xb46b, GCB_LVT);
  (R 0xb46c 0xb46c, GCB_LV);
  (R 0xb46d 0xb487, GCB_LVT);
  (R 0xb488 0xb488, GCB_LV);
  (R 0xb489 0xb4a3, GCB_LVT);
  (R 0xb4a4 0xb4a4, GCB_LV);
  (R 0xb4a5 0xb4bf, GCB_LVT);
  (R 0xb4c0 0xb4c0, GCB_LV);
  (R 0xb4c1 0xb4db, GCB_LVT);
  (R 0xb4dc 0xb4dc, GCB_LV);
  (R 0xb4dd 0xb4f7, GCB_LVT);
  (R 0xb4f8 0xb4f8, GCB_LV);
  (R 0xb4f9 0xb513, GCB_LVT);
  (R 0xb514 0xb514, GCB_LV);
  (R 0xb515 0xb52f, GCB_LVT);
  (R 0xb530 0xb530, GCB_LV);
  (R 0xb531 0xb54b, GCB_LVT);
  (R 0xb54c 0xb54c, GCB_LV);
  (R 0xb54d 0xb567, GCB_LVT);
  (R 0xb568 0xb568, GCB_LV);
  (R 0xb569 0xb583, GCB_LVT);
  (R 0xb584 0xb584, GCB_LV);
  (R 0xb585 0xb59f, GCB_LVT);
  (R 0xb5a0 0xb5a0, GCB_LV);
  (R 0xb5a1 0xb5bb, GCB_LVT);
  (R 0xb5bc 0xb5bc, GCB_LV);
  (R 0xb5bd 0xb5d7, GCB_LVT);
  (R 0xb5d8 0xb5d8, GCB_LV);
  (R 0xb5d9 0xb5f3, GCB_LVT);
  (R 0xb5f4 0xb5f4, GCB_LV);
  (R 0xb5f5 0xb60f, GCB_LVT);
  (R 0xb610 0xb610, GCB_LV);
  (R 0xb611 0xb62b, GCB_LVT);
  (R 0xb62c 0xb62c, GCB_LV);
  (R 0xb62d 0xb647, GCB_LVT);
  (R 0xb648 0xb648, GCB_LV);
  (R 0xb649 0xb663, GCB_LVT);
  (R 0xb664 0xb664, GCB_LV);
  (R 0xb665 0xb67f, GCB_LVT);
  (R 0xb680 0xb680, GCB_LV);
  (R 0xb681 0xb69b, GCB_LVT);
  (R 0xb69c 0xb69c, GCB_LV);
  (R 0xb69d 0xb6b7, GCB_LVT);
  (R 0xb6b8 0xb6b8, GCB_LV);
  (R 0xb6b9 0xb6d3, GCB_LVT);
  (R 0xb6d4 0xb6d4, GCB_LV);
  (R 0xb6d5 0xb6ef, GCB_LVT);
  (R 0xb6f0 0xb6f0, GCB_LV);
  (R 0xb6f1 0xb70b, GCB_LVT);
  (R 0xb70c 0xb70c, GCB_LV);
  (R 0xb70d 0xb727, GCB_LVT);
  (R 0xb728 0xb728, GCB_LV);
  (R 0xb729 0xb743, GCB_LVT);
  (R 0xb744 0xb744, GCB_LV);
  (R 0xb745 0xb75f, GCB_LVT);
  (R 0xb760 0xb760, GCB_LV);
  (R 0xb761 0xb77b, GCB_LVT);
  (R 0xb77c 0xb77c, GCB_LV);
  (R 0xb77d 0xb797, GCB_LVT);
  (R 0xb798 0xb798, GCB_LV);
  (R 0xb799 0xb7b3, GCB_LVT);
  (R 0xb7b4 0xb7b4, GCB_LV);
  (R 0xb7b5 0xb7cf, GCB_LVT);
  (R 0xb7d0 0xb7d0, GCB_LV);
  (R 0xb7d1 0xb7eb, GCB_LVT);
  (R 0xb7ec 0xb7ec, GCB_LV);
  (R 0xb7ed 0xb807, GCB_LVT);
  (R 0xb808 0xb808, GCB_LV);
  (R 0xb809 0xb823, GCB_LVT);
  (R 0xb824 0xb824, GCB_LV);
  (R 0xb825 0xb83f, GCB_LVT);
  (R 0xb840 0xb840, GCB_LV);
  (R 0xb841 0xb85b, GCB_LVT);
  (R 0xb85c 0xb85c, GCB_LV);
  (R 0xb85d 0xb877, GCB_LVT);
  (R 0xb878 0xb878, GCB_LV);
  (R 0xb879 0xb893, GCB_LVT);
  (R 0xb894 0xb894, GCB_LV);
  (R 0xb895 0xb8af, GCB_LVT);
  (R 0xb8b0 0xb8b0, GCB_LV);
  (R 0xb8b1 0xb8cb, GCB_LVT);
  (R 0xb8cc 0xb8cc, GCB_LV);
  (R 0xb8cd 0xb8e7, GCB_LVT);
  (R 0xb8e8 0xb8e8, GCB_LV);
  (R 0xb8e9 0xb903, GCB_LVT);
  (R 0xb904 0xb904, GCB_LV);
  (R 0xb905 0xb91f, GCB_LVT);
  (R 0xb920 0xb920, GCB_LV);
  (R 0xb921 0xb93b, GCB_LVT);
  (R 0xb93c 0xb93c, GCB_LV);
  (R 0xb93d 0xb957, GCB_LVT);
  (R 0xb958 0xb958, GCB_LV);
  (R 0xb959 0xb973, GCB_LVT);
  (R 0xb974 0xb974, GCB_LV);
  (R 0xb975 0xb98f, GCB_LVT);
  (R 0xb990 0xb990, GCB_LV);
  (R 0xb991 0xb9ab, GCB_LVT);
  (R 0xb9ac 0xb9ac, GCB_LV);
  (R 0xb9ad 0xb9c7, GCB_LVT);
  (R 0xb9c8 0xb9c8, GCB_LV);
  (R 0xb9c9 0xb9e3, GCB_LVT);
  (R 0xb9e4 0xb9e4, GCB_LV);
  (R 0xb9e5 0xb9ff, GCB_LVT);
  (R 0xba00 0xba00, GCB_LV);
  (R 0xba01 0xba1b, GCB_LVT);
  (R 0xba1c 0xba1c, GCB_LV);
  (R 0xba1d 0xba37, GCB_LVT);
  (R 0xba38 0xba38, GCB_LV);
  (R 0xba39 0xba53, GCB_LVT);
  (R 0xba54 0xba54, GCB_LV);
  (R 0xba55 0xba6f, GCB_LVT);
  (R 0xba70 0xba70, GCB_LV);
  (R 0xba71 0xba8b, GCB_LVT);
  (R 0xba8c 0xba8c, GCB_LV);
  (R 0xba8d 0xbaa7, GCB_LVT);
  (R 0xbaa8 0xbaa8, GCB_LV);
  (R 0xbaa9 0xbac3, GCB_LVT);
  (R 0xbac4 0xbac4, GCB_LV);
  (R 0xbac5 0xbadf, GCB_LVT);
  (R 0xbae0 0xbae0, GCB_LV);
  (R 0xbae1 0xbafb, GCB_LVT);
  (R 0xbafc 0xbafc, GCB_LV);
  (R 0xbafd 0xbb17, GCB_LVT);
  (R 0xbb18 0xbb18, GCB_LV);
  (R 0xbb19 0xbb33, GCB_LVT);
  (R 0xbb34 0xbb34, GCB_LV);
  (R 0xbb35 0xbb4f, GCB_LVT);
  (R 0xbb50 0xbb50, GCB_LV);
  (R 0xbb51 0xbb6b, GCB_LVT);
  (R 0xbb6c 0xbb6c, GCB_LV);
  (R 0xbb6d 0xbb87, GCB_LVT);
  (R 0xbb88 0xbb88, GCB_LV);
  (R 0xbb89 0xbba3, GCB_LVT);
  (R 0xbba4 0xbba4, GCB_LV);
  (R 0xbba5 0xbbbf, GCB_LVT);
  (R 0xbbc0 0xbbc0, GCB_LV);
  (R 0xbbc1 0xbbdb, GCB_LVT);
  (R 0xbbdc 0xbbdc, GCB_LV);
  (R 0xbbdd 0xbbf7, GCB_LVT);
  (R 0xbbf8 0xbbf8, GCB_LV);
  (R 0xbbf9 0xbc13, GCB_LVT);
  (R 0xbc14 0xbc14, GCB_LV);
  (R 0xbc15 0xbc2f, GCB_LVT);
  (R 0xbc30 0xbc30, GCB_LV);
  (R 0xbc31 0xbc4b, GCB_LVT);
  (R 0xbc4c 0xbc4c, GCB_LV);
  (R 0xbc4d 0xbc67, GCB_LVT);
  (R 0xbc68 0xbc68, GCB_LV);
  (R 0xbc69 0xbc83, GCB_LVT);
  (R 0xbc84 0xbc84, GCB_LV);
  (R 0xbc85 0xbc9f, GCB_LVT);
  (R 0xbca0 0xbca0, GCB_LV);
  (R 0xbca1 0xbcbb, GCB_LVT);
  (R 0xbcbc 0xbcbc, GCB_LV);
  (R 0xbcbd 0xbcd7, GCB_LVT);
  (R 0xbcd8 0xbcd8, GCB_LV);
  (R 0xbcd9 0xbcf3, GCB_LVT);
  (R 0xbcf4 0xbcf4, GCB_LV);
  (R 0xbcf5 0xbd0f, GCB_LVT);
  (R 0xbd10 0xbd10, GCB_LV);
  (R 0xbd11 0xbd2b, GCB_LVT);
  (R 0xbd2c 0xbd2c, GCB_LV);
  (R 0xbd2d 0xbd47, GCB_LVT);
  (R 0xbd48 0xbd48, GCB_LV);
  (R 0xbd49 0xbd63, GCB_LVT);
  (R 0xbd64 0xbd64, GCB_LV);
  (R 0xbd65 0xbd7f, GCB_LVT);
  (R 0xbd80 0xbd80, GCB_LV);
  (R 0xbd81 0xbd9b, GCB_LVT);
  (R 0xbd9c 0xbd9c, GCB_LV);
  (R 0xbd9d 0xbdb7, GCB_LVT);
  (R 0xbdb8 0xbdb8, GCB_LV);
  (R 0xbdb9 0xbdd3, GCB_LVT);
  (R 0xbdd4 0xbdd4, GCB_LV);
  (R 0xbdd5 0xbdef, GCB_LVT);
  (R 0xbdf0 0xbdf0, GCB_LV);
  (R 0xbdf1 0xbe0b, GCB_LVT);
  (R 0xbe0c 0xbe0c, GCB_LV);
  (R 0xbe0d 0xbe27, GCB_LVT);
  (R 0xbe28 0xbe28, GCB_LV);
  (R 0xbe29 0xbe43, GCB_LVT);
  (R 0xbe44 0xbe44, GCB_LV);
  (R 0xbe45 0xbe5f, GCB_LVT);
  (R 0xbe60 0xbe60, GCB_LV);
  (R 0xbe61 0xbe7b, GCB_LVT);
  (R 0xbe7c 0xbe7c, GCB_LV);
  (R 0xbe7d 0xbe97, GCB_LVT);
  (R 0xbe98 0xbe98, GCB_LV);
  (R 0xbe99 0xbeb3, GCB_LVT);
  (R 0xbeb4 0xbeb4, GCB_LV);
  (R 0xbeb5 0xbecf, GCB_LVT);
  (R 0xbed0 0xbed0, GCB_LV);
  (R 0xbed1 0xbeeb, GCB_LVT);
  (R 0xbeec 0xbeec, GCB_LV);
  (R 0xbeed 0xbf07, GCB_LVT);
  (R 0xbf08 0xbf08, GCB_LV);
  (R 0xbf09 0xbf23, GCB_LVT);
  (R 0xbf24 0xbf24, GCB_LV);
  (R 0xbf25 0xbf3f, GCB_LVT);
  (R 0xbf40 0xbf40, GCB_LV);
  (R 0xbf41 0xbf5b, GCB_LVT);
  (R 0xbf5c 0xbf5c, GCB_LV);
  (R 0xbf5d 0xbf77, GCB_LVT);
  (R 0xbf78 0xbf78, GCB_LV);
  (R 0xbf79 0xbf93, GCB_LVT);
  (R 0xbf94 0xbf94, GCB_LV);
  (R 0xbf95 0xbfaf, GCB_LVT);
  (R 0xbfb0 0xbfb0, GCB_LV);
  (R 0xbfb1 0xbfcb, GCB_LVT);
  (R 0xbfcc 0xbfcc, GCB_LV);
  (R 0xbfcd 0xbfe7, GCB_LVT);
  (R 0xbfe8 0xbfe8, GCB_LV);
  (R 0xbfe9 0xc003, GCB_LVT);
  (R 0xc004 0xc004, GCB_LV);
  (R 0xc005 0xc01f, GCB_LVT);
  (R 0xc020 0xc020, GCB_LV);
  (R 0xc021 0xc03b, GCB_LVT);
  (R 0xc03c 0xc03c, GCB_LV);
  (R 0xc03d 0xc057, GCB_LVT);
  (R 0xc058 0xc058, GCB_LV);
  (R 0xc059 0xc073, GCB_LVT);
  (R 0xc074 0xc074, GCB_LV);
  (R 0xc075 0xc08f, GCB_LVT);
  (R 0xc090 0xc090, GCB_LV);
  (R 0xc091 0xc0ab, GCB_LVT);
  (R 0xc0ac 0xc0ac, GCB_LV);
  (R 0xc0ad 0xc0c7, GCB_LVT);
  (R 0xc0c8 0xc0c8, GCB_LV);
  (R 0xc0c9 0xc0e3, GCB_LVT);
  (R 0xc0e4 0xc0e4, GCB_LV);
  (R 0xc0e5 0xc0ff, GCB_LVT);
  (R 0xc100 0xc100, GCB_LV);
  (R 0xc101 0xc11b, GCB_LVT);
  (R 0xc11c 0xc11c, GCB_LV);
  (R 0xc11d 0xc137, GCB_LVT);
  (R 0xc138 0xc138, GCB_LV);
  (R 0xc139 0xc153, GCB_LVT);
  (R 0xc154 0xc154, GCB_LV);
  (R 0xc155 0xc16f, GCB_LVT);
  (R 0xc170 0xc170, GCB_LV);
  (R 0xc171 0xc18b, GCB_LVT);
  (R 0xc18c 0xc18c, GCB_LV);
  (R 0xc18d 0xc1a7, GCB_LVT);
  (R 0xc1a8 0xc1a8, GCB_LV);
  (R 0xc1a9 0xc1c3, GCB_LVT);
  (R 0xc1c4 0xc1c4, GCB_LV);
  (R 0xc1c5 0xc1df, GCB_LVT);
  (R 0xc1e0 0xc1e0, GCB_LV);
  (R 0xc1e1 0xc1fb, GCB_LVT);
  (R 0xc1fc 0xc1fc, GCB_LV);
  (R 0xc1fd 0xc217, GCB_LVT);
  (R 0xc218 0xc218, GCB_LV);
  (R 0xc219 0xc233, GCB_LVT);
  (R 0xc234 0xc234, GCB_LV);
  (R 0xc235 0xc24f, GCB_LVT);
  (R 0xc250 0xc250, GCB_LV);
  (R 0xc251 0xc26b, GCB_LVT);
  (R 0xc26c 0xc26c, GCB_LV);
  (R 0xc26d 0xc287, GCB_LVT);
  (R 0xc288 0xc288, GCB_LV);
  (R 0xc289 0xc2a3, GCB_LVT);
  (R 0xc2a4 0xc2a4, GCB_LV);
  (R 0xc2a5 0xc2bf, GCB_LVT);
  (R 0xc2c0 0xc2c0, GCB_LV);
  (R 0xc2c1 0xc2db, GCB_LVT);
  (R 0xc2dc 0xc2dc, GCB_LV);
  (R 0xc2dd 0xc2f7, GCB_LVT);
  (R 0xc2f8 0xc2f8, GCB_LV);
  (R 0xc2f9 0xc313, GCB_LVT);
  (R 0xc314 0xc314, GCB_LV);
  (R 0xc315 0xc32f, GCB_LVT);
  (R 0xc330 0xc330, GCB_LV);
  (R 0xc331 0xc34b, GCB_LVT);
  (R 0xc34c 0xc34c, GCB_LV);
  (R 0xc34d 0xc367, GCB_LVT);
  (R 0xc368 0xc368, GCB_LV);
  (R 0xc369 0xc383, GCB_LVT);
  (R 0xc384 0xc384, GCB_LV);
  (R 0xc385 0xc39f, GCB_LVT);
  (R 0xc3a0 0xc3a0, GCB_LV);
  (R 0xc3a1 0xc3bb, GCB_LVT);
  (R 0xc3bc 0xc3bc, GCB_LV);
  (R 0xc3bd 0xc3d7, GCB_LVT);
  (R 0xc3d8 0xc3d8, GCB_LV);
  (R 0xc3d9 0xc3f3, GCB_LVT);
  (R 0xc3f4 0xc3f4, GCB_LV);
  (R 0xc3f5 0xc40f, GCB_LVT);
  (R 0xc410 0xc410, GCB_LV);
  (R 0xc411 0xc42b, GCB_LVT);
  (R 0xc42c 0xc42c, GCB_LV);
  (R 0xc42d 0xc447, GCB_LVT);
  (R 0xc448 0xc448, GCB_LV);
  (R 0xc449 0xc463, GCB_LVT);
  (R 0xc464 0xc464, GCB_LV);
  (R 0xc465 0xc47f, GCB_LVT);
  (R 0xc480 0xc480, GCB_LV);
  (R 0xc481 0xc49b, GCB_LVT);
  (R 0xc49c 0xc49c, GCB_LV);
  (R 0xc49d 0xc4b7, GCB_LVT);
  (R 0xc4b8 0xc4b8, GCB_LV);
  (R 0xc4b9 0xc4d3, GCB_LVT);
  (R 0xc4d4 0xc4d4, GCB_LV);
  (R 0xc4d5 0xc4ef, GCB_LVT);
  (R 0xc4f0 0xc4f0, GCB_LV);
  (R 0xc4f1 0xc50b, GCB_LVT);
  (R 0xc50c 0xc50c, GCB_LV);
  (R 0xc50d 0xc527, GCB_LVT);
  (R 0xc528 0xc528, GCB_LV);
  (R 0xc529 0xc543, GCB_LVT);
  (R 0xc544 0xc544, GCB_LV);
  (R 0xc545 0xc55f, GCB_LVT)].

Definition GRAPHEME_CLUSTER_BREAK_2 : list (CharRange * GraphemeClusterBreak) := [
  (R 0xc560 0xc560, GCB_LV);
  (R 0xc561 0xc57b, GCB_LVT);
  (R 0xc57c 0xc57c, GCB_LV);
  (R 0xc57d 0xc597, GCB_LVT);
  (R 0xc598 0xc598, GCB_LV);
  (R 0xc599 0xc5b3, GCB_LVT);
  (R 0xc5b4 0xc5b4, GCB_LV);
  (R 0xc5b5 0xc5cf, GCB_LVT);
  (R 0xc5d0 0xc5d0, GCB_LV);
  (R 0xc5d1 0xc5eb, GCB_LVT);
  (R 0xc5ec 0xc5ec, GCB_LV);
  (R 0xc5ed 0xc607, GCB_LVT);
  (R 0xc608 0xc608, GCB_LV);
  (R 0xc609 0xc623, GCB_LVT);
  (R 0xc624 0xc624, GCB_LV);
  (R 0xc625 0xc63f, GCB_LVT);
  (R 0xc640 0xc640, GCB_LV);
  (R 0xc641 0xc65b, GCB_LVT);
  (R 0xc65c 0xc65c, GCB_LV);
  (R 0xc65d 0xc677, GCB_LVT);
  (R 0xc678 0xc678, GCB_LV);
  (R 0xc679 0xc693, GCB_LVT);
  (R 0xc694 0xc694, GCB_LV);
  (R 0xc695 0xc6af, GCB_LVT);
  (R 0xc6b0 0xc6b0, GCB_LV);
  (R 0xc6b1 0xc6cb, GCB_LVT);
  (R 0xc6cc 0xc6cc, GCB_LV);
  (R 0xc6cd 0xc6e7, GCB_LVT);
  (R 0xc6e8 0xc6e8, GCB_LV);
  (R 0xc6e9 0xc703, GCB_LVT);
  (R 0xc704 0xc704, GCB_LV);
  (R 0xc705 0xc71f, GCB_LVT);
  (R 0xc720 0xc720, GCB_LV);
  (R 0xc721 0xc73b, GCB_LVT);
  (R 0xc73c 0xc73c, GCB_LV);
  (R 0xc73d 0xc757, GCB_LVT);
  (R 0xc758 0xc758, GCB_LV);
  (R 0xc759 0xc773, GCB_LVT);
  (R 0xc774 0xc774, GCB_LV);
  (R 0xc775 0xc78f, GCB_LVT);
  (R 0xc790 0xc790, GCB_LV);
  (R 0xc791 0xc7ab, GCB_LVT);
  (R 0xc7ac 0xc7ac, GCB_LV);
  (R 0xc7ad 0xc7c7, GCB_LVT);
  (R 0xc7c8 0xc7c8, GCB_LV);
  (R 0xc7c9 0xc7e3, GCB_LVT);
  (R 0xc7e4 0xc7e4, GCB_LV);
  (R 0xc7e5 0xc7ff, GCB_LVT);
  (R 0xc800 0xc800, GCB_LV);
  (R 0xc801 0xc81b, GCB_LVT);
  (R 0xc81c 0xc81c, GCB_LV);
  (R 0xc81d 0xc837, GCB_LVT);
  (R 0xc838 0xc838, GCB_LV);
  (R 0xc839 0xc853, GCB_LVT);
  (R 0xc854 0xc854, GCB_LV);
  (R 0xc855 0xc86f, GCB_LVT);
  (R 0xc870 0xc870, GCB_LV);
  (R 0xc871 0xc88b, GCB_LVT);
  (R 0xc88c 0xc88c, GCB_LV);
  (R 0xc88d 0xc8a7, GCB_LVT);
  (R 0xc8a8 0xc8a8, GCB_LV);
  (R 0xc8a9 0xc8c3, GCB_LVT);
  (R 0xc8c4 0xc8c4, GCB_LV);
  (R 0xc8c5 0xc8df, GCB_LVT);
  (R 0xc8e0 0xc8e0, GCB_LV);
  (R 0xc8e1 0xc8fb, GCB_LVT);
  (R 0xc8fc 0xc8fc, GCB_LV);
  (R 0xc8fd 0xc917, GCB_LVT);
  (R 0xc918 0xc918, GCB_LV);
  (R 0xc919 0xc933, GCB_LVT);
  (R 0xc934 0xc934, GCB_LV);
  (R 0xc935 0xc94f, GCB_LVT);
  (R 0xc950 0xc950, GCB_LV);
  (R 0xc951 0xc96b, GCB_LVT);
  (R 0xc96c 0xc96c, GCB_LV);
  (R 0xc96d 0xc987, GCB_LVT);
  (R 0xc988 0xc988, GCB_LV);
  (R 0xc989 0xc9a3, GCB_LVT);
  (R 0xc9a4 0xc9a4, GCB_LV);
  (R 0xc9a5 0xc9bf, GCB_LVT);
  (R 0xc9c0 0xc9c0, GCB_LV);
  (R 0xc9c1 0xc9db, GCB_LVT);
  (R 0xc9dc 0xc9dc, GCB_LV);
  (R 0xc9dd 0xc9f7, GCB_LVT);
  (R 0xc9f8 0xc9f8, GCB_LV);
  (R 0xc9f9 0xca13, GCB_LVT);
  (R 0xca14 0xca14, GCB_LV);
  (R 0xca15 0xca2f, GCB_LVT);
  (R 0xca30 0xca30, GCB_LV);
  (R 0xca31 0xca4b, GCB_LVT);
  (R 0xca4c 0xca4c, GCB_LV);
  (R 0xca4d 0xca67, GCB_LVT);
  (R 0xca68 0xca68, GCB_LV);
  (R 0xca69 0xca83, GCB_LVT);
  (R 0xca84 0xca84, GCB_LV);
  (R 0xca85 0xca9f, GCB_LVT);
  (R 0xcaa0 0xcaa0, GCB_LV);
  (R 0xcaa1 0xcabb, GCB_LVT);
  (R 0xcabc 0xcabc, GCB_LV);
  (R 0xcabd 0xcad7, GCB_LVT);
  (R 0xcad8 0xcad8, GCB_LV);
  (R 0xcad9 0xcaf3, GCB_LVT);
  (R 0xcaf4 0xcaf4, GCB_LV);
  (R 0xcaf5 0xcb0f, GCB_LVT);
  (R 0xcb10 0xcb10, GCB_LV);
  (R 0xcb11 0xcb2b, GCB_LVT);
  (R 0xcb2c 0xcb2c, GCB_LV);
  (R 0xcb2d 0xcb47, GCB_LVT);
  (R 0xcb48 0xcb48, GCB_LV);
  (R 0xcb49 0xcb63, GCB_LVT);
  (R 0xcb64 0xcb64, GCB_LV);
  (R 0xcb65 0xcb7f, GCB_LVT);
  (R 0xcb80 0xcb80, GCB_LV);
  (R 0xcb81 0xcb9b, GCB_LVT);
  (R 0xcb9c 0xcb9c, GCB_LV);
  (R 0xcb9d 0xcbb7, GCB_LVT);
  (R 0xcbb8 0xcbb8, GCB_LV);
  (R 0xcbb9 0xcbd3, GCB_LVT);
  (R 0xcbd4 0xcbd4, GCB_LV);
  (R 0xcbd5 0xcbef, GCB_LVT);
  (R 0xcbf0 0xcbf0, GCB_LV);
  (R 0xcbf1 0xcc0b, GCB_LVT);
  (R 0xcc0c 0xcc0c, GCB_LV);
  (R 0xcc0d 0xcc27, GCB_LVT);
  (R 0xcc28 0xcc28, GCB_LV);
  (R 0xcc29 0xcc43, GCB_LVT);
  (R 0xcc44 0xcc44, GCB_LV);
  (R 0xcc45 0xcc5f, GCB_LVT);
  (R 0xcc60 0xcc60, GCB_LV);
  (R 0xcc61 0xcc7b, GCB_LVT);
  (R 0xcc7c 0xcc7c, GCB_LV);
  (R 0xcc7d 0xcc97, GCB_LVT);
  (R 0xcc98 0xcc98, GCB_LV);
  (R 0xcc99 0xccb3, GCB_LVT);
  (R 0xccb4 0xccb4, GCB_LV);
  (R 0xccb5 0xcccf, GCB_LVT);
  (R 0xccd0 0xccd0, GCB_LV);
  (R 0xccd1 0xcceb, GCB_LVT);
  (R 0xccec 0xccec, GCB_LV);
  (R 0xcced 0xcd07, GCB_LVT);
  (R 0xcd08 0xcd08, GCB_LV);
  (R 0xcd09 0xcd23, GCB_LVT);
  (R 0xcd24 0xcd24, GCB_LV);
  (R 0xcd25 0xcd3f, GCB_LVT);
  (R 0xcd40 0xcd40, GCB_LV);
  (R 0xcd41 0xcd5b, GCB_LVT);
  (R 0xcd5c 0xcd5c, GCB_LV);
  (R 0xcd5d 0xcd77, GCB_LVT);
  (R 0xcd78 0xcd78, GCB_LV);
  (R 0xcd79 0xcd93, GCB_LVT);
  (R 0xcd94 0xcd94, GCB_LV);
  (R 0xcd95 0xcdaf, GCB_LVT);
  (R 0xcdb0 0xcdb0, GCB_LV);
  (R 0xcdb1 0xcdcb, GCB_LVT);
  (R 0xcdcc 0xcdcc, GCB_LV);
  (R 0xcdcd 0xcde7, GCB_LVT);
  (R 0xcde8 0xcde8, GCB_LV);
  (R 0xcde9 0xce03, GCB_LVT);
  (R 0xce04 0xce04, GCB_LV);
  (R 0xce05 0xce1f, GCB_LVT);
  (R 0xce20 0xce20, GCB_LV);
  (R 0xce21 0xce3b, GCB_LVT);
  (R 0xce3c 0xce3c, GCB_LV);
  (R 0xce3d 0xce57, GCB_LVT);
  (R 0xce58 0xce58, GCB_LV);
  (R 0xce59 0xce73, GCB_LVT);
  (R 0xce74 0xce74, GCB_LV);
  (R 0xce75 0xce8f, GCB_LVT);
  (R 0xce90 0xce90, GCB_LV);
  (R 0xce91 0xceab, GCB_LVT);
  (R 0xceac 0xceac, GCB_LV);
  (R 0xcead 0xcec7, GCB_LVT);
  (R 0xcec8 0xcec8, GCB_LV);
  (R 0xcec9 0xcee3, GCB_LVT);
  (R 0xcee4 0xcee4, GCB_LV);
  (R 0xcee5 0xceff, GCB_LVT);
  (R 0xcf00 0xcf00, GCB_LV);
  (R 0xcf01 0xcf1b, GCB_LVT);
  (R 0xcf1c 0xcf1c, GCB_LV);
  (R 0xcf1d 0xcf37, GCB_LVT);
  (R 0xcf38 0xcf38, GCB_LV);
  (R 0xcf39 0xcf53, GCB_LVT);
  (R 0xcf54 0xcf54, GCB_LV);
  (R 0xcf55 0xcf6f, GCB_LVT);
  (R 0xcf70 0xcf70, GCB_LV);
  (R 0xcf71 0xcf8b, GCB_LVT);
  (R 0xcf8c 0xcf8c, GCB_LV);
  (R 0xcf8d 0xcfa7, GCB_LVT);
  (R 0xcfa8 0xcfa8, GCB_LV);
  (R 0xcfa9 0xcfc3, GCB_LVT);
  (R 0xcfc4 0xcfc4, GCB_LV);
  (R 0xcfc5 0xcfdf, GCB_LVT);
  (R 0xcfe0 0xcfe0, GCB_LV);
  (R 0xcfe1 0xcffb, GCB_LVT);
  (R 0xcffc 0xcffc, GCB_LV);
  (R 0xcffd 0xd017, GCB_LVT);
  (R 0xd018 0xd018, GCB_LV);
  (R 0xd019 0xd033, GCB_LVT);
  (R 0xd034 0xd034, GCB_LV);
  (R 0xd035 0xd04f, GCB_LVT);
  (R 0xd050 0xd050, GCB_LV);
  (R 0xd051 0xd06b, GCB_LVT);
  (R 0xd06c 0xd06c, GCB_LV);
  (R 0xd06d 0xd087, GCB_LVT);
  (R 0xd088 0xd088, GCB_LV);
  (R 0xd089 0xd0a3, GCB_LVT);
  (R 0xd0a4 0xd0a4, GCB_LV);
  (R 0xd0a5 0xd0bf, GCB_LVT);
  (R 0xd0c0 0xd0c0, GCB_LV);
  (R 0xd0c1 0xd0db, GCB_LVT);
  (R 0xd0dc 0xd0dc, GCB_LV);
  (R 0xd0dd 0xd0f7, GCB_LVT);
  (R 0xd0f8 0xd0f8, GCB_LV);
  (R 0xd0f9 0xd113, GCB_LVT);
  (R 0xd114 0xd114, GCB_LV);
  (R 0xd115 0xd12f, GCB_LVT);
  (R 0xd130 0xd130, GCB_LV);
  (R 0xd131 0xd14b, GCB_LVT);
  (R 0xd14c 0xd14c, GCB_LV);
  (R 0xd14d 0xd167, GCB_LVT);
  (R 0xd168 0xd168, GCB_LV);
  (R 0xd169 0xd183, GCB_LVT);
  (R 0xd184 0xd184, GCB_LV);
  (R 0xd185 0xd19f, GCB_LVT);
  (R 0xd1a0 0xd1a0, GCB_LV);
  (R 0xd1a1 0xd1bb, GCB_LVT);
  (R 0xd1bc 0xd1bc, GCB_LV);
  (R 0xd1bd 0xd1d7, GCB_LVT);
  (R 0xd1d8 0xd1d8, GCB_LV);
  (R 0xd1d9 0xd1f3, GCB_LVT);
  (R 0xd1f4 0xd1f4, GCB_LV);
  (R 0xd1f5 0xd20f, GCB_LVT);
  (R 0xd210 0xd210, GCB_LV);
  (R 0xd211 0xd22b, GCB_LVT);
  (R 0xd22c 0xd22c, GCB_LV);
  (R 0xd22d 0xd247, GCB_LVT);
  (R 0xd248 0xd248, GCB_LV);
  (R 0xd249 0xd263, GCB_LVT);
  (R 0xd264 0xd264, GCB_LV);
  (R 0xd265 0xd27f, GCB_LVT);
  (R 0xd280 0xd280, GCB_LV);
  (R 0xd281 0xd29b, GCB_LVT);
  (R 0xd29c 0xd29c, GCB_LV);
  (R 0xd29d 0xd2b7, GCB_LVT);
  (R 0xd2b8 0xd2b8, GCB_LV);
  (R 0xd2b9 0xd2d3, GCB_LVT);
  (R 0xd2d4 0xd2d4, GCB_LV);
  (R 0xd2d5 0xd2ef, GCB_LVT);
  (R 0xd2f0 0xd2f0, GCB_LV);
  (R 0xd2f1 0xd30b, GCB_LVT);
  (R 0xd30c 0xd30c, GCB_LV);
  (R 0xd30d 0xd327, GCB_LVT);
  (R 0xd328 0xd328, GCB_LV);
  (R 0xd329 0xd343, GCB_LVT);
  (R 0xd344 0xd344, GCB_LV);
  (R 0xd345 0xd35f, GCB_LVT);
  (R 0xd360 0xd360, GCB_LV);
  (R 0xd361 0xd37b, GCB_LVT);
  (R 0xd37c 0xd37c, GCB_LV);
  (R 0xd37d 0xd397, GCB_LVT);
  (R 0xd398 0xd398, GCB_LV);
  (R 0xd399 0xd3b3, GCB_LVT);
  (R 0xd3b4 0xd3b4, GCB_LV);
  (R 0xd3b5 0xd3cf, GCB_LVT);
  (R 0xd3d0 0xd3d0, GCB_LV);
  (R 0xd3d1 0xd3eb, GCB_LVT);
  (R 0xd3ec 0xd3ec, GCB_LV);
  (R 0xd3ed 0xd407, GCB_LVT);
  (R 0xd408 0xd408, GCB_LV);
  (R 0xd409 0xd423, GCB_LVT);
  (R 0xd424 0xd424, GCB_LV);
  (R 0xd425 0xd43f, GCB_LVT);
  (R 0xd440 0xd440, GCB_LV);
  (R 0xd441 0xd45b, GCB_LVT);
  (R 0xd45c 0xd45c, GCB_LV);
  (R 0xd45d 0xd477, GCB_LVT);
  (R 0xd478 0xd478, GCB_LV);
  (R 0xd479 0xd493, GCB_LVT);
  (R 0xd494 0xd494, GCB_LV);
  (R 0xd495 0xd4af, GCB_LVT);
  (R 0xd4b0 0xd4b0, GCB_LV);
  (R 0xd4b1 0xd4cb, GCB_LVT);
  (R 0xd4cc 0xd4cc, GCB_LV);
  (R 0xd4cd 0xd4e7, GCB_LVT);
  (R 0xd4e8 0xd4e8, GCB_LV);
  (R 0xd4e9 0xd503, GCB_LVT);
  (R 0xd504 0xd504, GCB_LV);
  (R 0xd505 0xd51f, GCB_LVT);
  (R 0xd520 0xd520, GCB_LV);
  (R 0xd521 0xd53b, GCB_LVT);
  (R 0xd53c 0xd53c, GCB_LV);
  (R 0xd53d 0xd557, GCB_LVT);
  (R 0xd558 0xd558, GCB_LV);
  (R 0xd559 0xd573, GCB_LVT);
  (R 0xd574 0xd574, GCB_LV);
  (R 0xd575 0xd58f, GCB_LVT);
  (R 0xd590 0xd590, GCB_LV);
  (R 0xd591 0xd5ab, GCB_LVT);
  (R 0xd5ac 0xd5ac, GCB_LV);
  (R 0xd5ad 0xd5c7, GCB_LVT);
  (R 0xd5c8 0xd5c8, GCB_LV);
  (R 0xd5c9 0xd5e3, GCB_LVT);
  (R 0xd5e4 0xd5e4, GCB_LV);
  (R 0xd5e5 0xd5ff, GCB_LVT);
  (R 0xd600 0xd600, GCB_LV);
  (R 0xd601 0xd61b, GCB_LVT);
  (R 0xd61c 0xd61c, GCB_LV);
  (R 0xd61d 0xd637, GCB_LVT);
  (R 0xd638 0xd638, GCB_LV);
  (R 0xd639 0xd653, GCB_LVT);
  (R 0xd654 0xd654, GCB_LV);
  (R 0xd655 0xd66f, GCB_LVT);
  (R 0xd670 0xd670, GCB_LV);
  (R 0xd671 0xd68b, GCB_LVT);
  (R 0xd68c 0xd68c, GCB_LV);
  (R 0xd68d 0xd6a7, GCB_LVT);
  (R 0xd6a8 0xd6a8, GCB_LV);
  (R 0xd6a9 0xd6c3, GCB_LVT);
  (R 0xd6c4 0xd6c4, GCB_LV);
  (R 0xd6c5 0xd6df, GCB_LVT);
  (R 0xd6e0 0xd6e0, GCB_LV);
  (R 0xd6e1 0xd6fb, GCB_LVT);
  (R 0xd6fc 0xd6fc, GCB_LV);
  (R 0xd6fd 0xd717, GCB_LVT);
  (R 0xd718 0xd718, GCB_LV);
  (R 0xd719 0xd733, GCB_LVT);
  (R 0xd734 0xd734, GCB_LV);
  (R 0xd735 0xd74f, GCB_LVT);
  (R 0xd750 0xd750, GCB_LV);
  (R 0xd751 0xd76b, GCB_LVT);
  (R 0xd76c 0xd76c, GCB_LV);
  (R 0xd76d 0xd787, GCB_LVT);
  (R 0xd788 0xd788, GCB_LV);
  (R 0xd789 0xd7a3, GCB_LVT);
  (R 0xd7b0 0xd7c6, GCB_V);
  (R 0xd7cb 0xd7fb, GCB_T);
  (R 0xfb1e 0xfb1e, GCB_Extend);
  (R 0xfe00 0xfe0f, GCB_Extend);
  (R 0xfe20 0xfe2f, GCB_Extend);
  (R 0xfeff 0xfeff, GCB_Control);
  (R 0xff9e 0xff9f, GCB_Extend);
  (R 0xfff0 0xfffb, GCB_Control);
  (R 0x101fd 0x101fd, GCB_Extend);
  (R 0x102e0 0x102e0, GCB_Extend);
  (R 0x10376 0x1037a, GCB_Extend);
  (R 0x10a01 0x10a03, GCB_Extend);
  (R 0x10a05 0x10a06, GCB_Extend);
  (R 0x10a0c 0x10a0f, GCB_Extend);
  (R 0x10a38 0x10a3a, GCB_Extend);
  (R 0x10a3f 0x10a3f, GCB_Extend);
  (R 0x10ae5 0x10ae6, GCB_Extend);
  (R 0x11000 0x11000, GCB_SpacingMark);
  (R 0x11001 0x11001, GCB_Extend);
  (R 0x11002 0x11002, GCB_SpacingMark);
  (R 0x11038 0x11046, GCB_Extend);
  (R 0x1107f 0x11081, GCB_Extend);
  (R 0x11082 0x11082, GCB_SpacingMark);
  (R 0x110b0 0x110b2, GCB_SpacingMark);
  (R 0x110b3 0x110b6, GCB_Extend);
  (R 0x110b7 0x110b8, GCB_SpacingMark);
  (R 0x110b9 0x110ba, GCB_Extend);
  (R 0x110bd 0x110bd, GCB_Prepend);
  (R 0x11100 0x11102, GCB_Extend);
  (R 0x11127 0x1112b, GCB_Extend);
  (R 0x1112c 0x1112c, GCB_SpacingMark);
  (R 0x1112d 0x11134, GCB_Extend);
  (R 0x11173 0x11173, GCB_Extend);
  (R 0x11180 0x11181, GCB_Extend);
  (R 0x11182 0x11182, GCB_SpacingMark);
  (R 0x111b3 0x111b5, GCB_SpacingMark);
  (R 0x111b6 0x111be, GCB_Extend);
  (R 0x111bf 0x111c0, GCB_SpacingMark);
  (R 0x111c2 0x111c3, GCB_Prepend);
  (R 0x111ca 0x111cc, GCB_Extend);
  (R 0x1122c 0x1122e, GCB_SpacingMark);
  (R 0x1122f 0x11231, GCB_Extend);
  (R 0x11232 0x11233, GCB_SpacingMark);
  (R 0x11234 0x11234, GCB_Extend);
  (R 0x11235 0x11235, GCB_SpacingMark);
  (R 0x11236 0x11237, GCB_Extend);
  (R 0x1123e 0x1123e, GCB_Extend);
  (R 0x112df 0x112df, GCB_Extend);
  (R 0x112e0 0x112e2, GCB_SpacingMark);
  (R 0x112e3 0x112ea, GCB_Extend);
  (R 0x11300 0x11301, GCB_Extend);
  (R 0x11302 0x11303, GCB_SpacingMark);
  (R 0x1133c 0x1133c, GCB_Extend);
  (R 0x1133e 0x1133e, GCB_Extend);
  (R 0x1133f 0x1133f, GCB_SpacingMark);
  (R 0x11340 0x11340, GCB_Extend);
  (R 0x11341 0x11344, GCB_SpacingMark);
  (R 0x11347 0x11348, GCB_SpacingMark);
  (R 0x1134b 0x1134d, GCB_SpacingMark);
  (R 0x11357 0x11357, GCB_Extend);
  (R 0x11362 0x11363, GCB_SpacingMark);
  (R 0x11366 0x1136c, GCB_Extend);
  (R 0x11370 0x11374, GCB_Extend);
  (R 0x11435 0x11437, GCB_SpacingMark);
  (R 0x11438 0x1143f, GCB_Extend);
  (R 0x11440 0x11441, GCB_SpacingMark)].

Definition GRAPHEME_CLUSTER_BREAK_3 : list (CharRange * GraphemeClusterBreak) := [
  (R 0x11442 0x11444, GCB_Extend);
  (R 0x11445 0x11445, GCB_SpacingMark);
  (R 0x11446 0x11446, GCB_Extend);
  (R 0x114b0 0x114b0, GCB_Extend);
  (R 0x114b1 0x114b2, GCB_SpacingMark);
  (R 0x114b3 0x114b8, GCB_Extend);
  (R 0x114b9 0x114b9, GCB_SpacingMark);
  (R 0x114ba 0x114ba, GCB_Extend);
  (R 0x114bb 0x114bc, GCB_SpacingMark);
  (R 0x114bd 0x114bd, GCB_Extend);
  (R 0x114be 0x114be, GCB_SpacingMark);
  (R 0x114bf 0x114c0, GCB_Extend);
  (R 0x114c1 0x114c1, GCB_SpacingMark);
  (R 0x114c2 0x114c3, GCB_Extend);
  (R 0x115af 0x115af, GCB_Extend);
  (R 0x115b0 0x115b1, GCB_SpacingMark);
  (R 0x115b2 0x115b5, GCB_Extend);
  (R 0x115b8 0x115bb, GCB_SpacingMark);
  (R 0x115bc 0x115bd, GCB_Extend);
  (R 0x115be 0x115be, GCB_SpacingMark);
  (R 0x115bf 0x115c0, GCB_Extend);
  (R 0x115dc 0x115dd, GCB_Extend);
  (R 0x11630 0x11632, GCB_SpacingMark);
  (R 0x11633 0x1163a, GCB_Extend);
  (R 0x1163b 0x1163c, GCB_SpacingMark);
  (R 0x1163d 0x1163d, GCB_Extend);
  (R 0x1163e 0x1163e, GCB_SpacingMark);
  (R 0x1163f 0x11640, GCB_Extend);
  (R 0x116ab 0x116ab, GCB_Extend);
  (R 0x116ac 0x116ac, GCB_SpacingMark);
  (R 0x116ad 0x116ad, GCB_Extend);
  (R 0x116ae 0x116af, GCB_SpacingMark);
  (R 0x116b0 0x116b5, GCB_Extend);
  (R 0x116b6 0x116b6, GCB_SpacingMark);
  (R 0x116b7 0x116b7, GCB_Extend);
  (R 0x1171d 0x1171f, GCB_Extend);
  (R 0x11720 0x11721, GCB_SpacingMark);
  (R 0x11722 0x11725, GCB_Extend);
  (R 0x11726 0x11726, GCB_SpacingMark);
  (R 0x11727 0x1172b, GCB_Extend);
  (R 0x11a01 0x11a06, GCB_Extend);
  (R 0x11a07 0x11a08, GCB_SpacingMark);
  (R 0x11a09 0x11a0a, GCB_Extend);
  (R 0x11a33 0x11a38, GCB_Extend);
  (R 0x11a39 0x11a39, GCB_SpacingMark);
  (R 0x11a3a 0x11a3a, GCB_Prepend);
  (R 0x11a3b 0x11a3e, GCB_Extend);
  (R 0x11a47 0x11a47, GCB_Extend);
  (R 0x11a51 0x11a56, GCB_Extend);
  (R 0x11a57 0x11a58, GCB_SpacingMark);
  (R 0x11a59 0x11a5b, GCB_Extend);
  (R 0x11a86 0x11a89, GCB_Prepend);
  (R 0x11a8a 0x11a96, GCB_Extend);
  (R 0x11a97 0x11a97, GCB_SpacingMark);
  (R 0x11a98 0x11a99, GCB_Extend);
  (R 0x11c2f 0x11c2f, GCB_SpacingMark);
  (R 0x11c30 0x11c36, GCB_Extend);
  (R 0x11c38 0x11c3d, GCB_Extend);
  (R 0x11c3e 0x11c3e, GCB_SpacingMark);
  (R 0x11c3f 0x11c3f, GCB_Extend);
  (R 0x11c92 0x11ca7, GCB_Extend);
  (R 0x11ca9 0x11ca9, GCB_SpacingMark);
  (R 0x11caa 0x11cb0, GCB_Extend);
  (R 0x11cb1 0x11cb1, GCB_SpacingMark);
  (R 0x11cb2 0x11cb3, GCB_Extend);
  (R 0x11cb4 0x11cb4, GCB_SpacingMark);
  (R 0x11cb5 0x11cb6, GCB_Extend);
  (R 0x11d31 0x11d36, GCB_Extend);
  (R 0x11d3a 0x11d3a, GCB_Extend);
  (R 0x11d3c 0x11d3d, GCB_Extend);
  (R 0x11d3f 0x11d45, GCB_Extend);
  (R 0x11d46 0x11d46, GCB_Prepend);
  (R 0x11d47 0x11d47, GCB_Extend);
  (R 0x16af0 0x16af4, GCB_Extend);
  (R 0x16b30 0x16b36, GCB_Extend);
  (R 0x16f51 0x16f7e, GCB_SpacingMark);
  (R 0x16f8f 0x16f92, GCB_Extend);
  (R 0x1bc9d 0x1bc9e, GCB_Extend);
  (R 0x1bca0 0x1bca3, GCB_Control);
  (R 0x1d165 0x1d165, GCB_Extend);
  (R 0x1d166 0x1d166, GCB_SpacingMark);
  (R 0x1d167 0x1d169, GCB_Extend);
  (R 0x1d16d 0x1d16d, GCB_SpacingMark);
  (R 0x1d16e 0x1d172, GCB_Extend);
  (R 0x1d173 0x1d17a, GCB_Control);
  (R 0x1d17b 0x1d182, GCB_Extend);
  (R 0x1d185 0x1d18b, GCB_Extend);
  (R 0x1d1aa 0x1d1ad, GCB_Extend);
  (R 0x1d242 0x1d244, GCB_Extend);
  (R 0x1da00 0x1da36, GCB_Extend);
  (R 0x1da3b 0x1da6c, GCB_Extend);
  (R 0x1da75 0x1da75, GCB_Extend);
  (R 0x1da84 0x1da84, GCB_Extend);
  (R 0x1da9b 0x1da9f, GCB_Extend);
  (R 0x1daa1 0x1daaf, GCB_Extend);
  (R 0x1e000 0x1e006, GCB_Extend);
  (R 0x1e008 0x1e018, GCB_Extend);
  (R 0x1e01b 0x1e021, GCB_Extend);
  (R 0x1e023 0x1e024, GCB_Extend);
  (R 0x1e026 0x1e02a, GCB_Extend);
  (R 0x1e8d0 0x1e8d6, GCB_Extend);
  (R 0x1e944 0x1e94a, GCB_Extend);
  (R 0x1f1e6 0x1f1ff, GCB_RegionalIndicator);
  (R 0x1f308 0x1f308, GCB_GlueAfterZwj);
  (R 0x1f33e 0x1f33e, GCB_GlueAfterZwj);
  (R 0x1f373 0x1f373, GCB_GlueAfterZwj);
  (R 0x1f385 0x1f385, GCB_EBase);
  (R 0x1f393 0x1f393, GCB_GlueAfterZwj);
  (R 0x1f3a4 0x1f3a4, GCB_GlueAfterZwj);
  (R 0x1f3a8 0x1f3a8, GCB_GlueAfterZwj);
  (R 0x1f3c2 0x1f3c4, GCB_EBase);
  (R 0x1f3c7 0x1f3c7, GCB_EBase);
  (R 0x1f3ca 0x1f3cc, GCB_EBase);
  (R 0x1f3eb 0x1f3eb, GCB_GlueAfterZwj);
  (R 0x1f3ed 0x1f3ed, GCB_GlueAfterZwj);
  (R 0x1f3fb 0x1f3ff, GCB_EModifier);
  (R 0x1f442 0x1f443, GCB_EBase);
  (R 0x1f446 0x1f450, GCB_EBase);
  (R 0x1f466 0x1f469, GCB_EBaseGAZ);
  (R 0x1f46e 0x1f46e, GCB_EBase);
  (R 0x1f470 0x1f478, GCB_EBase);
  (R 0x1f47c 0x1f47c, GCB_EBase);
  (R 0x1f481 0x1f483, GCB_EBase);
  (R 0x1f485 0x1f487, GCB_EBase);
  (R 0x1f48b 0x1f48b, GCB_GlueAfterZwj);
  (R 0x1f4aa 0x1f4aa, GCB_EBase);
  (R 0x1f4bb 0x1f4bc, GCB_GlueAfterZwj);
  (R 0x1f527 0x1f527, GCB_GlueAfterZwj);
  (R 0x1f52c 0x1f52c, GCB_GlueAfterZwj);
  (R 0x1f574 0x1f575, GCB_EBase);
  (R 0x1f57a 0x1f57a, GCB_EBase);
  (R 0x1f590 0x1f590, GCB_EBase);
  (R 0x1f595 0x1f596, GCB_EBase);
  (R 0x1f5e8 0x1f5e8, GCB_GlueAfterZwj);
  (R 0x1f645 0x1f647, GCB_EBase);
  (R 0x1f64b 0x1f64f, GCB_EBase);
  (R 0x1f680 0x1f680, GCB_GlueAfterZwj);
  (R 0x1f692 0x1f692, GCB_GlueAfterZwj);
  (R 0x1f6a3 0x1f6a3, GCB_EBase);
  (R 0x1f6b4 0x1f6b6, GCB_EBase);
  (R 0x1f6c0 0x1f6c0, GCB_EBase);
  (R 0x1f6cc 0x1f6cc, GCB_EBase);
  (R 0x1f918 0x1f91c, GCB_EBase);
  (R 0x1f91e 0x1f91f, GCB_EBase);
  (R 0x1f926 0x1f926, GCB_EBase);
  (R 0x1f930 0x1f939, GCB_EBase);
  (R 0x1f93d 0x1f93e, GCB_EBase);
  (R 0x1f9d1 0x1f9dd, GCB_EBase);
  (R 0xe0000 0xe001f, GCB_Control);
  (R 0xe0020 0xe007f, GCB_Extend);
  (R 0xe0080 0xe00ff, GCB_Control);
  (R 0xe0100 0xe01ef, GCB_Extend);
  (R 0xe01f0 0xe0fff, GCB_Control)].

Definition GRAPHEME_CLUSTER_BREAK : CharDataTable GraphemeClusterBreak :=
  Range (GRAPHEME_CLUSTER_BREAK_0 ++ GRAPHEME_CLUSTER_BREAK_1 ++ GRAPHEME_CLUSTER_BREAK_2 ++ GRAPHEME_CLUSTER_BREAK_3).

(** unic/ucd/segment/tables/word_break.rsv:1-965 (961 entries) *)
Definition WORD_BREAK_0 : list (CharRange * WordBreak) := [
  (R 0xa 0xa, WB_LF);
  (R 0xb 0xc, WB_Newline);
  (R 0xd 0xd, WB_CR);
  (R 0x22 0x22, WB_DoubleQuote);
  (R 0x27 0x27, WB_SingleQuote);
  (R 0x2c 0x2c, WB_MidNum);
  (R 0x2e 0x2e, WB_MidNumLet);
  (R 0x30 0x39, WB_Numeric);
  (R 0x3a 0x3a, WB_MidLetter);
  (R 0x3b 0x3b, WB_MidNum);
  (R 0x41 0x5a, WB_ALetter);
  (R 0x5f 0x5f, WB_ExtendNumLet);
  (R 0x61 0x7a, WB_ALetter);
  (R 0x85 0x85, WB_Newline);
  (R 0xaa 0xaa, WB_ALetter);
  (R 0xad 0xad, WB_Format);
  (R 0xb5 0xb5, WB_ALetter);
  (R 0xb7 0xb7, WB_MidLetter);
  (R 0xba 0xba, WB_ALetter);
  (R 0xc0 0xd6, WB_ALetter);
  (R 0xd8 0xf6, WB_ALetter);
  (R 0xf8 0x2d7, WB_ALetter);
  (R 0x2de 0x2e4, WB_ALetter);
  (R 0x2ec 0x2ff, WB_ALetter);
  (R 0x300 0x36f, WB_Extend);
  (R 0x370 0x374, WB_ALetter);
  (R 0x376 0x377, WB_ALetter);
  (R 0x37a 0x37d, WB_ALetter);
  (R 0x37e 0x37e, WB_MidNum);
  (R 0x37f 0x37f, WB_ALetter);
  (R 0x386 0x386, WB_ALetter);
  (R 0x387 0x387, WB_MidLetter);
  (R 0x388 0x38a, WB_ALetter);
  (R 0x38c 0x38c, WB_ALetter);
  (R 0x38e 0x3a1, WB_ALetter);
  (R 0x3a3 0x3f5, WB_ALetter);
  (R 0x3f7 0x481, WB_ALetter);
  (R 0x483 0x489, WB_Extend);
  (R 0x48a 0x52f, WB_ALetter);
  (R 0x531 0x556, WB_ALetter);
  (R 0x559 0x559, WB_ALetter);
  (R 0x561 0x587, WB_ALetter);
  (R 0x589 0x589, WB_MidNum);
  (R 0x591 0x5bd, WB_Extend);
  (R 0x5bf 0x5bf, WB_Extend);
  (R 0x5c1 0x5c2, WB_Extend);
  (R 0x5c4 0x5c5, WB_Extend);
  (R 0x5c7 0x5c7, WB_Extend);
  (R 0x5d0 0x5ea, WB_HebrewLetter);
  (R 0x5f0 0x5f2, WB_HebrewLetter);
  (R 0x5f3 0x5f3, WB_ALetter);
  (R 0x5f4 0x5f4, WB_MidLetter);
  (R 0x600 0x605, WB_Format);
  (R 0x60c 0x60d, WB_MidNum);
  (R 0x610 0x61a, WB_Extend);
  (R 0x61c 0x61c, WB_Format);
  (R 0x620 0x64a, WB_ALetter);
  (R 0x64b 0x65f, WB_Extend);
  (R 0x660 0x669, WB_Numeric);
  (R 0x66b 0x66b, WB_Numeric);
  (R 0x66c 0x66c, WB_MidNum);
  (R 0x66e 0x66f, WB_ALetter);
  (R 0x670 0x670, WB_Extend);
  (R 0x671 0x6d3, WB_ALetter);
  (R 0x6d5 0x6d5, WB_ALetter);
  (R 0x6d6 0x6dc, WB_Extend);
  (R 0x6dd 0x6dd, WB_Format);
  (R 0x6df 0x6e4, WB_Extend);
  (R 0x6e5 0x6e6, WB_ALetter);
  (R 0x6e7 0x6e8, WB_Extend);
  (R 0x6ea 0x6ed, WB_Extend);
  (R 0x6ee 0x6ef, WB_ALetter);
  (R 0x6f0 0x6f9, WB_Numeric);
  (R 0x6fa 0x6fc, WB_ALetter);
  (R 0x6ff 0x6ff, WB_ALetter);
  (R 0x70f 0x70f, WB_Format);
  (R 0x710 0x710, WB_ALetter);
  (R 0x711 0x711, WB_Extend);
  (R 0x712 0x72f, WB_ALetter);
  (R 0x730 0x74a, WB_Extend);
  (R 0x74d 0x7a5, WB_ALetter);
  (R 0x7a6 0x7b0, WB_Extend);
  (R 0x7b1 0x7b1, WB_ALetter);
  (R 0x7c0 0x7c9, WB_Numeric);
  (R 0x7ca 0x7ea, WB_ALetter);
  (R 0x7eb 0x7f3, WB_Extend);
  (R 0x7f4 0x7f5, WB_ALetter);
  (R 0x7f8 0x7f8, WB_MidNum);
  (R 0x7fa 0x7fa, WB_ALetter);
  (R 0x800 0x815, WB_ALetter);
  (R 0x816 0x819, WB_Extend);
  (R 0x81a 0x81a, WB_ALetter);
  (R 0x81b 0x823, WB_Extend);
  (R 0x824 0x824, WB_ALetter);
  (R 0x825 0x827, WB_Extend);
  (R 0x828 0x828, WB_ALetter);
  (R 0x829 0x82d, WB_Extend);
  (R 0x840 0x858, WB_ALetter);
  (R 0x859 0x85b, WB_Extend);
  (R 0x860 0x86a, WB_ALetter);
  (R 0x8a0 0x8b4, WB_ALetter);
  (R 0x8b6 0x8bd, WB_ALetter);
  (R 0x8d4 0x8e1, WB_Extend);
  (R 0x8e2 0x8e2, WB_Format);
  (R 0x8e3 0x903, WB_Extend);
  (R 0x904 0x939, WB_ALetter);
  (R 0x93a 0x93c, WB_Extend);
  (R 0x93d 0x93d, WB_ALetter);
  (R 0x93e 0x94f, WB_Extend);
  (R 0x950 0x950, WB_ALetter);
  (R 0x951 0x957, WB_Extend);
  (R 0x958 0x961, WB_ALetter);
  (R 0x962 0x963, WB_Extend);
  (R 0x966 0x96f, WB_Numeric);
  (R 0x971 0x980, WB_ALetter);
  (R 0x981 0x983, WB_Extend);
  (R 0x985 0x98c, WB_ALetter);
  (R 0x98f 0x990, WB_ALetter);
  (R 0x993 0x9a8, WB_ALetter);
  (R 0x9aa 0x9b0, WB_ALetter);
  (R 0x9b2 0x9b2, WB_ALetter);
  (R 0x9b6 0x9b9, WB_ALetter);
  (R 0x9bc 0x9bc, WB_Extend);
  (R 0x9bd 0x9bd, WB_ALetter);
  (R 0x9be 0x9c4, WB_Extend);
  (R 0x9c7 0x9c8, WB_Extend);
  (R 0x9cb 0x9cd, WB_Extend);
  (R 0x9ce 0x9ce, WB_ALetter);
  (R 0x9d7 0x9d7, WB_Extend);
  (R 0x9dc 0x9dd, WB_ALetter);
  (R 0x9df 0x9e1, WB_ALetter);
  (R 0x9e2 0x9e3, WB_Extend);
  (R 0x9e6 0x9ef, WB_Numeric);
  (R 0x9f0 0x9f1, WB_ALetter);
  (R 0x9fc 0x9fc, WB_ALetter);
  (R 0xa01 0xa03, WB_Extend);
  (R 0xa05 0xa0a, WB_ALetter);
  (R 0xa0f 0xa10, WB_ALetter);
  (R 0xa13 0xa28, WB_ALetter);
  (R 0xa2a 0xa30, WB_ALetter);
  (R 0xa32 0xa33, WB_ALetter);
  (R 0xa35 0xa36, WB_ALetter);
  (R 0xa38 0xa39, WB_ALetter);
  (R 0xa3c 0xa3c, WB_Extend);
  (R 0xa3e 0xa42, WB_Extend);
  (R 0xa47 0xa48, WB_Extend);
  (R 0xa4b 0xa4d, WB_Extend);
  (R 0xa51 0xa51, WB_Extend);
  (R 0xa59 0xa5c, WB_ALetter);
  (R 0xa5e 0xa5e, WB_ALetter);
  (R 0xa66 0xa6f, WB_Numeric);
  (R 0xa70 0xa71, WB_Extend);
  (R 0xa72 0xa74, WB_ALetter);
  (R 0xa75 0xa75, WB_Extend);
  (R 0xa81 0xa83, WB_Extend);
  (R 0xa85 0xa8d, WB_ALetter);
  (R 0xa8f 0xa91, WB_ALetter);
  (R 0xa93 0xaa8, WB_ALetter);
  (R 0xaaa 0xab0, WB_ALetter);
  (R 0xab2 0xab3, WB_ALetter);
  (R 0xab5 0xab9, WB_ALetter);
  (R 0xabc 0xabc, WB_Extend);
  (R 0xabd 0xabd, WB_ALetter);
  (R 0xabe 0xac5, WB_Extend);
  (R 0xac7 0xac9, WB_Extend);
  (R 0xacb 0xacd, WB_Extend);
  (R 0xad0 0xad0, WB_ALetter);
  (R 0xae0 0xae1, WB_ALetter);
  (R 0xae2 0xae3, WB_Extend);
  (R 0xae6 0xaef, WB_Numeric);
  (R 0xaf9 0xaf9, WB_ALetter);
  (R 0xafa 0xaff, WB_Extend);
  (R 0xb01 0xb03, WB_Extend);
  (R 0xb05 0xb0c, WB_ALetter);
  (R 0xb0f 0xb10, WB_ALetter);
  (R 0xb13 0xb28, WB_ALetter);
  (R 0xb2a 0xb30, WB_ALetter);
  (R 0xb32 0xb33, WB_ALetter);
  (R 0xb35 0xb39, WB_ALetter);
  (R 0xb3c 0xb3c, WB_Extend);
  (R 0xb3d 0xb3d, WB_ALetter);
  (R 0xb3e 0xb44, WB_Extend);
  (R 0xb47 0xb48, WB_Extend);
  (R 0xb4b 0xb4d, WB_Extend);
  (R 0xb56 0xb57, WB_Extend);
  (R 0xb5c 0xb5d, WB_ALetter);
  (R 0xb5f 0xb61, WB_ALetter);
  (R 0xb62 0xb63, WB_Extend);
  (R 0xb66 0xb6f, WB_Numeric);
  (R 0xb71 0xb71, WB_ALetter);
  (R 0xb82 0xb82, WB_Extend);
  (R 0xb83 0xb83, WB_ALetter);
  (R 0xb85 0xb8a, WB_ALetter);
  (R 0xb8e 0xb90, WB_ALetter);
  (R 0xb92 0xb95, WB_ALetter);
  (R 0xb99 0xb9a, WB_ALetter);
  (R 0xb9c 0xb9c, WB_ALetter);
  (R 0xb9e 0xb9f, WB_ALetter);
  (R 0xba3 0xba4, WB_ALetter);
  (R 0xba8 0xbaa, WB_ALetter);
  (R 0xbae 0xbb9, WB_ALetter);
  (R 0xbbe 0xbc2, WB_Extend);
  (R 0xbc6 0xbc8, WB_Extend);
  (R 0xbca 0xbcd, WB_Extend);
  (R 0xbd0 0xbd0, WB_ALetter);
  (R 0xbd7 0xbd7, WB_Extend);
  (R 0xbe6 0xbef, WB_Numeric);
  (R 0xc00 0xc03, WB_Extend);
  (R 0xc05 0xc0c, WB_ALetter);
  (R 0xc0e 0xc10, WB_ALetter);
  (R 0xc12 0xc28, WB_ALetter);
  (R 0xc2a 0xc39, WB_ALetter);
  (R 0xc3d 0xc3d, WB_ALetter);
  (R 0xc3e 0xc44, WB_Extend);
  (R 0xc46 0xc48, WB_Extend);
  (R 0xc4a 0xc4d, WB_Extend);
  (R 0xc55 0xc56, WB_Extend);
  (R 0xc58 0xc5a, WB_ALetter);
  (R 0xc60 0xc61, WB_ALetter);
  (R 0xc62 0xc63, WB_Extend);
  (R 0xc66 0xc6f, WB_Numeric);
  (R 0xc80 0xc80, WB_ALetter);
  (R 0xc81 0xc83, WB_Extend);
  (R 0xc85 0xc8c, WB_ALetter);
  (R 0xc8e 0xc90, WB_ALetter);
  (R 0xc92 0xca8, WB_ALetter);
  (R 0xcaa 0xcb3, WB_ALetter);
  (R 0xcb5 0xcb9, WB_ALetter);
  (R 0xcbc 0xcbc, WB_Extend);
  (R 0xcbd 0xcbd, WB_ALetter);
  (R 0xcbe 0xcc4, WB_Extend);
  (R 0xcc6 0xcc8, WB_Extend);
  (R 0xcca 0xccd, WB_Extend);
  (R 0xcd5 0xcd6, WB_Extend);
  (R 0xcde 0xcde, WB_ALetter);
  (R 0xce0 0xce1, WB_ALetter);
  (R 0xce2 0xce3, WB_Extend);
  (R 0xce6 0xcef, WB_Numeric);
  (R 0xcf1 0xcf2, WB_ALetter);
  (R 0xd00 0xd03, WB_Extend);
  (R 0xd05 0xd0c, WB_ALetter);
  (R 0xd0e 0xd10, WB_ALetter);
  (R 0xd12 0xd3a, WB_ALetter);
  (R 0xd3b 0xd3c, WB_Extend);
  (R 0xd3d 0xd3d, WB_ALetter);
  (R 0xd3e 0xd44, WB_Extend);
  (R 0xd46 0xd48, WB_Extend);
  (R 0xd4a 0xd4d, WB_Extend);
  (R 0xd4e 0xd4e, WB_ALetter);
  (R 0xd54 0xd56, WB_ALetter);
  (R 0xd57 0xd57, WB_Extend);
  (R 0xd5f 0xd61, WB_ALetter);
  (R 0xd62 0xd63, WB_Extend);
  (R 0xd66 0xd6f, WB_Numeric);
  (R 0xd7a 0xd7f, WB_ALetter);
  (R 0xd82 0xd83, WB_Extend);
  (R 0xd85 0xd96, WB_ALetter);
  (R 0xd9a 0xdb1, WB_ALetter);
  (R 0xdb3 0xdbb, WB_ALetter);
  (R 0xdbd 0xdbd, WB_ALetter);
  (R 0xdc0 0xdc6, WB_ALetter);
  (R 0xdca 0xdca, WB_Extend);
  (R 0xdcf 0xdd4, WB_Extend);
  (R 0xdd6 0xdd6, WB_Extend);
  (R 0xdd8 0xddf, WB_Extend);
  (R 0xde6 0xdef, WB_Numeric);
  (R 0xdf2 0xdf3, WB_Extend);
  (R 0xe31 0xe31, WB_Extend);
  (R 0xe34 0xe3a, WB_Extend);
  (R 0xe47 0xe4e, WB_Extend);
  (R 0xe50 0xe59, WB_Numeric);
  (R 0xeb1 0xeb1, WB_Extend);
  (R 0xeb4 0xeb9, WB_Extend);
  (R 0xebb 0xebc, WB_Extend);
  (R 0xec8 0xecd, WB_Extend);
  (R 0xed0 0xed9, WB_Numeric);
  (R 0xf00 0xf00, WB_ALetter);
  (R 0xf18 0xf19, WB_Extend);
  (R 0xf20 0xf29, WB_Numeric);
  (R 0xf35 0xf35, WB_Extend);
  (R 0xf37 0xf37, WB_Extend);
  (R 0xf39 0xf39, WB_Extend);
  (R 0xf3e 0xf3f, WB_Extend);
  (R 0xf40 0xf47, WB_ALetter);
  (R 0xf49 0xf6c, WB_ALetter);
  (R 0xf71 0xf84, WB_Extend);
  (R 0xf86 0xf87, WB_Extend);
  (R 0xf88 0xf8c, WB_ALetter);
  (R 0xf8d 0xf97, WB_Extend);
  (R 0xf99 0xfbc, WB_Extend);
  (R 0xfc6 0xfc6, WB_Extend);
  (R 0x102b 0x103e, WB_Extend);
  (R 0x1040 0x1049, WB_Numeric);
  (R 0x1056 0x1059, WB_Extend);
  (R 0x105e 0x1060, WB_Extend);
  (R 0x1062 0x1064, WB_Extend);
  (R 0x1067 0x106d, WB_Extend);
  (R 0x1071 0x1074, WB_Extend);
  (R 0x1082 0x108d, WB_Extend);
  (R 0x108f 0x108f, WB_Extend);
  (R 0x1090 0x1099, WB_Numeric);
  (R 0x109a 0x109d, WB_Extend);
  (R 0x10a0 0x10c5, WB_ALetter);
  (R 0x10c7 0x10c7, WB_ALetter);
  (R 0x10cd 0x10cd, WB_ALetter);
  (R 0x10d0 0x10fa, WB_ALetter);
  (R 0x10fc 0x1248, WB_ALetter);
  (R 0x124a 0x124d, WB_ALetter);
  (R 0x1250 0x1256, WB_ALetter);
  (R 0x1258 0x1258, WB_ALetter);
  (R 0x125a 0x125d, WB_ALetter);
  (R 0x1260 0x1288, WB_ALetter);
  (R 0x128a 0x128d, WB_ALetter);
  (R 0x1290 0x12b0, WB_ALetter);
  (R 0x12b2 0x12b5, WB_ALetter);
  (R 0x12b8 0x12be, WB_ALetter);
  (R 0x12c0 0x12c0, WB_ALetter);
  (R 0x12c2 0x12c5, WB_ALetter);
  (R 0x12c8 0x12d6, WB_ALetter);
  (R 0x12d8 0x1310, WB_ALetter);
  (R 0x1312 0x1315, WB_ALetter);
  (R 0x1318 0x135a, WB_ALetter);
  (R 0x135d 0x135f, WB_Extend);
  (R 0x1380 0x138f, WB_ALetter);
  (R 0x13a0 0x13f5, WB_ALetter);
  (R 0x13f8 0x13fd, WB_ALetter);
  (R 0x1401 0x166c, WB_ALetter);
  (R 0x166f 0x167f, WB_ALetter);
  (R 0x1681 0x169a, WB_ALetter);
  (R 0x16a0 0x16ea, WB_ALetter);
  (R 0x16ee 0x16f8, WB_ALetter);
  (R 0x1700 0x170c, WB_ALetter);
  (R 0x170e 0x1711, WB_ALetter);
  (R 0x1712 0x1714, WB_Extend);
  (R 0x1720 0x1731, WB_ALetter);
  (R 0x1732 0x1734, WB_Extend);
  (R 0x1740 0x1751, WB_ALetter);
  (R 0x1752 0x1753, WB_Extend);
  (R 0x1760 0x176c, WB_ALetter);
  (R 0x176e 0x1770, WB_ALetter);
  (R 0x1772 0x1773, WB_Extend);
  (R 0x17b4 0x17d3, WB_Extend);
  (R 0x17dd 0x17dd, WB_Extend);
  (R 0x17e0 0x17e9, WB_Numeric);
  (R 0x180b 0x180d, WB_Extend);
  (R 0x180e 0x180e, WB_Format);
  (R 0x1810 0x1819, WB_Numeric);
  (R 0x1820 0x1877, WB_ALetter);
  (R 0x1880 0x1884, WB_ALetter);
  (R 0x1885 0x1886, WB_Extend);
  (R 0x1887 0x18a8, WB_ALetter);
  (R 0x18a9 0x18a9, WB_Extend);
  (R 0x18aa 0x18aa, WB_ALetter);
  (R 0x18b0 0x18f5, WB_ALetter);
  (R 0x1900 0x191e, WB_ALetter);
  (R 0x1920 0x192b, WB_Extend);
  (R 0x1930 0x193b, WB_Extend);
  (R 0x1946 0x194f, WB_Numeric);
  (R 0x19d0 0x19d9, WB_Numeric);
  (R 0x1a00 0x1a16, WB_ALetter);
  (R 0x1a17 0x1a1b, WB_Extend);
  (R 0x1a55 0x1a5e, WB_Extend);
  (R 0x1a60 0x1a7c, WB_Extend);
  (R 0x1a7f 0x1a7f, WB_Extend);
  (R 0x1a80 0x1a89, WB_Numeric);
  (R 0x1a90 0x1a99, WB_Numeric);
  (R 0x1ab0 0x1abe, WB_Extend);
  (R 0x1b00 0x1b04, WB_Extend);
  (R 0x1b05 0x1b33, WB_ALetter);
  (R 0x1b34 0x1b44, WB_Extend);
  (R 0x1b45 0x1b4b, WB_ALetter);
  (R 0x1b50 0x1b59, WB_Numeric);
  (R 0x1b6b 0x1b73, WB_Extend);
  (R 0x1b80 0x1b82, WB_Extend);
  (R 0x1b83 0x1ba0, WB_ALetter);
  (R 0x1ba1 0x1bad, WB_Extend);
  (R 0x1bae 0x1baf, WB_ALetter);
  (R 0x1bb0 0x1bb9, WB_Numeric);
  (R 0x1bba 0x1be5, WB_ALetter);
  (R 0x1be6 0x1bf3, WB_Extend);
  (R 0x1c00 0x1c23, WB_ALetter);
  (R 0x1c24 0x1c37, WB_Extend);
  (R 0x1c40 0x1c49, WB_Numeric);
  (R 0x1c4d 0x1c4f, WB_ALetter);
  (R 0x1c50 0x1c59, WB_Numeric);
  (R 0x1c5a 0x1c7d, WB_ALetter);
  (R 0x1c80 0x1c88, WB_ALetter);
  (R 0x1cd0 0x1cd2, WB_Extend);
  (R 0x1cd4 0x1ce8, WB_Extend);
  (R 0x1ce9 0x1cec, WB_ALetter);
  (R 0x1ced 0x1ced, WB_Extend);
  (R 0x1cee 0x1cf1, WB_ALetter);
  (R 0x1cf2 0x1cf4, WB_Extend);
  (R 0x1cf5 0x1cf6, WB_ALetter);
  (R 0x1cf7 0x1cf9, WB_Extend);
  (R 0x1d00 0x1dbf, WB_ALetter);
  (R 0x1dc0 0x1df9, WB_Extend);
  (R 0x1dfb 0x1dff, WB_Extend);
  (R 0x1e00 0x1f15, WB_ALetter);
  (R 0x1f18 0x1f1d, WB_ALetter)].

Definition WORD_BREAK_1 : list (CharRange * WordBreak) := [
  (R 0x1f20 0x1f45, WB_ALetter);
  (R 0x1f48 0x1f4d, WB_ALetter);
  (R 0x1f50 0x1f57, WB_ALetter);
  (R 0x1f59 0x1f59, WB_ALetter);
  (R 0x1f5b 0x1f5b, WB_ALetter);
  (R 0x1f5d 0x1f5d, WB_ALetter);
  (R 0x1f5f 0x1f7d, WB_ALetter);
  (R 0x1f80 0x1fb4, WB_ALetter);
  (R 0x1fb6 0x1fbc, WB_ALetter);
  (R 0x1fbe 0x1fbe, WB_ALetter);
  (R 0x1fc2 0x1fc4, WB_ALetter);
  (R 0x1fc6 0x1fcc, WB_ALetter);
  (R 0x1fd0 0x1fd3, WB_ALetter);
  (R 0x1fd6 0x1fdb, WB_ALetter);
  (R 0x1fe0 0x1fec, WB_ALetter);
  (R 0x1ff2 0x1ff4, WB_ALetter);
  (R 0x1ff6 0x1ffc, WB_ALetter);
  (R 0x200c 0x200c, WB_Extend);
  (R 0x200d 0x200d, WB_ZWJ);
  (R 0x200e 0x200f, WB_Format);
  (R 0x2018 0x2019, WB_MidNumLet);
  (R 0x2024 0x2024, WB_MidNumLet);
  (R 0x2027 0x2027, WB_MidLetter);
  (R 0x2028 0x2029, WB_Newline);
  (R 0x202a 0x202e, WB_Format);
  (R 0x202f 0x202f, WB_ExtendNumLet);
  (R 0x203f 0x2040, WB_ExtendNumLet);
  (R 0x2044 0x2044, WB_MidNum);
  (R 0x2054 0x2054, WB_ExtendNumLet);
  (R 0x2060 0x2064, WB_Format);
  (R 0x2066 0x206f, WB_Format);
  (R 0x2071 0x2071, WB_ALetter);
  (R 0x207f 0x207f, WB_ALetter);
  (R 0x2090 0x209c, WB_ALetter);
  (R 0x20d0 0x20f0, WB_Extend);
  (R 0x2102 0x2102, WB_ALetter);
  (R 0x2107 0x2107, WB_ALetter);
  (R 0x210a 0x2113, WB_ALetter);
  (R 0x2115 0x2115, WB_ALetter);
  (R 0x2119 0x211d, WB_ALetter);
  (R 0x2124 0x2124, WB_ALetter);
  (R 0x2126 0x2126, WB_ALetter);
  (R 0x2128 0x2128, WB_ALetter);
  (R 0x212a 0x212d, WB_ALetter);
  (R 0x212f 0x2139, WB_ALetter);
  (R 0x213c 0x213f, WB_ALetter);
  (R 0x2145 0x2149, WB_ALetter);
  (R 0x214e 0x214e, WB_ALetter);
  (R 0x2160 0x2188, WB_ALetter);
  (R 0x24b6 0x24e9, WB_ALetter);
  (R 0x261d 0x261d, WB_EBase);
  (R 0x2640 0x2640, WB_GlueAfterZwj);
  (R 0x2642 0x2642, WB_GlueAfterZwj);
  (R 0x2695 0x2696, WB_GlueAfterZwj);
  (R 0x26f9 0x26f9, WB_EBase);
  (R 0x2708 0x2708, WB_GlueAfterZwj);
  (R 0x270a 0x270d, WB_EBase);
  (R 0x2764 0x2764, WB_GlueAfterZwj);
  (R 0x2c00 0x2c2e, WB_ALetter);
  (R 0x2c30 0x2c5e, WB_ALetter);
  (R 0x2c60 0x2ce4, WB_ALetter);
  (R 0x2ceb 0x2cee, WB_ALetter);
  (R 0x2cef 0x2cf1, WB_Extend);
  (R 0x2cf2 0x2cf3, WB_ALetter);
  (R 0x2d00 0x2d25, WB_ALetter);
  (R 0x2d27 0x2d27, WB_ALetter);
  (R 0x2d2d 0x2d2d, WB_ALetter);
  (R 0x2d30 0x2d67, WB_ALetter);
  (R 0x2d6f 0x2d6f, WB_ALetter);
  (R 0x2d7f 0x2d7f, WB_Extend);
  (R 0x2d80 0x2d96, WB_ALetter);
  (R 0x2da0 0x2da6, WB_ALetter);
  (R 0x2da8 0x2dae, WB_ALetter);
  (R 0x2db0 0x2db6, WB_ALetter);
  (R 0x2db8 0x2dbe, WB_ALetter);
  (R 0x2dc0 0x2dc6, WB_ALetter);
  (R 0x2dc8 0x2dce, WB_ALetter);
  (R 0x2dd0 0x2dd6, WB_ALetter);
  (R 0x2dd8 0x2dde, WB_ALetter);
  (R 0x2de0 0x2dff, WB_Extend);
  (R 0x2e2f 0x2e2f, WB_ALetter);
  (R 0x3005 0x3005, WB_ALetter);
  (R 0x302a 0x302f, WB_Extend);
  (R 0x3031 0x3035, WB_Katakana);
  (R 0x303b 0x303c, WB_ALetter);
  (R 0x3099 0x309a, WB_Extend);
  (R 0x309b 0x309c, WB_Katakana);
  (R 0x30a0 0x30fa, WB_Katakana);
  (R 0x30fc 0x30ff, WB_Katakana);
  (R 0x3105 0x312e, WB_ALetter);
  (R 0x3131 0x318e, WB_ALetter);
  (R 0x31a0 0x31ba, WB_ALetter);
  (R 0x31f0 0x31ff, WB_Katakana);
  (R 0x32d0 0x32fe, WB_Katakana);
  (R 0x3300 0x3357, WB_Katakana);
  (R 0xa000 0xa48c, WB_ALetter);
  (R 0xa4d0 0xa4fd, WB_ALetter);
  (R 0xa500 0xa60c, WB_ALetter);
  (R 0xa610 0xa61f, WB_ALetter);
  (R 0xa620 0xa629, WB_Numeric);
  (R 0xa62a 0xa62b, WB_ALetter);
  (R 0xa640 0xa66e, WB_ALetter);
  (R 0xa66f 0xa672, WB_Extend);
  (R 0xa674 0xa67d, WB_Extend);
  (R 0xa67f 0xa69d, WB_ALetter);
  (R 0xa69e 0xa69f, WB_Extend);
  (R 0xa6a0 0xa6ef, WB_ALetter);
  (R 0xa6f0 0xa6f1, WB_Extend);
  (R 0xa717 0xa7ae, WB_ALetter);
  (R 0xa7b0 0xa7b7, WB_ALetter);
  (R 0xa7f7 0xa801, WB_ALetter);
  (R 0xa802 0xa802, WB_Extend);
  (R 0xa803 0xa805, WB_ALetter);
  (R 0xa806 0xa806, WB_Extend);
  (R 0xa807 0xa80a, WB_ALetter);
  (R 0xa80b 0xa80b, WB_Extend);
  (R 0xa80c 0xa822, WB_ALetter);
  (R 0xa823 0xa827, WB_Extend);
  (R 0xa840 0xa873, WB_ALetter);
  (R 0xa880 0xa881, WB_Extend);
  (R 0xa882 0xa8b3, WB_ALetter);
  (R 0xa8b4 0xa8c5, WB_Extend);
  (R 0xa8d0 0xa8d9, WB_Numeric);
  (R 0xa8e0 0xa8f1, WB_Extend);
  (R 0xa8f2 0xa8f7, WB_ALetter);
  (R 0xa8fb 0xa8fb, WB_ALetter);
  (R 0xa8fd 0xa8fd, WB_ALetter);
  (R 0xa900 0xa909, WB_Numeric);
  (R 0xa90a 0xa925, WB_ALetter);
  (R 0xa926 0xa92d, WB_Extend);
  (R 0xa930 0xa946, WB_ALetter);
  (R 0xa947 0xa953, WB_Extend);
  (R 0xa960 0xa97c, WB_ALetter);
  (R 0xa980 0xa983, WB_Extend);
  (R 0xa984 0xa9b2, WB_ALetter);
  (R 0xa9b3 0xa9c0, WB_Extend);
  (R 0xa9cf 0xa9cf, WB_ALetter);
  (R 0xa9d0 0xa9d9, WB_Numeric);
  (R 0xa9e5 0xa9e5, WB_Extend);
  (R 0xa9f0 0xa9f9, WB_Numeric);
  (R 0xaa00 0xaa28, WB_ALetter);
  (R 0xaa29 0xaa36, WB_Extend);
  (R 0xaa40 0xaa42, WB_ALetter);
  (R 0xaa43 0xaa43, WB_Extend);
  (R 0xaa44 0xaa4b, WB_ALetter);
  (R 0xaa4c 0xaa4d, WB_Extend);
  (R 0xaa50 0xaa59, WB_Numeric);
  (R 0xaa7b 0xaa7d, WB_Extend);
  (R 0xaab0 0xaab0, WB_Extend);
  (R 0xaab2 0xaab4, WB_Extend);
  (R 0xaab7 0xaab8, WB_Extend);
  (R 0xaabe 0xaabf, WB_Extend);
  (R 0xaac1 0xaac1, WB_Extend);
  (R 0xaae0 0xaaea, WB_ALetter);
  (R 0xaaeb 0xaaef, WB_Extend);
  (R 0xaaf2 0xaaf4, WB_ALetter);
  (R 0xaaf5 0xaaf6, WB_Extend);
  (R 0xab01 0xab06, WB_ALetter);
  (R 0xab09 0xab0e, WB_ALetter);
  (R 0xab11 0xab16, WB_ALetter);
  (R 0xab20 0xab26, WB_ALetter);
  (R 0xab28 0xab2e, WB_ALetter);
  (R 0xab30 0xab65, WB_ALetter);
  (R 0xab70 0xabe2, WB_ALetter);
  (R 0xabe3 0xabea, WB_Extend);
  (R 0xabec 0xabed, WB_Extend);
  (R 0xabf0 0xabf9, WB_Numeric);
  (R 0xac00 0xd7a3, WB_ALetter);
  (R 0xd7b0 0xd7c6, WB_ALetter);
  (R 0xd7cb 0xd7fb, WB_ALetter);
  (R 0xfb00 0xfb06, WB_ALetter);
  (R 0xfb13 0xfb17, WB_ALetter);
  (R 0xfb1d 0xfb1d, WB_HebrewLetter);
  (R 0xfb1e 0xfb1e, WB_Extend);
  (R 0xfb1f 0xfb28, WB_HebrewLetter);
  (R 0xfb2a 0xfb36, WB_HebrewLetter);
  (R 0xfb38 0xfb3c, WB_HebrewLetter);
  (R 0xfb3e 0xfb3e, WB_HebrewLetter);
  (R 0xfb40 0xfb41, WB_HebrewLetter);
  (R 0xfb43 0xfb44, WB_HebrewLetter);
  (R 0xfb46 0xfb4f, WB_HebrewLetter);
  (R 0xfb50 0xfbb1, WB_ALetter);
  (R 0xfbd3 0xfd3d, WB_ALetter);
  (R 0xfd50 0xfd8f, WB_ALetter);
  (R 0xfd92 0xfdc7, WB_ALetter);
  (R 0xfdf0 0xfdfb, WB_ALetter);
  (R 0xfe00 0xfe0f, WB_Extend);
  (R 0xfe10 0xfe10, WB_MidNum);
  (R 0xfe13 0xfe13, WB_MidLetter);
  (R 0xfe14 0xfe14, WB_MidNum);
  (R 0xfe20 0xfe2f, WB_Extend);
  (R 0xfe33 0xfe34, WB_ExtendNumLet);
  (R 0xfe4d 0xfe4f, WB_ExtendNumLet);
  (R 0xfe50 0xfe50, WB_MidNum);
  (R 0xfe52 0xfe52, WB_MidNumLet);
  (R 0xfe54 0xfe54, WB_MidNum);
  (R 0xfe55 0xfe55, WB_MidLetter);
  (R 0xfe70 0xfe74, WB_ALetter);
  (R 0xfe76 0xfefc, WB_ALetter);
  (R 0xfeff 0xfeff, WB_Format);
  (R 0xff07 0xff07, WB_MidNumLet);
  (R 0xff0c 0xff0c, WB_MidNum);
  (R 0xff0e 0xff0e, WB_MidNumLet);
  (R 0xff1a 0xff1a, WB_MidLetter);
  (R 0xff1b 0xff1b, WB_MidNum);
  (R 0xff21 0xff3a, WB_ALetter);
  (R 0xff3f 0xff3f, WB_ExtendNumLet);
  (R 0xff41 0xff5a, WB_ALetter);
  (R 0xff66 0xff9d, WB_Katakana);
  (R 0xff9e 0xff9f, WB_Extend);
  (R 0xffa0 0xffbe, WB_ALetter);
  (R 0xffc2 0xffc7, WB_ALetter);
  (R 0xffca 0xffcf, WB_ALetter);
  (R 0xffd2 0xffd7, WB_ALetter);
  (R 0xffda 0xffdc, WB_ALetter);
  (R 0xfff9 0xfffb, WB_Format);
  (R 0x10000 0x1000b, WB_ALetter);
  (R 0x1000d 0x10026, WB_ALetter);
  (R 0x10028 0x1003a, WB_ALetter);
  (R 0x1003c 0x1003d, WB_ALetter);
  (R 0x1003f 0x1004d, WB_ALetter);
  (R 0x10050 0x1005d, WB_ALetter);
  (R 0x10080 0x100fa, WB_ALetter);
  (R 0x10140 0x10174, WB_ALetter);
  (R 0x101fd 0x101fd, WB_Extend);
  (R 0x10280 0x1029c, WB_ALetter);
  (R 0x102a0 0x102d0, WB_ALetter);
  (R 0x102e0 0x102e0, WB_Extend);
  (R 0x10300 0x1031f, WB_ALetter);
  (R 0x1032d 0x1034a, WB_ALetter);
  (R 0x10350 0x10375, WB_ALetter);
  (R 0x10376 0x1037a, WB_Extend);
  (R 0x10380 0x1039d, WB_ALetter);
  (R 0x103a0 0x103c3, WB_ALetter);
  (R 0x103c8 0x103cf, WB_ALetter);
  (R 0x103d1 0x103d5, WB_ALetter);
  (R 0x10400 0x1049d, WB_ALetter);
  (R 0x104a0 0x104a9, WB_Numeric);
  (R 0x104b0 0x104d3, WB_ALetter);
  (R 0x104d8 0x104fb, WB_ALetter);
  (R 0x10500 0x10527, WB_ALetter);
  (R 0x10530 0x10563, WB_ALetter);
  (R 0x10600 0x10736, WB_ALetter);
  (R 0x10740 0x10755, WB_ALetter);
  (R 0x10760 0x10767, WB_ALetter);
  (R 0x10800 0x10805, WB_ALetter);
  (R 0x10808 0x10808, WB_ALetter);
  (R 0x1080a 0x10835, WB_ALetter);
  (R 0x10837 0x10838, WB_ALetter);
  (R 0x1083c 0x1083c, WB_ALetter);
  (R 0x1083f 0x10855, WB_ALetter);
  (R 0x10860 0x10876, WB_ALetter);
  (R 0x10880 0x1089e, WB_ALetter);
  (R 0x108e0 0x108f2, WB_ALetter);
  (R 0x108f4 0x108f5, WB_ALetter);
  (R 0x10900 0x10915, WB_ALetter);
  (R 0x10920 0x10939, WB_ALetter);
  (R 0x10980 0x109b7, WB_ALetter);
  (R 0x109be 0x109bf, WB_ALetter);
  (R 0x10a00 0x10a00, WB_ALetter);
  (R 0x10a01 0x10a03, WB_Extend);
  (R 0x10a05 0x10a06, WB_Extend);
  (R 0x10a0c 0x10a0f, WB_Extend);
  (R 0x10a10 0x10a13, WB_ALetter);
  (R 0x10a15 0x10a17, WB_ALetter);
  (R 0x10a19 0x10a33, WB_ALetter);
  (R 0x10a38 0x10a3a, WB_Extend);
  (R 0x10a3f 0x10a3f, WB_Extend);
  (R 0x10a60 0x10a7c, WB_ALetter);
  (R 0x10a80 0x10a9c, WB_ALetter);
  (R 0x10ac0 0x10ac7, WB_ALetter);
  (R 0x10ac9 0x10ae4, WB_ALetter);
  (R 0x10ae5 0x10ae6, WB_Extend);
  (R 0x10b00 0x10b35, WB_ALetter);
  (R 0x10b40 0x10b55, WB_ALetter);
  (R 0x10b60 0x10b72, WB_ALetter);
  (R 0x10b80 0x10b91, WB_ALetter);
  (R 0x10c00 0x10c48, WB_ALetter);
  (R 0x10c80 0x10cb2, WB_ALetter);
  (R 0x10cc0 0x10cf2, WB_ALetter);
  (R 0x11000 0x11002, WB_Extend);
  (R 0x11003 0x11037, WB_ALetter);
  (R 0x11038 0x11046, WB_Extend);
  (R 0x11066 0x1106f, WB_Numeric);
  (R 0x1107f 0x11082, WB_Extend);
  (R 0x11083 0x110af, WB_ALetter);
  (R 0x110b0 0x110ba, WB_Extend);
  (R 0x110bd 0x110bd, WB_Format);
  (R 0x110d0 0x110e8, WB_ALetter);
  (R 0x110f0 0x110f9, WB_Numeric);
  (R 0x11100 0x11102, WB_Extend);
  (R 0x11103 0x11126, WB_ALetter);
  (R 0x11127 0x11134, WB_Extend);
  (R 0x11136 0x1113f, WB_Numeric);
  (R 0x11150 0x11172, WB_ALetter);
  (R 0x11173 0x11173, WB_Extend);
  (R 0x11176 0x11176, WB_ALetter);
  (R 0x11180 0x11182, WB_Extend);
  (R 0x11183 0x111b2, WB_ALetter);
  (R 0x111b3 0x111c0, WB_Extend);
  (R 0x111c1 0x111c4, WB_ALetter);
  (R 0x111ca 0x111cc, WB_Extend);
  (R 0x111d0 0x111d9, WB_Numeric);
  (R 0x111da 0x111da, WB_ALetter);
  (R 0x111dc 0x111dc, WB_ALetter);
  (R 0x11200 0x11211, WB_ALetter);
  (R 0x11213 0x1122b, WB_ALetter);
  (R 0x1122c 0x11237, WB_Extend);
  (R 0x1123e 0x1123e, WB_Extend);
  (R 0x11280 0x11286, WB_ALetter);
  (R 0x11288 0x11288, WB_ALetter);
  (R 0x1128a 0x1128d, WB_ALetter);
  (R 0x1128f 0x1129d, WB_ALetter);
  (R 0x1129f 0x112a8, WB_ALetter);
  (R 0x112b0 0x112de, WB_ALetter);
  (R 0x112df 0x112ea, WB_Extend);
  (R 0x112f0 0x112f9, WB_Numeric);
  (R 0x11300 0x11303, WB_Extend);
  (R 0x11305 0x1130c, WB_ALetter);
  (R 0x1130f 0x11310, WB_ALetter);
  (R 0x11313 0x11328, WB_ALetter);
  (R 0x1132a 0x11330, WB_ALetter);
  (R 0x11332 0x11333, WB_ALetter);
  (R 0x11335 0x11339, WB_ALetter);
  (R 0x1133c 0x1133c, WB_Extend);
  (R 0x1133d 0x1133d, WB_ALetter);
  (R 0x1133e 0x11344, WB_Extend);
  (R 0x11347 0x11348, WB_Extend);
  (R 0x1134b 0x1134d, WB_Extend);
  (R 0x11350 0x11350, WB_ALetter);
  (R 0x11357 0x11357, WB_Extend);
  (R 0x1135d 0x11361, WB_ALetter);
  (R 0x11362 0x11363, WB_Extend);
  (R 0x11366 0x1136c, WB_Extend);
  (R 0x11370 0x11374, WB_Extend);
  (R 0x11400 0x11434, WB_ALetter);
  (R 0x11435 0x11446, WB_Extend);
  (R 0x11447 0x1144a, WB_ALetter);
  (R 0x11450 0x11459, WB_Numeric);
  (R 0x11480 0x114af, WB_ALetter);
  (R 0x114b0 0x114c3, WB_Extend);
  (R 0x114c4 0x114c5, WB_ALetter);
  (R 0x114c7 0x114c7, WB_ALetter);
  (R 0x114d0 0x114d9, WB_Numeric);
  (R 0x11580 0x115ae, WB_ALetter);
  (R 0x115af 0x115b5, WB_Extend);
  (R 0x115b8 0x115c0, WB_Extend);
  (R 0x115d8 0x115db, WB_ALetter);
  (R 0x115dc 0x115dd, WB_Extend);
  (R 0x11600 0x1162f, WB_ALetter);
  (R 0x11630 0x11640, WB_Extend);
  (R 0x11644 0x11644, WB_ALetter);
  (R 0x11650 0x11659, WB_Numeric);
  (R 0x11680 0x116aa, WB_ALetter);
  (R 0x116ab 0x116b7, WB_Extend);
  (R 0x116c0 0x116c9, WB_Numeric);
  (R 0x1171d 0x1172b, WB_Extend);
  (R 0x11730 0x11739, WB_Numeric);
  (R 0x118a0 0x118df, WB_ALetter);
  (R 0x118e0 0x118e9, WB_Numeric);
  (R 0x118ff 0x118ff, WB_ALetter);
  (R 0x11a00 0x11a00, WB_ALetter);
  (R 0x11a01 0x11a0a, WB_Extend);
  (R 0x11a0b 0x11a32, WB_ALetter);
  (R 0x11a33 0x11a39, WB_Extend);
  (R 0x11a3a 0x11a3a, WB_ALetter);
  (R 0x11a3b 0x11a3e, WB_Extend);
  (R 0x11a47 0x11a47, WB_Extend);
  (R 0x11a50 0x11a50, WB_ALetter);
  (R 0x11a51 0x11a5b, WB_Extend);
  (R 0x11a5c 0x11a83, WB_ALetter);
  (R 0x11a86 0x11a89, WB_ALetter);
  (R 0x11a8a 0x11a99, WB_Extend);
  (R 0x11ac0 0x11af8, WB_ALetter);
  (R 0x11c00 0x11c08, WB_ALetter);
  (R 0x11c0a 0x11c2e, WB_ALetter);
  (R 0x11c2f 0x11c36, WB_Extend);
  (R 0x11c38 0x11c3f, WB_Extend);
  (R 0x11c40 0x11c40, WB_ALetter);
  (R 0x11c50 0x11c59, WB_Numeric);
  (R 0x11c72 0x11c8f, WB_ALetter);
  (R 0x11c92 0x11ca7, WB_Extend);
  (R 0x11ca9 0x11cb6, WB_Extend);
  (R 0x11d00 0x11d06, WB_ALetter);
  (R 0x11d08 0x11d09, WB_ALetter);
  (R 0x11d0b 0x11d30, WB_ALetter);
  (R 0x11d31 0x11d36, WB_Extend);
  (R 0x11d3a 0x11d3a, WB_Extend);
  (R 0x11d3c 0x11d3d, WB_Extend);
  (R 0x11d3f 0x11d45, WB_Extend);
  (R 0x11d46 0x11d46, WB_ALetter);
  (R 0x11d47 0x11d47, WB_Extend);
  (R 0x11d50 0x11d59, WB_Numeric);
  (R 0x12000 0x12399, WB_ALetter);
  (R 0x12400 0x1246e, WB_ALetter);
  (R 0x12480 0x12543, WB_ALetter);
  (R 0x13000 0x1342e, WB_ALetter);
  (R 0x14400 0x14646, WB_ALetter);
  (R 0x16800 0x16a38, WB_ALetter);
  (R 0x16a40 0x16a5e, WB_ALetter)].

Definition WORD_BREAK_2 : list (CharRange * WordBreak) := [
  (R 0x16a60 0x16a69, WB_Numeric);
  (R 0x16ad0 0x16aed, WB_ALetter);
  (R 0x16af0 0x16af4, WB_Extend);
  (R 0x16b00 0x16b2f, WB_ALetter);
  (R 0x16b30 0x16b36, WB_Extend);
  (R 0x16b40 0x16b43, WB_ALetter);
  (R 0x16b50 0x16b59, WB_Numeric);
  (R 0x16b63 0x16b77, WB_ALetter);
  (R 0x16b7d 0x16b8f, WB_ALetter);
  (R 0x16f00 0x16f44, WB_ALetter);
  (R 0x16f50 0x16f50, WB_ALetter);
  (R 0x16f51 0x16f7e, WB_Extend);
  (R 0x16f8f 0x16f92, WB_Extend);
  (R 0x16f93 0x16f9f, WB_ALetter);
  (R 0x16fe0 0x16fe1, WB_ALetter);
  (R 0x1b000 0x1b000, WB_Katakana);
  (R 0x1bc00 0x1bc6a, WB_ALetter);
  (R 0x1bc70 0x1bc7c, WB_ALetter);
  (R 0x1bc80 0x1bc88, WB_ALetter);
  (R 0x1bc90 0x1bc99, WB_ALetter);
  (R 0x1bc9d 0x1bc9e, WB_Extend);
  (R 0x1bca0 0x1bca3, WB_Format);
  (R 0x1d165 0x1d169, WB_Extend);
  (R 0x1d16d 0x1d172, WB_Extend);
  (R 0x1d173 0x1d17a, WB_Format);
  (R 0x1d17b 0x1d182, WB_Extend);
  (R 0x1d185 0x1d18b, WB_Extend);
  (R 0x1d1aa 0x1d1ad, WB_Extend);
  (R 0x1d242 0x1d244, WB_Extend);
  (R 0x1d400 0x1d454, WB_ALetter);
  (R 0x1d456 0x1d49c, WB_ALetter);
  (R 0x1d49e 0x1d49f, WB_ALetter);
  (R 0x1d4a2 0x1d4a2, WB_ALetter);
  (R 0x1d4a5 0x1d4a6, WB_ALetter);
  (R 0x1d4a9 0x1d4ac, WB_ALetter);
  (R 0x1d4ae 0x1d4b9, WB_ALetter);
  (R 0x1d4bb 0x1d4bb, WB_ALetter);
  (R 0x1d4bd 0x1d4c3, WB_ALetter);
  (R 0x1d4c5 0x1d505, WB_ALetter);
  (R 0x1d507 0x1d50a, WB_ALetter);
  (R 0x1d50d 0x1d514, WB_ALetter);
  (R 0x1d516 0x1d51c, WB_ALetter);
  (R 0x1d51e 0x1d539, WB_ALetter);
  (R 0x1d53b 0x1d53e, WB_ALetter);
  (R 0x1d540 0x1d544, WB_ALetter);
  (R 0x1d546 0x1d546, WB_ALetter);
  (R 0x1d54a 0x1d550, WB_ALetter);
  (R 0x1d552 0x1d6a5, WB_ALetter);
  (R 0x1d6a8 0x1d6c0, WB_ALetter);
  (R 0x1d6c2 0x1d6da, WB_ALetter);
  (R 0x1d6dc 0x1d6fa, WB_ALetter);
  (R 0x1d6fc 0x1d714, WB_ALetter);
  (R 0x1d716 0x1d734, WB_ALetter);
  (R 0x1d736 0x1d74e, WB_ALetter);
  (R 0x1d750 0x1d76e, WB_ALetter);
  (R 0x1d770 0x1d788, WB_ALetter);
  (R 0x1d78a 0x1d7a8, WB_ALetter);
  (R 0x1d7aa 0x1d7c2, WB_ALetter);
  (R 0x1d7c4 0x1d7cb, WB_ALetter);
  (R 0x1d7ce 0x1d7ff, WB_Numeric);
  (R 0x1da00 0x1da36, WB_Extend);
  (R 0x1da3b 0x1da6c, WB_Extend);
  (R 0x1da75 0x1da75, WB_Extend);
  (R 0x1da84 0x1da84, WB_Extend);
  (R 0x1da9b 0x1da9f, WB_Extend);
  (R 0x1daa1 0x1daaf, WB_Extend);
  (R 0x1e000 0x1e006, WB_Extend);
  (R 0x1e008 0x1e018, WB_Extend);
  (R 0x1e01b 0x1e021, WB_Extend);
  (R 0x1e023 0x1e024, WB_Extend);
  (R 0x1e026 0x1e02a, WB_Extend);
  (R 0x1e800 0x1e8c4, WB_ALetter);
  (R 0x1e8d0 0x1e8d6, WB_Extend);
  (R 0x1e900 0x1e943, WB_ALetter);
  (R 0x1e944 0x1e94a, WB_Extend);
  (R 0x1e950 0x1e959, WB_Numeric);
  (R 0x1ee00 0x1ee03, WB_ALetter);
  (R 0x1ee05 0x1ee1f, WB_ALetter);
  (R 0x1ee21 0x1ee22, WB_ALetter);
  (R 0x1ee24 0x1ee24, WB_ALetter);
  (R 0x1ee27 0x1ee27, WB_ALetter);
  (R 0x1ee29 0x1ee32, WB_ALetter);
  (R 0x1ee34 0x1ee37, WB_ALetter);
  (R 0x1ee39 0x1ee39, WB_ALetter);
  (R 0x1ee3b 0x1ee3b, WB_ALetter);
  (R 0x1ee42 0x1ee42, WB_ALetter);
  (R 0x1ee47 0x1ee47, WB_ALetter);
  (R 0x1ee49 0x1ee49, WB_ALetter);
  (R 0x1ee4b 0x1ee4b, WB_ALetter);
  (R 0x1ee4d 0x1ee4f, WB_ALetter);
  (R 0x1ee51 0x1ee52, WB_ALetter);
  (R 0x1ee54 0x1ee54, WB_ALetter);
  (R 0x1ee57 0x1ee57, WB_ALetter);
  (R 0x1ee59 0x1ee59, WB_ALetter);
  (R 0x1ee5b 0x1ee5b, WB_ALetter);
  (R 0x1ee5d 0x1ee5d, WB_ALetter);
  (R 0x1ee5f 0x1ee5f, WB_ALetter);
  (R 0x1ee61 0x1ee62, WB_ALetter);
  (R 0x1ee64 0x1ee64, WB_ALetter);
  (R 0x1ee67 0x1ee6a, WB_ALetter);
  (R 0x1ee6c 0x1ee72, WB_ALetter);
  (R 0x1ee74 0x1ee77, WB_ALetter);
  (R 0x1ee79 0x1ee7c, WB_ALetter);
  (R 0x1ee7e 0x1ee7e, WB_ALetter);
  (R 0x1ee80 0x1ee89, WB_ALetter);
  (R 0x1ee8b 0x1ee9b, WB_ALetter);
  (R 0x1eea1 0x1eea3, WB_ALetter);
  (R 0x1eea5 0x1eea9, WB_ALetter);
  (R 0x1eeab 0x1eebb, WB_ALetter);
  (R 0x1f130 0x1f149, WB_ALetter);
  (R 0x1f150 0x1f169, WB_ALetter);
  (R 0x1f170 0x1f189, WB_ALetter);
  (R 0x1f1e6 0x1f1ff, WB_RegionalIndicator);
  (R 0x1f308 0x1f308, WB_GlueAfterZwj);
  (R 0x1f33e 0x1f33e, WB_GlueAfterZwj);
  (R 0x1f373 0x1f373, WB_GlueAfterZwj);
  (R 0x1f385 0x1f385, WB_EBase);
  (R 0x1f393 0x1f393, WB_GlueAfterZwj);
  (R 0x1f3a4 0x1f3a4, WB_GlueAfterZwj);
  (R 0x1f3a8 0x1f3a8, WB_GlueAfterZwj);
  (R 0x1f3c2 0x1f3c4, WB_EBase);
  (R 0x1f3c7 0x1f3c7, WB_EBase);
  (R 0x1f3ca 0x1f3cc, WB_EBase);
  (R 0x1f3eb 0x1f3eb, WB_GlueAfterZwj);
  (R 0x1f3ed 0x1f3ed, WB_GlueAfterZwj);
  (R 0x1f3fb 0x1f3ff, WB_EModifier);
  (R 0x1f442 0x1f443, WB_EBase);
  (R 0x1f446 0x1f450, WB_EBase);
  (R 0x1f466 0x1f469, WB_EBaseGAZ);
  (R 0x1f46e 0x1f46e, WB_EBase);
  (R 0x1f470 0x1f478, WB_EBase);
  (R 0x1f47c 0x1f47c, WB_EBase);
  (R 0x1f481 0x1f483, WB_EBase);
  (R 0x1f485 0x1f487, WB_EBase);
  (R 0x1f48b 0x1f48b, WB_GlueAfterZwj);
  (R 0x1f4aa 0x1f4aa, WB_EBase);
  (R 0x1f4bb 0x1f4bc, WB_GlueAfterZwj);
  (R 0x1f527 0x1f527, WB_GlueAfterZwj);
  (R 0x1f52c 0x1f52c, WB_GlueAfterZwj);
  (R 0x1f574 0x1f575, WB_EBase);
  (R 0x1f57a 0x1f57a, WB_EBase);
  (R 0x1f590 0x1f590, WB_EBase);
  (R 0x1f595 0x1f596, WB_EBase);
  (R 0x1f5e8 0x1f5e8, WB_GlueAfterZwj);
  (R 0x1f645 0x1f647, WB_EBase);
  (R 0x1f64b 0x1f64f, WB_EBase);
  (R 0x1f680 0x1f680, WB_GlueAfterZwj);
  (R 0x1f692 0x1f692, WB_GlueAfterZwj);
  (R 0x1f6a3 0x1f6a3, WB_EBase);
  (R 0x1f6b4 0x1f6b6, WB_EBase);
  (R 0x1f6c0 0x1f6c0, WB_EBase);
  (R 0x1f6cc 0x1f6cc, WB_EBase);
  (R 0x1f918 0x1f91c, WB_EBase);
  (R 0x1f91e 0x1f91f, WB_EBase);
  (R 0x1f926 0x1f926, WB_EBase);
  (R 0x1f930 0x1f939, WB_EBase);
  (R 0x1f93d 0x1f93e, WB_EBase);
  (R 0x1f9d1 0x1f9dd, WB_EBase);
  (R 0xe0001 0xe0001, WB_Format);
  (R 0xe0020 0xe007f, WB_Extend);
  (R 0xe0100 0xe01ef, WB_Extend)].

Definition WORD_BREAK : CharDataTable WordBreak :=
  Range (WORD_BREAK_0 ++ WORD_BREAK_1 ++ WORD_BREAK_2).

(** unic/ucd/segment/tables/sentence_break.rsv:1-2244 (2240 entries) *)
Definition SENTENCE_BREAK_0 : list (CharRange * SentenceBreak) := [
  (R 0x9 0x9, SB_Sp);
  (R 0xa 0xa, SB_LF);
  (R 0xb 0xc, SB_Sp);
  (R 0xd 0xd, SB_CR);
  (R 0x20 0x20, SB_Sp);
  (R 0x21 0x21, SB_STerm);
  (R 0x22 0x22, SB_Close);
  (R 0x27 0x29, SB_Close);
  (R 0x2c 0x2d, SB_SContinue);
  (R 0x2e 0x2e, SB_ATerm);
  (R 0x30 0x39, SB_Numeric);
  (R 0x3a 0x3a, SB_SContinue);
  (R 0x3f 0x3f, SB_STerm);
  (R 0x41 0x5a, SB_Upper);
  (R 0x5b 0x5b, SB_Close);
  (R 0x5d 0x5d, SB_Close);
  (R 0x61 0x7a, SB_Lower);
  (R 0x7b 0x7b, SB_Close);
  (R 0x7d 0x7d, SB_Close);
  (R 0x85 0x85, SB_Sep);
  (R 0xa0 0xa0, SB_Sp);
  (R 0xaa 0xaa, SB_Lower);
  (R 0xab 0xab, SB_Close);
  (R 0xad 0xad, SB_Format);
  (R 0xb5 0xb5, SB_Lower);
  (R 0xba 0xba, SB_Lower);
  (R 0xbb 0xbb, SB_Close);
  (R 0xc0 0xd6, SB_Upper);
  (R 0xd8 0xde, SB_Upper);
  (R 0xdf 0xf6, SB_Lower);
  (R 0xf8 0xff, SB_Lower);
  (R 0x100 0x100, SB_Upper);
  (R 0x101 0x101, SB_Lower);
  (R 0x102 0x102, SB_Upper);
  (R 0x103 0x103, SB_Lower);
  (R 0x104 0x104, SB_Upper);
  (R 0x105 0x105, SB_Lower);
  (R 0x106 0x106, SB_Upper);
  (R 0x107 0x107, SB_Lower);
  (R 0x108 0x108, SB_Upper);
  (R 0x109 0x109, SB_Lower);
  (R 0x10a 0x10a, SB_Upper);
  (R 0x10b 0x10b, SB_Lower);
  (R 0x10c 0x10c, SB_Upper);
  (R 0x10d 0x10d, SB_Lower);
  (R 0x10e 0x10e, SB_Upper);
  (R 0x10f 0x10f, SB_Lower);
  (R 0x110 0x110, SB_Upper);
  (R 0x111 0x111, SB_Lower);
  (R 0x112 0x112, SB_Upper);
  (R 0x113 0x113, SB_Lower);
  (R 0x114 0x114, SB_Upper);
  (R 0x115 0x115, SB_Lower);
  (R 0x116 0x116, SB_Upper);
  (R 0x117 0x117, SB_Lower);
  (R 0x118 0x118, SB_Upper);
  (R 0x119 0x119, SB_Lower);
  (R 0x11a 0x11a, SB_Upper);
  (R 0x11b 0x11b, SB_Lower);
  (R 0x11c 0x11c, SB_Upper);
  (R 0x11d 0x11d, SB_Lower);
  (R 0x11e 0x11e, SB_Upper);
  (R 0x11f 0x11f, SB_Lower);
  (R 0x120 0x120, SB_Upper);
  (R 0x121 0x121, SB_Lower);
  (R 0x122 0x122, SB_Upper);
  (R 0x123 0x123, SB_Lower);
  (R 0x124 0x124, SB_Upper);
  (R 0x125 0x125, SB_Lower);
  (R 0x126 0x126, SB_Upper);
  (R 0x127 0x127, SB_Lower);
  (R 0x128 0x128, SB_Upper);
  (R 0x129 0x129, SB_Lower);
  (R 0x12a 0x12a, SB_Upper);
  (R 0x12b 0x12b, SB_Lower);
  (R 0x12c 0x12c, SB_Upper);
  (R 0x12d 0x12d, SB_Lower);
  (R 0x12e 0x12e, SB_Upper);
  (R 0x12f 0x12f, SB_Lower);
  (R 0x130 0x130, SB_Upper);
  (R 0x131 0x131, SB_Lower);
  (R 0x132 0x132, SB_Upper);
  (R 0x133 0x133, SB_Lower);
  (R 0x134 0x134, SB_Upper);
  (R 0x135 0x135, SB_Lower);
  (R 0x136 0x136, SB_Upper);
  (R 0x137 0x138, SB_Lower);
  (R 0x139 0x139, SB_Upper);
  (R 0x13a 0x13a, SB_Lower);
  (R 0x13b 0x13b, SB_Upper);
  (R 0x13c 0x13c, SB_Lower);
  (R 0x13d 0x13d, SB_Upper);
  (R 0x13e 0x13e, SB_Lower);
  (R 0x13f 0x13f, SB_Upper);
  (R 0x140 0x140, SB_Lower);
  (R 0x141 0x141, SB_Upper);
  (R 0x142 0x142, SB_Lower);
  (R 0x143 0x143, SB_Upper);
  (R 0x144 0x144, SB_Lower);
  (R 0x145 0x145, SB_Upper);
  (R 0x146 0x146, SB_Lower);
  (R 0x147 0x147, SB_Upper);
  (R 0x148 0x149, SB_Lower);
  (R 0x14a 0x14a, SB_Upper);
  (R 0x14b 0x14b, SB_Lower);
  (R 0x14c 0x14c, SB_Upper);
  (R 0x14d 0x14d, SB_Lower);
  (R 0x14e 0x14e, SB_Upper);
  (R 0x14f 0x14f, SB_Lower);
  (R 0x150 0x150, SB_Upper);
  (R 0x151 0x151, SB_Lower);
  (R 0x152 0x152, SB_Upper);
  (R 0x153 0x153, SB_Lower);
  (R 0x154 0x154, SB_Upper);
  (R 0x155 0x155, SB_Lower);
  (R 0x156 0x156, SB_Upper);
  (R 0x157 0x157, SB_Lower);
  (R 0x158 0x158, SB_Upper);
  (R 0x159 0x159, SB_Lower);
  (R 0x15a 0x15a, SB_Upper);
  (R 0x15b 0x15b, SB_Lower);
  (R 0x15c 0x15c, SB_Upper);
  (R 0x15d 0x15d, SB_Lower);
  (R 0x15e 0x15e, SB_Upper);
  (R 0x15f 0x15f, SB_Lower);
  (R 0x160 0x160, SB_Upper);
  (R 0x161 0x161, SB_Lower);
  (R 0x162 0x162, SB_Upper);
  (R 0x163 0x163, SB_Lower);
  (R 0x164 0x164, SB_Upper);
  (R 0x165 0x165, SB_Lower);
  (R 0x166 0x166, SB_Upper);
  (R 0x167 0x167, SB_Lower);
  (R 0x168 0x168, SB_Upper);
  (R 0x169 0x169, SB_Lower);
  (R 0x16a 0x16a, SB_Upper);
  (R 0x16b 0x16b, SB_Lower);
  (R 0x16c 0x16c, SB_Upper);
  (R 0x16d 0x16d, SB_Lower);
  (R 0x16e 0x16e, SB_Upper);
  (R 0x16f 0x16f, SB_Lower);
  (R 0x170 0x170, SB_Upper);
  (R 0x171 0x171, SB_Lower);
  (R 0x172 0x172, SB_Upper);
  (R 0x173 0x173, SB_Lower);
  (R 0x174 0x174, SB_Upper);
  (R 0x175 0x175, SB_Lower);
  (R 0x176 0x176, SB_Upper);
  (R 0x177 0x177, SB_Lower);
  (R 0x178 0x179, SB_Upper);
  (R 0x17a 0x17a, SB_Lower);
  (R 0x17b 0x17b, SB_Upper);
  (R 0x17c 0x17c, SB_Lower);
  (R 0x17d 0x17d, SB_Upper);
  (R 0x17e 0x180, SB_Lower);
  (R 0x181 0x182, SB_Upper);
  (R 0x183 0x183, SB_Lower);
  (R 0x184 0x184, SB_Upper);
  (R 0x185 0x185, SB_Lower);
  (R 0x186 0x187, SB_Upper);
  (R 0x188 0x188, SB_Lower);
  (R 0x189 0x18b, SB_Upper);
  (R 0x18c 0x18d, SB_Lower);
  (R 0x18e 0x191, SB_Upper);
  (R 0x192 0x192, SB_Lower);
  (R 0x193 0x194, SB_Upper);
  (R 0x195 0x195, SB_Lower);
  (R 0x196 0x198, SB_Upper);
  (R 0x199 0x19b, SB_Lower);
  (R 0x19c 0x19d, SB_Upper);
  (R 0x19e 0x19e, SB_Lower);
  (R 0x19f 0x1a0, SB_Upper);
  (R 0x1a1 0x1a1, SB_Lower);
  (R 0x1a2 0x1a2, SB_Upper);
  (R 0x1a3 0x1a3, SB_Lower);
  (R 0x1a4 0x1a4, SB_Upper);
  (R 0x1a5 0x1a5, SB_Lower);
  (R 0x1a6 0x1a7, SB_Upper);
  (R 0x1a8 0x1a8, SB_Lower);
  (R 0x1a9 0x1a9, SB_Upper);
  (R 0x1aa 0x1ab, SB_Lower);
  (R 0x1ac 0x1ac, SB_Upper);
  (R 0x1ad 0x1ad, SB_Lower);
  (R 0x1ae 0x1af, SB_Upper);
  (R 0x1b0 0x1b0, SB_Lower);
  (R 0x1b1 0x1b3, SB_Upper);
  (R 0x1b4 0x1b4, SB_Lower);
  (R 0x1b5 0x1b5, SB_Upper);
  (R 0x1b6 0x1b6, SB_Lower);
  (R 0x1b7 0x1b8, SB_Upper);
  (R 0x1b9 0x1ba, SB_Lower);
  (R 0x1bb 0x1bb, SB_OLetter);
  (R 0x1bc 0x1bc, SB_Upper);
  (R 0x1bd 0x1bf, SB_Lower);
  (R 0x1c0 0x1c3, SB_OLetter);
  (R 0x1c4 0x1c5, SB_Upper);
  (R 0x1c6 0x1c6, SB_Lower);
  (R 0x1c7 0x1c8, SB_Upper);
  (R 0x1c9 0x1c9, SB_Lower);
  (R 0x1ca 0x1cb, SB_Upper);
  (R 0x1cc 0x1cc, SB_Lower);
  (R 0x1cd 0x1cd, SB_Upper);
  (R 0x1ce 0x1ce, SB_Lower);
  (R 0x1cf 0x1cf, SB_Upper);
  (R 0x1d0 0x1d0, SB_Lower);
  (R 0x1d1 0x1d1, SB_Upper);
  (R 0x1d2 0x1d2, SB_Lower);
  (R 0x1d3 0x1d3, SB_Upper);
  (R 0x1d4 0x1d4, SB_Lower);
  (R 0x1d5 0x1d5, SB_Upper);
  (R 0x1d6 0x1d6, SB_Lower);
  (R 0x1d7 0x1d7, SB_Upper);
  (R 0x1d8 0x1d8, SB_Lower);
  (R 0x1d9 0x1d9, SB_Upper);
  (R 0x1da 0x1da, SB_Lower);
  (R 0x1db 0x1db, SB_Upper);
  (R 0x1dc 0x1dd, SB_Lower);
  (R 0x1de 0x1de, SB_Upper);
  (R 0x1df 0x1df, SB_Lower);
  (R 0x1e0 0x1e0, SB_Upper);
  (R 0x1e1 0x1e1, SB_Lower);
  (R 0x1e2 0x1e2, SB_Upper);
  (R 0x1e3 0x1e3, SB_Lower);
  (R 0x1e4 0x1e4, SB_Upper);
  (R 0x1e5 0x1e5, SB_Lower);
  (R 0x1e6 0x1e6, SB_Upper);
  (R 0x1e7 0x1e7, SB_Lower);
  (R 0x1e8 0x1e8, SB_Upper);
  (R 0x1e9 0x1e9, SB_Lower);
  (R 0x1ea 0x1ea, SB_Upper);
  (R 0x1eb 0x1eb, SB_Lower);
  (R 0x1ec 0x1ec, SB_Upper);
  (R 0x1ed 0x1ed, SB_Lower);
  (R 0x1ee 0x1ee, SB_Upper);
  (R 0x1ef 0x1f0, SB_Lower);
  (R 0x1f1 0x1f2, SB_Upper);
  (R 0x1f3 0x1f3, SB_Lower);
  (R 0x1f4 0x1f4, SB_Upper);
  (R 0x1f5 0x1f5, SB_Lower);
  (R 0x1f6 0x1f8, SB_Upper);
  (R 0x1f9 0x1f9, SB_Lower);
  (R 0x1fa 0x1fa, SB_Upper);
  (R 0x1fb 0x1fb, SB_Lower);
  (R 0x1fc 0x1fc, SB_Upper);
  (R 0x1fd 0x1fd, SB_Lower);
  (R 0x1fe 0x1fe, SB_Upper);
  (R 0x1ff 0x1ff, SB_Lower);
  (R 0x200 0x200, SB_Upper);
  (R 0x201 0x201, SB_Lower);
  (R 0x202 0x202, SB_Upper);
  (R 0x203 0x203, SB_Lower);
  (R 0x204 0x204, SB_Upper);
  (R 0x205 0x205, SB_Lower);
  (R 0x206 0x206, SB_Upper);
  (R 0x207 0x207, SB_Lower);
  (R 0x208 0x208, SB_Upper);
  (R 0x209 0x209, SB_Lower);
  (R 0x20a 0x20a, SB_Upper);
  (R 0x20b 0x20b, SB_Lower);
  (R 0x20c 0x20c, SB_Upper);
  (R 0x20d 0x20d, SB_Lower);
  (R 0x20e 0x20e, SB_Upper);
  (R 0x20f 0x20f, SB_Lower);
  (R 0x210 0x210, SB_Upper);
  (R 0x211 0x211, SB_Lower);
  (R 0x212 0x212, SB_Upper);
  (R 0x213 0x213, SB_Lower);
  (R 0x214 0x214, SB_Upper);
  (R 0x215 0x215, SB_Lower);
  (R 0x216 0x216, SB_Upper);
  (R 0x217 0x217, SB_Lower);
  (R 0x218 0x218, SB_Upper);
  (R 0x219 0x219, SB_Lower);
  (R 0x21a 0x21a, SB_Upper);
  (R 0x21b 0x21b, SB_Lower);
  (R 0x21c 0x21c, SB_Upper);
  (R 0x21d 0x21d, SB_Lower);
  (R 0x21e 0x21e, SB_Upper);
  (R 0x21f 0x21f, SB_Lower);
  (R 0x220 0x220, SB_Upper);
  (R 0x221 0x221, SB_Lower);
  (R 0x222 0x222, SB_Upper);
  (R 0x223 0x223, SB_Lower);
  (R 0x224 0x224, SB_Upper);
  (R 0x225 0x225, SB_Lower);
  (R 0x226 0x226, SB_Upper);
  (R 0x227 0x227, SB_Lower);
  (R 0x228 0x228, SB_Upper);
  (R 0x229 0x229, SB_Lower);
  (R 0x22a 0x22a, SB_Upper);
  (R 0x22b 0x22b, SB_Lower);
  (R 0x22c 0x22c, SB_Upper);
  (R 0x22d 0x22d, SB_Lower);
  (R 0x22e 0x22e, SB_Upper);
  (R 0x22f 0x22f, SB_Lower);
  (R 0x230 0x230, SB_Upper);
  (R 0x231 0x231, SB_Lower);
  (R 0x232 0x232, SB_Upper);
  (R 0x233 0x239, SB_Lower);
  (R 0x23a 0x23b, SB_Upper);
  (R 0x23c 0x23c, SB_Lower);
  (R 0x23d 0x23e, SB_Upper);
  (R 0x23f 0x240, SB_Lower);
  (R 0x241 0x241, SB_Upper);
  (R 0x242 0x242, SB_Lower);
  (R 0x243 0x246, SB_Upper);
  (R 0x247 0x247, SB_Lower);
  (R 0x248 0x248, SB_Upper);
  (R 0x249 0x249, SB_Lower);
  (R 0x24a 0x24a, SB_Upper);
  (R 0x24b 0x24b, SB_Lower);
  (R 0x24c 0x24c, SB_Upper);
  (R 0x24d 0x24d, SB_Lower);
  (R 0x24e 0x24e, SB_Upper);
  (R 0x24f 0x293, SB_Lower);
  (R 0x294 0x294, SB_OLetter);
  (R 0x295 0x2b8, SB_Lower);
  (R 0x2b9 0x2bf, SB_OLetter);
  (R 0x2c0 0x2c1, SB_Lower);
  (R 0x2c6 0x2d1, SB_OLetter);
  (R 0x2e0 0x2e4, SB_Lower);
  (R 0x2ec 0x2ec, SB_OLetter);
  (R 0x2ee 0x2ee, SB_OLetter);
  (R 0x300 0x36f, SB_Extend);
  (R 0x370 0x370, SB_Upper);
  (R 0x371 0x371, SB_Lower);
  (R 0x372 0x372, SB_Upper);
  (R 0x373 0x373, SB_Lower);
  (R 0x374 0x374, SB_OLetter);
  (R 0x376 0x376, SB_Upper);
  (R 0x377 0x377, SB_Lower);
  (R 0x37a 0x37d, SB_Lower);
  (R 0x37f 0x37f, SB_Upper);
  (R 0x386 0x386, SB_Upper);
  (R 0x388 0x38a, SB_Upper);
  (R 0x38c 0x38c, SB_Upper);
  (R 0x38e 0x38f, SB_Upper);
  (R 0x390 0x390, SB_Lower);
  (R 0x391 0x3a1, SB_Upper);
  (R 0x3a3 0x3ab, SB_Upper);
  (R 0x3ac 0x3ce, SB_Lower);
  (R 0x3cf 0x3cf, SB_Upper);
  (R 0x3d0 0x3d1, SB_Lower);
  (R 0x3d2 0x3d4, SB_Upper);
  (R 0x3d5 0x3d7, SB_Lower);
  (R 0x3d8 0x3d8, SB_Upper);
  (R 0x3d9 0x3d9, SB_Lower);
  (R 0x3da 0x3da, SB_Upper);
  (R 0x3db 0x3db, SB_Lower);
  (R 0x3dc 0x3dc, SB_Upper);
  (R 0x3dd 0x3dd, SB_Lower);
  (R 0x3de 0x3de, SB_Upper);
  (R 0x3df 0x3df, SB_Lower);
  (R 0x3e0 0x3e0, SB_Upper);
  (R 0x3e1 0x3e1, SB_Lower);
  (R 0x3e2 0x3e2, SB_Upper);
  (R 0x3e3 0x3e3, SB_Lower);
  (R 0x3e4 0x3e4, SB_Upper);
  (R 0x3e5 0x3e5, SB_Lower);
  (R 0x3e6 0x3e6, SB_Upper);
  (R 0x3e7 0x3e7, SB_Lower);
  (R 0x3e8 0x3e8, SB_Upper);
  (R 0x3e9 0x3e9, SB_Lower);
  (R 0x3ea 0x3ea, SB_Upper);
  (R 0x3eb 0x3eb, SB_Lower);
  (R 0x3ec 0x3ec, SB_Upper);
  (R 0x3ed 0x3ed, SB_Lower);
  (R 0x3ee 0x3ee, SB_Upper);
  (R 0x3ef 0x3f3, SB_Lower);
  (R 0x3f4 0x3f4, SB_Upper);
  (R 0x3f5 0x3f5, SB_Lower);
  (R 0x3f7 0x3f7, SB_Upper);
  (R 0x3f8 0x3f8, SB_Lower);
  (R 0x3f9 0x3fa, SB_Upper);
  (R 0x3fb 0x3fc, SB_Lower);
  (R 0x3fd 0x42f, SB_Upper);
  (R 0x430 0x45f, SB_Lower);
  (R 0x460 0x460, SB_Upper);
  (R 0x461 0x461, SB_Lower);
  (R 0x462 0x462, SB_Upper);
  (R 0x463 0x463, SB_Lower);
  (R 0x464 0x464, SB_Upper);
  (R 0x465 0x465, SB_Lower);
  (R 0x466 0x466, SB_Upper);
  (R 0x467 0x467, SB_Lower);
  (R 0x468 0x468, SB_Upper);
  (R 0x469 0x469, SB_Lower);
  (R 0x46a 0x46a, SB_Upper);
  (R 0x46b 0x46b, SB_Lower);
  (R 0x46c 0x46c, SB_Upper);
  (R 0x46d 0x46d, SB_Lower);
  (R 0x46e 0x46e, SB_Upper);
  (R 0x46f 0x46f, SB_Lower);
  (R 0x470 0x470, SB_Upper);
  (R 0x471 0x471, SB_Lower);
  (R 0x472 0x472, SB_Upper);
  (R 0x473 0x473, SB_Lower);
  (R 0x474 0x474, SB_Upper);
  (R 0x475 0x475, SB_Lower);
  (R 0x476 0x476, SB_Upper)].

Definition SENTENCE_BREAK_1 : list (CharRange * SentenceBreak) := [
  (R 0x477 0x477, SB_Lower);
  (R 0x478 0x478, SB_Upper);
  (R 0x479 0x479, SB_Lower);
  (R 0x47a 0x47a, SB_Upper);
  (R 0x47b 0x47b, SB_Lower);
  (R 0x47c 0x47c, SB_Upper);
  (R 0x47d 0x47d, SB_Lower);
  (R 0x47e 0x47e, SB_Upper);
  (R 0x47f 0x47f, SB_Lower);
  (R 0x480 0x480, SB_Upper);
  (R 0x481 0x481, SB_Lower);
  (R 0x483 0x489, SB_Extend);
  (R 0x48a 0x48a, SB_Upper);
  (R 0x48b 0x48b, SB_Lower);
  (R 0x48c 0x48c, SB_Upper);
  (R 0x48d 0x48d, SB_Lower);
  (R 0x48e 0x48e, SB_Upper);
  (R 0x48f 0x48f, SB_Lower);
  (R 0x490 0x490, SB_Upper);
  (R 0x491 0x491, SB_Lower);
  (R 0x492 0x492, SB_Upper);
  (R 0x493 0x493, SB_Lower);
  (R 0x494 0x494, SB_Upper);
  (R 0x495 0x495, SB_Lower);
  (R 0x496 0x496, SB_Upper);
  (R 0x497 0x497, SB_Lower);
  (R 0x498 0x498, SB_Upper);
  (R 0x499 0x499, SB_Lower);
  (R 0x49a 0x49a, SB_Upper);
  (R 0x49b 0x49b, SB_Lower);
  (R 0x49c 0x49c, SB_Upper);
  (R 0x49d 0x49d, SB_Lower);
  (R 0x49e 0x49e, SB_Upper);
  (R 0x49f 0x49f, SB_Lower);
  (R 0x4a0 0x4a0, SB_Upper);
  (R 0x4a1 0x4a1, SB_Lower);
  (R 0x4a2 0x4a2, SB_Upper);
  (R 0x4a3 0x4a3, SB_Lower);
  (R 0x4a4 0x4a4, SB_Upper);
  (R 0x4a5 0x4a5, SB_Lower);
  (R 0x4a6 0x4a6, SB_Upper);
  (R 0x4a7 0x4a7, SB_Lower);
  (R 0x4a8 0x4a8, SB_Upper);
  (R 0x4a9 0x4a9, SB_Lower);
  (R 0x4aa 0x4aa, SB_Upper);
  (R 0x4ab 0x4ab, SB_Lower);
  (R 0x4ac 0x4ac, SB_Upper);
  (R 0x4ad 0x4ad, SB_Lower);
  (R 0x4ae 0x4ae, SB_Upper);
  (R 0x4af 0x4af, SB_Lower);
  (R 0x4b0 0x4b0, SB_Upper);
  (R 0x4b1 0x4b1, SB_Lower);
  (R 0x4b2 0x4b2, SB_Upper);
  (R 0x4b3 0x4b3, SB_Lower);
  (R 0x4b4 0x4b4, SB_Upper);
  (R 0x4b5 0x4b5, SB_Lower);
  (R 0x4b6 0x4b6, SB_Upper);
  (R 0x4b7 0x4b7, SB_Lower);
  (R 0x4b8 0x4b8, SB_Upper);
  (R 0x4b9 0x4b9, SB_Lower);
  (R 0x4ba 0x4ba, SB_Upper);
  (R 0x4bb 0x4bb, SB_Lower);
  (R 0x4bc 0x4bc, SB_Upper);
  (R 0x4bd 0x4bd, SB_Lower);
  (R 0x4be 0x4be, SB_Upper);
  (R 0x4bf 0x4bf, SB_Lower);
  (R 0x4c0 0x4c1, SB_Upper);
  (R 0x4c2 0x4c2, SB_Lower);
  (R 0x4c3 0x4c3, SB_Upper);
  (R 0x4c4 0x4c4, SB_Lower);
  (R 0x4c5 0x4c5, SB_Upper);
  (R 0x4c6 0x4c6, SB_Lower);
  (R 0x4c7 0x4c7, SB_Upper);
  (R 0x4c8 0x4c8, SB_Lower);
  (R 0x4c9 0x4c9, SB_Upper);
  (R 0x4ca 0x4ca, SB_Lower);
  (R 0x4cb 0x4cb, SB_Upper);
  (R 0x4cc 0x4cc, SB_Lower);
  (R 0x4cd 0x4cd, SB_Upper);
  (R 0x4ce 0x4cf, SB_Lower);
  (R 0x4d0 0x4d0, SB_Upper);
  (R 0x4d1 0x4d1, SB_Lower);
  (R 0x4d2 0x4d2, SB_Upper);
  (R 0x4d3 0x4d3, SB_Lower);
  (R 0x4d4 0x4d4, SB_Upper);
  (R 0x4d5 0x4d5, SB_Lower);
  (R 0x4d6 0x4d6, SB_Upper);
  (R 0x4d7 0x4d7, SB_Lower);
  (R 0x4d8 0x4d8, SB_Upper);
  (R 0x4d9 0x4d9, SB_Lower);
  (R 0x4da 0x4da, SB_Upper);
  (R 0x4db 0x4db, SB_Lower);
  (R 0x4dc 0x4dc, SB_Upper);
  (R 0x4dd 0x4dd, SB_Lower);
  (R 0x4de 0x4de, SB_Upper);
  (R 0x4df 0x4df, SB_Lower);
  (R 0x4e0 0x4e0, SB_Upper);
  (R 0x4e1 0x4e1, SB_Lower);
  (R 0x4e2 0x4e2, SB_Upper);
  (R 0x4e3 0x4e3, SB_Lower);
  (R 0x4e4 0x4e4, SB_Upper);
  (R 0x4e5 0x4e5, SB_Lower);
  (R 0x4e6 0x4e6, SB_Upper);
  (R 0x4e7 0x4e7, SB_Lower);
  (R 0x4e8 0x4e8, SB_Upper);
  (R 0x4e9 0x4e9, SB_Lower);
  (R 0x4ea 0x4ea, SB_Upper);
  (R 0x4eb 0x4eb, SB_Lower);
  (R 0x4ec 0x4ec, SB_Upper);
  (R 0x4ed 0x4ed, SB_Lower);
  (R 0x4ee 0x4ee, SB_Upper);
  (R 0x4ef 0x4ef, SB_Lower);
  (R 0x4f0 0x4f0, SB_Upper);
  (R 0x4f1 0x4f1, SB_Lower);
  (R 0x4f2 0x4f2, SB_Upper);
  (R 0x4f3 0x4f3, SB_Lower);
  (R 0x4f4 0x4f4, SB_Upper);
  (R 0x4f5 0x4f5, SB_Lower);
  (R 0x4f6 0x4f6, SB_Upper);
  (R 0x4f7 0x4f7, SB_Lower);
  (R 0x4f8 0x4f8, SB_Upper);
  (R 0x4f9 0x4f9, SB_Lower);
  (R 0x4fa 0x4fa, SB_Upper);
  (R 0x4fb 0x4fb, SB_Lower);
  (R 0x4fc 0x4fc, SB_Upper);
  (R 0x4fd 0x4fd, SB_Lower);
  (R 0x4fe 0x4fe, SB_Upper);
  (R 0x4ff 0x4ff, SB_Lower);
  (R 0x500 0x500, SB_Upper);
  (R 0x501 0x501, SB_Lower);
  (R 0x502 0x502, SB_Upper);
  (R 0x503 0x503, SB_Lower);
  (R 0x504 0x504, SB_Upper);
  (R 0x505 0x505, SB_Lower);
  (R 0x506 0x506, SB_Upper);
  (R 0x507 0x507, SB_Lower);
  (R 0x508 0x508, SB_Upper);
  (R 0x509 0x509, SB_Lower);
  (R 0x50a 0x50a, SB_Upper);
  (R 0x50b 0x50b, SB_Lower);
  (R 0x50c 0x50c, SB_Upper);
  (R 0x50d 0x50d, SB_Lower);
  (R 0x50e 0x50e, SB_Upper);
  (R 0x50f 0x50f, SB_Lower);
  (R 0x510 0x510, SB_Upper);
  (R 0x511 0x511, SB_Lower);
  (R 0x512 0x512, SB_Upper);
  (R 0x513 0x513, SB_Lower);
  (R 0x514 0x514, SB_Upper);
  (R 0x515 0x515, SB_Lower);
  (R 0x516 0x516, SB_Upper);
  (R 0x517 0x517, SB_Lower);
  (R 0x518 0x518, SB_Upper);
  (R 0x519 0x519, SB_Lower);
  (R 0x51a 0x51a, SB_Upper);
  (R 0x51b 0x51b, SB_Lower);
  (R 0x51c 0x51c, SB_Upper);
  (R 0x51d 0x51d, SB_Lower);
  (R 0x51e 0x51e, SB_Upper);
  (R 0x51f 0x51f, SB_Lower);
  (R 0x520 0x520, SB_Upper);
  (R 0x521 0x521, SB_Lower);
  (R 0x522 0x522, SB_Upper);
  (R 0x523 0x523, SB_Lower);
  (R 0x524 0x524, SB_Upper);
  (R 0x525 0x525, SB_Lower);
  (R 0x526 0x526, SB_Upper);
  (R 0x527 0x527, SB_Lower);
  (R 0x528 0x528, SB_Upper);
  (R 0x529 0x529, SB_Lower);
  (R 0x52a 0x52a, SB_Upper);
  (R 0x52b 0x52b, SB_Lower);
  (R 0x52c 0x52c, SB_Upper);
  (R 0x52d 0x52d, SB_Lower);
  (R 0x52e 0x52e, SB_Upper);
  (R 0x52f 0x52f, SB_Lower);
  (R 0x531 0x556, SB_Upper);
  (R 0x559 0x559, SB_OLetter);
  (R 0x55d 0x55d, SB_SContinue);
  (R 0x561 0x587, SB_Lower);
  (R 0x589 0x589, SB_STerm);
  (R 0x591 0x5bd, SB_Extend);
  (R 0x5bf 0x5bf, SB_Extend);
  (R 0x5c1 0x5c2, SB_Extend);
  (R 0x5c4 0x5c5, SB_Extend);
  (R 0x5c7 0x5c7, SB_Extend);
  (R 0x5d0 0x5ea, SB_OLetter);
  (R 0x5f0 0x5f3, SB_OLetter);
  (R 0x600 0x605, SB_Format);
  (R 0x60c 0x60d, SB_SContinue);
  (R 0x610 0x61a, SB_Extend);
  (R 0x61c 0x61c, SB_Format);
  (R 0x61f 0x61f, SB_STerm);
  (R 0x620 0x64a, SB_OLetter);
  (R 0x64b 0x65f, SB_Extend);
  (R 0x660 0x669, SB_Numeric);
  (R 0x66b 0x66c, SB_Numeric);
  (R 0x66e 0x66f, SB_OLetter);
  (R 0x670 0x670, SB_Extend);
  (R 0x671 0x6d3, SB_OLetter);
  (R 0x6d4 0x6d4, SB_STerm);
  (R 0x6d5 0x6d5, SB_OLetter);
  (R 0x6d6 0x6dc, SB_Extend);
  (R 0x6dd 0x6dd, SB_Format);
  (R 0x6df 0x6e4, SB_Extend);
  (R 0x6e5 0x6e6, SB_OLetter);
  (R 0x6e7 0x6e8, SB_Extend);
  (R 0x6ea 0x6ed, SB_Extend);
  (R 0x6ee 0x6ef, SB_OLetter);
  (R 0x6f0 0x6f9, SB_Numeric);
  (R 0x6fa 0x6fc, SB_OLetter);
  (R 0x6ff 0x6ff, SB_OLetter);
  (R 0x700 0x702, SB_STerm);
  (R 0x70f 0x70f, SB_Format);
  (R 0x710 0x710, SB_OLetter);
  (R 0x711 0x711, SB_Extend);
  (R 0x712 0x72f, SB_OLetter);
  (R 0x730 0x74a, SB_Extend);
  (R 0x74d 0x7a5, SB_OLetter);
  (R 0x7a6 0x7b0, SB_Extend);
  (R 0x7b1 0x7b1, SB_OLetter);
  (R 0x7c0 0x7c9, SB_Numeric);
  (R 0x7ca 0x7ea, SB_OLetter);
  (R 0x7eb 0x7f3, SB_Extend);
  (R 0x7f4 0x7f5, SB_OLetter);
  (R 0x7f8 0x7f8, SB_SContinue);
  (R 0x7f9 0x7f9, SB_STerm);
  (R 0x7fa 0x7fa, SB_OLetter);
  (R 0x800 0x815, SB_OLetter);
  (R 0x816 0x819, SB_Extend);
  (R 0x81a 0x81a, SB_OLetter);
  (R 0x81b 0x823, SB_Extend);
  (R 0x824 0x824, SB_OLetter);
  (R 0x825 0x827, SB_Extend);
  (R 0x828 0x828, SB_OLetter);
  (R 0x829 0x82d, SB_Extend);
  (R 0x840 0x858, SB_OLetter);
  (R 0x859 0x85b, SB_Extend);
  (R 0x860 0x86a, SB_OLetter);
  (R 0x8a0 0x8b4, SB_OLetter);
  (R 0x8b6 0x8bd, SB_OLetter);
  (R 0x8d4 0x8e1, SB_Extend);
  (R 0x8e2 0x8e2, SB_Format);
  (R 0x8e3 0x903, SB_Extend);
  (R 0x904 0x939, SB_OLetter);
  (R 0x93a 0x93c, SB_Extend);
  (R 0x93d 0x93d, SB_OLetter);
  (R 0x93e 0x94f, SB_Extend);
  (R 0x950 0x950, SB_OLetter);
  (R 0x951 0x957, SB_Extend);
  (R 0x958 0x961, SB_OLetter);
  (R 0x962 0x963, SB_Extend);
  (R 0x964 0x965, SB_STerm);
  (R 0x966 0x96f, SB_Numeric);
  (R 0x971 0x980, SB_OLetter);
  (R 0x981 0x983, SB_Extend);
  (R 0x985 0x98c, SB_OLetter);
  (R 0x98f 0x990, SB_OLetter);
  (R 0x993 0x9a8, SB_OLetter);
  (R 0x9aa 0x9b0, SB_OLetter);
  (R 0x9b2 0x9b2, SB_OLetter);
  (R 0x9b6 0x9b9, SB_OLetter);
  (R 0x9bc 0x9bc, SB_Extend);
  (R 0x9bd 0x9bd, SB_OLetter);
  (R 0x9be 0x9c4, SB_Extend);
  (R 0x9c7 0x9c8, SB_Extend);
  (R 0x9cb 0x9cd, SB_Extend);
  (R 0x9ce 0x9ce, SB_OLetter);
  (R 0x9d7 0x9d7, SB_Extend);
  (R 0x9dc 0x9dd, SB_OLetter);
  (R 0x9df 0x9e1, SB_OLetter);
  (R 0x9e2 0x9e3, SB_Extend);
  (R 0x9e6 0x9ef, SB_Numeric);
  (R 0x9f0 0x9f1, SB_OLetter);
  (R 0x9fc 0x9fc, SB_OLetter);
  (R 0xa01 0xa03, SB_Extend);
  (R 0xa05 0xa0a, SB_OLetter);
  (R 0xa0f 0xa10, SB_OLetter);
  (R 0xa13 0xa28, SB_OLetter);
  (R 0xa2a 0xa30, SB_OLetter);
  (R 0xa32 0xa33, SB_OLetter);
  (R 0xa35 0xa36, SB_OLetter);
  (R 0xa38 0xa39, SB_OLetter);
  (R 0xa3c 0xa3c, SB_Extend);
  (R 0xa3e 0xa42, SB_Extend);
  (R 0xa47 0xa48, SB_Extend);
  (R 0xa4b 0xa4d, SB_Extend);
  (R 0xa51 0xa51, SB_Extend);
  (R 0xa59 0xa5c, SB_OLetter);
  (R 0xa5e 0xa5e, SB_OLetter);
  (R 0xa66 0xa6f, SB_Numeric);
  (R 0xa70 0xa71, SB_Extend);
  (R 0xa72 0xa74, SB_OLetter);
  (R 0xa75 0xa75, SB_Extend);
  (R 0xa81 0xa83, SB_Extend);
  (R 0xa85 0xa8d, SB_OLetter);
  (R 0xa8f 0xa91, SB_OLetter);
  (R 0xa93 0xaa8, SB_OLetter);
  (R 0xaaa 0xab0, SB_OLetter);
  (R 0xab2 0xab3, SB_OLetter);
  (R 0xab5 0xab9, SB_OLetter);
  (R 0xabc 0xabc, SB_Extend);
  (R 0xabd 0xabd, SB_OLetter);
  (R 0xabe 0xac5, SB_Extend);
  (R 0xac7 0xac9, SB_Extend);
  (R 0xacb 0xacd, SB_Extend);
  (R 0xad0 0xad0, SB_OLetter);
  (R 0xae0 0xae1, SB_OLetter);
  (R 0xae2 0xae3, SB_Extend);
  (R 0xae6 0xaef, SB_Numeric);
  (R 0xaf9 0xaf9, SB_OLetter);
  (R 0xafa 0xaff, SB_Extend);
  (R 0xb01 0xb03, SB_Extend);
  (R 0xb05 0xb0c, SB_OLetter);
  (R 0xb0f 0xb10, SB_OLetter);
  (R 0xb13 0xb28, SB_OLetter);
  (R 0xb2a 0xb30, SB_OLetter);
  (R 0xb32 0xb33, SB_OLetter);
  (R 0xb35 0xb39, SB_OLetter);
  (R 0xb3c 0xb3c, SB_Extend);
  (R 0xb3d 0xb3d, SB_OLetter);
  (R 0xb3e 0xb44, SB_Extend);
  (R 0xb47 0xb48, SB_Extend);
  (R 0xb4b 0xb4d, SB_Extend);
  (R 0xb56 0xb57, SB_Extend);
  (R 0xb5c 0xb5d, SB_OLetter);
  (R 0xb5f 0xb61, SB_OLetter);
  (R 0xb62 0xb63, SB_Extend);
  (R 0xb66 0xb6f, SB_Numeric);
  (R 0xb71 0xb71, SB_OLetter);
  (R 0xb82 0xb82, SB_Extend);
  (R 0xb83 0xb83, SB_OLetter);
  (R 0xb85 0xb8a, SB_OLetter);
  (R 0xb8e 0xb90, SB_OLetter);
  (R 0xb92 0xb95, SB_OLetter);
  (R 0xb99 0xb9a, SB_OLetter);
  (R 0xb9c 0xb9c, SB_OLetter);
  (R 0xb9e 0xb9f, SB_OLetter);
  (R 0xba3 0xba4, SB_OLetter);
  (R 0xba8 0xbaa, SB_OLetter);
  (R 0xbae 0xbb9, SB_OLetter);
  (R 0xbbe 0xbc2, SB_Extend);
  (R 0xbc6 0xbc8, SB_Extend);
  (R 0xbca 0xbcd, SB_Extend);
  (R 0xbd0 0xbd0, SB_OLetter);
  (R 0xbd7 0xbd7, SB_Extend);
  (R 0xbe6 0xbef, SB_Numeric);
  (R 0xc00 0xc03, SB_Extend);
  (R 0xc05 0xc0c, SB_OLetter);
  (R 0xc0e 0xc10, SB_OLetter);
  (R 0xc12 0xc28, SB_OLetter);
  (R 0xc2a 0xc39, SB_OLetter);
  (R 0xc3d 0xc3d, SB_OLetter);
  (R 0xc3e 0xc44, SB_Extend);
  (R 0xc46 0xc48, SB_Extend);
  (R 0xc4a 0xc4d, SB_Extend);
  (R 0xc55 0xc56, SB_Extend);
  (R 0xc58 0xc5a, SB_OLetter);
  (R 0xc60 0xc61, SB_OLetter);
  (R 0xc62 0xc63, SB_Extend);
  (R 0xc66 0xc6f, SB_Numeric);
  (R 0xc80 0xc80, SB_OLetter);
  (R 0xc81 0xc83, SB_Extend);
  (R 0xc85 0xc8c, SB_OLetter);
  (R 0xc8e 0xc90, SB_OLetter);
  (R 0xc92 0xca8, SB_OLetter);
  (R 0xcaa 0xcb3, SB_OLetter);
  (R 0xcb5 0xcb9, SB_OLetter);
  (R 0xcbc 0xcbc, SB_Extend);
  (R 0xcbd 0xcbd, SB_OLetter);
  (R 0xcbe 0xcc4, SB_Extend);
  (R 0xcc6 0xcc8, SB_Extend);
  (R 0xcca 0xccd, SB_Extend);
  (R 0xcd5 0xcd6, SB_Extend);
  (R 0xcde 0xcde, SB_OLetter);
  (R 0xce0 0xce1, SB_OLetter);
  (R 0xce2 0xce3, SB_Extend);
  (R 0xce6 0xcef, SB_Numeric);
  (R 0xcf1 0xcf2, SB_OLetter);
  (R 0xd00 0xd03, SB_Extend);
  (R 0xd05 0xd0c, SB_OLetter);
  (R 0xd0e 0xd10, SB_OLetter);
  (R 0xd12 0xd3a, SB_OLetter);
  (R 0xd3b 0xd3c, SB_Extend);
  (R 0xd3d 0xd3d, SB_OLetter);
  (R 0xd3e 0xd44, SB_Extend);
  (R 0xd46 0xd48, SB_Extend);
  (R 0xd4a 0xd4d, SB_Extend);
  (R 0xd4e 0xd4e, SB_OLetter);
  (R 0xd54 0xd56, SB_OLetter);
  (R 0xd57 0xd57, SB_Extend);
  (R 0xd5f 0xd61, SB_OLetter);
  (R 0xd62 0xd63, SB_Extend);
  (R 0xd66 0xd6f, SB_Numeric);
  (R 0xd7a 0xd7f, SB_OLetter);
  (R 0xd82 0xd83, SB_Extend);
  (R 0xd85 0xd96, SB_OLetter);
  (R 0xd9a 0xdb1, SB_OLetter);
  (R 0xdb3 0xdbb, SB_OLetter);
  (R 0xdbd 0xdbd, SB_OLetter)].

Definition SENTENCE_BREAK_2 : list (CharRange * SentenceBreak) := [
  (R 0xdc0 0xdc6, SB_OLetter);
  (R 0xdca 0xdca, SB_Extend);
  (R 0xdcf 0xdd4, SB_Extend);
  (R 0xdd6 0xdd6, SB_Extend);
  (R 0xdd8 0xddf, SB_Extend);
  (R 0xde6 0xdef, SB_Numeric);
  (R 0xdf2 0xdf3, SB_Extend);
  (R 0xe01 0xe30, SB_OLetter);
  (R 0xe31 0xe31, SB_Extend);
  (R 0xe32 0xe33, SB_OLetter);
  (R 0xe34 0xe3a, SB_Extend);
  (R 0xe40 0xe46, SB_OLetter);
  (R 0xe47 0xe4e, SB_Extend);
  (R 0xe50 0xe59, SB_Numeric);
  (R 0xe81 0xe82, SB_OLetter);
  (R 0xe84 0xe84, SB_OLetter);
  (R 0xe87 0xe88, SB_OLetter);
  (R 0xe8a 0xe8a, SB_OLetter);
  (R 0xe8d 0xe8d, SB_OLetter);
  (R 0xe94 0xe97, SB_OLetter);
  (R 0xe99 0xe9f, SB_OLetter);
  (R 0xea1 0xea3, SB_OLetter);
  (R 0xea5 0xea5, SB_OLetter);
  (R 0xea7 0xea7, SB_OLetter);
  (R 0xeaa 0xeab, SB_OLetter);
  (R 0xead 0xeb0, SB_OLetter);
  (R 0xeb1 0xeb1, SB_Extend);
  (R 0xeb2 0xeb3, SB_OLetter);
  (R 0xeb4 0xeb9, SB_Extend);
  (R 0xebb 0xebc, SB_Extend);
  (R 0xebd 0xebd, SB_OLetter);
  (R 0xec0 0xec4, SB_OLetter);
  (R 0xec6 0xec6, SB_OLetter);
  (R 0xec8 0xecd, SB_Extend);
  (R 0xed0 0xed9, SB_Numeric);
  (R 0xedc 0xedf, SB_OLetter);
  (R 0xf00 0xf00, SB_OLetter);
  (R 0xf18 0xf19, SB_Extend);
  (R 0xf20 0xf29, SB_Numeric);
  (R 0xf35 0xf35, SB_Extend);
  (R 0xf37 0xf37, SB_Extend);
  (R 0xf39 0xf39, SB_Extend);
  (R 0xf3a 0xf3d, SB_Close);
  (R 0xf3e 0xf3f, SB_Extend);
  (R 0xf40 0xf47, SB_OLetter);
  (R 0xf49 0xf6c, SB_OLetter);
  (R 0xf71 0xf84, SB_Extend);
  (R 0xf86 0xf87, SB_Extend);
  (R 0xf88 0xf8c, SB_OLetter);
  (R 0xf8d 0xf97, SB_Extend);
  (R 0xf99 0xfbc, SB_Extend);
  (R 0xfc6 0xfc6, SB_Extend);
  (R 0x1000 0x102a, SB_OLetter);
  (R 0x102b 0x103e, SB_Extend);
  (R 0x103f 0x103f, SB_OLetter);
  (R 0x1040 0x1049, SB_Numeric);
  (R 0x104a 0x104b, SB_STerm);
  (R 0x1050 0x1055, SB_OLetter);
  (R 0x1056 0x1059, SB_Extend);
  (R 0x105a 0x105d, SB_OLetter);
  (R 0x105e 0x1060, SB_Extend);
  (R 0x1061 0x1061, SB_OLetter);
  (R 0x1062 0x1064, SB_Extend);
  (R 0x1065 0x1066, SB_OLetter);
  (R 0x1067 0x106d, SB_Extend);
  (R 0x106e 0x1070, SB_OLetter);
  (R 0x1071 0x1074, SB_Extend);
  (R 0x1075 0x1081, SB_OLetter);
  (R 0x1082 0x108d, SB_Extend);
  (R 0x108e 0x108e, SB_OLetter);
  (R 0x108f 0x108f, SB_Extend);
  (R 0x1090 0x1099, SB_Numeric);
  (R 0x109a 0x109d, SB_Extend);
  (R 0x10a0 0x10c5, SB_Upper);
  (R 0x10c7 0x10c7, SB_Upper);
  (R 0x10cd 0x10cd, SB_Upper);
  (R 0x10d0 0x10fa, SB_OLetter);
  (R 0x10fc 0x1248, SB_OLetter);
  (R 0x124a 0x124d, SB_OLetter);
  (R 0x1250 0x1256, SB_OLetter);
  (R 0x1258 0x1258, SB_OLetter);
  (R 0x125a 0x125d, SB_OLetter);
  (R 0x1260 0x1288, SB_OLetter);
  (R 0x128a 0x128d, SB_OLetter);
  (R 0x1290 0x12b0, SB_OLetter);
  (R 0x12b2 0x12b5, SB_OLetter);
  (R 0x12b8 0x12be, SB_OLetter);
  (R 0x12c0 0x12c0, SB_OLetter);
  (R 0x12c2 0x12c5, SB_OLetter);
  (R 0x12c8 0x12d6, SB_OLetter);
  (R 0x12d8 0x1310, SB_OLetter);
  (R 0x1312 0x1315, SB_OLetter);
  (R 0x1318 0x135a, SB_OLetter);
  (R 0x135d 0x135f, SB_Extend);
  (R 0x1362 0x1362, SB_STerm);
  (R 0x1367 0x1368, SB_STerm);
  (R 0x1380 0x138f, SB_OLetter);
  (R 0x13a0 0x13f5, SB_Upper);
  (R 0x13f8 0x13fd, SB_Lower);
  (R 0x1401 0x166c, SB_OLetter);
  (R 0x166e 0x166e, SB_STerm);
  (R 0x166f 0x167f, SB_OLetter);
  (R 0x1680 0x1680, SB_Sp);
  (R 0x1681 0x169a, SB_OLetter);
  (R 0x169b 0x169c, SB_Close);
  (R 0x16a0 0x16ea, SB_OLetter);
  (R 0x16ee 0x16f8, SB_OLetter);
  (R 0x1700 0x170c, SB_OLetter);
  (R 0x170e 0x1711, SB_OLetter);
  (R 0x1712 0x1714, SB_Extend);
  (R 0x1720 0x1731, SB_OLetter);
  (R 0x1732 0x1734, SB_Extend);
  (R 0x1735 0x1736, SB_STerm);
  (R 0x1740 0x1751, SB_OLetter);
  (R 0x1752 0x1753, SB_Extend);
  (R 0x1760 0x176c, SB_OLetter);
  (R 0x176e 0x1770, SB_OLetter);
  (R 0x1772 0x1773, SB_Extend);
  (R 0x1780 0x17b3, SB_OLetter);
  (R 0x17b4 0x17d3, SB_Extend);
  (R 0x17d7 0x17d7, SB_OLetter);
  (R 0x17dc 0x17dc, SB_OLetter);
  (R 0x17dd 0x17dd, SB_Extend);
  (R 0x17e0 0x17e9, SB_Numeric);
  (R 0x1802 0x1802, SB_SContinue);
  (R 0x1803 0x1803, SB_STerm);
  (R 0x1808 0x1808, SB_SContinue);
  (R 0x1809 0x1809, SB_STerm);
  (R 0x180b 0x180d, SB_Extend);
  (R 0x180e 0x180e, SB_Format);
  (R 0x1810 0x1819, SB_Numeric);
  (R 0x1820 0x1877, SB_OLetter);
  (R 0x1880 0x1884, SB_OLetter);
  (R 0x1885 0x1886, SB_Extend);
  (R 0x1887 0x18a8, SB_OLetter);
  (R 0x18a9 0x18a9, SB_Extend);
  (R 0x18aa 0x18aa, SB_OLetter);
  (R 0x18b0 0x18f5, SB_OLetter);
  (R 0x1900 0x191e, SB_OLetter);
  (R 0x1920 0x192b, SB_Extend);
  (R 0x1930 0x193b, SB_Extend);
  (R 0x1944 0x1945, SB_STerm);
  (R 0x1946 0x194f, SB_Numeric);
  (R 0x1950 0x196d, SB_OLetter);
  (R 0x1970 0x1974, SB_OLetter);
  (R 0x1980 0x19ab, SB_OLetter);
  (R 0x19b0 0x19c9, SB_OLetter);
  (R 0x19d0 0x19d9, SB_Numeric);
  (R 0x1a00 0x1a16, SB_OLetter);
  (R 0x1a17 0x1a1b, SB_Extend);
  (R 0x1a20 0x1a54, SB_OLetter);
  (R 0x1a55 0x1a5e, SB_Extend);
  (R 0x1a60 0x1a7c, SB_Extend);
  (R 0x1a7f 0x1a7f, SB_Extend);
  (R 0x1a80 0x1a89, SB_Numeric);
  (R 0x1a90 0x1a99, SB_Numeric);
  (R 0x1aa7 0x1aa7, SB_OLetter);
  (R 0x1aa8 0x1aab, SB_STerm);
  (R 0x1ab0 0x1abe, SB_Extend);
  (R 0x1b00 0x1b04, SB_Extend);
  (R 0x1b05 0x1b33, SB_OLetter);
  (R 0x1b34 0x1b44, SB_Extend);
  (R 0x1b45 0x1b4b, SB_OLetter);
  (R 0x1b50 0x1b59, SB_Numeric);
  (R 0x1b5a 0x1b5b, SB_STerm);
  (R 0x1b5e 0x1b5f, SB_STerm);
  (R 0x1b6b 0x1b73, SB_Extend);
  (R 0x1b80 0x1b82, SB_Extend);
  (R 0x1b83 0x1ba0, SB_OLetter);
  (R 0x1ba1 0x1bad, SB_Extend);
  (R 0x1bae 0x1baf, SB_OLetter);
  (R 0x1bb0 0x1bb9, SB_Numeric);
  (R 0x1bba 0x1be5, SB_OLetter);
  (R 0x1be6 0x1bf3, SB_Extend);
  (R 0x1c00 0x1c23, SB_OLetter);
  (R 0x1c24 0x1c37, SB_Extend);
  (R 0x1c3b 0x1c3c, SB_STerm);
  (R 0x1c40 0x1c49, SB_Numeric);
  (R 0x1c4d 0x1c4f, SB_OLetter);
  (R 0x1c50 0x1c59, SB_Numeric);
  (R 0x1c5a 0x1c7d, SB_OLetter);
  (R 0x1c7e 0x1c7f, SB_STerm);
  (R 0x1c80 0x1c88, SB_Lower);
  (R 0x1cd0 0x1cd2, SB_Extend);
  (R 0x1cd4 0x1ce8, SB_Extend);
  (R 0x1ce9 0x1cec, SB_OLetter);
  (R 0x1ced 0x1ced, SB_Extend);
  (R 0x1cee 0x1cf1, SB_OLetter);
  (R 0x1cf2 0x1cf4, SB_Extend);
  (R 0x1cf5 0x1cf6, SB_OLetter);
  (R 0x1cf7 0x1cf9, SB_Extend);
  (R 0x1d00 0x1dbf, SB_Lower);
  (R 0x1dc0 0x1df9, SB_Extend);
  (R 0x1dfb 0x1dff, SB_Extend);
  (R 0x1e00 0x1e00, SB_Upper);
  (R 0x1e01 0x1e01, SB_Lower);
  (R 0x1e02 0x1e02, SB_Upper);
  (R 0x1e03 0x1e03, SB_Lower);
  (R 0x1e04 0x1e04, SB_Upper);
  (R 0x1e05 0x1e05, SB_Lower);
  (R 0x1e06 0x1e06, SB_Upper);
  (R 0x1e07 0x1e07, SB_Lower);
  (R 0x1e08 0x1e08, SB_Upper);
  (R 0x1e09 0x1e09, SB_Lower);
  (R 0x1e0a 0x1e0a, SB_Upper);
  (R 0x1e0b 0x1e0b, SB_Lower);
  (R 0x1e0c 0x1e0c, SB_Upper);
  (R 0x1e0d 0x1e0d, SB_Lower);
  (R 0x1e0e 0x1e0e, SB_Upper);
  (R 0x1e0f 0x1e0f, SB_Lower);
  (R 0x1e10 0x1e10, SB_Upper);
  (R 0x1e11 0x1e11, SB_Lower);
  (R 0x1e12 0x1e12, SB_Upper);
  (R 0x1e13 0x1e13, SB_Lower);
  (R 0x1e14 0x1e14, SB_Upper);
  (R 0x1e15 0x1e15, SB_Lower);
  (R 0x1e16 0x1e16, SB_Upper);
  (R 0x1e17 0x1e17, SB_Lower);
  (R 0x1e18 0x1e18, SB_Upper);
  (R 0x1e19 0x1e19, SB_Lower);
  (R 0x1e1a 0x1e1a, SB_Upper);
  (R 0x1e1b 0x1e1b, SB_Lower);
  (R 0x1e1c 0x1e1c, SB_Upper);
  (R 0x1e1d 0x1e1d, SB_Lower);
  (R 0x1e1e 0x1e1e, SB_Upper);
  (R 0x1e1f 0x1e1f, SB_Lower);
  (R 0x1e20 0x1e20, SB_Upper);
  (R 0x1e21 0x1e21, SB_Lower);
  (R 0x1e22 0x1e22, SB_Upper);
  (R 0x1e23 0x1e23, SB_Lower);
  (R 0x1e24 0x1e24, SB_Upper);
  (R 0x1e25 0x1e25, SB_Lower);
  (R 0x1e26 0x1e26, SB_Upper);
  (R 0x1e27 0x1e27, SB_Lower);
  (R 0x1e28 0x1e28, SB_Upper);
  (R 0x1e29 0x1e29, SB_Lower);
  (R 0x1e2a 0x1e2a, SB_Upper);
  (R 0x1e2b 0x1e2b, SB_Lower);
  (R 0x1e2c 0x1e2c, SB_Upper);
  (R 0x1e2d 0x1e2d, SB_Lower);
  (R 0x1e2e 0x1e2e, SB_Upper);
  (R 0x1e2f 0x1e2f, SB_Lower);
  (R 0x1e30 0x1e30, SB_Upper);
  (R 0x1e31 0x1e31, SB_Lower);
  (R 0x1e32 0x1e32, SB_Upper);
  (R 0x1e33 0x1e33, SB_Lower);
  (R 0x1e34 0x1e34, SB_Upper);
  (R 0x1e35 0x1e35, SB_Lower);
  (R 0x1e36 0x1e36, SB_Upper);
  (R 0x1e37 0x1e37, SB_Lower);
  (R 0x1e38 0x1e38, SB_Upper);
  (R 0x1e39 0x1e39, SB_Lower);
  (R 0x1e3a 0x1e3a, SB_Upper);
  (R 0x1e3b 0x1e3b, SB_Lower);
  (R 0x1e3c 0x1e3c, SB_Upper);
  (R 0x1e3d 0x1e3d, SB_Lower);
  (R 0x1e3e 0x1e3e, SB_Upper);
  (R 0x1e3f 0x1e3f, SB_Lower);
  (R 0x1e40 0x1e40, SB_Upper);
  (R 0x1e41 0x1e41, SB_Lower);
  (R 0x1e42 0x1e42, SB_Upper);
  (R 0x1e43 0x1e43, SB_Lower);
  (R 0x1e44 0x1e44, SB_Upper);
  (R 0x1e45 0x1e45, SB_Lower);
  (R 0x1e46 0x1e46, SB_Upper);
  (R 0x1e47 0x1e47, SB_Lower);
  (R 0x1e48 0x1e48, SB_Upper);
  (R 0x1e49 0x1e49, SB_Lower);
  (R 0x1e4a 0x1e4a, SB_Upper);
  (R 0x1e4b 0x1e4b, SB_Lower);
  (R 0x1e4c 0x1e4c, SB_Upper);
  (R 0x1e4d 0x1e4d, SB_Lower);
  (R 0x1e4e 0x1e4e, SB_Upper);
  (R 0x1e4f 0x1e4f, SB_Lower);
  (R 0x1e50 0x1e50, SB_Upper);
  (R 0x1e51 0x1e51, SB_Lower);
  (R 0x1e52 0x1e52, SB_Upper);
  (R 0x1e53 0x1e53, SB_Lower);
  (R 0x1e54 0x1e54, SB_Upper);
  (R 0x1e55 0x1e55, SB_Lower);
  (R 0x1e56 0x1e56, SB_Upper);
  (R 0x1e57 0x1e57, SB_Lower);
  (R 0x1e58 0x1e58, SB_Upper);
  (R 0x1e59 0x1e59, SB_Lower);
  (R 0x1e5a 0x1e5a, SB_Upper);
  (R 0x1e5b 0x1e5b, SB_Lower);
  (R 0x1e5c 0x1e5c, SB_Upper);
  (R 0x1e5d 0x1e5d, SB_Lower);
  (R 0x1e5e 0x1e5e, SB_Upper);
  (R 0x1e5f 0x1e5f, SB_Lower);
  (R 0x1e60 0x1e60, SB_Upper);
  (R 0x1e61 0x1e61, SB_Lower);
  (R 0x1e62 0x1e62, SB_Upper);
  (R 0x1e63 0x1e63, SB_Lower);
  (R 0x1e64 0x1e64, SB_Upper);
  (R 0x1e65 0x1e65, SB_Lower);
  (R 0x1e66 0x1e66, SB_Upper);
  (R 0x1e67 0x1e67, SB_Lower);
  (R 0x1e68 0x1e68, SB_Upper);
  (R 0x1e69 0x1e69, SB_Lower);
  (R 0x1e6a 0x1e6a, SB_Upper);
  (R 0x1e6b 0x1e6b, SB_Lower);
  (R 0x1e6c 0x1e6c, SB_Upper);
  (R 0x1e6d 0x1e6d, SB_Lower);
  (R 0x1e6e 0x1e6e, SB_Upper);
  (R 0x1e6f 0x1e6f, SB_Lower);
  (R 0x1e70 0x1e70, SB_Upper);
  (R 0x1e71 0x1e71, SB_Lower);
  (R 0x1e72 0x1e72, SB_Upper);
  (R 0x1e73 0x1e73, SB_Lower);
  (R 0x1e74 0x1e74, SB_Upper);
  (R 0x1e75 0x1e75, SB_Lower);
  (R 0x1e76 0x1e76, SB_Upper);
  (R 0x1e77 0x1e77, SB_Lower);
  (R 0x1e78 0x1e78, SB_Upper);
  (R 0x1e79 0x1e79, SB_Lower);
  (R 0x1e7a 0x1e7a, SB_Upper);
  (R 0x1e7b 0x1e7b, SB_Lower);
  (R 0x1e7c 0x1e7c, SB_Upper);
  (R 0x1e7d 0x1e7d, SB_Lower);
  (R 0x1e7e 0x1e7e, SB_Upper);
  (R 0x1e7f 0x1e7f, SB_Lower);
  (R 0x1e80 0x1e80, SB_Upper);
  (R 0x1e81 0x1e81, SB_Lower);
  (R 0x1e82 0x1e82, SB_Upper);
  (R 0x1e83 0x1e83, SB_Lower);
  (R 0x1e84 0x1e84, SB_Upper);
  (R 0x1e85 0x1e85, SB_Lower);
  (R 0x1e86 0x1e86, SB_Upper);
  (R 0x1e87 0x1e87, SB_Lower);
  (R 0x1e88 0x1e88, SB_Upper);
  (R 0x1e89 0x1e89, SB_Lower);
  (R 0x1e8a 0x1e8a, SB_Upper);
  (R 0x1e8b 0x1e8b, SB_Lower);
  (R 0x1e8c 0x1e8c, SB_Upper);
  (R 0x1e8d 0x1e8d, SB_Lower);
  (R 0x1e8e 0x1e8e, SB_Upper);
  (R 0x1e8f 0x1e8f, SB_Lower);
  (R 0x1e90 0x1e90, SB_Upper);
  (R 0x1e91 0x1e91, SB_Lower);
  (R 0x1e92 0x1e92, SB_Upper);
  (R 0x1e93 0x1e93, SB_Lower);
  (R 0x1e94 0x1e94, SB_Upper);
  (R 0x1e95 0x1e9d, SB_Lower);
  (R 0x1e9e 0x1e9e, SB_Upper);
  (R 0x1e9f 0x1e9f, SB_Lower);
  (R 0x1ea0 0x1ea0, SB_Upper);
  (R 0x1ea1 0x1ea1, SB_Lower);
  (R 0x1ea2 0x1ea2, SB_Upper);
  (R 0x1ea3 0x1ea3, SB_Lower);
  (R 0x1ea4 0x1ea4, SB_Upper);
  (R 0x1ea5 0x1ea5, SB_Lower);
  (R 0x1ea6 0x1ea6, SB_Upper);
  (R 0x1ea7 0x1ea7, SB_Lower);
  (R 0x1ea8 0x1ea8, SB_Upper);
  (R 0x1ea9 0x1ea9, SB_Lower);
  (R 0x1eaa 0x1eaa, SB_Upper);
  (R 0x1eab 0x1eab, SB_Lower);
  (R 0x1eac 0x1eac, SB_Upper);
  (R 0x1ead 0x1ead, SB_Lower);
  (R 0x1eae 0x1eae, SB_Upper);
  (R 0x1eaf 0x1eaf, SB_Lower);
  (R 0x1eb0 0x1eb0, SB_Upper);
  (R 0x1eb1 0x1eb1, SB_Lower);
  (R 0x1eb2 0x1eb2, SB_Upper);
  (R 0x1eb3 0x1eb3, SB_Lower);
  (R 0x1eb4 0x1eb4, SB_Upper);
  (R 0x1eb5 0x1eb5, SB_Lower);
  (R 0x1eb6 0x1eb6, SB_Upper);
  (R 0x1eb7 0x1eb7, SB_Lower);
  (R 0x1eb8 0x1eb8, SB_Upper);
  (R 0x1eb9 0x1eb9, SB_Lower);
  (R 0x1eba 0x1eba, SB_Upper);
  (R 0x1ebb 0x1ebb, SB_Lower);
  (R 0x1ebc 0x1ebc, SB_Upper);
  (R 0x1ebd 0x1ebd, SB_Lower);
  (R 0x1ebe 0x1ebe, SB_Upper);
  (R 0x1ebf 0x1ebf, SB_Lower);
  (R 0x1ec0 0x1ec0, SB_Upper);
  (R 0x1ec1 0x1ec1, SB_Lower);
  (R 0x1ec2 0x1ec2, SB_Upper);
  (R 0x1ec3 0x1ec3, SB_Lower);
  (R 0x1ec4 0x1ec4, SB_Upper);
  (R 0x1ec5 0x1ec5, SB_Lower);
  (R 0x1ec6 0x1ec6, SB_Upper);
  (R 0x1ec7 0x1ec7, SB_Lower);
  (R 0x1ec8 0x1ec8, SB_Upper);
  (R 0x1ec9 0x1ec9, SB_Lower);
  (R 0x1eca 0x1eca, SB_Upper);
  (R 0x1ecb 0x1ecb, SB_Lower);
  (R 0x1ecc 0x1ecc, SB_Upper);
  (R 0x1ecd 0x1ecd, SB_Lower);
  (R 0x1ece 0x1ece, SB_Upper);
  (R 0x1ecf 0x1ecf, SB_Lower);
  (R 0x1ed0 0x1ed0, SB_Upper);
  (R 0x1ed1 0x1ed1, SB_Lower);
  (R 0x1ed2 0x1ed2, SB_Upper);
  (R 0x1ed3 0x1ed3, SB_Lower);
  (R 0x1ed4 0x1ed4, SB_Upper);
  (R 0x1ed5 0x1ed5, SB_Lower)].

Definition SENTENCE_BREAK_3 : list (CharRange * SentenceBreak) := [
  (R 0x1ed6 0x1ed6, SB_Upper);
  (R 0x1ed7 0x1ed7, SB_Lower);
  (R 0x1ed8 0x1ed8, SB_Upper);
  (R 0x1ed9 0x1ed9, SB_Lower);
  (R 0x1eda 0x1eda, SB_Upper);
  (R 0x1edb 0x1edb, SB_Lower);
  (R 0x1edc 0x1edc, SB_Upper);
  (R 0x1edd 0x1edd, SB_Lower);
  (R 0x1ede 0x1ede, SB_Upper);
  (R 0x1edf 0x1edf, SB_Lower);
  (R 0x1ee0 0x1ee0, SB_Upper);
  (R 0x1ee1 0x1ee1, SB_Lower);
  (R 0x1ee2 0x1ee2, SB_Upper);
  (R 0x1ee3 0x1ee3, SB_Lower);
  (R 0x1ee4 0x1ee4, SB_Upper);
  (R 0x1ee5 0x1ee5, SB_Lower);
  (R 0x1ee6 0x1ee6, SB_Upper);
  (R 0x1ee7 0x1ee7, SB_Lower);
  (R 0x1ee8 0x1ee8, SB_Upper);
  (R 0x1ee9 0x1ee9, SB_Lower);
  (R 0x1eea 0x1eea, SB_Upper);
  (R 0x1eeb 0x1eeb, SB_Lower);
  (R 0x1eec 0x1eec, SB_Upper);
  (R 0x1eed 0x1eed, SB_Lower);
  (R 0x1eee 0x1eee, SB_Upper);
  (R 0x1eef 0x1eef, SB_Lower);
  (R 0x1ef0 0x1ef0, SB_Upper);
  (R 0x1ef1 0x1ef1, SB_Lower);
  (R 0x1ef2 0x1ef2, SB_Upper);
  (R 0x1ef3 0x1ef3, SB_Lower);
  (R 0x1ef4 0x1ef4, SB_Upper);
  (R 0x1ef5 0x1ef5, SB_Lower);
  (R 0x1ef6 0x1ef6, SB_Upper);
  (R 0x1ef7 0x1ef7, SB_Lower);
  (R 0x1ef8 0x1ef8, SB_Upper);
  (R 0x1ef9 0x1ef9, SB_Lower);
  (R 0x1efa 0x1efa, SB_Upper);
  (R 0x1efb 0x1efb, SB_Lower);
  (R 0x1efc 0x1efc, SB_Upper);
  (R 0x1efd 0x1efd, SB_Lower);
  (R 0x1efe 0x1efe, SB_Upper);
  (R 0x1eff 0x1f07, SB_Lower);
  (R 0x1f08 0x1f0f, SB_Upper);
  (R 0x1f10 0x1f15, SB_Lower);
  (R 0x1f18 0x1f1d, SB_Upper);
  (R 0x1f20 0x1f27, SB_Lower);
  (R 0x1f28 0x1f2f, SB_Upper);
  (R 0x1f30 0x1f37, SB_Lower);
  (R 0x1f38 0x1f3f, SB_Upper);
  (R 0x1f40 0x1f45, SB_Lower);
  (R 0x1f48 0x1f4d, SB_Upper);
  (R 0x1f50 0x1f57, SB_Lower);
  (R 0x1f59 0x1f59, SB_Upper);
  (R 0x1f5b 0x1f5b, SB_Upper);
  (R 0x1f5d 0x1f5d, SB_Upper);
  (R 0x1f5f 0x1f5f, SB_Upper);
  (R 0x1f60 0x1f67, SB_Lower);
  (R 0x1f68 0x1f6f, SB_Upper);
  (R 0x1f70 0x1f7d, SB_Lower);
  (R 0x1f80 0x1f87, SB_Lower);
  (R 0x1f88 0x1f8f, SB_Upper);
  (R 0x1f90 0x1f97, SB_Lower);
  (R 0x1f98 0x1f9f, SB_Upper);
  (R 0x1fa0 0x1fa7, SB_Lower);
  (R 0x1fa8 0x1faf, SB_Upper);
  (R 0x1fb0 0x1fb4, SB_Lower);
  (R 0x1fb6 0x1fb7, SB_Lower);
  (R 0x1fb8 0x1fbc, SB_Upper);
  (R 0x1fbe 0x1fbe, SB_Lower);
  (R 0x1fc2 0x1fc4, SB_Lower);
  (R 0x1fc6 0x1fc7, SB_Lower);
  (R 0x1fc8 0x1fcc, SB_Upper);
  (R 0x1fd0 0x1fd3, SB_Lower);
  (R 0x1fd6 0x1fd7, SB_Lower);
  (R 0x1fd8 0x1fdb, SB_Upper);
  (R 0x1fe0 0x1fe7, SB_Lower);
  (R 0x1fe8 0x1fec, SB_Upper);
  (R 0x1ff2 0x1ff4, SB_Lower);
  (R 0x1ff6 0x1ff7, SB_Lower);
  (R 0x1ff8 0x1ffc, SB_Upper);
  (R 0x2000 0x200a, SB_Sp);
  (R 0x200b 0x200b, SB_Format);
  (R 0x200c 0x200d, SB_Extend);
  (R 0x200e 0x200f, SB_Format);
  (R 0x2013 0x2014, SB_SContinue);
  (R 0x2018 0x201f, SB_Close);
  (R 0x2024 0x2024, SB_ATerm);
  (R 0x2028 0x2029, SB_Sep);
  (R 0x202a 0x202e, SB_Format);
  (R 0x202f 0x202f, SB_Sp);
  (R 0x2039 0x203a, SB_Close);
  (R 0x203c 0x203d, SB_STerm);
  (R 0x2045 0x2046, SB_Close);
  (R 0x2047 0x2049, SB_STerm);
  (R 0x205f 0x205f, SB_Sp);
  (R 0x2060 0x2064, SB_Format);
  (R 0x2066 0x206f, SB_Format);
  (R 0x2071 0x2071, SB_Lower);
  (R 0x207d 0x207e, SB_Close);
  (R 0x207f 0x207f, SB_Lower);
  (R 0x208d 0x208e, SB_Close);
  (R 0x2090 0x209c, SB_Lower);
  (R 0x20d0 0x20f0, SB_Extend);
  (R 0x2102 0x2102, SB_Upper);
  (R 0x2107 0x2107, SB_Upper);
  (R 0x210a 0x210a, SB_Lower);
  (R 0x210b 0x210d, SB_Upper);
  (R 0x210e 0x210f, SB_Lower);
  (R 0x2110 0x2112, SB_Upper);
  (R 0x2113 0x2113, SB_Lower);
  (R 0x2115 0x2115, SB_Upper);
  (R 0x2119 0x211d, SB_Upper);
  (R 0x2124 0x2124, SB_Upper);
  (R 0x2126 0x2126, SB_Upper);
  (R 0x2128 0x2128, SB_Upper);
  (R 0x212a 0x212d, SB_Upper);
  (R 0x212f 0x212f, SB_Lower);
  (R 0x2130 0x2133, SB_Upper);
  (R 0x2134 0x2134, SB_Lower);
  (R 0x2135 0x2138, SB_OLetter);
  (R 0x2139 0x2139, SB_Lower);
  (R 0x213c 0x213d, SB_Lower);
  (R 0x213e 0x213f, SB_Upper);
  (R 0x2145 0x2145, SB_Upper);
  (R 0x2146 0x2149, SB_Lower);
  (R 0x214e 0x214e, SB_Lower);
  (R 0x2160 0x216f, SB_Upper);
  (R 0x2170 0x217f, SB_Lower);
  (R 0x2180 0x2182, SB_OLetter);
  (R 0x2183 0x2183, SB_Upper);
  (R 0x2184 0x2184, SB_Lower);
  (R 0x2185 0x2188, SB_OLetter);
  (R 0x2308 0x230b, SB_Close);
  (R 0x2329 0x232a, SB_Close);
  (R 0x24b6 0x24cf, SB_Upper);
  (R 0x24d0 0x24e9, SB_Lower);
  (R 0x275b 0x2760, SB_Close);
  (R 0x2768 0x2775, SB_Close);
  (R 0x27c5 0x27c6, SB_Close);
  (R 0x27e6 0x27ef, SB_Close);
  (R 0x2983 0x2998, SB_Close);
  (R 0x29d8 0x29db, SB_Close);
  (R 0x29fc 0x29fd, SB_Close);
  (R 0x2c00 0x2c2e, SB_Upper);
  (R 0x2c30 0x2c5e, SB_Lower);
  (R 0x2c60 0x2c60, SB_Upper);
  (R 0x2c61 0x2c61, SB_Lower);
  (R 0x2c62 0x2c64, SB_Upper);
  (R 0x2c65 0x2c66, SB_Lower);
  (R 0x2c67 0x2c67, SB_Upper);
  (R 0x2c68 0x2c68, SB_Lower);
  (R 0x2c69 0x2c69, SB_Upper);
  (R 0x2c6a 0x2c6a, SB_Lower);
  (R 0x2c6b 0x2c6b, SB_Upper);
  (R 0x2c6c 0x2c6c, SB_Lower);
  (R 0x2c6d 0x2c70, SB_Upper);
  (R 0x2c71 0x2c71, SB_Lower);
  (R 0x2c72 0x2c72, SB_Upper);
  (R 0x2c73 0x2c74, SB_Lower);
  (R 0x2c75 0x2c75, SB_Upper);
  (R 0x2c76 0x2c7d, SB_Lower);
  (R 0x2c7e 0x2c80, SB_Upper);
  (R 0x2c81 0x2c81, SB_Lower);
  (R 0x2c82 0x2c82, SB_Upper);
  (R 0x2c83 0x2c83, SB_Lower);
  (R 0x2c84 0x2c84, SB_Upper);
  (R 0x2c85 0x2c85, SB_Lower);
  (R 0x2c86 0x2c86, SB_Upper);
  (R 0x2c87 0x2c87, SB_Lower);
  (R 0x2c88 0x2c88, SB_Upper);
  (R 0x2c89 0x2c89, SB_Lower);
  (R 0x2c8a 0x2c8a, SB_Upper);
  (R 0x2c8b 0x2c8b, SB_Lower);
  (R 0x2c8c 0x2c8c, SB_Upper);
  (R 0x2c8d 0x2c8d, SB_Lower);
  (R 0x2c8e 0x2c8e, SB_Upper);
  (R 0x2c8f 0x2c8f, SB_Lower);
  (R 0x2c90 0x2c90, SB_Upper);
  (R 0x2c91 0x2c91, SB_Lower);
  (R 0x2c92 0x2c92, SB_Upper);
  (R 0x2c93 0x2c93, SB_Lower);
  (R 0x2c94 0x2c94, SB_Upper);
  (R 0x2c95 0x2c95, SB_Lower);
  (R 0x2c96 0x2c96, SB_Upper);
  (R 0x2c97 0x2c97, SB_Lower);
  (R 0x2c98 0x2c98, SB_Upper);
  (R 0x2c99 0x2c99, SB_Lower);
  (R 0x2c9a 0x2c9a, SB_Upper);
  (R 0x2c9b 0x2c9b, SB_Lower);
  (R 0x2c9c 0x2c9c, SB_Upper);
  (R 0x2c9d 0x2c9d, SB_Lower);
  (R 0x2c9e 0x2c9e, SB_Upper);
  (R 0x2c9f 0x2c9f, SB_Lower);
  (R 0x2ca0 0x2ca0, SB_Upper);
  (R 0x2ca1 0x2ca1, SB_Lower);
  (R 0x2ca2 0x2ca2, SB_Upper);
  (R 0x2ca3 0x2ca3, SB_Lower);
  (R 0x2ca4 0x2ca4, SB_Upper);
  (R 0x2ca5 0x2ca5, SB_Lower);
  (R 0x2ca6 0x2ca6, SB_Upper);
  (R 0x2ca7 0x2ca7, SB_Lower);
  (R 0x2ca8 0x2ca8, SB_Upper);
  (R 0x2ca9 0x2ca9, SB_Lower);
  (R 0x2caa 0x2caa, SB_Upper);
  (R 0x2cab 0x2cab, SB_Lower);
  (R 0x2cac 0x2cac, SB_Upper);
  (R 0x2cad 0x2cad, SB_Lower);
  (R 0x2cae 0x2cae, SB_Upper);
  (R 0x2caf 0x2caf, SB_Lower);
  (R 0x2cb0 0x2cb0, SB_Upper);
  (R 0x2cb1 0x2cb1, SB_Lower);
  (R 0x2cb2 0x2cb2, SB_Upper);
  (R 0x2cb3 0x2cb3, SB_Lower);
  (R 0x2cb4 0x2cb4, SB_Upper);
  (R 0x2cb5 0x2cb5, SB_Lower);
  (R 0x2cb6 0x2cb6, SB_Upper);
  (R 0x2cb7 0x2cb7, SB_Lower);
  (R 0x2cb8 0x2cb8, SB_Upper);
  (R 0x2cb9 0x2cb9, SB_Lower);
  (R 0x2cba 0x2cba, SB_Upper);
  (R 0x2cbb 0x2cbb, SB_Lower);
  (R 0x2cbc 0x2cbc, SB_Upper);
  (R 0x2cbd 0x2cbd, SB_Lower);
  (R 0x2cbe 0x2cbe, SB_Upper);
  (R 0x2cbf 0x2cbf, SB_Lower);
  (R 0x2cc0 0x2cc0, SB_Upper);
  (R 0x2cc1 0x2cc1, SB_Lower);
  (R 0x2cc2 0x2cc2, SB_Upper);
  (R 0x2cc3 0x2cc3, SB_Lower);
  (R 0x2cc4 0x2cc4, SB_Upper);
  (R 0x2cc5 0x2cc5, SB_Lower);
  (R 0x2cc6 0x2cc6, SB_Upper);
  (R 0x2cc7 0x2cc7, SB_Lower);
  (R 0x2cc8 0x2cc8, SB_Upper);
  (R 0x2cc9 0x2cc9, SB_Lower);
  (R 0x2cca 0x2cca, SB_Upper);
  (R 0x2ccb 0x2ccb, SB_Lower);
  (R 0x2ccc 0x2ccc, SB_Upper);
  (R 0x2ccd 0x2ccd, SB_Lower);
  (R 0x2cce 0x2cce, SB_Upper);
  (R 0x2ccf 0x2ccf, SB_Lower);
  (R 0x2cd0 0x2cd0, SB_Upper);
  (R 0x2cd1 0x2cd1, SB_Lower);
  (R 0x2cd2 0x2cd2, SB_Upper);
  (R 0x2cd3 0x2cd3, SB_Lower);
  (R 0x2cd4 0x2cd4, SB_Upper);
  (R 0x2cd5 0x2cd5, SB_Lower);
  (R 0x2cd6 0x2cd6, SB_Upper);
  (R 0x2cd7 0x2cd7, SB_Lower);
  (R 0x2cd8 0x2cd8, SB_Upper);
  (R 0x2cd9 0x2cd9, SB_Lower);
  (R 0x2cda 0x2cda, SB_Upper);
  (R 0x2cdb 0x2cdb, SB_Lower);
  (R 0x2cdc 0x2cdc, SB_Upper);
  (R 0x2cdd 0x2cdd, SB_Lower);
  (R 0x2cde 0x2cde, SB_Upper);
  (R 0x2cdf 0x2cdf, SB_Lower);
  (R 0x2ce0 0x2ce0, SB_Upper);
  (R 0x2ce1 0x2ce1, SB_Lower);
  (R 0x2ce2 0x2ce2, SB_Upper);
  (R 0x2ce3 0x2ce4, SB_Lower);
  (R 0x2ceb 0x2ceb, SB_Upper);
  (R 0x2cec 0x2cec, SB_Lower);
  (R 0x2ced 0x2ced, SB_Upper);
  (R 0x2cee 0x2cee, SB_Lower);
  (R 0x2cef 0x2cf1, SB_Extend);
  (R 0x2cf2 0x2cf2, SB_Upper);
  (R 0x2cf3 0x2cf3, SB_Lower);
  (R 0x2d00 0x2d25, SB_Lower);
  (R 0x2d27 0x2d27, SB_Lower);
  (R 0x2d2d 0x2d2d, SB_Lower);
  (R 0x2d30 0x2d67, SB_OLetter);
  (R 0x2d6f 0x2d6f, SB_OLetter);
  (R 0x2d7f 0x2d7f, SB_Extend);
  (R 0x2d80 0x2d96, SB_OLetter);
  (R 0x2da0 0x2da6, SB_OLetter);
  (R 0x2da8 0x2dae, SB_OLetter);
  (R 0x2db0 0x2db6, SB_OLetter);
  (R 0x2db8 0x2dbe, SB_OLetter);
  (R 0x2dc0 0x2dc6, SB_OLetter);
  (R 0x2dc8 0x2dce, SB_OLetter);
  (R 0x2dd0 0x2dd6, SB_OLetter);
  (R 0x2dd8 0x2dde, SB_OLetter);
  (R 0x2de0 0x2dff, SB_Extend);
  (R 0x2e00 0x2e0d, SB_Close);
  (R 0x2e1c 0x2e1d, SB_Close);
  (R 0x2e20 0x2e29, SB_Close);
  (R 0x2e2e 0x2e2e, SB_STerm);
  (R 0x2e2f 0x2e2f, SB_OLetter);
  (R 0x2e3c 0x2e3c, SB_STerm);
  (R 0x2e42 0x2e42, SB_Close);
  (R 0x3000 0x3000, SB_Sp);
  (R 0x3001 0x3001, SB_SContinue);
  (R 0x3002 0x3002, SB_STerm);
  (R 0x3005 0x3007, SB_OLetter);
  (R 0x3008 0x3011, SB_Close);
  (R 0x3014 0x301b, SB_Close);
  (R 0x301d 0x301f, SB_Close);
  (R 0x3021 0x3029, SB_OLetter);
  (R 0x302a 0x302f, SB_Extend);
  (R 0x3031 0x3035, SB_OLetter);
  (R 0x3038 0x303c, SB_OLetter);
  (R 0x3041 0x3096, SB_OLetter);
  (R 0x3099 0x309a, SB_Extend);
  (R 0x309d 0x309f, SB_OLetter);
  (R 0x30a1 0x30fa, SB_OLetter);
  (R 0x30fc 0x30ff, SB_OLetter);
  (R 0x3105 0x312e, SB_OLetter);
  (R 0x3131 0x318e, SB_OLetter);
  (R 0x31a0 0x31ba, SB_OLetter);
  (R 0x31f0 0x31ff, SB_OLetter);
  (R 0x3400 0x4db5, SB_OLetter);
  (R 0x4e00 0x9fea, SB_OLetter);
  (R 0xa000 0xa48c, SB_OLetter);
  (R 0xa4d0 0xa4fd, SB_OLetter);
  (R 0xa4ff 0xa4ff, SB_STerm);
  (R 0xa500 0xa60c, SB_OLetter);
  (R 0xa60e 0xa60f, SB_STerm);
  (R 0xa610 0xa61f, SB_OLetter);
  (R 0xa620 0xa629, SB_Numeric);
  (R 0xa62a 0xa62b, SB_OLetter);
  (R 0xa640 0xa640, SB_Upper);
  (R 0xa641 0xa641, SB_Lower);
  (R 0xa642 0xa642, SB_Upper);
  (R 0xa643 0xa643, SB_Lower);
  (R 0xa644 0xa644, SB_Upper);
  (R 0xa645 0xa645, SB_Lower);
  (R 0xa646 0xa646, SB_Upper);
  (R 0xa647 0xa647, SB_Lower);
  (R 0xa648 0xa648, SB_Upper);
  (R 0xa649 0xa649, SB_Lower);
  (R 0xa64a 0xa64a, SB_Upper);
  (R 0xa64b 0xa64b, SB_Lower);
  (R 0xa64c 0xa64c, SB_Upper);
  (R 0xa64d 0xa64d, SB_Lower);
  (R 0xa64e 0xa64e, SB_Upper);
  (R 0xa64f 0xa64f, SB_Lower);
  (R 0xa650 0xa650, SB_Upper);
  (R 0xa651 0xa651, SB_Lower);
  (R 0xa652 0xa652, SB_Upper);
  (R 0xa653 0xa653, SB_Lower);
  (R 0xa654 0xa654, SB_Upper);
  (R 0xa655 0xa655, SB_Lower);
  (R 0xa656 0xa656, SB_Upper);
  (R 0xa657 0xa657, SB_Lower);
  (R 0xa658 0xa658, SB_Upper);
  (R 0xa659 0xa659, SB_Lower);
  (R 0xa65a 0xa65a, SB_Upper);
  (R 0xa65b 0xa65b, SB_Lower);
  (R 0xa65c 0xa65c, SB_Upper);
  (R 0xa65d 0xa65d, SB_Lower);
  (R 0xa65e 0xa65e, SB_Upper);
  (R 0xa65f 0xa65f, SB_Lower);
  (R 0xa660 0xa660, SB_Upper);
  (R 0xa661 0xa661, SB_Lower);
  (R 0xa662 0xa662, SB_Upper);
  (R 0xa663 0xa663, SB_Lower);
  (R 0xa664 0xa664, SB_Upper);
  (R 0xa665 0xa665, SB_Lower);
  (R 0xa666 0xa666, SB_Upper);
  (R 0xa667 0xa667, SB_Lower);
  (R 0xa668 0xa668, SB_Upper);
  (R 0xa669 0xa669, SB_Lower);
  (R 0xa66a 0xa66a, SB_Upper);
  (R 0xa66b 0xa66b, SB_Lower);
  (R 0xa66c 0xa66c, SB_Upper);
  (R 0xa66d 0xa66d, SB_Lower);
  (R 0xa66e 0xa66e, SB_OLetter);
  (R 0xa66f 0xa672, SB_Extend);
  (R 0xa674 0xa67d, SB_Extend);
  (R 0xa67f 0xa67f, SB_OLetter);
  (R 0xa680 0xa680, SB_Upper);
  (R 0xa681 0xa681, SB_Lower);
  (R 0xa682 0xa682, SB_Upper);
  (R 0xa683 0xa683, SB_Lower);
  (R 0xa684 0xa684, SB_Upper);
  (R 0xa685 0xa685, SB_Lower);
  (R 0xa686 0xa686, SB_Upper);
  (R 0xa687 0xa687, SB_Lower);
  (R 0xa688 0xa688, SB_Upper);
  (R 0xa689 0xa689, SB_Lower);
  (R 0xa68a 0xa68a, SB_Upper);
  (R 0xa68b 0xa68b, SB_Lower);
  (R 0xa68c 0xa68c, SB_Upper);
  (R 0xa68d 0xa68d, SB_Lower);
  (R 0xa68e 0xa68e, SB_Upper);
  (R 0xa68f 0xa68f, SB_Lower);
  (R 0xa690 0xa690, SB_Upper);
  (R 0xa691 0xa691, SB_Lower);
  (R 0xa692 0xa692, SB_Upper);
  (R 0xa693 0xa693, SB_Lower);
  (R 0xa694 0xa694, SB_Upper);
  (R 0xa695 0xa695, SB_Lower);
  (R 0xa696 0xa696, SB_Upper);
  (R 0xa697 0xa697, SB_Lower);
  (R 0xa698 0xa698, SB_Upper);
  (R 0xa699 0xa699, SB_Lower);
  (R 0xa69a 0xa69a, SB_Upper);
  (R 0xa69b 0xa69d, SB_Lower);
  (R 0xa69e 0xa69f, SB_Extend)].

Definition SENTENCE_BREAK_4 : list (CharRange * SentenceBreak) := [
  (R 0xa6a0 0xa6ef, SB_OLetter);
  (R 0xa6f0 0xa6f1, SB_Extend);
  (R 0xa6f3 0xa6f3, SB_STerm);
  (R 0xa6f7 0xa6f7, SB_STerm);
  (R 0xa717 0xa71f, SB_OLetter);
  (R 0xa722 0xa722, SB_Upper);
  (R 0xa723 0xa723, SB_Lower);
  (R 0xa724 0xa724, SB_Upper);
  (R 0xa725 0xa725, SB_Lower);
  (R 0xa726 0xa726, SB_Upper);
  (R 0xa727 0xa727, SB_Lower);
  (R 0xa728 0xa728, SB_Upper);
  (R 0xa729 0xa729, SB_Lower);
  (R 0xa72a 0xa72a, SB_Upper);
  (R 0xa72b 0xa72b, SB_Lower);
  (R 0xa72c 0xa72c, SB_Upper);
  (R 0xa72d 0xa72d, SB_Lower);
  (R 0xa72e 0xa72e, SB_Upper);
  (R 0xa72f 0xa731, SB_Lower);
  (R 0xa732 0xa732, SB_Upper);
  (R 0xa733 0xa733, SB_Lower);
  (R 0xa734 0xa734, SB_Upper);
  (R 0xa735 0xa735, SB_Lower);
  (R 0xa736 0xa736, SB_Upper);
  (R 0xa737 0xa737, SB_Lower);
  (R 0xa738 0xa738, SB_Upper);
  (R 0xa739 0xa739, SB_Lower);
  (R 0xa73a 0xa73a, SB_Upper);
  (R 0xa73b 0xa73b, SB_Lower);
  (R 0xa73c 0xa73c, SB_Upper);
  (R 0xa73d 0xa73d, SB_Lower);
  (R 0xa73e 0xa73e, SB_Upper);
  (R 0xa73f 0xa73f, SB_Lower);
  (R 0xa740 0xa740, SB_Upper);
  (R 0xa741 0xa741, SB_Lower);
  (R 0xa742 0xa742, SB_Upper);
  (R 0xa743 0xa743, SB_Lower);
  (R 0xa744 0xa744, SB_Upper);
  (R 0xa745 0xa745, SB_Lower);
  (R 0xa746 0xa746, SB_Upper);
  (R 0xa747 0xa747, SB_Lower);
  (R 0xa748 0xa748, SB_Upper);
  (R 0xa749 0xa749, SB_Lower);
  (R 0xa74a 0xa74a, SB_Upper);
  (R 0xa74b 0xa74b, SB_Lower);
  (R 0xa74c 0xa74c, SB_Upper);
  (R 0xa74d 0xa74d, SB_Lower);
  (R 0xa74e 0xa74e, SB_Upper);
  (R 0xa74f 0xa74f, SB_Lower);
  (R 0xa750 0xa750, SB_Upper);
  (R 0xa751 0xa751, SB_Lower);
  (R 0xa752 0xa752, SB_Upper);
  (R 0xa753 0xa753, SB_Lower);
  (R 0xa754 0xa754, SB_Upper);
  (R 0xa755 0xa755, SB_Lower);
  (R 0xa756 0xa756, SB_Upper);
  (R 0xa757 0xa757, SB_Lower);
  (R 0xa758 0xa758, SB_Upper);
  (R 0xa759 0xa759, SB_Lower);
  (R 0xa75a 0xa75a, SB_Upper);
  (R 0xa75b 0xa75b, SB_Lower);
  (R 0xa75c 0xa75c, SB_Upper);
  (R 0xa75d 0xa75d, SB_Lower);
  (R 0xa75e 0xa75e, SB_Upper);
  (R 0xa75f 0xa75f, SB_Lower);
  (R 0xa760 0xa760, SB_Upper);
  (R 0xa761 0xa761, SB_Lower);
  (R 0xa762 0xa762, SB_Upper);
  (R 0xa763 0xa763, SB_Lower);
  (R 0xa764 0xa764, SB_Upper);
  (R 0xa765 0xa765, SB_Lower);
  (R 0xa766 0xa766, SB_Upper);
  (R 0xa767 0xa767, SB_Lower);
  (R 0xa768 0xa768, SB_Upper);
  (R 0xa769 0xa769, SB_Lower);
  (R 0xa76a 0xa76a, SB_Upper);
  (R 0xa76b 0xa76b, SB_Lower);
  (R 0xa76c 0xa76c, SB_Upper);
  (R 0xa76d 0xa76d, SB_Lower);
  (R 0xa76e 0xa76e, SB_Upper);
  (R 0xa76f 0xa778, SB_Lower);
  (R 0xa779 0xa779, SB_Upper);
  (R 0xa77a 0xa77a, SB_Lower);
  (R 0xa77b 0xa77b, SB_Upper);
  (R 0xa77c 0xa77c, SB_Lower);
  (R 0xa77d 0xa77e, SB_Upper);
  (R 0xa77f 0xa77f, SB_Lower);
  (R 0xa780 0xa780, SB_Upper);
  (R 0xa781 0xa781, SB_Lower);
  (R 0xa782 0xa782, SB_Upper);
  (R 0xa783 0xa783, SB_Lower);
  (R 0xa784 0xa784, SB_Upper);
  (R 0xa785 0xa785, SB_Lower);
  (R 0xa786 0xa786, SB_Upper);
  (R 0xa787 0xa787, SB_Lower);
  (R 0xa788 0xa788, SB_OLetter);
  (R 0xa78b 0xa78b, SB_Upper);
  (R 0xa78c 0xa78c, SB_Lower);
  (R 0xa78d 0xa78d, SB_Upper);
  (R 0xa78e 0xa78e, SB_Lower);
  (R 0xa78f 0xa78f, SB_OLetter);
  (R 0xa790 0xa790, SB_Upper);
  (R 0xa791 0xa791, SB_Lower);
  (R 0xa792 0xa792, SB_Upper);
  (R 0xa793 0xa795, SB_Lower);
  (R 0xa796 0xa796, SB_Upper);
  (R 0xa797 0xa797, SB_Lower);
  (R 0xa798 0xa798, SB_Upper);
  (R 0xa799 0xa799, SB_Lower);
  (R 0xa79a 0xa79a, SB_Upper);
  (R 0xa79b 0xa79b, SB_Lower);
  (R 0xa79c 0xa79c, SB_Upper);
  (R 0xa79d 0xa79d, SB_Lower);
  (R 0xa79e 0xa79e, SB_Upper);
  (R 0xa79f 0xa79f, SB_Lower);
  (R 0xa7a0 0xa7a0, SB_Upper);
  (R 0xa7a1 0xa7a1, SB_Lower);
  (R 0xa7a2 0xa7a2, SB_Upper);
  (R 0xa7a3 0xa7a3, SB_Lower);
  (R 0xa7a4 0xa7a4, SB_Upper);
  (R 0xa7a5 0xa7a5, SB_Lower);
  (R 0xa7a6 0xa7a6, SB_Upper);
  (R 0xa7a7 0xa7a7, SB_Lower);
  (R 0xa7a8 0xa7a8, SB_Upper);
  (R 0xa7a9 0xa7a9, SB_Lower);
  (R 0xa7aa 0xa7ae, SB_Upper);
  (R 0xa7b0 0xa7b4, SB_Upper);
  (R 0xa7b5 0xa7b5, SB_Lower);
  (R 0xa7b6 0xa7b6, SB_Upper);
  (R 0xa7b7 0xa7b7, SB_Lower);
  (R 0xa7f7 0xa7f7, SB_OLetter);
  (R 0xa7f8 0xa7fa, SB_Lower);
  (R 0xa7fb 0xa801, SB_OLetter);
  (R 0xa802 0xa802, SB_Extend);
  (R 0xa803 0xa805, SB_OLetter);
  (R 0xa806 0xa806, SB_Extend);
  (R 0xa807 0xa80a, SB_OLetter);
  (R 0xa80b 0xa80b, SB_Extend);
  (R 0xa80c 0xa822, SB_OLetter);
  (R 0xa823 0xa827, SB_Extend);
  (R 0xa840 0xa873, SB_OLetter);
  (R 0xa876 0xa877, SB_STerm);
  (R 0xa880 0xa881, SB_Extend);
  (R 0xa882 0xa8b3, SB_OLetter);
  (R 0xa8b4 0xa8c5, SB_Extend);
  (R 0xa8ce 0xa8cf, SB_STerm);
  (R 0xa8d0 0xa8d9, SB_Numeric);
  (R 0xa8e0 0xa8f1, SB_Extend);
  (R 0xa8f2 0xa8f7, SB_OLetter);
  (R 0xa8fb 0xa8fb, SB_OLetter);
  (R 0xa8fd 0xa8fd, SB_OLetter);
  (R 0xa900 0xa909, SB_Numeric);
  (R 0xa90a 0xa925, SB_OLetter);
  (R 0xa926 0xa92d, SB_Extend);
  (R 0xa92f 0xa92f, SB_STerm);
  (R 0xa930 0xa946, SB_OLetter);
  (R 0xa947 0xa953, SB_Extend);
  (R 0xa960 0xa97c, SB_OLetter);
  (R 0xa980 0xa983, SB_Extend);
  (R 0xa984 0xa9b2, SB_OLetter);
  (R 0xa9b3 0xa9c0, SB_Extend);
  (R 0xa9c8 0xa9c9, SB_STerm);
  (R 0xa9cf 0xa9cf, SB_OLetter);
  (R 0xa9d0 0xa9d9, SB_Numeric);
  (R 0xa9e0 0xa9e4, SB_OLetter);
  (R 0xa9e5 0xa9e5, SB_Extend);
  (R 0xa9e6 0xa9ef, SB_OLetter);
  (R 0xa9f0 0xa9f9, SB_Numeric);
  (R 0xa9fa 0xa9fe, SB_OLetter);
  (R 0xaa00 0xaa28, SB_OLetter);
  (R 0xaa29 0xaa36, SB_Extend);
  (R 0xaa40 0xaa42, SB_OLetter);
  (R 0xaa43 0xaa43, SB_Extend);
  (R 0xaa44 0xaa4b, SB_OLetter);
  (R 0xaa4c 0xaa4d, SB_Extend);
  (R 0xaa50 0xaa59, SB_Numeric);
  (R 0xaa5d 0xaa5f, SB_STerm);
  (R 0xaa60 0xaa76, SB_OLetter);
  (R 0xaa7a 0xaa7a, SB_OLetter);
  (R 0xaa7b 0xaa7d, SB_Extend);
  (R 0xaa7e 0xaaaf, SB_OLetter);
  (R 0xaab0 0xaab0, SB_Extend);
  (R 0xaab1 0xaab1, SB_OLetter);
  (R 0xaab2 0xaab4, SB_Extend);
  (R 0xaab5 0xaab6, SB_OLetter);
  (R 0xaab7 0xaab8, SB_Extend);
  (R 0xaab9 0xaabd, SB_OLetter);
  (R 0xaabe 0xaabf, SB_Extend);
  (R 0xaac0 0xaac0, SB_OLetter);
  (R 0xaac1 0xaac1, SB_Extend);
  (R 0xaac2 0xaac2, SB_OLetter);
  (R 0xaadb 0xaadd, SB_OLetter);
  (R 0xaae0 0xaaea, SB_OLetter);
  (R 0xaaeb 0xaaef, SB_Extend);
  (R 0xaaf0 0xaaf1, SB_STerm);
  (R 0xaaf2 0xaaf4, SB_OLetter);
  (R 0xaaf5 0xaaf6, SB_Extend);
  (R 0xab01 0xab06, SB_OLetter);
  (R 0xab09 0xab0e, SB_OLetter);
  (R 0xab11 0xab16, SB_OLetter);
  (R 0xab20 0xab26, SB_OLetter);
  (R 0xab28 0xab2e, SB_OLetter);
  (R 0xab30 0xab5a, SB_Lower);
  (R 0xab5c 0xab65, SB_Lower);
  (R 0xab70 0xabbf, SB_Lower);
  (R 0xabc0 0xabe2, SB_OLetter);
  (R 0xabe3 0xabea, SB_Extend);
  (R 0xabeb 0xabeb, SB_STerm);
  (R 0xabec 0xabed, SB_Extend);
  (R 0xabf0 0xabf9, SB_Numeric);
  (R 0xac00 0xd7a3, SB_OLetter);
  (R 0xd7b0 0xd7c6, SB_OLetter);
  (R 0xd7cb 0xd7fb, SB_OLetter);
  (R 0xf900 0xfa6d, SB_OLetter);
  (R 0xfa70 0xfad9, SB_OLetter);
  (R 0xfb00 0xfb06, SB_Lower);
  (R 0xfb13 0xfb17, SB_Lower);
  (R 0xfb1d 0xfb1d, SB_OLetter);
  (R 0xfb1e 0xfb1e, SB_Extend);
  (R 0xfb1f 0xfb28, SB_OLetter);
  (R 0xfb2a 0xfb36, SB_OLetter);
  (R 0xfb38 0xfb3c, SB_OLetter);
  (R 0xfb3e 0xfb3e, SB_OLetter);
  (R 0xfb40 0xfb41, SB_OLetter);
  (R 0xfb43 0xfb44, SB_OLetter);
  (R 0xfb46 0xfbb1, SB_OLetter);
  (R 0xfbd3 0xfd3d, SB_OLetter);
  (R 0xfd3e 0xfd3f, SB_Close);
  (R 0xfd50 0xfd8f, SB_OLetter);
  (R 0xfd92 0xfdc7, SB_OLetter);
  (R 0xfdf0 0xfdfb, SB_OLetter);
  (R 0xfe00 0xfe0f, SB_Extend);
  (R 0xfe10 0xfe11, SB_SContinue);
  (R 0xfe13 0xfe13, SB_SContinue);
  (R 0xfe17 0xfe18, SB_Close);
  (R 0xfe20 0xfe2f, SB_Extend);
  (R 0xfe31 0xfe32, SB_SContinue);
  (R 0xfe35 0xfe44, SB_Close);
  (R 0xfe47 0xfe48, SB_Close);
  (R 0xfe50 0xfe51, SB_SContinue);
  (R 0xfe52 0xfe52, SB_ATerm);
  (R 0xfe55 0xfe55, SB_SContinue);
  (R 0xfe56 0xfe57, SB_STerm);
  (R 0xfe58 0xfe58, SB_SContinue);
  (R 0xfe59 0xfe5e, SB_Close);
  (R 0xfe63 0xfe63, SB_SContinue);
  (R 0xfe70 0xfe74, SB_OLetter);
  (R 0xfe76 0xfefc, SB_OLetter);
  (R 0xfeff 0xfeff, SB_Format);
  (R 0xff01 0xff01, SB_STerm);
  (R 0xff08 0xff09, SB_Close);
  (R 0xff0c 0xff0d, SB_SContinue);
  (R 0xff0e 0xff0e, SB_ATerm);
  (R 0xff1a 0xff1a, SB_SContinue);
  (R 0xff1f 0xff1f, SB_STerm);
  (R 0xff21 0xff3a, SB_Upper);
  (R 0xff3b 0xff3b, SB_Close);
  (R 0xff3d 0xff3d, SB_Close);
  (R 0xff41 0xff5a, SB_Lower);
  (R 0xff5b 0xff5b, SB_Close);
  (R 0xff5d 0xff5d, SB_Close);
  (R 0xff5f 0xff60, SB_Close);
  (R 0xff61 0xff61, SB_STerm);
  (R 0xff62 0xff63, SB_Close);
  (R 0xff64 0xff64, SB_SContinue);
  (R 0xff66 0xff9d, SB_OLetter);
  (R 0xff9e 0xff9f, SB_Extend);
  (R 0xffa0 0xffbe, SB_OLetter);
  (R 0xffc2 0xffc7, SB_OLetter);
  (R 0xffca 0xffcf, SB_OLetter);
  (R 0xffd2 0xffd7, SB_OLetter);
  (R 0xffda 0xffdc, SB_OLetter);
  (R 0xfff9 0xfffb, SB_Format);
  (R 0x10000 0x1000b, SB_OLetter);
  (R 0x1000d 0x10026, SB_OLetter);
  (R 0x10028 0x1003a, SB_OLetter);
  (R 0x1003c 0x1003d, SB_OLetter);
  (R 0x1003f 0x1004d, SB_OLetter);
  (R 0x10050 0x1005d, SB_OLetter);
  (R 0x10080 0x100fa, SB_OLetter);
  (R 0x10140 0x10174, SB_OLetter);
  (R 0x101fd 0x101fd, SB_Extend);
  (R 0x10280 0x1029c, SB_OLetter);
  (R 0x102a0 0x102d0, SB_OLetter);
  (R 0x102e0 0x102e0, SB_Extend);
  (R 0x10300 0x1031f, SB_OLetter);
  (R 0x1032d 0x1034a, SB_OLetter);
  (R 0x10350 0x10375, SB_OLetter);
  (R 0x10376 0x1037a, SB_Extend);
  (R 0x10380 0x1039d, SB_OLetter);
  (R 0x103a0 0x103c3, SB_OLetter);
  (R 0x103c8 0x103cf, SB_OLetter);
  (R 0x103d1 0x103d5, SB_OLetter);
  (R 0x10400 0x10427, SB_Upper);
  (R 0x10428 0x1044f, SB_Lower);
  (R 0x10450 0x1049d, SB_OLetter);
  (R 0x104a0 0x104a9, SB_Numeric);
  (R 0x104b0 0x104d3, SB_Upper);
  (R 0x104d8 0x104fb, SB_Lower);
  (R 0x10500 0x10527, SB_OLetter);
  (R 0x10530 0x10563, SB_OLetter);
  (R 0x10600 0x10736, SB_OLetter);
  (R 0x10740 0x10755, SB_OLetter);
  (R 0x10760 0x10767, SB_OLetter);
  (R 0x10800 0x10805, SB_OLetter);
  (R 0x10808 0x10808, SB_OLetter);
  (R 0x1080a 0x10835, SB_OLetter);
  (R 0x10837 0x10838, SB_OLetter);
  (R 0x1083c 0x1083c, SB_OLetter);
  (R 0x1083f 0x10855, SB_OLetter);
  (R 0x10860 0x10876, SB_OLetter);
  (R 0x10880 0x1089e, SB_OLetter);
  (R 0x108e0 0x108f2, SB_OLetter);
  (R 0x108f4 0x108f5, SB_OLetter);
  (R 0x10900 0x10915, SB_OLetter);
  (R 0x10920 0x10939, SB_OLetter);
  (R 0x10980 0x109b7, SB_OLetter);
  (R 0x109be 0x109bf, SB_OLetter);
  (R 0x10a00 0x10a00, SB_OLetter);
  (R 0x10a01 0x10a03, SB_Extend);
  (R 0x10a05 0x10a06, SB_Extend);
  (R 0x10a0c 0x10a0f, SB_Extend);
  (R 0x10a10 0x10a13, SB_OLetter);
  (R 0x10a15 0x10a17, SB_OLetter);
  (R 0x10a19 0x10a33, SB_OLetter);
  (R 0x10a38 0x10a3a, SB_Extend);
  (R 0x10a3f 0x10a3f, SB_Extend);
  (R 0x10a56 0x10a57, SB_STerm);
  (R 0x10a60 0x10a7c, SB_OLetter);
  (R 0x10a80 0x10a9c, SB_OLetter);
  (R 0x10ac0 0x10ac7, SB_OLetter);
  (R 0x10ac9 0x10ae4, SB_OLetter);
  (R 0x10ae5 0x10ae6, SB_Extend);
  (R 0x10b00 0x10b35, SB_OLetter);
  (R 0x10b40 0x10b55, SB_OLetter);
  (R 0x10b60 0x10b72, SB_OLetter);
  (R 0x10b80 0x10b91, SB_OLetter);
  (R 0x10c00 0x10c48, SB_OLetter);
  (R 0x10c80 0x10cb2, SB_Upper);
  (R 0x10cc0 0x10cf2, SB_Lower);
  (R 0x11000 0x11002, SB_Extend);
  (R 0x11003 0x11037, SB_OLetter);
  (R 0x11038 0x11046, SB_Extend);
  (R 0x11047 0x11048, SB_STerm);
  (R 0x11066 0x1106f, SB_Numeric);
  (R 0x1107f 0x11082, SB_Extend);
  (R 0x11083 0x110af, SB_OLetter);
  (R 0x110b0 0x110ba, SB_Extend);
  (R 0x110bd 0x110bd, SB_Format);
  (R 0x110be 0x110c1, SB_STerm);
  (R 0x110d0 0x110e8, SB_OLetter);
  (R 0x110f0 0x110f9, SB_Numeric);
  (R 0x11100 0x11102, SB_Extend);
  (R 0x11103 0x11126, SB_OLetter);
  (R 0x11127 0x11134, SB_Extend);
  (R 0x11136 0x1113f, SB_Numeric);
  (R 0x11141 0x11143, SB_STerm);
  (R 0x11150 0x11172, SB_OLetter);
  (R 0x11173 0x11173, SB_Extend);
  (R 0x11176 0x11176, SB_OLetter);
  (R 0x11180 0x11182, SB_Extend);
  (R 0x11183 0x111b2, SB_OLetter);
  (R 0x111b3 0x111c0, SB_Extend);
  (R 0x111c1 0x111c4, SB_OLetter);
  (R 0x111c5 0x111c6, SB_STerm);
  (R 0x111ca 0x111cc, SB_Extend);
  (R 0x111cd 0x111cd, SB_STerm);
  (R 0x111d0 0x111d9, SB_Numeric);
  (R 0x111da 0x111da, SB_OLetter);
  (R 0x111dc 0x111dc, SB_OLetter);
  (R 0x111de 0x111df, SB_STerm);
  (R 0x11200 0x11211, SB_OLetter);
  (R 0x11213 0x1122b, SB_OLetter);
  (R 0x1122c 0x11237, SB_Extend);
  (R 0x11238 0x11239, SB_STerm);
  (R 0x1123b 0x1123c, SB_STerm);
  (R 0x1123e 0x1123e, SB_Extend);
  (R 0x11280 0x11286, SB_OLetter);
  (R 0x11288 0x11288, SB_OLetter);
  (R 0x1128a 0x1128d, SB_OLetter);
  (R 0x1128f 0x1129d, SB_OLetter);
  (R 0x1129f 0x112a8, SB_OLetter);
  (R 0x112a9 0x112a9, SB_STerm);
  (R 0x112b0 0x112de, SB_OLetter);
  (R 0x112df 0x112ea, SB_Extend);
  (R 0x112f0 0x112f9, SB_Numeric);
  (R 0x11300 0x11303, SB_Extend);
  (R 0x11305 0x1130c, SB_OLetter);
  (R 0x1130f 0x11310, SB_OLetter);
  (R 0x11313 0x11328, SB_OLetter);
  (R 0x1132a 0x11330, SB_OLetter);
  (R 0x11332 0x11333, SB_OLetter);
  (R 0x11335 0x11339, SB_OLetter);
  (R 0x1133c 0x1133c, SB_Extend);
  (R 0x1133d 0x1133d, SB_OLetter);
  (R 0x1133e 0x11344, SB_Extend);
  (R 0x11347 0x11348, SB_Extend);
  (R 0x1134b 0x1134d, SB_Extend);
  (R 0x11350 0x11350, SB_OLetter);
  (R 0x11357 0x11357, SB_Extend)].

Definition SENTENCE_BREAK_5 : list (CharRange * SentenceBreak) := [
  (R 0x1135d 0x11361, SB_OLetter);
  (R 0x11362 0x11363, SB_Extend);
  (R 0x11366 0x1136c, SB_Extend);
  (R 0x11370 0x11374, SB_Extend);
  (R 0x11400 0x11434, SB_OLetter);
  (R 0x11435 0x11446, SB_Extend);
  (R 0x11447 0x1144a, SB_OLetter);
  (R 0x1144b 0x1144c, SB_STerm);
  (R 0x11450 0x11459, SB_Numeric);
  (R 0x11480 0x114af, SB_OLetter);
  (R 0x114b0 0x114c3, SB_Extend);
  (R 0x114c4 0x114c5, SB_OLetter);
  (R 0x114c7 0x114c7, SB_OLetter);
  (R 0x114d0 0x114d9, SB_Numeric);
  (R 0x11580 0x115ae, SB_OLetter);
  (R 0x115af 0x115b5, SB_Extend);
  (R 0x115b8 0x115c0, SB_Extend);
  (R 0x115c2 0x115c3, SB_STerm);
  (R 0x115c9 0x115d7, SB_STerm);
  (R 0x115d8 0x115db, SB_OLetter);
  (R 0x115dc 0x115dd, SB_Extend);
  (R 0x11600 0x1162f, SB_OLetter);
  (R 0x11630 0x11640, SB_Extend);
  (R 0x11641 0x11642, SB_STerm);
  (R 0x11644 0x11644, SB_OLetter);
  (R 0x11650 0x11659, SB_Numeric);
  (R 0x11680 0x116aa, SB_OLetter);
  (R 0x116ab 0x116b7, SB_Extend);
  (R 0x116c0 0x116c9, SB_Numeric);
  (R 0x11700 0x11719, SB_OLetter);
  (R 0x1171d 0x1172b, SB_Extend);
  (R 0x11730 0x11739, SB_Numeric);
  (R 0x1173c 0x1173e, SB_STerm);
  (R 0x118a0 0x118bf, SB_Upper);
  (R 0x118c0 0x118df, SB_Lower);
  (R 0x118e0 0x118e9, SB_Numeric);
  (R 0x118ff 0x118ff, SB_OLetter);
  (R 0x11a00 0x11a00, SB_OLetter);
  (R 0x11a01 0x11a0a, SB_Extend);
  (R 0x11a0b 0x11a32, SB_OLetter);
  (R 0x11a33 0x11a39, SB_Extend);
  (R 0x11a3a 0x11a3a, SB_OLetter);
  (R 0x11a3b 0x11a3e, SB_Extend);
  (R 0x11a42 0x11a43, SB_STerm);
  (R 0x11a47 0x11a47, SB_Extend);
  (R 0x11a50 0x11a50, SB_OLetter);
  (R 0x11a51 0x11a5b, SB_Extend);
  (R 0x11a5c 0x11a83, SB_OLetter);
  (R 0x11a86 0x11a89, SB_OLetter);
  (R 0x11a8a 0x11a99, SB_Extend);
  (R 0x11a9b 0x11a9c, SB_STerm);
  (R 0x11ac0 0x11af8, SB_OLetter);
  (R 0x11c00 0x11c08, SB_OLetter);
  (R 0x11c0a 0x11c2e, SB_OLetter);
  (R 0x11c2f 0x11c36, SB_Extend);
  (R 0x11c38 0x11c3f, SB_Extend);
  (R 0x11c40 0x11c40, SB_OLetter);
  (R 0x11c41 0x11c42, SB_STerm);
  (R 0x11c50 0x11c59, SB_Numeric);
  (R 0x11c72 0x11c8f, SB_OLetter);
  (R 0x11c92 0x11ca7, SB_Extend);
  (R 0x11ca9 0x11cb6, SB_Extend);
  (R 0x11d00 0x11d06, SB_OLetter);
  (R 0x11d08 0x11d09, SB_OLetter);
  (R 0x11d0b 0x11d30, SB_OLetter);
  (R 0x11d31 0x11d36, SB_Extend);
  (R 0x11d3a 0x11d3a, SB_Extend);
  (R 0x11d3c 0x11d3d, SB_Extend);
  (R 0x11d3f 0x11d45, SB_Extend);
  (R 0x11d46 0x11d46, SB_OLetter);
  (R 0x11d47 0x11d47, SB_Extend);
  (R 0x11d50 0x11d59, SB_Numeric);
  (R 0x12000 0x12399, SB_OLetter);
  (R 0x12400 0x1246e, SB_OLetter);
  (R 0x12480 0x12543, SB_OLetter);
  (R 0x13000 0x1342e, SB_OLetter);
  (R 0x14400 0x14646, SB_OLetter);
  (R 0x16800 0x16a38, SB_OLetter);
  (R 0x16a40 0x16a5e, SB_OLetter);
  (R 0x16a60 0x16a69, SB_Numeric);
  (R 0x16a6e 0x16a6f, SB_STerm);
  (R 0x16ad0 0x16aed, SB_OLetter);
  (R 0x16af0 0x16af4, SB_Extend);
  (R 0x16af5 0x16af5, SB_STerm);
  (R 0x16b00 0x16b2f, SB_OLetter);
  (R 0x16b30 0x16b36, SB_Extend);
  (R 0x16b37 0x16b38, SB_STerm);
  (R 0x16b40 0x16b43, SB_OLetter);
  (R 0x16b44 0x16b44, SB_STerm);
  (R 0x16b50 0x16b59, SB_Numeric);
  (R 0x16b63 0x16b77, SB_OLetter);
  (R 0x16b7d 0x16b8f, SB_OLetter);
  (R 0x16f00 0x16f44, SB_OLetter);
  (R 0x16f50 0x16f50, SB_OLetter);
  (R 0x16f51 0x16f7e, SB_Extend);
  (R 0x16f8f 0x16f92, SB_Extend);
  (R 0x16f93 0x16f9f, SB_OLetter);
  (R 0x16fe0 0x16fe1, SB_OLetter);
  (R 0x17000 0x187ec, SB_OLetter);
  (R 0x18800 0x18af2, SB_OLetter);
  (R 0x1b000 0x1b11e, SB_OLetter);
  (R 0x1b170 0x1b2fb, SB_OLetter);
  (R 0x1bc00 0x1bc6a, SB_OLetter);
  (R 0x1bc70 0x1bc7c, SB_OLetter);
  (R 0x1bc80 0x1bc88, SB_OLetter);
  (R 0x1bc90 0x1bc99, SB_OLetter);
  (R 0x1bc9d 0x1bc9e, SB_Extend);
  (R 0x1bc9f 0x1bc9f, SB_STerm);
  (R 0x1bca0 0x1bca3, SB_Format);
  (R 0x1d165 0x1d169, SB_Extend);
  (R 0x1d16d 0x1d172, SB_Extend);
  (R 0x1d173 0x1d17a, SB_Format);
  (R 0x1d17b 0x1d182, SB_Extend);
  (R 0x1d185 0x1d18b, SB_Extend);
  (R 0x1d1aa 0x1d1ad, SB_Extend);
  (R 0x1d242 0x1d244, SB_Extend);
  (R 0x1d400 0x1d419, SB_Upper);
  (R 0x1d41a 0x1d433, SB_Lower);
  (R 0x1d434 0x1d44d, SB_Upper);
  (R 0x1d44e 0x1d454, SB_Lower);
  (R 0x1d456 0x1d467, SB_Lower);
  (R 0x1d468 0x1d481, SB_Upper);
  (R 0x1d482 0x1d49b, SB_Lower);
  (R 0x1d49c 0x1d49c, SB_Upper);
  (R 0x1d49e 0x1d49f, SB_Upper);
  (R 0x1d4a2 0x1d4a2, SB_Upper);
  (R 0x1d4a5 0x1d4a6, SB_Upper);
  (R 0x1d4a9 0x1d4ac, SB_Upper);
  (R 0x1d4ae 0x1d4b5, SB_Upper);
  (R 0x1d4b6 0x1d4b9, SB_Lower);
  (R 0x1d4bb 0x1d4bb, SB_Lower);
  (R 0x1d4bd 0x1d4c3, SB_Lower);
  (R 0x1d4c5 0x1d4cf, SB_Lower);
  (R 0x1d4d0 0x1d4e9, SB_Upper);
  (R 0x1d4ea 0x1d503, SB_Lower);
  (R 0x1d504 0x1d505, SB_Upper);
  (R 0x1d507 0x1d50a, SB_Upper);
  (R 0x1d50d 0x1d514, SB_Upper);
  (R 0x1d516 0x1d51c, SB_Upper);
  (R 0x1d51e 0x1d537, SB_Lower);
  (R 0x1d538 0x1d539, SB_Upper);
  (R 0x1d53b 0x1d53e, SB_Upper);
  (R 0x1d540 0x1d544, SB_Upper);
  (R 0x1d546 0x1d546, SB_Upper);
  (R 0x1d54a 0x1d550, SB_Upper);
  (R 0x1d552 0x1d56b, SB_Lower);
  (R 0x1d56c 0x1d585, SB_Upper);
  (R 0x1d586 0x1d59f, SB_Lower);
  (R 0x1d5a0 0x1d5b9, SB_Upper);
  (R 0x1d5ba 0x1d5d3, SB_Lower);
  (R 0x1d5d4 0x1d5ed, SB_Upper);
  (R 0x1d5ee 0x1d607, SB_Lower);
  (R 0x1d608 0x1d621, SB_Upper);
  (R 0x1d622 0x1d63b, SB_Lower);
  (R 0x1d63c 0x1d655, SB_Upper);
  (R 0x1d656 0x1d66f, SB_Lower);
  (R 0x1d670 0x1d689, SB_Upper);
  (R 0x1d68a 0x1d6a5, SB_Lower);
  (R 0x1d6a8 0x1d6c0, SB_Upper);
  (R 0x1d6c2 0x1d6da, SB_Lower);
  (R 0x1d6dc 0x1d6e1, SB_Lower);
  (R 0x1d6e2 0x1d6fa, SB_Upper);
  (R 0x1d6fc 0x1d714, SB_Lower);
  (R 0x1d716 0x1d71b, SB_Lower);
  (R 0x1d71c 0x1d734, SB_Upper);
  (R 0x1d736 0x1d74e, SB_Lower);
  (R 0x1d750 0x1d755, SB_Lower);
  (R 0x1d756 0x1d76e, SB_Upper);
  (R 0x1d770 0x1d788, SB_Lower);
  (R 0x1d78a 0x1d78f, SB_Lower);
  (R 0x1d790 0x1d7a8, SB_Upper);
  (R 0x1d7aa 0x1d7c2, SB_Lower);
  (R 0x1d7c4 0x1d7c9, SB_Lower);
  (R 0x1d7ca 0x1d7ca, SB_Upper);
  (R 0x1d7cb 0x1d7cb, SB_Lower);
  (R 0x1d7ce 0x1d7ff, SB_Numeric);
  (R 0x1da00 0x1da36, SB_Extend);
  (R 0x1da3b 0x1da6c, SB_Extend);
  (R 0x1da75 0x1da75, SB_Extend);
  (R 0x1da84 0x1da84, SB_Extend);
  (R 0x1da88 0x1da88, SB_STerm);
  (R 0x1da9b 0x1da9f, SB_Extend);
  (R 0x1daa1 0x1daaf, SB_Extend);
  (R 0x1e000 0x1e006, SB_Extend);
  (R 0x1e008 0x1e018, SB_Extend);
  (R 0x1e01b 0x1e021, SB_Extend);
  (R 0x1e023 0x1e024, SB_Extend);
  (R 0x1e026 0x1e02a, SB_Extend);
  (R 0x1e800 0x1e8c4, SB_OLetter);
  (R 0x1e8d0 0x1e8d6, SB_Extend);
  (R 0x1e900 0x1e921, SB_Upper);
  (R 0x1e922 0x1e943, SB_Lower);
  (R 0x1e944 0x1e94a, SB_Extend);
  (R 0x1e950 0x1e959, SB_Numeric);
  (R 0x1ee00 0x1ee03, SB_OLetter);
  (R 0x1ee05 0x1ee1f, SB_OLetter);
  (R 0x1ee21 0x1ee22, SB_OLetter);
  (R 0x1ee24 0x1ee24, SB_OLetter);
  (R 0x1ee27 0x1ee27, SB_OLetter);
  (R 0x1ee29 0x1ee32, SB_OLetter);
  (R 0x1ee34 0x1ee37, SB_OLetter);
  (R 0x1ee39 0x1ee39, SB_OLetter);
  (R 0x1ee3b 0x1ee3b, SB_OLetter);
  (R 0x1ee42 0x1ee42, SB_OLetter);
  (R 0x1ee47 0x1ee47, SB_OLetter);
  (R 0x1ee49 0x1ee49, SB_OLetter);
  (R 0x1ee4b 0x1ee4b, SB_OLetter);
  (R 0x1ee4d 0x1ee4f, SB_OLetter);
  (R 0x1ee51 0x1ee52, SB_OLetter);
  (R 0x1ee54 0x1ee54, SB_OLetter);
  (R 0x1ee57 0x1ee57, SB_OLetter);
  (R 0x1ee59 0x1ee59, SB_OLetter);
  (R 0x1ee5b 0x1ee5b, SB_OLetter);
  (R 0x1ee5d 0x1ee5d, SB_OLetter);
  (R 0x1ee5f 0x1ee5f, SB_OLetter);
  (R 0x1ee61 0x1ee62, SB_OLetter);
  (R 0x1ee64 0x1ee64, SB_OLetter);
  (R 0x1ee67 0x1ee6a, SB_OLetter);
  (R 0x1ee6c 0x1ee72, SB_OLetter);
  (R 0x1ee74 0x1ee77, SB_OLetter);
  (R 0x1ee79 0x1ee7c, SB_OLetter);
  (R 0x1ee7e 0x1ee7e, SB_OLetter);
  (R 0x1ee80 0x1ee89, SB_OLetter);
  (R 0x1ee8b 0x1ee9b, SB_OLetter);
  (R 0x1eea1 0x1eea3, SB_OLetter);
  (R 0x1eea5 0x1eea9, SB_OLetter);
  (R 0x1eeab 0x1eebb, SB_OLetter);
  (R 0x1f130 0x1f149, SB_Upper);
  (R 0x1f150 0x1f169, SB_Upper);
  (R 0x1f170 0x1f189, SB_Upper);
  (R 0x1f676 0x1f678, SB_Close);
  (R 0x20000 0x2a6d6, SB_OLetter);
  (R 0x2a700 0x2b734, SB_OLetter);
  (R 0x2b740 0x2b81d, SB_OLetter);
  (R 0x2b820 0x2cea1, SB_OLetter);
  (R 0x2ceb0 0x2ebe0, SB_OLetter);
  (R 0x2f800 0x2fa1d, SB_OLetter);
  (R 0xe0001 0xe0001, SB_Format);
  (R 0xe0020 0xe007f, SB_Extend);
  (R 0xe0100 0xe01ef, SB_Extend)].

Definition SENTENCE_BREAK : CharDataTable SentenceBreak :=
  Range (SENTENCE_BREAK_0 ++ SENTENCE_BREAK_1 ++ SENTENCE_BREAK_2 ++ SENTENCE_BREAK_3 ++ SENTENCE_BREAK_4 ++ SENTENCE_BREAK_5).
