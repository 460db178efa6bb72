(** GENERATED by tools/gen_tables.py from the .rsv tables of /repo.  Do not edit. *)
From Coq Require Import List NArith.
From Verif Require Import Base RangeModel TableModel Enums TableTypes.
Import ListNotations.
Open Scope N_scope.
Local Notation R := mkRange.

(** unic/ucd/common/tables/alphabetic.rsv:1-664 (660 entries) *)
Definition ALPHABETIC_0 : list (CharRange * unit) := [
  (R 0x41 0x5a, tt);
  (R 0x61 0x7a, tt);
  (R 0xaa 0xaa, tt);
  (R 0xb5 0xb5, tt);
  (R 0xba 0xba, tt);
  (R 0xc0 0xd6, tt);
  (R 0xd8 0xf6, tt);
  (R 0xf8 0x2c1, tt);
  (R 0x2c6 0x2d1, tt);
  (R 0x2e0 0x2e4, tt);
  (R 0x2ec 0x2ec, tt);
  (R 0x2ee 0x2ee, tt);
  (R 0x345 0x345, tt);
  (R 0x370 0x374, tt);
  (R 0x376 0x377, tt);
  (R 0x37a 0x37d, tt);
  (R 0x37f 0x37f, tt);
  (R 0x386 0x386, tt);
  (R 0x388 0x38a, tt);
  (R 0x38c 0x38c, tt);
  (R 0x38e 0x3a1, tt);
  (R 0x3a3 0x3f5, tt);
  (R 0x3f7 0x481, tt);
  (R 0x48a 0x52f, tt);
  (R 0x531 0x556, tt);
  (R 0x559 0x559, tt);
  (R 0x561 0x587, tt);
  (R 0x5b0 0x5bd, tt);
  (R 0x5bf 0x5bf, tt);
  (R 0x5c1 0x5c2, tt);
  (R 0x5c4 0x5c5, tt);
  (R 0x5c7 0x5c7, tt);
  (R 0x5d0 0x5ea, tt);
  (R 0x5f0 0x5f2, tt);
  (R 0x610 0x61a, tt);
  (R 0x620 0x657, tt);
  (R 0x659 0x65f, tt);
  (R 0x66e 0x6d3, tt);
  (R 0x6d5 0x6dc, tt);
  (R 0x6e1 0x6e8, tt);
  (R 0x6ed 0x6ef, tt);
  (R 0x6fa 0x6fc, tt);
  (R 0x6ff 0x6ff, tt);
  (R 0x710 0x73f, tt);
  (R 0x74d 0x7b1, tt);
  (R 0x7ca 0x7ea, tt);
  (R 0x7f4 0x7f5, tt);
  (R 0x7fa 0x7fa, tt);
  (R 0x800 0x817, tt);
  (R 0x81a 0x82c, tt);
  (R 0x840 0x858, tt);
  (R 0x860 0x86a, tt);
  (R 0x8a0 0x8b4, tt);
  (R 0x8b6 0x8bd, tt);
  (R 0x8d4 0x8df, tt);
  (R 0x8e3 0x8e9, tt);
  (R 0x8f0 0x93b, tt);
  (R 0x93d 0x94c, tt);
  (R 0x94e 0x950, tt);
  (R 0x955 0x963, tt);
  (R 0x971 0x983, tt);
  (R 0x985 0x98c, tt);
  (R 0x98f 0x990, tt);
  (R 0x993 0x9a8, tt);
  (R 0x9aa 0x9b0, tt);
  (R 0x9b2 0x9b2, tt);
  (R 0x9b6 0x9b9, tt);
  (R 0x9bd 0x9c4, tt);
  (R 0x9c7 0x9c8, tt);
  (R 0x9cb 0x9cc, tt);
  (R 0x9ce 0x9ce, tt);
  (R 0x9d7 0x9d7, tt);
  (R 0x9dc 0x9dd, tt);
  (R 0x9df 0x9e3, tt);
  (R 0x9f0 0x9f1, tt);
  (R 0x9fc 0x9fc, tt);
  (R 0xa01 0xa03, tt);
  (R 0xa05 0xa0a, tt);
  (R 0xa0f 0xa10, tt);
  (R 0xa13 0xa28, tt);
  (R 0xa2a 0xa30, tt);
  (R 0xa32 0xa33, tt);
  (R 0xa35 0xa36, tt);
  (R 0xa38 0xa39, tt);
  (R 0xa3e 0xa42, tt);
  (R 0xa47 0xa48, tt);
  (R 0xa4b 0xa4c, tt);
  (R 0xa51 0xa51, tt);
  (R 0xa59 0xa5c, tt);
  (R 0xa5e 0xa5e, tt);
  (R 0xa70 0xa75, tt);
  (R 0xa81 0xa83, tt);
  (R 0xa85 0xa8d, tt);
  (R 0xa8f 0xa91, tt);
  (R 0xa93 0xaa8, tt);
  (R 0xaaa 0xab0, tt);
  (R 0xab2 0xab3, tt);
  (R 0xab5 0xab9, tt);
  (R 0xabd 0xac5, tt);
  (R 0xac7 0xac9, tt);
  (R 0xacb 0xacc, tt);
  (R 0xad0 0xad0, tt);
  (R 0xae0 0xae3, tt);
  (R 0xaf9 0xafc, tt);
  (R 0xb01 0xb03, tt);
  (R 0xb05 0xb0c, tt);
  (R 0xb0f 0xb10, tt);
  (R 0xb13 0xb28, tt);
  (R 0xb2a 0xb30, tt);
  (R 0xb32 0xb33, tt);
  (R 0xb35 0xb39, tt);
  (R 0xb3d 0xb44, tt);
  (R 0xb47 0xb48, tt);
  (R 0xb4b 0xb4c, tt);
  (R 0xb56 0xb57, tt);
  (R 0xb5c 0xb5d, tt);
  (R 0xb5f 0xb63, tt);
  (R 0xb71 0xb71, tt);
  (R 0xb82 0xb83, tt);
  (R 0xb85 0xb8a, tt);
  (R 0xb8e 0xb90, tt);
  (R 0xb92 0xb95, tt);
  (R 0xb99 0xb9a, tt);
  (R 0xb9c 0xb9c, tt);
  (R 0xb9e 0xb9f, tt);
  (R 0xba3 0xba4, tt);
  (R 0xba8 0xbaa, tt);
  (R 0xbae 0xbb9, tt);
  (R 0xbbe 0xbc2, tt);
  (R 0xbc6 0xbc8, tt);
  (R 0xbca 0xbcc, tt);
  (R 0xbd0 0xbd0, tt);
  (R 0xbd7 0xbd7, tt);
  (R 0xc00 0xc03, tt);
  (R 0xc05 0xc0c, tt);
  (R 0xc0e 0xc10, tt);
  (R 0xc12 0xc28, tt);
  (R 0xc2a 0xc39, tt);
  (R 0xc3d 0xc44, tt);
  (R 0xc46 0xc48, tt);
  (R 0xc4a 0xc4c, tt);
  (R 0xc55 0xc56, tt);
  (R 0xc58 0xc5a, tt);
  (R 0xc60 0xc63, tt);
  (R 0xc80 0xc83, tt);
  (R 0xc85 0xc8c, tt);
  (R 0xc8e 0xc90, tt);
  (R 0xc92 0xca8, tt);
  (R 0xcaa 0xcb3, tt);
  (R 0xcb5 0xcb9, tt);
  (R 0xcbd 0xcc4, tt);
  (R 0xcc6 0xcc8, tt);
  (R 0xcca 0xccc, tt);
  (R 0xcd5 0xcd6, tt);
  (R 0xcde 0xcde, tt);
  (R 0xce0 0xce3, tt);
  (R 0xcf1 0xcf2, tt);
  (R 0xd00 0xd03, tt);
  (R 0xd05 0xd0c, tt);
  (R 0xd0e 0xd10, tt);
  (R 0xd12 0xd3a, tt);
  (R 0xd3d 0xd44, tt);
  (R 0xd46 0xd48, tt);
  (R 0xd4a 0xd4c, tt);
  (R 0xd4e 0xd4e, tt);
  (R 0xd54 0xd57, tt);
  (R 0xd5f 0xd63, tt);
  (R 0xd7a 0xd7f, tt);
  (R 0xd82 0xd83, tt);
  (R 0xd85 0xd96, tt);
  (R 0xd9a 0xdb1, tt);
  (R 0xdb3 0xdbb, tt);
  (R 0xdbd 0xdbd, tt);
  (R 0xdc0 0xdc6, tt);
  (R 0xdcf 0xdd4, tt);
  (R 0xdd6 0xdd6, tt);
  (R 0xdd8 0xddf, tt);
  (R 0xdf2 0xdf3, tt);
  (R 0xe01 0xe3a, tt);
  (R 0xe40 0xe46, tt);
  (R 0xe4d 0xe4d, tt);
  (R 0xe81 0xe82, tt);
  (R 0xe84 0xe84, tt);
  (R 0xe87 0xe88, tt);
  (R 0xe8a 0xe8a, tt);
  (R 0xe8d 0xe8d, tt);
  (R 0xe94 0xe97, tt);
  (R 0xe99 0xe9f, tt);
  (R 0xea1 0xea3, tt);
  (R 0xea5 0xea5, tt);
  (R 0xea7 0xea7, tt);
  (R 0xeaa 0xeab, tt);
  (R 0xead 0xeb9, tt);
  (R 0xebb 0xebd, tt);
  (R 0xec0 0xec4, tt);
  (R 0xec6 0xec6, tt);
  (R 0xecd 0xecd, tt);
  (R 0xedc 0xedf, tt);
  (R 0xf00 0xf00, tt);
  (R 0xf40 0xf47, tt);
  (R 0xf49 0xf6c, tt);
  (R 0xf71 0xf81, tt);
  (R 0xf88 0xf97, tt);
  (R 0xf99 0xfbc, tt);
  (R 0x1000 0x1036, tt);
  (R 0x1038 0x1038, tt);
  (R 0x103b 0x103f, tt);
  (R 0x1050 0x1062, tt);
  (R 0x1065 0x1068, tt);
  (R 0x106e 0x1086, tt);
  (R 0x108e 0x108e, tt);
  (R 0x109c 0x109d, tt);
  (R 0x10a0 0x10c5, tt);
  (R 0x10c7 0x10c7, tt);
  (R 0x10cd 0x10cd, tt);
  (R 0x10d0 0x10fa, tt);
  (R 0x10fc 0x1248, tt);
  (R 0x124a 0x124d, tt);
  (R 0x1250 0x1256, tt);
  (R 0x1258 0x1258, tt);
  (R 0x125a 0x125d, tt);
  (R 0x1260 0x1288, tt);
  (R 0x128a 0x128d, tt);
  (R 0x1290 0x12b0, tt);
  (R 0x12b2 0x12b5, tt);
  (R 0x12b8 0x12be, tt);
  (R 0x12c0 0x12c0, tt);
  (R 0x12c2 0x12c5, tt);
  (R 0x12c8 0x12d6, tt);
  (R 0x12d8 0x1310, tt);
  (R 0x1312 0x1315, tt);
  (R 0x1318 0x135a, tt);
  (R 0x135f 0x135f, tt);
  (R 0x1380 0x138f, tt);
  (R 0x13a0 0x13f5, tt);
  (R 0x13f8 0x13fd, tt);
  (R 0x1401 0x166c, tt);
  (R 0x166f 0x167f, tt);
  (R 0x1681 0x169a, tt);
  (R 0x16a0 0x16ea, tt);
  (R 0x16ee 0x16f8, tt);
  (R 0x1700 0x170c, tt);
  (R 0x170e 0x1713, tt);
  (R 0x1720 0x1733, tt);
  (R 0x1740 0x1753, tt);
  (R 0x1760 0x176c, tt);
  (R 0x176e 0x1770, tt);
  (R 0x1772 0x1773, tt);
  (R 0x1780 0x17b3, tt);
  (R 0x17b6 0x17c8, tt);
  (R 0x17d7 0x17d7, tt);
  (R 0x17dc 0x17dc, tt);
  (R 0x1820 0x1877, tt);
  (R 0x1880 0x18aa, tt);
  (R 0x18b0 0x18f5, tt);
  (R 0x1900 0x191e, tt);
  (R 0x1920 0x192b, tt);
  (R 0x1930 0x1938, tt);
  (R 0x1950 0x196d, tt);
  (R 0x1970 0x1974, tt);
  (R 0x1980 0x19ab, tt);
  (R 0x19b0 0x19c9, tt);
  (R 0x1a00 0x1a1b, tt);
  (R 0x1a20 0x1a5e, tt);
  (R 0x1a61 0x1a74, tt);
  (R 0x1aa7 0x1aa7, tt);
  (R 0x1b00 0x1b33, tt);
  (R 0x1b35 0x1b43, tt);
  (R 0x1b45 0x1b4b, tt);
  (R 0x1b80 0x1ba9, tt);
  (R 0x1bac 0x1baf, tt);
  (R 0x1bba 0x1be5, tt);
  (R 0x1be7 0x1bf1, tt);
  (R 0x1c00 0x1c35, tt);
  (R 0x1c4d 0x1c4f, tt);
  (R 0x1c5a 0x1c7d, tt);
  (R 0x1c80 0x1c88, tt);
  (R 0x1ce9 0x1cec, tt);
  (R 0x1cee 0x1cf3, tt);
  (R 0x1cf5 0x1cf6, tt);
  (R 0x1d00 0x1dbf, tt);
  (R 0x1de7 0x1df4, tt);
  (R 0x1e00 0x1f15, tt);
  (R 0x1f18 0x1f1d, tt);
  (R 0x1f20 0x1f45, tt);
  (R 0x1f48 0x1f4d, tt);
  (R 0x1f50 0x1f57, tt);
  (R 0x1f59 0x1f59, tt);
  (R 0x1f5b 0x1f5b, tt);
  (R 0x1f5d 0x1f5d, tt);
  (R 0x1f5f 0x1f7d, tt);
  (R 0x1f80 0x1fb4, tt);
  (R 0x1fb6 0x1fbc, tt);
  (R 0x1fbe 0x1fbe, tt);
  (R 0x1fc2 0x1fc4, tt);
  (R 0x1fc6 0x1fcc, tt);
  (R 0x1fd0 0x1fd3, tt);
  (R 0x1fd6 0x1fdb, tt);
  (R 0x1fe0 0x1fec, tt);
  (R 0x1ff2 0x1ff4, tt);
  (R 0x1ff6 0x1ffc, tt);
  (R 0x2071 0x2071, tt);
  (R 0x207f 0x207f, tt);
  (R 0x2090 0x209c, tt);
  (R 0x2102 0x2102, tt);
  (R 0x2107 0x2107, tt);
  (R 0x210a 0x2113, tt);
  (R 0x2115 0x2115, tt);
  (R 0x2119 0x211d, tt);
  (R 0x2124 0x2124, tt);
  (R 0x2126 0x2126, tt);
  (R 0x2128 0x2128, tt);
  (R 0x212a 0x212d, tt);
  (R 0x212f 0x2139, tt);
  (R 0x213c 0x213f, tt);
  (R 0x2145 0x2149, tt);
  (R 0x214e 0x214e, tt);
  (R 0x2160 0x2188, tt);
  (R 0x24b6 0x24e9, tt);
  (R 0x2c00 0x2c2e, tt);
  (R 0x2c30 0x2c5e, tt);
  (R 0x2c60 0x2ce4, tt);
  (R 0x2ceb 0x2cee, tt);
  (R 0x2cf2 0x2cf3, tt);
  (R 0x2d00 0x2d25, tt);
  (R 0x2d27 0x2d27, tt);
  (R 0x2d2d 0x2d2d, tt);
  (R 0x2d30 0x2d67, tt);
  (R 0x2d6f 0x2d6f, tt);
  (R 0x2d80 0x2d96, tt);
  (R 0x2da0 0x2da6, tt);
  (R 0x2da8 0x2dae, tt);
  (R 0x2db0 0x2db6, tt);
  (R 0x2db8 0x2dbe, tt);
  (R 0x2dc0 0x2dc6, tt);
  (R 0x2dc8 0x2dce, tt);
  (R 0x2dd0 0x2dd6, tt);
  (R 0x2dd8 0x2dde, tt);
  (R 0x2de0 0x2dff, tt);
  (R 0x2e2f 0x2e2f, tt);
  (R 0x3005 0x3007, tt);
  (R 0x3021 0x3029, tt);
  (R 0x3031 0x3035, tt);
  (R 0x3038 0x303c, tt);
  (R 0x3041 0x3096, tt);
  (R 0x309d 0x309f, tt);
  (R 0x30a1 0x30fa, tt);
  (R 0x30fc 0x30ff, tt);
  (R 0x3105 0x312e, tt);
  (R 0x3131 0x318e, tt);
  (R 0x31a0 0x31ba, tt);
  (R 0x31f0 0x31ff, tt);
  (R 0x3400 0x4db5, tt);
  (R 0x4e00 0x9fea, tt);
  (R 0xa000 0xa48c, tt);
  (R 0xa4d0 0xa4fd, tt);
  (R 0xa500 0xa60c, tt);
  (R 0xa610 0xa61f, tt);
  (R 0xa62a 0xa62b, tt);
  (R 0xa640 0xa66e, tt);
  (R 0xa674 0xa67b, tt);
  (R 0xa67f 0xa6ef, tt);
  (R 0xa717 0xa71f, tt);
  (R 0xa722 0xa788, tt);
  (R 0xa78b 0xa7ae, tt);
  (R 0xa7b0 0xa7b7, tt);
  (R 0xa7f7 0xa801, tt);
  (R 0xa803 0xa805, tt);
  (R 0xa807 0xa80a, tt);
  (R 0xa80c 0xa827, tt);
  (R 0xa840 0xa873, tt);
  (R 0xa880 0xa8c3, tt);
  (R 0xa8c5 0xa8c5, tt);
  (R 0xa8f2 0xa8f7, tt);
  (R 0xa8fb 0xa8fb, tt);
  (R 0xa8fd 0xa8fd, tt);
  (R 0xa90a 0xa92a, tt);
  (R 0xa930 0xa952, tt);
  (R 0xa960 0xa97c, tt);
  (R 0xa980 0xa9b2, tt);
  (R 0xa9b4 0xa9bf, tt);
  (R 0xa9cf 0xa9cf, tt);
  (R 0xa9e0 0xa9e4, tt);
  (R 0xa9e6 0xa9ef, tt);
  (R 0xa9fa 0xa9fe, tt);
  (R 0xaa00 0xaa36, tt);
  (R 0xaa40 0xaa4d, tt);
  (R 0xaa60 0xaa76, tt);
  (R 0xaa7a 0xaa7a, tt);
  (R 0xaa7e 0xaabe, tt);
  (R 0xaac0 0xaac0, tt);
  (R 0xaac2 0xaac2, tt);
  (R 0xaadb 0xaadd, tt);
  (R 0xaae0 0xaaef, tt);
  (R 0xaaf2 0xaaf5, tt);
  (R 0xab01 0xab06, tt);
  (R 0xab09 0xab0e, tt);
  (R 0xab11 0xab16, tt);
  (R 0xab20 0xab26, tt);
  (R 0xab28 0xab2e, tt)].

Definition ALPHABETIC_1 : list (CharRange * unit) := [
  (R 0xab30 0xab5a, tt);
  (R 0xab5c 0xab65, tt);
  (R 0xab70 0xabea, tt);
  (R 0xac00 0xd7a3, tt);
  (R 0xd7b0 0xd7c6, tt);
  (R 0xd7cb 0xd7fb, tt);
  (R 0xf900 0xfa6d, tt);
  (R 0xfa70 0xfad9, tt);
  (R 0xfb00 0xfb06, tt);
  (R 0xfb13 0xfb17, tt);
  (R 0xfb1d 0xfb28, tt);
  (R 0xfb2a 0xfb36, tt);
  (R 0xfb38 0xfb3c, tt);
  (R 0xfb3e 0xfb3e, tt);
  (R 0xfb40 0xfb41, tt);
  (R 0xfb43 0xfb44, tt);
  (R 0xfb46 0xfbb1, tt);
  (R 0xfbd3 0xfd3d, tt);
  (R 0xfd50 0xfd8f, tt);
  (R 0xfd92 0xfdc7, tt);
  (R 0xfdf0 0xfdfb, tt);
  (R 0xfe70 0xfe74, tt);
  (R 0xfe76 0xfefc, tt);
  (R 0xff21 0xff3a, tt);
  (R 0xff41 0xff5a, tt);
  (R 0xff66 0xffbe, tt);
  (R 0xffc2 0xffc7, tt);
  (R 0xffca 0xffcf, tt);
  (R 0xffd2 0xffd7, tt);
  (R 0xffda 0xffdc, tt);
  (R 0x10000 0x1000b, tt);
  (R 0x1000d 0x10026, tt);
  (R 0x10028 0x1003a, tt);
  (R 0x1003c 0x1003d, tt);
  (R 0x1003f 0x1004d, tt);
  (R 0x10050 0x1005d, tt);
  (R 0x10080 0x100fa, tt);
  (R 0x10140 0x10174, tt);
  (R 0x10280 0x1029c, tt);
  (R 0x102a0 0x102d0, tt);
  (R 0x10300 0x1031f, tt);
  (R 0x1032d 0x1034a, tt);
  (R 0x10350 0x1037a, tt);
  (R 0x10380 0x1039d, tt);
  (R 0x103a0 0x103c3, tt);
  (R 0x103c8 0x103cf, tt);
  (R 0x103d1 0x103d5, tt);
  (R 0x10400 0x1049d, tt);
  (R 0x104b0 0x104d3, tt);
  (R 0x104d8 0x104fb, tt);
  (R 0x10500 0x10527, tt);
  (R 0x10530 0x10563, tt);
  (R 0x10600 0x10736, tt);
  (R 0x10740 0x10755, tt);
  (R 0x10760 0x10767, tt);
  (R 0x10800 0x10805, tt);
  (R 0x10808 0x10808, tt);
  (R 0x1080a 0x10835, tt);
  (R 0x10837 0x10838, tt);
  (R 0x1083c 0x1083c, tt);
  (R 0x1083f 0x10855, tt);
  (R 0x10860 0x10876, tt);
  (R 0x10880 0x1089e, tt);
  (R 0x108e0 0x108f2, tt);
  (R 0x108f4 0x108f5, tt);
  (R 0x10900 0x10915, tt);
  (R 0x10920 0x10939, tt);
  (R 0x10980 0x109b7, tt);
  (R 0x109be 0x109bf, tt);
  (R 0x10a00 0x10a03, tt);
  (R 0x10a05 0x10a06, tt);
  (R 0x10a0c 0x10a13, tt);
  (R 0x10a15 0x10a17, tt);
  (R 0x10a19 0x10a33, tt);
  (R 0x10a60 0x10a7c, tt);
  (R 0x10a80 0x10a9c, tt);
  (R 0x10ac0 0x10ac7, tt);
  (R 0x10ac9 0x10ae4, tt);
  (R 0x10b00 0x10b35, tt);
  (R 0x10b40 0x10b55, tt);
  (R 0x10b60 0x10b72, tt);
  (R 0x10b80 0x10b91, tt);
  (R 0x10c00 0x10c48, tt);
  (R 0x10c80 0x10cb2, tt);
  (R 0x10cc0 0x10cf2, tt);
  (R 0x11000 0x11045, tt);
  (R 0x11082 0x110b8, tt);
  (R 0x110d0 0x110e8, tt);
  (R 0x11100 0x11132, tt);
  (R 0x11150 0x11172, tt);
  (R 0x11176 0x11176, tt);
  (R 0x11180 0x111bf, tt);
  (R 0x111c1 0x111c4, tt);
  (R 0x111da 0x111da, tt);
  (R 0x111dc 0x111dc, tt);
  (R 0x11200 0x11211, tt);
  (R 0x11213 0x11234, tt);
  (R 0x11237 0x11237, tt);
  (R 0x1123e 0x1123e, tt);
  (R 0x11280 0x11286, tt);
  (R 0x11288 0x11288, tt);
  (R 0x1128a 0x1128d, tt);
  (R 0x1128f 0x1129d, tt);
  (R 0x1129f 0x112a8, tt);
  (R 0x112b0 0x112e8, tt);
  (R 0x11300 0x11303, tt);
  (R 0x11305 0x1130c, tt);
  (R 0x1130f 0x11310, tt);
  (R 0x11313 0x11328, tt);
  (R 0x1132a 0x11330, tt);
  (R 0x11332 0x11333, tt);
  (R 0x11335 0x11339, tt);
  (R 0x1133d 0x11344, tt);
  (R 0x11347 0x11348, tt);
  (R 0x1134b 0x1134c, tt);
  (R 0x11350 0x11350, tt);
  (R 0x11357 0x11357, tt);
  (R 0x1135d 0x11363, tt);
  (R 0x11400 0x11441, tt);
  (R 0x11443 0x11445, tt);
  (R 0x11447 0x1144a, tt);
  (R 0x11480 0x114c1, tt);
  (R 0x114c4 0x114c5, tt);
  (R 0x114c7 0x114c7, tt);
  (R 0x11580 0x115b5, tt);
  (R 0x115b8 0x115be, tt);
  (R 0x115d8 0x115dd, tt);
  (R 0x11600 0x1163e, tt);
  (R 0x11640 0x11640, tt);
  (R 0x11644 0x11644, tt);
  (R 0x11680 0x116b5, tt);
  (R 0x11700 0x11719, tt);
  (R 0x1171d 0x1172a, tt);
  (R 0x118a0 0x118df, tt);
  (R 0x118ff 0x118ff, tt);
  (R 0x11a00 0x11a32, tt);
  (R 0x11a35 0x11a3e, tt);
  (R 0x11a50 0x11a83, tt);
  (R 0x11a86 0x11a97, tt);
  (R 0x11ac0 0x11af8, tt);
  (R 0x11c00 0x11c08, tt);
  (R 0x11c0a 0x11c36, tt);
  (R 0x11c38 0x11c3e, tt);
  (R 0x11c40 0x11c40, tt);
  (R 0x11c72 0x11c8f, tt);
  (R 0x11c92 0x11ca7, tt);
  (R 0x11ca9 0x11cb6, tt);
  (R 0x11d00 0x11d06, tt);
  (R 0x11d08 0x11d09, tt);
  (R 0x11d0b 0x11d36, tt);
  (R 0x11d3a 0x11d3a, tt);
  (R 0x11d3c 0x11d3d, tt);
  (R 0x11d3f 0x11d41, tt);
  (R 0x11d43 0x11d43, tt);
  (R 0x11d46 0x11d47, tt);
  (R 0x12000 0x12399, tt);
  (R 0x12400 0x1246e, tt);
  (R 0x12480 0x12543, tt);
  (R 0x13000 0x1342e, tt);
  (R 0x14400 0x14646, tt);
  (R 0x16800 0x16a38, tt);
  (R 0x16a40 0x16a5e, tt);
  (R 0x16ad0 0x16aed, tt);
  (R 0x16b00 0x16b36, tt);
  (R 0x16b40 0x16b43, tt);
  (R 0x16b63 0x16b77, tt);
  (R 0x16b7d 0x16b8f, tt);
  (R 0x16f00 0x16f44, tt);
  (R 0x16f50 0x16f7e, tt);
  (R 0x16f93 0x16f9f, tt);
  (R 0x16fe0 0x16fe1, tt);
  (R 0x17000 0x187ec, tt);
  (R 0x18800 0x18af2, tt);
  (R 0x1b000 0x1b11e, tt);
  (R 0x1b170 0x1b2fb, tt);
  (R 0x1bc00 0x1bc6a, tt);
  (R 0x1bc70 0x1bc7c, tt);
  (R 0x1bc80 0x1bc88, tt);
  (R 0x1bc90 0x1bc99, tt);
  (R 0x1bc9e 0x1bc9e, tt);
  (R 0x1d400 0x1d454, tt);
  (R 0x1d456 0x1d49c, tt);
  (R 0x1d49e 0x1d49f, tt);
  (R 0x1d4a2 0x1d4a2, tt);
  (R 0x1d4a5 0x1d4a6, tt);
  (R 0x1d4a9 0x1d4ac, tt);
  (R 0x1d4ae 0x1d4b9, tt);
  (R 0x1d4bb 0x1d4bb, tt);
  (R 0x1d4bd 0x1d4c3, tt);
  (R 0x1d4c5 0x1d505, tt);
  (R 0x1d507 0x1d50a, tt);
  (R 0x1d50d 0x1d514, tt);
  (R 0x1d516 0x1d51c, tt);
  (R 0x1d51e 0x1d539, tt);
  (R 0x1d53b 0x1d53e, tt);
  (R 0x1d540 0x1d544, tt);
  (R 0x1d546 0x1d546, tt);
  (R 0x1d54a 0x1d550, tt);
  (R 0x1d552 0x1d6a5, tt);
  (R 0x1d6a8 0x1d6c0, tt);
  (R 0x1d6c2 0x1d6da, tt);
  (R 0x1d6dc 0x1d6fa, tt);
  (R 0x1d6fc 0x1d714, tt);
  (R 0x1d716 0x1d734, tt);
  (R 0x1d736 0x1d74e, tt);
  (R 0x1d750 0x1d76e, tt);
  (R 0x1d770 0x1d788, tt);
  (R 0x1d78a 0x1d7a8, tt);
  (R 0x1d7aa 0x1d7c2, tt);
  (R 0x1d7c4 0x1d7cb, tt);
  (R 0x1e000 0x1e006, tt);
  (R 0x1e008 0x1e018, tt);
  (R 0x1e01b 0x1e021, tt);
  (R 0x1e023 0x1e024, tt);
  (R 0x1e026 0x1e02a, tt);
  (R 0x1e800 0x1e8c4, tt);
  (R 0x1e900 0x1e943, tt);
  (R 0x1e947 0x1e947, tt);
  (R 0x1ee00 0x1ee03, tt);
  (R 0x1ee05 0x1ee1f, tt);
  (R 0x1ee21 0x1ee22, tt);
  (R 0x1ee24 0x1ee24, tt);
  (R 0x1ee27 0x1ee27, tt);
  (R 0x1ee29 0x1ee32, tt);
  (R 0x1ee34 0x1ee37, tt);
  (R 0x1ee39 0x1ee39, tt);
  (R 0x1ee3b 0x1ee3b, tt);
  (R 0x1ee42 0x1ee42, tt);
  (R 0x1ee47 0x1ee47, tt);
  (R 0x1ee49 0x1ee49, tt);
  (R 0x1ee4b 0x1ee4b, tt);
  (R 0x1ee4d 0x1ee4f, tt);
  (R 0x1ee51 0x1ee52, tt);
  (R 0x1ee54 0x1ee54, tt);
  (R 0x1ee57 0x1ee57, tt);
  (R 0x1ee59 0x1ee59, tt);
  (R 0x1ee5b 0x1ee5b, tt);
  (R 0x1ee5d 0x1ee5d, tt);
  (R 0x1ee5f 0x1ee5f, tt);
  (R 0x1ee61 0x1ee62, tt);
  (R 0x1ee64 0x1ee64, tt);
  (R 0x1ee67 0x1ee6a, tt);
  (R 0x1ee6c 0x1ee72, tt);
  (R 0x1ee74 0x1ee77, tt);
  (R 0x1ee79 0x1ee7c, tt);
  (R 0x1ee7e 0x1ee7e, tt);
  (R 0x1ee80 0x1ee89, tt);
  (R 0x1ee8b 0x1ee9b, tt);
  (R 0x1eea1 0x1eea3, tt);
  (R 0x1eea5 0x1eea9, tt);
  (R 0x1eeab 0x1eebb, tt);
  (R 0x1f130 0x1f149, tt);
  (R 0x1f150 0x1f169, tt);
  (R 0x1f170 0x1f189, tt);
  (R 0x20000 0x2a6d6, tt);
  (R 0x2a700 0x2b734, tt);
  (R 0x2b740 0x2b81d, tt);
  (R 0x2b820 0x2cea1, tt);
  (R 0x2ceb0 0x2ebe0, tt);
  (R 0x2f800 0x2fa1d, tt)].

Definition ALPHABETIC : CharDataTable unit :=
  Range (ALPHABETIC_0 ++ ALPHABETIC_1).

(** unic/ucd/common/tables/alphanumeric.rsv:1-729 (725 entries) *)
Definition ALPHANUMERIC_0 : list (CharRange * unit) := [
  (R 0x30 0x39, tt);
  (R 0x41 0x5a, tt);
  (R 0x61 0x7a, tt);
  (R 0xaa 0xaa, tt);
  (R 0xb2 0xb3, tt);
  (R 0xb5 0xb5, tt);
  (R 0xb9 0xba, tt);
  (R 0xbc 0xbe, tt);
  (R 0xc0 0xd6, tt);
  (R 0xd8 0xf6, tt);
  (R 0xf8 0x2c1, tt);
  (R 0x2c6 0x2d1, tt);
  (R 0x2e0 0x2e4, tt);
  (R 0x2ec 0x2ec, tt);
  (R 0x2ee 0x2ee, tt);
  (R 0x345 0x345, tt);
  (R 0x370 0x374, tt);
  (R 0x376 0x377, tt);
  (R 0x37a 0x37d, tt);
  (R 0x37f 0x37f, tt);
  (R 0x386 0x386, tt);
  (R 0x388 0x38a, tt);
  (R 0x38c 0x38c, tt);
  (R 0x38e 0x3a1, tt);
  (R 0x3a3 0x3f5, tt);
  (R 0x3f7 0x481, tt);
  (R 0x48a 0x52f, tt);
  (R 0x531 0x556, tt);
  (R 0x559 0x559, tt);
  (R 0x561 0x587, tt);
  (R 0x5b0 0x5bd, tt);
  (R 0x5bf 0x5bf, tt);
  (R 0x5c1 0x5c2, tt);
  (R 0x5c4 0x5c5, tt);
  (R 0x5c7 0x5c7, tt);
  (R 0x5d0 0x5ea, tt);
  (R 0x5f0 0x5f2, tt);
  (R 0x610 0x61a, tt);
  (R 0x620 0x657, tt);
  (R 0x659 0x669, tt);
  (R 0x66e 0x6d3, tt);
  (R 0x6d5 0x6dc, tt);
  (R 0x6e1 0x6e8, tt);
  (R 0x6ed 0x6fc, tt);
  (R 0x6ff 0x6ff, tt);
  (R 0x710 0x73f, tt);
  (R 0x74d 0x7b1, tt);
  (R 0x7c0 0x7ea, tt);
  (R 0x7f4 0x7f5, tt);
  (R 0x7fa 0x7fa, tt);
  (R 0x800 0x817, tt);
  (R 0x81a 0x82c, tt);
  (R 0x840 0x858, tt);
  (R 0x860 0x86a, tt);
  (R 0x8a0 0x8b4, tt);
  (R 0x8b6 0x8bd, tt);
  (R 0x8d4 0x8df, tt);
  (R 0x8e3 0x8e9, tt);
  (R 0x8f0 0x93b, tt);
  (R 0x93d 0x94c, tt);
  (R 0x94e 0x950, tt);
  (R 0x955 0x963, tt);
  (R 0x966 0x96f, tt);
  (R 0x971 0x983, tt);
  (R 0x985 0x98c, tt);
  (R 0x98f 0x990, tt);
  (R 0x993 0x9a8, tt);
  (R 0x9aa 0x9b0, tt);
  (R 0x9b2 0x9b2, tt);
  (R 0x9b6 0x9b9, tt);
  (R 0x9bd 0x9c4, tt);
  (R 0x9c7 0x9c8, tt);
  (R 0x9cb 0x9cc, tt);
  (R 0x9ce 0x9ce, tt);
  (R 0x9d7 0x9d7, tt);
  (R 0x9dc 0x9dd, tt);
  (R 0x9df 0x9e3, tt);
  (R 0x9e6 0x9f1, tt);
  (R 0x9f4 0x9f9, tt);
  (R 0x9fc 0x9fc, tt);
  (R 0xa01 0xa03, tt);
  (R 0xa05 0xa0a, tt);
  (R 0xa0f 0xa10, tt);
  (R 0xa13 0xa28, tt);
  (R 0xa2a 0xa30, tt);
  (R 0xa32 0xa33, tt);
  (R 0xa35 0xa36, tt);
  (R 0xa38 0xa39, tt);
  (R 0xa3e 0xa42, tt);
  (R 0xa47 0xa48, tt);
  (R 0xa4b 0xa4c, tt);
  (R 0xa51 0xa51, tt);
  (R 0xa59 0xa5c, tt);
  (R 0xa5e 0xa5e, tt);
  (R 0xa66 0xa75, tt);
  (R 0xa81 0xa83, tt);
  (R 0xa85 0xa8d, tt);
  (R 0xa8f 0xa91, tt);
  (R 0xa93 0xaa8, tt);
  (R 0xaaa 0xab0, tt);
  (R 0xab2 0xab3, tt);
  (R 0xab5 0xab9, tt);
  (R 0xabd 0xac5, tt);
  (R 0xac7 0xac9, tt);
  (R 0xacb 0xacc, tt);
  (R 0xad0 0xad0, tt);
  (R 0xae0 0xae3, tt);
  (R 0xae6 0xaef, tt);
  (R 0xaf9 0xafc, tt);
  (R 0xb01 0xb03, tt);
  (R 0xb05 0xb0c, tt);
  (R 0xb0f 0xb10, tt);
  (R 0xb13 0xb28, tt);
  (R 0xb2a 0xb30, tt);
  (R 0xb32 0xb33, tt);
  (R 0xb35 0xb39, tt);
  (R 0xb3d 0xb44, tt);
  (R 0xb47 0xb48, tt);
  (R 0xb4b 0xb4c, tt);
  (R 0xb56 0xb57, tt);
  (R 0xb5c 0xb5d, tt);
  (R 0xb5f 0xb63, tt);
  (R 0xb66 0xb6f, tt);
  (R 0xb71 0xb77, tt);
  (R 0xb82 0xb83, tt);
  (R 0xb85 0xb8a, tt);
  (R 0xb8e 0xb90, tt);
  (R 0xb92 0xb95, tt);
  (R 0xb99 0xb9a, tt);
  (R 0xb9c 0xb9c, tt);
  (R 0xb9e 0xb9f, tt);
  (R 0xba3 0xba4, tt);
  (R 0xba8 0xbaa, tt);
  (R 0xbae 0xbb9, tt);
  (R 0xbbe 0xbc2, tt);
  (R 0xbc6 0xbc8, tt);
  (R 0xbca 0xbcc, tt);
  (R 0xbd0 0xbd0, tt);
  (R 0xbd7 0xbd7, tt);
  (R 0xbe6 0xbf2, tt);
  (R 0xc00 0xc03, tt);
  (R 0xc05 0xc0c, tt);
  (R 0xc0e 0xc10, tt);
  (R 0xc12 0xc28, tt);
  (R 0xc2a 0xc39, tt);
  (R 0xc3d 0xc44, tt);
  (R 0xc46 0xc48, tt);
  (R 0xc4a 0xc4c, tt);
  (R 0xc55 0xc56, tt);
  (R 0xc58 0xc5a, tt);
  (R 0xc60 0xc63, tt);
  (R 0xc66 0xc6f, tt);
  (R 0xc78 0xc7e, tt);
  (R 0xc80 0xc83, tt);
  (R 0xc85 0xc8c, tt);
  (R 0xc8e 0xc90, tt);
  (R 0xc92 0xca8, tt);
  (R 0xcaa 0xcb3, tt);
  (R 0xcb5 0xcb9, tt);
  (R 0xcbd 0xcc4, tt);
  (R 0xcc6 0xcc8, tt);
  (R 0xcca 0xccc, tt);
  (R 0xcd5 0xcd6, tt);
  (R 0xcde 0xcde, tt);
  (R 0xce0 0xce3, tt);
  (R 0xce6 0xcef, tt);
  (R 0xcf1 0xcf2, tt);
  (R 0xd00 0xd03, tt);
  (R 0xd05 0xd0c, tt);
  (R 0xd0e 0xd10, tt);
  (R 0xd12 0xd3a, tt);
  (R 0xd3d 0xd44, tt);
  (R 0xd46 0xd48, tt);
  (R 0xd4a 0xd4c, tt);
  (R 0xd4e 0xd4e, tt);
  (R 0xd54 0xd63, tt);
  (R 0xd66 0xd78, tt);
  (R 0xd7a 0xd7f, tt);
  (R 0xd82 0xd83, tt);
  (R 0xd85 0xd96, tt);
  (R 0xd9a 0xdb1, tt);
  (R 0xdb3 0xdbb, tt);
  (R 0xdbd 0xdbd, tt);
  (R 0xdc0 0xdc6, tt);
  (R 0xdcf 0xdd4, tt);
  (R 0xdd6 0xdd6, tt);
  (R 0xdd8 0xddf, tt);
  (R 0xde6 0xdef, tt);
  (R 0xdf2 0xdf3, tt);
  (R 0xe01 0xe3a, tt);
  (R 0xe40 0xe46, tt);
  (R 0xe4d 0xe4d, tt);
  (R 0xe50 0xe59, tt);
  (R 0xe81 0xe82, tt);
  (R 0xe84 0xe84, tt);
  (R 0xe87 0xe88, tt);
  (R 0xe8a 0xe8a, tt);
  (R 0xe8d 0xe8d, tt);
  (R 0xe94 0xe97, tt);
  (R 0xe99 0xe9f, tt);
  (R 0xea1 0xea3, tt);
  (R 0xea5 0xea5, tt);
  (R 0xea7 0xea7, tt);
  (R 0xeaa 0xeab, tt);
  (R 0xead 0xeb9, tt);
  (R 0xebb 0xebd, tt);
  (R 0xec0 0xec4, tt);
  (R 0xec6 0xec6, tt);
  (R 0xecd 0xecd, tt);
  (R 0xed0 0xed9, tt);
  (R 0xedc 0xedf, tt);
  (R 0xf00 0xf00, tt);
  (R 0xf20 0xf33, tt);
  (R 0xf40 0xf47, tt);
  (R 0xf49 0xf6c, tt);
  (R 0xf71 0xf81, tt);
  (R 0xf88 0xf97, tt);
  (R 0xf99 0xfbc, tt);
  (R 0x1000 0x1036, tt);
  (R 0x1038 0x1038, tt);
  (R 0x103b 0x1049, tt);
  (R 0x1050 0x1062, tt);
  (R 0x1065 0x1068, tt);
  (R 0x106e 0x1086, tt);
  (R 0x108e 0x108e, tt);
  (R 0x1090 0x1099, tt);
  (R 0x109c 0x109d, tt);
  (R 0x10a0 0x10c5, tt);
  (R 0x10c7 0x10c7, tt);
  (R 0x10cd 0x10cd, tt);
  (R 0x10d0 0x10fa, tt);
  (R 0x10fc 0x1248, tt);
  (R 0x124a 0x124d, tt);
  (R 0x1250 0x1256, tt);
  (R 0x1258 0x1258, tt);
  (R 0x125a 0x125d, tt);
  (R 0x1260 0x1288, tt);
  (R 0x128a 0x128d, tt);
  (R 0x1290 0x12b0, tt);
  (R 0x12b2 0x12b5, tt);
  (R 0x12b8 0x12be, tt);
  (R 0x12c0 0x12c0, tt);
  (R 0x12c2 0x12c5, tt);
  (R 0x12c8 0x12d6, tt);
  (R 0x12d8 0x1310, tt);
  (R 0x1312 0x1315, tt);
  (R 0x1318 0x135a, tt);
  (R 0x135f 0x135f, tt);
  (R 0x1369 0x137c, tt);
  (R 0x1380 0x138f, tt);
  (R 0x13a0 0x13f5, tt);
  (R 0x13f8 0x13fd, tt);
  (R 0x1401 0x166c, tt);
  (R 0x166f 0x167f, tt);
  (R 0x1681 0x169a, tt);
  (R 0x16a0 0x16ea, tt);
  (R 0x16ee 0x16f8, tt);
  (R 0x1700 0x170c, tt);
  (R 0x170e 0x1713, tt);
  (R 0x1720 0x1733, tt);
  (R 0x1740 0x1753, tt);
  (R 0x1760 0x176c, tt);
  (R 0x176e 0x1770, tt);
  (R 0x1772 0x1773, tt);
  (R 0x1780 0x17b3, tt);
  (R 0x17b6 0x17c8, tt);
  (R 0x17d7 0x17d7, tt);
  (R 0x17dc 0x17dc, tt);
  (R 0x17e0 0x17e9, tt);
  (R 0x17f0 0x17f9, tt);
  (R 0x1810 0x1819, tt);
  (R 0x1820 0x1877, tt);
  (R 0x1880 0x18aa, tt);
  (R 0x18b0 0x18f5, tt);
  (R 0x1900 0x191e, tt);
  (R 0x1920 0x192b, tt);
  (R 0x1930 0x1938, tt);
  (R 0x1946 0x196d, tt);
  (R 0x1970 0x1974, tt);
  (R 0x1980 0x19ab, tt);
  (R 0x19b0 0x19c9, tt);
  (R 0x19d0 0x19da, tt);
  (R 0x1a00 0x1a1b, tt);
  (R 0x1a20 0x1a5e, tt);
  (R 0x1a61 0x1a74, tt);
  (R 0x1a80 0x1a89, tt);
  (R 0x1a90 0x1a99, tt);
  (R 0x1aa7 0x1aa7, tt);
  (R 0x1b00 0x1b33, tt);
  (R 0x1b35 0x1b43, tt);
  (R 0x1b45 0x1b4b, tt);
  (R 0x1b50 0x1b59, tt);
  (R 0x1b80 0x1ba9, tt);
  (R 0x1bac 0x1be5, tt);
  (R 0x1be7 0x1bf1, tt);
  (R 0x1c00 0x1c35, tt);
  (R 0x1c40 0x1c49, tt);
  (R 0x1c4d 0x1c7d, tt);
  (R 0x1c80 0x1c88, tt);
  (R 0x1ce9 0x1cec, tt);
  (R 0x1cee 0x1cf3, tt);
  (R 0x1cf5 0x1cf6, tt);
  (R 0x1d00 0x1dbf, tt);
  (R 0x1de7 0x1df4, tt);
  (R 0x1e00 0x1f15, tt);
  (R 0x1f18 0x1f1d, tt);
  (R 0x1f20 0x1f45, tt);
  (R 0x1f48 0x1f4d, tt);
  (R 0x1f50 0x1f57, tt);
  (R 0x1f59 0x1f59, tt);
  (R 0x1f5b 0x1f5b, tt);
  (R 0x1f5d 0x1f5d, tt);
  (R 0x1f5f 0x1f7d, tt);
  (R 0x1f80 0x1fb4, tt);
  (R 0x1fb6 0x1fbc, tt);
  (R 0x1fbe 0x1fbe, tt);
  (R 0x1fc2 0x1fc4, tt);
  (R 0x1fc6 0x1fcc, tt);
  (R 0x1fd0 0x1fd3, tt);
  (R 0x1fd6 0x1fdb, tt);
  (R 0x1fe0 0x1fec, tt);
  (R 0x1ff2 0x1ff4, tt);
  (R 0x1ff6 0x1ffc, tt);
  (R 0x2070 0x2071, tt);
  (R 0x2074 0x2079, tt);
  (R 0x207f 0x2089, tt);
  (R 0x2090 0x209c, tt);
  (R 0x2102 0x2102, tt);
  (R 0x2107 0x2107, tt);
  (R 0x210a 0x2113, tt);
  (R 0x2115 0x2115, tt);
  (R 0x2119 0x211d, tt);
  (R 0x2124 0x2124, tt);
  (R 0x2126 0x2126, tt);
  (R 0x2128 0x2128, tt);
  (R 0x212a 0x212d, tt);
  (R 0x212f 0x2139, tt);
  (R 0x213c 0x213f, tt);
  (R 0x2145 0x2149, tt);
  (R 0x214e 0x214e, tt);
  (R 0x2150 0x2189, tt);
  (R 0x2460 0x249b, tt);
  (R 0x24b6 0x24ff, tt);
  (R 0x2776 0x2793, tt);
  (R 0x2c00 0x2c2e, tt);
  (R 0x2c30 0x2c5e, tt);
  (R 0x2c60 0x2ce4, tt);
  (R 0x2ceb 0x2cee, tt);
  (R 0x2cf2 0x2cf3, tt);
  (R 0x2cfd 0x2cfd, tt);
  (R 0x2d00 0x2d25, tt);
  (R 0x2d27 0x2d27, tt);
  (R 0x2d2d 0x2d2d, tt);
  (R 0x2d30 0x2d67, tt);
  (R 0x2d6f 0x2d6f, tt);
  (R 0x2d80 0x2d96, tt);
  (R 0x2da0 0x2da6, tt);
  (R 0x2da8 0x2dae, tt);
  (R 0x2db0 0x2db6, tt);
  (R 0x2db8 0x2dbe, tt);
  (R 0x2dc0 0x2dc6, tt);
  (R 0x2dc8 0x2dce, tt);
  (R 0x2dd0 0x2dd6, tt);
  (R 0x2dd8 0x2dde, tt);
  (R 0x2de0 0x2dff, tt);
  (R 0x2e2f 0x2e2f, tt);
  (R 0x3005 0x3007, tt);
  (R 0x3021 0x3029, tt);
  (R 0x3031 0x3035, tt);
  (R 0x3038 0x303c, tt);
  (R 0x3041 0x3096, tt);
  (R 0x309d 0x309f, tt);
  (R 0x30a1 0x30fa, tt);
  (R 0x30fc 0x30ff, tt);
  (R 0x3105 0x312e, tt);
  (R 0x3131 0x318e, tt);
  (R 0x3192 0x3195, tt);
  (R 0x31a0 0x31ba, tt);
  (R 0x31f0 0x31ff, tt);
  (R 0x3220 0x3229, tt);
  (R 0x3248 0x324f, tt);
  (R 0x3251 0x325f, tt);
  (R 0x3280 0x3289, tt);
  (R 0x32b1 0x32bf, tt);
  (R 0x3400 0x4db5, tt);
  (R 0x4e00 0x9fea, tt);
  (R 0xa000 0xa48c, tt);
  (R 0xa4d0 0xa4fd, tt);
  (R 0xa500 0xa60c, tt);
  (R 0xa610 0xa62b, tt);
  (R 0xa640 0xa66e, tt);
  (R 0xa674 0xa67b, tt);
  (R 0xa67f 0xa6ef, tt);
  (R 0xa717 0xa71f, tt);
  (R 0xa722 0xa788, tt);
  (R 0xa78b 0xa7ae, tt);
  (R 0xa7b0 0xa7b7, tt);
  (R 0xa7f7 0xa801, tt);
  (R 0xa803 0xa805, tt);
  (R 0xa807 0xa80a, tt)].

Definition ALPHANUMERIC_1 : list (CharRange * unit) := [
  (R 0xa80c 0xa827, tt);
  (R 0xa830 0xa835, tt);
  (R 0xa840 0xa873, tt);
  (R 0xa880 0xa8c3, tt);
  (R 0xa8c5 0xa8c5, tt);
  (R 0xa8d0 0xa8d9, tt);
  (R 0xa8f2 0xa8f7, tt);
  (R 0xa8fb 0xa8fb, tt);
  (R 0xa8fd 0xa8fd, tt);
  (R 0xa900 0xa92a, tt);
  (R 0xa930 0xa952, tt);
  (R 0xa960 0xa97c, tt);
  (R 0xa980 0xa9b2, tt);
  (R 0xa9b4 0xa9bf, tt);
  (R 0xa9cf 0xa9d9, tt);
  (R 0xa9e0 0xa9e4, tt);
  (R 0xa9e6 0xa9fe, tt);
  (R 0xaa00 0xaa36, tt);
  (R 0xaa40 0xaa4d, tt);
  (R 0xaa50 0xaa59, tt);
  (R 0xaa60 0xaa76, tt);
  (R 0xaa7a 0xaa7a, tt);
  (R 0xaa7e 0xaabe, tt);
  (R 0xaac0 0xaac0, tt);
  (R 0xaac2 0xaac2, tt);
  (R 0xaadb 0xaadd, tt);
  (R 0xaae0 0xaaef, tt);
  (R 0xaaf2 0xaaf5, tt);
  (R 0xab01 0xab06, tt);
  (R 0xab09 0xab0e, tt);
  (R 0xab11 0xab16, tt);
  (R 0xab20 0xab26, tt);
  (R 0xab28 0xab2e, tt);
  (R 0xab30 0xab5a, tt);
  (R 0xab5c 0xab65, tt);
  (R 0xab70 0xabea, tt);
  (R 0xabf0 0xabf9, tt);
  (R 0xac00 0xd7a3, tt);
  (R 0xd7b0 0xd7c6, tt);
  (R 0xd7cb 0xd7fb, tt);
  (R 0xf900 0xfa6d, tt);
  (R 0xfa70 0xfad9, tt);
  (R 0xfb00 0xfb06, tt);
  (R 0xfb13 0xfb17, tt);
  (R 0xfb1d 0xfb28, tt);
  (R 0xfb2a 0xfb36, tt);
  (R 0xfb38 0xfb3c, tt);
  (R 0xfb3e 0xfb3e, tt);
  (R 0xfb40 0xfb41, tt);
  (R 0xfb43 0xfb44, tt);
  (R 0xfb46 0xfbb1, tt);
  (R 0xfbd3 0xfd3d, tt);
  (R 0xfd50 0xfd8f, tt);
  (R 0xfd92 0xfdc7, tt);
  (R 0xfdf0 0xfdfb, tt);
  (R 0xfe70 0xfe74, tt);
  (R 0xfe76 0xfefc, tt);
  (R 0xff10 0xff19, tt);
  (R 0xff21 0xff3a, tt);
  (R 0xff41 0xff5a, tt);
  (R 0xff66 0xffbe, tt);
  (R 0xffc2 0xffc7, tt);
  (R 0xffca 0xffcf, tt);
  (R 0xffd2 0xffd7, tt);
  (R 0xffda 0xffdc, tt);
  (R 0x10000 0x1000b, tt);
  (R 0x1000d 0x10026, tt);
  (R 0x10028 0x1003a, tt);
  (R 0x1003c 0x1003d, tt);
  (R 0x1003f 0x1004d, tt);
  (R 0x10050 0x1005d, tt);
  (R 0x10080 0x100fa, tt);
  (R 0x10107 0x10133, tt);
  (R 0x10140 0x10178, tt);
  (R 0x1018a 0x1018b, tt);
  (R 0x10280 0x1029c, tt);
  (R 0x102a0 0x102d0, tt);
  (R 0x102e1 0x102fb, tt);
  (R 0x10300 0x10323, tt);
  (R 0x1032d 0x1034a, tt);
  (R 0x10350 0x1037a, tt);
  (R 0x10380 0x1039d, tt);
  (R 0x103a0 0x103c3, tt);
  (R 0x103c8 0x103cf, tt);
  (R 0x103d1 0x103d5, tt);
  (R 0x10400 0x1049d, tt);
  (R 0x104a0 0x104a9, tt);
  (R 0x104b0 0x104d3, tt);
  (R 0x104d8 0x104fb, tt);
  (R 0x10500 0x10527, tt);
  (R 0x10530 0x10563, tt);
  (R 0x10600 0x10736, tt);
  (R 0x10740 0x10755, tt);
  (R 0x10760 0x10767, tt);
  (R 0x10800 0x10805, tt);
  (R 0x10808 0x10808, tt);
  (R 0x1080a 0x10835, tt);
  (R 0x10837 0x10838, tt);
  (R 0x1083c 0x1083c, tt);
  (R 0x1083f 0x10855, tt);
  (R 0x10858 0x10876, tt);
  (R 0x10879 0x1089e, tt);
  (R 0x108a7 0x108af, tt);
  (R 0x108e0 0x108f2, tt);
  (R 0x108f4 0x108f5, tt);
  (R 0x108fb 0x1091b, tt);
  (R 0x10920 0x10939, tt);
  (R 0x10980 0x109b7, tt);
  (R 0x109bc 0x109cf, tt);
  (R 0x109d2 0x10a03, tt);
  (R 0x10a05 0x10a06, tt);
  (R 0x10a0c 0x10a13, tt);
  (R 0x10a15 0x10a17, tt);
  (R 0x10a19 0x10a33, tt);
  (R 0x10a40 0x10a47, tt);
  (R 0x10a60 0x10a7e, tt);
  (R 0x10a80 0x10a9f, tt);
  (R 0x10ac0 0x10ac7, tt);
  (R 0x10ac9 0x10ae4, tt);
  (R 0x10aeb 0x10aef, tt);
  (R 0x10b00 0x10b35, tt);
  (R 0x10b40 0x10b55, tt);
  (R 0x10b58 0x10b72, tt);
  (R 0x10b78 0x10b91, tt);
  (R 0x10ba9 0x10baf, tt);
  (R 0x10c00 0x10c48, tt);
  (R 0x10c80 0x10cb2, tt);
  (R 0x10cc0 0x10cf2, tt);
  (R 0x10cfa 0x10cff, tt);
  (R 0x10e60 0x10e7e, tt);
  (R 0x11000 0x11045, tt);
  (R 0x11052 0x1106f, tt);
  (R 0x11082 0x110b8, tt);
  (R 0x110d0 0x110e8, tt);
  (R 0x110f0 0x110f9, tt);
  (R 0x11100 0x11132, tt);
  (R 0x11136 0x1113f, tt);
  (R 0x11150 0x11172, tt);
  (R 0x11176 0x11176, tt);
  (R 0x11180 0x111bf, tt);
  (R 0x111c1 0x111c4, tt);
  (R 0x111d0 0x111da, tt);
  (R 0x111dc 0x111dc, tt);
  (R 0x111e1 0x111f4, tt);
  (R 0x11200 0x11211, tt);
  (R 0x11213 0x11234, tt);
  (R 0x11237 0x11237, tt);
  (R 0x1123e 0x1123e, tt);
  (R 0x11280 0x11286, tt);
  (R 0x11288 0x11288, tt);
  (R 0x1128a 0x1128d, tt);
  (R 0x1128f 0x1129d, tt);
  (R 0x1129f 0x112a8, tt);
  (R 0x112b0 0x112e8, tt);
  (R 0x112f0 0x112f9, tt);
  (R 0x11300 0x11303, tt);
  (R 0x11305 0x1130c, tt);
  (R 0x1130f 0x11310, tt);
  (R 0x11313 0x11328, tt);
  (R 0x1132a 0x11330, tt);
  (R 0x11332 0x11333, tt);
  (R 0x11335 0x11339, tt);
  (R 0x1133d 0x11344, tt);
  (R 0x11347 0x11348, tt);
  (R 0x1134b 0x1134c, tt);
  (R 0x11350 0x11350, tt);
  (R 0x11357 0x11357, tt);
  (R 0x1135d 0x11363, tt);
  (R 0x11400 0x11441, tt);
  (R 0x11443 0x11445, tt);
  (R 0x11447 0x1144a, tt);
  (R 0x11450 0x11459, tt);
  (R 0x11480 0x114c1, tt);
  (R 0x114c4 0x114c5, tt);
  (R 0x114c7 0x114c7, tt);
  (R 0x114d0 0x114d9, tt);
  (R 0x11580 0x115b5, tt);
  (R 0x115b8 0x115be, tt);
  (R 0x115d8 0x115dd, tt);
  (R 0x11600 0x1163e, tt);
  (R 0x11640 0x11640, tt);
  (R 0x11644 0x11644, tt);
  (R 0x11650 0x11659, tt);
  (R 0x11680 0x116b5, tt);
  (R 0x116c0 0x116c9, tt);
  (R 0x11700 0x11719, tt);
  (R 0x1171d 0x1172a, tt);
  (R 0x11730 0x1173b, tt);
  (R 0x118a0 0x118f2, tt);
  (R 0x118ff 0x118ff, tt);
  (R 0x11a00 0x11a32, tt);
  (R 0x11a35 0x11a3e, tt);
  (R 0x11a50 0x11a83, tt);
  (R 0x11a86 0x11a97, tt);
  (R 0x11ac0 0x11af8, tt);
  (R 0x11c00 0x11c08, tt);
  (R 0x11c0a 0x11c36, tt);
  (R 0x11c38 0x11c3e, tt);
  (R 0x11c40 0x11c40, tt);
  (R 0x11c50 0x11c6c, tt);
  (R 0x11c72 0x11c8f, tt);
  (R 0x11c92 0x11ca7, tt);
  (R 0x11ca9 0x11cb6, tt);
  (R 0x11d00 0x11d06, tt);
  (R 0x11d08 0x11d09, tt);
  (R 0x11d0b 0x11d36, tt);
  (R 0x11d3a 0x11d3a, tt);
  (R 0x11d3c 0x11d3d, tt);
  (R 0x11d3f 0x11d41, tt);
  (R 0x11d43 0x11d43, tt);
  (R 0x11d46 0x11d47, tt);
  (R 0x11d50 0x11d59, tt);
  (R 0x12000 0x12399, tt);
  (R 0x12400 0x1246e, tt);
  (R 0x12480 0x12543, tt);
  (R 0x13000 0x1342e, tt);
  (R 0x14400 0x14646, tt);
  (R 0x16800 0x16a38, tt);
  (R 0x16a40 0x16a5e, tt);
  (R 0x16a60 0x16a69, tt);
  (R 0x16ad0 0x16aed, tt);
  (R 0x16b00 0x16b36, tt);
  (R 0x16b40 0x16b43, tt);
  (R 0x16b50 0x16b59, tt);
  (R 0x16b5b 0x16b61, tt);
  (R 0x16b63 0x16b77, tt);
  (R 0x16b7d 0x16b8f, tt);
  (R 0x16f00 0x16f44, tt);
  (R 0x16f50 0x16f7e, tt);
  (R 0x16f93 0x16f9f, tt);
  (R 0x16fe0 0x16fe1, tt);
  (R 0x17000 0x187ec, tt);
  (R 0x18800 0x18af2, tt);
  (R 0x1b000 0x1b11e, tt);
  (R 0x1b170 0x1b2fb, tt);
  (R 0x1bc00 0x1bc6a, tt);
  (R 0x1bc70 0x1bc7c, tt);
  (R 0x1bc80 0x1bc88, tt);
  (R 0x1bc90 0x1bc99, tt);
  (R 0x1bc9e 0x1bc9e, tt);
  (R 0x1d360 0x1d371, tt);
  (R 0x1d400 0x1d454, tt);
  (R 0x1d456 0x1d49c, tt);
  (R 0x1d49e 0x1d49f, tt);
  (R 0x1d4a2 0x1d4a2, tt);
  (R 0x1d4a5 0x1d4a6, tt);
  (R 0x1d4a9 0x1d4ac, tt);
  (R 0x1d4ae 0x1d4b9, tt);
  (R 0x1d4bb 0x1d4bb, tt);
  (R 0x1d4bd 0x1d4c3, tt);
  (R 0x1d4c5 0x1d505, tt);
  (R 0x1d507 0x1d50a, tt);
  (R 0x1d50d 0x1d514, tt);
  (R 0x1d516 0x1d51c, tt);
  (R 0x1d51e 0x1d539, tt);
  (R 0x1d53b 0x1d53e, tt);
  (R 0x1d540 0x1d544, tt);
  (R 0x1d546 0x1d546, tt);
  (R 0x1d54a 0x1d550, tt);
  (R 0x1d552 0x1d6a5, tt);
  (R 0x1d6a8 0x1d6c0, tt);
  (R 0x1d6c2 0x1d6da, tt);
  (R 0x1d6dc 0x1d6fa, tt);
  (R 0x1d6fc 0x1d714, tt);
  (R 0x1d716 0x1d734, tt);
  (R 0x1d736 0x1d74e, tt);
  (R 0x1d750 0x1d76e, tt);
  (R 0x1d770 0x1d788, tt);
  (R 0x1d78a 0x1d7a8, tt);
  (R 0x1d7aa 0x1d7c2, tt);
  (R 0x1d7c4 0x1d7cb, tt);
  (R 0x1d7ce 0x1d7ff, tt);
  (R 0x1e000 0x1e006, tt);
  (R 0x1e008 0x1e018, tt);
  (R 0x1e01b 0x1e021, tt);
  (R 0x1e023 0x1e024, tt);
  (R 0x1e026 0x1e02a, tt);
  (R 0x1e800 0x1e8c4, tt);
  (R 0x1e8c7 0x1e8cf, tt);
  (R 0x1e900 0x1e943, tt);
  (R 0x1e947 0x1e947, tt);
  (R 0x1e950 0x1e959, tt);
  (R 0x1ee00 0x1ee03, tt);
  (R 0x1ee05 0x1ee1f, tt);
  (R 0x1ee21 0x1ee22, tt);
  (R 0x1ee24 0x1ee24, tt);
  (R 0x1ee27 0x1ee27, tt);
  (R 0x1ee29 0x1ee32, tt);
  (R 0x1ee34 0x1ee37, tt);
  (R 0x1ee39 0x1ee39, tt);
  (R 0x1ee3b 0x1ee3b, tt);
  (R 0x1ee42 0x1ee42, tt);
  (R 0x1ee47 0x1ee47, tt);
  (R 0x1ee49 0x1ee49, tt);
  (R 0x1ee4b 0x1ee4b, tt);
  (R 0x1ee4d 0x1ee4f, tt);
  (R 0x1ee51 0x1ee52, tt);
  (R 0x1ee54 0x1ee54, tt);
  (R 0x1ee57 0x1ee57, tt);
  (R 0x1ee59 0x1ee59, tt);
  (R 0x1ee5b 0x1ee5b, tt);
  (R 0x1ee5d 0x1ee5d, tt);
  (R 0x1ee5f 0x1ee5f, tt);
  (R 0x1ee61 0x1ee62, tt);
  (R 0x1ee64 0x1ee64, tt);
  (R 0x1ee67 0x1ee6a, tt);
  (R 0x1ee6c 0x1ee72, tt);
  (R 0x1ee74 0x1ee77, tt);
  (R 0x1ee79 0x1ee7c, tt);
  (R 0x1ee7e 0x1ee7e, tt);
  (R 0x1ee80 0x1ee89, tt);
  (R 0x1ee8b 0x1ee9b, tt);
  (R 0x1eea1 0x1eea3, tt);
  (R 0x1eea5 0x1eea9, tt);
  (R 0x1eeab 0x1eebb, tt);
  (R 0x1f100 0x1f10c, tt);
  (R 0x1f130 0x1f149, tt);
  (R 0x1f150 0x1f169, tt);
  (R 0x1f170 0x1f189, tt);
  (R 0x20000 0x2a6d6, tt);
  (R 0x2a700 0x2b734, tt);
  (R 0x2b740 0x2b81d, tt);
  (R 0x2b820 0x2cea1, tt);
  (R 0x2ceb0 0x2ebe0, tt);
  (R 0x2f800 0x2fa1d, tt)].

Definition ALPHANUMERIC : CharDataTable unit :=
  Range (ALPHANUMERIC_0 ++ ALPHANUMERIC_1).

(** unic/ucd/common/tables/control.rsv:1-6 (2 entries) *)
Definition CONTROL : CharDataTable unit := Range [
  (R 0x0 0x1f, tt);
  (R 0x7f 0x9f, tt)].

(** unic/ucd/common/tables/numeric.rsv:1-120 (116 entries) *)
Definition NUMERIC : CharDataTable unit := Range [
  (R 0x30 0x39, tt);
  (R 0xb2 0xb3, tt);
  (R 0xb9 0xb9, tt);
  (R 0xbc 0xbe, tt);
  (R 0x660 0x669, tt);
  (R 0x6f0 0x6f9, tt);
  (R 0x7c0 0x7c9, tt);
  (R 0x966 0x96f, tt);
  (R 0x9e6 0x9ef, tt);
  (R 0x9f4 0x9f9, tt);
  (R 0xa66 0xa6f, tt);
  (R 0xae6 0xaef, tt);
  (R 0xb66 0xb6f, tt);
  (R 0xb72 0xb77, tt);
  (R 0xbe6 0xbf2, tt);
  (R 0xc66 0xc6f, tt);
  (R 0xc78 0xc7e, tt);
  (R 0xce6 0xcef, tt);
  (R 0xd58 0xd5e, tt);
  (R 0xd66 0xd78, tt);
  (R 0xde6 0xdef, tt);
  (R 0xe50 0xe59, tt);
  (R 0xed0 0xed9, tt);
  (R 0xf20 0xf33, tt);
  (R 0x1040 0x1049, tt);
  (R 0x1090 0x1099, tt);
  (R 0x1369 0x137c, tt);
  (R 0x16ee 0x16f0, tt);
  (R 0x17e0 0x17e9, tt);
  (R 0x17f0 0x17f9, tt);
  (R 0x1810 0x1819, tt);
  (R 0x1946 0x194f, tt);
  (R 0x19d0 0x19da, tt);
  (R 0x1a80 0x1a89, tt);
  (R 0x1a90 0x1a99, tt);
  (R 0x1b50 0x1b59, tt);
  (R 0x1bb0 0x1bb9, tt);
  (R 0x1c40 0x1c49, tt);
  (R 0x1c50 0x1c59, tt);
  (R 0x2070 0x2070, tt);
  (R 0x2074 0x2079, tt);
  (R 0x2080 0x2089, tt);
  (R 0x2150 0x2182, tt);
  (R 0x2185 0x2189, tt);
  (R 0x2460 0x249b, tt);
  (R 0x24ea 0x24ff, tt);
  (R 0x2776 0x2793, tt);
  (R 0x2cfd 0x2cfd, tt);
  (R 0x3007 0x3007, tt);
  (R 0x3021 0x3029, tt);
  (R 0x3038 0x303a, tt);
  (R 0x3192 0x3195, tt);
  (R 0x3220 0x3229, tt);
  (R 0x3248 0x324f, tt);
  (R 0x3251 0x325f, tt);
  (R 0x3280 0x3289, tt);
  (R 0x32b1 0x32bf, tt);
  (R 0xa620 0xa629, tt);
  (R 0xa6e6 0xa6ef, tt);
  (R 0xa830 0xa835, tt);
  (R 0xa8d0 0xa8d9, tt);
  (R 0xa900 0xa909, tt);
  (R 0xa9d0 0xa9d9, tt);
  (R 0xa9f0 0xa9f9, tt);
  (R 0xaa50 0xaa59, tt);
  (R 0xabf0 0xabf9, tt);
  (R 0xff10 0xff19, tt);
  (R 0x10107 0x10133, tt);
  (R 0x10140 0x10178, tt);
  (R 0x1018a 0x1018b, tt);
  (R 0x102e1 0x102fb, tt);
  (R 0x10320 0x10323, tt);
  (R 0x10341 0x10341, tt);
  (R 0x1034a 0x1034a, tt);
  (R 0x103d1 0x103d5, tt);
  (R 0x104a0 0x104a9, tt);
  (R 0x10858 0x1085f, tt);
  (R 0x10879 0x1087f, tt);
  (R 0x108a7 0x108af, tt);
  (R 0x108fb 0x108ff, tt);
  (R 0x10916 0x1091b, tt);
  (R 0x109bc 0x109bd, tt);
  (R 0x109c0 0x109cf, tt);
  (R 0x109d2 0x109ff, tt);
  (R 0x10a40 0x10a47, tt);
  (R 0x10a7d 0x10a7e, tt);
  (R 0x10a9d 0x10a9f, tt);
  (R 0x10aeb 0x10aef, tt);
  (R 0x10b58 0x10b5f, tt);
  (R 0x10b78 0x10b7f, tt);
  (R 0x10ba9 0x10baf, tt);
  (R 0x10cfa 0x10cff, tt);
  (R 0x10e60 0x10e7e, tt);
  (R 0x11052 0x1106f, tt);
  (R 0x110f0 0x110f9, tt);
  (R 0x11136 0x1113f, tt);
  (R 0x111d0 0x111d9, tt);
  (R 0x111e1 0x111f4, tt);
  (R 0x112f0 0x112f9, tt);
  (R 0x11450 0x11459, tt);
  (R 0x114d0 0x114d9, tt);
  (R 0x11650 0x11659, tt);
  (R 0x116c0 0x116c9, tt);
  (R 0x11730 0x1173b, tt);
  (R 0x118e0 0x118f2, tt);
  (R 0x11c50 0x11c6c, tt);
  (R 0x11d50 0x11d59, tt);
  (R 0x12400 0x1246e, tt);
  (R 0x16a60 0x16a69, tt);
  (R 0x16b50 0x16b59, tt);
  (R 0x16b5b 0x16b61, tt);
  (R 0x1d360 0x1d371, tt);
  (R 0x1d7ce 0x1d7ff, tt);
  (R 0x1e8c7 0x1e8cf, tt);
  (R 0x1e950 0x1e959, tt);
  (R 0x1f100 0x1f10c, tt)].

(** unic/ucd/common/tables/white_space.rsv:1-14 (10 entries) *)
Definition WHITE_SPACE : CharDataTable unit := Range [
  (R 0x9 0xd, tt);
  (R 0x20 0x20, tt);
  (R 0x85 0x85, tt);
  (R 0xa0 0xa0, tt);
  (R 0x1680 0x1680, tt);
  (R 0x2000 0x200a, tt);
  (R 0x2028 0x2029, tt);
  (R 0x202f 0x202f, tt);
  (R 0x205f 0x205f, tt);
  (R 0x3000 0x3000, tt)].

(** unic/ucd/case/tables/cased.rsv:1-139 (135 entries) *)
Definition CASED : CharDataTable unit := Range [
  (R 0x41 0x5a, tt);
  (R 0x61 0x7a, tt);
  (R 0xaa 0xaa, tt);
  (R 0xb5 0xb5, tt);
  (R 0xba 0xba, tt);
  (R 0xc0 0xd6, tt);
  (R 0xd8 0xf6, tt);
  (R 0xf8 0x1ba, tt);
  (R 0x1bc 0x1bf, tt);
  (R 0x1c4 0x293, tt);
  (R 0x295 0x2b8, tt);
  (R 0x2c0 0x2c1, tt);
  (R 0x2e0 0x2e4, tt);
  (R 0x345 0x345, tt);
  (R 0x370 0x373, tt);
  (R 0x376 0x377, tt);
  (R 0x37a 0x37d, tt);
  (R 0x37f 0x37f, tt);
  (R 0x386 0x386, tt);
  (R 0x388 0x38a, tt);
  (R 0x38c 0x38c, tt);
  (R 0x38e 0x3a1, tt);
  (R 0x3a3 0x3f5, tt);
  (R 0x3f7 0x481, tt);
  (R 0x48a 0x52f, tt);
  (R 0x531 0x556, tt);
  (R 0x561 0x587, tt);
  (R 0x10a0 0x10c5, tt);
  (R 0x10c7 0x10c7, tt);
  (R 0x10cd 0x10cd, tt);
  (R 0x13a0 0x13f5, tt);
  (R 0x13f8 0x13fd, tt);
  (R 0x1c80 0x1c88, tt);
  (R 0x1d00 0x1dbf, tt);
  (R 0x1e00 0x1f15, tt);
  (R 0x1f18 0x1f1d, tt);
  (R 0x1f20 0x1f45, tt);
  (R 0x1f48 0x1f4d, tt);
  (R 0x1f50 0x1f57, tt);
  (R 0x1f59 0x1f59, tt);
  (R 0x1f5b 0x1f5b, tt);
  (R 0x1f5d 0x1f5d, tt);
  (R 0x1f5f 0x1f7d, tt);
  (R 0x1f80 0x1fb4, tt);
  (R 0x1fb6 0x1fbc, tt);
  (R 0x1fbe 0x1fbe, tt);
  (R 0x1fc2 0x1fc4, tt);
  (R 0x1fc6 0x1fcc, tt);
  (R 0x1fd0 0x1fd3, tt);
  (R 0x1fd6 0x1fdb, tt);
  (R 0x1fe0 0x1fec, tt);
  (R 0x1ff2 0x1ff4, tt);
  (R 0x1ff6 0x1ffc, tt);
  (R 0x2071 0x2071, tt);
  (R 0x207f 0x207f, tt);
  (R 0x2090 0x209c, tt);
  (R 0x2102 0x2102, tt);
  (R 0x2107 0x2107, tt);
  (R 0x210a 0x2113, tt);
  (R 0x2115 0x2115, tt);
  (R 0x2119 0x211d, tt);
  (R 0x2124 0x2124, tt);
  (R 0x2126 0x2126, tt);
  (R 0x2128 0x2128, tt);
  (R 0x212a 0x212d, tt);
  (R 0x212f 0x2134, tt);
  (R 0x2139 0x2139, tt);
  (R 0x213c 0x213f, tt);
  (R 0x2145 0x2149, tt);
  (R 0x214e 0x214e, tt);
  (R 0x2160 0x217f, tt);
  (R 0x2183 0x2184, tt);
  (R 0x24b6 0x24e9, tt);
  (R 0x2c00 0x2c2e, tt);
  (R 0x2c30 0x2c5e, tt);
  (R 0x2c60 0x2ce4, tt);
  (R 0x2ceb 0x2cee, tt);
  (R 0x2cf2 0x2cf3, tt);
  (R 0x2d00 0x2d25, tt);
  (R 0x2d27 0x2d27, tt);
  (R 0x2d2d 0x2d2d, tt);
  (R 0xa640 0xa66d, tt);
  (R 0xa680 0xa69d, tt);
  (R 0xa722 0xa787, tt);
  (R 0xa78b 0xa78e, tt);
  (R 0xa790 0xa7ae, tt);
  (R 0xa7b0 0xa7b7, tt);
  (R 0xa7f8 0xa7fa, tt);
  (R 0xab30 0xab5a, tt);
  (R 0xab5c 0xab65, tt);
  (R 0xab70 0xabbf, tt);
  (R 0xfb00 0xfb06, tt);
  (R 0xfb13 0xfb17, tt);
  (R 0xff21 0xff3a, tt);
  (R 0xff41 0xff5a, tt);
  (R 0x10400 0x1044f, tt);
  (R 0x104b0 0x104d3, tt);
  (R 0x104d8 0x104fb, tt);
  (R 0x10c80 0x10cb2, tt);
  (R 0x10cc0 0x10cf2, tt);
  (R 0x118a0 0x118df, tt);
  (R 0x1d400 0x1d454, tt);
  (R 0x1d456 0x1d49c, tt);
  (R 0x1d49e 0x1d49f, tt);
  (R 0x1d4a2 0x1d4a2, tt);
  (R 0x1d4a5 0x1d4a6, tt);
  (R 0x1d4a9 0x1d4ac, tt);
  (R 0x1d4ae 0x1d4b9, tt);
  (R 0x1d4bb 0x1d4bb, tt);
  (R 0x1d4bd 0x1d4c3, tt);
  (R 0x1d4c5 0x1d505, tt);
  (R 0x1d507 0x1d50a, tt);
  (R 0x1d50d 0x1d514, tt);
  (R 0x1d516 0x1d51c, tt);
  (R 0x1d51e 0x1d539, tt);
  (R 0x1d53b 0x1d53e, tt);
  (R 0x1d540 0x1d544, tt);
  (R 0x1d546 0x1d546, tt);
  (R 0x1d54a 0x1d550, tt);
  (R 0x1d552 0x1d6a5, tt);
  (R 0x1d6a8 0x1d6c0, tt);
  (R 0x1d6c2 0x1d6da, tt);
  (R 0x1d6dc 0x1d6fa, tt);
  (R 0x1d6fc 0x1d714, tt);
  (R 0x1d716 0x1d734, tt);
  (R 0x1d736 0x1d74e, tt);
  (R 0x1d750 0x1d76e, tt);
  (R 0x1d770 0x1d788, tt);
  (R 0x1d78a 0x1d7a8, tt);
  (R 0x1d7aa 0x1d7c2, tt);
  (R 0x1d7c4 0x1d7cb, tt);
  (R 0x1e900 0x1e943, tt);
  (R 0x1f130 0x1f149, tt);
  (R 0x1f150 0x1f169, tt);
  (R 0x1f170 0x1f189, tt)].

(** unic/ucd/case/tables/case_ignorable.rsv:1-385 (381 entries) *)
Definition CASE_IGNORABLE : CharDataTable unit := Range [
  (R 0x27 0x27, tt);
  (R 0x2e 0x2e, tt);
  (R 0x3a 0x3a, tt);
  (R 0x5e 0x5e, tt);
  (R 0x60 0x60, tt);
  (R 0xa8 0xa8, tt);
  (R 0xad 0xad, tt);
  (R 0xaf 0xaf, tt);
  (R 0xb4 0xb4, tt);
  (R 0xb7 0xb8, tt);
  (R 0x2b0 0x36f, tt);
  (R 0x374 0x375, tt);
  (R 0x37a 0x37a, tt);
  (R 0x384 0x385, tt);
  (R 0x387 0x387, tt);
  (R 0x483 0x489, tt);
  (R 0x559 0x559, tt);
  (R 0x591 0x5bd, tt);
  (R 0x5bf 0x5bf, tt);
  (R 0x5c1 0x5c2, tt);
  (R 0x5c4 0x5c5, tt);
  (R 0x5c7 0x5c7, tt);
  (R 0x5f4 0x5f4, tt);
  (R 0x600 0x605, tt);
  (R 0x610 0x61a, tt);
  (R 0x61c 0x61c, tt);
  (R 0x640 0x640, tt);
  (R 0x64b 0x65f, tt);
  (R 0x670 0x670, tt);
  (R 0x6d6 0x6dd, tt);
  (R 0x6df 0x6e8, tt);
  (R 0x6ea 0x6ed, tt);
  (R 0x70f 0x70f, tt);
  (R 0x711 0x711, tt);
  (R 0x730 0x74a, tt);
  (R 0x7a6 0x7b0, tt);
  (R 0x7eb 0x7f5, tt);
  (R 0x7fa 0x7fa, tt);
  (R 0x816 0x82d, tt);
  (R 0x859 0x85b, tt);
  (R 0x8d4 0x902, tt);
  (R 0x93a 0x93a, tt);
  (R 0x93c 0x93c, tt);
  (R 0x941 0x948, tt);
  (R 0x94d 0x94d, tt);
  (R 0x951 0x957, tt);
  (R 0x962 0x963, tt);
  (R 0x971 0x971, tt);
  (R 0x981 0x981, tt);
  (R 0x9bc 0x9bc, tt);
  (R 0x9c1 0x9c4, tt);
  (R 0x9cd 0x9cd, tt);
  (R 0x9e2 0x9e3, tt);
  (R 0xa01 0xa02, tt);
  (R 0xa3c 0xa3c, tt);
  (R 0xa41 0xa42, tt);
  (R 0xa47 0xa48, tt);
  (R 0xa4b 0xa4d, tt);
  (R 0xa51 0xa51, tt);
  (R 0xa70 0xa71, tt);
  (R 0xa75 0xa75, tt);
  (R 0xa81 0xa82, tt);
  (R 0xabc 0xabc, tt);
  (R 0xac1 0xac5, tt);
  (R 0xac7 0xac8, tt);
  (R 0xacd 0xacd, tt);
  (R 0xae2 0xae3, tt);
  (R 0xafa 0xaff, tt);
  (R 0xb01 0xb01, tt);
  (R 0xb3c 0xb3c, tt);
  (R 0xb3f 0xb3f, tt);
  (R 0xb41 0xb44, tt);
  (R 0xb4d 0xb4d, tt);
  (R 0xb56 0xb56, tt);
  (R 0xb62 0xb63, tt);
  (R 0xb82 0xb82, tt);
  (R 0xbc0 0xbc0, tt);
  (R 0xbcd 0xbcd, tt);
  (R 0xc00 0xc00, tt);
  (R 0xc3e 0xc40, tt);
  (R 0xc46 0xc48, tt);
  (R 0xc4a 0xc4d, tt);
  (R 0xc55 0xc56, tt);
  (R 0xc62 0xc63, tt);
  (R 0xc81 0xc81, tt);
  (R 0xcbc 0xcbc, tt);
  (R 0xcbf 0xcbf, tt);
  (R 0xcc6 0xcc6, tt);
  (R 0xccc 0xccd, tt);
  (R 0xce2 0xce3, tt);
  (R 0xd00 0xd01, tt);
  (R 0xd3b 0xd3c, tt);
  (R 0xd41 0xd44, tt);
  (R 0xd4d 0xd4d, tt);
  (R 0xd62 0xd63, tt);
  (R 0xdca 0xdca, tt);
  (R 0xdd2 0xdd4, tt);
  (R 0xdd6 0xdd6, tt);
  (R 0xe31 0xe31, tt);
  (R 0xe34 0xe3a, tt);
  (R 0xe46 0xe4e, tt);
  (R 0xeb1 0xeb1, tt);
  (R 0xeb4 0xeb9, tt);
  (R 0xebb 0xebc, tt);
  (R 0xec6 0xec6, tt);
  (R 0xec8 0xecd, tt);
  (R 0xf18 0xf19, tt);
  (R 0xf35 0xf35, tt);
  (R 0xf37 0xf37, tt);
  (R 0xf39 0xf39, tt);
  (R 0xf71 0xf7e, tt);
  (R 0xf80 0xf84, tt);
  (R 0xf86 0xf87, tt);
  (R 0xf8d 0xf97, tt);
  (R 0xf99 0xfbc, tt);
  (R 0xfc6 0xfc6, tt);
  (R 0x102d 0x1030, tt);
  (R 0x1032 0x1037, tt);
  (R 0x1039 0x103a, tt);
  (R 0x103d 0x103e, tt);
  (R 0x1058 0x1059, tt);
  (R 0x105e 0x1060, tt);
  (R 0x1071 0x1074, tt);
  (R 0x1082 0x1082, tt);
  (R 0x1085 0x1086, tt);
  (R 0x108d 0x108d, tt);
  (R 0x109d 0x109d, tt);
  (R 0x10fc 0x10fc, tt);
  (R 0x135d 0x135f, tt);
  (R 0x1712 0x1714, tt);
  (R 0x1732 0x1734, tt);
  (R 0x1752 0x1753, tt);
  (R 0x1772 0x1773, tt);
  (R 0x17b4 0x17b5, tt);
  (R 0x17b7 0x17bd, tt);
  (R 0x17c6 0x17c6, tt);
  (R 0x17c9 0x17d3, tt);
  (R 0x17d7 0x17d7, tt);
  (R 0x17dd 0x17dd, tt);
  (R 0x180b 0x180e, tt);
  (R 0x1843 0x1843, tt);
  (R 0x1885 0x1886, tt);
  (R 0x18a9 0x18a9, tt);
  (R 0x1920 0x1922, tt);
  (R 0x1927 0x1928, tt);
  (R 0x1932 0x1932, tt);
  (R 0x1939 0x193b, tt);
  (R 0x1a17 0x1a18, tt);
  (R 0x1a1b 0x1a1b, tt);
  (R 0x1a56 0x1a56, tt);
  (R 0x1a58 0x1a5e, tt);
  (R 0x1a60 0x1a60, tt);
  (R 0x1a62 0x1a62, tt);
  (R 0x1a65 0x1a6c, tt);
  (R 0x1a73 0x1a7c, tt);
  (R 0x1a7f 0x1a7f, tt);
  (R 0x1aa7 0x1aa7, tt);
  (R 0x1ab0 0x1abe, tt);
  (R 0x1b00 0x1b03, tt);
  (R 0x1b34 0x1b34, tt);
  (R 0x1b36 0x1b3a, tt);
  (R 0x1b3c 0x1b3c, tt);
  (R 0x1b42 0x1b42, tt);
  (R 0x1b6b 0x1b73, tt);
  (R 0x1b80 0x1b81, tt);
  (R 0x1ba2 0x1ba5, tt);
  (R 0x1ba8 0x1ba9, tt);
  (R 0x1bab 0x1bad, tt);
  (R 0x1be6 0x1be6, tt);
  (R 0x1be8 0x1be9, tt);
  (R 0x1bed 0x1bed, tt);
  (R 0x1bef 0x1bf1, tt);
  (R 0x1c2c 0x1c33, tt);
  (R 0x1c36 0x1c37, tt);
  (R 0x1c78 0x1c7d, tt);
  (R 0x1cd0 0x1cd2, tt);
  (R 0x1cd4 0x1ce0, tt);
  (R 0x1ce2 0x1ce8, tt);
  (R 0x1ced 0x1ced, tt);
  (R 0x1cf4 0x1cf4, tt);
  (R 0x1cf8 0x1cf9, tt);
  (R 0x1d2c 0x1d6a, tt);
  (R 0x1d78 0x1d78, tt);
  (R 0x1d9b 0x1df9, tt);
  (R 0x1dfb 0x1dff, tt);
  (R 0x1fbd 0x1fbd, tt);
  (R 0x1fbf 0x1fc1, tt);
  (R 0x1fcd 0x1fcf, tt);
  (R 0x1fdd 0x1fdf, tt);
  (R 0x1fed 0x1fef, tt);
  (R 0x1ffd 0x1ffe, tt);
  (R 0x200b 0x200f, tt);
  (R 0x2018 0x2019, tt);
  (R 0x2024 0x2024, tt);
  (R 0x2027 0x2027, tt);
  (R 0x202a 0x202e, tt);
  (R 0x2060 0x2064, tt);
  (R 0x2066 0x206f, tt);
  (R 0x2071 0x2071, tt);
  (R 0x207f 0x207f, tt);
  (R 0x2090 0x209c, tt);
  (R 0x20d0 0x20f0, tt);
  (R 0x2c7c 0x2c7d, tt);
  (R 0x2cef 0x2cf1, tt);
  (R 0x2d6f 0x2d6f, tt);
  (R 0x2d7f 0x2d7f, tt);
  (R 0x2de0 0x2dff, tt);
  (R 0x2e2f 0x2e2f, tt);
  (R 0x3005 0x3005, tt);
  (R 0x302a 0x302d, tt);
  (R 0x3031 0x3035, tt);
  (R 0x303b 0x303b, tt);
  (R 0x3099 0x309e, tt);
  (R 0x30fc 0x30fe, tt);
  (R 0xa015 0xa015, tt);
  (R 0xa4f8 0xa4fd, tt);
  (R 0xa60c 0xa60c, tt);
  (R 0xa66f 0xa672, tt);
  (R 0xa674 0xa67d, tt);
  (R 0xa67f 0xa67f, tt);
  (R 0xa69c 0xa69f, tt);
  (R 0xa6f0 0xa6f1, tt);
  (R 0xa700 0xa721, tt);
  (R 0xa770 0xa770, tt);
  (R 0xa788 0xa78a, tt);
  (R 0xa7f8 0xa7f9, tt);
  (R 0xa802 0xa802, tt);
  (R 0xa806 0xa806, tt);
  (R 0xa80b 0xa80b, tt);
  (R 0xa825 0xa826, tt);
  (R 0xa8c4 0xa8c5, tt);
  (R 0xa8e0 0xa8f1, tt);
  (R 0xa926 0xa92d, tt);
  (R 0xa947 0xa951, tt);
  (R 0xa980 0xa982, tt);
  (R 0xa9b3 0xa9b3, tt);
  (R 0xa9b6 0xa9b9, tt);
  (R 0xa9bc 0xa9bc, tt);
  (R 0xa9cf 0xa9cf, tt);
  (R 0xa9e5 0xa9e6, tt);
  (R 0xaa29 0xaa2e, tt);
  (R 0xaa31 0xaa32, tt);
  (R 0xaa35 0xaa36, tt);
  (R 0xaa43 0xaa43, tt);
  (R 0xaa4c 0xaa4c, tt);
  (R 0xaa70 0xaa70, tt);
  (R 0xaa7c 0xaa7c, tt);
  (R 0xaab0 0xaab0, tt);
  (R 0xaab2 0xaab4, tt);
  (R 0xaab7 0xaab8, tt);
  (R 0xaabe 0xaabf, tt);
  (R 0xaac1 0xaac1, tt);
  (R 0xaadd 0xaadd, tt);
  (R 0xaaec 0xaaed, tt);
  (R 0xaaf3 0xaaf4, tt);
  (R 0xaaf6 0xaaf6, tt);
  (R 0xab5b 0xab5f, tt);
  (R 0xabe5 0xabe5, tt);
  (R 0xabe8 0xabe8, tt);
  (R 0xabed 0xabed, tt);
  (R 0xfb1e 0xfb1e, tt);
  (R 0xfbb2 0xfbc1, tt);
  (R 0xfe00 0xfe0f, tt);
  (R 0xfe13 0xfe13, tt);
  (R 0xfe20 0xfe2f, tt);
  (R 0xfe52 0xfe52, tt);
  (R 0xfe55 0xfe55, tt);
  (R 0xfeff 0xfeff, tt);
  (R 0xff07 0xff07, tt);
  (R 0xff0e 0xff0e, tt);
  (R 0xff1a 0xff1a, tt);
  (R 0xff3e 0xff3e, tt);
  (R 0xff40 0xff40, tt);
  (R 0xff70 0xff70, tt);
  (R 0xff9e 0xff9f, tt);
  (R 0xffe3 0xffe3, tt);
  (R 0xfff9 0xfffb, tt);
  (R 0x101fd 0x101fd, tt);
  (R 0x102e0 0x102e0, tt);
  (R 0x10376 0x1037a, tt);
  (R 0x10a01 0x10a03, tt);
  (R 0x10a05 0x10a06, tt);
  (R 0x10a0c 0x10a0f, tt);
  (R 0x10a38 0x10a3a, tt);
  (R 0x10a3f 0x10a3f, tt);
  (R 0x10ae5 0x10ae6, tt);
  (R 0x11001 0x11001, tt);
  (R 0x11038 0x11046, tt);
  (R 0x1107f 0x11081, tt);
  (R 0x110b3 0x110b6, tt);
  (R 0x110b9 0x110ba, tt);
  (R 0x110bd 0x110bd, tt);
  (R 0x11100 0x11102, tt);
  (R 0x11127 0x1112b, tt);
  (R 0x1112d 0x11134, tt);
  (R 0x11173 0x11173, tt);
  (R 0x11180 0x11181, tt);
  (R 0x111b6 0x111be, tt);
  (R 0x111ca 0x111cc, tt);
  (R 0x1122f 0x11231, tt);
  (R 0x11234 0x11234, tt);
  (R 0x11236 0x11237, tt);
  (R 0x1123e 0x1123e, tt);
  (R 0x112df 0x112df, tt);
  (R 0x112e3 0x112ea, tt);
  (R 0x11300 0x11301, tt);
  (R 0x1133c 0x1133c, tt);
  (R 0x11340 0x11340, tt);
  (R 0x11366 0x1136c, tt);
  (R 0x11370 0x11374, tt);
  (R 0x11438 0x1143f, tt);
  (R 0x11442 0x11444, tt);
  (R 0x11446 0x11446, tt);
  (R 0x114b3 0x114b8, tt);
  (R 0x114ba 0x114ba, tt);
  (R 0x114bf 0x114c0, tt);
  (R 0x114c2 0x114c3, tt);
  (R 0x115b2 0x115b5, tt);
  (R 0x115bc 0x115bd, tt);
  (R 0x115bf 0x115c0, tt);
  (R 0x115dc 0x115dd, tt);
  (R 0x11633 0x1163a, tt);
  (R 0x1163d 0x1163d, tt);
  (R 0x1163f 0x11640, tt);
  (R 0x116ab 0x116ab, tt);
  (R 0x116ad 0x116ad, tt);
  (R 0x116b0 0x116b5, tt);
  (R 0x116b7 0x116b7, tt);
  (R 0x1171d 0x1171f, tt);
  (R 0x11722 0x11725, tt);
  (R 0x11727 0x1172b, tt);
  (R 0x11a01 0x11a06, tt);
  (R 0x11a09 0x11a0a, tt);
  (R 0x11a33 0x11a38, tt);
  (R 0x11a3b 0x11a3e, tt);
  (R 0x11a47 0x11a47, tt);
  (R 0x11a51 0x11a56, tt);
  (R 0x11a59 0x11a5b, tt);
  (R 0x11a8a 0x11a96, tt);
  (R 0x11a98 0x11a99, tt);
  (R 0x11c30 0x11c36, tt);
  (R 0x11c38 0x11c3d, tt);
  (R 0x11c3f 0x11c3f, tt);
  (R 0x11c92 0x11ca7, tt);
  (R 0x11caa 0x11cb0, tt);
  (R 0x11cb2 0x11cb3, tt);
  (R 0x11cb5 0x11cb6, tt);
  (R 0x11d31 0x11d36, tt);
  (R 0x11d3a 0x11d3a, tt);
  (R 0x11d3c 0x11d3d, tt);
  (R 0x11d3f 0x11d45, tt);
  (R 0x11d47 0x11d47, tt);
  (R 0x16af0 0x16af4, tt);
  (R 0x16b30 0x16b36, tt);
  (R 0x16b40 0x16b43, tt);
  (R 0x16f8f 0x16f9f, tt);
  (R 0x16fe0 0x16fe1, tt);
  (R 0x1bc9d 0x1bc9e, tt);
  (R 0x1bca0 0x1bca3, tt);
  (R 0x1d167 0x1d169, tt);
  (R 0x1d173 0x1d182, tt);
  (R 0x1d185 0x1d18b, tt);
  (R 0x1d1aa 0x1d1ad, tt);
  (R 0x1d242 0x1d244, tt);
  (R 0x1da00 0x1da36, tt);
  (R 0x1da3b 0x1da6c, tt);
  (R 0x1da75 0x1da75, tt);
  (R 0x1da84 0x1da84, tt);
  (R 0x1da9b 0x1da9f, tt);
  (R 0x1daa1 0x1daaf, tt);
  (R 0x1e000 0x1e006, tt);
  (R 0x1e008 0x1e018, tt);
  (R 0x1e01b 0x1e021, tt);
  (R 0x1e023 0x1e024, tt);
  (R 0x1e026 0x1e02a, tt);
  (R 0x1e8d0 0x1e8d6, tt);
  (R 0x1e944 0x1e94a, tt);
  (R 0x1f3fb 0x1f3ff, tt);
  (R 0xe0001 0xe0001, tt);
  (R 0xe0020 0xe007f, tt);
  (R 0xe0100 0xe01ef, tt)].

(** unic/ucd/case/tables/changes_when_casefolded.rsv:1-607 (603 entries) *)
Definition CHANGES_WHEN_CASEFOLDED_0 : list (CharRange * unit) := [
  (R 0x41 0x5a, tt);
  (R 0xb5 0xb5, tt);
  (R 0xc0 0xd6, tt);
  (R 0xd8 0xdf, tt);
  (R 0x100 0x100, tt);
  (R 0x102 0x102, tt);
  (R 0x104 0x104, tt);
  (R 0x106 0x106, tt);
  (R 0x108 0x108, tt);
  (R 0x10a 0x10a, tt);
  (R 0x10c 0x10c, tt);
  (R 0x10e 0x10e, tt);
  (R 0x110 0x110, tt);
  (R 0x112 0x112, tt);
  (R 0x114 0x114, tt);
  (R 0x116 0x116, tt);
  (R 0x118 0x118, tt);
  (R 0x11a 0x11a, tt);
  (R 0x11c 0x11c, tt);
  (R 0x11e 0x11e, tt);
  (R 0x120 0x120, tt);
  (R 0x122 0x122, tt);
  (R 0x124 0x124, tt);
  (R 0x126 0x126, tt);
  (R 0x128 0x128, tt);
  (R 0x12a 0x12a, tt);
  (R 0x12c 0x12c, tt);
  (R 0x12e 0x12e, tt);
  (R 0x130 0x130, tt);
  (R 0x132 0x132, tt);
  (R 0x134 0x134, tt);
  (R 0x136 0x136, tt);
  (R 0x139 0x139, tt);
  (R 0x13b 0x13b, tt);
  (R 0x13d 0x13d, tt);
  (R 0x13f 0x13f, tt);
  (R 0x141 0x141, tt);
  (R 0x143 0x143, tt);
  (R 0x145 0x145, tt);
  (R 0x147 0x147, tt);
  (R 0x149 0x14a, tt);
  (R 0x14c 0x14c, tt);
  (R 0x14e 0x14e, tt);
  (R 0x150 0x150, tt);
  (R 0x152 0x152, tt);
  (R 0x154 0x154, tt);
  (R 0x156 0x156, tt);
  (R 0x158 0x158, tt);
  (R 0x15a 0x15a, tt);
  (R 0x15c 0x15c, tt);
  (R 0x15e 0x15e, tt);
  (R 0x160 0x160, tt);
  (R 0x162 0x162, tt);
  (R 0x164 0x164, tt);
  (R 0x166 0x166, tt);
  (R 0x168 0x168, tt);
  (R 0x16a 0x16a, tt);
  (R 0x16c 0x16c, tt);
  (R 0x16e 0x16e, tt);
  (R 0x170 0x170, tt);
  (R 0x172 0x172, tt);
  (R 0x174 0x174, tt);
  (R 0x176 0x176, tt);
  (R 0x178 0x179, tt);
  (R 0x17b 0x17b, tt);
  (R 0x17d 0x17d, tt);
  (R 0x17f 0x17f, tt);
  (R 0x181 0x182, tt);
  (R 0x184 0x184, tt);
  (R 0x186 0x187, tt);
  (R 0x189 0x18b, tt);
  (R 0x18e 0x191, tt);
  (R 0x193 0x194, tt);
  (R 0x196 0x198, tt);
  (R 0x19c 0x19d, tt);
  (R 0x19f 0x1a0, tt);
  (R 0x1a2 0x1a2, tt);
  (R 0x1a4 0x1a4, tt);
  (R 0x1a6 0x1a7, tt);
  (R 0x1a9 0x1a9, tt);
  (R 0x1ac 0x1ac, tt);
  (R 0x1ae 0x1af, tt);
  (R 0x1b1 0x1b3, tt);
  (R 0x1b5 0x1b5, tt);
  (R 0x1b7 0x1b8, tt);
  (R 0x1bc 0x1bc, tt);
  (R 0x1c4 0x1c5, tt);
  (R 0x1c7 0x1c8, tt);
  (R 0x1ca 0x1cb, tt);
  (R 0x1cd 0x1cd, tt);
  (R 0x1cf 0x1cf, tt);
  (R 0x1d1 0x1d1, tt);
  (R 0x1d3 0x1d3, tt);
  (R 0x1d5 0x1d5, tt);
  (R 0x1d7 0x1d7, tt);
  (R 0x1d9 0x1d9, tt);
  (R 0x1db 0x1db, tt);
  (R 0x1de 0x1de, tt);
  (R 0x1e0 0x1e0, tt);
  (R 0x1e2 0x1e2, tt);
  (R 0x1e4 0x1e4, tt);
  (R 0x1e6 0x1e6, tt);
  (R 0x1e8 0x1e8, tt);
  (R 0x1ea 0x1ea, tt);
  (R 0x1ec 0x1ec, tt);
  (R 0x1ee 0x1ee, tt);
  (R 0x1f1 0x1f2, tt);
  (R 0x1f4 0x1f4, tt);
  (R 0x1f6 0x1f8, tt);
  (R 0x1fa 0x1fa, tt);
  (R 0x1fc 0x1fc, tt);
  (R 0x1fe 0x1fe, tt);
  (R 0x200 0x200, tt);
  (R 0x202 0x202, tt);
  (R 0x204 0x204, tt);
  (R 0x206 0x206, tt);
  (R 0x208 0x208, tt);
  (R 0x20a 0x20a, tt);
  (R 0x20c 0x20c, tt);
  (R 0x20e 0x20e, tt);
  (R 0x210 0x210, tt);
  (R 0x212 0x212, tt);
  (R 0x214 0x214, tt);
  (R 0x216 0x216, tt);
  (R 0x218 0x218, tt);
  (R 0x21a 0x21a, tt);
  (R 0x21c 0x21c, tt);
  (R 0x21e 0x21e, tt);
  (R 0x220 0x220, tt);
  (R 0x222 0x222, tt);
  (R 0x224 0x224, tt);
  (R 0x226 0x226, tt);
  (R 0x228 0x228, tt);
  (R 0x22a 0x22a, tt);
  (R 0x22c 0x22c, tt);
  (R 0x22e 0x22e, tt);
  (R 0x230 0x230, tt);
  (R 0x232 0x232, tt);
  (R 0x23a 0x23b, tt);
  (R 0x23d 0x23e, tt);
  (R 0x241 0x241, tt);
  (R 0x243 0x246, tt);
  (R 0x248 0x248, tt);
  (R 0x24a 0x24a, tt);
  (R 0x24c 0x24c, tt);
  (R 0x24e 0x24e, tt);
  (R 0x345 0x345, tt);
  (R 0x370 0x370, tt);
  (R 0x372 0x372, tt);
  (R 0x376 0x376, tt);
  (R 0x37f 0x37f, tt);
  (R 0x386 0x386, tt);
  (R 0x388 0x38a, tt);
  (R 0x38c 0x38c, tt);
  (R 0x38e 0x38f, tt);
  (R 0x391 0x3a1, tt);
  (R 0x3a3 0x3ab, tt);
  (R 0x3c2 0x3c2, tt);
  (R 0x3cf 0x3d1, tt);
  (R 0x3d5 0x3d6, tt);
  (R 0x3d8 0x3d8, tt);
  (R 0x3da 0x3da, tt);
  (R 0x3dc 0x3dc, tt);
  (R 0x3de 0x3de, tt);
  (R 0x3e0 0x3e0, tt);
  (R 0x3e2 0x3e2, tt);
  (R 0x3e4 0x3e4, tt);
  (R 0x3e6 0x3e6, tt);
  (R 0x3e8 0x3e8, tt);
  (R 0x3ea 0x3ea, tt);
  (R 0x3ec 0x3ec, tt);
  (R 0x3ee 0x3ee, tt);
  (R 0x3f0 0x3f1, tt);
  (R 0x3f4 0x3f5, tt);
  (R 0x3f7 0x3f7, tt);
  (R 0x3f9 0x3fa, tt);
  (R 0x3fd 0x42f, tt);
  (R 0x460 0x460, tt);
  (R 0x462 0x462, tt);
  (R 0x464 0x464, tt);
  (R 0x466 0x466, tt);
  (R 0x468 0x468, tt);
  (R 0x46a 0x46a, tt);
  (R 0x46c 0x46c, tt);
  (R 0x46e 0x46e, tt);
  (R 0x470 0x470, tt);
  (R 0x472 0x472, tt);
  (R 0x474 0x474, tt);
  (R 0x476 0x476, tt);
  (R 0x478 0x478, tt);
  (R 0x47a 0x47a, tt);
  (R 0x47c 0x47c, tt);
  (R 0x47e 0x47e, tt);
  (R 0x480 0x480, tt);
  (R 0x48a 0x48a, tt);
  (R 0x48c 0x48c, tt);
  (R 0x48e 0x48e, tt);
  (R 0x490 0x490, tt);
  (R 0x492 0x492, tt);
  (R 0x494 0x494, tt);
  (R 0x496 0x496, tt);
  (R 0x498 0x498, tt);
  (R 0x49a 0x49a, tt);
  (R 0x49c 0x49c, tt);
  (R 0x49e 0x49e, tt);
  (R 0x4a0 0x4a0, tt);
  (R 0x4a2 0x4a2, tt);
  (R 0x4a4 0x4a4, tt);
  (R 0x4a6 0x4a6, tt);
  (R 0x4a8 0x4a8, tt);
  (R 0x4aa 0x4aa, tt);
  (R 0x4ac 0x4ac, tt);
  (R 0x4ae 0x4ae, tt);
  (R 0x4b0 0x4b0, tt);
  (R 0x4b2 0x4b2, tt);
  (R 0x4b4 0x4b4, tt);
  (R 0x4b6 0x4b6, tt);
  (R 0x4b8 0x4b8, tt);
  (R 0x4ba 0x4ba, tt);
  (R 0x4bc 0x4bc, tt);
  (R 0x4be 0x4be, tt);
  (R 0x4c0 0x4c1, tt);
  (R 0x4c3 0x4c3, tt);
  (R 0x4c5 0x4c5, tt);
  (R 0x4c7 0x4c7, tt);
  (R 0x4c9 0x4c9, tt);
  (R 0x4cb 0x4cb, tt);
  (R 0x4cd 0x4cd, tt);
  (R 0x4d0 0x4d0, tt);
  (R 0x4d2 0x4d2, tt);
  (R 0x4d4 0x4d4, tt);
  (R 0x4d6 0x4d6, tt);
  (R 0x4d8 0x4d8, tt);
  (R 0x4da 0x4da, tt);
  (R 0x4dc 0x4dc, tt);
  (R 0x4de 0x4de, tt);
  (R 0x4e0 0x4e0, tt);
  (R 0x4e2 0x4e2, tt);
  (R 0x4e4 0x4e4, tt);
  (R 0x4e6 0x4e6, tt);
  (R 0x4e8 0x4e8, tt);
  (R 0x4ea 0x4ea, tt);
  (R 0x4ec 0x4ec, tt);
  (R 0x4ee 0x4ee, tt);
  (R 0x4f0 0x4f0, tt);
  (R 0x4f2 0x4f2, tt);
  (R 0x4f4 0x4f4, tt);
  (R 0x4f6 0x4f6, tt);
  (R 0x4f8 0x4f8, tt);
  (R 0x4fa 0x4fa, tt);
  (R 0x4fc 0x4fc, tt);
  (R 0x4fe 0x4fe, tt);
  (R 0x500 0x500, tt);
  (R 0x502 0x502, tt);
  (R 0x504 0x504, tt);
  (R 0x506 0x506, tt);
  (R 0x508 0x508, tt);
  (R 0x50a 0x50a, tt);
  (R 0x50c 0x50c, tt);
  (R 0x50e 0x50e, tt);
  (R 0x510 0x510, tt);
  (R 0x512 0x512, tt);
  (R 0x514 0x514, tt);
  (R 0x516 0x516, tt);
  (R 0x518 0x518, tt);
  (R 0x51a 0x51a, tt);
  (R 0x51c 0x51c, tt);
  (R 0x51e 0x51e, tt);
  (R 0x520 0x520, tt);
  (R 0x522 0x522, tt);
  (R 0x524 0x524, tt);
  (R 0x526 0x526, tt);
  (R 0x528 0x528, tt);
  (R 0x52a 0x52a, tt);
  (R 0x52c 0x52c, tt);
  (R 0x52e 0x52e, tt);
  (R 0x531 0x556, tt);
  (R 0x587 0x587, tt);
  (R 0x10a0 0x10c5, tt);
  (R 0x10c7 0x10c7, tt);
  (R 0x10cd 0x10cd, tt);
  (R 0x13f8 0x13fd, tt);
  (R 0x1c80 0x1c88, tt);
  (R 0x1e00 0x1e00, tt);
  (R 0x1e02 0x1e02, tt);
  (R 0x1e04 0x1e04, tt);
  (R 0x1e06 0x1e06, tt);
  (R 0x1e08 0x1e08, tt);
  (R 0x1e0a 0x1e0a, tt);
  (R 0x1e0c 0x1e0c, tt);
  (R 0x1e0e 0x1e0e, tt);
  (R 0x1e10 0x1e10, tt);
  (R 0x1e12 0x1e12, tt);
  (R 0x1e14 0x1e14, tt);
  (R 0x1e16 0x1e16, tt);
  (R 0x1e18 0x1e18, tt);
  (R 0x1e1a 0x1e1a, tt);
  (R 0x1e1c 0x1e1c, tt);
  (R 0x1e1e 0x1e1e, tt);
  (R 0x1e20 0x1e20, tt);
  (R 0x1e22 0x1e22, tt);
  (R 0x1e24 0x1e24, tt);
  (R 0x1e26 0x1e26, tt);
  (R 0x1e28 0x1e28, tt);
  (R 0x1e2a 0x1e2a, tt);
  (R 0x1e2c 0x1e2c, tt);
  (R 0x1e2e 0x1e2e, tt);
  (R 0x1e30 0x1e30, tt);
  (R 0x1e32 0x1e32, tt);
  (R 0x1e34 0x1e34, tt);
  (R 0x1e36 0x1e36, tt);
  (R 0x1e38 0x1e38, tt);
  (R 0x1e3a 0x1e3a, tt);
  (R 0x1e3c 0x1e3c, tt);
  (R 0x1e3e 0x1e3e, tt);
  (R 0x1e40 0x1e40, tt);
  (R 0x1e42 0x1e42, tt);
  (R 0x1e44 0x1e44, tt);
  (R 0x1e46 0x1e46, tt);
  (R 0x1e48 0x1e48, tt);
  (R 0x1e4a 0x1e4a, tt);
  (R 0x1e4c 0x1e4c, tt);
  (R 0x1e4e 0x1e4e, tt);
  (R 0x1e50 0x1e50, tt);
  (R 0x1e52 0x1e52, tt);
  (R 0x1e54 0x1e54, tt);
  (R 0x1e56 0x1e56, tt);
  (R 0x1e58 0x1e58, tt);
  (R 0x1e5a 0x1e5a, tt);
  (R 0x1e5c 0x1e5c, tt);
  (R 0x1e5e 0x1e5e, tt);
  (R 0x1e60 0x1e60, tt);
  (R 0x1e62 0x1e62, tt);
  (R 0x1e64 0x1e64, tt);
  (R 0x1e66 0x1e66, tt);
  (R 0x1e68 0x1e68, tt);
  (R 0x1e6a 0x1e6a, tt);
  (R 0x1e6c 0x1e6c, tt);
  (R 0x1e6e 0x1e6e, tt);
  (R 0x1e70 0x1e70, tt);
  (R 0x1e72 0x1e72, tt);
  (R 0x1e74 0x1e74, tt);
  (R 0x1e76 0x1e76, tt);
  (R 0x1e78 0x1e78, tt);
  (R 0x1e7a 0x1e7a, tt);
  (R 0x1e7c 0x1e7c, tt);
  (R 0x1e7e 0x1e7e, tt);
  (R 0x1e80 0x1e80, tt);
  (R 0x1e82 0x1e82, tt);
  (R 0x1e84 0x1e84, tt);
  (R 0x1e86 0x1e86, tt);
  (R 0x1e88 0x1e88, tt);
  (R 0x1e8a 0x1e8a, tt);
  (R 0x1e8c 0x1e8c, tt);
  (R 0x1e8e 0x1e8e, tt);
  (R 0x1e90 0x1e90, tt);
  (R 0x1e92 0x1e92, tt);
  (R 0x1e94 0x1e94, tt);
  (R 0x1e9a 0x1e9b, tt);
  (R 0x1e9e 0x1e9e, tt);
  (R 0x1ea0 0x1ea0, tt);
  (R 0x1ea2 0x1ea2, tt);
  (R 0x1ea4 0x1ea4, tt);
  (R 0x1ea6 0x1ea6, tt);
  (R 0x1ea8 0x1ea8, tt);
  (R 0x1eaa 0x1eaa, tt);
  (R 0x1eac 0x1eac, tt);
  (R 0x1eae 0x1eae, tt);
  (R 0x1eb0 0x1eb0, tt);
  (R 0x1eb2 0x1eb2, tt);
  (R 0x1eb4 0x1eb4, tt);
  (R 0x1eb6 0x1eb6, tt);
  (R 0x1eb8 0x1eb8, tt);
  (R 0x1eba 0x1eba, tt);
  (R 0x1ebc 0x1ebc, tt);
  (R 0x1ebe 0x1ebe, tt);
  (R 0x1ec0 0x1ec0, tt);
  (R 0x1ec2 0x1ec2, tt);
  (R 0x1ec4 0x1ec4, tt);
  (R 0x1ec6 0x1ec6, tt);
  (R 0x1ec8 0x1ec8, tt);
  (R 0x1eca 0x1eca, tt);
  (R 0x1ecc 0x1ecc, tt);
  (R 0x1ece 0x1ece, tt);
  (R 0x1ed0 0x1ed0, tt);
  (R 0x1ed2 0x1ed2, tt);
  (R 0x1ed4 0x1ed4, tt);
  (R 0x1ed6 0x1ed6, tt);
  (R 0x1ed8 0x1ed8, tt);
  (R 0x1eda 0x1eda, tt);
  (R 0x1edc 0x1edc, tt);
  (R 0x1ede 0x1ede, tt);
  (R 0x1ee0 0x1ee0, tt);
  (R 0x1ee2 0x1ee2, tt);
  (R 0x1ee4 0x1ee4, tt);
  (R 0x1ee6 0x1ee6, tt);
  (R 0x1ee8 0x1ee8, tt);
  (R 0x1eea 0x1eea, tt);
  (R 0x1eec 0x1eec, tt);
  (R 0x1eee 0x1eee, tt)].

Definition CHANGES_WHEN_CASEFOLDED_1 : list (CharRange * unit) := [
  (R 0x1ef0 0x1ef0, tt);
  (R 0x1ef2 0x1ef2, tt);
  (R 0x1ef4 0x1ef4, tt);
  (R 0x1ef6 0x1ef6, tt);
  (R 0x1ef8 0x1ef8, tt);
  (R 0x1efa 0x1efa, tt);
  (R 0x1efc 0x1efc, tt);
  (R 0x1efe 0x1efe, tt);
  (R 0x1f08 0x1f0f, tt);
  (R 0x1f18 0x1f1d, tt);
  (R 0x1f28 0x1f2f, tt);
  (R 0x1f38 0x1f3f, tt);
  (R 0x1f48 0x1f4d, tt);
  (R 0x1f59 0x1f59, tt);
  (R 0x1f5b 0x1f5b, tt);
  (R 0x1f5d 0x1f5d, tt);
  (R 0x1f5f 0x1f5f, tt);
  (R 0x1f68 0x1f6f, tt);
  (R 0x1f80 0x1faf, tt);
  (R 0x1fb2 0x1fb4, tt);
  (R 0x1fb7 0x1fbc, tt);
  (R 0x1fc2 0x1fc4, tt);
  (R 0x1fc7 0x1fcc, tt);
  (R 0x1fd8 0x1fdb, tt);
  (R 0x1fe8 0x1fec, tt);
  (R 0x1ff2 0x1ff4, tt);
  (R 0x1ff7 0x1ffc, tt);
  (R 0x2126 0x2126, tt);
  (R 0x212a 0x212b, tt);
  (R 0x2132 0x2132, tt);
  (R 0x2160 0x216f, tt);
  (R 0x2183 0x2183, tt);
  (R 0x24b6 0x24cf, tt);
  (R 0x2c00 0x2c2e, tt);
  (R 0x2c60 0x2c60, tt);
  (R 0x2c62 0x2c64, tt);
  (R 0x2c67 0x2c67, tt);
  (R 0x2c69 0x2c69, tt);
  (R 0x2c6b 0x2c6b, tt);
  (R 0x2c6d 0x2c70, tt);
  (R 0x2c72 0x2c72, tt);
  (R 0x2c75 0x2c75, tt);
  (R 0x2c7e 0x2c80, tt);
  (R 0x2c82 0x2c82, tt);
  (R 0x2c84 0x2c84, tt);
  (R 0x2c86 0x2c86, tt);
  (R 0x2c88 0x2c88, tt);
  (R 0x2c8a 0x2c8a, tt);
  (R 0x2c8c 0x2c8c, tt);
  (R 0x2c8e 0x2c8e, tt);
  (R 0x2c90 0x2c90, tt);
  (R 0x2c92 0x2c92, tt);
  (R 0x2c94 0x2c94, tt);
  (R 0x2c96 0x2c96, tt);
  (R 0x2c98 0x2c98, tt);
  (R 0x2c9a 0x2c9a, tt);
  (R 0x2c9c 0x2c9c, tt);
  (R 0x2c9e 0x2c9e, tt);
  (R 0x2ca0 0x2ca0, tt);
  (R 0x2ca2 0x2ca2, tt);
  (R 0x2ca4 0x2ca4, tt);
  (R 0x2ca6 0x2ca6, tt);
  (R 0x2ca8 0x2ca8, tt);
  (R 0x2caa 0x2caa, tt);
  (R 0x2cac 0x2cac, tt);
  (R 0x2cae 0x2cae, tt);
  (R 0x2cb0 0x2cb0, tt);
  (R 0x2cb2 0x2cb2, tt);
  (R 0x2cb4 0x2cb4, tt);
  (R 0x2cb6 0x2cb6, tt);
  (R 0x2cb8 0x2cb8, tt);
  (R 0x2cba 0x2cba, tt);
  (R 0x2cbc 0x2cbc, tt);
  (R 0x2cbe 0x2cbe, tt);
  (R 0x2cc0 0x2cc0, tt);
  (R 0x2cc2 0x2cc2, tt);
  (R 0x2cc4 0x2cc4, tt);
  (R 0x2cc6 0x2cc6, tt);
  (R 0x2cc8 0x2cc8, tt);
  (R 0x2cca 0x2cca, tt);
  (R 0x2ccc 0x2ccc, tt);
  (R 0x2cce 0x2cce, tt);
  (R 0x2cd0 0x2cd0, tt);
  (R 0x2cd2 0x2cd2, tt);
  (R 0x2cd4 0x2cd4, tt);
  (R 0x2cd6 0x2cd6, tt);
  (R 0x2cd8 0x2cd8, tt);
  (R 0x2cda 0x2cda, tt);
  (R 0x2cdc 0x2cdc, tt);
  (R 0x2cde 0x2cde, tt);
  (R 0x2ce0 0x2ce0, tt);
  (R 0x2ce2 0x2ce2, tt);
  (R 0x2ceb 0x2ceb, tt);
  (R 0x2ced 0x2ced, tt);
  (R 0x2cf2 0x2cf2, tt);
  (R 0xa640 0xa640, tt);
  (R 0xa642 0xa642, tt);
  (R 0xa644 0xa644, tt);
  (R 0xa646 0xa646, tt);
  (R 0xa648 0xa648, tt);
  (R 0xa64a 0xa64a, tt);
  (R 0xa64c 0xa64c, tt);
  (R 0xa64e 0xa64e, tt);
  (R 0xa650 0xa650, tt);
  (R 0xa652 0xa652, tt);
  (R 0xa654 0xa654, tt);
  (R 0xa656 0xa656, tt);
  (R 0xa658 0xa658, tt);
  (R 0xa65a 0xa65a, tt);
  (R 0xa65c 0xa65c, tt);
  (R 0xa65e 0xa65e, tt);
  (R 0xa660 0xa660, tt);
  (R 0xa662 0xa662, tt);
  (R 0xa664 0xa664, tt);
  (R 0xa666 0xa666, tt);
  (R 0xa668 0xa668, tt);
  (R 0xa66a 0xa66a, tt);
  (R 0xa66c 0xa66c, tt);
  (R 0xa680 0xa680, tt);
  (R 0xa682 0xa682, tt);
  (R 0xa684 0xa684, tt);
  (R 0xa686 0xa686, tt);
  (R 0xa688 0xa688, tt);
  (R 0xa68a 0xa68a, tt);
  (R 0xa68c 0xa68c, tt);
  (R 0xa68e 0xa68e, tt);
  (R 0xa690 0xa690, tt);
  (R 0xa692 0xa692, tt);
  (R 0xa694 0xa694, tt);
  (R 0xa696 0xa696, tt);
  (R 0xa698 0xa698, tt);
  (R 0xa69a 0xa69a, tt);
  (R 0xa722 0xa722, tt);
  (R 0xa724 0xa724, tt);
  (R 0xa726 0xa726, tt);
  (R 0xa728 0xa728, tt);
  (R 0xa72a 0xa72a, tt);
  (R 0xa72c 0xa72c, tt);
  (R 0xa72e 0xa72e, tt);
  (R 0xa732 0xa732, tt);
  (R 0xa734 0xa734, tt);
  (R 0xa736 0xa736, tt);
  (R 0xa738 0xa738, tt);
  (R 0xa73a 0xa73a, tt);
  (R 0xa73c 0xa73c, tt);
  (R 0xa73e 0xa73e, tt);
  (R 0xa740 0xa740, tt);
  (R 0xa742 0xa742, tt);
  (R 0xa744 0xa744, tt);
  (R 0xa746 0xa746, tt);
  (R 0xa748 0xa748, tt);
  (R 0xa74a 0xa74a, tt);
  (R 0xa74c 0xa74c, tt);
  (R 0xa74e 0xa74e, tt);
  (R 0xa750 0xa750, tt);
  (R 0xa752 0xa752, tt);
  (R 0xa754 0xa754, tt);
  (R 0xa756 0xa756, tt);
  (R 0xa758 0xa758, tt);
  (R 0xa75a 0xa75a, tt);
  (R 0xa75c 0xa75c, tt);
  (R 0xa75e 0xa75e, tt);
  (R 0xa760 0xa760, tt);
  (R 0xa762 0xa762, tt);
  (R 0xa764 0xa764, tt);
  (R 0xa766 0xa766, tt);
  (R 0xa768 0xa768, tt);
  (R 0xa76a 0xa76a, tt);
  (R 0xa76c 0xa76c, tt);
  (R 0xa76e 0xa76e, tt);
  (R 0xa779 0xa779, tt);
  (R 0xa77b 0xa77b, tt);
  (R 0xa77d 0xa77e, tt);
  (R 0xa780 0xa780, tt);
  (R 0xa782 0xa782, tt);
  (R 0xa784 0xa784, tt);
  (R 0xa786 0xa786, tt);
  (R 0xa78b 0xa78b, tt);
  (R 0xa78d 0xa78d, tt);
  (R 0xa790 0xa790, tt);
  (R 0xa792 0xa792, tt);
  (R 0xa796 0xa796, tt);
  (R 0xa798 0xa798, tt);
  (R 0xa79a 0xa79a, tt);
  (R 0xa79c 0xa79c, tt);
  (R 0xa79e 0xa79e, tt);
  (R 0xa7a0 0xa7a0, tt);
  (R 0xa7a2 0xa7a2, tt);
  (R 0xa7a4 0xa7a4, tt);
  (R 0xa7a6 0xa7a6, tt);
  (R 0xa7a8 0xa7a8, tt);
  (R 0xa7aa 0xa7ae, tt);
  (R 0xa7b0 0xa7b4, tt);
  (R 0xa7b6 0xa7b6, tt);
  (R 0xab70 0xabbf, tt);
  (R 0xfb00 0xfb06, tt);
  (R 0xfb13 0xfb17, tt);
  (R 0xff21 0xff3a, tt);
  (R 0x10400 0x10427, tt);
  (R 0x104b0 0x104d3, tt);
  (R 0x10c80 0x10cb2, tt);
  (R 0x118a0 0x118bf, tt);
  (R 0x1e900 0x1e921, tt)].

Definition CHANGES_WHEN_CASEFOLDED : CharDataTable unit :=
  Range (CHANGES_WHEN_CASEFOLDED_0 ++ CHANGES_WHEN_CASEFOLDED_1).

(** unic/ucd/case/tables/changes_when_casemapped.rsv:1-120 (116 entries) *)
Definition CHANGES_WHEN_CASEMAPPED : CharDataTable unit := Range [
  (R 0x41 0x5a, tt);
  (R 0x61 0x7a, tt);
  (R 0xb5 0xb5, tt);
  (R 0xc0 0xd6, tt);
  (R 0xd8 0xf6, tt);
  (R 0xf8 0x137, tt);
  (R 0x139 0x18c, tt);
  (R 0x18e 0x19a, tt);
  (R 0x19c 0x1a9, tt);
  (R 0x1ac 0x1b9, tt);
  (R 0x1bc 0x1bd, tt);
  (R 0x1bf 0x1bf, tt);
  (R 0x1c4 0x220, tt);
  (R 0x222 0x233, tt);
  (R 0x23a 0x254, tt);
  (R 0x256 0x257, tt);
  (R 0x259 0x259, tt);
  (R 0x25b 0x25c, tt);
  (R 0x260 0x261, tt);
  (R 0x263 0x263, tt);
  (R 0x265 0x266, tt);
  (R 0x268 0x26c, tt);
  (R 0x26f 0x26f, tt);
  (R 0x271 0x272, tt);
  (R 0x275 0x275, tt);
  (R 0x27d 0x27d, tt);
  (R 0x280 0x280, tt);
  (R 0x283 0x283, tt);
  (R 0x287 0x28c, tt);
  (R 0x292 0x292, tt);
  (R 0x29d 0x29e, tt);
  (R 0x345 0x345, tt);
  (R 0x370 0x373, tt);
  (R 0x376 0x377, tt);
  (R 0x37b 0x37d, tt);
  (R 0x37f 0x37f, tt);
  (R 0x386 0x386, tt);
  (R 0x388 0x38a, tt);
  (R 0x38c 0x38c, tt);
  (R 0x38e 0x3a1, tt);
  (R 0x3a3 0x3d1, tt);
  (R 0x3d5 0x3f5, tt);
  (R 0x3f7 0x3fb, tt);
  (R 0x3fd 0x481, tt);
  (R 0x48a 0x52f, tt);
  (R 0x531 0x556, tt);
  (R 0x561 0x587, tt);
  (R 0x10a0 0x10c5, tt);
  (R 0x10c7 0x10c7, tt);
  (R 0x10cd 0x10cd, tt);
  (R 0x13a0 0x13f5, tt);
  (R 0x13f8 0x13fd, tt);
  (R 0x1c80 0x1c88, tt);
  (R 0x1d79 0x1d79, tt);
  (R 0x1d7d 0x1d7d, tt);
  (R 0x1e00 0x1e9b, tt);
  (R 0x1e9e 0x1e9e, tt);
  (R 0x1ea0 0x1f15, tt);
  (R 0x1f18 0x1f1d, tt);
  (R 0x1f20 0x1f45, tt);
  (R 0x1f48 0x1f4d, tt);
  (R 0x1f50 0x1f57, tt);
  (R 0x1f59 0x1f59, tt);
  (R 0x1f5b 0x1f5b, tt);
  (R 0x1f5d 0x1f5d, tt);
  (R 0x1f5f 0x1f7d, tt);
  (R 0x1f80 0x1fb4, tt);
  (R 0x1fb6 0x1fbc, tt);
  (R 0x1fbe 0x1fbe, tt);
  (R 0x1fc2 0x1fc4, tt);
  (R 0x1fc6 0x1fcc, tt);
  (R 0x1fd0 0x1fd3, tt);
  (R 0x1fd6 0x1fdb, tt);
  (R 0x1fe0 0x1fec, tt);
  (R 0x1ff2 0x1ff4, tt);
  (R 0x1ff6 0x1ffc, tt);
  (R 0x2126 0x2126, tt);
  (R 0x212a 0x212b, tt);
  (R 0x2132 0x2132, tt);
  (R 0x214e 0x214e, tt);
  (R 0x2160 0x217f, tt);
  (R 0x2183 0x2184, tt);
  (R 0x24b6 0x24e9, tt);
  (R 0x2c00 0x2c2e, tt);
  (R 0x2c30 0x2c5e, tt);
  (R 0x2c60 0x2c70, tt);
  (R 0x2c72 0x2c73, tt);
  (R 0x2c75 0x2c76, tt);
  (R 0x2c7e 0x2ce3, tt);
  (R 0x2ceb 0x2cee, tt);
  (R 0x2cf2 0x2cf3, tt);
  (R 0x2d00 0x2d25, tt);
  (R 0x2d27 0x2d27, tt);
  (R 0x2d2d 0x2d2d, tt);
  (R 0xa640 0xa66d, tt);
  (R 0xa680 0xa69b, tt);
  (R 0xa722 0xa72f, tt);
  (R 0xa732 0xa76f, tt);
  (R 0xa779 0xa787, tt);
  (R 0xa78b 0xa78d, tt);
  (R 0xa790 0xa793, tt);
  (R 0xa796 0xa7ae, tt);
  (R 0xa7b0 0xa7b7, tt);
  (R 0xab53 0xab53, tt);
  (R 0xab70 0xabbf, tt);
  (R 0xfb00 0xfb06, tt);
  (R 0xfb13 0xfb17, tt);
  (R 0xff21 0xff3a, tt);
  (R 0xff41 0xff5a, tt);
  (R 0x10400 0x1044f, tt);
  (R 0x104b0 0x104d3, tt);
  (R 0x104d8 0x104fb, tt);
  (R 0x10c80 0x10cb2, tt);
  (R 0x10cc0 0x10cf2, tt);
  (R 0x118a0 0x118df, tt);
  (R 0x1e900 0x1e943, tt)].

(** unic/ucd/case/tables/changes_when_lowercased.rsv:1-594 (590 entries) *)
Definition CHANGES_WHEN_LOWERCASED_0 : list (CharRange * unit) := [
  (R 0x41 0x5a, tt);
  (R 0xc0 0xd6, tt);
  (R 0xd8 0xde, tt);
  (R 0x100 0x100, tt);
  (R 0x102 0x102, tt);
  (R 0x104 0x104, tt);
  (R 0x106 0x106, tt);
  (R 0x108 0x108, tt);
  (R 0x10a 0x10a, tt);
  (R 0x10c 0x10c, tt);
  (R 0x10e 0x10e, tt);
  (R 0x110 0x110, tt);
  (R 0x112 0x112, tt);
  (R 0x114 0x114, tt);
  (R 0x116 0x116, tt);
  (R 0x118 0x118, tt);
  (R 0x11a 0x11a, tt);
  (R 0x11c 0x11c, tt);
  (R 0x11e 0x11e, tt);
  (R 0x120 0x120, tt);
  (R 0x122 0x122, tt);
  (R 0x124 0x124, tt);
  (R 0x126 0x126, tt);
  (R 0x128 0x128, tt);
  (R 0x12a 0x12a, tt);
  (R 0x12c 0x12c, tt);
  (R 0x12e 0x12e, tt);
  (R 0x130 0x130, tt);
  (R 0x132 0x132, tt);
  (R 0x134 0x134, tt);
  (R 0x136 0x136, tt);
  (R 0x139 0x139, tt);
  (R 0x13b 0x13b, tt);
  (R 0x13d 0x13d, tt);
  (R 0x13f 0x13f, tt);
  (R 0x141 0x141, tt);
  (R 0x143 0x143, tt);
  (R 0x145 0x145, tt);
  (R 0x147 0x147, tt);
  (R 0x14a 0x14a, tt);
  (R 0x14c 0x14c, tt);
  (R 0x14e 0x14e, tt);
  (R 0x150 0x150, tt);
  (R 0x152 0x152, tt);
  (R 0x154 0x154, tt);
  (R 0x156 0x156, tt);
  (R 0x158 0x158, tt);
  (R 0x15a 0x15a, tt);
  (R 0x15c 0x15c, tt);
  (R 0x15e 0x15e, tt);
  (R 0x160 0x160, tt);
  (R 0x162 0x162, tt);
  (R 0x164 0x164, tt);
  (R 0x166 0x166, tt);
  (R 0x168 0x168, tt);
  (R 0x16a 0x16a, tt);
  (R 0x16c 0x16c, tt);
  (R 0x16e 0x16e, tt);
  (R 0x170 0x170, tt);
  (R 0x172 0x172, tt);
  (R 0x174 0x174, tt);
  (R 0x176 0x176, tt);
  (R 0x178 0x179, tt);
  (R 0x17b 0x17b, tt);
  (R 0x17d 0x17d, tt);
  (R 0x181 0x182, tt);
  (R 0x184 0x184, tt);
  (R 0x186 0x187, tt);
  (R 0x189 0x18b, tt);
  (R 0x18e 0x191, tt);
  (R 0x193 0x194, tt);
  (R 0x196 0x198, tt);
  (R 0x19c 0x19d, tt);
  (R 0x19f 0x1a0, tt);
  (R 0x1a2 0x1a2, tt);
  (R 0x1a4 0x1a4, tt);
  (R 0x1a6 0x1a7, tt);
  (R 0x1a9 0x1a9, tt);
  (R 0x1ac 0x1ac, tt);
  (R 0x1ae 0x1af, tt);
  (R 0x1b1 0x1b3, tt);
  (R 0x1b5 0x1b5, tt);
  (R 0x1b7 0x1b8, tt);
  (R 0x1bc 0x1bc, tt);
  (R 0x1c4 0x1c5, tt);
  (R 0x1c7 0x1c8, tt);
  (R 0x1ca 0x1cb, tt);
  (R 0x1cd 0x1cd, tt);
  (R 0x1cf 0x1cf, tt);
  (R 0x1d1 0x1d1, tt);
  (R 0x1d3 0x1d3, tt);
  (R 0x1d5 0x1d5, tt);
  (R 0x1d7 0x1d7, tt);
  (R 0x1d9 0x1d9, tt);
  (R 0x1db 0x1db, tt);
  (R 0x1de 0x1de, tt);
  (R 0x1e0 0x1e0, tt);
  (R 0x1e2 0x1e2, tt);
  (R 0x1e4 0x1e4, tt);
  (R 0x1e6 0x1e6, tt);
  (R 0x1e8 0x1e8, tt);
  (R 0x1ea 0x1ea, tt);
  (R 0x1ec 0x1ec, tt);
  (R 0x1ee 0x1ee, tt);
  (R 0x1f1 0x1f2, tt);
  (R 0x1f4 0x1f4, tt);
  (R 0x1f6 0x1f8, tt);
  (R 0x1fa 0x1fa, tt);
  (R 0x1fc 0x1fc, tt);
  (R 0x1fe 0x1fe, tt);
  (R 0x200 0x200, tt);
  (R 0x202 0x202, tt);
  (R 0x204 0x204, tt);
  (R 0x206 0x206, tt);
  (R 0x208 0x208, tt);
  (R 0x20a 0x20a, tt);
  (R 0x20c 0x20c, tt);
  (R 0x20e 0x20e, tt);
  (R 0x210 0x210, tt);
  (R 0x212 0x212, tt);
  (R 0x214 0x214, tt);
  (R 0x216 0x216, tt);
  (R 0x218 0x218, tt);
  (R 0x21a 0x21a, tt);
  (R 0x21c 0x21c, tt);
  (R 0x21e 0x21e, tt);
  (R 0x220 0x220, tt);
  (R 0x222 0x222, tt);
  (R 0x224 0x224, tt);
  (R 0x226 0x226, tt);
  (R 0x228 0x228, tt);
  (R 0x22a 0x22a, tt);
  (R 0x22c 0x22c, tt);
  (R 0x22e 0x22e, tt);
  (R 0x230 0x230, tt);
  (R 0x232 0x232, tt);
  (R 0x23a 0x23b, tt);
  (R 0x23d 0x23e, tt);
  (R 0x241 0x241, tt);
  (R 0x243 0x246, tt);
  (R 0x248 0x248, tt);
  (R 0x24a 0x24a, tt);
  (R 0x24c 0x24c, tt);
  (R 0x24e 0x24e, tt);
  (R 0x370 0x370, tt);
  (R 0x372 0x372, tt);
  (R 0x376 0x376, tt);
  (R 0x37f 0x37f, tt);
  (R 0x386 0x386, tt);
  (R 0x388 0x38a, tt);
  (R 0x38c 0x38c, tt);
  (R 0x38e 0x38f, tt);
  (R 0x391 0x3a1, tt);
  (R 0x3a3 0x3ab, tt);
  (R 0x3cf 0x3cf, tt);
  (R 0x3d8 0x3d8, tt);
  (R 0x3da 0x3da, tt);
  (R 0x3dc 0x3dc, tt);
  (R 0x3de 0x3de, tt);
  (R 0x3e0 0x3e0, tt);
  (R 0x3e2 0x3e2, tt);
  (R 0x3e4 0x3e4, tt);
  (R 0x3e6 0x3e6, tt);
  (R 0x3e8 0x3e8, tt);
  (R 0x3ea 0x3ea, tt);
  (R 0x3ec 0x3ec, tt);
  (R 0x3ee 0x3ee, tt);
  (R 0x3f4 0x3f4, tt);
  (R 0x3f7 0x3f7, tt);
  (R 0x3f9 0x3fa, tt);
  (R 0x3fd 0x42f, tt);
  (R 0x460 0x460, tt);
  (R 0x462 0x462, tt);
  (R 0x464 0x464, tt);
  (R 0x466 0x466, tt);
  (R 0x468 0x468, tt);
  (R 0x46a 0x46a, tt);
  (R 0x46c 0x46c, tt);
  (R 0x46e 0x46e, tt);
  (R 0x470 0x470, tt);
  (R 0x472 0x472, tt);
  (R 0x474 0x474, tt);
  (R 0x476 0x476, tt);
  (R 0x478 0x478, tt);
  (R 0x47a 0x47a, tt);
  (R 0x47c 0x47c, tt);
  (R 0x47e 0x47e, tt);
  (R 0x480 0x480, tt);
  (R 0x48a 0x48a, tt);
  (R 0x48c 0x48c, tt);
  (R 0x48e 0x48e, tt);
  (R 0x490 0x490, tt);
  (R 0x492 0x492, tt);
  (R 0x494 0x494, tt);
  (R 0x496 0x496, tt);
  (R 0x498 0x498, tt);
  (R 0x49a 0x49a, tt);
  (R 0x49c 0x49c, tt);
  (R 0x49e 0x49e, tt);
  (R 0x4a0 0x4a0, tt);
  (R 0x4a2 0x4a2, tt);
  (R 0x4a4 0x4a4, tt);
  (R 0x4a6 0x4a6, tt);
  (R 0x4a8 0x4a8, tt);
  (R 0x4aa 0x4aa, tt);
  (R 0x4ac 0x4ac, tt);
  (R 0x4ae 0x4ae, tt);
  (R 0x4b0 0x4b0, tt);
  (R 0x4b2 0x4b2, tt);
  (R 0x4b4 0x4b4, tt);
  (R 0x4b6 0x4b6, tt);
  (R 0x4b8 0x4b8, tt);
  (R 0x4ba 0x4ba, tt);
  (R 0x4bc 0x4bc, tt);
  (R 0x4be 0x4be, tt);
  (R 0x4c0 0x4c1, tt);
  (R 0x4c3 0x4c3, tt);
  (R 0x4c5 0x4c5, tt);
  (R 0x4c7 0x4c7, tt);
  (R 0x4c9 0x4c9, tt);
  (R 0x4cb 0x4cb, tt);
  (R 0x4cd 0x4cd, tt);
  (R 0x4d0 0x4d0, tt);
  (R 0x4d2 0x4d2, tt);
  (R 0x4d4 0x4d4, tt);
  (R 0x4d6 0x4d6, tt);
  (R 0x4d8 0x4d8, tt);
  (R 0x4da 0x4da, tt);
  (R 0x4dc 0x4dc, tt);
  (R 0x4de 0x4de, tt);
  (R 0x4e0 0x4e0, tt);
  (R 0x4e2 0x4e2, tt);
  (R 0x4e4 0x4e4, tt);
  (R 0x4e6 0x4e6, tt);
  (R 0x4e8 0x4e8, tt);
  (R 0x4ea 0x4ea, tt);
  (R 0x4ec 0x4ec, tt);
  (R 0x4ee 0x4ee, tt);
  (R 0x4f0 0x4f0, tt);
  (R 0x4f2 0x4f2, tt);
  (R 0x4f4 0x4f4, tt);
  (R 0x4f6 0x4f6, tt);
  (R 0x4f8 0x4f8, tt);
  (R 0x4fa 0x4fa, tt);
  (R 0x4fc 0x4fc, tt);
  (R 0x4fe 0x4fe, tt);
  (R 0x500 0x500, tt);
  (R 0x502 0x502, tt);
  (R 0x504 0x504, tt);
  (R 0x506 0x506, tt);
  (R 0x508 0x508, tt);
  (R 0x50a 0x50a, tt);
  (R 0x50c 0x50c, tt);
  (R 0x50e 0x50e, tt);
  (R 0x510 0x510, tt);
  (R 0x512 0x512, tt);
  (R 0x514 0x514, tt);
  (R 0x516 0x516, tt);
  (R 0x518 0x518, tt);
  (R 0x51a 0x51a, tt);
  (R 0x51c 0x51c, tt);
  (R 0x51e 0x51e, tt);
  (R 0x520 0x520, tt);
  (R 0x522 0x522, tt);
  (R 0x524 0x524, tt);
  (R 0x526 0x526, tt);
  (R 0x528 0x528, tt);
  (R 0x52a 0x52a, tt);
  (R 0x52c 0x52c, tt);
  (R 0x52e 0x52e, tt);
  (R 0x531 0x556, tt);
  (R 0x10a0 0x10c5, tt);
  (R 0x10c7 0x10c7, tt);
  (R 0x10cd 0x10cd, tt);
  (R 0x13a0 0x13f5, tt);
  (R 0x1e00 0x1e00, tt);
  (R 0x1e02 0x1e02, tt);
  (R 0x1e04 0x1e04, tt);
  (R 0x1e06 0x1e06, tt);
  (R 0x1e08 0x1e08, tt);
  (R 0x1e0a 0x1e0a, tt);
  (R 0x1e0c 0x1e0c, tt);
  (R 0x1e0e 0x1e0e, tt);
  (R 0x1e10 0x1e10, tt);
  (R 0x1e12 0x1e12, tt);
  (R 0x1e14 0x1e14, tt);
  (R 0x1e16 0x1e16, tt);
  (R 0x1e18 0x1e18, tt);
  (R 0x1e1a 0x1e1a, tt);
  (R 0x1e1c 0x1e1c, tt);
  (R 0x1e1e 0x1e1e, tt);
  (R 0x1e20 0x1e20, tt);
  (R 0x1e22 0x1e22, tt);
  (R 0x1e24 0x1e24, tt);
  (R 0x1e26 0x1e26, tt);
  (R 0x1e28 0x1e28, tt);
  (R 0x1e2a 0x1e2a, tt);
  (R 0x1e2c 0x1e2c, tt);
  (R 0x1e2e 0x1e2e, tt);
  (R 0x1e30 0x1e30, tt);
  (R 0x1e32 0x1e32, tt);
  (R 0x1e34 0x1e34, tt);
  (R 0x1e36 0x1e36, tt);
  (R 0x1e38 0x1e38, tt);
  (R 0x1e3a 0x1e3a, tt);
  (R 0x1e3c 0x1e3c, tt);
  (R 0x1e3e 0x1e3e, tt);
  (R 0x1e40 0x1e40, tt);
  (R 0x1e42 0x1e42, tt);
  (R 0x1e44 0x1e44, tt);
  (R 0x1e46 0x1e46, tt);
  (R 0x1e48 0x1e48, tt);
  (R 0x1e4a 0x1e4a, tt);
  (R 0x1e4c 0x1e4c, tt);
  (R 0x1e4e 0x1e4e, tt);
  (R 0x1e50 0x1e50, tt);
  (R 0x1e52 0x1e52, tt);
  (R 0x1e54 0x1e54, tt);
  (R 0x1e56 0x1e56, tt);
  (R 0x1e58 0x1e58, tt);
  (R 0x1e5a 0x1e5a, tt);
  (R 0x1e5c 0x1e5c, tt);
  (R 0x1e5e 0x1e5e, tt);
  (R 0x1e60 0x1e60, tt);
  (R 0x1e62 0x1e62, tt);
  (R 0x1e64 0x1e64, tt);
  (R 0x1e66 0x1e66, tt);
  (R 0x1e68 0x1e68, tt);
  (R 0x1e6a 0x1e6a, tt);
  (R 0x1e6c 0x1e6c, tt);
  (R 0x1e6e 0x1e6e, tt);
  (R 0x1e70 0x1e70, tt);
  (R 0x1e72 0x1e72, tt);
  (R 0x1e74 0x1e74, tt);
  (R 0x1e76 0x1e76, tt);
  (R 0x1e78 0x1e78, tt);
  (R 0x1e7a 0x1e7a, tt);
  (R 0x1e7c 0x1e7c, tt);
  (R 0x1e7e 0x1e7e, tt);
  (R 0x1e80 0x1e80, tt);
  (R 0x1e82 0x1e82, tt);
  (R 0x1e84 0x1e84, tt);
  (R 0x1e86 0x1e86, tt);
  (R 0x1e88 0x1e88, tt);
  (R 0x1e8a 0x1e8a, tt);
  (R 0x1e8c 0x1e8c, tt);
  (R 0x1e8e 0x1e8e, tt);
  (R 0x1e90 0x1e90, tt);
  (R 0x1e92 0x1e92, tt);
  (R 0x1e94 0x1e94, tt);
  (R 0x1e9e 0x1e9e, tt);
  (R 0x1ea0 0x1ea0, tt);
  (R 0x1ea2 0x1ea2, tt);
  (R 0x1ea4 0x1ea4, tt);
  (R 0x1ea6 0x1ea6, tt);
  (R 0x1ea8 0x1ea8, tt);
  (R 0x1eaa 0x1eaa, tt);
  (R 0x1eac 0x1eac, tt);
  (R 0x1eae 0x1eae, tt);
  (R 0x1eb0 0x1eb0, tt);
  (R 0x1eb2 0x1eb2, tt);
  (R 0x1eb4 0x1eb4, tt);
  (R 0x1eb6 0x1eb6, tt);
  (R 0x1eb8 0x1eb8, tt);
  (R 0x1eba 0x1eba, tt);
  (R 0x1ebc 0x1ebc, tt);
  (R 0x1ebe 0x1ebe, tt);
  (R 0x1ec0 0x1ec0, tt);
  (R 0x1ec2 0x1ec2, tt);
  (R 0x1ec4 0x1ec4, tt);
  (R 0x1ec6 0x1ec6, tt);
  (R 0x1ec8 0x1ec8, tt);
  (R 0x1eca 0x1eca, tt);
  (R 0x1ecc 0x1ecc, tt);
  (R 0x1ece 0x1ece, tt);
  (R 0x1ed0 0x1ed0, tt);
  (R 0x1ed2 0x1ed2, tt);
  (R 0x1ed4 0x1ed4, tt);
  (R 0x1ed6 0x1ed6, tt);
  (R 0x1ed8 0x1ed8, tt);
  (R 0x1eda 0x1eda, tt);
  (R 0x1edc 0x1edc, tt);
  (R 0x1ede 0x1ede, tt);
  (R 0x1ee0 0x1ee0, tt);
  (R 0x1ee2 0x1ee2, tt);
  (R 0x1ee4 0x1ee4, tt);
  (R 0x1ee6 0x1ee6, tt);
  (R 0x1ee8 0x1ee8, tt);
  (R 0x1eea 0x1eea, tt);
  (R 0x1eec 0x1eec, tt);
  (R 0x1eee 0x1eee, tt);
  (R 0x1ef0 0x1ef0, tt);
  (R 0x1ef2 0x1ef2, tt);
  (R 0x1ef4 0x1ef4, tt);
  (R 0x1ef6 0x1ef6, tt);
  (R 0x1ef8 0x1ef8, tt);
  (R 0x1efa 0x1efa, tt);
  (R 0x1efc 0x1efc, tt);
  (R 0x1efe 0x1efe, tt);
  (R 0x1f08 0x1f0f, tt)].

Definition CHANGES_WHEN_LOWERCASED_1 : list (CharRange * unit) := [
  (R 0x1f18 0x1f1d, tt);
  (R 0x1f28 0x1f2f, tt);
  (R 0x1f38 0x1f3f, tt);
  (R 0x1f48 0x1f4d, tt);
  (R 0x1f59 0x1f59, tt);
  (R 0x1f5b 0x1f5b, tt);
  (R 0x1f5d 0x1f5d, tt);
  (R 0x1f5f 0x1f5f, tt);
  (R 0x1f68 0x1f6f, tt);
  (R 0x1f88 0x1f8f, tt);
  (R 0x1f98 0x1f9f, tt);
  (R 0x1fa8 0x1faf, tt);
  (R 0x1fb8 0x1fbc, tt);
  (R 0x1fc8 0x1fcc, tt);
  (R 0x1fd8 0x1fdb, tt);
  (R 0x1fe8 0x1fec, tt);
  (R 0x1ff8 0x1ffc, tt);
  (R 0x2126 0x2126, tt);
  (R 0x212a 0x212b, tt);
  (R 0x2132 0x2132, tt);
  (R 0x2160 0x216f, tt);
  (R 0x2183 0x2183, tt);
  (R 0x24b6 0x24cf, tt);
  (R 0x2c00 0x2c2e, tt);
  (R 0x2c60 0x2c60, tt);
  (R 0x2c62 0x2c64, tt);
  (R 0x2c67 0x2c67, tt);
  (R 0x2c69 0x2c69, tt);
  (R 0x2c6b 0x2c6b, tt);
  (R 0x2c6d 0x2c70, tt);
  (R 0x2c72 0x2c72, tt);
  (R 0x2c75 0x2c75, tt);
  (R 0x2c7e 0x2c80, tt);
  (R 0x2c82 0x2c82, tt);
  (R 0x2c84 0x2c84, tt);
  (R 0x2c86 0x2c86, tt);
  (R 0x2c88 0x2c88, tt);
  (R 0x2c8a 0x2c8a, tt);
  (R 0x2c8c 0x2c8c, tt);
  (R 0x2c8e 0x2c8e, tt);
  (R 0x2c90 0x2c90, tt);
  (R 0x2c92 0x2c92, tt);
  (R 0x2c94 0x2c94, tt);
  (R 0x2c96 0x2c96, tt);
  (R 0x2c98 0x2c98, tt);
  (R 0x2c9a 0x2c9a, tt);
  (R 0x2c9c 0x2c9c, tt);
  (R 0x2c9e 0x2c9e, tt);
  (R 0x2ca0 0x2ca0, tt);
  (R 0x2ca2 0x2ca2, tt);
  (R 0x2ca4 0x2ca4, tt);
  (R 0x2ca6 0x2ca6, tt);
  (R 0x2ca8 0x2ca8, tt);
  (R 0x2caa 0x2caa, tt);
  (R 0x2cac 0x2cac, tt);
  (R 0x2cae 0x2cae, tt);
  (R 0x2cb0 0x2cb0, tt);
  (R 0x2cb2 0x2cb2, tt);
  (R 0x2cb4 0x2cb4, tt);
  (R 0x2cb6 0x2cb6, tt);
  (R 0x2cb8 0x2cb8, tt);
  (R 0x2cba 0x2cba, tt);
  (R 0x2cbc 0x2cbc, tt);
  (R 0x2cbe 0x2cbe, tt);
  (R 0x2cc0 0x2cc0, tt);
  (R 0x2cc2 0x2cc2, tt);
  (R 0x2cc4 0x2cc4, tt);
  (R 0x2cc6 0x2cc6, tt);
  (R 0x2cc8 0x2cc8, tt);
  (R 0x2cca 0x2cca, tt);
  (R 0x2ccc 0x2ccc, tt);
  (R 0x2cce 0x2cce, tt);
  (R 0x2cd0 0x2cd0, tt);
  (R 0x2cd2 0x2cd2, tt);
  (R 0x2cd4 0x2cd4, tt);
  (R 0x2cd6 0x2cd6, tt);
  (R 0x2cd8 0x2cd8, tt);
  (R 0x2cda 0x2cda, tt);
  (R 0x2cdc 0x2cdc, tt);
  (R 0x2cde 0x2cde, tt);
  (R 0x2ce0 0x2ce0, tt);
  (R 0x2ce2 0x2ce2, tt);
  (R 0x2ceb 0x2ceb, tt);
  (R 0x2ced 0x2ced, tt);
  (R 0x2cf2 0x2cf2, tt);
  (R 0xa640 0xa640, tt);
  (R 0xa642 0xa642, tt);
  (R 0xa644 0xa644, tt);
  (R 0xa646 0xa646, tt);
  (R 0xa648 0xa648, tt);
  (R 0xa64a 0xa64a, tt);
  (R 0xa64c 0xa64c, tt);
  (R 0xa64e 0xa64e, tt);
  (R 0xa650 0xa650, tt);
  (R 0xa652 0xa652, tt);
  (R 0xa654 0xa654, tt);
  (R 0xa656 0xa656, tt);
  (R 0xa658 0xa658, tt);
  (R 0xa65a 0xa65a, tt);
  (R 0xa65c 0xa65c, tt);
  (R 0xa65e 0xa65e, tt);
  (R 0xa660 0xa660, tt);
  (R 0xa662 0xa662, tt);
  (R 0xa664 0xa664, tt);
  (R 0xa666 0xa666, tt);
  (R 0xa668 0xa668, tt);
  (R 0xa66a 0xa66a, tt);
  (R 0xa66c 0xa66c, tt);
  (R 0xa680 0xa680, tt);
  (R 0xa682 0xa682, tt);
  (R 0xa684 0xa684, tt);
  (R 0xa686 0xa686, tt);
  (R 0xa688 0xa688, tt);
  (R 0xa68a 0xa68a, tt);
  (R 0xa68c 0xa68c, tt);
  (R 0xa68e 0xa68e, tt);
  (R 0xa690 0xa690, tt);
  (R 0xa692 0xa692, tt);
  (R 0xa694 0xa694, tt);
  (R 0xa696 0xa696, tt);
  (R 0xa698 0xa698, tt);
  (R 0xa69a 0xa69a, tt);
  (R 0xa722 0xa722, tt);
  (R 0xa724 0xa724, tt);
  (R 0xa726 0xa726, tt);
  (R 0xa728 0xa728, tt);
  (R 0xa72a 0xa72a, tt);
  (R 0xa72c 0xa72c, tt);
  (R 0xa72e 0xa72e, tt);
  (R 0xa732 0xa732, tt);
  (R 0xa734 0xa734, tt);
  (R 0xa736 0xa736, tt);
  (R 0xa738 0xa738, tt);
  (R 0xa73a 0xa73a, tt);
  (R 0xa73c 0xa73c, tt);
  (R 0xa73e 0xa73e, tt);
  (R 0xa740 0xa740, tt);
  (R 0xa742 0xa742, tt);
  (R 0xa744 0xa744, tt);
  (R 0xa746 0xa746, tt);
  (R 0xa748 0xa748, tt);
  (R 0xa74a 0xa74a, tt);
  (R 0xa74c 0xa74c, tt);
  (R 0xa74e 0xa74e, tt);
  (R 0xa750 0xa750, tt);
  (R 0xa752 0xa752, tt);
  (R 0xa754 0xa754, tt);
  (R 0xa756 0xa756, tt);
  (R 0xa758 0xa758, tt);
  (R 0xa75a 0xa75a, tt);
  (R 0xa75c 0xa75c, tt);
  (R 0xa75e 0xa75e, tt);
  (R 0xa760 0xa760, tt);
  (R 0xa762 0xa762, tt);
  (R 0xa764 0xa764, tt);
  (R 0xa766 0xa766, tt);
  (R 0xa768 0xa768, tt);
  (R 0xa76a 0xa76a, tt);
  (R 0xa76c 0xa76c, tt);
  (R 0xa76e 0xa76e, tt);
  (R 0xa779 0xa779, tt);
  (R 0xa77b 0xa77b, tt);
  (R 0xa77d 0xa77e, tt);
  (R 0xa780 0xa780, tt);
  (R 0xa782 0xa782, tt);
  (R 0xa784 0xa784, tt);
  (R 0xa786 0xa786, tt);
  (R 0xa78b 0xa78b, tt);
  (R 0xa78d 0xa78d, tt);
  (R 0xa790 0xa790, tt);
  (R 0xa792 0xa792, tt);
  (R 0xa796 0xa796, tt);
  (R 0xa798 0xa798, tt);
  (R 0xa79a 0xa79a, tt);
  (R 0xa79c 0xa79c, tt);
  (R 0xa79e 0xa79e, tt);
  (R 0xa7a0 0xa7a0, tt);
  (R 0xa7a2 0xa7a2, tt);
  (R 0xa7a4 0xa7a4, tt);
  (R 0xa7a6 0xa7a6, tt);
  (R 0xa7a8 0xa7a8, tt);
  (R 0xa7aa 0xa7ae, tt);
  (R 0xa7b0 0xa7b4, tt);
  (R 0xa7b6 0xa7b6, tt);
  (R 0xff21 0xff3a, tt);
  (R 0x10400 0x10427, tt);
  (R 0x104b0 0x104d3, tt);
  (R 0x10c80 0x10cb2, tt);
  (R 0x118a0 0x118bf, tt);
  (R 0x1e900 0x1e921, tt)].

Definition CHANGES_WHEN_LOWERCASED : CharDataTable unit :=
  Range (CHANGES_WHEN_LOWERCASED_0 ++ CHANGES_WHEN_LOWERCASED_1).

(** unic/ucd/case/tables/changes_when_titlecased.rsv:1-612 (608 entries) *)
Definition CHANGES_WHEN_TITLECASED_0 : list (CharRange * unit) := [
  (R 0x61 0x7a, tt);
  (R 0xb5 0xb5, tt);
  (R 0xdf 0xf6, tt);
  (R 0xf8 0xff, tt);
  (R 0x101 0x101, tt);
  (R 0x103 0x103, tt);
  (R 0x105 0x105, tt);
  (R 0x107 0x107, tt);
  (R 0x109 0x109, tt);
  (R 0x10b 0x10b, tt);
  (R 0x10d 0x10d, tt);
  (R 0x10f 0x10f, tt);
  (R 0x111 0x111, tt);
  (R 0x113 0x113, tt);
  (R 0x115 0x115, tt);
  (R 0x117 0x117, tt);
  (R 0x119 0x119, tt);
  (R 0x11b 0x11b, tt);
  (R 0x11d 0x11d, tt);
  (R 0x11f 0x11f, tt);
  (R 0x121 0x121, tt);
  (R 0x123 0x123, tt);
  (R 0x125 0x125, tt);
  (R 0x127 0x127, tt);
  (R 0x129 0x129, tt);
  (R 0x12b 0x12b, tt);
  (R 0x12d 0x12d, tt);
  (R 0x12f 0x12f, tt);
  (R 0x131 0x131, tt);
  (R 0x133 0x133, tt);
  (R 0x135 0x135, tt);
  (R 0x137 0x137, tt);
  (R 0x13a 0x13a, tt);
  (R 0x13c 0x13c, tt);
  (R 0x13e 0x13e, tt);
  (R 0x140 0x140, tt);
  (R 0x142 0x142, tt);
  (R 0x144 0x144, tt);
  (R 0x146 0x146, tt);
  (R 0x148 0x149, tt);
  (R 0x14b 0x14b, tt);
  (R 0x14d 0x14d, tt);
  (R 0x14f 0x14f, tt);
  (R 0x151 0x151, tt);
  (R 0x153 0x153, tt);
  (R 0x155 0x155, tt);
  (R 0x157 0x157, tt);
  (R 0x159 0x159, tt);
  (R 0x15b 0x15b, tt);
  (R 0x15d 0x15d, tt);
  (R 0x15f 0x15f, tt);
  (R 0x161 0x161, tt);
  (R 0x163 0x163, tt);
  (R 0x165 0x165, tt);
  (R 0x167 0x167, tt);
  (R 0x169 0x169, tt);
  (R 0x16b 0x16b, tt);
  (R 0x16d 0x16d, tt);
  (R 0x16f 0x16f, tt);
  (R 0x171 0x171, tt);
  (R 0x173 0x173, tt);
  (R 0x175 0x175, tt);
  (R 0x177 0x177, tt);
  (R 0x17a 0x17a, tt);
  (R 0x17c 0x17c, tt);
  (R 0x17e 0x180, tt);
  (R 0x183 0x183, tt);
  (R 0x185 0x185, tt);
  (R 0x188 0x188, tt);
  (R 0x18c 0x18c, tt);
  (R 0x192 0x192, tt);
  (R 0x195 0x195, tt);
  (R 0x199 0x19a, tt);
  (R 0x19e 0x19e, tt);
  (R 0x1a1 0x1a1, tt);
  (R 0x1a3 0x1a3, tt);
  (R 0x1a5 0x1a5, tt);
  (R 0x1a8 0x1a8, tt);
  (R 0x1ad 0x1ad, tt);
  (R 0x1b0 0x1b0, tt);
  (R 0x1b4 0x1b4, tt);
  (R 0x1b6 0x1b6, tt);
  (R 0x1b9 0x1b9, tt);
  (R 0x1bd 0x1bd, tt);
  (R 0x1bf 0x1bf, tt);
  (R 0x1c4 0x1c4, tt);
  (R 0x1c6 0x1c7, tt);
  (R 0x1c9 0x1ca, tt);
  (R 0x1cc 0x1cc, tt);
  (R 0x1ce 0x1ce, tt);
  (R 0x1d0 0x1d0, tt);
  (R 0x1d2 0x1d2, tt);
  (R 0x1d4 0x1d4, tt);
  (R 0x1d6 0x1d6, tt);
  (R 0x1d8 0x1d8, tt);
  (R 0x1da 0x1da, tt);
  (R 0x1dc 0x1dd, tt);
  (R 0x1df 0x1df, tt);
  (R 0x1e1 0x1e1, tt);
  (R 0x1e3 0x1e3, tt);
  (R 0x1e5 0x1e5, tt);
  (R 0x1e7 0x1e7, tt);
  (R 0x1e9 0x1e9, tt);
  (R 0x1eb 0x1eb, tt);
  (R 0x1ed 0x1ed, tt);
  (R 0x1ef 0x1f1, tt);
  (R 0x1f3 0x1f3, tt);
  (R 0x1f5 0x1f5, tt);
  (R 0x1f9 0x1f9, tt);
  (R 0x1fb 0x1fb, tt);
  (R 0x1fd 0x1fd, tt);
  (R 0x1ff 0x1ff, tt);
  (R 0x201 0x201, tt);
  (R 0x203 0x203, tt);
  (R 0x205 0x205, tt);
  (R 0x207 0x207, tt);
  (R 0x209 0x209, tt);
  (R 0x20b 0x20b, tt);
  (R 0x20d 0x20d, tt);
  (R 0x20f 0x20f, tt);
  (R 0x211 0x211, tt);
  (R 0x213 0x213, tt);
  (R 0x215 0x215, tt);
  (R 0x217 0x217, tt);
  (R 0x219 0x219, tt);
  (R 0x21b 0x21b, tt);
  (R 0x21d 0x21d, tt);
  (R 0x21f 0x21f, tt);
  (R 0x223 0x223, tt);
  (R 0x225 0x225, tt);
  (R 0x227 0x227, tt);
  (R 0x229 0x229, tt);
  (R 0x22b 0x22b, tt);
  (R 0x22d 0x22d, tt);
  (R 0x22f 0x22f, tt);
  (R 0x231 0x231, tt);
  (R 0x233 0x233, tt);
  (R 0x23c 0x23c, tt);
  (R 0x23f 0x240, tt);
  (R 0x242 0x242, tt);
  (R 0x247 0x247, tt);
  (R 0x249 0x249, tt);
  (R 0x24b 0x24b, tt);
  (R 0x24d 0x24d, tt);
  (R 0x24f 0x254, tt);
  (R 0x256 0x257, tt);
  (R 0x259 0x259, tt);
  (R 0x25b 0x25c, tt);
  (R 0x260 0x261, tt);
  (R 0x263 0x263, tt);
  (R 0x265 0x266, tt);
  (R 0x268 0x26c, tt);
  (R 0x26f 0x26f, tt);
  (R 0x271 0x272, tt);
  (R 0x275 0x275, tt);
  (R 0x27d 0x27d, tt);
  (R 0x280 0x280, tt);
  (R 0x283 0x283, tt);
  (R 0x287 0x28c, tt);
  (R 0x292 0x292, tt);
  (R 0x29d 0x29e, tt);
  (R 0x345 0x345, tt);
  (R 0x371 0x371, tt);
  (R 0x373 0x373, tt);
  (R 0x377 0x377, tt);
  (R 0x37b 0x37d, tt);
  (R 0x390 0x390, tt);
  (R 0x3ac 0x3ce, tt);
  (R 0x3d0 0x3d1, tt);
  (R 0x3d5 0x3d7, tt);
  (R 0x3d9 0x3d9, tt);
  (R 0x3db 0x3db, tt);
  (R 0x3dd 0x3dd, tt);
  (R 0x3df 0x3df, tt);
  (R 0x3e1 0x3e1, tt);
  (R 0x3e3 0x3e3, tt);
  (R 0x3e5 0x3e5, tt);
  (R 0x3e7 0x3e7, tt);
  (R 0x3e9 0x3e9, tt);
  (R 0x3eb 0x3eb, tt);
  (R 0x3ed 0x3ed, tt);
  (R 0x3ef 0x3f3, tt);
  (R 0x3f5 0x3f5, tt);
  (R 0x3f8 0x3f8, tt);
  (R 0x3fb 0x3fb, tt);
  (R 0x430 0x45f, tt);
  (R 0x461 0x461, tt);
  (R 0x463 0x463, tt);
  (R 0x465 0x465, tt);
  (R 0x467 0x467, tt);
  (R 0x469 0x469, tt);
  (R 0x46b 0x46b, tt);
  (R 0x46d 0x46d, tt);
  (R 0x46f 0x46f, tt);
  (R 0x471 0x471, tt);
  (R 0x473 0x473, tt);
  (R 0x475 0x475, tt);
  (R 0x477 0x477, tt);
  (R 0x479 0x479, tt);
  (R 0x47b 0x47b, tt);
  (R 0x47d 0x47d, tt);
  (R 0x47f 0x47f, tt);
  (R 0x481 0x481, tt);
  (R 0x48b 0x48b, tt);
  (R 0x48d 0x48d, tt);
  (R 0x48f 0x48f, tt);
  (R 0x491 0x491, tt);
  (R 0x493 0x493, tt);
  (R 0x495 0x495, tt);
  (R 0x497 0x497, tt);
  (R 0x499 0x499, tt);
  (R 0x49b 0x49b, tt);
  (R 0x49d 0x49d, tt);
  (R 0x49f 0x49f, tt);
  (R 0x4a1 0x4a1, tt);
  (R 0x4a3 0x4a3, tt);
  (R 0x4a5 0x4a5, tt);
  (R 0x4a7 0x4a7, tt);
  (R 0x4a9 0x4a9, tt);
  (R 0x4ab 0x4ab, tt);
  (R 0x4ad 0x4ad, tt);
  (R 0x4af 0x4af, tt);
  (R 0x4b1 0x4b1, tt);
  (R 0x4b3 0x4b3, tt);
  (R 0x4b5 0x4b5, tt);
  (R 0x4b7 0x4b7, tt);
  (R 0x4b9 0x4b9, tt);
  (R 0x4bb 0x4bb, tt);
  (R 0x4bd 0x4bd, tt);
  (R 0x4bf 0x4bf, tt);
  (R 0x4c2 0x4c2, tt);
  (R 0x4c4 0x4c4, tt);
  (R 0x4c6 0x4c6, tt);
  (R 0x4c8 0x4c8, tt);
  (R 0x4ca 0x4ca, tt);
  (R 0x4cc 0x4cc, tt);
  (R 0x4ce 0x4cf, tt);
  (R 0x4d1 0x4d1, tt);
  (R 0x4d3 0x4d3, tt);
  (R 0x4d5 0x4d5, tt);
  (R 0x4d7 0x4d7, tt);
  (R 0x4d9 0x4d9, tt);
  (R 0x4db 0x4db, tt);
  (R 0x4dd 0x4dd, tt);
  (R 0x4df 0x4df, tt);
  (R 0x4e1 0x4e1, tt);
  (R 0x4e3 0x4e3, tt);
  (R 0x4e5 0x4e5, tt);
  (R 0x4e7 0x4e7, tt);
  (R 0x4e9 0x4e9, tt);
  (R 0x4eb 0x4eb, tt);
  (R 0x4ed 0x4ed, tt);
  (R 0x4ef 0x4ef, tt);
  (R 0x4f1 0x4f1, tt);
  (R 0x4f3 0x4f3, tt);
  (R 0x4f5 0x4f5, tt);
  (R 0x4f7 0x4f7, tt);
  (R 0x4f9 0x4f9, tt);
  (R 0x4fb 0x4fb, tt);
  (R 0x4fd 0x4fd, tt);
  (R 0x4ff 0x4ff, tt);
  (R 0x501 0x501, tt);
  (R 0x503 0x503, tt);
  (R 0x505 0x505, tt);
  (R 0x507 0x507, tt);
  (R 0x509 0x509, tt);
  (R 0x50b 0x50b, tt);
  (R 0x50d 0x50d, tt);
  (R 0x50f 0x50f, tt);
  (R 0x511 0x511, tt);
  (R 0x513 0x513, tt);
  (R 0x515 0x515, tt);
  (R 0x517 0x517, tt);
  (R 0x519 0x519, tt);
  (R 0x51b 0x51b, tt);
  (R 0x51d 0x51d, tt);
  (R 0x51f 0x51f, tt);
  (R 0x521 0x521, tt);
  (R 0x523 0x523, tt);
  (R 0x525 0x525, tt);
  (R 0x527 0x527, tt);
  (R 0x529 0x529, tt);
  (R 0x52b 0x52b, tt);
  (R 0x52d 0x52d, tt);
  (R 0x52f 0x52f, tt);
  (R 0x561 0x587, tt);
  (R 0x13f8 0x13fd, tt);
  (R 0x1c80 0x1c88, tt);
  (R 0x1d79 0x1d79, tt);
  (R 0x1d7d 0x1d7d, tt);
  (R 0x1e01 0x1e01, tt);
  (R 0x1e03 0x1e03, tt);
  (R 0x1e05 0x1e05, tt);
  (R 0x1e07 0x1e07, tt);
  (R 0x1e09 0x1e09, tt);
  (R 0x1e0b 0x1e0b, tt);
  (R 0x1e0d 0x1e0d, tt);
  (R 0x1e0f 0x1e0f, tt);
  (R 0x1e11 0x1e11, tt);
  (R 0x1e13 0x1e13, tt);
  (R 0x1e15 0x1e15, tt);
  (R 0x1e17 0x1e17, tt);
  (R 0x1e19 0x1e19, tt);
  (R 0x1e1b 0x1e1b, tt);
  (R 0x1e1d 0x1e1d, tt);
  (R 0x1e1f 0x1e1f, tt);
  (R 0x1e21 0x1e21, tt);
  (R 0x1e23 0x1e23, tt);
  (R 0x1e25 0x1e25, tt);
  (R 0x1e27 0x1e27, tt);
  (R 0x1e29 0x1e29, tt);
  (R 0x1e2b 0x1e2b, tt);
  (R 0x1e2d 0x1e2d, tt);
  (R 0x1e2f 0x1e2f, tt);
  (R 0x1e31 0x1e31, tt);
  (R 0x1e33 0x1e33, tt);
  (R 0x1e35 0x1e35, tt);
  (R 0x1e37 0x1e37, tt);
  (R 0x1e39 0x1e39, tt);
  (R 0x1e3b 0x1e3b, tt);
  (R 0x1e3d 0x1e3d, tt);
  (R 0x1e3f 0x1e3f, tt);
  (R 0x1e41 0x1e41, tt);
  (R 0x1e43 0x1e43, tt);
  (R 0x1e45 0x1e45, tt);
  (R 0x1e47 0x1e47, tt);
  (R 0x1e49 0x1e49, tt);
  (R 0x1e4b 0x1e4b, tt);
  (R 0x1e4d 0x1e4d, tt);
  (R 0x1e4f 0x1e4f, tt);
  (R 0x1e51 0x1e51, tt);
  (R 0x1e53 0x1e53, tt);
  (R 0x1e55 0x1e55, tt);
  (R 0x1e57 0x1e57, tt);
  (R 0x1e59 0x1e59, tt);
  (R 0x1e5b 0x1e5b, tt);
  (R 0x1e5d 0x1e5d, tt);
  (R 0x1e5f 0x1e5f, tt);
  (R 0x1e61 0x1e61, tt);
  (R 0x1e63 0x1e63, tt);
  (R 0x1e65 0x1e65, tt);
  (R 0x1e67 0x1e67, tt);
  (R 0x1e69 0x1e69, tt);
  (R 0x1e6b 0x1e6b, tt);
  (R 0x1e6d 0x1e6d, tt);
  (R 0x1e6f 0x1e6f, tt);
  (R 0x1e71 0x1e71, tt);
  (R 0x1e73 0x1e73, tt);
  (R 0x1e75 0x1e75, tt);
  (R 0x1e77 0x1e77, tt);
  (R 0x1e79 0x1e79, tt);
  (R 0x1e7b 0x1e7b, tt);
  (R 0x1e7d 0x1e7d, tt);
  (R 0x1e7f 0x1e7f, tt);
  (R 0x1e81 0x1e81, tt);
  (R 0x1e83 0x1e83, tt);
  (R 0x1e85 0x1e85, tt);
  (R 0x1e87 0x1e87, tt);
  (R 0x1e89 0x1e89, tt);
  (R 0x1e8b 0x1e8b, tt);
  (R 0x1e8d 0x1e8d, tt);
  (R 0x1e8f 0x1e8f, tt);
  (R 0x1e91 0x1e91, tt);
  (R 0x1e93 0x1e93, tt);
  (R 0x1e95 0x1e9b, tt);
  (R 0x1ea1 0x1ea1, tt);
  (R 0x1ea3 0x1ea3, tt);
  (R 0x1ea5 0x1ea5, tt);
  (R 0x1ea7 0x1ea7, tt);
  (R 0x1ea9 0x1ea9, tt);
  (R 0x1eab 0x1eab, tt);
  (R 0x1ead 0x1ead, tt);
  (R 0x1eaf 0x1eaf, tt);
  (R 0x1eb1 0x1eb1, tt);
  (R 0x1eb3 0x1eb3, tt);
  (R 0x1eb5 0x1eb5, tt);
  (R 0x1eb7 0x1eb7, tt);
  (R 0x1eb9 0x1eb9, tt);
  (R 0x1ebb 0x1ebb, tt);
  (R 0x1ebd 0x1ebd, tt);
  (R 0x1ebf 0x1ebf, tt);
  (R 0x1ec1 0x1ec1, tt);
  (R 0x1ec3 0x1ec3, tt);
  (R 0x1ec5 0x1ec5, tt);
  (R 0x1ec7 0x1ec7, tt);
  (R 0x1ec9 0x1ec9, tt);
  (R 0x1ecb 0x1ecb, tt);
  (R 0x1ecd 0x1ecd, tt);
  (R 0x1ecf 0x1ecf, tt);
  (R 0x1ed1 0x1ed1, tt);
  (R 0x1ed3 0x1ed3, tt);
  (R 0x1ed5 0x1ed5, tt);
  (R 0x1ed7 0x1ed7, tt);
  (R 0x1ed9 0x1ed9, tt);
  (R 0x1edb 0x1edb, tt);
  (R 0x1edd 0x1edd, tt);
  (R 0x1edf 0x1edf, tt);
  (R 0x1ee1 0x1ee1, tt);
  (R 0x1ee3 0x1ee3, tt);
  (R 0x1ee5 0x1ee5, tt)].

Definition CHANGES_WHEN_TITLECASED_1 : list (CharRange * unit) := [
  (R 0x1ee7 0x1ee7, tt);
  (R 0x1ee9 0x1ee9, tt);
  (R 0x1eeb 0x1eeb, tt);
  (R 0x1eed 0x1eed, tt);
  (R 0x1eef 0x1eef, tt);
  (R 0x1ef1 0x1ef1, tt);
  (R 0x1ef3 0x1ef3, tt);
  (R 0x1ef5 0x1ef5, tt);
  (R 0x1ef7 0x1ef7, tt);
  (R 0x1ef9 0x1ef9, tt);
  (R 0x1efb 0x1efb, tt);
  (R 0x1efd 0x1efd, tt);
  (R 0x1eff 0x1f07, tt);
  (R 0x1f10 0x1f15, tt);
  (R 0x1f20 0x1f27, tt);
  (R 0x1f30 0x1f37, tt);
  (R 0x1f40 0x1f45, tt);
  (R 0x1f50 0x1f57, tt);
  (R 0x1f60 0x1f67, tt);
  (R 0x1f70 0x1f7d, tt);
  (R 0x1f80 0x1f87, tt);
  (R 0x1f90 0x1f97, tt);
  (R 0x1fa0 0x1fa7, tt);
  (R 0x1fb0 0x1fb4, tt);
  (R 0x1fb6 0x1fb7, tt);
  (R 0x1fbe 0x1fbe, tt);
  (R 0x1fc2 0x1fc4, tt);
  (R 0x1fc6 0x1fc7, tt);
  (R 0x1fd0 0x1fd3, tt);
  (R 0x1fd6 0x1fd7, tt);
  (R 0x1fe0 0x1fe7, tt);
  (R 0x1ff2 0x1ff4, tt);
  (R 0x1ff6 0x1ff7, tt);
  (R 0x214e 0x214e, tt);
  (R 0x2170 0x217f, tt);
  (R 0x2184 0x2184, tt);
  (R 0x24d0 0x24e9, tt);
  (R 0x2c30 0x2c5e, tt);
  (R 0x2c61 0x2c61, tt);
  (R 0x2c65 0x2c66, tt);
  (R 0x2c68 0x2c68, tt);
  (R 0x2c6a 0x2c6a, tt);
  (R 0x2c6c 0x2c6c, tt);
  (R 0x2c73 0x2c73, tt);
  (R 0x2c76 0x2c76, tt);
  (R 0x2c81 0x2c81, tt);
  (R 0x2c83 0x2c83, tt);
  (R 0x2c85 0x2c85, tt);
  (R 0x2c87 0x2c87, tt);
  (R 0x2c89 0x2c89, tt);
  (R 0x2c8b 0x2c8b, tt);
  (R 0x2c8d 0x2c8d, tt);
  (R 0x2c8f 0x2c8f, tt);
  (R 0x2c91 0x2c91, tt);
  (R 0x2c93 0x2c93, tt);
  (R 0x2c95 0x2c95, tt);
  (R 0x2c97 0x2c97, tt);
  (R 0x2c99 0x2c99, tt);
  (R 0x2c9b 0x2c9b, tt);
  (R 0x2c9d 0x2c9d, tt);
  (R 0x2c9f 0x2c9f, tt);
  (R 0x2ca1 0x2ca1, tt);
  (R 0x2ca3 0x2ca3, tt);
  (R 0x2ca5 0x2ca5, tt);
  (R 0x2ca7 0x2ca7, tt);
  (R 0x2ca9 0x2ca9, tt);
  (R 0x2cab 0x2cab, tt);
  (R 0x2cad 0x2cad, tt);
  (R 0x2caf 0x2caf, tt);
  (R 0x2cb1 0x2cb1, tt);
  (R 0x2cb3 0x2cb3, tt);
  (R 0x2cb5 0x2cb5, tt);
  (R 0x2cb7 0x2cb7, tt);
  (R 0x2cb9 0x2cb9, tt);
  (R 0x2cbb 0x2cbb, tt);
  (R 0x2cbd 0x2cbd, tt);
  (R 0x2cbf 0x2cbf, tt);
  (R 0x2cc1 0x2cc1, tt);
  (R 0x2cc3 0x2cc3, tt);
  (R 0x2cc5 0x2cc5, tt);
  (R 0x2cc7 0x2cc7, tt);
  (R 0x2cc9 0x2cc9, tt);
  (R 0x2ccb 0x2ccb, tt);
  (R 0x2ccd 0x2ccd, tt);
  (R 0x2ccf 0x2ccf, tt);
  (R 0x2cd1 0x2cd1, tt);
  (R 0x2cd3 0x2cd3, tt);
  (R 0x2cd5 0x2cd5, tt);
  (R 0x2cd7 0x2cd7, tt);
  (R 0x2cd9 0x2cd9, tt);
  (R 0x2cdb 0x2cdb, tt);
  (R 0x2cdd 0x2cdd, tt);
  (R 0x2cdf 0x2cdf, tt);
  (R 0x2ce1 0x2ce1, tt);
  (R 0x2ce3 0x2ce3, tt);
  (R 0x2cec 0x2cec, tt);
  (R 0x2cee 0x2cee, tt);
  (R 0x2cf3 0x2cf3, tt);
  (R 0x2d00 0x2d25, tt);
  (R 0x2d27 0x2d27, tt);
  (R 0x2d2d 0x2d2d, tt);
  (R 0xa641 0xa641, tt);
  (R 0xa643 0xa643, tt);
  (R 0xa645 0xa645, tt);
  (R 0xa647 0xa647, tt);
  (R 0xa649 0xa649, tt);
  (R 0xa64b 0xa64b, tt);
  (R 0xa64d 0xa64d, tt);
  (R 0xa64f 0xa64f, tt);
  (R 0xa651 0xa651, tt);
  (R 0xa653 0xa653, tt);
  (R 0xa655 0xa655, tt);
  (R 0xa657 0xa657, tt);
  (R 0xa659 0xa659, tt);
  (R 0xa65b 0xa65b, tt);
  (R 0xa65d 0xa65d, tt);
  (R 0xa65f 0xa65f, tt);
  (R 0xa661 0xa661, tt);
  (R 0xa663 0xa663, tt);
  (R 0xa665 0xa665, tt);
  (R 0xa667 0xa667, tt);
  (R 0xa669 0xa669, tt);
  (R 0xa66b 0xa66b, tt);
  (R 0xa66d 0xa66d, tt);
  (R 0xa681 0xa681, tt);
  (R 0xa683 0xa683, tt);
  (R 0xa685 0xa685, tt);
  (R 0xa687 0xa687, tt);
  (R 0xa689 0xa689, tt);
  (R 0xa68b 0xa68b, tt);
  (R 0xa68d 0xa68d, tt);
  (R 0xa68f 0xa68f, tt);
  (R 0xa691 0xa691, tt);
  (R 0xa693 0xa693, tt);
  (R 0xa695 0xa695, tt);
  (R 0xa697 0xa697, tt);
  (R 0xa699 0xa699, tt);
  (R 0xa69b 0xa69b, tt);
  (R 0xa723 0xa723, tt);
  (R 0xa725 0xa725, tt);
  (R 0xa727 0xa727, tt);
  (R 0xa729 0xa729, tt);
  (R 0xa72b 0xa72b, tt);
  (R 0xa72d 0xa72d, tt);
  (R 0xa72f 0xa72f, tt);
  (R 0xa733 0xa733, tt);
  (R 0xa735 0xa735, tt);
  (R 0xa737 0xa737, tt);
  (R 0xa739 0xa739, tt);
  (R 0xa73b 0xa73b, tt);
  (R 0xa73d 0xa73d, tt);
  (R 0xa73f 0xa73f, tt);
  (R 0xa741 0xa741, tt);
  (R 0xa743 0xa743, tt);
  (R 0xa745 0xa745, tt);
  (R 0xa747 0xa747, tt);
  (R 0xa749 0xa749, tt);
  (R 0xa74b 0xa74b, tt);
  (R 0xa74d 0xa74d, tt);
  (R 0xa74f 0xa74f, tt);
  (R 0xa751 0xa751, tt);
  (R 0xa753 0xa753, tt);
  (R 0xa755 0xa755, tt);
  (R 0xa757 0xa757, tt);
  (R 0xa759 0xa759, tt);
  (R 0xa75b 0xa75b, tt);
  (R 0xa75d 0xa75d, tt);
  (R 0xa75f 0xa75f, tt);
  (R 0xa761 0xa761, tt);
  (R 0xa763 0xa763, tt);
  (R 0xa765 0xa765, tt);
  (R 0xa767 0xa767, tt);
  (R 0xa769 0xa769, tt);
  (R 0xa76b 0xa76b, tt);
  (R 0xa76d 0xa76d, tt);
  (R 0xa76f 0xa76f, tt);
  (R 0xa77a 0xa77a, tt);
  (R 0xa77c 0xa77c, tt);
  (R 0xa77f 0xa77f, tt);
  (R 0xa781 0xa781, tt);
  (R 0xa783 0xa783, tt);
  (R 0xa785 0xa785, tt);
  (R 0xa787 0xa787, tt);
  (R 0xa78c 0xa78c, tt);
  (R 0xa791 0xa791, tt);
  (R 0xa793 0xa793, tt);
  (R 0xa797 0xa797, tt);
  (R 0xa799 0xa799, tt);
  (R 0xa79b 0xa79b, tt);
  (R 0xa79d 0xa79d, tt);
  (R 0xa79f 0xa79f, tt);
  (R 0xa7a1 0xa7a1, tt);
  (R 0xa7a3 0xa7a3, tt);
  (R 0xa7a5 0xa7a5, tt);
  (R 0xa7a7 0xa7a7, tt);
  (R 0xa7a9 0xa7a9, tt);
  (R 0xa7b5 0xa7b5, tt);
  (R 0xa7b7 0xa7b7, tt);
  (R 0xab53 0xab53, tt);
  (R 0xab70 0xabbf, tt);
  (R 0xfb00 0xfb06, tt);
  (R 0xfb13 0xfb17, tt);
  (R 0xff41 0xff5a, tt);
  (R 0x10428 0x1044f, tt);
  (R 0x104d8 0x104fb, tt);
  (R 0x10cc0 0x10cf2, tt);
  (R 0x118c0 0x118df, tt);
  (R 0x1e922 0x1e943, tt)].

Definition CHANGES_WHEN_TITLECASED : CharDataTable unit :=
  Range (CHANGES_WHEN_TITLECASED_0 ++ CHANGES_WHEN_TITLECASED_1).

(** unic/ucd/case/tables/changes_when_uppercased.rsv:1-611 (607 entries) *)
Definition CHANGES_WHEN_UPPERCASED_0 : list (CharRange * unit) := [
  (R 0x61 0x7a, tt);
  (R 0xb5 0xb5, tt);
  (R 0xdf 0xf6, tt);
  (R 0xf8 0xff, tt);
  (R 0x101 0x101, tt);
  (R 0x103 0x103, tt);
  (R 0x105 0x105, tt);
  (R 0x107 0x107, tt);
  (R 0x109 0x109, tt);
  (R 0x10b 0x10b, tt);
  (R 0x10d 0x10d, tt);
  (R 0x10f 0x10f, tt);
  (R 0x111 0x111, tt);
  (R 0x113 0x113, tt);
  (R 0x115 0x115, tt);
  (R 0x117 0x117, tt);
  (R 0x119 0x119, tt);
  (R 0x11b 0x11b, tt);
  (R 0x11d 0x11d, tt);
  (R 0x11f 0x11f, tt);
  (R 0x121 0x121, tt);
  (R 0x123 0x123, tt);
  (R 0x125 0x125, tt);
  (R 0x127 0x127, tt);
  (R 0x129 0x129, tt);
  (R 0x12b 0x12b, tt);
  (R 0x12d 0x12d, tt);
  (R 0x12f 0x12f, tt);
  (R 0x131 0x131, tt);
  (R 0x133 0x133, tt);
  (R 0x135 0x135, tt);
  (R 0x137 0x137, tt);
  (R 0x13a 0x13a, tt);
  (R 0x13c 0x13c, tt);
  (R 0x13e 0x13e, tt);
  (R 0x140 0x140, tt);
  (R 0x142 0x142, tt);
  (R 0x144 0x144, tt);
  (R 0x146 0x146, tt);
  (R 0x148 0x149, tt);
  (R 0x14b 0x14b, tt);
  (R 0x14d 0x14d, tt);
  (R 0x14f 0x14f, tt);
  (R 0x151 0x151, tt);
  (R 0x153 0x153, tt);
  (R 0x155 0x155, tt);
  (R 0x157 0x157, tt);
  (R 0x159 0x159, tt);
  (R 0x15b 0x15b, tt);
  (R 0x15d 0x15d, tt);
  (R 0x15f 0x15f, tt);
  (R 0x161 0x161, tt);
  (R 0x163 0x163, tt);
  (R 0x165 0x165, tt);
  (R 0x167 0x167, tt);
  (R 0x169 0x169, tt);
  (R 0x16b 0x16b, tt);
  (R 0x16d 0x16d, tt);
  (R 0x16f 0x16f, tt);
  (R 0x171 0x171, tt);
  (R 0x173 0x173, tt);
  (R 0x175 0x175, tt);
  (R 0x177 0x177, tt);
  (R 0x17a 0x17a, tt);
  (R 0x17c 0x17c, tt);
  (R 0x17e 0x180, tt);
  (R 0x183 0x183, tt);
  (R 0x185 0x185, tt);
  (R 0x188 0x188, tt);
  (R 0x18c 0x18c, tt);
  (R 0x192 0x192, tt);
  (R 0x195 0x195, tt);
  (R 0x199 0x19a, tt);
  (R 0x19e 0x19e, tt);
  (R 0x1a1 0x1a1, tt);
  (R 0x1a3 0x1a3, tt);
  (R 0x1a5 0x1a5, tt);
  (R 0x1a8 0x1a8, tt);
  (R 0x1ad 0x1ad, tt);
  (R 0x1b0 0x1b0, tt);
  (R 0x1b4 0x1b4, tt);
  (R 0x1b6 0x1b6, tt);
  (R 0x1b9 0x1b9, tt);
  (R 0x1bd 0x1bd, tt);
  (R 0x1bf 0x1bf, tt);
  (R 0x1c5 0x1c6, tt);
  (R 0x1c8 0x1c9, tt);
  (R 0x1cb 0x1cc, tt);
  (R 0x1ce 0x1ce, tt);
  (R 0x1d0 0x1d0, tt);
  (R 0x1d2 0x1d2, tt);
  (R 0x1d4 0x1d4, tt);
  (R 0x1d6 0x1d6, tt);
  (R 0x1d8 0x1d8, tt);
  (R 0x1da 0x1da, tt);
  (R 0x1dc 0x1dd, tt);
  (R 0x1df 0x1df, tt);
  (R 0x1e1 0x1e1, tt);
  (R 0x1e3 0x1e3, tt);
  (R 0x1e5 0x1e5, tt);
  (R 0x1e7 0x1e7, tt);
  (R 0x1e9 0x1e9, tt);
  (R 0x1eb 0x1eb, tt);
  (R 0x1ed 0x1ed, tt);
  (R 0x1ef 0x1f0, tt);
  (R 0x1f2 0x1f3, tt);
  (R 0x1f5 0x1f5, tt);
  (R 0x1f9 0x1f9, tt);
  (R 0x1fb 0x1fb, tt);
  (R 0x1fd 0x1fd, tt);
  (R 0x1ff 0x1ff, tt);
  (R 0x201 0x201, tt);
  (R 0x203 0x203, tt);
  (R 0x205 0x205, tt);
  (R 0x207 0x207, tt);
  (R 0x209 0x209, tt);
  (R 0x20b 0x20b, tt);
  (R 0x20d 0x20d, tt);
  (R 0x20f 0x20f, tt);
  (R 0x211 0x211, tt);
  (R 0x213 0x213, tt);
  (R 0x215 0x215, tt);
  (R 0x217 0x217, tt);
  (R 0x219 0x219, tt);
  (R 0x21b 0x21b, tt);
  (R 0x21d 0x21d, tt);
  (R 0x21f 0x21f, tt);
  (R 0x223 0x223, tt);
  (R 0x225 0x225, tt);
  (R 0x227 0x227, tt);
  (R 0x229 0x229, tt);
  (R 0x22b 0x22b, tt);
  (R 0x22d 0x22d, tt);
  (R 0x22f 0x22f, tt);
  (R 0x231 0x231, tt);
  (R 0x233 0x233, tt);
  (R 0x23c 0x23c, tt);
  (R 0x23f 0x240, tt);
  (R 0x242 0x242, tt);
  (R 0x247 0x247, tt);
  (R 0x249 0x249, tt);
  (R 0x24b 0x24b, tt);
  (R 0x24d 0x24d, tt);
  (R 0x24f 0x254, tt);
  (R 0x256 0x257, tt);
  (R 0x259 0x259, tt);
  (R 0x25b 0x25c, tt);
  (R 0x260 0x261, tt);
  (R 0x263 0x263, tt);
  (R 0x265 0x266, tt);
  (R 0x268 0x26c, tt);
  (R 0x26f 0x26f, tt);
  (R 0x271 0x272, tt);
  (R 0x275 0x275, tt);
  (R 0x27d 0x27d, tt);
  (R 0x280 0x280, tt);
  (R 0x283 0x283, tt);
  (R 0x287 0x28c, tt);
  (R 0x292 0x292, tt);
  (R 0x29d 0x29e, tt);
  (R 0x345 0x345, tt);
  (R 0x371 0x371, tt);
  (R 0x373 0x373, tt);
  (R 0x377 0x377, tt);
  (R 0x37b 0x37d, tt);
  (R 0x390 0x390, tt);
  (R 0x3ac 0x3ce, tt);
  (R 0x3d0 0x3d1, tt);
  (R 0x3d5 0x3d7, tt);
  (R 0x3d9 0x3d9, tt);
  (R 0x3db 0x3db, tt);
  (R 0x3dd 0x3dd, tt);
  (R 0x3df 0x3df, tt);
  (R 0x3e1 0x3e1, tt);
  (R 0x3e3 0x3e3, tt);
  (R 0x3e5 0x3e5, tt);
  (R 0x3e7 0x3e7, tt);
  (R 0x3e9 0x3e9, tt);
  (R 0x3eb 0x3eb, tt);
  (R 0x3ed 0x3ed, tt);
  (R 0x3ef 0x3f3, tt);
  (R 0x3f5 0x3f5, tt);
  (R 0x3f8 0x3f8, tt);
  (R 0x3fb 0x3fb, tt);
  (R 0x430 0x45f, tt);
  (R 0x461 0x461, tt);
  (R 0x463 0x463, tt);
  (R 0x465 0x465, tt);
  (R 0x467 0x467, tt);
  (R 0x469 0x469, tt);
  (R 0x46b 0x46b, tt);
  (R 0x46d 0x46d, tt);
  (R 0x46f 0x46f, tt);
  (R 0x471 0x471, tt);
  (R 0x473 0x473, tt);
  (R 0x475 0x475, tt);
  (R 0x477 0x477, tt);
  (R 0x479 0x479, tt);
  (R 0x47b 0x47b, tt);
  (R 0x47d 0x47d, tt);
  (R 0x47f 0x47f, tt);
  (R 0x481 0x481, tt);
  (R 0x48b 0x48b, tt);
  (R 0x48d 0x48d, tt);
  (R 0x48f 0x48f, tt);
  (R 0x491 0x491, tt);
  (R 0x493 0x493, tt);
  (R 0x495 0x495, tt);
  (R 0x497 0x497, tt);
  (R 0x499 0x499, tt);
  (R 0x49b 0x49b, tt);
  (R 0x49d 0x49d, tt);
  (R 0x49f 0x49f, tt);
  (R 0x4a1 0x4a1, tt);
  (R 0x4a3 0x4a3, tt);
  (R 0x4a5 0x4a5, tt);
  (R 0x4a7 0x4a7, tt);
  (R 0x4a9 0x4a9, tt);
  (R 0x4ab 0x4ab, tt);
  (R 0x4ad 0x4ad, tt);
  (R 0x4af 0x4af, tt);
  (R 0x4b1 0x4b1, tt);
  (R 0x4b3 0x4b3, tt);
  (R 0x4b5 0x4b5, tt);
  (R 0x4b7 0x4b7, tt);
  (R 0x4b9 0x4b9, tt);
  (R 0x4bb 0x4bb, tt);
  (R 0x4bd 0x4bd, tt);
  (R 0x4bf 0x4bf, tt);
  (R 0x4c2 0x4c2, tt);
  (R 0x4c4 0x4c4, tt);
  (R 0x4c6 0x4c6, tt);
  (R 0x4c8 0x4c8, tt);
  (R 0x4ca 0x4ca, tt);
  (R 0x4cc 0x4cc, tt);
  (R 0x4ce 0x4cf, tt);
  (R 0x4d1 0x4d1, tt);
  (R 0x4d3 0x4d3, tt);
  (R 0x4d5 0x4d5, tt);
  (R 0x4d7 0x4d7, tt);
  (R 0x4d9 0x4d9, tt);
  (R 0x4db 0x4db, tt);
  (R 0x4dd 0x4dd, tt);
  (R 0x4df 0x4df, tt);
  (R 0x4e1 0x4e1, tt);
  (R 0x4e3 0x4e3, tt);
  (R 0x4e5 0x4e5, tt);
  (R 0x4e7 0x4e7, tt);
  (R 0x4e9 0x4e9, tt);
  (R 0x4eb 0x4eb, tt);
  (R 0x4ed 0x4ed, tt);
  (R 0x4ef 0x4ef, tt);
  (R 0x4f1 0x4f1, tt);
  (R 0x4f3 0x4f3, tt);
  (R 0x4f5 0x4f5, tt);
  (R 0x4f7 0x4f7, tt);
  (R 0x4f9 0x4f9, tt);
  (R 0x4fb 0x4fb, tt);
  (R 0x4fd 0x4fd, tt);
  (R 0x4ff 0x4ff, tt);
  (R 0x501 0x501, tt);
  (R 0x503 0x503, tt);
  (R 0x505 0x505, tt);
  (R 0x507 0x507, tt);
  (R 0x509 0x509, tt);
  (R 0x50b 0x50b, tt);
  (R 0x50d 0x50d, tt);
  (R 0x50f 0x50f, tt);
  (R 0x511 0x511, tt);
  (R 0x513 0x513, tt);
  (R 0x515 0x515, tt);
  (R 0x517 0x517, tt);
  (R 0x519 0x519, tt);
  (R 0x51b 0x51b, tt);
  (R 0x51d 0x51d, tt);
  (R 0x51f 0x51f, tt);
  (R 0x521 0x521, tt);
  (R 0x523 0x523, tt);
  (R 0x525 0x525, tt);
  (R 0x527 0x527, tt);
  (R 0x529 0x529, tt);
  (R 0x52b 0x52b, tt);
  (R 0x52d 0x52d, tt);
  (R 0x52f 0x52f, tt);
  (R 0x561 0x587, tt);
  (R 0x13f8 0x13fd, tt);
  (R 0x1c80 0x1c88, tt);
  (R 0x1d79 0x1d79, tt);
  (R 0x1d7d 0x1d7d, tt);
  (R 0x1e01 0x1e01, tt);
  (R 0x1e03 0x1e03, tt);
  (R 0x1e05 0x1e05, tt);
  (R 0x1e07 0x1e07, tt);
  (R 0x1e09 0x1e09, tt);
  (R 0x1e0b 0x1e0b, tt);
  (R 0x1e0d 0x1e0d, tt);
  (R 0x1e0f 0x1e0f, tt);
  (R 0x1e11 0x1e11, tt);
  (R 0x1e13 0x1e13, tt);
  (R 0x1e15 0x1e15, tt);
  (R 0x1e17 0x1e17, tt);
  (R 0x1e19 0x1e19, tt);
  (R 0x1e1b 0x1e1b, tt);
  (R 0x1e1d 0x1e1d, tt);
  (R 0x1e1f 0x1e1f, tt);
  (R 0x1e21 0x1e21, tt);
  (R 0x1e23 0x1e23, tt);
  (R 0x1e25 0x1e25, tt);
  (R 0x1e27 0x1e27, tt);
  (R 0x1e29 0x1e29, tt);
  (R 0x1e2b 0x1e2b, tt);
  (R 0x1e2d 0x1e2d, tt);
  (R 0x1e2f 0x1e2f, tt);
  (R 0x1e31 0x1e31, tt);
  (R 0x1e33 0x1e33, tt);
  (R 0x1e35 0x1e35, tt);
  (R 0x1e37 0x1e37, tt);
  (R 0x1e39 0x1e39, tt);
  (R 0x1e3b 0x1e3b, tt);
  (R 0x1e3d 0x1e3d, tt);
  (R 0x1e3f 0x1e3f, tt);
  (R 0x1e41 0x1e41, tt);
  (R 0x1e43 0x1e43, tt);
  (R 0x1e45 0x1e45, tt);
  (R 0x1e47 0x1e47, tt);
  (R 0x1e49 0x1e49, tt);
  (R 0x1e4b 0x1e4b, tt);
  (R 0x1e4d 0x1e4d, tt);
  (R 0x1e4f 0x1e4f, tt);
  (R 0x1e51 0x1e51, tt);
  (R 0x1e53 0x1e53, tt);
  (R 0x1e55 0x1e55, tt);
  (R 0x1e57 0x1e57, tt);
  (R 0x1e59 0x1e59, tt);
  (R 0x1e5b 0x1e5b, tt);
  (R 0x1e5d 0x1e5d, tt);
  (R 0x1e5f 0x1e5f, tt);
  (R 0x1e61 0x1e61, tt);
  (R 0x1e63 0x1e63, tt);
  (R 0x1e65 0x1e65, tt);
  (R 0x1e67 0x1e67, tt);
  (R 0x1e69 0x1e69, tt);
  (R 0x1e6b 0x1e6b, tt);
  (R 0x1e6d 0x1e6d, tt);
  (R 0x1e6f 0x1e6f, tt);
  (R 0x1e71 0x1e71, tt);
  (R 0x1e73 0x1e73, tt);
  (R 0x1e75 0x1e75, tt);
  (R 0x1e77 0x1e77, tt);
  (R 0x1e79 0x1e79, tt);
  (R 0x1e7b 0x1e7b, tt);
  (R 0x1e7d 0x1e7d, tt);
  (R 0x1e7f 0x1e7f, tt);
  (R 0x1e81 0x1e81, tt);
  (R 0x1e83 0x1e83, tt);
  (R 0x1e85 0x1e85, tt);
  (R 0x1e87 0x1e87, tt);
  (R 0x1e89 0x1e89, tt);
  (R 0x1e8b 0x1e8b, tt);
  (R 0x1e8d 0x1e8d, tt);
  (R 0x1e8f 0x1e8f, tt);
  (R 0x1e91 0x1e91, tt);
  (R 0x1e93 0x1e93, tt);
  (R 0x1e95 0x1e9b, tt);
  (R 0x1ea1 0x1ea1, tt);
  (R 0x1ea3 0x1ea3, tt);
  (R 0x1ea5 0x1ea5, tt);
  (R 0x1ea7 0x1ea7, tt);
  (R 0x1ea9 0x1ea9, tt);
  (R 0x1eab 0x1eab, tt);
  (R 0x1ead 0x1ead, tt);
  (R 0x1eaf 0x1eaf, tt);
  (R 0x1eb1 0x1eb1, tt);
  (R 0x1eb3 0x1eb3, tt);
  (R 0x1eb5 0x1eb5, tt);
  (R 0x1eb7 0x1eb7, tt);
  (R 0x1eb9 0x1eb9, tt);
  (R 0x1ebb 0x1ebb, tt);
  (R 0x1ebd 0x1ebd, tt);
  (R 0x1ebf 0x1ebf, tt);
  (R 0x1ec1 0x1ec1, tt);
  (R 0x1ec3 0x1ec3, tt);
  (R 0x1ec5 0x1ec5, tt);
  (R 0x1ec7 0x1ec7, tt);
  (R 0x1ec9 0x1ec9, tt);
  (R 0x1ecb 0x1ecb, tt);
  (R 0x1ecd 0x1ecd, tt);
  (R 0x1ecf 0x1ecf, tt);
  (R 0x1ed1 0x1ed1, tt);
  (R 0x1ed3 0x1ed3, tt);
  (R 0x1ed5 0x1ed5, tt);
  (R 0x1ed7 0x1ed7, tt);
  (R 0x1ed9 0x1ed9, tt);
  (R 0x1edb 0x1edb, tt);
  (R 0x1edd 0x1edd, tt);
  (R 0x1edf 0x1edf, tt);
  (R 0x1ee1 0x1ee1, tt);
  (R 0x1ee3 0x1ee3, tt);
  (R 0x1ee5 0x1ee5, tt);
  (R 0x1ee7 0x1ee7, tt)].

Definition CHANGES_WHEN_UPPERCASED_1 : list (CharRange * unit) := [
  (R 0x1ee9 0x1ee9, tt);
  (R 0x1eeb 0x1eeb, tt);
  (R 0x1eed 0x1eed, tt);
  (R 0x1eef 0x1eef, tt);
  (R 0x1ef1 0x1ef1, tt);
  (R 0x1ef3 0x1ef3, tt);
  (R 0x1ef5 0x1ef5, tt);
  (R 0x1ef7 0x1ef7, tt);
  (R 0x1ef9 0x1ef9, tt);
  (R 0x1efb 0x1efb, tt);
  (R 0x1efd 0x1efd, tt);
  (R 0x1eff 0x1f07, tt);
  (R 0x1f10 0x1f15, tt);
  (R 0x1f20 0x1f27, tt);
  (R 0x1f30 0x1f37, tt);
  (R 0x1f40 0x1f45, tt);
  (R 0x1f50 0x1f57, tt);
  (R 0x1f60 0x1f67, tt);
  (R 0x1f70 0x1f7d, tt);
  (R 0x1f80 0x1fb4, tt);
  (R 0x1fb6 0x1fb7, tt);
  (R 0x1fbc 0x1fbc, tt);
  (R 0x1fbe 0x1fbe, tt);
  (R 0x1fc2 0x1fc4, tt);
  (R 0x1fc6 0x1fc7, tt);
  (R 0x1fcc 0x1fcc, tt);
  (R 0x1fd0 0x1fd3, tt);
  (R 0x1fd6 0x1fd7, tt);
  (R 0x1fe0 0x1fe7, tt);
  (R 0x1ff2 0x1ff4, tt);
  (R 0x1ff6 0x1ff7, tt);
  (R 0x1ffc 0x1ffc, tt);
  (R 0x214e 0x214e, tt);
  (R 0x2170 0x217f, tt);
  (R 0x2184 0x2184, tt);
  (R 0x24d0 0x24e9, tt);
  (R 0x2c30 0x2c5e, tt);
  (R 0x2c61 0x2c61, tt);
  (R 0x2c65 0x2c66, tt);
  (R 0x2c68 0x2c68, tt);
  (R 0x2c6a 0x2c6a, tt);
  (R 0x2c6c 0x2c6c, tt);
  (R 0x2c73 0x2c73, tt);
  (R 0x2c76 0x2c76, tt);
  (R 0x2c81 0x2c81, tt);
  (R 0x2c83 0x2c83, tt);
  (R 0x2c85 0x2c85, tt);
  (R 0x2c87 0x2c87, tt);
  (R 0x2c89 0x2c89, tt);
  (R 0x2c8b 0x2c8b, tt);
  (R 0x2c8d 0x2c8d, tt);
  (R 0x2c8f 0x2c8f, tt);
  (R 0x2c91 0x2c91, tt);
  (R 0x2c93 0x2c93, tt);
  (R 0x2c95 0x2c95, tt);
  (R 0x2c97 0x2c97, tt);
  (R 0x2c99 0x2c99, tt);
  (R 0x2c9b 0x2c9b, tt);
  (R 0x2c9d 0x2c9d, tt);
  (R 0x2c9f 0x2c9f, tt);
  (R 0x2ca1 0x2ca1, tt);
  (R 0x2ca3 0x2ca3, tt);
  (R 0x2ca5 0x2ca5, tt);
  (R 0x2ca7 0x2ca7, tt);
  (R 0x2ca9 0x2ca9, tt);
  (R 0x2cab 0x2cab, tt);
  (R 0x2cad 0x2cad, tt);
  (R 0x2caf 0x2caf, tt);
  (R 0x2cb1 0x2cb1, tt);
  (R 0x2cb3 0x2cb3, tt);
  (R 0x2cb5 0x2cb5, tt);
  (R 0x2cb7 0x2cb7, tt);
  (R 0x2cb9 0x2cb9, tt);
  (R 0x2cbb 0x2cbb, tt);
  (R 0x2cbd 0x2cbd, tt);
  (R 0x2cbf 0x2cbf, tt);
  (R 0x2cc1 0x2cc1, tt);
  (R 0x2cc3 0x2cc3, tt);
  (R 0x2cc5 0x2cc5, tt);
  (R 0x2cc7 0x2cc7, tt);
  (R 0x2cc9 0x2cc9, tt);
  (R 0x2ccb 0x2ccb, tt);
  (R 0x2ccd 0x2ccd, tt);
  (R 0x2ccf 0x2ccf, tt);
  (R 0x2cd1 0x2cd1, tt);
  (R 0x2cd3 0x2cd3, tt);
  (R 0x2cd5 0x2cd5, tt);
  (R 0x2cd7 0x2cd7, tt);
  (R 0x2cd9 0x2cd9, tt);
  (R 0x2cdb 0x2cdb, tt);
  (R 0x2cdd 0x2cdd, tt);
  (R 0x2cdf 0x2cdf, tt);
  (R 0x2ce1 0x2ce1, tt);
  (R 0x2ce3 0x2ce3, tt);
  (R 0x2cec 0x2cec, tt);
  (R 0x2cee 0x2cee, tt);
  (R 0x2cf3 0x2cf3, tt);
  (R 0x2d00 0x2d25, tt);
  (R 0x2d27 0x2d27, tt);
  (R 0x2d2d 0x2d2d, tt);
  (R 0xa641 0xa641, tt);
  (R 0xa643 0xa643, tt);
  (R 0xa645 0xa645, tt);
  (R 0xa647 0xa647, tt);
  (R 0xa649 0xa649, tt);
  (R 0xa64b 0xa64b, tt);
  (R 0xa64d 0xa64d, tt);
  (R 0xa64f 0xa64f, tt);
  (R 0xa651 0xa651, tt);
  (R 0xa653 0xa653, tt);
  (R 0xa655 0xa655, tt);
  (R 0xa657 0xa657, tt);
  (R 0xa659 0xa659, tt);
  (R 0xa65b 0xa65b, tt);
  (R 0xa65d 0xa65d, tt);
  (R 0xa65f 0xa65f, tt);
  (R 0xa661 0xa661, tt);
  (R 0xa663 0xa663, tt);
  (R 0xa665 0xa665, tt);
  (R 0xa667 0xa667, tt);
  (R 0xa669 0xa669, tt);
  (R 0xa66b 0xa66b, tt);
  (R 0xa66d 0xa66d, tt);
  (R 0xa681 0xa681, tt);
  (R 0xa683 0xa683, tt);
  (R 0xa685 0xa685, tt);
  (R 0xa687 0xa687, tt);
  (R 0xa689 0xa689, tt);
  (R 0xa68b 0xa68b, tt);
  (R 0xa68d 0xa68d, tt);
  (R 0xa68f 0xa68f, tt);
  (R 0xa691 0xa691, tt);
  (R 0xa693 0xa693, tt);
  (R 0xa695 0xa695, tt);
  (R 0xa697 0xa697, tt);
  (R 0xa699 0xa699, tt);
  (R 0xa69b 0xa69b, tt);
  (R 0xa723 0xa723, tt);
  (R 0xa725 0xa725, tt);
  (R 0xa727 0xa727, tt);
  (R 0xa729 0xa729, tt);
  (R 0xa72b 0xa72b, tt);
  (R 0xa72d 0xa72d, tt);
  (R 0xa72f 0xa72f, tt);
  (R 0xa733 0xa733, tt);
  (R 0xa735 0xa735, tt);
  (R 0xa737 0xa737, tt);
  (R 0xa739 0xa739, tt);
  (R 0xa73b 0xa73b, tt);
  (R 0xa73d 0xa73d, tt);
  (R 0xa73f 0xa73f, tt);
  (R 0xa741 0xa741, tt);
  (R 0xa743 0xa743, tt);
  (R 0xa745 0xa745, tt);
  (R 0xa747 0xa747, tt);
  (R 0xa749 0xa749, tt);
  (R 0xa74b 0xa74b, tt);
  (R 0xa74d 0xa74d, tt);
  (R 0xa74f 0xa74f, tt);
  (R 0xa751 0xa751, tt);
  (R 0xa753 0xa753, tt);
  (R 0xa755 0xa755, tt);
  (R 0xa757 0xa757, tt);
  (R 0xa759 0xa759, tt);
  (R 0xa75b 0xa75b, tt);
  (R 0xa75d 0xa75d, tt);
  (R 0xa75f 0xa75f, tt);
  (R 0xa761 0xa761, tt);
  (R 0xa763 0xa763, tt);
  (R 0xa765 0xa765, tt);
  (R 0xa767 0xa767, tt);
  (R 0xa769 0xa769, tt);
  (R 0xa76b 0xa76b, tt);
  (R 0xa76d 0xa76d, tt);
  (R 0xa76f 0xa76f, tt);
  (R 0xa77a 0xa77a, tt);
  (R 0xa77c 0xa77c, tt);
  (R 0xa77f 0xa77f, tt);
  (R 0xa781 0xa781, tt);
  (R 0xa783 0xa783, tt);
  (R 0xa785 0xa785, tt);
  (R 0xa787 0xa787, tt);
  (R 0xa78c 0xa78c, tt);
  (R 0xa791 0xa791, tt);
  (R 0xa793 0xa793, tt);
  (R 0xa797 0xa797, tt);
  (R 0xa799 0xa799, tt);
  (R 0xa79b 0xa79b, tt);
  (R 0xa79d 0xa79d, tt);
  (R 0xa79f 0xa79f, tt);
  (R 0xa7a1 0xa7a1, tt);
  (R 0xa7a3 0xa7a3, tt);
  (R 0xa7a5 0xa7a5, tt);
  (R 0xa7a7 0xa7a7, tt);
  (R 0xa7a9 0xa7a9, tt);
  (R 0xa7b5 0xa7b5, tt);
  (R 0xa7b7 0xa7b7, tt);
  (R 0xab53 0xab53, tt);
  (R 0xab70 0xabbf, tt);
  (R 0xfb00 0xfb06, tt);
  (R 0xfb13 0xfb17, tt);
  (R 0xff41 0xff5a, tt);
  (R 0x10428 0x1044f, tt);
  (R 0x104d8 0x104fb, tt);
  (R 0x10cc0 0x10cf2, tt);
  (R 0x118c0 0x118df, tt);
  (R 0x1e922 0x1e943, tt)].

Definition CHANGES_WHEN_UPPERCASED : CharDataTable unit :=
  Range (CHANGES_WHEN_UPPERCASED_0 ++ CHANGES_WHEN_UPPERCASED_1).

(** unic/ucd/case/tables/lowercase.rsv:1-644 (640 entries) *)
Definition LOWERCASE_0 : list (CharRange * unit) := [
  (R 0x61 0x7a, tt);
  (R 0xaa 0xaa, tt);
  (R 0xb5 0xb5, tt);
  (R 0xba 0xba, tt);
  (R 0xdf 0xf6, tt);
  (R 0xf8 0xff, tt);
  (R 0x101 0x101, tt);
  (R 0x103 0x103, tt);
  (R 0x105 0x105, tt);
  (R 0x107 0x107, tt);
  (R 0x109 0x109, tt);
  (R 0x10b 0x10b, tt);
  (R 0x10d 0x10d, tt);
  (R 0x10f 0x10f, tt);
  (R 0x111 0x111, tt);
  (R 0x113 0x113, tt);
  (R 0x115 0x115, tt);
  (R 0x117 0x117, tt);
  (R 0x119 0x119, tt);
  (R 0x11b 0x11b, tt);
  (R 0x11d 0x11d, tt);
  (R 0x11f 0x11f, tt);
  (R 0x121 0x121, tt);
  (R 0x123 0x123, tt);
  (R 0x125 0x125, tt);
  (R 0x127 0x127, tt);
  (R 0x129 0x129, tt);
  (R 0x12b 0x12b, tt);
  (R 0x12d 0x12d, tt);
  (R 0x12f 0x12f, tt);
  (R 0x131 0x131, tt);
  (R 0x133 0x133, tt);
  (R 0x135 0x135, tt);
  (R 0x137 0x138, tt);
  (R 0x13a 0x13a, tt);
  (R 0x13c 0x13c, tt);
  (R 0x13e 0x13e, tt);
  (R 0x140 0x140, tt);
  (R 0x142 0x142, tt);
  (R 0x144 0x144, tt);
  (R 0x146 0x146, tt);
  (R 0x148 0x149, tt);
  (R 0x14b 0x14b, tt);
  (R 0x14d 0x14d, tt);
  (R 0x14f 0x14f, tt);
  (R 0x151 0x151, tt);
  (R 0x153 0x153, tt);
  (R 0x155 0x155, tt);
  (R 0x157 0x157, tt);
  (R 0x159 0x159, tt);
  (R 0x15b 0x15b, tt);
  (R 0x15d 0x15d, tt);
  (R 0x15f 0x15f, tt);
  (R 0x161 0x161, tt);
  (R 0x163 0x163, tt);
  (R 0x165 0x165, tt);
  (R 0x167 0x167, tt);
  (R 0x169 0x169, tt);
  (R 0x16b 0x16b, tt);
  (R 0x16d 0x16d, tt);
  (R 0x16f 0x16f, tt);
  (R 0x171 0x171, tt);
  (R 0x173 0x173, tt);
  (R 0x175 0x175, tt);
  (R 0x177 0x177, tt);
  (R 0x17a 0x17a, tt);
  (R 0x17c 0x17c, tt);
  (R 0x17e 0x180, tt);
  (R 0x183 0x183, tt);
  (R 0x185 0x185, tt);
  (R 0x188 0x188, tt);
  (R 0x18c 0x18d, tt);
  (R 0x192 0x192, tt);
  (R 0x195 0x195, tt);
  (R 0x199 0x19b, tt);
  (R 0x19e 0x19e, tt);
  (R 0x1a1 0x1a1, tt);
  (R 0x1a3 0x1a3, tt);
  (R 0x1a5 0x1a5, tt);
  (R 0x1a8 0x1a8, tt);
  (R 0x1aa 0x1ab, tt);
  (R 0x1ad 0x1ad, tt);
  (R 0x1b0 0x1b0, tt);
  (R 0x1b4 0x1b4, tt);
  (R 0x1b6 0x1b6, tt);
  (R 0x1b9 0x1ba, tt);
  (R 0x1bd 0x1bf, tt);
  (R 0x1c6 0x1c6, tt);
  (R 0x1c9 0x1c9, tt);
  (R 0x1cc 0x1cc, tt);
  (R 0x1ce 0x1ce, tt);
  (R 0x1d0 0x1d0, tt);
  (R 0x1d2 0x1d2, tt);
  (R 0x1d4 0x1d4, tt);
  (R 0x1d6 0x1d6, tt);
  (R 0x1d8 0x1d8, tt);
  (R 0x1da 0x1da, tt);
  (R 0x1dc 0x1dd, tt);
  (R 0x1df 0x1df, tt);
  (R 0x1e1 0x1e1, tt);
  (R 0x1e3 0x1e3, tt);
  (R 0x1e5 0x1e5, tt);
  (R 0x1e7 0x1e7, tt);
  (R 0x1e9 0x1e9, tt);
  (R 0x1eb 0x1eb, tt);
  (R 0x1ed 0x1ed, tt);
  (R 0x1ef 0x1f0, tt);
  (R 0x1f3 0x1f3, tt);
  (R 0x1f5 0x1f5, tt);
  (R 0x1f9 0x1f9, tt);
  (R 0x1fb 0x1fb, tt);
  (R 0x1fd 0x1fd, tt);
  (R 0x1ff 0x1ff, tt);
  (R 0x201 0x201, tt);
  (R 0x203 0x203, tt);
  (R 0x205 0x205, tt);
  (R 0x207 0x207, tt);
  (R 0x209 0x209, tt);
  (R 0x20b 0x20b, tt);
  (R 0x20d 0x20d, tt);
  (R 0x20f 0x20f, tt);
  (R 0x211 0x211, tt);
  (R 0x213 0x213, tt);
  (R 0x215 0x215, tt);
  (R 0x217 0x217, tt);
  (R 0x219 0x219, tt);
  (R 0x21b 0x21b, tt);
  (R 0x21d 0x21d, tt);
  (R 0x21f 0x21f, tt);
  (R 0x221 0x221, tt);
  (R 0x223 0x223, tt);
  (R 0x225 0x225, tt);
  (R 0x227 0x227, tt);
  (R 0x229 0x229, tt);
  (R 0x22b 0x22b, tt);
  (R 0x22d 0x22d, tt);
  (R 0x22f 0x22f, tt);
  (R 0x231 0x231, tt);
  (R 0x233 0x239, tt);
  (R 0x23c 0x23c, tt);
  (R 0x23f 0x240, tt);
  (R 0x242 0x242, tt);
  (R 0x247 0x247, tt);
  (R 0x249 0x249, tt);
  (R 0x24b 0x24b, tt);
  (R 0x24d 0x24d, tt);
  (R 0x24f 0x293, tt);
  (R 0x295 0x2b8, tt);
  (R 0x2c0 0x2c1, tt);
  (R 0x2e0 0x2e4, tt);
  (R 0x345 0x345, tt);
  (R 0x371 0x371, tt);
  (R 0x373 0x373, tt);
  (R 0x377 0x377, tt);
  (R 0x37a 0x37d, tt);
  (R 0x390 0x390, tt);
  (R 0x3ac 0x3ce, tt);
  (R 0x3d0 0x3d1, tt);
  (R 0x3d5 0x3d7, tt);
  (R 0x3d9 0x3d9, tt);
  (R 0x3db 0x3db, tt);
  (R 0x3dd 0x3dd, tt);
  (R 0x3df 0x3df, tt);
  (R 0x3e1 0x3e1, tt);
  (R 0x3e3 0x3e3, tt);
  (R 0x3e5 0x3e5, tt);
  (R 0x3e7 0x3e7, tt);
  (R 0x3e9 0x3e9, tt);
  (R 0x3eb 0x3eb, tt);
  (R 0x3ed 0x3ed, tt);
  (R 0x3ef 0x3f3, tt);
  (R 0x3f5 0x3f5, tt);
  (R 0x3f8 0x3f8, tt);
  (R 0x3fb 0x3fc, tt);
  (R 0x430 0x45f, tt);
  (R 0x461 0x461, tt);
  (R 0x463 0x463, tt);
  (R 0x465 0x465, tt);
  (R 0x467 0x467, tt);
  (R 0x469 0x469, tt);
  (R 0x46b 0x46b, tt);
  (R 0x46d 0x46d, tt);
  (R 0x46f 0x46f, tt);
  (R 0x471 0x471, tt);
  (R 0x473 0x473, tt);
  (R 0x475 0x475, tt);
  (R 0x477 0x477, tt);
  (R 0x479 0x479, tt);
  (R 0x47b 0x47b, tt);
  (R 0x47d 0x47d, tt);
  (R 0x47f 0x47f, tt);
  (R 0x481 0x481, tt);
  (R 0x48b 0x48b, tt);
  (R 0x48d 0x48d, tt);
  (R 0x48f 0x48f, tt);
  (R 0x491 0x491, tt);
  (R 0x493 0x493, tt);
  (R 0x495 0x495, tt);
  (R 0x497 0x497, tt);
  (R 0x499 0x499, tt);
  (R 0x49b 0x49b, tt);
  (R 0x49d 0x49d, tt);
  (R 0x49f 0x49f, tt);
  (R 0x4a1 0x4a1, tt);
  (R 0x4a3 0x4a3, tt);
  (R 0x4a5 0x4a5, tt);
  (R 0x4a7 0x4a7, tt);
  (R 0x4a9 0x4a9, tt);
  (R 0x4ab 0x4ab, tt);
  (R 0x4ad 0x4ad, tt);
  (R 0x4af 0x4af, tt);
  (R 0x4b1 0x4b1, tt);
  (R 0x4b3 0x4b3, tt);
  (R 0x4b5 0x4b5, tt);
  (R 0x4b7 0x4b7, tt);
  (R 0x4b9 0x4b9, tt);
  (R 0x4bb 0x4bb, tt);
  (R 0x4bd 0x4bd, tt);
  (R 0x4bf 0x4bf, tt);
  (R 0x4c2 0x4c2, tt);
  (R 0x4c4 0x4c4, tt);
  (R 0x4c6 0x4c6, tt);
  (R 0x4c8 0x4c8, tt);
  (R 0x4ca 0x4ca, tt);
  (R 0x4cc 0x4cc, tt);
  (R 0x4ce 0x4cf, tt);
  (R 0x4d1 0x4d1, tt);
  (R 0x4d3 0x4d3, tt);
  (R 0x4d5 0x4d5, tt);
  (R 0x4d7 0x4d7, tt);
  (R 0x4d9 0x4d9, tt);
  (R 0x4db 0x4db, tt);
  (R 0x4dd 0x4dd, tt);
  (R 0x4df 0x4df, tt);
  (R 0x4e1 0x4e1, tt);
  (R 0x4e3 0x4e3, tt);
  (R 0x4e5 0x4e5, tt);
  (R 0x4e7 0x4e7, tt);
  (R 0x4e9 0x4e9, tt);
  (R 0x4eb 0x4eb, tt);
  (R 0x4ed 0x4ed, tt);
  (R 0x4ef 0x4ef, tt);
  (R 0x4f1 0x4f1, tt);
  (R 0x4f3 0x4f3, tt);
  (R 0x4f5 0x4f5, tt);
  (R 0x4f7 0x4f7, tt);
  (R 0x4f9 0x4f9, tt);
  (R 0x4fb 0x4fb, tt);
  (R 0x4fd 0x4fd, tt);
  (R 0x4ff 0x4ff, tt);
  (R 0x501 0x501, tt);
  (R 0x503 0x503, tt);
  (R 0x505 0x505, tt);
  (R 0x507 0x507, tt);
  (R 0x509 0x509, tt);
  (R 0x50b 0x50b, tt);
  (R 0x50d 0x50d, tt);
  (R 0x50f 0x50f, tt);
  (R 0x511 0x511, tt);
  (R 0x513 0x513, tt);
  (R 0x515 0x515, tt);
  (R 0x517 0x517, tt);
  (R 0x519 0x519, tt);
  (R 0x51b 0x51b, tt);
  (R 0x51d 0x51d, tt);
  (R 0x51f 0x51f, tt);
  (R 0x521 0x521, tt);
  (R 0x523 0x523, tt);
  (R 0x525 0x525, tt);
  (R 0x527 0x527, tt);
  (R 0x529 0x529, tt);
  (R 0x52b 0x52b, tt);
  (R 0x52d 0x52d, tt);
  (R 0x52f 0x52f, tt);
  (R 0x561 0x587, tt);
  (R 0x13f8 0x13fd, tt);
  (R 0x1c80 0x1c88, tt);
  (R 0x1d00 0x1dbf, tt);
  (R 0x1e01 0x1e01, tt);
  (R 0x1e03 0x1e03, tt);
  (R 0x1e05 0x1e05, tt);
  (R 0x1e07 0x1e07, tt);
  (R 0x1e09 0x1e09, tt);
  (R 0x1e0b 0x1e0b, tt);
  (R 0x1e0d 0x1e0d, tt);
  (R 0x1e0f 0x1e0f, tt);
  (R 0x1e11 0x1e11, tt);
  (R 0x1e13 0x1e13, tt);
  (R 0x1e15 0x1e15, tt);
  (R 0x1e17 0x1e17, tt);
  (R 0x1e19 0x1e19, tt);
  (R 0x1e1b 0x1e1b, tt);
  (R 0x1e1d 0x1e1d, tt);
  (R 0x1e1f 0x1e1f, tt);
  (R 0x1e21 0x1e21, tt);
  (R 0x1e23 0x1e23, tt);
  (R 0x1e25 0x1e25, tt);
  (R 0x1e27 0x1e27, tt);
  (R 0x1e29 0x1e29, tt);
  (R 0x1e2b 0x1e2b, tt);
  (R 0x1e2d 0x1e2d, tt);
  (R 0x1e2f 0x1e2f, tt);
  (R 0x1e31 0x1e31, tt);
  (R 0x1e33 0x1e33, tt);
  (R 0x1e35 0x1e35, tt);
  (R 0x1e37 0x1e37, tt);
  (R 0x1e39 0x1e39, tt);
  (R 0x1e3b 0x1e3b, tt);
  (R 0x1e3d 0x1e3d, tt);
  (R 0x1e3f 0x1e3f, tt);
  (R 0x1e41 0x1e41, tt);
  (R 0x1e43 0x1e43, tt);
  (R 0x1e45 0x1e45, tt);
  (R 0x1e47 0x1e47, tt);
  (R 0x1e49 0x1e49, tt);
  (R 0x1e4b 0x1e4b, tt);
  (R 0x1e4d 0x1e4d, tt);
  (R 0x1e4f 0x1e4f, tt);
  (R 0x1e51 0x1e51, tt);
  (R 0x1e53 0x1e53, tt);
  (R 0x1e55 0x1e55, tt);
  (R 0x1e57 0x1e57, tt);
  (R 0x1e59 0x1e59, tt);
  (R 0x1e5b 0x1e5b, tt);
  (R 0x1e5d 0x1e5d, tt);
  (R 0x1e5f 0x1e5f, tt);
  (R 0x1e61 0x1e61, tt);
  (R 0x1e63 0x1e63, tt);
  (R 0x1e65 0x1e65, tt);
  (R 0x1e67 0x1e67, tt);
  (R 0x1e69 0x1e69, tt);
  (R 0x1e6b 0x1e6b, tt);
  (R 0x1e6d 0x1e6d, tt);
  (R 0x1e6f 0x1e6f, tt);
  (R 0x1e71 0x1e71, tt);
  (R 0x1e73 0x1e73, tt);
  (R 0x1e75 0x1e75, tt);
  (R 0x1e77 0x1e77, tt);
  (R 0x1e79 0x1e79, tt);
  (R 0x1e7b 0x1e7b, tt);
  (R 0x1e7d 0x1e7d, tt);
  (R 0x1e7f 0x1e7f, tt);
  (R 0x1e81 0x1e81, tt);
  (R 0x1e83 0x1e83, tt);
  (R 0x1e85 0x1e85, tt);
  (R 0x1e87 0x1e87, tt);
  (R 0x1e89 0x1e89, tt);
  (R 0x1e8b 0x1e8b, tt);
  (R 0x1e8d 0x1e8d, tt);
  (R 0x1e8f 0x1e8f, tt);
  (R 0x1e91 0x1e91, tt);
  (R 0x1e93 0x1e93, tt);
  (R 0x1e95 0x1e9d, tt);
  (R 0x1e9f 0x1e9f, tt);
  (R 0x1ea1 0x1ea1, tt);
  (R 0x1ea3 0x1ea3, tt);
  (R 0x1ea5 0x1ea5, tt);
  (R 0x1ea7 0x1ea7, tt);
  (R 0x1ea9 0x1ea9, tt);
  (R 0x1eab 0x1eab, tt);
  (R 0x1ead 0x1ead, tt);
  (R 0x1eaf 0x1eaf, tt);
  (R 0x1eb1 0x1eb1, tt);
  (R 0x1eb3 0x1eb3, tt);
  (R 0x1eb5 0x1eb5, tt);
  (R 0x1eb7 0x1eb7, tt);
  (R 0x1eb9 0x1eb9, tt);
  (R 0x1ebb 0x1ebb, tt);
  (R 0x1ebd 0x1ebd, tt);
  (R 0x1ebf 0x1ebf, tt);
  (R 0x1ec1 0x1ec1, tt);
  (R 0x1ec3 0x1ec3, tt);
  (R 0x1ec5 0x1ec5, tt);
  (R 0x1ec7 0x1ec7, tt);
  (R 0x1ec9 0x1ec9, tt);
  (R 0x1ecb 0x1ecb, tt);
  (R 0x1ecd 0x1ecd, tt);
  (R 0x1ecf 0x1ecf, tt);
  (R 0x1ed1 0x1ed1, tt);
  (R 0x1ed3 0x1ed3, tt);
  (R 0x1ed5 0x1ed5, tt);
  (R 0x1ed7 0x1ed7, tt);
  (R 0x1ed9 0x1ed9, tt);
  (R 0x1edb 0x1edb, tt);
  (R 0x1edd 0x1edd, tt);
  (R 0x1edf 0x1edf, tt);
  (R 0x1ee1 0x1ee1, tt);
  (R 0x1ee3 0x1ee3, tt);
  (R 0x1ee5 0x1ee5, tt);
  (R 0x1ee7 0x1ee7, tt);
  (R 0x1ee9 0x1ee9, tt);
  (R 0x1eeb 0x1eeb, tt);
  (R 0x1eed 0x1eed, tt);
  (R 0x1eef 0x1eef, tt);
  (R 0x1ef1 0x1ef1, tt);
  (R 0x1ef3 0x1ef3, tt);
  (R 0x1ef5 0x1ef5, tt);
  (R 0x1ef7 0x1ef7, tt);
  (R 0x1ef9 0x1ef9, tt);
  (R 0x1efb 0x1efb, tt)].

Definition LOWERCASE_1 : list (CharRange * unit) := [
  (R 0x1efd 0x1efd, tt);
  (R 0x1eff 0x1f07, tt);
  (R 0x1f10 0x1f15, tt);
  (R 0x1f20 0x1f27, tt);
  (R 0x1f30 0x1f37, tt);
  (R 0x1f40 0x1f45, tt);
  (R 0x1f50 0x1f57, tt);
  (R 0x1f60 0x1f67, tt);
  (R 0x1f70 0x1f7d, tt);
  (R 0x1f80 0x1f87, tt);
  (R 0x1f90 0x1f97, tt);
  (R 0x1fa0 0x1fa7, tt);
  (R 0x1fb0 0x1fb4, tt);
  (R 0x1fb6 0x1fb7, tt);
  (R 0x1fbe 0x1fbe, tt);
  (R 0x1fc2 0x1fc4, tt);
  (R 0x1fc6 0x1fc7, tt);
  (R 0x1fd0 0x1fd3, tt);
  (R 0x1fd6 0x1fd7, tt);
  (R 0x1fe0 0x1fe7, tt);
  (R 0x1ff2 0x1ff4, tt);
  (R 0x1ff6 0x1ff7, tt);
  (R 0x2071 0x2071, tt);
  (R 0x207f 0x207f, tt);
  (R 0x2090 0x209c, tt);
  (R 0x210a 0x210a, tt);
  (R 0x210e 0x210f, tt);
  (R 0x2113 0x2113, tt);
  (R 0x212f 0x212f, tt);
  (R 0x2134 0x2134, tt);
  (R 0x2139 0x2139, tt);
  (R 0x213c 0x213d, tt);
  (R 0x2146 0x2149, tt);
  (R 0x214e 0x214e, tt);
  (R 0x2170 0x217f, tt);
  (R 0x2184 0x2184, tt);
  (R 0x24d0 0x24e9, tt);
  (R 0x2c30 0x2c5e, tt);
  (R 0x2c61 0x2c61, tt);
  (R 0x2c65 0x2c66, tt);
  (R 0x2c68 0x2c68, tt);
  (R 0x2c6a 0x2c6a, tt);
  (R 0x2c6c 0x2c6c, tt);
  (R 0x2c71 0x2c71, tt);
  (R 0x2c73 0x2c74, tt);
  (R 0x2c76 0x2c7d, tt);
  (R 0x2c81 0x2c81, tt);
  (R 0x2c83 0x2c83, tt);
  (R 0x2c85 0x2c85, tt);
  (R 0x2c87 0x2c87, tt);
  (R 0x2c89 0x2c89, tt);
  (R 0x2c8b 0x2c8b, tt);
  (R 0x2c8d 0x2c8d, tt);
  (R 0x2c8f 0x2c8f, tt);
  (R 0x2c91 0x2c91, tt);
  (R 0x2c93 0x2c93, tt);
  (R 0x2c95 0x2c95, tt);
  (R 0x2c97 0x2c97, tt);
  (R 0x2c99 0x2c99, tt);
  (R 0x2c9b 0x2c9b, tt);
  (R 0x2c9d 0x2c9d, tt);
  (R 0x2c9f 0x2c9f, tt);
  (R 0x2ca1 0x2ca1, tt);
  (R 0x2ca3 0x2ca3, tt);
  (R 0x2ca5 0x2ca5, tt);
  (R 0x2ca7 0x2ca7, tt);
  (R 0x2ca9 0x2ca9, tt);
  (R 0x2cab 0x2cab, tt);
  (R 0x2cad 0x2cad, tt);
  (R 0x2caf 0x2caf, tt);
  (R 0x2cb1 0x2cb1, tt);
  (R 0x2cb3 0x2cb3, tt);
  (R 0x2cb5 0x2cb5, tt);
  (R 0x2cb7 0x2cb7, tt);
  (R 0x2cb9 0x2cb9, tt);
  (R 0x2cbb 0x2cbb, tt);
  (R 0x2cbd 0x2cbd, tt);
  (R 0x2cbf 0x2cbf, tt);
  (R 0x2cc1 0x2cc1, tt);
  (R 0x2cc3 0x2cc3, tt);
  (R 0x2cc5 0x2cc5, tt);
  (R 0x2cc7 0x2cc7, tt);
  (R 0x2cc9 0x2cc9, tt);
  (R 0x2ccb 0x2ccb, tt);
  (R 0x2ccd 0x2ccd, tt);
  (R 0x2ccf 0x2ccf, tt);
  (R 0x2cd1 0x2cd1, tt);
  (R 0x2cd3 0x2cd3, tt);
  (R 0x2cd5 0x2cd5, tt);
  (R 0x2cd7 0x2cd7, tt);
  (R 0x2cd9 0x2cd9, tt);
  (R 0x2cdb 0x2cdb, tt);
  (R 0x2cdd 0x2cdd, tt);
  (R 0x2cdf 0x2cdf, tt);
  (R 0x2ce1 0x2ce1, tt);
  (R 0x2ce3 0x2ce4, tt);
  (R 0x2cec 0x2cec, tt);
  (R 0x2cee 0x2cee, tt);
  (R 0x2cf3 0x2cf3, tt);
  (R 0x2d00 0x2d25, tt);
  (R 0x2d27 0x2d27, tt);
  (R 0x2d2d 0x2d2d, tt);
  (R 0xa641 0xa641, tt);
  (R 0xa643 0xa643, tt);
  (R 0xa645 0xa645, tt);
  (R 0xa647 0xa647, tt);
  (R 0xa649 0xa649, tt);
  (R 0xa64b 0xa64b, tt);
  (R 0xa64d 0xa64d, tt);
  (R 0xa64f 0xa64f, tt);
  (R 0xa651 0xa651, tt);
  (R 0xa653 0xa653, tt);
  (R 0xa655 0xa655, tt);
  (R 0xa657 0xa657, tt);
  (R 0xa659 0xa659, tt);
  (R 0xa65b 0xa65b, tt);
  (R 0xa65d 0xa65d, tt);
  (R 0xa65f 0xa65f, tt);
  (R 0xa661 0xa661, tt);
  (R 0xa663 0xa663, tt);
  (R 0xa665 0xa665, tt);
  (R 0xa667 0xa667, tt);
  (R 0xa669 0xa669, tt);
  (R 0xa66b 0xa66b, tt);
  (R 0xa66d 0xa66d, tt);
  (R 0xa681 0xa681, tt);
  (R 0xa683 0xa683, tt);
  (R 0xa685 0xa685, tt);
  (R 0xa687 0xa687, tt);
  (R 0xa689 0xa689, tt);
  (R 0xa68b 0xa68b, tt);
  (R 0xa68d 0xa68d, tt);
  (R 0xa68f 0xa68f, tt);
  (R 0xa691 0xa691, tt);
  (R 0xa693 0xa693, tt);
  (R 0xa695 0xa695, tt);
  (R 0xa697 0xa697, tt);
  (R 0xa699 0xa699, tt);
  (R 0xa69b 0xa69d, tt);
  (R 0xa723 0xa723, tt);
  (R 0xa725 0xa725, tt);
  (R 0xa727 0xa727, tt);
  (R 0xa729 0xa729, tt);
  (R 0xa72b 0xa72b, tt);
  (R 0xa72d 0xa72d, tt);
  (R 0xa72f 0xa731, tt);
  (R 0xa733 0xa733, tt);
  (R 0xa735 0xa735, tt);
  (R 0xa737 0xa737, tt);
  (R 0xa739 0xa739, tt);
  (R 0xa73b 0xa73b, tt);
  (R 0xa73d 0xa73d, tt);
  (R 0xa73f 0xa73f, tt);
  (R 0xa741 0xa741, tt);
  (R 0xa743 0xa743, tt);
  (R 0xa745 0xa745, tt);
  (R 0xa747 0xa747, tt);
  (R 0xa749 0xa749, tt);
  (R 0xa74b 0xa74b, tt);
  (R 0xa74d 0xa74d, tt);
  (R 0xa74f 0xa74f, tt);
  (R 0xa751 0xa751, tt);
  (R 0xa753 0xa753, tt);
  (R 0xa755 0xa755, tt);
  (R 0xa757 0xa757, tt);
  (R 0xa759 0xa759, tt);
  (R 0xa75b 0xa75b, tt);
  (R 0xa75d 0xa75d, tt);
  (R 0xa75f 0xa75f, tt);
  (R 0xa761 0xa761, tt);
  (R 0xa763 0xa763, tt);
  (R 0xa765 0xa765, tt);
  (R 0xa767 0xa767, tt);
  (R 0xa769 0xa769, tt);
  (R 0xa76b 0xa76b, tt);
  (R 0xa76d 0xa76d, tt);
  (R 0xa76f 0xa778, tt);
  (R 0xa77a 0xa77a, tt);
  (R 0xa77c 0xa77c, tt);
  (R 0xa77f 0xa77f, tt);
  (R 0xa781 0xa781, tt);
  (R 0xa783 0xa783, tt);
  (R 0xa785 0xa785, tt);
  (R 0xa787 0xa787, tt);
  (R 0xa78c 0xa78c, tt);
  (R 0xa78e 0xa78e, tt);
  (R 0xa791 0xa791, tt);
  (R 0xa793 0xa795, tt);
  (R 0xa797 0xa797, tt);
  (R 0xa799 0xa799, tt);
  (R 0xa79b 0xa79b, tt);
  (R 0xa79d 0xa79d, tt);
  (R 0xa79f 0xa79f, tt);
  (R 0xa7a1 0xa7a1, tt);
  (R 0xa7a3 0xa7a3, tt);
  (R 0xa7a5 0xa7a5, tt);
  (R 0xa7a7 0xa7a7, tt);
  (R 0xa7a9 0xa7a9, tt);
  (R 0xa7b5 0xa7b5, tt);
  (R 0xa7b7 0xa7b7, tt);
  (R 0xa7f8 0xa7fa, tt);
  (R 0xab30 0xab5a, tt);
  (R 0xab5c 0xab65, tt);
  (R 0xab70 0xabbf, tt);
  (R 0xfb00 0xfb06, tt);
  (R 0xfb13 0xfb17, tt);
  (R 0xff41 0xff5a, tt);
  (R 0x10428 0x1044f, tt);
  (R 0x104d8 0x104fb, tt);
  (R 0x10cc0 0x10cf2, tt);
  (R 0x118c0 0x118df, tt);
  (R 0x1d41a 0x1d433, tt);
  (R 0x1d44e 0x1d454, tt);
  (R 0x1d456 0x1d467, tt);
  (R 0x1d482 0x1d49b, tt);
  (R 0x1d4b6 0x1d4b9, tt);
  (R 0x1d4bb 0x1d4bb, tt);
  (R 0x1d4bd 0x1d4c3, tt);
  (R 0x1d4c5 0x1d4cf, tt);
  (R 0x1d4ea 0x1d503, tt);
  (R 0x1d51e 0x1d537, tt);
  (R 0x1d552 0x1d56b, tt);
  (R 0x1d586 0x1d59f, tt);
  (R 0x1d5ba 0x1d5d3, tt);
  (R 0x1d5ee 0x1d607, tt);
  (R 0x1d622 0x1d63b, tt);
  (R 0x1d656 0x1d66f, tt);
  (R 0x1d68a 0x1d6a5, tt);
  (R 0x1d6c2 0x1d6da, tt);
  (R 0x1d6dc 0x1d6e1, tt);
  (R 0x1d6fc 0x1d714, tt);
  (R 0x1d716 0x1d71b, tt);
  (R 0x1d736 0x1d74e, tt);
  (R 0x1d750 0x1d755, tt);
  (R 0x1d770 0x1d788, tt);
  (R 0x1d78a 0x1d78f, tt);
  (R 0x1d7aa 0x1d7c2, tt);
  (R 0x1d7c4 0x1d7c9, tt);
  (R 0x1d7cb 0x1d7cb, tt);
  (R 0x1e922 0x1e943, tt)].

Definition LOWERCASE : CharDataTable unit :=
  Range (LOWERCASE_0 ++ LOWERCASE_1).

(** unic/ucd/case/tables/uppercase.rsv:1-636 (632 entries) *)
Definition UPPERCASE_0 : list (CharRange * unit) := [
  (R 0x41 0x5a, tt);
  (R 0xc0 0xd6, tt);
  (R 0xd8 0xde, tt);
  (R 0x100 0x100, tt);
  (R 0x102 0x102, tt);
  (R 0x104 0x104, tt);
  (R 0x106 0x106, tt);
  (R 0x108 0x108, tt);
  (R 0x10a 0x10a, tt);
  (R 0x10c 0x10c, tt);
  (R 0x10e 0x10e, tt);
  (R 0x110 0x110, tt);
  (R 0x112 0x112, tt);
  (R 0x114 0x114, tt);
  (R 0x116 0x116, tt);
  (R 0x118 0x118, tt);
  (R 0x11a 0x11a, tt);
  (R 0x11c 0x11c, tt);
  (R 0x11e 0x11e, tt);
  (R 0x120 0x120, tt);
  (R 0x122 0x122, tt);
  (R 0x124 0x124, tt);
  (R 0x126 0x126, tt);
  (R 0x128 0x128, tt);
  (R 0x12a 0x12a, tt);
  (R 0x12c 0x12c, tt);
  (R 0x12e 0x12e, tt);
  (R 0x130 0x130, tt);
  (R 0x132 0x132, tt);
  (R 0x134 0x134, tt);
  (R 0x136 0x136, tt);
  (R 0x139 0x139, tt);
  (R 0x13b 0x13b, tt);
  (R 0x13d 0x13d, tt);
  (R 0x13f 0x13f, tt);
  (R 0x141 0x141, tt);
  (R 0x143 0x143, tt);
  (R 0x145 0x145, tt);
  (R 0x147 0x147, tt);
  (R 0x14a 0x14a, tt);
  (R 0x14c 0x14c, tt);
  (R 0x14e 0x14e, tt);
  (R 0x150 0x150, tt);
  (R 0x152 0x152, tt);
  (R 0x154 0x154, tt);
  (R 0x156 0x156, tt);
  (R 0x158 0x158, tt);
  (R 0x15a 0x15a, tt);
  (R 0x15c 0x15c, tt);
  (R 0x15e 0x15e, tt);
  (R 0x160 0x160, tt);
  (R 0x162 0x162, tt);
  (R 0x164 0x164, tt);
  (R 0x166 0x166, tt);
  (R 0x168 0x168, tt);
  (R 0x16a 0x16a, tt);
  (R 0x16c 0x16c, tt);
  (R 0x16e 0x16e, tt);
  (R 0x170 0x170, tt);
  (R 0x172 0x172, tt);
  (R 0x174 0x174, tt);
  (R 0x176 0x176, tt);
  (R 0x178 0x179, tt);
  (R 0x17b 0x17b, tt);
  (R 0x17d 0x17d, tt);
  (R 0x181 0x182, tt);
  (R 0x184 0x184, tt);
  (R 0x186 0x187, tt);
  (R 0x189 0x18b, tt);
  (R 0x18e 0x191, tt);
  (R 0x193 0x194, tt);
  (R 0x196 0x198, tt);
  (R 0x19c 0x19d, tt);
  (R 0x19f 0x1a0, tt);
  (R 0x1a2 0x1a2, tt);
  (R 0x1a4 0x1a4, tt);
  (R 0x1a6 0x1a7, tt);
  (R 0x1a9 0x1a9, tt);
  (R 0x1ac 0x1ac, tt);
  (R 0x1ae 0x1af, tt);
  (R 0x1b1 0x1b3, tt);
  (R 0x1b5 0x1b5, tt);
  (R 0x1b7 0x1b8, tt);
  (R 0x1bc 0x1bc, tt);
  (R 0x1c4 0x1c4, tt);
  (R 0x1c7 0x1c7, tt);
  (R 0x1ca 0x1ca, tt);
  (R 0x1cd 0x1cd, tt);
  (R 0x1cf 0x1cf, tt);
  (R 0x1d1 0x1d1, tt);
  (R 0x1d3 0x1d3, tt);
  (R 0x1d5 0x1d5, tt);
  (R 0x1d7 0x1d7, tt);
  (R 0x1d9 0x1d9, tt);
  (R 0x1db 0x1db, tt);
  (R 0x1de 0x1de, tt);
  (R 0x1e0 0x1e0, tt);
  (R 0x1e2 0x1e2, tt);
  (R 0x1e4 0x1e4, tt);
  (R 0x1e6 0x1e6, tt);
  (R 0x1e8 0x1e8, tt);
  (R 0x1ea 0x1ea, tt);
  (R 0x1ec 0x1ec, tt);
  (R 0x1ee 0x1ee, tt);
  (R 0x1f1 0x1f1, tt);
  (R 0x1f4 0x1f4, tt);
  (R 0x1f6 0x1f8, tt);
  (R 0x1fa 0x1fa, tt);
  (R 0x1fc 0x1fc, tt);
  (R 0x1fe 0x1fe, tt);
  (R 0x200 0x200, tt);
  (R 0x202 0x202, tt);
  (R 0x204 0x204, tt);
  (R 0x206 0x206, tt);
  (R 0x208 0x208, tt);
  (R 0x20a 0x20a, tt);
  (R 0x20c 0x20c, tt);
  (R 0x20e 0x20e, tt);
  (R 0x210 0x210, tt);
  (R 0x212 0x212, tt);
  (R 0x214 0x214, tt);
  (R 0x216 0x216, tt);
  (R 0x218 0x218, tt);
  (R 0x21a 0x21a, tt);
  (R 0x21c 0x21c, tt);
  (R 0x21e 0x21e, tt);
  (R 0x220 0x220, tt);
  (R 0x222 0x222, tt);
  (R 0x224 0x224, tt);
  (R 0x226 0x226, tt);
  (R 0x228 0x228, tt);
  (R 0x22a 0x22a, tt);
  (R 0x22c 0x22c, tt);
  (R 0x22e 0x22e, tt);
  (R 0x230 0x230, tt);
  (R 0x232 0x232, tt);
  (R 0x23a 0x23b, tt);
  (R 0x23d 0x23e, tt);
  (R 0x241 0x241, tt);
  (R 0x243 0x246, tt);
  (R 0x248 0x248, tt);
  (R 0x24a 0x24a, tt);
  (R 0x24c 0x24c, tt);
  (R 0x24e 0x24e, tt);
  (R 0x370 0x370, tt);
  (R 0x372 0x372, tt);
  (R 0x376 0x376, tt);
  (R 0x37f 0x37f, tt);
  (R 0x386 0x386, tt);
  (R 0x388 0x38a, tt);
  (R 0x38c 0x38c, tt);
  (R 0x38e 0x38f, tt);
  (R 0x391 0x3a1, tt);
  (R 0x3a3 0x3ab, tt);
  (R 0x3cf 0x3cf, tt);
  (R 0x3d2 0x3d4, tt);
  (R 0x3d8 0x3d8, tt);
  (R 0x3da 0x3da, tt);
  (R 0x3dc 0x3dc, tt);
  (R 0x3de 0x3de, tt);
  (R 0x3e0 0x3e0, tt);
  (R 0x3e2 0x3e2, tt);
  (R 0x3e4 0x3e4, tt);
  (R 0x3e6 0x3e6, tt);
  (R 0x3e8 0x3e8, tt);
  (R 0x3ea 0x3ea, tt);
  (R 0x3ec 0x3ec, tt);
  (R 0x3ee 0x3ee, tt);
  (R 0x3f4 0x3f4, tt);
  (R 0x3f7 0x3f7, tt);
  (R 0x3f9 0x3fa, tt);
  (R 0x3fd 0x42f, tt);
  (R 0x460 0x460, tt);
  (R 0x462 0x462, tt);
  (R 0x464 0x464, tt);
  (R 0x466 0x466, tt);
  (R 0x468 0x468, tt);
  (R 0x46a 0x46a, tt);
  (R 0x46c 0x46c, tt);
  (R 0x46e 0x46e, tt);
  (R 0x470 0x470, tt);
  (R 0x472 0x472, tt);
  (R 0x474 0x474, tt);
  (R 0x476 0x476, tt);
  (R 0x478 0x478, tt);
  (R 0x47a 0x47a, tt);
  (R 0x47c 0x47c, tt);
  (R 0x47e 0x47e, tt);
  (R 0x480 0x480, tt);
  (R 0x48a 0x48a, tt);
  (R 0x48c 0x48c, tt);
  (R 0x48e 0x48e, tt);
  (R 0x490 0x490, tt);
  (R 0x492 0x492, tt);
  (R 0x494 0x494, tt);
  (R 0x496 0x496, tt);
  (R 0x498 0x498, tt);
  (R 0x49a 0x49a, tt);
  (R 0x49c 0x49c, tt);
  (R 0x49e 0x49e, tt);
  (R 0x4a0 0x4a0, tt);
  (R 0x4a2 0x4a2, tt);
  (R 0x4a4 0x4a4, tt);
  (R 0x4a6 0x4a6, tt);
  (R 0x4a8 0x4a8, tt);
  (R 0x4aa 0x4aa, tt);
  (R 0x4ac 0x4ac, tt);
  (R 0x4ae 0x4ae, tt);
  (R 0x4b0 0x4b0, tt);
  (R 0x4b2 0x4b2, tt);
  (R 0x4b4 0x4b4, tt);
  (R 0x4b6 0x4b6, tt);
  (R 0x4b8 0x4b8, tt);
  (R 0x4ba 0x4ba, tt);
  (R 0x4bc 0x4bc, tt);
  (R 0x4be 0x4be, tt);
  (R 0x4c0 0x4c1, tt);
  (R 0x4c3 0x4c3, tt);
  (R 0x4c5 0x4c5, tt);
  (R 0x4c7 0x4c7, tt);
  (R 0x4c9 0x4c9, tt);
  (R 0x4cb 0x4cb, tt);
  (R 0x4cd 0x4cd, tt);
  (R 0x4d0 0x4d0, tt);
  (R 0x4d2 0x4d2, tt);
  (R 0x4d4 0x4d4, tt);
  (R 0x4d6 0x4d6, tt);
  (R 0x4d8 0x4d8, tt);
  (R 0x4da 0x4da, tt);
  (R 0x4dc 0x4dc, tt);
  (R 0x4de 0x4de, tt);
  (R 0x4e0 0x4e0, tt);
  (R 0x4e2 0x4e2, tt);
  (R 0x4e4 0x4e4, tt);
  (R 0x4e6 0x4e6, tt);
  (R 0x4e8 0x4e8, tt);
  (R 0x4ea 0x4ea, tt);
  (R 0x4ec 0x4ec, tt);
  (R 0x4ee 0x4ee, tt);
  (R 0x4f0 0x4f0, tt);
  (R 0x4f2 0x4f2, tt);
  (R 0x4f4 0x4f4, tt);
  (R 0x4f6 0x4f6, tt);
  (R 0x4f8 0x4f8, tt);
  (R 0x4fa 0x4fa, tt);
  (R 0x4fc 0x4fc, tt);
  (R 0x4fe 0x4fe, tt);
  (R 0x500 0x500, tt);
  (R 0x502 0x502, tt);
  (R 0x504 0x504, tt);
  (R 0x506 0x506, tt);
  (R 0x508 0x508, tt);
  (R 0x50a 0x50a, tt);
  (R 0x50c 0x50c, tt);
  (R 0x50e 0x50e, tt);
  (R 0x510 0x510, tt);
  (R 0x512 0x512, tt);
  (R 0x514 0x514, tt);
  (R 0x516 0x516, tt);
  (R 0x518 0x518, tt);
  (R 0x51a 0x51a, tt);
  (R 0x51c 0x51c, tt);
  (R 0x51e 0x51e, tt);
  (R 0x520 0x520, tt);
  (R 0x522 0x522, tt);
  (R 0x524 0x524, tt);
  (R 0x526 0x526, tt);
  (R 0x528 0x528, tt);
  (R 0x52a 0x52a, tt);
  (R 0x52c 0x52c, tt);
  (R 0x52e 0x52e, tt);
  (R 0x531 0x556, tt);
  (R 0x10a0 0x10c5, tt);
  (R 0x10c7 0x10c7, tt);
  (R 0x10cd 0x10cd, tt);
  (R 0x13a0 0x13f5, tt);
  (R 0x1e00 0x1e00, tt);
  (R 0x1e02 0x1e02, tt);
  (R 0x1e04 0x1e04, tt);
  (R 0x1e06 0x1e06, tt);
  (R 0x1e08 0x1e08, tt);
  (R 0x1e0a 0x1e0a, tt);
  (R 0x1e0c 0x1e0c, tt);
  (R 0x1e0e 0x1e0e, tt);
  (R 0x1e10 0x1e10, tt);
  (R 0x1e12 0x1e12, tt);
  (R 0x1e14 0x1e14, tt);
  (R 0x1e16 0x1e16, tt);
  (R 0x1e18 0x1e18, tt);
  (R 0x1e1a 0x1e1a, tt);
  (R 0x1e1c 0x1e1c, tt);
  (R 0x1e1e 0x1e1e, tt);
  (R 0x1e20 0x1e20, tt);
  (R 0x1e22 0x1e22, tt);
  (R 0x1e24 0x1e24, tt);
  (R 0x1e26 0x1e26, tt);
  (R 0x1e28 0x1e28, tt);
  (R 0x1e2a 0x1e2a, tt);
  (R 0x1e2c 0x1e2c, tt);
  (R 0x1e2e 0x1e2e, tt);
  (R 0x1e30 0x1e30, tt);
  (R 0x1e32 0x1e32, tt);
  (R 0x1e34 0x1e34, tt);
  (R 0x1e36 0x1e36, tt);
  (R 0x1e38 0x1e38, tt);
  (R 0x1e3a 0x1e3a, tt);
  (R 0x1e3c 0x1e3c, tt);
  (R 0x1e3e 0x1e3e, tt);
  (R 0x1e40 0x1e40, tt);
  (R 0x1e42 0x1e42, tt);
  (R 0x1e44 0x1e44, tt);
  (R 0x1e46 0x1e46, tt);
  (R 0x1e48 0x1e48, tt);
  (R 0x1e4a 0x1e4a, tt);
  (R 0x1e4c 0x1e4c, tt);
  (R 0x1e4e 0x1e4e, tt);
  (R 0x1e50 0x1e50, tt);
  (R 0x1e52 0x1e52, tt);
  (R 0x1e54 0x1e54, tt);
  (R 0x1e56 0x1e56, tt);
  (R 0x1e58 0x1e58, tt);
  (R 0x1e5a 0x1e5a, tt);
  (R 0x1e5c 0x1e5c, tt);
  (R 0x1e5e 0x1e5e, tt);
  (R 0x1e60 0x1e60, tt);
  (R 0x1e62 0x1e62, tt);
  (R 0x1e64 0x1e64, tt);
  (R 0x1e66 0x1e66, tt);
  (R 0x1e68 0x1e68, tt);
  (R 0x1e6a 0x1e6a, tt);
  (R 0x1e6c 0x1e6c, tt);
  (R 0x1e6e 0x1e6e, tt);
  (R 0x1e70 0x1e70, tt);
  (R 0x1e72 0x1e72, tt);
  (R 0x1e74 0x1e74, tt);
  (R 0x1e76 0x1e76, tt);
  (R 0x1e78 0x1e78, tt);
  (R 0x1e7a 0x1e7a, tt);
  (R 0x1e7c 0x1e7c, tt);
  (R 0x1e7e 0x1e7e, tt);
  (R 0x1e80 0x1e80, tt);
  (R 0x1e82 0x1e82, tt);
  (R 0x1e84 0x1e84, tt);
  (R 0x1e86 0x1e86, tt);
  (R 0x1e88 0x1e88, tt);
  (R 0x1e8a 0x1e8a, tt);
  (R 0x1e8c 0x1e8c, tt);
  (R 0x1e8e 0x1e8e, tt);
  (R 0x1e90 0x1e90, tt);
  (R 0x1e92 0x1e92, tt);
  (R 0x1e94 0x1e94, tt);
  (R 0x1e9e 0x1e9e, tt);
  (R 0x1ea0 0x1ea0, tt);
  (R 0x1ea2 0x1ea2, tt);
  (R 0x1ea4 0x1ea4, tt);
  (R 0x1ea6 0x1ea6, tt);
  (R 0x1ea8 0x1ea8, tt);
  (R 0x1eaa 0x1eaa, tt);
  (R 0x1eac 0x1eac, tt);
  (R 0x1eae 0x1eae, tt);
  (R 0x1eb0 0x1eb0, tt);
  (R 0x1eb2 0x1eb2, tt);
  (R 0x1eb4 0x1eb4, tt);
  (R 0x1eb6 0x1eb6, tt);
  (R 0x1eb8 0x1eb8, tt);
  (R 0x1eba 0x1eba, tt);
  (R 0x1ebc 0x1ebc, tt);
  (R 0x1ebe 0x1ebe, tt);
  (R 0x1ec0 0x1ec0, tt);
  (R 0x1ec2 0x1ec2, tt);
  (R 0x1ec4 0x1ec4, tt);
  (R 0x1ec6 0x1ec6, tt);
  (R 0x1ec8 0x1ec8, tt);
  (R 0x1eca 0x1eca, tt);
  (R 0x1ecc 0x1ecc, tt);
  (R 0x1ece 0x1ece, tt);
  (R 0x1ed0 0x1ed0, tt);
  (R 0x1ed2 0x1ed2, tt);
  (R 0x1ed4 0x1ed4, tt);
  (R 0x1ed6 0x1ed6, tt);
  (R 0x1ed8 0x1ed8, tt);
  (R 0x1eda 0x1eda, tt);
  (R 0x1edc 0x1edc, tt);
  (R 0x1ede 0x1ede, tt);
  (R 0x1ee0 0x1ee0, tt);
  (R 0x1ee2 0x1ee2, tt);
  (R 0x1ee4 0x1ee4, tt);
  (R 0x1ee6 0x1ee6, tt);
  (R 0x1ee8 0x1ee8, tt);
  (R 0x1eea 0x1eea, tt);
  (R 0x1eec 0x1eec, tt);
  (R 0x1eee 0x1eee, tt);
  (R 0x1ef0 0x1ef0, tt);
  (R 0x1ef2 0x1ef2, tt);
  (R 0x1ef4 0x1ef4, tt);
  (R 0x1ef6 0x1ef6, tt);
  (R 0x1ef8 0x1ef8, tt);
  (R 0x1efa 0x1efa, tt);
  (R 0x1efc 0x1efc, tt);
  (R 0x1efe 0x1efe, tt)].

Definition UPPERCASE_1 : list (CharRange * unit) := [
  (R 0x1f08 0x1f0f, tt);
  (R 0x1f18 0x1f1d, tt);
  (R 0x1f28 0x1f2f, tt);
  (R 0x1f38 0x1f3f, tt);
  (R 0x1f48 0x1f4d, tt);
  (R 0x1f59 0x1f59, tt);
  (R 0x1f5b 0x1f5b, tt);
  (R 0x1f5d 0x1f5d, tt);
  (R 0x1f5f 0x1f5f, tt);
  (R 0x1f68 0x1f6f, tt);
  (R 0x1fb8 0x1fbb, tt);
  (R 0x1fc8 0x1fcb, tt);
  (R 0x1fd8 0x1fdb, tt);
  (R 0x1fe8 0x1fec, tt);
  (R 0x1ff8 0x1ffb, tt);
  (R 0x2102 0x2102, tt);
  (R 0x2107 0x2107, tt);
  (R 0x210b 0x210d, tt);
  (R 0x2110 0x2112, tt);
  (R 0x2115 0x2115, tt);
  (R 0x2119 0x211d, tt);
  (R 0x2124 0x2124, tt);
  (R 0x2126 0x2126, tt);
  (R 0x2128 0x2128, tt);
  (R 0x212a 0x212d, tt);
  (R 0x2130 0x2133, tt);
  (R 0x213e 0x213f, tt);
  (R 0x2145 0x2145, tt);
  (R 0x2160 0x216f, tt);
  (R 0x2183 0x2183, tt);
  (R 0x24b6 0x24cf, tt);
  (R 0x2c00 0x2c2e, tt);
  (R 0x2c60 0x2c60, tt);
  (R 0x2c62 0x2c64, tt);
  (R 0x2c67 0x2c67, tt);
  (R 0x2c69 0x2c69, tt);
  (R 0x2c6b 0x2c6b, tt);
  (R 0x2c6d 0x2c70, tt);
  (R 0x2c72 0x2c72, tt);
  (R 0x2c75 0x2c75, tt);
  (R 0x2c7e 0x2c80, tt);
  (R 0x2c82 0x2c82, tt);
  (R 0x2c84 0x2c84, tt);
  (R 0x2c86 0x2c86, tt);
  (R 0x2c88 0x2c88, tt);
  (R 0x2c8a 0x2c8a, tt);
  (R 0x2c8c 0x2c8c, tt);
  (R 0x2c8e 0x2c8e, tt);
  (R 0x2c90 0x2c90, tt);
  (R 0x2c92 0x2c92, tt);
  (R 0x2c94 0x2c94, tt);
  (R 0x2c96 0x2c96, tt);
  (R 0x2c98 0x2c98, tt);
  (R 0x2c9a 0x2c9a, tt);
  (R 0x2c9c 0x2c9c, tt);
  (R 0x2c9e 0x2c9e, tt);
  (R 0x2ca0 0x2ca0, tt);
  (R 0x2ca2 0x2ca2, tt);
  (R 0x2ca4 0x2ca4, tt);
  (R 0x2ca6 0x2ca6, tt);
  (R 0x2ca8 0x2ca8, tt);
  (R 0x2caa 0x2caa, tt);
  (R 0x2cac 0x2cac, tt);
  (R 0x2cae 0x2cae, tt);
  (R 0x2cb0 0x2cb0, tt);
  (R 0x2cb2 0x2cb2, tt);
  (R 0x2cb4 0x2cb4, tt);
  (R 0x2cb6 0x2cb6, tt);
  (R 0x2cb8 0x2cb8, tt);
  (R 0x2cba 0x2cba, tt);
  (R 0x2cbc 0x2cbc, tt);
  (R 0x2cbe 0x2cbe, tt);
  (R 0x2cc0 0x2cc0, tt);
  (R 0x2cc2 0x2cc2, tt);
  (R 0x2cc4 0x2cc4, tt);
  (R 0x2cc6 0x2cc6, tt);
  (R 0x2cc8 0x2cc8, tt);
  (R 0x2cca 0x2cca, tt);
  (R 0x2ccc 0x2ccc, tt);
  (R 0x2cce 0x2cce, tt);
  (R 0x2cd0 0x2cd0, tt);
  (R 0x2cd2 0x2cd2, tt);
  (R 0x2cd4 0x2cd4, tt);
  (R 0x2cd6 0x2cd6, tt);
  (R 0x2cd8 0x2cd8, tt);
  (R 0x2cda 0x2cda, tt);
  (R 0x2cdc 0x2cdc, tt);
  (R 0x2cde 0x2cde, tt);
  (R 0x2ce0 0x2ce0, tt);
  (R 0x2ce2 0x2ce2, tt);
  (R 0x2ceb 0x2ceb, tt);
  (R 0x2ced 0x2ced, tt);
  (R 0x2cf2 0x2cf2, tt);
  (R 0xa640 0xa640, tt);
  (R 0xa642 0xa642, tt);
  (R 0xa644 0xa644, tt);
  (R 0xa646 0xa646, tt);
  (R 0xa648 0xa648, tt);
  (R 0xa64a 0xa64a, tt);
  (R 0xa64c 0xa64c, tt);
  (R 0xa64e 0xa64e, tt);
  (R 0xa650 0xa650, tt);
  (R 0xa652 0xa652, tt);
  (R 0xa654 0xa654, tt);
  (R 0xa656 0xa656, tt);
  (R 0xa658 0xa658, tt);
  (R 0xa65a 0xa65a, tt);
  (R 0xa65c 0xa65c, tt);
  (R 0xa65e 0xa65e, tt);
  (R 0xa660 0xa660, tt);
  (R 0xa662 0xa662, tt);
  (R 0xa664 0xa664, tt);
  (R 0xa666 0xa666, tt);
  (R 0xa668 0xa668, tt);
  (R 0xa66a 0xa66a, tt);
  (R 0xa66c 0xa66c, tt);
  (R 0xa680 0xa680, tt);
  (R 0xa682 0xa682, tt);
  (R 0xa684 0xa684, tt);
  (R 0xa686 0xa686, tt);
  (R 0xa688 0xa688, tt);
  (R 0xa68a 0xa68a, tt);
  (R 0xa68c 0xa68c, tt);
  (R 0xa68e 0xa68e, tt);
  (R 0xa690 0xa690, tt);
  (R 0xa692 0xa692, tt);
  (R 0xa694 0xa694, tt);
  (R 0xa696 0xa696, tt);
  (R 0xa698 0xa698, tt);
  (R 0xa69a 0xa69a, tt);
  (R 0xa722 0xa722, tt);
  (R 0xa724 0xa724, tt);
  (R 0xa726 0xa726, tt);
  (R 0xa728 0xa728, tt);
  (R 0xa72a 0xa72a, tt);
  (R 0xa72c 0xa72c, tt);
  (R 0xa72e 0xa72e, tt);
  (R 0xa732 0xa732, tt);
  (R 0xa734 0xa734, tt);
  (R 0xa736 0xa736, tt);
  (R 0xa738 0xa738, tt);
  (R 0xa73a 0xa73a, tt);
  (R 0xa73c 0xa73c, tt);
  (R 0xa73e 0xa73e, tt);
  (R 0xa740 0xa740, tt);
  (R 0xa742 0xa742, tt);
  (R 0xa744 0xa744, tt);
  (R 0xa746 0xa746, tt);
  (R 0xa748 0xa748, tt);
  (R 0xa74a 0xa74a, tt);
  (R 0xa74c 0xa74c, tt);
  (R 0xa74e 0xa74e, tt);
  (R 0xa750 0xa750, tt);
  (R 0xa752 0xa752, tt);
  (R 0xa754 0xa754, tt);
  (R 0xa756 0xa756, tt);
  (R 0xa758 0xa758, tt);
  (R 0xa75a 0xa75a, tt);
  (R 0xa75c 0xa75c, tt);
  (R 0xa75e 0xa75e, tt);
  (R 0xa760 0xa760, tt);
  (R 0xa762 0xa762, tt);
  (R 0xa764 0xa764, tt);
  (R 0xa766 0xa766, tt);
  (R 0xa768 0xa768, tt);
  (R 0xa76a 0xa76a, tt);
  (R 0xa76c 0xa76c, tt);
  (R 0xa76e 0xa76e, tt);
  (R 0xa779 0xa779, tt);
  (R 0xa77b 0xa77b, tt);
  (R 0xa77d 0xa77e, tt);
  (R 0xa780 0xa780, tt);
  (R 0xa782 0xa782, tt);
  (R 0xa784 0xa784, tt);
  (R 0xa786 0xa786, tt);
  (R 0xa78b 0xa78b, tt);
  (R 0xa78d 0xa78d, tt);
  (R 0xa790 0xa790, tt);
  (R 0xa792 0xa792, tt);
  (R 0xa796 0xa796, tt);
  (R 0xa798 0xa798, tt);
  (R 0xa79a 0xa79a, tt);
  (R 0xa79c 0xa79c, tt);
  (R 0xa79e 0xa79e, tt);
  (R 0xa7a0 0xa7a0, tt);
  (R 0xa7a2 0xa7a2, tt);
  (R 0xa7a4 0xa7a4, tt);
  (R 0xa7a6 0xa7a6, tt);
  (R 0xa7a8 0xa7a8, tt);
  (R 0xa7aa 0xa7ae, tt);
  (R 0xa7b0 0xa7b4, tt);
  (R 0xa7b6 0xa7b6, tt);
  (R 0xff21 0xff3a, tt);
  (R 0x10400 0x10427, tt);
  (R 0x104b0 0x104d3, tt);
  (R 0x10c80 0x10cb2, tt);
  (R 0x118a0 0x118bf, tt);
  (R 0x1d400 0x1d419, tt);
  (R 0x1d434 0x1d44d, tt);
  (R 0x1d468 0x1d481, tt);
  (R 0x1d49c 0x1d49c, tt);
  (R 0x1d49e 0x1d49f, tt);
  (R 0x1d4a2 0x1d4a2, tt);
  (R 0x1d4a5 0x1d4a6, tt);
  (R 0x1d4a9 0x1d4ac, tt);
  (R 0x1d4ae 0x1d4b5, tt);
  (R 0x1d4d0 0x1d4e9, tt);
  (R 0x1d504 0x1d505, tt);
  (R 0x1d507 0x1d50a, tt);
  (R 0x1d50d 0x1d514, tt);
  (R 0x1d516 0x1d51c, tt);
  (R 0x1d538 0x1d539, tt);
  (R 0x1d53b 0x1d53e, tt);
  (R 0x1d540 0x1d544, tt);
  (R 0x1d546 0x1d546, tt);
  (R 0x1d54a 0x1d550, tt);
  (R 0x1d56c 0x1d585, tt);
  (R 0x1d5a0 0x1d5b9, tt);
  (R 0x1d5d4 0x1d5ed, tt);
  (R 0x1d608 0x1d621, tt);
  (R 0x1d63c 0x1d655, tt);
  (R 0x1d670 0x1d689, tt);
  (R 0x1d6a8 0x1d6c0, tt);
  (R 0x1d6e2 0x1d6fa, tt);
  (R 0x1d71c 0x1d734, tt);
  (R 0x1d756 0x1d76e, tt);
  (R 0x1d790 0x1d7a8, tt);
  (R 0x1d7ca 0x1d7ca, tt);
  (R 0x1e900 0x1e921, tt);
  (R 0x1f130 0x1f149, tt);
  (R 0x1f150 0x1f169, tt);
  (R 0x1f170 0x1f189, tt)].

Definition UPPERCASE : CharDataTable unit :=
  Range (UPPERCASE_0 ++ UPPERCASE_1).

(** unic/ucd/ident/tables/id_continue.rsv:1-693 (689 entries) *)
Definition ID_CONTINUE_0 : list (CharRange * unit) := [
  (R 0x30 0x39, tt);
  (R 0x41 0x5a, tt);
  (R 0x5f 0x5f, tt);
  (R 0x61 0x7a, tt);
  (R 0xaa 0xaa, tt);
  (R 0xb5 0xb5, tt);
  (R 0xb7 0xb7, tt);
  (R 0xba 0xba, tt);
  (R 0xc0 0xd6, tt);
  (R 0xd8 0xf6, tt);
  (R 0xf8 0x2c1, tt);
  (R 0x2c6 0x2d1, tt);
  (R 0x2e0 0x2e4, tt);
  (R 0x2ec 0x2ec, tt);
  (R 0x2ee 0x2ee, tt);
  (R 0x300 0x374, tt);
  (R 0x376 0x377, tt);
  (R 0x37a 0x37d, tt);
  (R 0x37f 0x37f, tt);
  (R 0x386 0x38a, tt);
  (R 0x38c 0x38c, tt);
  (R 0x38e 0x3a1, tt);
  (R 0x3a3 0x3f5, tt);
  (R 0x3f7 0x481, tt);
  (R 0x483 0x487, tt);
  (R 0x48a 0x52f, tt);
  (R 0x531 0x556, tt);
  (R 0x559 0x559, tt);
  (R 0x561 0x587, tt);
  (R 0x591 0x5bd, tt);
  (R 0x5bf 0x5bf, tt);
  (R 0x5c1 0x5c2, tt);
  (R 0x5c4 0x5c5, tt);
  (R 0x5c7 0x5c7, tt);
  (R 0x5d0 0x5ea, tt);
  (R 0x5f0 0x5f2, tt);
  (R 0x610 0x61a, tt);
  (R 0x620 0x669, tt);
  (R 0x66e 0x6d3, tt);
  (R 0x6d5 0x6dc, tt);
  (R 0x6df 0x6e8, tt);
  (R 0x6ea 0x6fc, tt);
  (R 0x6ff 0x6ff, tt);
  (R 0x710 0x74a, tt);
  (R 0x74d 0x7b1, tt);
  (R 0x7c0 0x7f5, tt);
  (R 0x7fa 0x7fa, tt);
  (R 0x800 0x82d, tt);
  (R 0x840 0x85b, tt);
  (R 0x860 0x86a, tt);
  (R 0x8a0 0x8b4, tt);
  (R 0x8b6 0x8bd, tt);
  (R 0x8d4 0x8e1, tt);
  (R 0x8e3 0x963, tt);
  (R 0x966 0x96f, tt);
  (R 0x971 0x983, tt);
  (R 0x985 0x98c, tt);
  (R 0x98f 0x990, tt);
  (R 0x993 0x9a8, tt);
  (R 0x9aa 0x9b0, tt);
  (R 0x9b2 0x9b2, tt);
  (R 0x9b6 0x9b9, tt);
  (R 0x9bc 0x9c4, tt);
  (R 0x9c7 0x9c8, tt);
  (R 0x9cb 0x9ce, tt);
  (R 0x9d7 0x9d7, tt);
  (R 0x9dc 0x9dd, tt);
  (R 0x9df 0x9e3, tt);
  (R 0x9e6 0x9f1, tt);
  (R 0x9fc 0x9fc, tt);
  (R 0xa01 0xa03, tt);
  (R 0xa05 0xa0a, tt);
  (R 0xa0f 0xa10, tt);
  (R 0xa13 0xa28, tt);
  (R 0xa2a 0xa30, tt);
  (R 0xa32 0xa33, tt);
  (R 0xa35 0xa36, tt);
  (R 0xa38 0xa39, tt);
  (R 0xa3c 0xa3c, tt);
  (R 0xa3e 0xa42, tt);
  (R 0xa47 0xa48, tt);
  (R 0xa4b 0xa4d, tt);
  (R 0xa51 0xa51, tt);
  (R 0xa59 0xa5c, tt);
  (R 0xa5e 0xa5e, tt);
  (R 0xa66 0xa75, tt);
  (R 0xa81 0xa83, tt);
  (R 0xa85 0xa8d, tt);
  (R 0xa8f 0xa91, tt);
  (R 0xa93 0xaa8, tt);
  (R 0xaaa 0xab0, tt);
  (R 0xab2 0xab3, tt);
  (R 0xab5 0xab9, tt);
  (R 0xabc 0xac5, tt);
  (R 0xac7 0xac9, tt);
  (R 0xacb 0xacd, tt);
  (R 0xad0 0xad0, tt);
  (R 0xae0 0xae3, tt);
  (R 0xae6 0xaef, tt);
  (R 0xaf9 0xaff, tt);
  (R 0xb01 0xb03, tt);
  (R 0xb05 0xb0c, tt);
  (R 0xb0f 0xb10, tt);
  (R 0xb13 0xb28, tt);
  (R 0xb2a 0xb30, tt);
  (R 0xb32 0xb33, tt);
  (R 0xb35 0xb39, tt);
  (R 0xb3c 0xb44, tt);
  (R 0xb47 0xb48, tt);
  (R 0xb4b 0xb4d, tt);
  (R 0xb56 0xb57, tt);
  (R 0xb5c 0xb5d, tt);
  (R 0xb5f 0xb63, tt);
  (R 0xb66 0xb6f, tt);
  (R 0xb71 0xb71, tt);
  (R 0xb82 0xb83, tt);
  (R 0xb85 0xb8a, tt);
  (R 0xb8e 0xb90, tt);
  (R 0xb92 0xb95, tt);
  (R 0xb99 0xb9a, tt);
  (R 0xb9c 0xb9c, tt);
  (R 0xb9e 0xb9f, tt);
  (R 0xba3 0xba4, tt);
  (R 0xba8 0xbaa, tt);
  (R 0xbae 0xbb9, tt);
  (R 0xbbe 0xbc2, tt);
  (R 0xbc6 0xbc8, tt);
  (R 0xbca 0xbcd, tt);
  (R 0xbd0 0xbd0, tt);
  (R 0xbd7 0xbd7, tt);
  (R 0xbe6 0xbef, tt);
  (R 0xc00 0xc03, tt);
  (R 0xc05 0xc0c, tt);
  (R 0xc0e 0xc10, tt);
  (R 0xc12 0xc28, tt);
  (R 0xc2a 0xc39, tt);
  (R 0xc3d 0xc44, tt);
  (R 0xc46 0xc48, tt);
  (R 0xc4a 0xc4d, tt);
  (R 0xc55 0xc56, tt);
  (R 0xc58 0xc5a, tt);
  (R 0xc60 0xc63, tt);
  (R 0xc66 0xc6f, tt);
  (R 0xc80 0xc83, tt);
  (R 0xc85 0xc8c, tt);
  (R 0xc8e 0xc90, tt);
  (R 0xc92 0xca8, tt);
  (R 0xcaa 0xcb3, tt);
  (R 0xcb5 0xcb9, tt);
  (R 0xcbc 0xcc4, tt);
  (R 0xcc6 0xcc8, tt);
  (R 0xcca 0xccd, tt);
  (R 0xcd5 0xcd6, tt);
  (R 0xcde 0xcde, tt);
  (R 0xce0 0xce3, tt);
  (R 0xce6 0xcef, tt);
  (R 0xcf1 0xcf2, tt);
  (R 0xd00 0xd03, tt);
  (R 0xd05 0xd0c, tt);
  (R 0xd0e 0xd10, tt);
  (R 0xd12 0xd44, tt);
  (R 0xd46 0xd48, tt);
  (R 0xd4a 0xd4e, tt);
  (R 0xd54 0xd57, tt);
  (R 0xd5f 0xd63, tt);
  (R 0xd66 0xd6f, tt);
  (R 0xd7a 0xd7f, tt);
  (R 0xd82 0xd83, tt);
  (R 0xd85 0xd96, tt);
  (R 0xd9a 0xdb1, tt);
  (R 0xdb3 0xdbb, tt);
  (R 0xdbd 0xdbd, tt);
  (R 0xdc0 0xdc6, tt);
  (R 0xdca 0xdca, tt);
  (R 0xdcf 0xdd4, tt);
  (R 0xdd6 0xdd6, tt);
  (R 0xdd8 0xddf, tt);
  (R 0xde6 0xdef, tt);
  (R 0xdf2 0xdf3, tt);
  (R 0xe01 0xe3a, tt);
  (R 0xe40 0xe4e, tt);
  (R 0xe50 0xe59, tt);
  (R 0xe81 0xe82, tt);
  (R 0xe84 0xe84, tt);
  (R 0xe87 0xe88, tt);
  (R 0xe8a 0xe8a, tt);
  (R 0xe8d 0xe8d, tt);
  (R 0xe94 0xe97, tt);
  (R 0xe99 0xe9f, tt);
  (R 0xea1 0xea3, tt);
  (R 0xea5 0xea5, tt);
  (R 0xea7 0xea7, tt);
  (R 0xeaa 0xeab, tt);
  (R 0xead 0xeb9, tt);
  (R 0xebb 0xebd, tt);
  (R 0xec0 0xec4, tt);
  (R 0xec6 0xec6, tt);
  (R 0xec8 0xecd, tt);
  (R 0xed0 0xed9, tt);
  (R 0xedc 0xedf, tt);
  (R 0xf00 0xf00, tt);
  (R 0xf18 0xf19, tt);
  (R 0xf20 0xf29, tt);
  (R 0xf35 0xf35, tt);
  (R 0xf37 0xf37, tt);
  (R 0xf39 0xf39, tt);
  (R 0xf3e 0xf47, tt);
  (R 0xf49 0xf6c, tt);
  (R 0xf71 0xf84, tt);
  (R 0xf86 0xf97, tt);
  (R 0xf99 0xfbc, tt);
  (R 0xfc6 0xfc6, tt);
  (R 0x1000 0x1049, tt);
  (R 0x1050 0x109d, tt);
  (R 0x10a0 0x10c5, tt);
  (R 0x10c7 0x10c7, tt);
  (R 0x10cd 0x10cd, tt);
  (R 0x10d0 0x10fa, tt);
  (R 0x10fc 0x1248, tt);
  (R 0x124a 0x124d, tt);
  (R 0x1250 0x1256, tt);
  (R 0x1258 0x1258, tt);
  (R 0x125a 0x125d, tt);
  (R 0x1260 0x1288, tt);
  (R 0x128a 0x128d, tt);
  (R 0x1290 0x12b0, tt);
  (R 0x12b2 0x12b5, tt);
  (R 0x12b8 0x12be, tt);
  (R 0x12c0 0x12c0, tt);
  (R 0x12c2 0x12c5, tt);
  (R 0x12c8 0x12d6, tt);
  (R 0x12d8 0x1310, tt);
  (R 0x1312 0x1315, tt);
  (R 0x1318 0x135a, tt);
  (R 0x135d 0x135f, tt);
  (R 0x1369 0x1371, tt);
  (R 0x1380 0x138f, tt);
  (R 0x13a0 0x13f5, tt);
  (R 0x13f8 0x13fd, tt);
  (R 0x1401 0x166c, tt);
  (R 0x166f 0x167f, tt);
  (R 0x1681 0x169a, tt);
  (R 0x16a0 0x16ea, tt);
  (R 0x16ee 0x16f8, tt);
  (R 0x1700 0x170c, tt);
  (R 0x170e 0x1714, tt);
  (R 0x1720 0x1734, tt);
  (R 0x1740 0x1753, tt);
  (R 0x1760 0x176c, tt);
  (R 0x176e 0x1770, tt);
  (R 0x1772 0x1773, tt);
  (R 0x1780 0x17d3, tt);
  (R 0x17d7 0x17d7, tt);
  (R 0x17dc 0x17dd, tt);
  (R 0x17e0 0x17e9, tt);
  (R 0x180b 0x180d, tt);
  (R 0x1810 0x1819, tt);
  (R 0x1820 0x1877, tt);
  (R 0x1880 0x18aa, tt);
  (R 0x18b0 0x18f5, tt);
  (R 0x1900 0x191e, tt);
  (R 0x1920 0x192b, tt);
  (R 0x1930 0x193b, tt);
  (R 0x1946 0x196d, tt);
  (R 0x1970 0x1974, tt);
  (R 0x1980 0x19ab, tt);
  (R 0x19b0 0x19c9, tt);
  (R 0x19d0 0x19da, tt);
  (R 0x1a00 0x1a1b, tt);
  (R 0x1a20 0x1a5e, tt);
  (R 0x1a60 0x1a7c, tt);
  (R 0x1a7f 0x1a89, tt);
  (R 0x1a90 0x1a99, tt);
  (R 0x1aa7 0x1aa7, tt);
  (R 0x1ab0 0x1abd, tt);
  (R 0x1b00 0x1b4b, tt);
  (R 0x1b50 0x1b59, tt);
  (R 0x1b6b 0x1b73, tt);
  (R 0x1b80 0x1bf3, tt);
  (R 0x1c00 0x1c37, tt);
  (R 0x1c40 0x1c49, tt);
  (R 0x1c4d 0x1c7d, tt);
  (R 0x1c80 0x1c88, tt);
  (R 0x1cd0 0x1cd2, tt);
  (R 0x1cd4 0x1cf9, tt);
  (R 0x1d00 0x1df9, tt);
  (R 0x1dfb 0x1f15, tt);
  (R 0x1f18 0x1f1d, tt);
  (R 0x1f20 0x1f45, tt);
  (R 0x1f48 0x1f4d, tt);
  (R 0x1f50 0x1f57, tt);
  (R 0x1f59 0x1f59, tt);
  (R 0x1f5b 0x1f5b, tt);
  (R 0x1f5d 0x1f5d, tt);
  (R 0x1f5f 0x1f7d, tt);
  (R 0x1f80 0x1fb4, tt);
  (R 0x1fb6 0x1fbc, tt);
  (R 0x1fbe 0x1fbe, tt);
  (R 0x1fc2 0x1fc4, tt);
  (R 0x1fc6 0x1fcc, tt);
  (R 0x1fd0 0x1fd3, tt);
  (R 0x1fd6 0x1fdb, tt);
  (R 0x1fe0 0x1fec, tt);
  (R 0x1ff2 0x1ff4, tt);
  (R 0x1ff6 0x1ffc, tt);
  (R 0x203f 0x2040, tt);
  (R 0x2054 0x2054, tt);
  (R 0x2071 0x2071, tt);
  (R 0x207f 0x207f, tt);
  (R 0x2090 0x209c, tt);
  (R 0x20d0 0x20dc, tt);
  (R 0x20e1 0x20e1, tt);
  (R 0x20e5 0x20f0, tt);
  (R 0x2102 0x2102, tt);
  (R 0x2107 0x2107, tt);
  (R 0x210a 0x2113, tt);
  (R 0x2115 0x2115, tt);
  (R 0x2118 0x211d, tt);
  (R 0x2124 0x2124, tt);
  (R 0x2126 0x2126, tt);
  (R 0x2128 0x2128, tt);
  (R 0x212a 0x2139, tt);
  (R 0x213c 0x213f, tt);
  (R 0x2145 0x2149, tt);
  (R 0x214e 0x214e, tt);
  (R 0x2160 0x2188, tt);
  (R 0x2c00 0x2c2e, tt);
  (R 0x2c30 0x2c5e, tt);
  (R 0x2c60 0x2ce4, tt);
  (R 0x2ceb 0x2cf3, tt);
  (R 0x2d00 0x2d25, tt);
  (R 0x2d27 0x2d27, tt);
  (R 0x2d2d 0x2d2d, tt);
  (R 0x2d30 0x2d67, tt);
  (R 0x2d6f 0x2d6f, tt);
  (R 0x2d7f 0x2d96, tt);
  (R 0x2da0 0x2da6, tt);
  (R 0x2da8 0x2dae, tt);
  (R 0x2db0 0x2db6, tt);
  (R 0x2db8 0x2dbe, tt);
  (R 0x2dc0 0x2dc6, tt);
  (R 0x2dc8 0x2dce, tt);
  (R 0x2dd0 0x2dd6, tt);
  (R 0x2dd8 0x2dde, tt);
  (R 0x2de0 0x2dff, tt);
  (R 0x3005 0x3007, tt);
  (R 0x3021 0x302f, tt);
  (R 0x3031 0x3035, tt);
  (R 0x3038 0x303c, tt);
  (R 0x3041 0x3096, tt);
  (R 0x3099 0x309f, tt);
  (R 0x30a1 0x30fa, tt);
  (R 0x30fc 0x30ff, tt);
  (R 0x3105 0x312e, tt);
  (R 0x3131 0x318e, tt);
  (R 0x31a0 0x31ba, tt);
  (R 0x31f0 0x31ff, tt);
  (R 0x3400 0x4db5, tt);
  (R 0x4e00 0x9fea, tt);
  (R 0xa000 0xa48c, tt);
  (R 0xa4d0 0xa4fd, tt);
  (R 0xa500 0xa60c, tt);
  (R 0xa610 0xa62b, tt);
  (R 0xa640 0xa66f, tt);
  (R 0xa674 0xa67d, tt);
  (R 0xa67f 0xa6f1, tt);
  (R 0xa717 0xa71f, tt);
  (R 0xa722 0xa788, tt);
  (R 0xa78b 0xa7ae, tt);
  (R 0xa7b0 0xa7b7, tt);
  (R 0xa7f7 0xa827, tt);
  (R 0xa840 0xa873, tt);
  (R 0xa880 0xa8c5, tt);
  (R 0xa8d0 0xa8d9, tt);
  (R 0xa8e0 0xa8f7, tt);
  (R 0xa8fb 0xa8fb, tt);
  (R 0xa8fd 0xa8fd, tt);
  (R 0xa900 0xa92d, tt);
  (R 0xa930 0xa953, tt);
  (R 0xa960 0xa97c, tt);
  (R 0xa980 0xa9c0, tt);
  (R 0xa9cf 0xa9d9, tt);
  (R 0xa9e0 0xa9fe, tt);
  (R 0xaa00 0xaa36, tt);
  (R 0xaa40 0xaa4d, tt);
  (R 0xaa50 0xaa59, tt);
  (R 0xaa60 0xaa76, tt);
  (R 0xaa7a 0xaac2, tt);
  (R 0xaadb 0xaadd, tt);
  (R 0xaae0 0xaaef, tt);
  (R 0xaaf2 0xaaf6, tt);
  (R 0xab01 0xab06, tt);
  (R 0xab09 0xab0e, tt);
  (R 0xab11 0xab16, tt);
  (R 0xab20 0xab26, tt);
  (R 0xab28 0xab2e, tt);
  (R 0xab30 0xab5a, tt);
  (R 0xab5c 0xab65, tt);
  (R 0xab70 0xabea, tt);
  (R 0xabec 0xabed, tt)].

Definition ID_CONTINUE_1 : list (CharRange * unit) := [
  (R 0xabf0 0xabf9, tt);
  (R 0xac00 0xd7a3, tt);
  (R 0xd7b0 0xd7c6, tt);
  (R 0xd7cb 0xd7fb, tt);
  (R 0xf900 0xfa6d, tt);
  (R 0xfa70 0xfad9, tt);
  (R 0xfb00 0xfb06, tt);
  (R 0xfb13 0xfb17, tt);
  (R 0xfb1d 0xfb28, tt);
  (R 0xfb2a 0xfb36, tt);
  (R 0xfb38 0xfb3c, tt);
  (R 0xfb3e 0xfb3e, tt);
  (R 0xfb40 0xfb41, tt);
  (R 0xfb43 0xfb44, tt);
  (R 0xfb46 0xfbb1, tt);
  (R 0xfbd3 0xfd3d, tt);
  (R 0xfd50 0xfd8f, tt);
  (R 0xfd92 0xfdc7, tt);
  (R 0xfdf0 0xfdfb, tt);
  (R 0xfe00 0xfe0f, tt);
  (R 0xfe20 0xfe2f, tt);
  (R 0xfe33 0xfe34, tt);
  (R 0xfe4d 0xfe4f, tt);
  (R 0xfe70 0xfe74, tt);
  (R 0xfe76 0xfefc, tt);
  (R 0xff10 0xff19, tt);
  (R 0xff21 0xff3a, tt);
  (R 0xff3f 0xff3f, tt);
  (R 0xff41 0xff5a, tt);
  (R 0xff66 0xffbe, tt);
  (R 0xffc2 0xffc7, tt);
  (R 0xffca 0xffcf, tt);
  (R 0xffd2 0xffd7, tt);
  (R 0xffda 0xffdc, tt);
  (R 0x10000 0x1000b, tt);
  (R 0x1000d 0x10026, tt);
  (R 0x10028 0x1003a, tt);
  (R 0x1003c 0x1003d, tt);
  (R 0x1003f 0x1004d, tt);
  (R 0x10050 0x1005d, tt);
  (R 0x10080 0x100fa, tt);
  (R 0x10140 0x10174, tt);
  (R 0x101fd 0x101fd, tt);
  (R 0x10280 0x1029c, tt);
  (R 0x102a0 0x102d0, tt);
  (R 0x102e0 0x102e0, tt);
  (R 0x10300 0x1031f, tt);
  (R 0x1032d 0x1034a, tt);
  (R 0x10350 0x1037a, tt);
  (R 0x10380 0x1039d, tt);
  (R 0x103a0 0x103c3, tt);
  (R 0x103c8 0x103cf, tt);
  (R 0x103d1 0x103d5, tt);
  (R 0x10400 0x1049d, tt);
  (R 0x104a0 0x104a9, tt);
  (R 0x104b0 0x104d3, tt);
  (R 0x104d8 0x104fb, tt);
  (R 0x10500 0x10527, tt);
  (R 0x10530 0x10563, tt);
  (R 0x10600 0x10736, tt);
  (R 0x10740 0x10755, tt);
  (R 0x10760 0x10767, tt);
  (R 0x10800 0x10805, tt);
  (R 0x10808 0x10808, tt);
  (R 0x1080a 0x10835, tt);
  (R 0x10837 0x10838, tt);
  (R 0x1083c 0x1083c, tt);
  (R 0x1083f 0x10855, tt);
  (R 0x10860 0x10876, tt);
  (R 0x10880 0x1089e, tt);
  (R 0x108e0 0x108f2, tt);
  (R 0x108f4 0x108f5, tt);
  (R 0x10900 0x10915, tt);
  (R 0x10920 0x10939, tt);
  (R 0x10980 0x109b7, tt);
  (R 0x109be 0x109bf, tt);
  (R 0x10a00 0x10a03, tt);
  (R 0x10a05 0x10a06, tt);
  (R 0x10a0c 0x10a13, tt);
  (R 0x10a15 0x10a17, tt);
  (R 0x10a19 0x10a33, tt);
  (R 0x10a38 0x10a3a, tt);
  (R 0x10a3f 0x10a3f, tt);
  (R 0x10a60 0x10a7c, tt);
  (R 0x10a80 0x10a9c, tt);
  (R 0x10ac0 0x10ac7, tt);
  (R 0x10ac9 0x10ae6, tt);
  (R 0x10b00 0x10b35, tt);
  (R 0x10b40 0x10b55, tt);
  (R 0x10b60 0x10b72, tt);
  (R 0x10b80 0x10b91, tt);
  (R 0x10c00 0x10c48, tt);
  (R 0x10c80 0x10cb2, tt);
  (R 0x10cc0 0x10cf2, tt);
  (R 0x11000 0x11046, tt);
  (R 0x11066 0x1106f, tt);
  (R 0x1107f 0x110ba, tt);
  (R 0x110d0 0x110e8, tt);
  (R 0x110f0 0x110f9, tt);
  (R 0x11100 0x11134, tt);
  (R 0x11136 0x1113f, tt);
  (R 0x11150 0x11173, tt);
  (R 0x11176 0x11176, tt);
  (R 0x11180 0x111c4, tt);
  (R 0x111ca 0x111cc, tt);
  (R 0x111d0 0x111da, tt);
  (R 0x111dc 0x111dc, tt);
  (R 0x11200 0x11211, tt);
  (R 0x11213 0x11237, tt);
  (R 0x1123e 0x1123e, tt);
  (R 0x11280 0x11286, tt);
  (R 0x11288 0x11288, tt);
  (R 0x1128a 0x1128d, tt);
  (R 0x1128f 0x1129d, tt);
  (R 0x1129f 0x112a8, tt);
  (R 0x112b0 0x112ea, tt);
  (R 0x112f0 0x112f9, tt);
  (R 0x11300 0x11303, tt);
  (R 0x11305 0x1130c, tt);
  (R 0x1130f 0x11310, tt);
  (R 0x11313 0x11328, tt);
  (R 0x1132a 0x11330, tt);
  (R 0x11332 0x11333, tt);
  (R 0x11335 0x11339, tt);
  (R 0x1133c 0x11344, tt);
  (R 0x11347 0x11348, tt);
  (R 0x1134b 0x1134d, tt);
  (R 0x11350 0x11350, tt);
  (R 0x11357 0x11357, tt);
  (R 0x1135d 0x11363, tt);
  (R 0x11366 0x1136c, tt);
  (R 0x11370 0x11374, tt);
  (R 0x11400 0x1144a, tt);
  (R 0x11450 0x11459, tt);
  (R 0x11480 0x114c5, tt);
  (R 0x114c7 0x114c7, tt);
  (R 0x114d0 0x114d9, tt);
  (R 0x11580 0x115b5, tt);
  (R 0x115b8 0x115c0, tt);
  (R 0x115d8 0x115dd, tt);
  (R 0x11600 0x11640, tt);
  (R 0x11644 0x11644, tt);
  (R 0x11650 0x11659, tt);
  (R 0x11680 0x116b7, tt);
  (R 0x116c0 0x116c9, tt);
  (R 0x11700 0x11719, tt);
  (R 0x1171d 0x1172b, tt);
  (R 0x11730 0x11739, tt);
  (R 0x118a0 0x118e9, tt);
  (R 0x118ff 0x118ff, tt);
  (R 0x11a00 0x11a3e, tt);
  (R 0x11a47 0x11a47, tt);
  (R 0x11a50 0x11a83, tt);
  (R 0x11a86 0x11a99, tt);
  (R 0x11ac0 0x11af8, tt);
  (R 0x11c00 0x11c08, tt);
  (R 0x11c0a 0x11c36, tt);
  (R 0x11c38 0x11c40, tt);
  (R 0x11c50 0x11c59, tt);
  (R 0x11c72 0x11c8f, tt);
  (R 0x11c92 0x11ca7, tt);
  (R 0x11ca9 0x11cb6, tt);
  (R 0x11d00 0x11d06, tt);
  (R 0x11d08 0x11d09, tt);
  (R 0x11d0b 0x11d36, tt);
  (R 0x11d3a 0x11d3a, tt);
  (R 0x11d3c 0x11d3d, tt);
  (R 0x11d3f 0x11d47, tt);
  (R 0x11d50 0x11d59, tt);
  (R 0x12000 0x12399, tt);
  (R 0x12400 0x1246e, tt);
  (R 0x12480 0x12543, tt);
  (R 0x13000 0x1342e, tt);
  (R 0x14400 0x14646, tt);
  (R 0x16800 0x16a38, tt);
  (R 0x16a40 0x16a5e, tt);
  (R 0x16a60 0x16a69, tt);
  (R 0x16ad0 0x16aed, tt);
  (R 0x16af0 0x16af4, tt);
  (R 0x16b00 0x16b36, tt);
  (R 0x16b40 0x16b43, tt);
  (R 0x16b50 0x16b59, tt);
  (R 0x16b63 0x16b77, tt);
  (R 0x16b7d 0x16b8f, tt);
  (R 0x16f00 0x16f44, tt);
  (R 0x16f50 0x16f7e, tt);
  (R 0x16f8f 0x16f9f, tt);
  (R 0x16fe0 0x16fe1, tt);
  (R 0x17000 0x187ec, tt);
  (R 0x18800 0x18af2, tt);
  (R 0x1b000 0x1b11e, tt);
  (R 0x1b170 0x1b2fb, tt);
  (R 0x1bc00 0x1bc6a, tt);
  (R 0x1bc70 0x1bc7c, tt);
  (R 0x1bc80 0x1bc88, tt);
  (R 0x1bc90 0x1bc99, tt);
  (R 0x1bc9d 0x1bc9e, tt);
  (R 0x1d165 0x1d169, tt);
  (R 0x1d16d 0x1d172, tt);
  (R 0x1d17b 0x1d182, tt);
  (R 0x1d185 0x1d18b, tt);
  (R 0x1d1aa 0x1d1ad, tt);
  (R 0x1d242 0x1d244, tt);
  (R 0x1d400 0x1d454, tt);
  (R 0x1d456 0x1d49c, tt);
  (R 0x1d49e 0x1d49f, tt);
  (R 0x1d4a2 0x1d4a2, tt);
  (R 0x1d4a5 0x1d4a6, tt);
  (R 0x1d4a9 0x1d4ac, tt);
  (R 0x1d4ae 0x1d4b9, tt);
  (R 0x1d4bb 0x1d4bb, tt);
  (R 0x1d4bd 0x1d4c3, tt);
  (R 0x1d4c5 0x1d505, tt);
  (R 0x1d507 0x1d50a, tt);
  (R 0x1d50d 0x1d514, tt);
  (R 0x1d516 0x1d51c, tt);
  (R 0x1d51e 0x1d539, tt);
  (R 0x1d53b 0x1d53e, tt);
  (R 0x1d540 0x1d544, tt);
  (R 0x1d546 0x1d546, tt);
  (R 0x1d54a 0x1d550, tt);
  (R 0x1d552 0x1d6a5, tt);
  (R 0x1d6a8 0x1d6c0, tt);
  (R 0x1d6c2 0x1d6da, tt);
  (R 0x1d6dc 0x1d6fa, tt);
  (R 0x1d6fc 0x1d714, tt);
  (R 0x1d716 0x1d734, tt);
  (R 0x1d736 0x1d74e, tt);
  (R 0x1d750 0x1d76e, tt);
  (R 0x1d770 0x1d788, tt);
  (R 0x1d78a 0x1d7a8, tt);
  (R 0x1d7aa 0x1d7c2, tt);
  (R 0x1d7c4 0x1d7cb, tt);
  (R 0x1d7ce 0x1d7ff, tt);
  (R 0x1da00 0x1da36, tt);
  (R 0x1da3b 0x1da6c, tt);
  (R 0x1da75 0x1da75, tt);
  (R 0x1da84 0x1da84, tt);
  (R 0x1da9b 0x1da9f, tt);
  (R 0x1daa1 0x1daaf, tt);
  (R 0x1e000 0x1e006, tt);
  (R 0x1e008 0x1e018, tt);
  (R 0x1e01b 0x1e021, tt);
  (R 0x1e023 0x1e024, tt);
  (R 0x1e026 0x1e02a, tt);
  (R 0x1e800 0x1e8c4, tt);
  (R 0x1e8d0 0x1e8d6, tt);
  (R 0x1e900 0x1e94a, tt);
  (R 0x1e950 0x1e959, tt);
  (R 0x1ee00 0x1ee03, tt);
  (R 0x1ee05 0x1ee1f, tt);
  (R 0x1ee21 0x1ee22, tt);
  (R 0x1ee24 0x1ee24, tt);
  (R 0x1ee27 0x1ee27, tt);
  (R 0x1ee29 0x1ee32, tt);
  (R 0x1ee34 0x1ee37, tt);
  (R 0x1ee39 0x1ee39, tt);
  (R 0x1ee3b 0x1ee3b, tt);
  (R 0x1ee42 0x1ee42, tt);
  (R 0x1ee47 0x1ee47, tt);
  (R 0x1ee49 0x1ee49, tt);
  (R 0x1ee4b 0x1ee4b, tt);
  (R 0x1ee4d 0x1ee4f, tt);
  (R 0x1ee51 0x1ee52, tt);
  (R 0x1ee54 0x1ee54, tt);
  (R 0x1ee57 0x1ee57, tt);
  (R 0x1ee59 0x1ee59, tt);
  (R 0x1ee5b 0x1ee5b, tt);
  (R 0x1ee5d 0x1ee5d, tt);
  (R 0x1ee5f 0x1ee5f, tt);
  (R 0x1ee61 0x1ee62, tt);
  (R 0x1ee64 0x1ee64, tt);
  (R 0x1ee67 0x1ee6a, tt);
  (R 0x1ee6c 0x1ee72, tt);
  (R 0x1ee74 0x1ee77, tt);
  (R 0x1ee79 0x1ee7c, tt);
  (R 0x1ee7e 0x1ee7e, tt);
  (R 0x1ee80 0x1ee89, tt);
  (R 0x1ee8b 0x1ee9b, tt);
  (R 0x1eea1 0x1eea3, tt);
  (R 0x1eea5 0x1eea9, tt);
  (R 0x1eeab 0x1eebb, tt);
  (R 0x20000 0x2a6d6, tt);
  (R 0x2a700 0x2b734, tt);
  (R 0x2b740 0x2b81d, tt);
  (R 0x2b820 0x2cea1, tt);
  (R 0x2ceb0 0x2ebe0, tt);
  (R 0x2f800 0x2fa1d, tt);
  (R 0xe0100 0xe01ef, tt)].

Definition ID_CONTINUE : CharDataTable unit :=
  Range (ID_CONTINUE_0 ++ ID_CONTINUE_1).

(** unic/ucd/ident/tables/id_start.rsv:1-589 (585 entries) *)
Definition ID_START_0 : list (CharRange * unit) := [
  (R 0x41 0x5a, tt);
  (R 0x61 0x7a, tt);
  (R 0xaa 0xaa, tt);
  (R 0xb5 0xb5, tt);
  (R 0xba 0xba, tt);
  (R 0xc0 0xd6, tt);
  (R 0xd8 0xf6, tt);
  (R 0xf8 0x2c1, tt);
  (R 0x2c6 0x2d1, tt);
  (R 0x2e0 0x2e4, tt);
  (R 0x2ec 0x2ec, tt);
  (R 0x2ee 0x2ee, tt);
  (R 0x370 0x374, tt);
  (R 0x376 0x377, tt);
  (R 0x37a 0x37d, tt);
  (R 0x37f 0x37f, tt);
  (R 0x386 0x386, tt);
  (R 0x388 0x38a, tt);
  (R 0x38c 0x38c, tt);
  (R 0x38e 0x3a1, tt);
  (R 0x3a3 0x3f5, tt);
  (R 0x3f7 0x481, tt);
  (R 0x48a 0x52f, tt);
  (R 0x531 0x556, tt);
  (R 0x559 0x559, tt);
  (R 0x561 0x587, tt);
  (R 0x5d0 0x5ea, tt);
  (R 0x5f0 0x5f2, tt);
  (R 0x620 0x64a, tt);
  (R 0x66e 0x66f, tt);
  (R 0x671 0x6d3, tt);
  (R 0x6d5 0x6d5, tt);
  (R 0x6e5 0x6e6, tt);
  (R 0x6ee 0x6ef, tt);
  (R 0x6fa 0x6fc, tt);
  (R 0x6ff 0x6ff, tt);
  (R 0x710 0x710, tt);
  (R 0x712 0x72f, tt);
  (R 0x74d 0x7a5, tt);
  (R 0x7b1 0x7b1, tt);
  (R 0x7ca 0x7ea, tt);
  (R 0x7f4 0x7f5, tt);
  (R 0x7fa 0x7fa, tt);
  (R 0x800 0x815, tt);
  (R 0x81a 0x81a, tt);
  (R 0x824 0x824, tt);
  (R 0x828 0x828, tt);
  (R 0x840 0x858, tt);
  (R 0x860 0x86a, tt);
  (R 0x8a0 0x8b4, tt);
  (R 0x8b6 0x8bd, tt);
  (R 0x904 0x939, tt);
  (R 0x93d 0x93d, tt);
  (R 0x950 0x950, tt);
  (R 0x958 0x961, tt);
  (R 0x971 0x980, tt);
  (R 0x985 0x98c, tt);
  (R 0x98f 0x990, tt);
  (R 0x993 0x9a8, tt);
  (R 0x9aa 0x9b0, tt);
  (R 0x9b2 0x9b2, tt);
  (R 0x9b6 0x9b9, tt);
  (R 0x9bd 0x9bd, tt);
  (R 0x9ce 0x9ce, tt);
  (R 0x9dc 0x9dd, tt);
  (R 0x9df 0x9e1, tt);
  (R 0x9f0 0x9f1, tt);
  (R 0x9fc 0x9fc, tt);
  (R 0xa05 0xa0a, tt);
  (R 0xa0f 0xa10, tt);
  (R 0xa13 0xa28, tt);
  (R 0xa2a 0xa30, tt);
  (R 0xa32 0xa33, tt);
  (R 0xa35 0xa36, tt);
  (R 0xa38 0xa39, tt);
  (R 0xa59 0xa5c, tt);
  (R 0xa5e 0xa5e, tt);
  (R 0xa72 0xa74, tt);
  (R 0xa85 0xa8d, tt);
  (R 0xa8f 0xa91, tt);
  (R 0xa93 0xaa8, tt);
  (R 0xaaa 0xab0, tt);
  (R 0xab2 0xab3, tt);
  (R 0xab5 0xab9, tt);
  (R 0xabd 0xabd, tt);
  (R 0xad0 0xad0, tt);
  (R 0xae0 0xae1, tt);
  (R 0xaf9 0xaf9, tt);
  (R 0xb05 0xb0c, tt);
  (R 0xb0f 0xb10, tt);
  (R 0xb13 0xb28, tt);
  (R 0xb2a 0xb30, tt);
  (R 0xb32 0xb33, tt);
  (R 0xb35 0xb39, tt);
  (R 0xb3d 0xb3d, tt);
  (R 0xb5c 0xb5d, tt);
  (R 0xb5f 0xb61, tt);
  (R 0xb71 0xb71, tt);
  (R 0xb83 0xb83, tt);
  (R 0xb85 0xb8a, tt);
  (R 0xb8e 0xb90, tt);
  (R 0xb92 0xb95, tt);
  (R 0xb99 0xb9a, tt);
  (R 0xb9c 0xb9c, tt);
  (R 0xb9e 0xb9f, tt);
  (R 0xba3 0xba4, tt);
  (R 0xba8 0xbaa, tt);
  (R 0xbae 0xbb9, tt);
  (R 0xbd0 0xbd0, tt);
  (R 0xc05 0xc0c, tt);
  (R 0xc0e 0xc10, tt);
  (R 0xc12 0xc28, tt);
  (R 0xc2a 0xc39, tt);
  (R 0xc3d 0xc3d, tt);
  (R 0xc58 0xc5a, tt);
  (R 0xc60 0xc61, tt);
  (R 0xc80 0xc80, tt);
  (R 0xc85 0xc8c, tt);
  (R 0xc8e 0xc90, tt);
  (R 0xc92 0xca8, tt);
  (R 0xcaa 0xcb3, tt);
  (R 0xcb5 0xcb9, tt);
  (R 0xcbd 0xcbd, tt);
  (R 0xcde 0xcde, tt);
  (R 0xce0 0xce1, tt);
  (R 0xcf1 0xcf2, tt);
  (R 0xd05 0xd0c, tt);
  (R 0xd0e 0xd10, tt);
  (R 0xd12 0xd3a, tt);
  (R 0xd3d 0xd3d, tt);
  (R 0xd4e 0xd4e, tt);
  (R 0xd54 0xd56, tt);
  (R 0xd5f 0xd61, tt);
  (R 0xd7a 0xd7f, tt);
  (R 0xd85 0xd96, tt);
  (R 0xd9a 0xdb1, tt);
  (R 0xdb3 0xdbb, tt);
  (R 0xdbd 0xdbd, tt);
  (R 0xdc0 0xdc6, tt);
  (R 0xe01 0xe30, tt);
  (R 0xe32 0xe33, tt);
  (R 0xe40 0xe46, tt);
  (R 0xe81 0xe82, tt);
  (R 0xe84 0xe84, tt);
  (R 0xe87 0xe88, tt);
  (R 0xe8a 0xe8a, tt);
  (R 0xe8d 0xe8d, tt);
  (R 0xe94 0xe97, tt);
  (R 0xe99 0xe9f, tt);
  (R 0xea1 0xea3, tt);
  (R 0xea5 0xea5, tt);
  (R 0xea7 0xea7, tt);
  (R 0xeaa 0xeab, tt);
  (R 0xead 0xeb0, tt);
  (R 0xeb2 0xeb3, tt);
  (R 0xebd 0xebd, tt);
  (R 0xec0 0xec4, tt);
  (R 0xec6 0xec6, tt);
  (R 0xedc 0xedf, tt);
  (R 0xf00 0xf00, tt);
  (R 0xf40 0xf47, tt);
  (R 0xf49 0xf6c, tt);
  (R 0xf88 0xf8c, tt);
  (R 0x1000 0x102a, tt);
  (R 0x103f 0x103f, tt);
  (R 0x1050 0x1055, tt);
  (R 0x105a 0x105d, tt);
  (R 0x1061 0x1061, tt);
  (R 0x1065 0x1066, tt);
  (R 0x106e 0x1070, tt);
  (R 0x1075 0x1081, tt);
  (R 0x108e 0x108e, tt);
  (R 0x10a0 0x10c5, tt);
  (R 0x10c7 0x10c7, tt);
  (R 0x10cd 0x10cd, tt);
  (R 0x10d0 0x10fa, tt);
  (R 0x10fc 0x1248, tt);
  (R 0x124a 0x124d, tt);
  (R 0x1250 0x1256, tt);
  (R 0x1258 0x1258, tt);
  (R 0x125a 0x125d, tt);
  (R 0x1260 0x1288, tt);
  (R 0x128a 0x128d, tt);
  (R 0x1290 0x12b0, tt);
  (R 0x12b2 0x12b5, tt);
  (R 0x12b8 0x12be, tt);
  (R 0x12c0 0x12c0, tt);
  (R 0x12c2 0x12c5, tt);
  (R 0x12c8 0x12d6, tt);
  (R 0x12d8 0x1310, tt);
  (R 0x1312 0x1315, tt);
  (R 0x1318 0x135a, tt);
  (R 0x1380 0x138f, tt);
  (R 0x13a0 0x13f5, tt);
  (R 0x13f8 0x13fd, tt);
  (R 0x1401 0x166c, tt);
  (R 0x166f 0x167f, tt);
  (R 0x1681 0x169a, tt);
  (R 0x16a0 0x16ea, tt);
  (R 0x16ee 0x16f8, tt);
  (R 0x1700 0x170c, tt);
  (R 0x170e 0x1711, tt);
  (R 0x1720 0x1731, tt);
  (R 0x1740 0x1751, tt);
  (R 0x1760 0x176c, tt);
  (R 0x176e 0x1770, tt);
  (R 0x1780 0x17b3, tt);
  (R 0x17d7 0x17d7, tt);
  (R 0x17dc 0x17dc, tt);
  (R 0x1820 0x1877, tt);
  (R 0x1880 0x18a8, tt);
  (R 0x18aa 0x18aa, tt);
  (R 0x18b0 0x18f5, tt);
  (R 0x1900 0x191e, tt);
  (R 0x1950 0x196d, tt);
  (R 0x1970 0x1974, tt);
  (R 0x1980 0x19ab, tt);
  (R 0x19b0 0x19c9, tt);
  (R 0x1a00 0x1a16, tt);
  (R 0x1a20 0x1a54, tt);
  (R 0x1aa7 0x1aa7, tt);
  (R 0x1b05 0x1b33, tt);
  (R 0x1b45 0x1b4b, tt);
  (R 0x1b83 0x1ba0, tt);
  (R 0x1bae 0x1baf, tt);
  (R 0x1bba 0x1be5, tt);
  (R 0x1c00 0x1c23, tt);
  (R 0x1c4d 0x1c4f, tt);
  (R 0x1c5a 0x1c7d, tt);
  (R 0x1c80 0x1c88, tt);
  (R 0x1ce9 0x1cec, tt);
  (R 0x1cee 0x1cf1, tt);
  (R 0x1cf5 0x1cf6, tt);
  (R 0x1d00 0x1dbf, tt);
  (R 0x1e00 0x1f15, tt);
  (R 0x1f18 0x1f1d, tt);
  (R 0x1f20 0x1f45, tt);
  (R 0x1f48 0x1f4d, tt);
  (R 0x1f50 0x1f57, tt);
  (R 0x1f59 0x1f59, tt);
  (R 0x1f5b 0x1f5b, tt);
  (R 0x1f5d 0x1f5d, tt);
  (R 0x1f5f 0x1f7d, tt);
  (R 0x1f80 0x1fb4, tt);
  (R 0x1fb6 0x1fbc, tt);
  (R 0x1fbe 0x1fbe, tt);
  (R 0x1fc2 0x1fc4, tt);
  (R 0x1fc6 0x1fcc, tt);
  (R 0x1fd0 0x1fd3, tt);
  (R 0x1fd6 0x1fdb, tt);
  (R 0x1fe0 0x1fec, tt);
  (R 0x1ff2 0x1ff4, tt);
  (R 0x1ff6 0x1ffc, tt);
  (R 0x2071 0x2071, tt);
  (R 0x207f 0x207f, tt);
  (R 0x2090 0x209c, tt);
  (R 0x2102 0x2102, tt);
  (R 0x2107 0x2107, tt);
  (R 0x210a 0x2113, tt);
  (R 0x2115 0x2115, tt);
  (R 0x2118 0x211d, tt);
  (R 0x2124 0x2124, tt);
  (R 0x2126 0x2126, tt);
  (R 0x2128 0x2128, tt);
  (R 0x212a 0x2139, tt);
  (R 0x213c 0x213f, tt);
  (R 0x2145 0x2149, tt);
  (R 0x214e 0x214e, tt);
  (R 0x2160 0x2188, tt);
  (R 0x2c00 0x2c2e, tt);
  (R 0x2c30 0x2c5e, tt);
  (R 0x2c60 0x2ce4, tt);
  (R 0x2ceb 0x2cee, tt);
  (R 0x2cf2 0x2cf3, tt);
  (R 0x2d00 0x2d25, tt);
  (R 0x2d27 0x2d27, tt);
  (R 0x2d2d 0x2d2d, tt);
  (R 0x2d30 0x2d67, tt);
  (R 0x2d6f 0x2d6f, tt);
  (R 0x2d80 0x2d96, tt);
  (R 0x2da0 0x2da6, tt);
  (R 0x2da8 0x2dae, tt);
  (R 0x2db0 0x2db6, tt);
  (R 0x2db8 0x2dbe, tt);
  (R 0x2dc0 0x2dc6, tt);
  (R 0x2dc8 0x2dce, tt);
  (R 0x2dd0 0x2dd6, tt);
  (R 0x2dd8 0x2dde, tt);
  (R 0x3005 0x3007, tt);
  (R 0x3021 0x3029, tt);
  (R 0x3031 0x3035, tt);
  (R 0x3038 0x303c, tt);
  (R 0x3041 0x3096, tt);
  (R 0x309b 0x309f, tt);
  (R 0x30a1 0x30fa, tt);
  (R 0x30fc 0x30ff, tt);
  (R 0x3105 0x312e, tt);
  (R 0x3131 0x318e, tt);
  (R 0x31a0 0x31ba, tt);
  (R 0x31f0 0x31ff, tt);
  (R 0x3400 0x4db5, tt);
  (R 0x4e00 0x9fea, tt);
  (R 0xa000 0xa48c, tt);
  (R 0xa4d0 0xa4fd, tt);
  (R 0xa500 0xa60c, tt);
  (R 0xa610 0xa61f, tt);
  (R 0xa62a 0xa62b, tt);
  (R 0xa640 0xa66e, tt);
  (R 0xa67f 0xa69d, tt);
  (R 0xa6a0 0xa6ef, tt);
  (R 0xa717 0xa71f, tt);
  (R 0xa722 0xa788, tt);
  (R 0xa78b 0xa7ae, tt);
  (R 0xa7b0 0xa7b7, tt);
  (R 0xa7f7 0xa801, tt);
  (R 0xa803 0xa805, tt);
  (R 0xa807 0xa80a, tt);
  (R 0xa80c 0xa822, tt);
  (R 0xa840 0xa873, tt);
  (R 0xa882 0xa8b3, tt);
  (R 0xa8f2 0xa8f7, tt);
  (R 0xa8fb 0xa8fb, tt);
  (R 0xa8fd 0xa8fd, tt);
  (R 0xa90a 0xa925, tt);
  (R 0xa930 0xa946, tt);
  (R 0xa960 0xa97c, tt);
  (R 0xa984 0xa9b2, tt);
  (R 0xa9cf 0xa9cf, tt);
  (R 0xa9e0 0xa9e4, tt);
  (R 0xa9e6 0xa9ef, tt);
  (R 0xa9fa 0xa9fe, tt);
  (R 0xaa00 0xaa28, tt);
  (R 0xaa40 0xaa42, tt);
  (R 0xaa44 0xaa4b, tt);
  (R 0xaa60 0xaa76, tt);
  (R 0xaa7a 0xaa7a, tt);
  (R 0xaa7e 0xaaaf, tt);
  (R 0xaab1 0xaab1, tt);
  (R 0xaab5 0xaab6, tt);
  (R 0xaab9 0xaabd, tt);
  (R 0xaac0 0xaac0, tt);
  (R 0xaac2 0xaac2, tt);
  (R 0xaadb 0xaadd, tt);
  (R 0xaae0 0xaaea, tt);
  (R 0xaaf2 0xaaf4, tt);
  (R 0xab01 0xab06, tt);
  (R 0xab09 0xab0e, tt);
  (R 0xab11 0xab16, tt);
  (R 0xab20 0xab26, tt);
  (R 0xab28 0xab2e, tt);
  (R 0xab30 0xab5a, tt);
  (R 0xab5c 0xab65, tt);
  (R 0xab70 0xabe2, tt);
  (R 0xac00 0xd7a3, tt);
  (R 0xd7b0 0xd7c6, tt);
  (R 0xd7cb 0xd7fb, tt);
  (R 0xf900 0xfa6d, tt);
  (R 0xfa70 0xfad9, tt);
  (R 0xfb00 0xfb06, tt);
  (R 0xfb13 0xfb17, tt);
  (R 0xfb1d 0xfb1d, tt);
  (R 0xfb1f 0xfb28, tt);
  (R 0xfb2a 0xfb36, tt);
  (R 0xfb38 0xfb3c, tt);
  (R 0xfb3e 0xfb3e, tt);
  (R 0xfb40 0xfb41, tt);
  (R 0xfb43 0xfb44, tt);
  (R 0xfb46 0xfbb1, tt);
  (R 0xfbd3 0xfd3d, tt);
  (R 0xfd50 0xfd8f, tt);
  (R 0xfd92 0xfdc7, tt);
  (R 0xfdf0 0xfdfb, tt);
  (R 0xfe70 0xfe74, tt);
  (R 0xfe76 0xfefc, tt);
  (R 0xff21 0xff3a, tt);
  (R 0xff41 0xff5a, tt);
  (R 0xff66 0xffbe, tt);
  (R 0xffc2 0xffc7, tt);
  (R 0xffca 0xffcf, tt);
  (R 0xffd2 0xffd7, tt);
  (R 0xffda 0xffdc, tt);
  (R 0x10000 0x1000b, tt);
  (R 0x1000d 0x10026, tt);
  (R 0x10028 0x1003a, tt);
  (R 0x1003c 0x1003d, tt);
  (R 0x1003f 0x1004d, tt);
  (R 0x10050 0x1005d, tt);
  (R 0x10080 0x100fa, tt);
  (R 0x10140 0x10174, tt);
  (R 0x10280 0x1029c, tt);
  (R 0x102a0 0x102d0, tt);
  (R 0x10300 0x1031f, tt);
  (R 0x1032d 0x1034a, tt);
  (R 0x10350 0x10375, tt);
  (R 0x10380 0x1039d, tt);
  (R 0x103a0 0x103c3, tt);
  (R 0x103c8 0x103cf, tt);
  (R 0x103d1 0x103d5, tt);
  (R 0x10400 0x1049d, tt);
  (R 0x104b0 0x104d3, tt)].

Definition ID_START_1 : list (CharRange * unit) := [
  (R 0x104d8 0x104fb, tt);
  (R 0x10500 0x10527, tt);
  (R 0x10530 0x10563, tt);
  (R 0x10600 0x10736, tt);
  (R 0x10740 0x10755, tt);
  (R 0x10760 0x10767, tt);
  (R 0x10800 0x10805, tt);
  (R 0x10808 0x10808, tt);
  (R 0x1080a 0x10835, tt);
  (R 0x10837 0x10838, tt);
  (R 0x1083c 0x1083c, tt);
  (R 0x1083f 0x10855, tt);
  (R 0x10860 0x10876, tt);
  (R 0x10880 0x1089e, tt);
  (R 0x108e0 0x108f2, tt);
  (R 0x108f4 0x108f5, tt);
  (R 0x10900 0x10915, tt);
  (R 0x10920 0x10939, tt);
  (R 0x10980 0x109b7, tt);
  (R 0x109be 0x109bf, tt);
  (R 0x10a00 0x10a00, tt);
  (R 0x10a10 0x10a13, tt);
  (R 0x10a15 0x10a17, tt);
  (R 0x10a19 0x10a33, tt);
  (R 0x10a60 0x10a7c, tt);
  (R 0x10a80 0x10a9c, tt);
  (R 0x10ac0 0x10ac7, tt);
  (R 0x10ac9 0x10ae4, tt);
  (R 0x10b00 0x10b35, tt);
  (R 0x10b40 0x10b55, tt);
  (R 0x10b60 0x10b72, tt);
  (R 0x10b80 0x10b91, tt);
  (R 0x10c00 0x10c48, tt);
  (R 0x10c80 0x10cb2, tt);
  (R 0x10cc0 0x10cf2, tt);
  (R 0x11003 0x11037, tt);
  (R 0x11083 0x110af, tt);
  (R 0x110d0 0x110e8, tt);
  (R 0x11103 0x11126, tt);
  (R 0x11150 0x11172, tt);
  (R 0x11176 0x11176, tt);
  (R 0x11183 0x111b2, tt);
  (R 0x111c1 0x111c4, tt);
  (R 0x111da 0x111da, tt);
  (R 0x111dc 0x111dc, tt);
  (R 0x11200 0x11211, tt);
  (R 0x11213 0x1122b, tt);
  (R 0x11280 0x11286, tt);
  (R 0x11288 0x11288, tt);
  (R 0x1128a 0x1128d, tt);
  (R 0x1128f 0x1129d, tt);
  (R 0x1129f 0x112a8, tt);
  (R 0x112b0 0x112de, tt);
  (R 0x11305 0x1130c, tt);
  (R 0x1130f 0x11310, tt);
  (R 0x11313 0x11328, tt);
  (R 0x1132a 0x11330, tt);
  (R 0x11332 0x11333, tt);
  (R 0x11335 0x11339, tt);
  (R 0x1133d 0x1133d, tt);
  (R 0x11350 0x11350, tt);
  (R 0x1135d 0x11361, tt);
  (R 0x11400 0x11434, tt);
  (R 0x11447 0x1144a, tt);
  (R 0x11480 0x114af, tt);
  (R 0x114c4 0x114c5, tt);
  (R 0x114c7 0x114c7, tt);
  (R 0x11580 0x115ae, tt);
  (R 0x115d8 0x115db, tt);
  (R 0x11600 0x1162f, tt);
  (R 0x11644 0x11644, tt);
  (R 0x11680 0x116aa, tt);
  (R 0x11700 0x11719, tt);
  (R 0x118a0 0x118df, tt);
  (R 0x118ff 0x118ff, tt);
  (R 0x11a00 0x11a00, tt);
  (R 0x11a0b 0x11a32, tt);
  (R 0x11a3a 0x11a3a, tt);
  (R 0x11a50 0x11a50, tt);
  (R 0x11a5c 0x11a83, tt);
  (R 0x11a86 0x11a89, tt);
  (R 0x11ac0 0x11af8, tt);
  (R 0x11c00 0x11c08, tt);
  (R 0x11c0a 0x11c2e, tt);
  (R 0x11c40 0x11c40, tt);
  (R 0x11c72 0x11c8f, tt);
  (R 0x11d00 0x11d06, tt);
  (R 0x11d08 0x11d09, tt);
  (R 0x11d0b 0x11d30, tt);
  (R 0x11d46 0x11d46, tt);
  (R 0x12000 0x12399, tt);
  (R 0x12400 0x1246e, tt);
  (R 0x12480 0x12543, tt);
  (R 0x13000 0x1342e, tt);
  (R 0x14400 0x14646, tt);
  (R 0x16800 0x16a38, tt);
  (R 0x16a40 0x16a5e, tt);
  (R 0x16ad0 0x16aed, tt);
  (R 0x16b00 0x16b2f, tt);
  (R 0x16b40 0x16b43, tt);
  (R 0x16b63 0x16b77, tt);
  (R 0x16b7d 0x16b8f, tt);
  (R 0x16f00 0x16f44, tt);
  (R 0x16f50 0x16f50, tt);
  (R 0x16f93 0x16f9f, tt);
  (R 0x16fe0 0x16fe1, tt);
  (R 0x17000 0x187ec, tt);
  (R 0x18800 0x18af2, tt);
  (R 0x1b000 0x1b11e, tt);
  (R 0x1b170 0x1b2fb, tt);
  (R 0x1bc00 0x1bc6a, tt);
  (R 0x1bc70 0x1bc7c, tt);
  (R 0x1bc80 0x1bc88, tt);
  (R 0x1bc90 0x1bc99, tt);
  (R 0x1d400 0x1d454, tt);
  (R 0x1d456 0x1d49c, tt);
  (R 0x1d49e 0x1d49f, tt);
  (R 0x1d4a2 0x1d4a2, tt);
  (R 0x1d4a5 0x1d4a6, tt);
  (R 0x1d4a9 0x1d4ac, tt);
  (R 0x1d4ae 0x1d4b9, tt);
  (R 0x1d4bb 0x1d4bb, tt);
  (R 0x1d4bd 0x1d4c3, tt);
  (R 0x1d4c5 0x1d505, tt);
  (R 0x1d507 0x1d50a, tt);
  (R 0x1d50d 0x1d514, tt);
  (R 0x1d516 0x1d51c, tt);
  (R 0x1d51e 0x1d539, tt);
  (R 0x1d53b 0x1d53e, tt);
  (R 0x1d540 0x1d544, tt);
  (R 0x1d546 0x1d546, tt);
  (R 0x1d54a 0x1d550, tt);
  (R 0x1d552 0x1d6a5, tt);
  (R 0x1d6a8 0x1d6c0, tt);
  (R 0x1d6c2 0x1d6da, tt);
  (R 0x1d6dc 0x1d6fa, tt);
  (R 0x1d6fc 0x1d714, tt);
  (R 0x1d716 0x1d734, tt);
  (R 0x1d736 0x1d74e, tt);
  (R 0x1d750 0x1d76e, tt);
  (R 0x1d770 0x1d788, tt);
  (R 0x1d78a 0x1d7a8, tt);
  (R 0x1d7aa 0x1d7c2, tt);
  (R 0x1d7c4 0x1d7cb, tt);
  (R 0x1e800 0x1e8c4, tt);
  (R 0x1e900 0x1e943, tt);
  (R 0x1ee00 0x1ee03, tt);
  (R 0x1ee05 0x1ee1f, tt);
  (R 0x1ee21 0x1ee22, tt);
  (R 0x1ee24 0x1ee24, tt);
  (R 0x1ee27 0x1ee27, tt);
  (R 0x1ee29 0x1ee32, tt);
  (R 0x1ee34 0x1ee37, tt);
  (R 0x1ee39 0x1ee39, tt);
  (R 0x1ee3b 0x1ee3b, tt);
  (R 0x1ee42 0x1ee42, tt);
  (R 0x1ee47 0x1ee47, tt);
  (R 0x1ee49 0x1ee49, tt);
  (R 0x1ee4b 0x1ee4b, tt);
  (R 0x1ee4d 0x1ee4f, tt);
  (R 0x1ee51 0x1ee52, tt);
  (R 0x1ee54 0x1ee54, tt);
  (R 0x1ee57 0x1ee57, tt);
  (R 0x1ee59 0x1ee59, tt);
  (R 0x1ee5b 0x1ee5b, tt);
  (R 0x1ee5d 0x1ee5d, tt);
  (R 0x1ee5f 0x1ee5f, tt);
  (R 0x1ee61 0x1ee62, tt);
  (R 0x1ee64 0x1ee64, tt);
  (R 0x1ee67 0x1ee6a, tt);
  (R 0x1ee6c 0x1ee72, tt);
  (R 0x1ee74 0x1ee77, tt);
  (R 0x1ee79 0x1ee7c, tt);
  (R 0x1ee7e 0x1ee7e, tt);
  (R 0x1ee80 0x1ee89, tt);
  (R 0x1ee8b 0x1ee9b, tt);
  (R 0x1eea1 0x1eea3, tt);
  (R 0x1eea5 0x1eea9, tt);
  (R 0x1eeab 0x1eebb, tt);
  (R 0x20000 0x2a6d6, tt);
  (R 0x2a700 0x2b734, tt);
  (R 0x2b740 0x2b81d, tt);
  (R 0x2b820 0x2cea1, tt);
  (R 0x2ceb0 0x2ebe0, tt);
  (R 0x2f800 0x2fa1d, tt)].

Definition ID_START : CharDataTable unit :=
  Range (ID_START_0 ++ ID_START_1).

(** unic/ucd/ident/tables/pattern_syntax.rsv:1-32 (28 entries) *)
Definition PATTERN_SYNTAX : CharDataTable unit := Range [
  (R 0x21 0x2f, tt);
  (R 0x3a 0x40, tt);
  (R 0x5b 0x5e, tt);
  (R 0x60 0x60, tt);
  (R 0x7b 0x7e, tt);
  (R 0xa1 0xa7, tt);
  (R 0xa9 0xa9, tt);
  (R 0xab 0xac, tt);
  (R 0xae 0xae, tt);
  (R 0xb0 0xb1, tt);
  (R 0xb6 0xb6, tt);
  (R 0xbb 0xbb, tt);
  (R 0xbf 0xbf, tt);
  (R 0xd7 0xd7, tt);
  (R 0xf7 0xf7, tt);
  (R 0x2010 0x2027, tt);
  (R 0x2030 0x203e, tt);
  (R 0x2041 0x2053, tt);
  (R 0x2055 0x205e, tt);
  (R 0x2190 0x245f, tt);
  (R 0x2500 0x2775, tt);
  (R 0x2794 0x2bff, tt);
  (R 0x2e00 0x2e7f, tt);
  (R 0x3001 0x3003, tt);
  (R 0x3008 0x3020, tt);
  (R 0x3030 0x3030, tt);
  (R 0xfd3e 0xfd3f, tt);
  (R 0xfe45 0xfe46, tt)].

(** unic/ucd/ident/tables/pattern_white_space.rsv:1-9 (5 entries) *)
Definition PATTERN_WHITE_SPACE : CharDataTable unit := Range [
  (R 0x9 0xd, tt);
  (R 0x20 0x20, tt);
  (R 0x85 0x85, tt);
  (R 0x200e 0x200f, tt);
  (R 0x2028 0x2029, tt)].

(** unic/ucd/ident/tables/xid_continue.rsv:1-700 (696 entries) *)
Definition XID_CONTINUE_0 : list (CharRange * unit) := [
  (R 0x30 0x39, tt);
  (R 0x41 0x5a, tt);
  (R 0x5f 0x5f, tt);
  (R 0x61 0x7a, tt);
  (R 0xaa 0xaa, tt);
  (R 0xb5 0xb5, tt);
  (R 0xb7 0xb7, tt);
  (R 0xba 0xba, tt);
  (R 0xc0 0xd6, tt);
  (R 0xd8 0xf6, tt);
  (R 0xf8 0x2c1, tt);
  (R 0x2c6 0x2d1, tt);
  (R 0x2e0 0x2e4, tt);
  (R 0x2ec 0x2ec, tt);
  (R 0x2ee 0x2ee, tt);
  (R 0x300 0x374, tt);
  (R 0x376 0x377, tt);
  (R 0x37b 0x37d, tt);
  (R 0x37f 0x37f, tt);
  (R 0x386 0x38a, tt);
  (R 0x38c 0x38c, tt);
  (R 0x38e 0x3a1, tt);
  (R 0x3a3 0x3f5, tt);
  (R 0x3f7 0x481, tt);
  (R 0x483 0x487, tt);
  (R 0x48a 0x52f, tt);
  (R 0x531 0x556, tt);
  (R 0x559 0x559, tt);
  (R 0x561 0x587, tt);
  (R 0x591 0x5bd, tt);
  (R 0x5bf 0x5bf, tt);
  (R 0x5c1 0x5c2, tt);
  (R 0x5c4 0x5c5, tt);
  (R 0x5c7 0x5c7, tt);
  (R 0x5d0 0x5ea, tt);
  (R 0x5f0 0x5f2, tt);
  (R 0x610 0x61a, tt);
  (R 0x620 0x669, tt);
  (R 0x66e 0x6d3, tt);
  (R 0x6d5 0x6dc, tt);
  (R 0x6df 0x6e8, tt);
  (R 0x6ea 0x6fc, tt);
  (R 0x6ff 0x6ff, tt);
  (R 0x710 0x74a, tt);
  (R 0x74d 0x7b1, tt);
  (R 0x7c0 0x7f5, tt);
  (R 0x7fa 0x7fa, tt);
  (R 0x800 0x82d, tt);
  (R 0x840 0x85b, tt);
  (R 0x860 0x86a, tt);
  (R 0x8a0 0x8b4, tt);
  (R 0x8b6 0x8bd, tt);
  (R 0x8d4 0x8e1, tt);
  (R 0x8e3 0x963, tt);
  (R 0x966 0x96f, tt);
  (R 0x971 0x983, tt);
  (R 0x985 0x98c, tt);
  (R 0x98f 0x990, tt);
  (R 0x993 0x9a8, tt);
  (R 0x9aa 0x9b0, tt);
  (R 0x9b2 0x9b2, tt);
  (R 0x9b6 0x9b9, tt);
  (R 0x9bc 0x9c4, tt);
  (R 0x9c7 0x9c8, tt);
  (R 0x9cb 0x9ce, tt);
  (R 0x9d7 0x9d7, tt);
  (R 0x9dc 0x9dd, tt);
  (R 0x9df 0x9e3, tt);
  (R 0x9e6 0x9f1, tt);
  (R 0x9fc 0x9fc, tt);
  (R 0xa01 0xa03, tt);
  (R 0xa05 0xa0a, tt);
  (R 0xa0f 0xa10, tt);
  (R 0xa13 0xa28, tt);
  (R 0xa2a 0xa30, tt);
  (R 0xa32 0xa33, tt);
  (R 0xa35 0xa36, tt);
  (R 0xa38 0xa39, tt);
  (R 0xa3c 0xa3c, tt);
  (R 0xa3e 0xa42, tt);
  (R 0xa47 0xa48, tt);
  (R 0xa4b 0xa4d, tt);
  (R 0xa51 0xa51, tt);
  (R 0xa59 0xa5c, tt);
  (R 0xa5e 0xa5e, tt);
  (R 0xa66 0xa75, tt);
  (R 0xa81 0xa83, tt);
  (R 0xa85 0xa8d, tt);
  (R 0xa8f 0xa91, tt);
  (R 0xa93 0xaa8, tt);
  (R 0xaaa 0xab0, tt);
  (R 0xab2 0xab3, tt);
  (R 0xab5 0xab9, tt);
  (R 0xabc 0xac5, tt);
  (R 0xac7 0xac9, tt);
  (R 0xacb 0xacd, tt);
  (R 0xad0 0xad0, tt);
  (R 0xae0 0xae3, tt);
  (R 0xae6 0xaef, tt);
  (R 0xaf9 0xaff, tt);
  (R 0xb01 0xb03, tt);
  (R 0xb05 0xb0c, tt);
  (R 0xb0f 0xb10, tt);
  (R 0xb13 0xb28, tt);
  (R 0xb2a 0xb30, tt);
  (R 0xb32 0xb33, tt);
  (R 0xb35 0xb39, tt);
  (R 0xb3c 0xb44, tt);
  (R 0xb47 0xb48, tt);
  (R 0xb4b 0xb4d, tt);
  (R 0xb56 0xb57, tt);
  (R 0xb5c 0xb5d, tt);
  (R 0xb5f 0xb63, tt);
  (R 0xb66 0xb6f, tt);
  (R 0xb71 0xb71, tt);
  (R 0xb82 0xb83, tt);
  (R 0xb85 0xb8a, tt);
  (R 0xb8e 0xb90, tt);
  (R 0xb92 0xb95, tt);
  (R 0xb99 0xb9a, tt);
  (R 0xb9c 0xb9c, tt);
  (R 0xb9e 0xb9f, tt);
  (R 0xba3 0xba4, tt);
  (R 0xba8 0xbaa, tt);
  (R 0xbae 0xbb9, tt);
  (R 0xbbe 0xbc2, tt);
  (R 0xbc6 0xbc8, tt);
  (R 0xbca 0xbcd, tt);
  (R 0xbd0 0xbd0, tt);
  (R 0xbd7 0xbd7, tt);
  (R 0xbe6 0xbef, tt);
  (R 0xc00 0xc03, tt);
  (R 0xc05 0xc0c, tt);
  (R 0xc0e 0xc10, tt);
  (R 0xc12 0xc28, tt);
  (R 0xc2a 0xc39, tt);
  (R 0xc3d 0xc44, tt);
  (R 0xc46 0xc48, tt);
  (R 0xc4a 0xc4d, tt);
  (R 0xc55 0xc56, tt);
  (R 0xc58 0xc5a, tt);
  (R 0xc60 0xc63, tt);
  (R 0xc66 0xc6f, tt);
  (R 0xc80 0xc83, tt);
  (R 0xc85 0xc8c, tt);
  (R 0xc8e 0xc90, tt);
  (R 0xc92 0xca8, tt);
  (R 0xcaa 0xcb3, tt);
  (R 0xcb5 0xcb9, tt);
  (R 0xcbc 0xcc4, tt);
  (R 0xcc6 0xcc8, tt);
  (R 0xcca 0xccd, tt);
  (R 0xcd5 0xcd6, tt);
  (R 0xcde 0xcde, tt);
  (R 0xce0 0xce3, tt);
  (R 0xce6 0xcef, tt);
  (R 0xcf1 0xcf2, tt);
  (R 0xd00 0xd03, tt);
  (R 0xd05 0xd0c, tt);
  (R 0xd0e 0xd10, tt);
  (R 0xd12 0xd44, tt);
  (R 0xd46 0xd48, tt);
  (R 0xd4a 0xd4e, tt);
  (R 0xd54 0xd57, tt);
  (R 0xd5f 0xd63, tt);
  (R 0xd66 0xd6f, tt);
  (R 0xd7a 0xd7f, tt);
  (R 0xd82 0xd83, tt);
  (R 0xd85 0xd96, tt);
  (R 0xd9a 0xdb1, tt);
  (R 0xdb3 0xdbb, tt);
  (R 0xdbd 0xdbd, tt);
  (R 0xdc0 0xdc6, tt);
  (R 0xdca 0xdca, tt);
  (R 0xdcf 0xdd4, tt);
  (R 0xdd6 0xdd6, tt);
  (R 0xdd8 0xddf, tt);
  (R 0xde6 0xdef, tt);
  (R 0xdf2 0xdf3, tt);
  (R 0xe01 0xe3a, tt);
  (R 0xe40 0xe4e, tt);
  (R 0xe50 0xe59, tt);
  (R 0xe81 0xe82, tt);
  (R 0xe84 0xe84, tt);
  (R 0xe87 0xe88, tt);
  (R 0xe8a 0xe8a, tt);
  (R 0xe8d 0xe8d, tt);
  (R 0xe94 0xe97, tt);
  (R 0xe99 0xe9f, tt);
  (R 0xea1 0xea3, tt);
  (R 0xea5 0xea5, tt);
  (R 0xea7 0xea7, tt);
  (R 0xeaa 0xeab, tt);
  (R 0xead 0xeb9, tt);
  (R 0xebb 0xebd, tt);
  (R 0xec0 0xec4, tt);
  (R 0xec6 0xec6, tt);
  (R 0xec8 0xecd, tt);
  (R 0xed0 0xed9, tt);
  (R 0xedc 0xedf, tt);
  (R 0xf00 0xf00, tt);
  (R 0xf18 0xf19, tt);
  (R 0xf20 0xf29, tt);
  (R 0xf35 0xf35, tt);
  (R 0xf37 0xf37, tt);
  (R 0xf39 0xf39, tt);
  (R 0xf3e 0xf47, tt);
  (R 0xf49 0xf6c, tt);
  (R 0xf71 0xf84, tt);
  (R 0xf86 0xf97, tt);
  (R 0xf99 0xfbc, tt);
  (R 0xfc6 0xfc6, tt);
  (R 0x1000 0x1049, tt);
  (R 0x1050 0x109d, tt);
  (R 0x10a0 0x10c5, tt);
  (R 0x10c7 0x10c7, tt);
  (R 0x10cd 0x10cd, tt);
  (R 0x10d0 0x10fa, tt);
  (R 0x10fc 0x1248, tt);
  (R 0x124a 0x124d, tt);
  (R 0x1250 0x1256, tt);
  (R 0x1258 0x1258, tt);
  (R 0x125a 0x125d, tt);
  (R 0x1260 0x1288, tt);
  (R 0x128a 0x128d, tt);
  (R 0x1290 0x12b0, tt);
  (R 0x12b2 0x12b5, tt);
  (R 0x12b8 0x12be, tt);
  (R 0x12c0 0x12c0, tt);
  (R 0x12c2 0x12c5, tt);
  (R 0x12c8 0x12d6, tt);
  (R 0x12d8 0x1310, tt);
  (R 0x1312 0x1315, tt);
  (R 0x1318 0x135a, tt);
  (R 0x135d 0x135f, tt);
  (R 0x1369 0x1371, tt);
  (R 0x1380 0x138f, tt);
  (R 0x13a0 0x13f5, tt);
  (R 0x13f8 0x13fd, tt);
  (R 0x1401 0x166c, tt);
  (R 0x166f 0x167f, tt);
  (R 0x1681 0x169a, tt);
  (R 0x16a0 0x16ea, tt);
  (R 0x16ee 0x16f8, tt);
  (R 0x1700 0x170c, tt);
  (R 0x170e 0x1714, tt);
  (R 0x1720 0x1734, tt);
  (R 0x1740 0x1753, tt);
  (R 0x1760 0x176c, tt);
  (R 0x176e 0x1770, tt);
  (R 0x1772 0x1773, tt);
  (R 0x1780 0x17d3, tt);
  (R 0x17d7 0x17d7, tt);
  (R 0x17dc 0x17dd, tt);
  (R 0x17e0 0x17e9, tt);
  (R 0x180b 0x180d, tt);
  (R 0x1810 0x1819, tt);
  (R 0x1820 0x1877, tt);
  (R 0x1880 0x18aa, tt);
  (R 0x18b0 0x18f5, tt);
  (R 0x1900 0x191e, tt);
  (R 0x1920 0x192b, tt);
  (R 0x1930 0x193b, tt);
  (R 0x1946 0x196d, tt);
  (R 0x1970 0x1974, tt);
  (R 0x1980 0x19ab, tt);
  (R 0x19b0 0x19c9, tt);
  (R 0x19d0 0x19da, tt);
  (R 0x1a00 0x1a1b, tt);
  (R 0x1a20 0x1a5e, tt);
  (R 0x1a60 0x1a7c, tt);
  (R 0x1a7f 0x1a89, tt);
  (R 0x1a90 0x1a99, tt);
  (R 0x1aa7 0x1aa7, tt);
  (R 0x1ab0 0x1abd, tt);
  (R 0x1b00 0x1b4b, tt);
  (R 0x1b50 0x1b59, tt);
  (R 0x1b6b 0x1b73, tt);
  (R 0x1b80 0x1bf3, tt);
  (R 0x1c00 0x1c37, tt);
  (R 0x1c40 0x1c49, tt);
  (R 0x1c4d 0x1c7d, tt);
  (R 0x1c80 0x1c88, tt);
  (R 0x1cd0 0x1cd2, tt);
  (R 0x1cd4 0x1cf9, tt);
  (R 0x1d00 0x1df9, tt);
  (R 0x1dfb 0x1f15, tt);
  (R 0x1f18 0x1f1d, tt);
  (R 0x1f20 0x1f45, tt);
  (R 0x1f48 0x1f4d, tt);
  (R 0x1f50 0x1f57, tt);
  (R 0x1f59 0x1f59, tt);
  (R 0x1f5b 0x1f5b, tt);
  (R 0x1f5d 0x1f5d, tt);
  (R 0x1f5f 0x1f7d, tt);
  (R 0x1f80 0x1fb4, tt);
  (R 0x1fb6 0x1fbc, tt);
  (R 0x1fbe 0x1fbe, tt);
  (R 0x1fc2 0x1fc4, tt);
  (R 0x1fc6 0x1fcc, tt);
  (R 0x1fd0 0x1fd3, tt);
  (R 0x1fd6 0x1fdb, tt);
  (R 0x1fe0 0x1fec, tt);
  (R 0x1ff2 0x1ff4, tt);
  (R 0x1ff6 0x1ffc, tt);
  (R 0x203f 0x2040, tt);
  (R 0x2054 0x2054, tt);
  (R 0x2071 0x2071, tt);
  (R 0x207f 0x207f, tt);
  (R 0x2090 0x209c, tt);
  (R 0x20d0 0x20dc, tt);
  (R 0x20e1 0x20e1, tt);
  (R 0x20e5 0x20f0, tt);
  (R 0x2102 0x2102, tt);
  (R 0x2107 0x2107, tt);
  (R 0x210a 0x2113, tt);
  (R 0x2115 0x2115, tt);
  (R 0x2118 0x211d, tt);
  (R 0x2124 0x2124, tt);
  (R 0x2126 0x2126, tt);
  (R 0x2128 0x2128, tt);
  (R 0x212a 0x2139, tt);
  (R 0x213c 0x213f, tt);
  (R 0x2145 0x2149, tt);
  (R 0x214e 0x214e, tt);
  (R 0x2160 0x2188, tt);
  (R 0x2c00 0x2c2e, tt);
  (R 0x2c30 0x2c5e, tt);
  (R 0x2c60 0x2ce4, tt);
  (R 0x2ceb 0x2cf3, tt);
  (R 0x2d00 0x2d25, tt);
  (R 0x2d27 0x2d27, tt);
  (R 0x2d2d 0x2d2d, tt);
  (R 0x2d30 0x2d67, tt);
  (R 0x2d6f 0x2d6f, tt);
  (R 0x2d7f 0x2d96, tt);
  (R 0x2da0 0x2da6, tt);
  (R 0x2da8 0x2dae, tt);
  (R 0x2db0 0x2db6, tt);
  (R 0x2db8 0x2dbe, tt);
  (R 0x2dc0 0x2dc6, tt);
  (R 0x2dc8 0x2dce, tt);
  (R 0x2dd0 0x2dd6, tt);
  (R 0x2dd8 0x2dde, tt);
  (R 0x2de0 0x2dff, tt);
  (R 0x3005 0x3007, tt);
  (R 0x3021 0x302f, tt);
  (R 0x3031 0x3035, tt);
  (R 0x3038 0x303c, tt);
  (R 0x3041 0x3096, tt);
  (R 0x3099 0x309a, tt);
  (R 0x309d 0x309f, tt);
  (R 0x30a1 0x30fa, tt);
  (R 0x30fc 0x30ff, tt);
  (R 0x3105 0x312e, tt);
  (R 0x3131 0x318e, tt);
  (R 0x31a0 0x31ba, tt);
  (R 0x31f0 0x31ff, tt);
  (R 0x3400 0x4db5, tt);
  (R 0x4e00 0x9fea, tt);
  (R 0xa000 0xa48c, tt);
  (R 0xa4d0 0xa4fd, tt);
  (R 0xa500 0xa60c, tt);
  (R 0xa610 0xa62b, tt);
  (R 0xa640 0xa66f, tt);
  (R 0xa674 0xa67d, tt);
  (R 0xa67f 0xa6f1, tt);
  (R 0xa717 0xa71f, tt);
  (R 0xa722 0xa788, tt);
  (R 0xa78b 0xa7ae, tt);
  (R 0xa7b0 0xa7b7, tt);
  (R 0xa7f7 0xa827, tt);
  (R 0xa840 0xa873, tt);
  (R 0xa880 0xa8c5, tt);
  (R 0xa8d0 0xa8d9, tt);
  (R 0xa8e0 0xa8f7, tt);
  (R 0xa8fb 0xa8fb, tt);
  (R 0xa8fd 0xa8fd, tt);
  (R 0xa900 0xa92d, tt);
  (R 0xa930 0xa953, tt);
  (R 0xa960 0xa97c, tt);
  (R 0xa980 0xa9c0, tt);
  (R 0xa9cf 0xa9d9, tt);
  (R 0xa9e0 0xa9fe, tt);
  (R 0xaa00 0xaa36, tt);
  (R 0xaa40 0xaa4d, tt);
  (R 0xaa50 0xaa59, tt);
  (R 0xaa60 0xaa76, tt);
  (R 0xaa7a 0xaac2, tt);
  (R 0xaadb 0xaadd, tt);
  (R 0xaae0 0xaaef, tt);
  (R 0xaaf2 0xaaf6, tt);
  (R 0xab01 0xab06, tt);
  (R 0xab09 0xab0e, tt);
  (R 0xab11 0xab16, tt);
  (R 0xab20 0xab26, tt);
  (R 0xab28 0xab2e, tt);
  (R 0xab30 0xab5a, tt);
  (R 0xab5c 0xab65, tt);
  (R 0xab70 0xabea, tt)].

Definition XID_CONTINUE_1 : list (CharRange * unit) := [
  (R 0xabec 0xabed, tt);
  (R 0xabf0 0xabf9, tt);
  (R 0xac00 0xd7a3, tt);
  (R 0xd7b0 0xd7c6, tt);
  (R 0xd7cb 0xd7fb, tt);
  (R 0xf900 0xfa6d, tt);
  (R 0xfa70 0xfad9, tt);
  (R 0xfb00 0xfb06, tt);
  (R 0xfb13 0xfb17, tt);
  (R 0xfb1d 0xfb28, tt);
  (R 0xfb2a 0xfb36, tt);
  (R 0xfb38 0xfb3c, tt);
  (R 0xfb3e 0xfb3e, tt);
  (R 0xfb40 0xfb41, tt);
  (R 0xfb43 0xfb44, tt);
  (R 0xfb46 0xfbb1, tt);
  (R 0xfbd3 0xfc5d, tt);
  (R 0xfc64 0xfd3d, tt);
  (R 0xfd50 0xfd8f, tt);
  (R 0xfd92 0xfdc7, tt);
  (R 0xfdf0 0xfdf9, tt);
  (R 0xfe00 0xfe0f, tt);
  (R 0xfe20 0xfe2f, tt);
  (R 0xfe33 0xfe34, tt);
  (R 0xfe4d 0xfe4f, tt);
  (R 0xfe71 0xfe71, tt);
  (R 0xfe73 0xfe73, tt);
  (R 0xfe77 0xfe77, tt);
  (R 0xfe79 0xfe79, tt);
  (R 0xfe7b 0xfe7b, tt);
  (R 0xfe7d 0xfe7d, tt);
  (R 0xfe7f 0xfefc, tt);
  (R 0xff10 0xff19, tt);
  (R 0xff21 0xff3a, tt);
  (R 0xff3f 0xff3f, tt);
  (R 0xff41 0xff5a, tt);
  (R 0xff66 0xffbe, tt);
  (R 0xffc2 0xffc7, tt);
  (R 0xffca 0xffcf, tt);
  (R 0xffd2 0xffd7, tt);
  (R 0xffda 0xffdc, tt);
  (R 0x10000 0x1000b, tt);
  (R 0x1000d 0x10026, tt);
  (R 0x10028 0x1003a, tt);
  (R 0x1003c 0x1003d, tt);
  (R 0x1003f 0x1004d, tt);
  (R 0x10050 0x1005d, tt);
  (R 0x10080 0x100fa, tt);
  (R 0x10140 0x10174, tt);
  (R 0x101fd 0x101fd, tt);
  (R 0x10280 0x1029c, tt);
  (R 0x102a0 0x102d0, tt);
  (R 0x102e0 0x102e0, tt);
  (R 0x10300 0x1031f, tt);
  (R 0x1032d 0x1034a, tt);
  (R 0x10350 0x1037a, tt);
  (R 0x10380 0x1039d, tt);
  (R 0x103a0 0x103c3, tt);
  (R 0x103c8 0x103cf, tt);
  (R 0x103d1 0x103d5, tt);
  (R 0x10400 0x1049d, tt);
  (R 0x104a0 0x104a9, tt);
  (R 0x104b0 0x104d3, tt);
  (R 0x104d8 0x104fb, tt);
  (R 0x10500 0x10527, tt);
  (R 0x10530 0x10563, tt);
  (R 0x10600 0x10736, tt);
  (R 0x10740 0x10755, tt);
  (R 0x10760 0x10767, tt);
  (R 0x10800 0x10805, tt);
  (R 0x10808 0x10808, tt);
  (R 0x1080a 0x10835, tt);
  (R 0x10837 0x10838, tt);
  (R 0x1083c 0x1083c, tt);
  (R 0x1083f 0x10855, tt);
  (R 0x10860 0x10876, tt);
  (R 0x10880 0x1089e, tt);
  (R 0x108e0 0x108f2, tt);
  (R 0x108f4 0x108f5, tt);
  (R 0x10900 0x10915, tt);
  (R 0x10920 0x10939, tt);
  (R 0x10980 0x109b7, tt);
  (R 0x109be 0x109bf, tt);
  (R 0x10a00 0x10a03, tt);
  (R 0x10a05 0x10a06, tt);
  (R 0x10a0c 0x10a13, tt);
  (R 0x10a15 0x10a17, tt);
  (R 0x10a19 0x10a33, tt);
  (R 0x10a38 0x10a3a, tt);
  (R 0x10a3f 0x10a3f, tt);
  (R 0x10a60 0x10a7c, tt);
  (R 0x10a80 0x10a9c, tt);
  (R 0x10ac0 0x10ac7, tt);
  (R 0x10ac9 0x10ae6, tt);
  (R 0x10b00 0x10b35, tt);
  (R 0x10b40 0x10b55, tt);
  (R 0x10b60 0x10b72, tt);
  (R 0x10b80 0x10b91, tt);
  (R 0x10c00 0x10c48, tt);
  (R 0x10c80 0x10cb2, tt);
  (R 0x10cc0 0x10cf2, tt);
  (R 0x11000 0x11046, tt);
  (R 0x11066 0x1106f, tt);
  (R 0x1107f 0x110ba, tt);
  (R 0x110d0 0x110e8, tt);
  (R 0x110f0 0x110f9, tt);
  (R 0x11100 0x11134, tt);
  (R 0x11136 0x1113f, tt);
  (R 0x11150 0x11173, tt);
  (R 0x11176 0x11176, tt);
  (R 0x11180 0x111c4, tt);
  (R 0x111ca 0x111cc, tt);
  (R 0x111d0 0x111da, tt);
  (R 0x111dc 0x111dc, tt);
  (R 0x11200 0x11211, tt);
  (R 0x11213 0x11237, tt);
  (R 0x1123e 0x1123e, tt);
  (R 0x11280 0x11286, tt);
  (R 0x11288 0x11288, tt);
  (R 0x1128a 0x1128d, tt);
  (R 0x1128f 0x1129d, tt);
  (R 0x1129f 0x112a8, tt);
  (R 0x112b0 0x112ea, tt);
  (R 0x112f0 0x112f9, tt);
  (R 0x11300 0x11303, tt);
  (R 0x11305 0x1130c, tt);
  (R 0x1130f 0x11310, tt);
  (R 0x11313 0x11328, tt);
  (R 0x1132a 0x11330, tt);
  (R 0x11332 0x11333, tt);
  (R 0x11335 0x11339, tt);
  (R 0x1133c 0x11344, tt);
  (R 0x11347 0x11348, tt);
  (R 0x1134b 0x1134d, tt);
  (R 0x11350 0x11350, tt);
  (R 0x11357 0x11357, tt);
  (R 0x1135d 0x11363, tt);
  (R 0x11366 0x1136c, tt);
  (R 0x11370 0x11374, tt);
  (R 0x11400 0x1144a, tt);
  (R 0x11450 0x11459, tt);
  (R 0x11480 0x114c5, tt);
  (R 0x114c7 0x114c7, tt);
  (R 0x114d0 0x114d9, tt);
  (R 0x11580 0x115b5, tt);
  (R 0x115b8 0x115c0, tt);
  (R 0x115d8 0x115dd, tt);
  (R 0x11600 0x11640, tt);
  (R 0x11644 0x11644, tt);
  (R 0x11650 0x11659, tt);
  (R 0x11680 0x116b7, tt);
  (R 0x116c0 0x116c9, tt);
  (R 0x11700 0x11719, tt);
  (R 0x1171d 0x1172b, tt);
  (R 0x11730 0x11739, tt);
  (R 0x118a0 0x118e9, tt);
  (R 0x118ff 0x118ff, tt);
  (R 0x11a00 0x11a3e, tt);
  (R 0x11a47 0x11a47, tt);
  (R 0x11a50 0x11a83, tt);
  (R 0x11a86 0x11a99, tt);
  (R 0x11ac0 0x11af8, tt);
  (R 0x11c00 0x11c08, tt);
  (R 0x11c0a 0x11c36, tt);
  (R 0x11c38 0x11c40, tt);
  (R 0x11c50 0x11c59, tt);
  (R 0x11c72 0x11c8f, tt);
  (R 0x11c92 0x11ca7, tt);
  (R 0x11ca9 0x11cb6, tt);
  (R 0x11d00 0x11d06, tt);
  (R 0x11d08 0x11d09, tt);
  (R 0x11d0b 0x11d36, tt);
  (R 0x11d3a 0x11d3a, tt);
  (R 0x11d3c 0x11d3d, tt);
  (R 0x11d3f 0x11d47, tt);
  (R 0x11d50 0x11d59, tt);
  (R 0x12000 0x12399, tt);
  (R 0x12400 0x1246e, tt);
  (R 0x12480 0x12543, tt);
  (R 0x13000 0x1342e, tt);
  (R 0x14400 0x14646, tt);
  (R 0x16800 0x16a38, tt);
  (R 0x16a40 0x16a5e, tt);
  (R 0x16a60 0x16a69, tt);
  (R 0x16ad0 0x16aed, tt);
  (R 0x16af0 0x16af4, tt);
  (R 0x16b00 0x16b36, tt);
  (R 0x16b40 0x16b43, tt);
  (R 0x16b50 0x16b59, tt);
  (R 0x16b63 0x16b77, tt);
  (R 0x16b7d 0x16b8f, tt);
  (R 0x16f00 0x16f44, tt);
  (R 0x16f50 0x16f7e, tt);
  (R 0x16f8f 0x16f9f, tt);
  (R 0x16fe0 0x16fe1, tt);
  (R 0x17000 0x187ec, tt);
  (R 0x18800 0x18af2, tt);
  (R 0x1b000 0x1b11e, tt);
  (R 0x1b170 0x1b2fb, tt);
  (R 0x1bc00 0x1bc6a, tt);
  (R 0x1bc70 0x1bc7c, tt);
  (R 0x1bc80 0x1bc88, tt);
  (R 0x1bc90 0x1bc99, tt);
  (R 0x1bc9d 0x1bc9e, tt);
  (R 0x1d165 0x1d169, tt);
  (R 0x1d16d 0x1d172, tt);
  (R 0x1d17b 0x1d182, tt);
  (R 0x1d185 0x1d18b, tt);
  (R 0x1d1aa 0x1d1ad, tt);
  (R 0x1d242 0x1d244, tt);
  (R 0x1d400 0x1d454, tt);
  (R 0x1d456 0x1d49c, tt);
  (R 0x1d49e 0x1d49f, tt);
  (R 0x1d4a2 0x1d4a2, tt);
  (R 0x1d4a5 0x1d4a6, tt);
  (R 0x1d4a9 0x1d4ac, tt);
  (R 0x1d4ae 0x1d4b9, tt);
  (R 0x1d4bb 0x1d4bb, tt);
  (R 0x1d4bd 0x1d4c3, tt);
  (R 0x1d4c5 0x1d505, tt);
  (R 0x1d507 0x1d50a, tt);
  (R 0x1d50d 0x1d514, tt);
  (R 0x1d516 0x1d51c, tt);
  (R 0x1d51e 0x1d539, tt);
  (R 0x1d53b 0x1d53e, tt);
  (R 0x1d540 0x1d544, tt);
  (R 0x1d546 0x1d546, tt);
  (R 0x1d54a 0x1d550, tt);
  (R 0x1d552 0x1d6a5, tt);
  (R 0x1d6a8 0x1d6c0, tt);
  (R 0x1d6c2 0x1d6da, tt);
  (R 0x1d6dc 0x1d6fa, tt);
  (R 0x1d6fc 0x1d714, tt);
  (R 0x1d716 0x1d734, tt);
  (R 0x1d736 0x1d74e, tt);
  (R 0x1d750 0x1d76e, tt);
  (R 0x1d770 0x1d788, tt);
  (R 0x1d78a 0x1d7a8, tt);
  (R 0x1d7aa 0x1d7c2, tt);
  (R 0x1d7c4 0x1d7cb, tt);
  (R 0x1d7ce 0x1d7ff, tt);
  (R 0x1da00 0x1da36, tt);
  (R 0x1da3b 0x1da6c, tt);
  (R 0x1da75 0x1da75, tt);
  (R 0x1da84 0x1da84, tt);
  (R 0x1da9b 0x1da9f, tt);
  (R 0x1daa1 0x1daaf, tt);
  (R 0x1e000 0x1e006, tt);
  (R 0x1e008 0x1e018, tt);
  (R 0x1e01b 0x1e021, tt);
  (R 0x1e023 0x1e024, tt);
  (R 0x1e026 0x1e02a, tt);
  (R 0x1e800 0x1e8c4, tt);
  (R 0x1e8d0 0x1e8d6, tt);
  (R 0x1e900 0x1e94a, tt);
  (R 0x1e950 0x1e959, tt);
  (R 0x1ee00 0x1ee03, tt);
  (R 0x1ee05 0x1ee1f, tt);
  (R 0x1ee21 0x1ee22, tt);
  (R 0x1ee24 0x1ee24, tt);
  (R 0x1ee27 0x1ee27, tt);
  (R 0x1ee29 0x1ee32, tt);
  (R 0x1ee34 0x1ee37, tt);
  (R 0x1ee39 0x1ee39, tt);
  (R 0x1ee3b 0x1ee3b, tt);
  (R 0x1ee42 0x1ee42, tt);
  (R 0x1ee47 0x1ee47, tt);
  (R 0x1ee49 0x1ee49, tt);
  (R 0x1ee4b 0x1ee4b, tt);
  (R 0x1ee4d 0x1ee4f, tt);
  (R 0x1ee51 0x1ee52, tt);
  (R 0x1ee54 0x1ee54, tt);
  (R 0x1ee57 0x1ee57, tt);
  (R 0x1ee59 0x1ee59, tt);
  (R 0x1ee5b 0x1ee5b, tt);
  (R 0x1ee5d 0x1ee5d, tt);
  (R 0x1ee5f 0x1ee5f, tt);
  (R 0x1ee61 0x1ee62, tt);
  (R 0x1ee64 0x1ee64, tt);
  (R 0x1ee67 0x1ee6a, tt);
  (R 0x1ee6c 0x1ee72, tt);
  (R 0x1ee74 0x1ee77, tt);
  (R 0x1ee79 0x1ee7c, tt);
  (R 0x1ee7e 0x1ee7e, tt);
  (R 0x1ee80 0x1ee89, tt);
  (R 0x1ee8b 0x1ee9b, tt);
  (R 0x1eea1 0x1eea3, tt);
  (R 0x1eea5 0x1eea9, tt);
  (R 0x1eeab 0x1eebb, tt);
  (R 0x20000 0x2a6d6, tt);
  (R 0x2a700 0x2b734, tt);
  (R 0x2b740 0x2b81d, tt);
  (R 0x2b820 0x2cea1, tt);
  (R 0x2ceb0 0x2ebe0, tt);
  (R 0x2f800 0x2fa1d, tt);
  (R 0xe0100 0xe01ef, tt)].

Definition XID_CONTINUE : CharDataTable unit :=
  Range (XID_CONTINUE_0 ++ XID_CONTINUE_1).

(** unic/ucd/ident/tables/xid_start.rsv:1-596 (592 entries) *)
Definition XID_START_0 : list (CharRange * unit) := [
  (R 0x41 0x5a, tt);
  (R 0x61 0x7a, tt);
  (R 0xaa 0xaa, tt);
  (R 0xb5 0xb5, tt);
  (R 0xba 0xba, tt);
  (R 0xc0 0xd6, tt);
  (R 0xd8 0xf6, tt);
  (R 0xf8 0x2c1, tt);
  (R 0x2c6 0x2d1, tt);
  (R 0x2e0 0x2e4, tt);
  (R 0x2ec 0x2ec, tt);
  (R 0x2ee 0x2ee, tt);
  (R 0x370 0x374, tt);
  (R 0x376 0x377, tt);
  (R 0x37b 0x37d, tt);
  (R 0x37f 0x37f, tt);
  (R 0x386 0x386, tt);
  (R 0x388 0x38a, tt);
  (R 0x38c 0x38c, tt);
  (R 0x38e 0x3a1, tt);
  (R 0x3a3 0x3f5, tt);
  (R 0x3f7 0x481, tt);
  (R 0x48a 0x52f, tt);
  (R 0x531 0x556, tt);
  (R 0x559 0x559, tt);
  (R 0x561 0x587, tt);
  (R 0x5d0 0x5ea, tt);
  (R 0x5f0 0x5f2, tt);
  (R 0x620 0x64a, tt);
  (R 0x66e 0x66f, tt);
  (R 0x671 0x6d3, tt);
  (R 0x6d5 0x6d5, tt);
  (R 0x6e5 0x6e6, tt);
  (R 0x6ee 0x6ef, tt);
  (R 0x6fa 0x6fc, tt);
  (R 0x6ff 0x6ff, tt);
  (R 0x710 0x710, tt);
  (R 0x712 0x72f, tt);
  (R 0x74d 0x7a5, tt);
  (R 0x7b1 0x7b1, tt);
  (R 0x7ca 0x7ea, tt);
  (R 0x7f4 0x7f5, tt);
  (R 0x7fa 0x7fa, tt);
  (R 0x800 0x815, tt);
  (R 0x81a 0x81a, tt);
  (R 0x824 0x824, tt);
  (R 0x828 0x828, tt);
  (R 0x840 0x858, tt);
  (R 0x860 0x86a, tt);
  (R 0x8a0 0x8b4, tt);
  (R 0x8b6 0x8bd, tt);
  (R 0x904 0x939, tt);
  (R 0x93d 0x93d, tt);
  (R 0x950 0x950, tt);
  (R 0x958 0x961, tt);
  (R 0x971 0x980, tt);
  (R 0x985 0x98c, tt);
  (R 0x98f 0x990, tt);
  (R 0x993 0x9a8, tt);
  (R 0x9aa 0x9b0, tt);
  (R 0x9b2 0x9b2, tt);
  (R 0x9b6 0x9b9, tt);
  (R 0x9bd 0x9bd, tt);
  (R 0x9ce 0x9ce, tt);
  (R 0x9dc 0x9dd, tt);
  (R 0x9df 0x9e1, tt);
  (R 0x9f0 0x9f1, tt);
  (R 0x9fc 0x9fc, tt);
  (R 0xa05 0xa0a, tt);
  (R 0xa0f 0xa10, tt);
  (R 0xa13 0xa28, tt);
  (R 0xa2a 0xa30, tt);
  (R 0xa32 0xa33, tt);
  (R 0xa35 0xa36, tt);
  (R 0xa38 0xa39, tt);
  (R 0xa59 0xa5c, tt);
  (R 0xa5e 0xa5e, tt);
  (R 0xa72 0xa74, tt);
  (R 0xa85 0xa8d, tt);
  (R 0xa8f 0xa91, tt);
  (R 0xa93 0xaa8, tt);
  (R 0xaaa 0xab0, tt);
  (R 0xab2 0xab3, tt);
  (R 0xab5 0xab9, tt);
  (R 0xabd 0xabd, tt);
  (R 0xad0 0xad0, tt);
  (R 0xae0 0xae1, tt);
  (R 0xaf9 0xaf9, tt);
  (R 0xb05 0xb0c, tt);
  (R 0xb0f 0xb10, tt);
  (R 0xb13 0xb28, tt);
  (R 0xb2a 0xb30, tt);
  (R 0xb32 0xb33, tt);
  (R 0xb35 0xb39, tt);
  (R 0xb3d 0xb3d, tt);
  (R 0xb5c 0xb5d, tt);
  (R 0xb5f 0xb61, tt);
  (R 0xb71 0xb71, tt);
  (R 0xb83 0xb83, tt);
  (R 0xb85 0xb8a, tt);
  (R 0xb8e 0xb90, tt);
  (R 0xb92 0xb95, tt);
  (R 0xb99 0xb9a, tt);
  (R 0xb9c 0xb9c, tt);
  (R 0xb9e 0xb9f, tt);
  (R 0xba3 0xba4, tt);
  (R 0xba8 0xbaa, tt);
  (R 0xbae 0xbb9, tt);
  (R 0xbd0 0xbd0, tt);
  (R 0xc05 0xc0c, tt);
  (R 0xc0e 0xc10, tt);
  (R 0xc12 0xc28, tt);
  (R 0xc2a 0xc39, tt);
  (R 0xc3d 0xc3d, tt);
  (R 0xc58 0xc5a, tt);
  (R 0xc60 0xc61, tt);
  (R 0xc80 0xc80, tt);
  (R 0xc85 0xc8c, tt);
  (R 0xc8e 0xc90, tt);
  (R 0xc92 0xca8, tt);
  (R 0xcaa 0xcb3, tt);
  (R 0xcb5 0xcb9, tt);
  (R 0xcbd 0xcbd, tt);
  (R 0xcde 0xcde, tt);
  (R 0xce0 0xce1, tt);
  (R 0xcf1 0xcf2, tt);
  (R 0xd05 0xd0c, tt);
  (R 0xd0e 0xd10, tt);
  (R 0xd12 0xd3a, tt);
  (R 0xd3d 0xd3d, tt);
  (R 0xd4e 0xd4e, tt);
  (R 0xd54 0xd56, tt);
  (R 0xd5f 0xd61, tt);
  (R 0xd7a 0xd7f, tt);
  (R 0xd85 0xd96, tt);
  (R 0xd9a 0xdb1, tt);
  (R 0xdb3 0xdbb, tt);
  (R 0xdbd 0xdbd, tt);
  (R 0xdc0 0xdc6, tt);
  (R 0xe01 0xe30, tt);
  (R 0xe32 0xe32, tt);
  (R 0xe40 0xe46, tt);
  (R 0xe81 0xe82, tt);
  (R 0xe84 0xe84, tt);
  (R 0xe87 0xe88, tt);
  (R 0xe8a 0xe8a, tt);
  (R 0xe8d 0xe8d, tt);
  (R 0xe94 0xe97, tt);
  (R 0xe99 0xe9f, tt);
  (R 0xea1 0xea3, tt);
  (R 0xea5 0xea5, tt);
  (R 0xea7 0xea7, tt);
  (R 0xeaa 0xeab, tt);
  (R 0xead 0xeb0, tt);
  (R 0xeb2 0xeb2, tt);
  (R 0xebd 0xebd, tt);
  (R 0xec0 0xec4, tt);
  (R 0xec6 0xec6, tt);
  (R 0xedc 0xedf, tt);
  (R 0xf00 0xf00, tt);
  (R 0xf40 0xf47, tt);
  (R 0xf49 0xf6c, tt);
  (R 0xf88 0xf8c, tt);
  (R 0x1000 0x102a, tt);
  (R 0x103f 0x103f, tt);
  (R 0x1050 0x1055, tt);
  (R 0x105a 0x105d, tt);
  (R 0x1061 0x1061, tt);
  (R 0x1065 0x1066, tt);
  (R 0x106e 0x1070, tt);
  (R 0x1075 0x1081, tt);
  (R 0x108e 0x108e, tt);
  (R 0x10a0 0x10c5, tt);
  (R 0x10c7 0x10c7, tt);
  (R 0x10cd 0x10cd, tt);
  (R 0x10d0 0x10fa, tt);
  (R 0x10fc 0x1248, tt);
  (R 0x124a 0x124d, tt);
  (R 0x1250 0x1256, tt);
  (R 0x1258 0x1258, tt);
  (R 0x125a 0x125d, tt);
  (R 0x1260 0x1288, tt);
  (R 0x128a 0x128d, tt);
  (R 0x1290 0x12b0, tt);
  (R 0x12b2 0x12b5, tt);
  (R 0x12b8 0x12be, tt);
  (R 0x12c0 0x12c0, tt);
  (R 0x12c2 0x12c5, tt);
  (R 0x12c8 0x12d6, tt);
  (R 0x12d8 0x1310, tt);
  (R 0x1312 0x1315, tt);
  (R 0x1318 0x135a, tt);
  (R 0x1380 0x138f, tt);
  (R 0x13a0 0x13f5, tt);
  (R 0x13f8 0x13fd, tt);
  (R 0x1401 0x166c, tt);
  (R 0x166f 0x167f, tt);
  (R 0x1681 0x169a, tt);
  (R 0x16a0 0x16ea, tt);
  (R 0x16ee 0x16f8, tt);
  (R 0x1700 0x170c, tt);
  (R 0x170e 0x1711, tt);
  (R 0x1720 0x1731, tt);
  (R 0x1740 0x1751, tt);
  (R 0x1760 0x176c, tt);
  (R 0x176e 0x1770, tt);
  (R 0x1780 0x17b3, tt);
  (R 0x17d7 0x17d7, tt);
  (R 0x17dc 0x17dc, tt);
  (R 0x1820 0x1877, tt);
  (R 0x1880 0x18a8, tt);
  (R 0x18aa 0x18aa, tt);
  (R 0x18b0 0x18f5, tt);
  (R 0x1900 0x191e, tt);
  (R 0x1950 0x196d, tt);
  (R 0x1970 0x1974, tt);
  (R 0x1980 0x19ab, tt);
  (R 0x19b0 0x19c9, tt);
  (R 0x1a00 0x1a16, tt);
  (R 0x1a20 0x1a54, tt);
  (R 0x1aa7 0x1aa7, tt);
  (R 0x1b05 0x1b33, tt);
  (R 0x1b45 0x1b4b, tt);
  (R 0x1b83 0x1ba0, tt);
  (R 0x1bae 0x1baf, tt);
  (R 0x1bba 0x1be5, tt);
  (R 0x1c00 0x1c23, tt);
  (R 0x1c4d 0x1c4f, tt);
  (R 0x1c5a 0x1c7d, tt);
  (R 0x1c80 0x1c88, tt);
  (R 0x1ce9 0x1cec, tt);
  (R 0x1cee 0x1cf1, tt);
  (R 0x1cf5 0x1cf6, tt);
  (R 0x1d00 0x1dbf, tt);
  (R 0x1e00 0x1f15, tt);
  (R 0x1f18 0x1f1d, tt);
  (R 0x1f20 0x1f45, tt);
  (R 0x1f48 0x1f4d, tt);
  (R 0x1f50 0x1f57, tt);
  (R 0x1f59 0x1f59, tt);
  (R 0x1f5b 0x1f5b, tt);
  (R 0x1f5d 0x1f5d, tt);
  (R 0x1f5f 0x1f7d, tt);
  (R 0x1f80 0x1fb4, tt);
  (R 0x1fb6 0x1fbc, tt);
  (R 0x1fbe 0x1fbe, tt);
  (R 0x1fc2 0x1fc4, tt);
  (R 0x1fc6 0x1fcc, tt);
  (R 0x1fd0 0x1fd3, tt);
  (R 0x1fd6 0x1fdb, tt);
  (R 0x1fe0 0x1fec, tt);
  (R 0x1ff2 0x1ff4, tt);
  (R 0x1ff6 0x1ffc, tt);
  (R 0x2071 0x2071, tt);
  (R 0x207f 0x207f, tt);
  (R 0x2090 0x209c, tt);
  (R 0x2102 0x2102, tt);
  (R 0x2107 0x2107, tt);
  (R 0x210a 0x2113, tt);
  (R 0x2115 0x2115, tt);
  (R 0x2118 0x211d, tt);
  (R 0x2124 0x2124, tt);
  (R 0x2126 0x2126, tt);
  (R 0x2128 0x2128, tt);
  (R 0x212a 0x2139, tt);
  (R 0x213c 0x213f, tt);
  (R 0x2145 0x2149, tt);
  (R 0x214e 0x214e, tt);
  (R 0x2160 0x2188, tt);
  (R 0x2c00 0x2c2e, tt);
  (R 0x2c30 0x2c5e, tt);
  (R 0x2c60 0x2ce4, tt);
  (R 0x2ceb 0x2cee, tt);
  (R 0x2cf2 0x2cf3, tt);
  (R 0x2d00 0x2d25, tt);
  (R 0x2d27 0x2d27, tt);
  (R 0x2d2d 0x2d2d, tt);
  (R 0x2d30 0x2d67, tt);
  (R 0x2d6f 0x2d6f, tt);
  (R 0x2d80 0x2d96, tt);
  (R 0x2da0 0x2da6, tt);
  (R 0x2da8 0x2dae, tt);
  (R 0x2db0 0x2db6, tt);
  (R 0x2db8 0x2dbe, tt);
  (R 0x2dc0 0x2dc6, tt);
  (R 0x2dc8 0x2dce, tt);
  (R 0x2dd0 0x2dd6, tt);
  (R 0x2dd8 0x2dde, tt);
  (R 0x3005 0x3007, tt);
  (R 0x3021 0x3029, tt);
  (R 0x3031 0x3035, tt);
  (R 0x3038 0x303c, tt);
  (R 0x3041 0x3096, tt);
  (R 0x309d 0x309f, tt);
  (R 0x30a1 0x30fa, tt);
  (R 0x30fc 0x30ff, tt);
  (R 0x3105 0x312e, tt);
  (R 0x3131 0x318e, tt);
  (R 0x31a0 0x31ba, tt);
  (R 0x31f0 0x31ff, tt);
  (R 0x3400 0x4db5, tt);
  (R 0x4e00 0x9fea, tt);
  (R 0xa000 0xa48c, tt);
  (R 0xa4d0 0xa4fd, tt);
  (R 0xa500 0xa60c, tt);
  (R 0xa610 0xa61f, tt);
  (R 0xa62a 0xa62b, tt);
  (R 0xa640 0xa66e, tt);
  (R 0xa67f 0xa69d, tt);
  (R 0xa6a0 0xa6ef, tt);
  (R 0xa717 0xa71f, tt);
  (R 0xa722 0xa788, tt);
  (R 0xa78b 0xa7ae, tt);
  (R 0xa7b0 0xa7b7, tt);
  (R 0xa7f7 0xa801, tt);
  (R 0xa803 0xa805, tt);
  (R 0xa807 0xa80a, tt);
  (R 0xa80c 0xa822, tt);
  (R 0xa840 0xa873, tt);
  (R 0xa882 0xa8b3, tt);
  (R 0xa8f2 0xa8f7, tt);
  (R 0xa8fb 0xa8fb, tt);
  (R 0xa8fd 0xa8fd, tt);
  (R 0xa90a 0xa925, tt);
  (R 0xa930 0xa946, tt);
  (R 0xa960 0xa97c, tt);
  (R 0xa984 0xa9b2, tt);
  (R 0xa9cf 0xa9cf, tt);
  (R 0xa9e0 0xa9e4, tt);
  (R 0xa9e6 0xa9ef, tt);
  (R 0xa9fa 0xa9fe, tt);
  (R 0xaa00 0xaa28, tt);
  (R 0xaa40 0xaa42, tt);
  (R 0xaa44 0xaa4b, tt);
  (R 0xaa60 0xaa76, tt);
  (R 0xaa7a 0xaa7a, tt);
  (R 0xaa7e 0xaaaf, tt);
  (R 0xaab1 0xaab1, tt);
  (R 0xaab5 0xaab6, tt);
  (R 0xaab9 0xaabd, tt);
  (R 0xaac0 0xaac0, tt);
  (R 0xaac2 0xaac2, tt);
  (R 0xaadb 0xaadd, tt);
  (R 0xaae0 0xaaea, tt);
  (R 0xaaf2 0xaaf4, tt);
  (R 0xab01 0xab06, tt);
  (R 0xab09 0xab0e, tt);
  (R 0xab11 0xab16, tt);
  (R 0xab20 0xab26, tt);
  (R 0xab28 0xab2e, tt);
  (R 0xab30 0xab5a, tt);
  (R 0xab5c 0xab65, tt);
  (R 0xab70 0xabe2, tt);
  (R 0xac00 0xd7a3, tt);
  (R 0xd7b0 0xd7c6, tt);
  (R 0xd7cb 0xd7fb, tt);
  (R 0xf900 0xfa6d, tt);
  (R 0xfa70 0xfad9, tt);
  (R 0xfb00 0xfb06, tt);
  (R 0xfb13 0xfb17, tt);
  (R 0xfb1d 0xfb1d, tt);
  (R 0xfb1f 0xfb28, tt);
  (R 0xfb2a 0xfb36, tt);
  (R 0xfb38 0xfb3c, tt);
  (R 0xfb3e 0xfb3e, tt);
  (R 0xfb40 0xfb41, tt);
  (R 0xfb43 0xfb44, tt);
  (R 0xfb46 0xfbb1, tt);
  (R 0xfbd3 0xfc5d, tt);
  (R 0xfc64 0xfd3d, tt);
  (R 0xfd50 0xfd8f, tt);
  (R 0xfd92 0xfdc7, tt);
  (R 0xfdf0 0xfdf9, tt);
  (R 0xfe71 0xfe71, tt);
  (R 0xfe73 0xfe73, tt);
  (R 0xfe77 0xfe77, tt);
  (R 0xfe79 0xfe79, tt);
  (R 0xfe7b 0xfe7b, tt);
  (R 0xfe7d 0xfe7d, tt);
  (R 0xfe7f 0xfefc, tt);
  (R 0xff21 0xff3a, tt);
  (R 0xff41 0xff5a, tt);
  (R 0xff66 0xff9d, tt);
  (R 0xffa0 0xffbe, tt);
  (R 0xffc2 0xffc7, tt);
  (R 0xffca 0xffcf, tt);
  (R 0xffd2 0xffd7, tt);
  (R 0xffda 0xffdc, tt);
  (R 0x10000 0x1000b, tt);
  (R 0x1000d 0x10026, tt);
  (R 0x10028 0x1003a, tt);
  (R 0x1003c 0x1003d, tt);
  (R 0x1003f 0x1004d, tt);
  (R 0x10050 0x1005d, tt);
  (R 0x10080 0x100fa, tt);
  (R 0x10140 0x10174, tt);
  (R 0x10280 0x1029c, tt);
  (R 0x102a0 0x102d0, tt);
  (R 0x10300 0x1031f, tt);
  (R 0x1032d 0x1034a, tt)].

Definition XID_START_1 : list (CharRange * unit) := [
  (R 0x10350 0x10375, tt);
  (R 0x10380 0x1039d, tt);
  (R 0x103a0 0x103c3, tt);
  (R 0x103c8 0x103cf, tt);
  (R 0x103d1 0x103d5, tt);
  (R 0x10400 0x1049d, tt);
  (R 0x104b0 0x104d3, tt);
  (R 0x104d8 0x104fb, tt);
  (R 0x10500 0x10527, tt);
  (R 0x10530 0x10563, tt);
  (R 0x10600 0x10736, tt);
  (R 0x10740 0x10755, tt);
  (R 0x10760 0x10767, tt);
  (R 0x10800 0x10805, tt);
  (R 0x10808 0x10808, tt);
  (R 0x1080a 0x10835, tt);
  (R 0x10837 0x10838, tt);
  (R 0x1083c 0x1083c, tt);
  (R 0x1083f 0x10855, tt);
  (R 0x10860 0x10876, tt);
  (R 0x10880 0x1089e, tt);
  (R 0x108e0 0x108f2, tt);
  (R 0x108f4 0x108f5, tt);
  (R 0x10900 0x10915, tt);
  (R 0x10920 0x10939, tt);
  (R 0x10980 0x109b7, tt);
  (R 0x109be 0x109bf, tt);
  (R 0x10a00 0x10a00, tt);
  (R 0x10a10 0x10a13, tt);
  (R 0x10a15 0x10a17, tt);
  (R 0x10a19 0x10a33, tt);
  (R 0x10a60 0x10a7c, tt);
  (R 0x10a80 0x10a9c, tt);
  (R 0x10ac0 0x10ac7, tt);
  (R 0x10ac9 0x10ae4, tt);
  (R 0x10b00 0x10b35, tt);
  (R 0x10b40 0x10b55, tt);
  (R 0x10b60 0x10b72, tt);
  (R 0x10b80 0x10b91, tt);
  (R 0x10c00 0x10c48, tt);
  (R 0x10c80 0x10cb2, tt);
  (R 0x10cc0 0x10cf2, tt);
  (R 0x11003 0x11037, tt);
  (R 0x11083 0x110af, tt);
  (R 0x110d0 0x110e8, tt);
  (R 0x11103 0x11126, tt);
  (R 0x11150 0x11172, tt);
  (R 0x11176 0x11176, tt);
  (R 0x11183 0x111b2, tt);
  (R 0x111c1 0x111c4, tt);
  (R 0x111da 0x111da, tt);
  (R 0x111dc 0x111dc, tt);
  (R 0x11200 0x11211, tt);
  (R 0x11213 0x1122b, tt);
  (R 0x11280 0x11286, tt);
  (R 0x11288 0x11288, tt);
  (R 0x1128a 0x1128d, tt);
  (R 0x1128f 0x1129d, tt);
  (R 0x1129f 0x112a8, tt);
  (R 0x112b0 0x112de, tt);
  (R 0x11305 0x1130c, tt);
  (R 0x1130f 0x11310, tt);
  (R 0x11313 0x11328, tt);
  (R 0x1132a 0x11330, tt);
  (R 0x11332 0x11333, tt);
  (R 0x11335 0x11339, tt);
  (R 0x1133d 0x1133d, tt);
  (R 0x11350 0x11350, tt);
  (R 0x1135d 0x11361, tt);
  (R 0x11400 0x11434, tt);
  (R 0x11447 0x1144a, tt);
  (R 0x11480 0x114af, tt);
  (R 0x114c4 0x114c5, tt);
  (R 0x114c7 0x114c7, tt);
  (R 0x11580 0x115ae, tt);
  (R 0x115d8 0x115db, tt);
  (R 0x11600 0x1162f, tt);
  (R 0x11644 0x11644, tt);
  (R 0x11680 0x116aa, tt);
  (R 0x11700 0x11719, tt);
  (R 0x118a0 0x118df, tt);
  (R 0x118ff 0x118ff, tt);
  (R 0x11a00 0x11a00, tt);
  (R 0x11a0b 0x11a32, tt);
  (R 0x11a3a 0x11a3a, tt);
  (R 0x11a50 0x11a50, tt);
  (R 0x11a5c 0x11a83, tt);
  (R 0x11a86 0x11a89, tt);
  (R 0x11ac0 0x11af8, tt);
  (R 0x11c00 0x11c08, tt);
  (R 0x11c0a 0x11c2e, tt);
  (R 0x11c40 0x11c40, tt);
  (R 0x11c72 0x11c8f, tt);
  (R 0x11d00 0x11d06, tt);
  (R 0x11d08 0x11d09, tt);
  (R 0x11d0b 0x11d30, tt);
  (R 0x11d46 0x11d46, tt);
  (R 0x12000 0x12399, tt);
  (R 0x12400 0x1246e, tt);
  (R 0x12480 0x12543, tt);
  (R 0x13000 0x1342e, tt);
  (R 0x14400 0x14646, tt);
  (R 0x16800 0x16a38, tt);
  (R 0x16a40 0x16a5e, tt);
  (R 0x16ad0 0x16aed, tt);
  (R 0x16b00 0x16b2f, tt);
  (R 0x16b40 0x16b43, tt);
  (R 0x16b63 0x16b77, tt);
  (R 0x16b7d 0x16b8f, tt);
  (R 0x16f00 0x16f44, tt);
  (R 0x16f50 0x16f50, tt);
  (R 0x16f93 0x16f9f, tt);
  (R 0x16fe0 0x16fe1, tt);
  (R 0x17000 0x187ec, tt);
  (R 0x18800 0x18af2, tt);
  (R 0x1b000 0x1b11e, tt);
  (R 0x1b170 0x1b2fb, tt);
  (R 0x1bc00 0x1bc6a, tt);
  (R 0x1bc70 0x1bc7c, tt);
  (R 0x1bc80 0x1bc88, tt);
  (R 0x1bc90 0x1bc99, tt);
  (R 0x1d400 0x1d454, tt);
  (R 0x1d456 0x1d49c, tt);
  (R 0x1d49e 0x1d49f, tt);
  (R 0x1d4a2 0x1d4a2, tt);
  (R 0x1d4a5 0x1d4a6, tt);
  (R 0x1d4a9 0x1d4ac, tt);
  (R 0x1d4ae 0x1d4b9, tt);
  (R 0x1d4bb 0x1d4bb, tt);
  (R 0x1d4bd 0x1d4c3, tt);
  (R 0x1d4c5 0x1d505, tt);
  (R 0x1d507 0x1d50a, tt);
  (R 0x1d50d 0x1d514, tt);
  (R 0x1d516 0x1d51c, tt);
  (R 0x1d51e 0x1d539, tt);
  (R 0x1d53b 0x1d53e, tt);
  (R 0x1d540 0x1d544, tt);
  (R 0x1d546 0x1d546, tt);
  (R 0x1d54a 0x1d550, tt);
  (R 0x1d552 0x1d6a5, tt);
  (R 0x1d6a8 0x1d6c0, tt);
  (R 0x1d6c2 0x1d6da, tt);
  (R 0x1d6dc 0x1d6fa, tt);
  (R 0x1d6fc 0x1d714, tt);
  (R 0x1d716 0x1d734, tt);
  (R 0x1d736 0x1d74e, tt);
  (R 0x1d750 0x1d76e, tt);
  (R 0x1d770 0x1d788, tt);
  (R 0x1d78a 0x1d7a8, tt);
  (R 0x1d7aa 0x1d7c2, tt);
  (R 0x1d7c4 0x1d7cb, tt);
  (R 0x1e800 0x1e8c4, tt);
  (R 0x1e900 0x1e943, tt);
  (R 0x1ee00 0x1ee03, tt);
  (R 0x1ee05 0x1ee1f, tt);
  (R 0x1ee21 0x1ee22, tt);
  (R 0x1ee24 0x1ee24, tt);
  (R 0x1ee27 0x1ee27, tt);
  (R 0x1ee29 0x1ee32, tt);
  (R 0x1ee34 0x1ee37, tt);
  (R 0x1ee39 0x1ee39, tt);
  (R 0x1ee3b 0x1ee3b, tt);
  (R 0x1ee42 0x1ee42, tt);
  (R 0x1ee47 0x1ee47, tt);
  (R 0x1ee49 0x1ee49, tt);
  (R 0x1ee4b 0x1ee4b, tt);
  (R 0x1ee4d 0x1ee4f, tt);
  (R 0x1ee51 0x1ee52, tt);
  (R 0x1ee54 0x1ee54, tt);
  (R 0x1ee57 0x1ee57, tt);
  (R 0x1ee59 0x1ee59, tt);
  (R 0x1ee5b 0x1ee5b, tt);
  (R 0x1ee5d 0x1ee5d, tt);
  (R 0x1ee5f 0x1ee5f, tt);
  (R 0x1ee61 0x1ee62, tt);
  (R 0x1ee64 0x1ee64, tt);
  (R 0x1ee67 0x1ee6a, tt);
  (R 0x1ee6c 0x1ee72, tt);
  (R 0x1ee74 0x1ee77, tt);
  (R 0x1ee79 0x1ee7c, tt);
  (R 0x1ee7e 0x1ee7e, tt);
  (R 0x1ee80 0x1ee89, tt);
  (R 0x1ee8b 0x1ee9b, tt);
  (R 0x1eea1 0x1eea3, tt);
  (R 0x1eea5 0x1eea9, tt);
  (R 0x1eeab 0x1eebb, tt);
  (R 0x20000 0x2a6d6, tt);
  (R 0x2a700 0x2b734, tt);
  (R 0x2b740 0x2b81d, tt);
  (R 0x2b820 0x2cea1, tt);
  (R 0x2ceb0 0x2ebe0, tt);
  (R 0x2f800 0x2fa1d, tt)].

Definition XID_START : CharDataTable unit :=
  Range (XID_START_0 ++ XID_START_1).

(** unic/emoji/char/tables/emoji.rsv:1-149 (145 entries) *)
Definition EMOJI : CharDataTable unit := Range [
  (R 0x23 0x23, tt);
  (R 0x2a 0x2a, tt);
  (R 0x30 0x39, tt);
  (R 0xa9 0xa9, tt);
  (R 0xae 0xae, tt);
  (R 0x203c 0x203c, tt);
  (R 0x2049 0x2049, tt);
  (R 0x2122 0x2122, tt);
  (R 0x2139 0x2139, tt);
  (R 0x2194 0x2199, tt);
  (R 0x21a9 0x21aa, tt);
  (R 0x231a 0x231b, tt);
  (R 0x2328 0x2328, tt);
  (R 0x23cf 0x23cf, tt);
  (R 0x23e9 0x23f3, tt);
  (R 0x23f8 0x23fa, tt);
  (R 0x24c2 0x24c2, tt);
  (R 0x25aa 0x25ab, tt);
  (R 0x25b6 0x25b6, tt);
  (R 0x25c0 0x25c0, tt);
  (R 0x25fb 0x25fe, tt);
  (R 0x2600 0x2604, tt);
  (R 0x260e 0x260e, tt);
  (R 0x2611 0x2611, tt);
  (R 0x2614 0x2615, tt);
  (R 0x2618 0x2618, tt);
  (R 0x261d 0x261d, tt);
  (R 0x2620 0x2620, tt);
  (R 0x2622 0x2623, tt);
  (R 0x2626 0x2626, tt);
  (R 0x262a 0x262a, tt);
  (R 0x262e 0x262f, tt);
  (R 0x2638 0x263a, tt);
  (R 0x2640 0x2640, tt);
  (R 0x2642 0x2642, tt);
  (R 0x2648 0x2653, tt);
  (R 0x2660 0x2660, tt);
  (R 0x2663 0x2663, tt);
  (R 0x2665 0x2666, tt);
  (R 0x2668 0x2668, tt);
  (R 0x267b 0x267b, tt);
  (R 0x267f 0x267f, tt);
  (R 0x2692 0x2697, tt);
  (R 0x2699 0x2699, tt);
  (R 0x269b 0x269c, tt);
  (R 0x26a0 0x26a1, tt);
  (R 0x26aa 0x26ab, tt);
  (R 0x26b0 0x26b1, tt);
  (R 0x26bd 0x26be, tt);
  (R 0x26c4 0x26c5, tt);
  (R 0x26c8 0x26c8, tt);
  (R 0x26ce 0x26cf, tt);
  (R 0x26d1 0x26d1, tt);
  (R 0x26d3 0x26d4, tt);
  (R 0x26e9 0x26ea, tt);
  (R 0x26f0 0x26f5, tt);
  (R 0x26f7 0x26fa, tt);
  (R 0x26fd 0x26fd, tt);
  (R 0x2702 0x2702, tt);
  (R 0x2705 0x2705, tt);
  (R 0x2708 0x270d, tt);
  (R 0x270f 0x270f, tt);
  (R 0x2712 0x2712, tt);
  (R 0x2714 0x2714, tt);
  (R 0x2716 0x2716, tt);
  (R 0x271d 0x271d, tt);
  (R 0x2721 0x2721, tt);
  (R 0x2728 0x2728, tt);
  (R 0x2733 0x2734, tt);
  (R 0x2744 0x2744, tt);
  (R 0x2747 0x2747, tt);
  (R 0x274c 0x274c, tt);
  (R 0x274e 0x274e, tt);
  (R 0x2753 0x2755, tt);
  (R 0x2757 0x2757, tt);
  (R 0x2763 0x2764, tt);
  (R 0x2795 0x2797, tt);
  (R 0x27a1 0x27a1, tt);
  (R 0x27b0 0x27b0, tt);
  (R 0x27bf 0x27bf, tt);
  (R 0x2934 0x2935, tt);
  (R 0x2b05 0x2b07, tt);
  (R 0x2b1b 0x2b1c, tt);
  (R 0x2b50 0x2b50, tt);
  (R 0x2b55 0x2b55, tt);
  (R 0x3030 0x3030, tt);
  (R 0x303d 0x303d, tt);
  (R 0x3297 0x3297, tt);
  (R 0x3299 0x3299, tt);
  (R 0x1f004 0x1f004, tt);
  (R 0x1f0cf 0x1f0cf, tt);
  (R 0x1f170 0x1f171, tt);
  (R 0x1f17e 0x1f17f, tt);
  (R 0x1f18e 0x1f18e, tt);
  (R 0x1f191 0x1f19a, tt);
  (R 0x1f1e6 0x1f1ff, tt);
  (R 0x1f201 0x1f202, tt);
  (R 0x1f21a 0x1f21a, tt);
  (R 0x1f22f 0x1f22f, tt);
  (R 0x1f232 0x1f23a, tt);
  (R 0x1f250 0x1f251, tt);
  (R 0x1f300 0x1f321, tt);
  (R 0x1f324 0x1f393, tt);
  (R 0x1f396 0x1f397, tt);
  (R 0x1f399 0x1f39b, tt);
  (R 0x1f39e 0x1f3f0, tt);
  (R 0x1f3f3 0x1f3f5, tt);
  (R 0x1f3f7 0x1f4fd, tt);
  (R 0x1f4ff 0x1f53d, tt);
  (R 0x1f549 0x1f54e, tt);
  (R 0x1f550 0x1f567, tt);
  (R 0x1f56f 0x1f570, tt);
  (R 0x1f573 0x1f57a, tt);
  (R 0x1f587 0x1f587, tt);
  (R 0x1f58a 0x1f58d, tt);
  (R 0x1f590 0x1f590, tt);
  (R 0x1f595 0x1f596, tt);
  (R 0x1f5a4 0x1f5a5, tt);
  (R 0x1f5a8 0x1f5a8, tt);
  (R 0x1f5b1 0x1f5b2, tt);
  (R 0x1f5bc 0x1f5bc, tt);
  (R 0x1f5c2 0x1f5c4, tt);
  (R 0x1f5d1 0x1f5d3, tt);
  (R 0x1f5dc 0x1f5de, tt);
  (R 0x1f5e1 0x1f5e1, tt);
  (R 0x1f5e3 0x1f5e3, tt);
  (R 0x1f5e8 0x1f5e8, tt);
  (R 0x1f5ef 0x1f5ef, tt);
  (R 0x1f5f3 0x1f5f3, tt);
  (R 0x1f5fa 0x1f64f, tt);
  (R 0x1f680 0x1f6c5, tt);
  (R 0x1f6cb 0x1f6d2, tt);
  (R 0x1f6e0 0x1f6e5, tt);
  (R 0x1f6e9 0x1f6e9, tt);
  (R 0x1f6eb 0x1f6ec, tt);
  (R 0x1f6f0 0x1f6f0, tt);
  (R 0x1f6f3 0x1f6f8, tt);
  (R 0x1f910 0x1f93a, tt);
  (R 0x1f93c 0x1f93e, tt);
  (R 0x1f940 0x1f945, tt);
  (R 0x1f947 0x1f94c, tt);
  (R 0x1f950 0x1f96b, tt);
  (R 0x1f980 0x1f997, tt);
  (R 0x1f9c0 0x1f9c0, tt);
  (R 0x1f9d0 0x1f9e6, tt)].

(** unic/emoji/char/tables/emoji_component.rsv:1-9 (5 entries) *)
Definition EMOJI_COMPONENT : CharDataTable unit := Range [
  (R 0x23 0x23, tt);
  (R 0x2a 0x2a, tt);
  (R 0x30 0x39, tt);
  (R 0x1f1e6 0x1f1ff, tt);
  (R 0x1f3fb 0x1f3ff, tt)].

(** unic/emoji/char/tables/emoji_modifier.rsv:1-5 (1 entries) *)
Definition EMOJI_MODIFIER : CharDataTable unit := Range [
  (R 0x1f3fb 0x1f3ff, tt)].

(** unic/emoji/char/tables/emoji_modifier_base.rsv:1-36 (32 entries) *)
Definition EMOJI_MODIFIER_BASE : CharDataTable unit := Range [
  (R 0x261d 0x261d, tt);
  (R 0x26f9 0x26f9, tt);
  (R 0x270a 0x270d, tt);
  (R 0x1f385 0x1f385, tt);
  (R 0x1f3c2 0x1f3c4, tt);
  (R 0x1f3c7 0x1f3c7, tt);
  (R 0x1f3ca 0x1f3cc, tt);
  (R 0x1f442 0x1f443, tt);
  (R 0x1f446 0x1f450, tt);
  (R 0x1f466 0x1f469, tt);
  (R 0x1f46e 0x1f46e, tt);
  (R 0x1f470 0x1f478, tt);
  (R 0x1f47c 0x1f47c, tt);
  (R 0x1f481 0x1f483, tt);
  (R 0x1f485 0x1f487, tt);
  (R 0x1f4aa 0x1f4aa, tt);
  (R 0x1f574 0x1f575, tt);
  (R 0x1f57a 0x1f57a, tt);
  (R 0x1f590 0x1f590, tt);
  (R 0x1f595 0x1f596, tt);
  (R 0x1f645 0x1f647, tt);
  (R 0x1f64b 0x1f64f, tt);
  (R 0x1f6a3 0x1f6a3, tt);
  (R 0x1f6b4 0x1f6b6, tt);
  (R 0x1f6c0 0x1f6c0, tt);
  (R 0x1f6cc 0x1f6cc, tt);
  (R 0x1f918 0x1f91c, tt);
  (R 0x1f91e 0x1f91f, tt);
  (R 0x1f926 0x1f926, tt);
  (R 0x1f930 0x1f939, tt);
  (R 0x1f93d 0x1f93e, tt);
  (R 0x1f9d1 0x1f9dd, tt)].

(** unic/emoji/char/tables/emoji_presentation.rsv:1-79 (75 entries) *)
Definition EMOJI_PRESENTATION : CharDataTable unit := Range [
  (R 0x231a 0x231b, tt);
  (R 0x23e9 0x23ec, tt);
  (R 0x23f0 0x23f0, tt);
  (R 0x23f3 0x23f3, tt);
  (R 0x25fd 0x25fe, tt);
  (R 0x2614 0x2615, tt);
  (R 0x2648 0x2653, tt);
  (R 0x267f 0x267f, tt);
  (R 0x2693 0x2693, tt);
  (R 0x26a1 0x26a1, tt);
  (R 0x26aa 0x26ab, tt);
  (R 0x26bd 0x26be, tt);
  (R 0x26c4 0x26c5, tt);
  (R 0x26ce 0x26ce, tt);
  (R 0x26d4 0x26d4, tt);
  (R 0x26ea 0x26ea, tt);
  (R 0x26f2 0x26f3, tt);
  (R 0x26f5 0x26f5, tt);
  (R 0x26fa 0x26fa, tt);
  (R 0x26fd 0x26fd, tt);
  (R 0x2705 0x2705, tt);
  (R 0x270a 0x270b, tt);
  (R 0x2728 0x2728, tt);
  (R 0x274c 0x274c, tt);
  (R 0x274e 0x274e, tt);
  (R 0x2753 0x2755, tt);
  (R 0x2757 0x2757, tt);
  (R 0x2795 0x2797, tt);
  (R 0x27b0 0x27b0, tt);
  (R 0x27bf 0x27bf, tt);
  (R 0x2b1b 0x2b1c, tt);
  (R 0x2b50 0x2b50, tt);
  (R 0x2b55 0x2b55, tt);
  (R 0x1f004 0x1f004, tt);
  (R 0x1f0cf 0x1f0cf, tt);
  (R 0x1f18e 0x1f18e, tt);
  (R 0x1f191 0x1f19a, tt);
  (R 0x1f1e6 0x1f1ff, tt);
  (R 0x1f201 0x1f201, tt);
  (R 0x1f21a 0x1f21a, tt);
  (R 0x1f22f 0x1f22f, tt);
  (R 0x1f232 0x1f236, tt);
  (R 0x1f238 0x1f23a, tt);
  (R 0x1f250 0x1f251, tt);
  (R 0x1f300 0x1f320, tt);
  (R 0x1f32d 0x1f335, tt);
  (R 0x1f337 0x1f37c, tt);
  (R 0x1f37e 0x1f393, tt);
  (R 0x1f3a0 0x1f3ca, tt);
  (R 0x1f3cf 0x1f3d3, tt);
  (R 0x1f3e0 0x1f3f0, tt);
  (R 0x1f3f4 0x1f3f4, tt);
  (R 0x1f3f8 0x1f43e, tt);
  (R 0x1f440 0x1f440, tt);
  (R 0x1f442 0x1f4fc, tt);
  (R 0x1f4ff 0x1f53d, tt);
  (R 0x1f54b 0x1f54e, tt);
  (R 0x1f550 0x1f567, tt);
  (R 0x1f57a 0x1f57a, tt);
  (R 0x1f595 0x1f596, tt);
  (R 0x1f5a4 0x1f5a4, tt);
  (R 0x1f5fb 0x1f64f, tt);
  (R 0x1f680 0x1f6c5, tt);
  (R 0x1f6cc 0x1f6cc, tt);
  (R 0x1f6d0 0x1f6d2, tt);
  (R 0x1f6eb 0x1f6ec, tt);
  (R 0x1f6f4 0x1f6f8, tt);
  (R 0x1f910 0x1f93a, tt);
  (R 0x1f93c 0x1f93e, tt);
  (R 0x1f940 0x1f945, tt);
  (R 0x1f947 0x1f94c, tt);
  (R 0x1f950 0x1f96b, tt);
  (R 0x1f980 0x1f997, tt);
  (R 0x1f9c0 0x1f9c0, tt);
  (R 0x1f9d0 0x1f9e6, tt)].
