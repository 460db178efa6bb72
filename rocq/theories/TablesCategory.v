(** GENERATED by tools/gen_tables.py from the .rsv tables of /repo.  Do not edit. *)
From Coq Require Import List NArith.
From Verif Require Import Base RangeModel TableModel Enums TableTypes.
Import ListNotations.
Open Scope N_scope.
Local Notation R := mkRange.

(** unic/ucd/category/tables/general_category.rsv:1-3058 (3054 entries) *)
Definition GENERAL_CATEGORY_0 : list (CharRange * GeneralCategory) := [
  (R 0x0 0x1f, GC_Control);
  (R 0x20 0x20, GC_SpaceSeparator);
  (R 0x21 0x23, GC_OtherPunctuation);
  (R 0x24 0x24, GC_CurrencySymbol);
  (R 0x25 0x27, GC_OtherPunctuation);
  (R 0x28 0x28, GC_OpenPunctuation);
  (R 0x29 0x29, GC_ClosePunctuation);
  (R 0x2a 0x2a, GC_OtherPunctuation);
  (R 0x2b 0x2b, GC_MathSymbol);
  (R 0x2c 0x2c, GC_OtherPunctuation);
  (R 0x2d 0x2d, GC_DashPunctuation);
  (R 0x2e 0x2f, GC_OtherPunctuation);
  (R 0x30 0x39, GC_DecimalNumber);
  (R 0x3a 0x3b, GC_OtherPunctuation);
  (R 0x3c 0x3e, GC_MathSymbol);
  (R 0x3f 0x40, GC_OtherPunctuation);
  (R 0x41 0x5a, GC_UppercaseLetter);
  (R 0x5b 0x5b, GC_OpenPunctuation);
  (R 0x5c 0x5c, GC_OtherPunctuation);
  (R 0x5d 0x5d, GC_ClosePunctuation);
  (R 0x5e 0x5e, GC_ModifierSymbol);
  (R 0x5f 0x5f, GC_ConnectorPunctuation);
  (R 0x60 0x60, GC_ModifierSymbol);
  (R 0x61 0x7a, GC_LowercaseLetter);
  (R 0x7b 0x7b, GC_OpenPunctuation);
  (R 0x7c 0x7c, GC_MathSymbol);
  (R 0x7d 0x7d, GC_ClosePunctuation);
  (R 0x7e 0x7e, GC_MathSymbol);
  (R 0x7f 0x9f, GC_Control);
  (R 0xa0 0xa0, GC_SpaceSeparator);
  (R 0xa1 0xa1, GC_OtherPunctuation);
  (R 0xa2 0xa5, GC_CurrencySymbol);
  (R 0xa6 0xa6, GC_OtherSymbol);
  (R 0xa7 0xa7, GC_OtherPunctuation);
  (R 0xa8 0xa8, GC_ModifierSymbol);
  (R 0xa9 0xa9, GC_OtherSymbol);
  (R 0xaa 0xaa, GC_OtherLetter);
  (R 0xab 0xab, GC_InitialPunctuation);
  (R 0xac 0xac, GC_MathSymbol);
  (R 0xad 0xad, GC_Format);
  (R 0xae 0xae, GC_OtherSymbol);
  (R 0xaf 0xaf, GC_ModifierSymbol);
  (R 0xb0 0xb0, GC_OtherSymbol);
  (R 0xb1 0xb1, GC_MathSymbol);
  (R 0xb2 0xb3, GC_OtherNumber);
  (R 0xb4 0xb4, GC_ModifierSymbol);
  (R 0xb5 0xb5, GC_LowercaseLetter);
  (R 0xb6 0xb7, GC_OtherPunctuation);
  (R 0xb8 0xb8, GC_ModifierSymbol);
  (R 0xb9 0xb9, GC_OtherNumber);
  (R 0xba 0xba, GC_OtherLetter);
  (R 0xbb 0xbb, GC_FinalPunctuation);
  (R 0xbc 0xbe, GC_OtherNumber);
  (R 0xbf 0xbf, GC_OtherPunctuation);
  (R 0xc0 0xd6, GC_UppercaseLetter);
  (R 0xd7 0xd7, GC_MathSymbol);
  (R 0xd8 0xde, GC_UppercaseLetter);
  (R 0xdf 0xf6, GC_LowercaseLetter);
  (R 0xf7 0xf7, GC_MathSymbol);
  (R 0xf8 0xff, GC_LowercaseLetter);
  (R 0x100 0x100, GC_UppercaseLetter);
  (R 0x101 0x101, GC_LowercaseLetter);
  (R 0x102 0x102, GC_UppercaseLetter);
  (R 0x103 0x103, GC_LowercaseLetter);
  (R 0x104 0x104, GC_UppercaseLetter);
  (R 0x105 0x105, GC_LowercaseLetter);
  (R 0x106 0x106, GC_UppercaseLetter);
  (R 0x107 0x107, GC_LowercaseLetter);
  (R 0x108 0x108, GC_UppercaseLetter);
  (R 0x109 0x109, GC_LowercaseLetter);
  (R 0x10a 0x10a, GC_UppercaseLetter);
  (R 0x10b 0x10b, GC_LowercaseLetter);
  (R 0x10c 0x10c, GC_UppercaseLetter);
  (R 0x10d 0x10d, GC_LowercaseLetter);
  (R 0x10e 0x10e, GC_UppercaseLetter);
  (R 0x10f 0x10f, GC_LowercaseLetter);
  (R 0x110 0x110, GC_UppercaseLetter);
  (R 0x111 0x111, GC_LowercaseLetter);
  (R 0x112 0x112, GC_UppercaseLetter);
  (R 0x113 0x113, GC_LowercaseLetter);
  (R 0x114 0x114, GC_UppercaseLetter);
  (R 0x115 0x115, GC_LowercaseLetter);
  (R 0x116 0x116, GC_UppercaseLetter);
  (R 0x117 0x117, GC_LowercaseLetter);
  (R 0x118 0x118, GC_UppercaseLetter);
  (R 0x119 0x119, GC_LowercaseLetter);
  (R 0x11a 0x11a, GC_UppercaseLetter);
  (R 0x11b 0x11b, GC_LowercaseLetter);
  (R 0x11c 0x11c, GC_UppercaseLetter);
  (R 0x11d 0x11d, GC_LowercaseLetter);
  (R 0x11e 0x11e, GC_UppercaseLetter);
  (R 0x11f 0x11f, GC_LowercaseLetter);
  (R 0x120 0x120, GC_UppercaseLetter);
  (R 0x121 0x121, GC_LowercaseLetter);
  (R 0x122 0x122, GC_UppercaseLetter);
  (R 0x123 0x123, GC_LowercaseLetter);
  (R 0x124 0x124, GC_UppercaseLetter);
  (R 0x125 0x125, GC_LowercaseLetter);
  (R 0x126 0x126, GC_UppercaseLetter);
  (R 0x127 0x127, GC_LowercaseLetter);
  (R 0x128 0x128, GC_UppercaseLetter);
  (R 0x129 0x129, GC_LowercaseLetter);
  (R 0x12a 0x12a, GC_UppercaseLetter);
  (R 0x12b 0x12b, GC_LowercaseLetter);
  (R 0x12c 0x12c, GC_UppercaseLetter);
  (R 0x12d 0x12d, GC_LowercaseLetter);
  (R 0x12e 0x12e, GC_UppercaseLetter);
  (R 0x12f 0x12f, GC_LowercaseLetter);
  (R 0x130 0x130, GC_UppercaseLetter);
  (R 0x131 0x131, GC_LowercaseLetter);
  (R 0x132 0x132, GC_UppercaseLetter);
  (R 0x133 0x133, GC_LowercaseLetter);
  (R 0x134 0x134, GC_UppercaseLetter);
  (R 0x135 0x135, GC_LowercaseLetter);
  (R 0x136 0x136, GC_UppercaseLetter);
  (R 0x137 0x138, GC_LowercaseLetter);
  (R 0x139 0x139, GC_UppercaseLetter);
  (R 0x13a 0x13a, GC_LowercaseLetter);
  (R 0x13b 0x13b, GC_UppercaseLetter);
  (R 0x13c 0x13c, GC_LowercaseLetter);
  (R 0x13d 0x13d, GC_UppercaseLetter);
  (R 0x13e 0x13e, GC_LowercaseLetter);
  (R 0x13f 0x13f, GC_UppercaseLetter);
  (R 0x140 0x140, GC_LowercaseLetter);
  (R 0x141 0x141, GC_UppercaseLetter);
  (R 0x142 0x142, GC_LowercaseLetter);
  (R 0x143 0x143, GC_UppercaseLetter);
  (R 0x144 0x144, GC_LowercaseLetter);
  (R 0x145 0x145, GC_UppercaseLetter);
  (R 0x146 0x146, GC_LowercaseLetter);
  (R 0x147 0x147, GC_UppercaseLetter);
  (R 0x148 0x149, GC_LowercaseLetter);
  (R 0x14a 0x14a, GC_UppercaseLetter);
  (R 0x14b 0x14b, GC_LowercaseLetter);
  (R 0x14c 0x14c, GC_UppercaseLetter);
  (R 0x14d 0x14d, GC_LowercaseLetter);
  (R 0x14e 0x14e, GC_UppercaseLetter);
  (R 0x14f 0x14f, GC_LowercaseLetter);
  (R 0x150 0x150, GC_UppercaseLetter);
  (R 0x151 0x151, GC_LowercaseLetter);
  (R 0x152 0x152, GC_UppercaseLetter);
  (R 0x153 0x153, GC_LowercaseLetter);
  (R 0x154 0x154, GC_UppercaseLetter);
  (R 0x155 0x155, GC_LowercaseLetter);
  (R 0x156 0x156, GC_UppercaseLetter);
  (R 0x157 0x157, GC_LowercaseLetter);
  (R 0x158 0x158, GC_UppercaseLetter);
  (R 0x159 0x159, GC_LowercaseLetter);
  (R 0x15a 0x15a, GC_UppercaseLetter);
  (R 0x15b 0x15b, GC_LowercaseLetter);
  (R 0x15c 0x15c, GC_UppercaseLetter);
  (R 0x15d 0x15d, GC_LowercaseLetter);
  (R 0x15e 0x15e, GC_UppercaseLetter);
  (R 0x15f 0x15f, GC_LowercaseLetter);
  (R 0x160 0x160, GC_UppercaseLetter);
  (R 0x161 0x161, GC_LowercaseLetter);
  (R 0x162 0x162, GC_UppercaseLetter);
  (R 0x163 0x163, GC_LowercaseLetter);
  (R 0x164 0x164, GC_UppercaseLetter);
  (R 0x165 0x165, GC_LowercaseLetter);
  (R 0x166 0x166, GC_UppercaseLetter);
  (R 0x167 0x167, GC_LowercaseLetter);
  (R 0x168 0x168, GC_UppercaseLetter);
  (R 0x169 0x169, GC_LowercaseLetter);
  (R 0x16a 0x16a, GC_UppercaseLetter);
  (R 0x16b 0x16b, GC_LowercaseLetter);
  (R 0x16c 0x16c, GC_UppercaseLetter);
  (R 0x16d 0x16d, GC_LowercaseLetter);
  (R 0x16e 0x16e, GC_UppercaseLetter);
  (R 0x16f 0x16f, GC_LowercaseLetter);
  (R 0x170 0x170, GC_UppercaseLetter);
  (R 0x171 0x171, GC_LowercaseLetter);
  (R 0x172 0x172, GC_UppercaseLetter);
  (R 0x173 0x173, GC_LowercaseLetter);
  (R 0x174 0x174, GC_UppercaseLetter);
  (R 0x175 0x175, GC_LowercaseLetter);
  (R 0x176 0x176, GC_UppercaseLetter);
  (R 0x177 0x177, GC_LowercaseLetter);
  (R 0x178 0x179, GC_UppercaseLetter);
  (R 0x17a 0x17a, GC_LowercaseLetter);
  (R 0x17b 0x17b, GC_UppercaseLetter);
  (R 0x17c 0x17c, GC_LowercaseLetter);
  (R 0x17d 0x17d, GC_UppercaseLetter);
  (R 0x17e 0x180, GC_LowercaseLetter);
  (R 0x181 0x182, GC_UppercaseLetter);
  (R 0x183 0x183, GC_LowercaseLetter);
  (R 0x184 0x184, GC_UppercaseLetter);
  (R 0x185 0x185, GC_LowercaseLetter);
  (R 0x186 0x187, GC_UppercaseLetter);
  (R 0x188 0x188, GC_LowercaseLetter);
  (R 0x189 0x18b, GC_UppercaseLetter);
  (R 0x18c 0x18d, GC_LowercaseLetter);
  (R 0x18e 0x191, GC_UppercaseLetter);
  (R 0x192 0x192, GC_LowercaseLetter);
  (R 0x193 0x194, GC_UppercaseLetter);
  (R 0x195 0x195, GC_LowercaseLetter);
  (R 0x196 0x198, GC_UppercaseLetter);
  (R 0x199 0x19b, GC_LowercaseLetter);
  (R 0x19c 0x19d, GC_UppercaseLetter);
  (R 0x19e 0x19e, GC_LowercaseLetter);
  (R 0x19f 0x1a0, GC_UppercaseLetter);
  (R 0x1a1 0x1a1, GC_LowercaseLetter);
  (R 0x1a2 0x1a2, GC_UppercaseLetter);
  (R 0x1a3 0x1a3, GC_LowercaseLetter);
  (R 0x1a4 0x1a4, GC_UppercaseLetter);
  (R 0x1a5 0x1a5, GC_LowercaseLetter);
  (R 0x1a6 0x1a7, GC_UppercaseLetter);
  (R 0x1a8 0x1a8, GC_LowercaseLetter);
  (R 0x1a9 0x1a9, GC_UppercaseLetter);
  (R 0x1aa 0x1ab, GC_LowercaseLetter);
  (R 0x1ac 0x1ac, GC_UppercaseLetter);
  (R 0x1ad 0x1ad, GC_LowercaseLetter);
  (R 0x1ae 0x1af, GC_UppercaseLetter);
  (R 0x1b0 0x1b0, GC_LowercaseLetter);
  (R 0x1b1 0x1b3, GC_UppercaseLetter);
  (R 0x1b4 0x1b4, GC_LowercaseLetter);
  (R 0x1b5 0x1b5, GC_UppercaseLetter);
  (R 0x1b6 0x1b6, GC_LowercaseLetter);
  (R 0x1b7 0x1b8, GC_UppercaseLetter);
  (R 0x1b9 0x1ba, GC_LowercaseLetter);
  (R 0x1bb 0x1bb, GC_OtherLetter);
  (R 0x1bc 0x1bc, GC_UppercaseLetter);
  (R 0x1bd 0x1bf, GC_LowercaseLetter);
  (R 0x1c0 0x1c3, GC_OtherLetter);
  (R 0x1c4 0x1c4, GC_UppercaseLetter);
  (R 0x1c5 0x1c5, GC_TitlecaseLetter);
  (R 0x1c6 0x1c6, GC_LowercaseLetter);
  (R 0x1c7 0x1c7, GC_UppercaseLetter);
  (R 0x1c8 0x1c8, GC_TitlecaseLetter);
  (R 0x1c9 0x1c9, GC_LowercaseLetter);
  (R 0x1ca 0x1ca, GC_UppercaseLetter);
  (R 0x1cb 0x1cb, GC_TitlecaseLetter);
  (R 0x1cc 0x1cc, GC_LowercaseLetter);
  (R 0x1cd 0x1cd, GC_UppercaseLetter);
  (R 0x1ce 0x1ce, GC_LowercaseLetter);
  (R 0x1cf 0x1cf, GC_UppercaseLetter);
  (R 0x1d0 0x1d0, GC_LowercaseLetter);
  (R 0x1d1 0x1d1, GC_UppercaseLetter);
  (R 0x1d2 0x1d2, GC_LowercaseLetter);
  (R 0x1d3 0x1d3, GC_UppercaseLetter);
  (R 0x1d4 0x1d4, GC_LowercaseLetter);
  (R 0x1d5 0x1d5, GC_UppercaseLetter);
  (R 0x1d6 0x1d6, GC_LowercaseLetter);
  (R 0x1d7 0x1d7, GC_UppercaseLetter);
  (R 0x1d8 0x1d8, GC_LowercaseLetter);
  (R 0x1d9 0x1d9, GC_UppercaseLetter);
  (R 0x1da 0x1da, GC_LowercaseLetter);
  (R 0x1db 0x1db, GC_UppercaseLetter);
  (R 0x1dc 0x1dd, GC_LowercaseLetter);
  (R 0x1de 0x1de, GC_UppercaseLetter);
  (R 0x1df 0x1df, GC_LowercaseLetter);
  (R 0x1e0 0x1e0, GC_UppercaseLetter);
  (R 0x1e1 0x1e1, GC_LowercaseLetter);
  (R 0x1e2 0x1e2, GC_UppercaseLetter);
  (R 0x1e3 0x1e3, GC_LowercaseLetter);
  (R 0x1e4 0x1e4, GC_UppercaseLetter);
  (R 0x1e5 0x1e5, GC_LowercaseLetter);
  (R 0x1e6 0x1e6, GC_UppercaseLetter);
  (R 0x1e7 0x1e7, GC_LowercaseLetter);
  (R 0x1e8 0x1e8, GC_UppercaseLetter);
  (R 0x1e9 0x1e9, GC_LowercaseLetter);
  (R 0x1ea 0x1ea, GC_UppercaseLetter);
  (R 0x1eb 0x1eb, GC_LowercaseLetter);
  (R 0x1ec 0x1ec, GC_UppercaseLetter);
  (R 0x1ed 0x1ed, GC_LowercaseLetter);
  (R 0x1ee 0x1ee, GC_UppercaseLetter);
  (R 0x1ef 0x1f0, GC_LowercaseLetter);
  (R 0x1f1 0x1f1, GC_UppercaseLetter);
  (R 0x1f2 0x1f2, GC_TitlecaseLetter);
  (R 0x1f3 0x1f3, GC_LowercaseLetter);
  (R 0x1f4 0x1f4, GC_UppercaseLetter);
  (R 0x1f5 0x1f5, GC_LowercaseLetter);
  (R 0x1f6 0x1f8, GC_UppercaseLetter);
  (R 0x1f9 0x1f9, GC_LowercaseLetter);
  (R 0x1fa 0x1fa, GC_UppercaseLetter);
  (R 0x1fb 0x1fb, GC_LowercaseLetter);
  (R 0x1fc 0x1fc, GC_UppercaseLetter);
  (R 0x1fd 0x1fd, GC_LowercaseLetter);
  (R 0x1fe 0x1fe, GC_UppercaseLetter);
  (R 0x1ff 0x1ff, GC_LowercaseLetter);
  (R 0x200 0x200, GC_UppercaseLetter);
  (R 0x201 0x201, GC_LowercaseLetter);
  (R 0x202 0x202, GC_UppercaseLetter);
  (R 0x203 0x203, GC_LowercaseLetter);
  (R 0x204 0x204, GC_UppercaseLetter);
  (R 0x205 0x205, GC_LowercaseLetter);
  (R 0x206 0x206, GC_UppercaseLetter);
  (R 0x207 0x207, GC_LowercaseLetter);
  (R 0x208 0x208, GC_UppercaseLetter);
  (R 0x209 0x209, GC_LowercaseLetter);
  (R 0x20a 0x20a, GC_UppercaseLetter);
  (R 0x20b 0x20b, GC_LowercaseLetter);
  (R 0x20c 0x20c, GC_UppercaseLetter);
  (R 0x20d 0x20d, GC_LowercaseLetter);
  (R 0x20e 0x20e, GC_UppercaseLetter);
  (R 0x20f 0x20f, GC_LowercaseLetter);
  (R 0x210 0x210, GC_UppercaseLetter);
  (R 0x211 0x211, GC_LowercaseLetter);
  (R 0x212 0x212, GC_UppercaseLetter);
  (R 0x213 0x213, GC_LowercaseLetter);
  (R 0x214 0x214, GC_UppercaseLetter);
  (R 0x215 0x215, GC_LowercaseLetter);
  (R 0x216 0x216, GC_UppercaseLetter);
  (R 0x217 0x217, GC_LowercaseLetter);
  (R 0x218 0x218, GC_UppercaseLetter);
  (R 0x219 0x219, GC_LowercaseLetter);
  (R 0x21a 0x21a, GC_UppercaseLetter);
  (R 0x21b 0x21b, GC_LowercaseLetter);
  (R 0x21c 0x21c, GC_UppercaseLetter);
  (R 0x21d 0x21d, GC_LowercaseLetter);
  (R 0x21e 0x21e, GC_UppercaseLetter);
  (R 0x21f 0x21f, GC_LowercaseLetter);
  (R 0x220 0x220, GC_UppercaseLetter);
  (R 0x221 0x221, GC_LowercaseLetter);
  (R 0x222 0x222, GC_UppercaseLetter);
  (R 0x223 0x223, GC_LowercaseLetter);
  (R 0x224 0x224, GC_UppercaseLetter);
  (R 0x225 0x225, GC_LowercaseLetter);
  (R 0x226 0x226, GC_UppercaseLetter);
  (R 0x227 0x227, GC_LowercaseLetter);
  (R 0x228 0x228, GC_UppercaseLetter);
  (R 0x229 0x229, GC_LowercaseLetter);
  (R 0x22a 0x22a, GC_UppercaseLetter);
  (R 0x22b 0x22b, GC_LowercaseLetter);
  (R 0x22c 0x22c, GC_UppercaseLetter);
  (R 0x22d 0x22d, GC_LowercaseLetter);
  (R 0x22e 0x22e, GC_UppercaseLetter);
  (R 0x22f 0x22f, GC_LowercaseLetter);
  (R 0x230 0x230, GC_UppercaseLetter);
  (R 0x231 0x231, GC_LowercaseLetter);
  (R 0x232 0x232, GC_UppercaseLetter);
  (R 0x233 0x239, GC_LowercaseLetter);
  (R 0x23a 0x23b, GC_UppercaseLetter);
  (R 0x23c 0x23c, GC_LowercaseLetter);
  (R 0x23d 0x23e, GC_UppercaseLetter);
  (R 0x23f 0x240, GC_LowercaseLetter);
  (R 0x241 0x241, GC_UppercaseLetter);
  (R 0x242 0x242, GC_LowercaseLetter);
  (R 0x243 0x246, GC_UppercaseLetter);
  (R 0x247 0x247, GC_LowercaseLetter);
  (R 0x248 0x248, GC_UppercaseLetter);
  (R 0x249 0x249, GC_LowercaseLetter);
  (R 0x24a 0x24a, GC_UppercaseLetter);
  (R 0x24b 0x24b, GC_LowercaseLetter);
  (R 0x24c 0x24c, GC_UppercaseLetter);
  (R 0x24d 0x24d, GC_LowercaseLetter);
  (R 0x24e 0x24e, GC_UppercaseLetter);
  (R 0x24f 0x293, GC_LowercaseLetter);
  (R 0x294 0x294, GC_OtherLetter);
  (R 0x295 0x2af, GC_LowercaseLetter);
  (R 0x2b0 0x2c1, GC_ModifierLetter);
  (R 0x2c2 0x2c5, GC_ModifierSymbol);
  (R 0x2c6 0x2d1, GC_ModifierLetter);
  (R 0x2d2 0x2df, GC_ModifierSymbol);
  (R 0x2e0 0x2e4, GC_ModifierLetter);
  (R 0x2e5 0x2eb, GC_ModifierSymbol);
  (R 0x2ec 0x2ec, GC_ModifierLetter);
  (R 0x2ed 0x2ed, GC_ModifierSymbol);
  (R 0x2ee 0x2ee, GC_ModifierLetter);
  (R 0x2ef 0x2ff, GC_ModifierSymbol);
  (R 0x300 0x36f, GC_NonspacingMark);
  (R 0x370 0x370, GC_UppercaseLetter);
  (R 0x371 0x371, GC_LowercaseLetter);
  (R 0x372 0x372, GC_UppercaseLetter);
  (R 0x373 0x373, GC_LowercaseLetter);
  (R 0x374 0x374, GC_ModifierLetter);
  (R 0x375 0x375, GC_ModifierSymbol);
  (R 0x376 0x376, GC_UppercaseLetter);
  (R 0x377 0x377, GC_LowercaseLetter);
  (R 0x37a 0x37a, GC_ModifierLetter);
  (R 0x37b 0x37d, GC_LowercaseLetter);
  (R 0x37e 0x37e, GC_OtherPunctuation);
  (R 0x37f 0x37f, GC_UppercaseLetter);
  (R 0x384 0x385, GC_ModifierSymbol);
  (R 0x386 0x386, GC_UppercaseLetter);
  (R 0x387 0x387, GC_OtherPunctuation);
  (R 0x388 0x38a, GC_UppercaseLetter);
  (R 0x38c 0x38c, GC_UppercaseLetter);
  (R 0x38e 0x38f, GC_UppercaseLetter);
  (R 0x390 0x390, GC_LowercaseLetter);
  (R 0x391 0x3a1, GC_UppercaseLetter);
  (R 0x3a3 0x3ab, GC_UppercaseLetter);
  (R 0x3ac 0x3ce, GC_LowercaseLetter);
  (R 0x3cf 0x3cf, GC_UppercaseLetter);
  (R 0x3d0 0x3d1, GC_LowercaseLetter);
  (R 0x3d2 0x3d4, GC_UppercaseLetter);
  (R 0x3d5 0x3d7, GC_LowercaseLetter);
  (R 0x3d8 0x3d8, GC_UppercaseLetter);
  (R 0x3d9 0x3d9, GC_LowercaseLetter);
  (R 0x3da 0x3da, GC_UppercaseLetter);
  (R 0x3db 0x3db, GC_LowercaseLetter);
  (R 0x3dc 0x3dc, GC_UppercaseLetter);
  (R 0x3dd 0x3dd, GC_LowercaseLetter);
  (R 0x3de 0x3de, GC_UppercaseLetter);
  (R 0x3df 0x3df, GC_LowercaseLetter);
  (R 0x3e0 0x3e0, GC_UppercaseLetter);
  (R 0x3e1 0x3e1, GC_LowercaseLetter);
  (R 0x3e2 0x3e2, GC_UppercaseLetter);
  (R 0x3e3 0x3e3, GC_LowercaseLetter);
  (R 0x3e4 0x3e4, GC_UppercaseLetter)].

Definition GENERAL_CATEGORY_1 : list (CharRange * GeneralCategory) := [
  (R 0x3e5 0x3e5, GC_LowercaseLetter);
  (R 0x3e6 0x3e6, GC_UppercaseLetter);
  (R 0x3e7 0x3e7, GC_LowercaseLetter);
  (R 0x3e8 0x3e8, GC_UppercaseLetter);
  (R 0x3e9 0x3e9, GC_LowercaseLetter);
  (R 0x3ea 0x3ea, GC_UppercaseLetter);
  (R 0x3eb 0x3eb, GC_LowercaseLetter);
  (R 0x3ec 0x3ec, GC_UppercaseLetter);
  (R 0x3ed 0x3ed, GC_LowercaseLetter);
  (R 0x3ee 0x3ee, GC_UppercaseLetter);
  (R 0x3ef 0x3f3, GC_LowercaseLetter);
  (R 0x3f4 0x3f4, GC_UppercaseLetter);
  (R 0x3f5 0x3f5, GC_LowercaseLetter);
  (R 0x3f6 0x3f6, GC_MathSymbol);
  (R 0x3f7 0x3f7, GC_UppercaseLetter);
  (R 0x3f8 0x3f8, GC_LowercaseLetter);
  (R 0x3f9 0x3fa, GC_UppercaseLetter);
  (R 0x3fb 0x3fc, GC_LowercaseLetter);
  (R 0x3fd 0x42f, GC_UppercaseLetter);
  (R 0x430 0x45f, GC_LowercaseLetter);
  (R 0x460 0x460, GC_UppercaseLetter);
  (R 0x461 0x461, GC_LowercaseLetter);
  (R 0x462 0x462, GC_UppercaseLetter);
  (R 0x463 0x463, GC_LowercaseLetter);
  (R 0x464 0x464, GC_UppercaseLetter);
  (R 0x465 0x465, GC_LowercaseLetter);
  (R 0x466 0x466, GC_UppercaseLetter);
  (R 0x467 0x467, GC_LowercaseLetter);
  (R 0x468 0x468, GC_UppercaseLetter);
  (R 0x469 0x469, GC_LowercaseLetter);
  (R 0x46a 0x46a, GC_UppercaseLetter);
  (R 0x46b 0x46b, GC_LowercaseLetter);
  (R 0x46c 0x46c, GC_UppercaseLetter);
  (R 0x46d 0x46d, GC_LowercaseLetter);
  (R 0x46e 0x46e, GC_UppercaseLetter);
  (R 0x46f 0x46f, GC_LowercaseLetter);
  (R 0x470 0x470, GC_UppercaseLetter);
  (R 0x471 0x471, GC_LowercaseLetter);
  (R 0x472 0x472, GC_UppercaseLetter);
  (R 0x473 0x473, GC_LowercaseLetter);
  (R 0x474 0x474, GC_UppercaseLetter);
  (R 0x475 0x475, GC_LowercaseLetter);
  (R 0x476 0x476, GC_UppercaseLetter);
  (R 0x477 0x477, GC_LowercaseLetter);
  (R 0x478 0x478, GC_UppercaseLetter);
  (R 0x479 0x479, GC_LowercaseLetter);
  (R 0x47a 0x47a, GC_UppercaseLetter);
  (R 0x47b 0x47b, GC_LowercaseLetter);
  (R 0x47c 0x47c, GC_UppercaseLetter);
  (R 0x47d 0x47d, GC_LowercaseLetter);
  (R 0x47e 0x47e, GC_UppercaseLetter);
  (R 0x47f 0x47f, GC_LowercaseLetter);
  (R 0x480 0x480, GC_UppercaseLetter);
  (R 0x481 0x481, GC_LowercaseLetter);
  (R 0x482 0x482, GC_OtherSymbol);
  (R 0x483 0x487, GC_NonspacingMark);
  (R 0x488 0x489, GC_EnclosingMark);
  (R 0x48a 0x48a, GC_UppercaseLetter);
  (R 0x48b 0x48b, GC_LowercaseLetter);
  (R 0x48c 0x48c, GC_UppercaseLetter);
  (R 0x48d 0x48d, GC_LowercaseLetter);
  (R 0x48e 0x48e, GC_UppercaseLetter);
  (R 0x48f 0x48f, GC_LowercaseLetter);
  (R 0x490 0x490, GC_UppercaseLetter);
  (R 0x491 0x491, GC_LowercaseLetter);
  (R 0x492 0x492, GC_UppercaseLetter);
  (R 0x493 0x493, GC_LowercaseLetter);
  (R 0x494 0x494, GC_UppercaseLetter);
  (R 0x495 0x495, GC_LowercaseLetter);
  (R 0x496 0x496, GC_UppercaseLetter);
  (R 0x497 0x497, GC_LowercaseLetter);
  (R 0x498 0x498, GC_UppercaseLetter);
  (R 0x499 0x499, GC_LowercaseLetter);
  (R 0x49a 0x49a, GC_UppercaseLetter);
  (R 0x49b 0x49b, GC_LowercaseLetter);
  (R 0x49c 0x49c, GC_UppercaseLetter);
  (R 0x49d 0x49d, GC_LowercaseLetter);
  (R 0x49e 0x49e, GC_UppercaseLetter);
  (R 0x49f 0x49f, GC_LowercaseLetter);
  (R 0x4a0 0x4a0, GC_UppercaseLetter);
  (R 0x4a1 0x4a1, GC_LowercaseLetter);
  (R 0x4a2 0x4a2, GC_UppercaseLetter);
  (R 0x4a3 0x4a3, GC_LowercaseLetter);
  (R 0x4a4 0x4a4, GC_UppercaseLetter);
  (R 0x4a5 0x4a5, GC_LowercaseLetter);
  (R 0x4a6 0x4a6, GC_UppercaseLetter);
  (R 0x4a7 0x4a7, GC_LowercaseLetter);
  (R 0x4a8 0x4a8, GC_UppercaseLetter);
  (R 0x4a9 0x4a9, GC_LowercaseLetter);
  (R 0x4aa 0x4aa, GC_UppercaseLetter);
  (R 0x4ab 0x4ab, GC_LowercaseLetter);
  (R 0x4ac 0x4ac, GC_UppercaseLetter);
  (R 0x4ad 0x4ad, GC_LowercaseLetter);
  (R 0x4ae 0x4ae, GC_UppercaseLetter);
  (R 0x4af 0x4af, GC_LowercaseLetter);
  (R 0x4b0 0x4b0, GC_UppercaseLetter);
  (R 0x4b1 0x4b1, GC_LowercaseLetter);
  (R 0x4b2 0x4b2, GC_UppercaseLetter);
  (R 0x4b3 0x4b3, GC_LowercaseLetter);
  (R 0x4b4 0x4b4, GC_UppercaseLetter);
  (R 0x4b5 0x4b5, GC_LowercaseLetter);
  (R 0x4b6 0x4b6, GC_UppercaseLetter);
  (R 0x4b7 0x4b7, GC_LowercaseLetter);
  (R 0x4b8 0x4b8, GC_UppercaseLetter);
  (R 0x4b9 0x4b9, GC_LowercaseLetter);
  (R 0x4ba 0x4ba, GC_UppercaseLetter);
  (R 0x4bb 0x4bb, GC_LowercaseLetter);
  (R 0x4bc 0x4bc, GC_UppercaseLetter);
  (R 0x4bd 0x4bd, GC_LowercaseLetter);
  (R 0x4be 0x4be, GC_UppercaseLetter);
  (R 0x4bf 0x4bf, GC_LowercaseLetter);
  (R 0x4c0 0x4c1, GC_UppercaseLetter);
  (R 0x4c2 0x4c2, GC_LowercaseLetter);
  (R 0x4c3 0x4c3, GC_UppercaseLetter);
  (R 0x4c4 0x4c4, GC_LowercaseLetter);
  (R 0x4c5 0x4c5, GC_UppercaseLetter);
  (R 0x4c6 0x4c6, GC_LowercaseLetter);
  (R 0x4c7 0x4c7, GC_UppercaseLetter);
  (R 0x4c8 0x4c8, GC_LowercaseLetter);
  (R 0x4c9 0x4c9, GC_UppercaseLetter);
  (R 0x4ca 0x4ca, GC_LowercaseLetter);
  (R 0x4cb 0x4cb, GC_UppercaseLetter);
  (R 0x4cc 0x4cc, GC_LowercaseLetter);
  (R 0x4cd 0x4cd, GC_UppercaseLetter);
  (R 0x4ce 0x4cf, GC_LowercaseLetter);
  (R 0x4d0 0x4d0, GC_UppercaseLetter);
  (R 0x4d1 0x4d1, GC_LowercaseLetter);
  (R 0x4d2 0x4d2, GC_UppercaseLetter);
  (R 0x4d3 0x4d3, GC_LowercaseLetter);
  (R 0x4d4 0x4d4, GC_UppercaseLetter);
  (R 0x4d5 0x4d5, GC_LowercaseLetter);
  (R 0x4d6 0x4d6, GC_UppercaseLetter);
  (R 0x4d7 0x4d7, GC_LowercaseLetter);
  (R 0x4d8 0x4d8, GC_UppercaseLetter);
  (R 0x4d9 0x4d9, GC_LowercaseLetter);
  (R 0x4da 0x4da, GC_UppercaseLetter);
  (R 0x4db 0x4db, GC_LowercaseLetter);
  (R 0x4dc 0x4dc, GC_UppercaseLetter);
  (R 0x4dd 0x4dd, GC_LowercaseLetter);
  (R 0x4de 0x4de, GC_UppercaseLetter);
  (R 0x4df 0x4df, GC_LowercaseLetter);
  (R 0x4e0 0x4e0, GC_UppercaseLetter);
  (R 0x4e1 0x4e1, GC_LowercaseLetter);
  (R 0x4e2 0x4e2, GC_UppercaseLetter);
  (R 0x4e3 0x4e3, GC_LowercaseLetter);
  (R 0x4e4 0x4e4, GC_UppercaseLetter);
  (R 0x4e5 0x4e5, GC_LowercaseLetter);
  (R 0x4e6 0x4e6, GC_UppercaseLetter);
  (R 0x4e7 0x4e7, GC_LowercaseLetter);
  (R 0x4e8 0x4e8, GC_UppercaseLetter);
  (R 0x4e9 0x4e9, GC_LowercaseLetter);
  (R 0x4ea 0x4ea, GC_UppercaseLetter);
  (R 0x4eb 0x4eb, GC_LowercaseLetter);
  (R 0x4ec 0x4ec, GC_UppercaseLetter);
  (R 0x4ed 0x4ed, GC_LowercaseLetter);
  (R 0x4ee 0x4ee, GC_UppercaseLetter);
  (R 0x4ef 0x4ef, GC_LowercaseLetter);
  (R 0x4f0 0x4f0, GC_UppercaseLetter);
  (R 0x4f1 0x4f1, GC_LowercaseLetter);
  (R 0x4f2 0x4f2, GC_UppercaseLetter);
  (R 0x4f3 0x4f3, GC_LowercaseLetter);
  (R 0x4f4 0x4f4, GC_UppercaseLetter);
  (R 0x4f5 0x4f5, GC_LowercaseLetter);
  (R 0x4f6 0x4f6, GC_UppercaseLetter);
  (R 0x4f7 0x4f7, GC_LowercaseLetter);
  (R 0x4f8 0x4f8, GC_UppercaseLetter);
  (R 0x4f9 0x4f9, GC_LowercaseLetter);
  (R 0x4fa 0x4fa, GC_UppercaseLetter);
  (R 0x4fb 0x4fb, GC_LowercaseLetter);
  (R 0x4fc 0x4fc, GC_UppercaseLetter);
  (R 0x4fd 0x4fd, GC_LowercaseLetter);
  (R 0x4fe 0x4fe, GC_UppercaseLetter);
  (R 0x4ff 0x4ff, GC_LowercaseLetter);
  (R 0x500 0x500, GC_UppercaseLetter);
  (R 0x501 0x501, GC_LowercaseLetter);
  (R 0x502 0x502, GC_UppercaseLetter);
  (R 0x503 0x503, GC_LowercaseLetter);
  (R 0x504 0x504, GC_UppercaseLetter);
  (R 0x505 0x505, GC_LowercaseLetter);
  (R 0x506 0x506, GC_UppercaseLetter);
  (R 0x507 0x507, GC_LowercaseLetter);
  (R 0x508 0x508, GC_UppercaseLetter);
  (R 0x509 0x509, GC_LowercaseLetter);
  (R 0x50a 0x50a, GC_UppercaseLetter);
  (R 0x50b 0x50b, GC_LowercaseLetter);
  (R 0x50c 0x50c, GC_UppercaseLetter);
  (R 0x50d 0x50d, GC_LowercaseLetter);
  (R 0x50e 0x50e, GC_UppercaseLetter);
  (R 0x50f 0x50f, GC_LowercaseLetter);
  (R 0x510 0x510, GC_UppercaseLetter);
  (R 0x511 0x511, GC_LowercaseLetter);
  (R 0x512 0x512, GC_UppercaseLetter);
  (R 0x513 0x513, GC_LowercaseLetter);
  (R 0x514 0x514, GC_UppercaseLetter);
  (R 0x515 0x515, GC_LowercaseLetter);
  (R 0x516 0x516, GC_UppercaseLetter);
  (R 0x517 0x517, GC_LowercaseLetter);
  (R 0x518 0x518, GC_UppercaseLetter);
  (R 0x519 0x519, GC_LowercaseLetter);
  (R 0x51a 0x51a, GC_UppercaseLetter);
  (R 0x51b 0x51b, GC_LowercaseLetter);
  (R 0x51c 0x51c, GC_UppercaseLetter);
  (R 0x51d 0x51d, GC_LowercaseLetter);
  (R 0x51e 0x51e, GC_UppercaseLetter);
  (R 0x51f 0x51f, GC_LowercaseLetter);
  (R 0x520 0x520, GC_UppercaseLetter);
  (R 0x521 0x521, GC_LowercaseLetter);
  (R 0x522 0x522, GC_UppercaseLetter);
  (R 0x523 0x523, GC_LowercaseLetter);
  (R 0x524 0x524, GC_UppercaseLetter);
  (R 0x525 0x525, GC_LowercaseLetter);
  (R 0x526 0x526, GC_UppercaseLetter);
  (R 0x527 0x527, GC_LowercaseLetter);
  (R 0x528 0x528, GC_UppercaseLetter);
  (R 0x529 0x529, GC_LowercaseLetter);
  (R 0x52a 0x52a, GC_UppercaseLetter);
  (R 0x52b 0x52b, GC_LowercaseLetter);
  (R 0x52c 0x52c, GC_UppercaseLetter);
  (R 0x52d 0x52d, GC_LowercaseLetter);
  (R 0x52e 0x52e, GC_UppercaseLetter);
  (R 0x52f 0x52f, GC_LowercaseLetter);
  (R 0x531 0x556, GC_UppercaseLetter);
  (R 0x559 0x559, GC_ModifierLetter);
  (R 0x55a 0x55f, GC_OtherPunctuation);
  (R 0x561 0x587, GC_LowercaseLetter);
  (R 0x589 0x589, GC_OtherPunctuation);
  (R 0x58a 0x58a, GC_DashPunctuation);
  (R 0x58d 0x58e, GC_OtherSymbol);
  (R 0x58f 0x58f, GC_CurrencySymbol);
  (R 0x591 0x5bd, GC_NonspacingMark);
  (R 0x5be 0x5be, GC_DashPunctuation);
  (R 0x5bf 0x5bf, GC_NonspacingMark);
  (R 0x5c0 0x5c0, GC_OtherPunctuation);
  (R 0x5c1 0x5c2, GC_NonspacingMark);
  (R 0x5c3 0x5c3, GC_OtherPunctuation);
  (R 0x5c4 0x5c5, GC_NonspacingMark);
  (R 0x5c6 0x5c6, GC_OtherPunctuation);
  (R 0x5c7 0x5c7, GC_NonspacingMark);
  (R 0x5d0 0x5ea, GC_OtherLetter);
  (R 0x5f0 0x5f2, GC_OtherLetter);
  (R 0x5f3 0x5f4, GC_OtherPunctuation);
  (R 0x600 0x605, GC_Format);
  (R 0x606 0x608, GC_MathSymbol);
  (R 0x609 0x60a, GC_OtherPunctuation);
  (R 0x60b 0x60b, GC_CurrencySymbol);
  (R 0x60c 0x60d, GC_OtherPunctuation);
  (R 0x60e 0x60f, GC_OtherSymbol);
  (R 0x610 0x61a, GC_NonspacingMark);
  (R 0x61b 0x61b, GC_OtherPunctuation);
  (R 0x61c 0x61c, GC_Format);
  (R 0x61e 0x61f, GC_OtherPunctuation);
  (R 0x620 0x63f, GC_OtherLetter);
  (R 0x640 0x640, GC_ModifierLetter);
  (R 0x641 0x64a, GC_OtherLetter);
  (R 0x64b 0x65f, GC_NonspacingMark);
  (R 0x660 0x669, GC_DecimalNumber);
  (R 0x66a 0x66d, GC_OtherPunctuation);
  (R 0x66e 0x66f, GC_OtherLetter);
  (R 0x670 0x670, GC_NonspacingMark);
  (R 0x671 0x6d3, GC_OtherLetter);
  (R 0x6d4 0x6d4, GC_OtherPunctuation);
  (R 0x6d5 0x6d5, GC_OtherLetter);
  (R 0x6d6 0x6dc, GC_NonspacingMark);
  (R 0x6dd 0x6dd, GC_Format);
  (R 0x6de 0x6de, GC_OtherSymbol);
  (R 0x6df 0x6e4, GC_NonspacingMark);
  (R 0x6e5 0x6e6, GC_ModifierLetter);
  (R 0x6e7 0x6e8, GC_NonspacingMark);
  (R 0x6e9 0x6e9, GC_OtherSymbol);
  (R 0x6ea 0x6ed, GC_NonspacingMark);
  (R 0x6ee 0x6ef, GC_OtherLetter);
  (R 0x6f0 0x6f9, GC_DecimalNumber);
  (R 0x6fa 0x6fc, GC_OtherLetter);
  (R 0x6fd 0x6fe, GC_OtherSymbol);
  (R 0x6ff 0x6ff, GC_OtherLetter);
  (R 0x700 0x70d, GC_OtherPunctuation);
  (R 0x70f 0x70f, GC_Format);
  (R 0x710 0x710, GC_OtherLetter);
  (R 0x711 0x711, GC_NonspacingMark);
  (R 0x712 0x72f, GC_OtherLetter);
  (R 0x730 0x74a, GC_NonspacingMark);
  (R 0x74d 0x7a5, GC_OtherLetter);
  (R 0x7a6 0x7b0, GC_NonspacingMark);
  (R 0x7b1 0x7b1, GC_OtherLetter);
  (R 0x7c0 0x7c9, GC_DecimalNumber);
  (R 0x7ca 0x7ea, GC_OtherLetter);
  (R 0x7eb 0x7f3, GC_NonspacingMark);
  (R 0x7f4 0x7f5, GC_ModifierLetter);
  (R 0x7f6 0x7f6, GC_OtherSymbol);
  (R 0x7f7 0x7f9, GC_OtherPunctuation);
  (R 0x7fa 0x7fa, GC_ModifierLetter);
  (R 0x800 0x815, GC_OtherLetter);
  (R 0x816 0x819, GC_NonspacingMark);
  (R 0x81a 0x81a, GC_ModifierLetter);
  (R 0x81b 0x823, GC_NonspacingMark);
  (R 0x824 0x824, GC_ModifierLetter);
  (R 0x825 0x827, GC_NonspacingMark);
  (R 0x828 0x828, GC_ModifierLetter);
  (R 0x829 0x82d, GC_NonspacingMark);
  (R 0x830 0x83e, GC_OtherPunctuation);
  (R 0x840 0x858, GC_OtherLetter);
  (R 0x859 0x85b, GC_NonspacingMark);
  (R 0x85e 0x85e, GC_OtherPunctuation);
  (R 0x860 0x86a, GC_OtherLetter);
  (R 0x8a0 0x8b4, GC_OtherLetter);
  (R 0x8b6 0x8bd, GC_OtherLetter);
  (R 0x8d4 0x8e1, GC_NonspacingMark);
  (R 0x8e2 0x8e2, GC_Format);
  (R 0x8e3 0x902, GC_NonspacingMark);
  (R 0x903 0x903, GC_SpacingMark);
  (R 0x904 0x939, GC_OtherLetter);
  (R 0x93a 0x93a, GC_NonspacingMark);
  (R 0x93b 0x93b, GC_SpacingMark);
  (R 0x93c 0x93c, GC_NonspacingMark);
  (R 0x93d 0x93d, GC_OtherLetter);
  (R 0x93e 0x940, GC_SpacingMark);
  (R 0x941 0x948, GC_NonspacingMark);
  (R 0x949 0x94c, GC_SpacingMark);
  (R 0x94d 0x94d, GC_NonspacingMark);
  (R 0x94e 0x94f, GC_SpacingMark);
  (R 0x950 0x950, GC_OtherLetter);
  (R 0x951 0x957, GC_NonspacingMark);
  (R 0x958 0x961, GC_OtherLetter);
  (R 0x962 0x963, GC_NonspacingMark);
  (R 0x964 0x965, GC_OtherPunctuation);
  (R 0x966 0x96f, GC_DecimalNumber);
  (R 0x970 0x970, GC_OtherPunctuation);
  (R 0x971 0x971, GC_ModifierLetter);
  (R 0x972 0x980, GC_OtherLetter);
  (R 0x981 0x981, GC_NonspacingMark);
  (R 0x982 0x983, GC_SpacingMark);
  (R 0x985 0x98c, GC_OtherLetter);
  (R 0x98f 0x990, GC_OtherLetter);
  (R 0x993 0x9a8, GC_OtherLetter);
  (R 0x9aa 0x9b0, GC_OtherLetter);
  (R 0x9b2 0x9b2, GC_OtherLetter);
  (R 0x9b6 0x9b9, GC_OtherLetter);
  (R 0x9bc 0x9bc, GC_NonspacingMark);
  (R 0x9bd 0x9bd, GC_OtherLetter);
  (R 0x9be 0x9c0, GC_SpacingMark);
  (R 0x9c1 0x9c4, GC_NonspacingMark);
  (R 0x9c7 0x9c8, GC_SpacingMark);
  (R 0x9cb 0x9cc, GC_SpacingMark);
  (R 0x9cd 0x9cd, GC_NonspacingMark);
  (R 0x9ce 0x9ce, GC_OtherLetter);
  (R 0x9d7 0x9d7, GC_SpacingMark);
  (R 0x9dc 0x9dd, GC_OtherLetter);
  (R 0x9df 0x9e1, GC_OtherLetter);
  (R 0x9e2 0x9e3, GC_NonspacingMark);
  (R 0x9e6 0x9ef, GC_DecimalNumber);
  (R 0x9f0 0x9f1, GC_OtherLetter);
  (R 0x9f2 0x9f3, GC_CurrencySymbol);
  (R 0x9f4 0x9f9, GC_OtherNumber);
  (R 0x9fa 0x9fa, GC_OtherSymbol);
  (R 0x9fb 0x9fb, GC_CurrencySymbol);
  (R 0x9fc 0x9fc, GC_OtherLetter);
  (R 0x9fd 0x9fd, GC_OtherPunctuation);
  (R 0xa01 0xa02, GC_NonspacingMark);
  (R 0xa03 0xa03, GC_SpacingMark);
  (R 0xa05 0xa0a, GC_OtherLetter);
  (R 0xa0f 0xa10, GC_OtherLetter);
  (R 0xa13 0xa28, GC_OtherLetter);
  (R 0xa2a 0xa30, GC_OtherLetter);
  (R 0xa32 0xa33, GC_OtherLetter);
  (R 0xa35 0xa36, GC_OtherLetter);
  (R 0xa38 0xa39, GC_OtherLetter);
  (R 0xa3c 0xa3c, GC_NonspacingMark);
  (R 0xa3e 0xa40, GC_SpacingMark);
  (R 0xa41 0xa42, GC_NonspacingMark);
  (R 0xa47 0xa48, GC_NonspacingMark);
  (R 0xa4b 0xa4d, GC_NonspacingMark);
  (R 0xa51 0xa51, GC_NonspacingMark);
  (R 0xa59 0xa5c, GC_OtherLetter);
  (R 0xa5e 0xa5e, GC_OtherLetter);
  (R 0xa66 0xa6f, GC_DecimalNumber);
  (R 0xa70 0xa71, GC_NonspacingMark);
  (R 0xa72 0xa74, GC_OtherLetter);
  (R 0xa75 0xa75, GC_NonspacingMark);
  (R 0xa81 0xa82, GC_NonspacingMark);
  (R 0xa83 0xa83, GC_SpacingMark);
  (R 0xa85 0xa8d, GC_OtherLetter);
  (R 0xa8f 0xa91, GC_OtherLetter);
  (R 0xa93 0xaa8, GC_OtherLetter);
  (R 0xaaa 0xab0, GC_OtherLetter);
  (R 0xab2 0xab3, GC_OtherLetter);
  (R 0xab5 0xab9, GC_OtherLetter);
  (R 0xabc 0xabc, GC_NonspacingMark);
  (R 0xabd 0xabd, GC_OtherLetter);
  (R 0xabe 0xac0, GC_SpacingMark);
  (R 0xac1 0xac5, GC_NonspacingMark);
  (R 0xac7 0xac8, GC_NonspacingMark);
  (R 0xac9 0xac9, GC_SpacingMark);
  (R 0xacb 0xacc, GC_SpacingMark);
  (R 0xacd 0xacd, GC_NonspacingMark);
  (R 0xad0 0xad0, GC_OtherLetter);
  (R 0xae0 0xae1, GC_OtherLetter);
  (R 0xae2 0xae3, GC_NonspacingMark);
  (R 0xae6 0xaef, GC_DecimalNumber);
  (R 0xaf0 0xaf0, GC_OtherPunctuation);
  (R 0xaf1 0xaf1, GC_CurrencySymbol)].

Definition GENERAL_CATEGORY_2 : list (CharRange * GeneralCategory) := [
  (R 0xaf9 0xaf9, GC_OtherLetter);
  (R 0xafa 0xaff, GC_NonspacingMark);
  (R 0xb01 0xb01, GC_NonspacingMark);
  (R 0xb02 0xb03, GC_SpacingMark);
  (R 0xb05 0xb0c, GC_OtherLetter);
  (R 0xb0f 0xb10, GC_OtherLetter);
  (R 0xb13 0xb28, GC_OtherLetter);
  (R 0xb2a 0xb30, GC_OtherLetter);
  (R 0xb32 0xb33, GC_OtherLetter);
  (R 0xb35 0xb39, GC_OtherLetter);
  (R 0xb3c 0xb3c, GC_NonspacingMark);
  (R 0xb3d 0xb3d, GC_OtherLetter);
  (R 0xb3e 0xb3e, GC_SpacingMark);
  (R 0xb3f 0xb3f, GC_NonspacingMark);
  (R 0xb40 0xb40, GC_SpacingMark);
  (R 0xb41 0xb44, GC_NonspacingMark);
  (R 0xb47 0xb48, GC_SpacingMark);
  (R 0xb4b 0xb4c, GC_SpacingMark);
  (R 0xb4d 0xb4d, GC_NonspacingMark);
  (R 0xb56 0xb56, GC_NonspacingMark);
  (R 0xb57 0xb57, GC_SpacingMark);
  (R 0xb5c 0xb5d, GC_OtherLetter);
  (R 0xb5f 0xb61, GC_OtherLetter);
  (R 0xb62 0xb63, GC_NonspacingMark);
  (R 0xb66 0xb6f, GC_DecimalNumber);
  (R 0xb70 0xb70, GC_OtherSymbol);
  (R 0xb71 0xb71, GC_OtherLetter);
  (R 0xb72 0xb77, GC_OtherNumber);
  (R 0xb82 0xb82, GC_NonspacingMark);
  (R 0xb83 0xb83, GC_OtherLetter);
  (R 0xb85 0xb8a, GC_OtherLetter);
  (R 0xb8e 0xb90, GC_OtherLetter);
  (R 0xb92 0xb95, GC_OtherLetter);
  (R 0xb99 0xb9a, GC_OtherLetter);
  (R 0xb9c 0xb9c, GC_OtherLetter);
  (R 0xb9e 0xb9f, GC_OtherLetter);
  (R 0xba3 0xba4, GC_OtherLetter);
  (R 0xba8 0xbaa, GC_OtherLetter);
  (R 0xbae 0xbb9, GC_OtherLetter);
  (R 0xbbe 0xbbf, GC_SpacingMark);
  (R 0xbc0 0xbc0, GC_NonspacingMark);
  (R 0xbc1 0xbc2, GC_SpacingMark);
  (R 0xbc6 0xbc8, GC_SpacingMark);
  (R 0xbca 0xbcc, GC_SpacingMark);
  (R 0xbcd 0xbcd, GC_NonspacingMark);
  (R 0xbd0 0xbd0, GC_OtherLetter);
  (R 0xbd7 0xbd7, GC_SpacingMark);
  (R 0xbe6 0xbef, GC_DecimalNumber);
  (R 0xbf0 0xbf2, GC_OtherNumber);
  (R 0xbf3 0xbf8, GC_OtherSymbol);
  (R 0xbf9 0xbf9, GC_CurrencySymbol);
  (R 0xbfa 0xbfa, GC_OtherSymbol);
  (R 0xc00 0xc00, GC_NonspacingMark);
  (R 0xc01 0xc03, GC_SpacingMark);
  (R 0xc05 0xc0c, GC_OtherLetter);
  (R 0xc0e 0xc10, GC_OtherLetter);
  (R 0xc12 0xc28, GC_OtherLetter);
  (R 0xc2a 0xc39, GC_OtherLetter);
  (R 0xc3d 0xc3d, GC_OtherLetter);
  (R 0xc3e 0xc40, GC_NonspacingMark);
  (R 0xc41 0xc44, GC_SpacingMark);
  (R 0xc46 0xc48, GC_NonspacingMark);
  (R 0xc4a 0xc4d, GC_NonspacingMark);
  (R 0xc55 0xc56, GC_NonspacingMark);
  (R 0xc58 0xc5a, GC_OtherLetter);
  (R 0xc60 0xc61, GC_OtherLetter);
  (R 0xc62 0xc63, GC_NonspacingMark);
  (R 0xc66 0xc6f, GC_DecimalNumber);
  (R 0xc78 0xc7e, GC_OtherNumber);
  (R 0xc7f 0xc7f, GC_OtherSymbol);
  (R 0xc80 0xc80, GC_OtherLetter);
  (R 0xc81 0xc81, GC_NonspacingMark);
  (R 0xc82 0xc83, GC_SpacingMark);
  (R 0xc85 0xc8c, GC_OtherLetter);
  (R 0xc8e 0xc90, GC_OtherLetter);
  (R 0xc92 0xca8, GC_OtherLetter);
  (R 0xcaa 0xcb3, GC_OtherLetter);
  (R 0xcb5 0xcb9, GC_OtherLetter);
  (R 0xcbc 0xcbc, GC_NonspacingMark);
  (R 0xcbd 0xcbd, GC_OtherLetter);
  (R 0xcbe 0xcbe, GC_SpacingMark);
  (R 0xcbf 0xcbf, GC_NonspacingMark);
  (R 0xcc0 0xcc4, GC_SpacingMark);
  (R 0xcc6 0xcc6, GC_NonspacingMark);
  (R 0xcc7 0xcc8, GC_SpacingMark);
  (R 0xcca 0xccb, GC_SpacingMark);
  (R 0xccc 0xccd, GC_NonspacingMark);
  (R 0xcd5 0xcd6, GC_SpacingMark);
  (R 0xcde 0xcde, GC_OtherLetter);
  (R 0xce0 0xce1, GC_OtherLetter);
  (R 0xce2 0xce3, GC_NonspacingMark);
  (R 0xce6 0xcef, GC_DecimalNumber);
  (R 0xcf1 0xcf2, GC_OtherLetter);
  (R 0xd00 0xd01, GC_NonspacingMark);
  (R 0xd02 0xd03, GC_SpacingMark);
  (R 0xd05 0xd0c, GC_OtherLetter);
  (R 0xd0e 0xd10, GC_OtherLetter);
  (R 0xd12 0xd3a, GC_OtherLetter);
  (R 0xd3b 0xd3c, GC_NonspacingMark);
  (R 0xd3d 0xd3d, GC_OtherLetter);
  (R 0xd3e 0xd40, GC_SpacingMark);
  (R 0xd41 0xd44, GC_NonspacingMark);
  (R 0xd46 0xd48, GC_SpacingMark);
  (R 0xd4a 0xd4c, GC_SpacingMark);
  (R 0xd4d 0xd4d, GC_NonspacingMark);
  (R 0xd4e 0xd4e, GC_OtherLetter);
  (R 0xd4f 0xd4f, GC_OtherSymbol);
  (R 0xd54 0xd56, GC_OtherLetter);
  (R 0xd57 0xd57, GC_SpacingMark);
  (R 0xd58 0xd5e, GC_OtherNumber);
  (R 0xd5f 0xd61, GC_OtherLetter);
  (R 0xd62 0xd63, GC_NonspacingMark);
  (R 0xd66 0xd6f, GC_DecimalNumber);
  (R 0xd70 0xd78, GC_OtherNumber);
  (R 0xd79 0xd79, GC_OtherSymbol);
  (R 0xd7a 0xd7f, GC_OtherLetter);
  (R 0xd82 0xd83, GC_SpacingMark);
  (R 0xd85 0xd96, GC_OtherLetter);
  (R 0xd9a 0xdb1, GC_OtherLetter);
  (R 0xdb3 0xdbb, GC_OtherLetter);
  (R 0xdbd 0xdbd, GC_OtherLetter);
  (R 0xdc0 0xdc6, GC_OtherLetter);
  (R 0xdca 0xdca, GC_NonspacingMark);
  (R 0xdcf 0xdd1, GC_SpacingMark);
  (R 0xdd2 0xdd4, GC_NonspacingMark);
  (R 0xdd6 0xdd6, GC_NonspacingMark);
  (R 0xdd8 0xddf, GC_SpacingMark);
  (R 0xde6 0xdef, GC_DecimalNumber);
  (R 0xdf2 0xdf3, GC_SpacingMark);
  (R 0xdf4 0xdf4, GC_OtherPunctuation);
  (R 0xe01 0xe30, GC_OtherLetter);
  (R 0xe31 0xe31, GC_NonspacingMark);
  (R 0xe32 0xe33, GC_OtherLetter);
  (R 0xe34 0xe3a, GC_NonspacingMark);
  (R 0xe3f 0xe3f, GC_CurrencySymbol);
  (R 0xe40 0xe45, GC_OtherLetter);
  (R 0xe46 0xe46, GC_ModifierLetter);
  (R 0xe47 0xe4e, GC_NonspacingMark);
  (R 0xe4f 0xe4f, GC_OtherPunctuation);
  (R 0xe50 0xe59, GC_DecimalNumber);
  (R 0xe5a 0xe5b, GC_OtherPunctuation);
  (R 0xe81 0xe82, GC_OtherLetter);
  (R 0xe84 0xe84, GC_OtherLetter);
  (R 0xe87 0xe88, GC_OtherLetter);
  (R 0xe8a 0xe8a, GC_OtherLetter);
  (R 0xe8d 0xe8d, GC_OtherLetter);
  (R 0xe94 0xe97, GC_OtherLetter);
  (R 0xe99 0xe9f, GC_OtherLetter);
  (R 0xea1 0xea3, GC_OtherLetter);
  (R 0xea5 0xea5, GC_OtherLetter);
  (R 0xea7 0xea7, GC_OtherLetter);
  (R 0xeaa 0xeab, GC_OtherLetter);
  (R 0xead 0xeb0, GC_OtherLetter);
  (R 0xeb1 0xeb1, GC_NonspacingMark);
  (R 0xeb2 0xeb3, GC_OtherLetter);
  (R 0xeb4 0xeb9, GC_NonspacingMark);
  (R 0xebb 0xebc, GC_NonspacingMark);
  (R 0xebd 0xebd, GC_OtherLetter);
  (R 0xec0 0xec4, GC_OtherLetter);
  (R 0xec6 0xec6, GC_ModifierLetter);
  (R 0xec8 0xecd, GC_NonspacingMark);
  (R 0xed0 0xed9, GC_DecimalNumber);
  (R 0xedc 0xedf, GC_OtherLetter);
  (R 0xf00 0xf00, GC_OtherLetter);
  (R 0xf01 0xf03, GC_OtherSymbol);
  (R 0xf04 0xf12, GC_OtherPunctuation);
  (R 0xf13 0xf13, GC_OtherSymbol);
  (R 0xf14 0xf14, GC_OtherPunctuation);
  (R 0xf15 0xf17, GC_OtherSymbol);
  (R 0xf18 0xf19, GC_NonspacingMark);
  (R 0xf1a 0xf1f, GC_OtherSymbol);
  (R 0xf20 0xf29, GC_DecimalNumber);
  (R 0xf2a 0xf33, GC_OtherNumber);
  (R 0xf34 0xf34, GC_OtherSymbol);
  (R 0xf35 0xf35, GC_NonspacingMark);
  (R 0xf36 0xf36, GC_OtherSymbol);
  (R 0xf37 0xf37, GC_NonspacingMark);
  (R 0xf38 0xf38, GC_OtherSymbol);
  (R 0xf39 0xf39, GC_NonspacingMark);
  (R 0xf3a 0xf3a, GC_OpenPunctuation);
  (R 0xf3b 0xf3b, GC_ClosePunctuation);
  (R 0xf3c 0xf3c, GC_OpenPunctuation);
  (R 0xf3d 0xf3d, GC_ClosePunctuation);
  (R 0xf3e 0xf3f, GC_SpacingMark);
  (R 0xf40 0xf47, GC_OtherLetter);
  (R 0xf49 0xf6c, GC_OtherLetter);
  (R 0xf71 0xf7e, GC_NonspacingMark);
  (R 0xf7f 0xf7f, GC_SpacingMark);
  (R 0xf80 0xf84, GC_NonspacingMark);
  (R 0xf85 0xf85, GC_OtherPunctuation);
  (R 0xf86 0xf87, GC_NonspacingMark);
  (R 0xf88 0xf8c, GC_OtherLetter);
  (R 0xf8d 0xf97, GC_NonspacingMark);
  (R 0xf99 0xfbc, GC_NonspacingMark);
  (R 0xfbe 0xfc5, GC_OtherSymbol);
  (R 0xfc6 0xfc6, GC_NonspacingMark);
  (R 0xfc7 0xfcc, GC_OtherSymbol);
  (R 0xfce 0xfcf, GC_OtherSymbol);
  (R 0xfd0 0xfd4, GC_OtherPunctuation);
  (R 0xfd5 0xfd8, GC_OtherSymbol);
  (R 0xfd9 0xfda, GC_OtherPunctuation);
  (R 0x1000 0x102a, GC_OtherLetter);
  (R 0x102b 0x102c, GC_SpacingMark);
  (R 0x102d 0x1030, GC_NonspacingMark);
  (R 0x1031 0x1031, GC_SpacingMark);
  (R 0x1032 0x1037, GC_NonspacingMark);
  (R 0x1038 0x1038, GC_SpacingMark);
  (R 0x1039 0x103a, GC_NonspacingMark);
  (R 0x103b 0x103c, GC_SpacingMark);
  (R 0x103d 0x103e, GC_NonspacingMark);
  (R 0x103f 0x103f, GC_OtherLetter);
  (R 0x1040 0x1049, GC_DecimalNumber);
  (R 0x104a 0x104f, GC_OtherPunctuation);
  (R 0x1050 0x1055, GC_OtherLetter);
  (R 0x1056 0x1057, GC_SpacingMark);
  (R 0x1058 0x1059, GC_NonspacingMark);
  (R 0x105a 0x105d, GC_OtherLetter);
  (R 0x105e 0x1060, GC_NonspacingMark);
  (R 0x1061 0x1061, GC_OtherLetter);
  (R 0x1062 0x1064, GC_SpacingMark);
  (R 0x1065 0x1066, GC_OtherLetter);
  (R 0x1067 0x106d, GC_SpacingMark);
  (R 0x106e 0x1070, GC_OtherLetter);
  (R 0x1071 0x1074, GC_NonspacingMark);
  (R 0x1075 0x1081, GC_OtherLetter);
  (R 0x1082 0x1082, GC_NonspacingMark);
  (R 0x1083 0x1084, GC_SpacingMark);
  (R 0x1085 0x1086, GC_NonspacingMark);
  (R 0x1087 0x108c, GC_SpacingMark);
  (R 0x108d 0x108d, GC_NonspacingMark);
  (R 0x108e 0x108e, GC_OtherLetter);
  (R 0x108f 0x108f, GC_SpacingMark);
  (R 0x1090 0x1099, GC_DecimalNumber);
  (R 0x109a 0x109c, GC_SpacingMark);
  (R 0x109d 0x109d, GC_NonspacingMark);
  (R 0x109e 0x109f, GC_OtherSymbol);
  (R 0x10a0 0x10c5, GC_UppercaseLetter);
  (R 0x10c7 0x10c7, GC_UppercaseLetter);
  (R 0x10cd 0x10cd, GC_UppercaseLetter);
  (R 0x10d0 0x10fa, GC_OtherLetter);
  (R 0x10fb 0x10fb, GC_OtherPunctuation);
  (R 0x10fc 0x10fc, GC_ModifierLetter);
  (R 0x10fd 0x1248, GC_OtherLetter);
  (R 0x124a 0x124d, GC_OtherLetter);
  (R 0x1250 0x1256, GC_OtherLetter);
  (R 0x1258 0x1258, GC_OtherLetter);
  (R 0x125a 0x125d, GC_OtherLetter);
  (R 0x1260 0x1288, GC_OtherLetter);
  (R 0x128a 0x128d, GC_OtherLetter);
  (R 0x1290 0x12b0, GC_OtherLetter);
  (R 0x12b2 0x12b5, GC_OtherLetter);
  (R 0x12b8 0x12be, GC_OtherLetter);
  (R 0x12c0 0x12c0, GC_OtherLetter);
  (R 0x12c2 0x12c5, GC_OtherLetter);
  (R 0x12c8 0x12d6, GC_OtherLetter);
  (R 0x12d8 0x1310, GC_OtherLetter);
  (R 0x1312 0x1315, GC_OtherLetter);
  (R 0x1318 0x135a, GC_OtherLetter);
  (R 0x135d 0x135f, GC_NonspacingMark);
  (R 0x1360 0x1368, GC_OtherPunctuation);
  (R 0x1369 0x137c, GC_OtherNumber);
  (R 0x1380 0x138f, GC_OtherLetter);
  (R 0x1390 0x1399, GC_OtherSymbol);
  (R 0x13a0 0x13f5, GC_UppercaseLetter);
  (R 0x13f8 0x13fd, GC_LowercaseLetter);
  (R 0x1400 0x1400, GC_DashPunctuation);
  (R 0x1401 0x166c, GC_OtherLetter);
  (R 0x166d 0x166e, GC_OtherPunctuation);
  (R 0x166f 0x167f, GC_OtherLetter);
  (R 0x1680 0x1680, GC_SpaceSeparator);
  (R 0x1681 0x169a, GC_OtherLetter);
  (R 0x169b 0x169b, GC_OpenPunctuation);
  (R 0x169c 0x169c, GC_ClosePunctuation);
  (R 0x16a0 0x16ea, GC_OtherLetter);
  (R 0x16eb 0x16ed, GC_OtherPunctuation);
  (R 0x16ee 0x16f0, GC_LetterNumber);
  (R 0x16f1 0x16f8, GC_OtherLetter);
  (R 0x1700 0x170c, GC_OtherLetter);
  (R 0x170e 0x1711, GC_OtherLetter);
  (R 0x1712 0x1714, GC_NonspacingMark);
  (R 0x1720 0x1731, GC_OtherLetter);
  (R 0x1732 0x1734, GC_NonspacingMark);
  (R 0x1735 0x1736, GC_OtherPunctuation);
  (R 0x1740 0x1751, GC_OtherLetter);
  (R 0x1752 0x1753, GC_NonspacingMark);
  (R 0x1760 0x176c, GC_OtherLetter);
  (R 0x176e 0x1770, GC_OtherLetter);
  (R 0x1772 0x1773, GC_NonspacingMark);
  (R 0x1780 0x17b3, GC_OtherLetter);
  (R 0x17b4 0x17b5, GC_NonspacingMark);
  (R 0x17b6 0x17b6, GC_SpacingMark);
  (R 0x17b7 0x17bd, GC_NonspacingMark);
  (R 0x17be 0x17c5, GC_SpacingMark);
  (R 0x17c6 0x17c6, GC_NonspacingMark);
  (R 0x17c7 0x17c8, GC_SpacingMark);
  (R 0x17c9 0x17d3, GC_NonspacingMark);
  (R 0x17d4 0x17d6, GC_OtherPunctuation);
  (R 0x17d7 0x17d7, GC_ModifierLetter);
  (R 0x17d8 0x17da, GC_OtherPunctuation);
  (R 0x17db 0x17db, GC_CurrencySymbol);
  (R 0x17dc 0x17dc, GC_OtherLetter);
  (R 0x17dd 0x17dd, GC_NonspacingMark);
  (R 0x17e0 0x17e9, GC_DecimalNumber);
  (R 0x17f0 0x17f9, GC_OtherNumber);
  (R 0x1800 0x1805, GC_OtherPunctuation);
  (R 0x1806 0x1806, GC_DashPunctuation);
  (R 0x1807 0x180a, GC_OtherPunctuation);
  (R 0x180b 0x180d, GC_NonspacingMark);
  (R 0x180e 0x180e, GC_Format);
  (R 0x1810 0x1819, GC_DecimalNumber);
  (R 0x1820 0x1842, GC_OtherLetter);
  (R 0x1843 0x1843, GC_ModifierLetter);
  (R 0x1844 0x1877, GC_OtherLetter);
  (R 0x1880 0x1884, GC_OtherLetter);
  (R 0x1885 0x1886, GC_NonspacingMark);
  (R 0x1887 0x18a8, GC_OtherLetter);
  (R 0x18a9 0x18a9, GC_NonspacingMark);
  (R 0x18aa 0x18aa, GC_OtherLetter);
  (R 0x18b0 0x18f5, GC_OtherLetter);
  (R 0x1900 0x191e, GC_OtherLetter);
  (R 0x1920 0x1922, GC_NonspacingMark);
  (R 0x1923 0x1926, GC_SpacingMark);
  (R 0x1927 0x1928, GC_NonspacingMark);
  (R 0x1929 0x192b, GC_SpacingMark);
  (R 0x1930 0x1931, GC_SpacingMark);
  (R 0x1932 0x1932, GC_NonspacingMark);
  (R 0x1933 0x1938, GC_SpacingMark);
  (R 0x1939 0x193b, GC_NonspacingMark);
  (R 0x1940 0x1940, GC_OtherSymbol);
  (R 0x1944 0x1945, GC_OtherPunctuation);
  (R 0x1946 0x194f, GC_DecimalNumber);
  (R 0x1950 0x196d, GC_OtherLetter);
  (R 0x1970 0x1974, GC_OtherLetter);
  (R 0x1980 0x19ab, GC_OtherLetter);
  (R 0x19b0 0x19c9, GC_OtherLetter);
  (R 0x19d0 0x19d9, GC_DecimalNumber);
  (R 0x19da 0x19da, GC_OtherNumber);
  (R 0x19de 0x19ff, GC_OtherSymbol);
  (R 0x1a00 0x1a16, GC_OtherLetter);
  (R 0x1a17 0x1a18, GC_NonspacingMark);
  (R 0x1a19 0x1a1a, GC_SpacingMark);
  (R 0x1a1b 0x1a1b, GC_NonspacingMark);
  (R 0x1a1e 0x1a1f, GC_OtherPunctuation);
  (R 0x1a20 0x1a54, GC_OtherLetter);
  (R 0x1a55 0x1a55, GC_SpacingMark);
  (R 0x1a56 0x1a56, GC_NonspacingMark);
  (R 0x1a57 0x1a57, GC_SpacingMark);
  (R 0x1a58 0x1a5e, GC_NonspacingMark);
  (R 0x1a60 0x1a60, GC_NonspacingMark);
  (R 0x1a61 0x1a61, GC_SpacingMark);
  (R 0x1a62 0x1a62, GC_NonspacingMark);
  (R 0x1a63 0x1a64, GC_SpacingMark);
  (R 0x1a65 0x1a6c, GC_NonspacingMark);
  (R 0x1a6d 0x1a72, GC_SpacingMark);
  (R 0x1a73 0x1a7c, GC_NonspacingMark);
  (R 0x1a7f 0x1a7f, GC_NonspacingMark);
  (R 0x1a80 0x1a89, GC_DecimalNumber);
  (R 0x1a90 0x1a99, GC_DecimalNumber);
  (R 0x1aa0 0x1aa6, GC_OtherPunctuation);
  (R 0x1aa7 0x1aa7, GC_ModifierLetter);
  (R 0x1aa8 0x1aad, GC_OtherPunctuation);
  (R 0x1ab0 0x1abd, GC_NonspacingMark);
  (R 0x1abe 0x1abe, GC_EnclosingMark);
  (R 0x1b00 0x1b03, GC_NonspacingMark);
  (R 0x1b04 0x1b04, GC_SpacingMark);
  (R 0x1b05 0x1b33, GC_OtherLetter);
  (R 0x1b34 0x1b34, GC_NonspacingMark);
  (R 0x1b35 0x1b35, GC_SpacingMark);
  (R 0x1b36 0x1b3a, GC_NonspacingMark);
  (R 0x1b3b 0x1b3b, GC_SpacingMark);
  (R 0x1b3c 0x1b3c, GC_NonspacingMark);
  (R 0x1b3d 0x1b41, GC_SpacingMark);
  (R 0x1b42 0x1b42, GC_NonspacingMark);
  (R 0x1b43 0x1b44, GC_SpacingMark);
  (R 0x1b45 0x1b4b, GC_OtherLetter);
  (R 0x1b50 0x1b59, GC_DecimalNumber);
  (R 0x1b5a 0x1b60, GC_OtherPunctuation);
  (R 0x1b61 0x1b6a, GC_OtherSymbol);
  (R 0x1b6b 0x1b73, GC_NonspacingMark);
  (R 0x1b74 0x1b7c, GC_OtherSymbol);
  (R 0x1b80 0x1b81, GC_NonspacingMark);
  (R 0x1b82 0x1b82, GC_SpacingMark);
  (R 0x1b83 0x1ba0, GC_OtherLetter);
  (R 0x1ba1 0x1ba1, GC_SpacingMark);
  (R 0x1ba2 0x1ba5, GC_NonspacingMark);
  (R 0x1ba6 0x1ba7, GC_SpacingMark);
  (R 0x1ba8 0x1ba9, GC_NonspacingMark);
  (R 0x1baa 0x1baa, GC_SpacingMark);
  (R 0x1bab 0x1bad, GC_NonspacingMark);
  (R 0x1bae 0x1baf, GC_OtherLetter);
  (R 0x1bb0 0x1bb9, GC_DecimalNumber);
  (R 0x1bba 0x1be5, GC_OtherLetter);
  (R 0x1be6 0x1be6, GC_NonspacingMark);
  (R 0x1be7 0x1be7, GC_SpacingMark);
  (R 0x1be8 0x1be9, GC_NonspacingMark);
  (R 0x1bea 0x1bec, GC_SpacingMark);
  (R 0x1bed 0x1bed, GC_NonspacingMark);
  (R 0x1bee 0x1bee, GC_SpacingMark);
  (R 0x1bef 0x1bf1, GC_NonspacingMark);
  (R 0x1bf2 0x1bf3, GC_SpacingMark)].

Definition GENERAL_CATEGORY_3 : list (CharRange * GeneralCategory) := [
  (R 0x1bfc 0x1bff, GC_OtherPunctuation);
  (R 0x1c00 0x1c23, GC_OtherLetter);
  (R 0x1c24 0x1c2b, GC_SpacingMark);
  (R 0x1c2c 0x1c33, GC_NonspacingMark);
  (R 0x1c34 0x1c35, GC_SpacingMark);
  (R 0x1c36 0x1c37, GC_NonspacingMark);
  (R 0x1c3b 0x1c3f, GC_OtherPunctuation);
  (R 0x1c40 0x1c49, GC_DecimalNumber);
  (R 0x1c4d 0x1c4f, GC_OtherLetter);
  (R 0x1c50 0x1c59, GC_DecimalNumber);
  (R 0x1c5a 0x1c77, GC_OtherLetter);
  (R 0x1c78 0x1c7d, GC_ModifierLetter);
  (R 0x1c7e 0x1c7f, GC_OtherPunctuation);
  (R 0x1c80 0x1c88, GC_LowercaseLetter);
  (R 0x1cc0 0x1cc7, GC_OtherPunctuation);
  (R 0x1cd0 0x1cd2, GC_NonspacingMark);
  (R 0x1cd3 0x1cd3, GC_OtherPunctuation);
  (R 0x1cd4 0x1ce0, GC_NonspacingMark);
  (R 0x1ce1 0x1ce1, GC_SpacingMark);
  (R 0x1ce2 0x1ce8, GC_NonspacingMark);
  (R 0x1ce9 0x1cec, GC_OtherLetter);
  (R 0x1ced 0x1ced, GC_NonspacingMark);
  (R 0x1cee 0x1cf1, GC_OtherLetter);
  (R 0x1cf2 0x1cf3, GC_SpacingMark);
  (R 0x1cf4 0x1cf4, GC_NonspacingMark);
  (R 0x1cf5 0x1cf6, GC_OtherLetter);
  (R 0x1cf7 0x1cf7, GC_SpacingMark);
  (R 0x1cf8 0x1cf9, GC_NonspacingMark);
  (R 0x1d00 0x1d2b, GC_LowercaseLetter);
  (R 0x1d2c 0x1d6a, GC_ModifierLetter);
  (R 0x1d6b 0x1d77, GC_LowercaseLetter);
  (R 0x1d78 0x1d78, GC_ModifierLetter);
  (R 0x1d79 0x1d9a, GC_LowercaseLetter);
  (R 0x1d9b 0x1dbf, GC_ModifierLetter);
  (R 0x1dc0 0x1df9, GC_NonspacingMark);
  (R 0x1dfb 0x1dff, GC_NonspacingMark);
  (R 0x1e00 0x1e00, GC_UppercaseLetter);
  (R 0x1e01 0x1e01, GC_LowercaseLetter);
  (R 0x1e02 0x1e02, GC_UppercaseLetter);
  (R 0x1e03 0x1e03, GC_LowercaseLetter);
  (R 0x1e04 0x1e04, GC_UppercaseLetter);
  (R 0x1e05 0x1e05, GC_LowercaseLetter);
  (R 0x1e06 0x1e06, GC_UppercaseLetter);
  (R 0x1e07 0x1e07, GC_LowercaseLetter);
  (R 0x1e08 0x1e08, GC_UppercaseLetter);
  (R 0x1e09 0x1e09, GC_LowercaseLetter);
  (R 0x1e0a 0x1e0a, GC_UppercaseLetter);
  (R 0x1e0b 0x1e0b, GC_LowercaseLetter);
  (R 0x1e0c 0x1e0c, GC_UppercaseLetter);
  (R 0x1e0d 0x1e0d, GC_LowercaseLetter);
  (R 0x1e0e 0x1e0e, GC_UppercaseLetter);
  (R 0x1e0f 0x1e0f, GC_LowercaseLetter);
  (R 0x1e10 0x1e10, GC_UppercaseLetter);
  (R 0x1e11 0x1e11, GC_LowercaseLetter);
  (R 0x1e12 0x1e12, GC_UppercaseLetter);
  (R 0x1e13 0x1e13, GC_LowercaseLetter);
  (R 0x1e14 0x1e14, GC_UppercaseLetter);
  (R 0x1e15 0x1e15, GC_LowercaseLetter);
  (R 0x1e16 0x1e16, GC_UppercaseLetter);
  (R 0x1e17 0x1e17, GC_LowercaseLetter);
  (R 0x1e18 0x1e18, GC_UppercaseLetter);
  (R 0x1e19 0x1e19, GC_LowercaseLetter);
  (R 0x1e1a 0x1e1a, GC_UppercaseLetter);
  (R 0x1e1b 0x1e1b, GC_LowercaseLetter);
  (R 0x1e1c 0x1e1c, GC_UppercaseLetter);
  (R 0x1e1d 0x1e1d, GC_LowercaseLetter);
  (R 0x1e1e 0x1e1e, GC_UppercaseLetter);
  (R 0x1e1f 0x1e1f, GC_LowercaseLetter);
  (R 0x1e20 0x1e20, GC_UppercaseLetter);
  (R 0x1e21 0x1e21, GC_LowercaseLetter);
  (R 0x1e22 0x1e22, GC_UppercaseLetter);
  (R 0x1e23 0x1e23, GC_LowercaseLetter);
  (R 0x1e24 0x1e24, GC_UppercaseLetter);
  (R 0x1e25 0x1e25, GC_LowercaseLetter);
  (R 0x1e26 0x1e26, GC_UppercaseLetter);
  (R 0x1e27 0x1e27, GC_LowercaseLetter);
  (R 0x1e28 0x1e28, GC_UppercaseLetter);
  (R 0x1e29 0x1e29, GC_LowercaseLetter);
  (R 0x1e2a 0x1e2a, GC_UppercaseLetter);
  (R 0x1e2b 0x1e2b, GC_LowercaseLetter);
  (R 0x1e2c 0x1e2c, GC_UppercaseLetter);
  (R 0x1e2d 0x1e2d, GC_LowercaseLetter);
  (R 0x1e2e 0x1e2e, GC_UppercaseLetter);
  (R 0x1e2f 0x1e2f, GC_LowercaseLetter);
  (R 0x1e30 0x1e30, GC_UppercaseLetter);
  (R 0x1e31 0x1e31, GC_LowercaseLetter);
  (R 0x1e32 0x1e32, GC_UppercaseLetter);
  (R 0x1e33 0x1e33, GC_LowercaseLetter);
  (R 0x1e34 0x1e34, GC_UppercaseLetter);
  (R 0x1e35 0x1e35, GC_LowercaseLetter);
  (R 0x1e36 0x1e36, GC_UppercaseLetter);
  (R 0x1e37 0x1e37, GC_LowercaseLetter);
  (R 0x1e38 0x1e38, GC_UppercaseLetter);
  (R 0x1e39 0x1e39, GC_LowercaseLetter);
  (R 0x1e3a 0x1e3a, GC_UppercaseLetter);
  (R 0x1e3b 0x1e3b, GC_LowercaseLetter);
  (R 0x1e3c 0x1e3c, GC_UppercaseLetter);
  (R 0x1e3d 0x1e3d, GC_LowercaseLetter);
  (R 0x1e3e 0x1e3e, GC_UppercaseLetter);
  (R 0x1e3f 0x1e3f, GC_LowercaseLetter);
  (R 0x1e40 0x1e40, GC_UppercaseLetter);
  (R 0x1e41 0x1e41, GC_LowercaseLetter);
  (R 0x1e42 0x1e42, GC_UppercaseLetter);
  (R 0x1e43 0x1e43, GC_LowercaseLetter);
  (R 0x1e44 0x1e44, GC_UppercaseLetter);
  (R 0x1e45 0x1e45, GC_LowercaseLetter);
  (R 0x1e46 0x1e46, GC_UppercaseLetter);
  (R 0x1e47 0x1e47, GC_LowercaseLetter);
  (R 0x1e48 0x1e48, GC_UppercaseLetter);
  (R 0x1e49 0x1e49, GC_LowercaseLetter);
  (R 0x1e4a 0x1e4a, GC_UppercaseLetter);
  (R 0x1e4b 0x1e4b, GC_LowercaseLetter);
  (R 0x1e4c 0x1e4c, GC_UppercaseLetter);
  (R 0x1e4d 0x1e4d, GC_LowercaseLetter);
  (R 0x1e4e 0x1e4e, GC_UppercaseLetter);
  (R 0x1e4f 0x1e4f, GC_LowercaseLetter);
  (R 0x1e50 0x1e50, GC_UppercaseLetter);
  (R 0x1e51 0x1e51, GC_LowercaseLetter);
  (R 0x1e52 0x1e52, GC_UppercaseLetter);
  (R 0x1e53 0x1e53, GC_LowercaseLetter);
  (R 0x1e54 0x1e54, GC_UppercaseLetter);
  (R 0x1e55 0x1e55, GC_LowercaseLetter);
  (R 0x1e56 0x1e56, GC_UppercaseLetter);
  (R 0x1e57 0x1e57, GC_LowercaseLetter);
  (R 0x1e58 0x1e58, GC_UppercaseLetter);
  (R 0x1e59 0x1e59, GC_LowercaseLetter);
  (R 0x1e5a 0x1e5a, GC_UppercaseLetter);
  (R 0x1e5b 0x1e5b, GC_LowercaseLetter);
  (R 0x1e5c 0x1e5c, GC_UppercaseLetter);
  (R 0x1e5d 0x1e5d, GC_LowercaseLetter);
  (R 0x1e5e 0x1e5e, GC_UppercaseLetter);
  (R 0x1e5f 0x1e5f, GC_LowercaseLetter);
  (R 0x1e60 0x1e60, GC_UppercaseLetter);
  (R 0x1e61 0x1e61, GC_LowercaseLetter);
  (R 0x1e62 0x1e62, GC_UppercaseLetter);
  (R 0x1e63 0x1e63, GC_LowercaseLetter);
  (R 0x1e64 0x1e64, GC_UppercaseLetter);
  (R 0x1e65 0x1e65, GC_LowercaseLetter);
  (R 0x1e66 0x1e66, GC_UppercaseLetter);
  (R 0x1e67 0x1e67, GC_LowercaseLetter);
  (R 0x1e68 0x1e68, GC_UppercaseLetter);
  (R 0x1e69 0x1e69, GC_LowercaseLetter);
  (R 0x1e6a 0x1e6a, GC_UppercaseLetter);
  (R 0x1e6b 0x1e6b, GC_LowercaseLetter);
  (R 0x1e6c 0x1e6c, GC_UppercaseLetter);
  (R 0x1e6d 0x1e6d, GC_LowercaseLetter);
  (R 0x1e6e 0x1e6e, GC_UppercaseLetter);
  (R 0x1e6f 0x1e6f, GC_LowercaseLetter);
  (R 0x1e70 0x1e70, GC_UppercaseLetter);
  (R 0x1e71 0x1e71, GC_LowercaseLetter);
  (R 0x1e72 0x1e72, GC_UppercaseLetter);
  (R 0x1e73 0x1e73, GC_LowercaseLetter);
  (R 0x1e74 0x1e74, GC_UppercaseLetter);
  (R 0x1e75 0x1e75, GC_LowercaseLetter);
  (R 0x1e76 0x1e76, GC_UppercaseLetter);
  (R 0x1e77 0x1e77, GC_LowercaseLetter);
  (R 0x1e78 0x1e78, GC_UppercaseLetter);
  (R 0x1e79 0x1e79, GC_LowercaseLetter);
  (R 0x1e7a 0x1e7a, GC_UppercaseLetter);
  (R 0x1e7b 0x1e7b, GC_LowercaseLetter);
  (R 0x1e7c 0x1e7c, GC_UppercaseLetter);
  (R 0x1e7d 0x1e7d, GC_LowercaseLetter);
  (R 0x1e7e 0x1e7e, GC_UppercaseLetter);
  (R 0x1e7f 0x1e7f, GC_LowercaseLetter);
  (R 0x1e80 0x1e80, GC_UppercaseLetter);
  (R 0x1e81 0x1e81, GC_LowercaseLetter);
  (R 0x1e82 0x1e82, GC_UppercaseLetter);
  (R 0x1e83 0x1e83, GC_LowercaseLetter);
  (R 0x1e84 0x1e84, GC_UppercaseLetter);
  (R 0x1e85 0x1e85, GC_LowercaseLetter);
  (R 0x1e86 0x1e86, GC_UppercaseLetter);
  (R 0x1e87 0x1e87, GC_LowercaseLetter);
  (R 0x1e88 0x1e88, GC_UppercaseLetter);
  (R 0x1e89 0x1e89, GC_LowercaseLetter);
  (R 0x1e8a 0x1e8a, GC_UppercaseLetter);
  (R 0x1e8b 0x1e8b, GC_LowercaseLetter);
  (R 0x1e8c 0x1e8c, GC_UppercaseLetter);
  (R 0x1e8d 0x1e8d, GC_LowercaseLetter);
  (R 0x1e8e 0x1e8e, GC_UppercaseLetter);
  (R 0x1e8f 0x1e8f, GC_LowercaseLetter);
  (R 0x1e90 0x1e90, GC_UppercaseLetter);
  (R 0x1e91 0x1e91, GC_LowercaseLetter);
  (R 0x1e92 0x1e92, GC_UppercaseLetter);
  (R 0x1e93 0x1e93, GC_LowercaseLetter);
  (R 0x1e94 0x1e94, GC_UppercaseLetter);
  (R 0x1e95 0x1e9d, GC_LowercaseLetter);
  (R 0x1e9e 0x1e9e, GC_UppercaseLetter);
  (R 0x1e9f 0x1e9f, GC_LowercaseLetter);
  (R 0x1ea0 0x1ea0, GC_UppercaseLetter);
  (R 0x1ea1 0x1ea1, GC_LowercaseLetter);
  (R 0x1ea2 0x1ea2, GC_UppercaseLetter);
  (R 0x1ea3 0x1ea3, GC_LowercaseLetter);
  (R 0x1ea4 0x1ea4, GC_UppercaseLetter);
  (R 0x1ea5 0x1ea5, GC_LowercaseLetter);
  (R 0x1ea6 0x1ea6, GC_UppercaseLetter);
  (R 0x1ea7 0x1ea7, GC_LowercaseLetter);
  (R 0x1ea8 0x1ea8, GC_UppercaseLetter);
  (R 0x1ea9 0x1ea9, GC_LowercaseLetter);
  (R 0x1eaa 0x1eaa, GC_UppercaseLetter);
  (R 0x1eab 0x1eab, GC_LowercaseLetter);
  (R 0x1eac 0x1eac, GC_UppercaseLetter);
  (R 0x1ead 0x1ead, GC_LowercaseLetter);
  (R 0x1eae 0x1eae, GC_UppercaseLetter);
  (R 0x1eaf 0x1eaf, GC_LowercaseLetter);
  (R 0x1eb0 0x1eb0, GC_UppercaseLetter);
  (R 0x1eb1 0x1eb1, GC_LowercaseLetter);
  (R 0x1eb2 0x1eb2, GC_UppercaseLetter);
  (R 0x1eb3 0x1eb3, GC_LowercaseLetter);
  (R 0x1eb4 0x1eb4, GC_UppercaseLetter);
  (R 0x1eb5 0x1eb5, GC_LowercaseLetter);
  (R 0x1eb6 0x1eb6, GC_UppercaseLetter);
  (R 0x1eb7 0x1eb7, GC_LowercaseLetter);
  (R 0x1eb8 0x1eb8, GC_UppercaseLetter);
  (R 0x1eb9 0x1eb9, GC_LowercaseLetter);
  (R 0x1eba 0x1eba, GC_UppercaseLetter);
  (R 0x1ebb 0x1ebb, GC_LowercaseLetter);
  (R 0x1ebc 0x1ebc, GC_UppercaseLetter);
  (R 0x1ebd 0x1ebd, GC_LowercaseLetter);
  (R 0x1ebe 0x1ebe, GC_UppercaseLetter);
  (R 0x1ebf 0x1ebf, GC_LowercaseLetter);
  (R 0x1ec0 0x1ec0, GC_UppercaseLetter);
  (R 0x1ec1 0x1ec1, GC_LowercaseLetter);
  (R 0x1ec2 0x1ec2, GC_UppercaseLetter);
  (R 0x1ec3 0x1ec3, GC_LowercaseLetter);
  (R 0x1ec4 0x1ec4, GC_UppercaseLetter);
  (R 0x1ec5 0x1ec5, GC_LowercaseLetter);
  (R 0x1ec6 0x1ec6, GC_UppercaseLetter);
  (R 0x1ec7 0x1ec7, GC_LowercaseLetter);
  (R 0x1ec8 0x1ec8, GC_UppercaseLetter);
  (R 0x1ec9 0x1ec9, GC_LowercaseLetter);
  (R 0x1eca 0x1eca, GC_UppercaseLetter);
  (R 0x1ecb 0x1ecb, GC_LowercaseLetter);
  (R 0x1ecc 0x1ecc, GC_UppercaseLetter);
  (R 0x1ecd 0x1ecd, GC_LowercaseLetter);
  (R 0x1ece 0x1ece, GC_UppercaseLetter);
  (R 0x1ecf 0x1ecf, GC_LowercaseLetter);
  (R 0x1ed0 0x1ed0, GC_UppercaseLetter);
  (R 0x1ed1 0x1ed1, GC_LowercaseLetter);
  (R 0x1ed2 0x1ed2, GC_UppercaseLetter);
  (R 0x1ed3 0x1ed3, GC_LowercaseLetter);
  (R 0x1ed4 0x1ed4, GC_UppercaseLetter);
  (R 0x1ed5 0x1ed5, GC_LowercaseLetter);
  (R 0x1ed6 0x1ed6, GC_UppercaseLetter);
  (R 0x1ed7 0x1ed7, GC_LowercaseLetter);
  (R 0x1ed8 0x1ed8, GC_UppercaseLetter);
  (R 0x1ed9 0x1ed9, GC_LowercaseLetter);
  (R 0x1eda 0x1eda, GC_UppercaseLetter);
  (R 0x1edb 0x1edb, GC_LowercaseLetter);
  (R 0x1edc 0x1edc, GC_UppercaseLetter);
  (R 0x1edd 0x1edd, GC_LowercaseLetter);
  (R 0x1ede 0x1ede, GC_UppercaseLetter);
  (R 0x1edf 0x1edf, GC_LowercaseLetter);
  (R 0x1ee0 0x1ee0, GC_UppercaseLetter);
  (R 0x1ee1 0x1ee1, GC_LowercaseLetter);
  (R 0x1ee2 0x1ee2, GC_UppercaseLetter);
  (R 0x1ee3 0x1ee3, GC_LowercaseLetter);
  (R 0x1ee4 0x1ee4, GC_UppercaseLetter);
  (R 0x1ee5 0x1ee5, GC_LowercaseLetter);
  (R 0x1ee6 0x1ee6, GC_UppercaseLetter);
  (R 0x1ee7 0x1ee7, GC_LowercaseLetter);
  (R 0x1ee8 0x1ee8, GC_UppercaseLetter);
  (R 0x1ee9 0x1ee9, GC_LowercaseLetter);
  (R 0x1eea 0x1eea, GC_UppercaseLetter);
  (R 0x1eeb 0x1eeb, GC_LowercaseLetter);
  (R 0x1eec 0x1eec, GC_UppercaseLetter);
  (R 0x1eed 0x1eed, GC_LowercaseLetter);
  (R 0x1eee 0x1eee, GC_UppercaseLetter);
  (R 0x1eef 0x1eef, GC_LowercaseLetter);
  (R 0x1ef0 0x1ef0, GC_UppercaseLetter);
  (R 0x1ef1 0x1ef1, GC_LowercaseLetter);
  (R 0x1ef2 0x1ef2, GC_UppercaseLetter);
  (R 0x1ef3 0x1ef3, GC_LowercaseLetter);
  (R 0x1ef4 0x1ef4, GC_UppercaseLetter);
  (R 0x1ef5 0x1ef5, GC_LowercaseLetter);
  (R 0x1ef6 0x1ef6, GC_UppercaseLetter);
  (R 0x1ef7 0x1ef7, GC_LowercaseLetter);
  (R 0x1ef8 0x1ef8, GC_UppercaseLetter);
  (R 0x1ef9 0x1ef9, GC_LowercaseLetter);
  (R 0x1efa 0x1efa, GC_UppercaseLetter);
  (R 0x1efb 0x1efb, GC_LowercaseLetter);
  (R 0x1efc 0x1efc, GC_UppercaseLetter);
  (R 0x1efd 0x1efd, GC_LowercaseLetter);
  (R 0x1efe 0x1efe, GC_UppercaseLetter);
  (R 0x1eff 0x1f07, GC_LowercaseLetter);
  (R 0x1f08 0x1f0f, GC_UppercaseLetter);
  (R 0x1f10 0x1f15, GC_LowercaseLetter);
  (R 0x1f18 0x1f1d, GC_UppercaseLetter);
  (R 0x1f20 0x1f27, GC_LowercaseLetter);
  (R 0x1f28 0x1f2f, GC_UppercaseLetter);
  (R 0x1f30 0x1f37, GC_LowercaseLetter);
  (R 0x1f38 0x1f3f, GC_UppercaseLetter);
  (R 0x1f40 0x1f45, GC_LowercaseLetter);
  (R 0x1f48 0x1f4d, GC_UppercaseLetter);
  (R 0x1f50 0x1f57, GC_LowercaseLetter);
  (R 0x1f59 0x1f59, GC_UppercaseLetter);
  (R 0x1f5b 0x1f5b, GC_UppercaseLetter);
  (R 0x1f5d 0x1f5d, GC_UppercaseLetter);
  (R 0x1f5f 0x1f5f, GC_UppercaseLetter);
  (R 0x1f60 0x1f67, GC_LowercaseLetter);
  (R 0x1f68 0x1f6f, GC_UppercaseLetter);
  (R 0x1f70 0x1f7d, GC_LowercaseLetter);
  (R 0x1f80 0x1f87, GC_LowercaseLetter);
  (R 0x1f88 0x1f8f, GC_TitlecaseLetter);
  (R 0x1f90 0x1f97, GC_LowercaseLetter);
  (R 0x1f98 0x1f9f, GC_TitlecaseLetter);
  (R 0x1fa0 0x1fa7, GC_LowercaseLetter);
  (R 0x1fa8 0x1faf, GC_TitlecaseLetter);
  (R 0x1fb0 0x1fb4, GC_LowercaseLetter);
  (R 0x1fb6 0x1fb7, GC_LowercaseLetter);
  (R 0x1fb8 0x1fbb, GC_UppercaseLetter);
  (R 0x1fbc 0x1fbc, GC_TitlecaseLetter);
  (R 0x1fbd 0x1fbd, GC_ModifierSymbol);
  (R 0x1fbe 0x1fbe, GC_LowercaseLetter);
  (R 0x1fbf 0x1fc1, GC_ModifierSymbol);
  (R 0x1fc2 0x1fc4, GC_LowercaseLetter);
  (R 0x1fc6 0x1fc7, GC_LowercaseLetter);
  (R 0x1fc8 0x1fcb, GC_UppercaseLetter);
  (R 0x1fcc 0x1fcc, GC_TitlecaseLetter);
  (R 0x1fcd 0x1fcf, GC_ModifierSymbol);
  (R 0x1fd0 0x1fd3, GC_LowercaseLetter);
  (R 0x1fd6 0x1fd7, GC_LowercaseLetter);
  (R 0x1fd8 0x1fdb, GC_UppercaseLetter);
  (R 0x1fdd 0x1fdf, GC_ModifierSymbol);
  (R 0x1fe0 0x1fe7, GC_LowercaseLetter);
  (R 0x1fe8 0x1fec, GC_UppercaseLetter);
  (R 0x1fed 0x1fef, GC_ModifierSymbol);
  (R 0x1ff2 0x1ff4, GC_LowercaseLetter);
  (R 0x1ff6 0x1ff7, GC_LowercaseLetter);
  (R 0x1ff8 0x1ffb, GC_UppercaseLetter);
  (R 0x1ffc 0x1ffc, GC_TitlecaseLetter);
  (R 0x1ffd 0x1ffe, GC_ModifierSymbol);
  (R 0x2000 0x200a, GC_SpaceSeparator);
  (R 0x200b 0x200f, GC_Format);
  (R 0x2010 0x2015, GC_DashPunctuation);
  (R 0x2016 0x2017, GC_OtherPunctuation);
  (R 0x2018 0x2018, GC_InitialPunctuation);
  (R 0x2019 0x2019, GC_FinalPunctuation);
  (R 0x201a 0x201a, GC_OpenPunctuation);
  (R 0x201b 0x201c, GC_InitialPunctuation);
  (R 0x201d 0x201d, GC_FinalPunctuation);
  (R 0x201e 0x201e, GC_OpenPunctuation);
  (R 0x201f 0x201f, GC_InitialPunctuation);
  (R 0x2020 0x2027, GC_OtherPunctuation);
  (R 0x2028 0x2028, GC_LineSeparator);
  (R 0x2029 0x2029, GC_ParagraphSeparator);
  (R 0x202a 0x202e, GC_Format);
  (R 0x202f 0x202f, GC_SpaceSeparator);
  (R 0x2030 0x2038, GC_OtherPunctuation);
  (R 0x2039 0x2039, GC_InitialPunctuation);
  (R 0x203a 0x203a, GC_FinalPunctuation);
  (R 0x203b 0x203e, GC_OtherPunctuation);
  (R 0x203f 0x2040, GC_ConnectorPunctuation);
  (R 0x2041 0x2043, GC_OtherPunctuation);
  (R 0x2044 0x2044, GC_MathSymbol);
  (R 0x2045 0x2045, GC_OpenPunctuation);
  (R 0x2046 0x2046, GC_ClosePunctuation);
  (R 0x2047 0x2051, GC_OtherPunctuation);
  (R 0x2052 0x2052, GC_MathSymbol);
  (R 0x2053 0x2053, GC_OtherPunctuation);
  (R 0x2054 0x2054, GC_ConnectorPunctuation);
  (R 0x2055 0x205e, GC_OtherPunctuation);
  (R 0x205f 0x205f, GC_SpaceSeparator);
  (R 0x2060 0x2064, GC_Format);
  (R 0x2066 0x206f, GC_Format);
  (R 0x2070 0x2070, GC_OtherNumber);
  (R 0x2071 0x2071, GC_ModifierLetter);
  (R 0x2074 0x2079, GC_OtherNumber);
  (R 0x207a 0x207c, GC_MathSymbol);
  (R 0x207d 0x207d, GC_OpenPunctuation);
  (R 0x207e 0x207e, GC_ClosePunctuation);
  (R 0x207f 0x207f, GC_ModifierLetter);
  (R 0x2080 0x2089, GC_OtherNumber);
  (R 0x208a 0x208c, GC_MathSymbol);
  (R 0x208d 0x208d, GC_OpenPunctuation);
  (R 0x208e 0x208e, GC_ClosePunctuation);
  (R 0x2090 0x209c, GC_ModifierLetter);
  (R 0x20a0 0x20bf, GC_CurrencySymbol);
  (R 0x20d0 0x20dc, GC_NonspacingMark);
  (R 0x20dd 0x20e0, GC_EnclosingMark);
  (R 0x20e1 0x20e1, GC_NonspacingMark);
  (R 0x20e2 0x20e4, GC_EnclosingMark);
  (R 0x20e5 0x20f0, GC_NonspacingMark);
  (R 0x2100 0x2101, GC_OtherSymbol);
  (R 0x2102 0x2102, GC_UppercaseLetter);
  (R 0x2103 0x2106, GC_OtherSymbol);
  (R 0x2107 0x2107, GC_UppercaseLetter);
  (R 0x2108 0x2109, GC_OtherSymbol);
  (R 0x210a 0x210a, GC_LowercaseLetter);
  (R 0x210b 0x210d, GC_UppercaseLetter);
  (R 0x210e 0x210f, GC_LowercaseLetter);
  (R 0x2110 0x2112, GC_UppercaseLetter);
  (R 0x2113 0x2113, GC_LowercaseLetter);
  (R 0x2114 0x2114, GC_OtherSymbol);
  (R 0x2115 0x2115, GC_UppercaseLetter);
  (R 0x2116 0x2117, GC_OtherSymbol);
  (R 0x2118 0x2118, GC_MathSymbol);
  (R 0x2119 0x211d, GC_UppercaseLetter);
  (R 0x211e 0x2123, GC_OtherSymbol);
  (R 0x2124 0x2124, GC_UppercaseLetter);
  (R 0x2125 0x2125, GC_OtherSymbol)].

Definition GENERAL_CATEGORY_4 : list (CharRange * GeneralCategory) := [
  (R 0x2126 0x2126, GC_UppercaseLetter);
  (R 0x2127 0x2127, GC_OtherSymbol);
  (R 0x2128 0x2128, GC_UppercaseLetter);
  (R 0x2129 0x2129, GC_OtherSymbol);
  (R 0x212a 0x212d, GC_UppercaseLetter);
  (R 0x212e 0x212e, GC_OtherSymbol);
  (R 0x212f 0x212f, GC_LowercaseLetter);
  (R 0x2130 0x2133, GC_UppercaseLetter);
  (R 0x2134 0x2134, GC_LowercaseLetter);
  (R 0x2135 0x2138, GC_OtherLetter);
  (R 0x2139 0x2139, GC_LowercaseLetter);
  (R 0x213a 0x213b, GC_OtherSymbol);
  (R 0x213c 0x213d, GC_LowercaseLetter);
  (R 0x213e 0x213f, GC_UppercaseLetter);
  (R 0x2140 0x2144, GC_MathSymbol);
  (R 0x2145 0x2145, GC_UppercaseLetter);
  (R 0x2146 0x2149, GC_LowercaseLetter);
  (R 0x214a 0x214a, GC_OtherSymbol);
  (R 0x214b 0x214b, GC_MathSymbol);
  (R 0x214c 0x214d, GC_OtherSymbol);
  (R 0x214e 0x214e, GC_LowercaseLetter);
  (R 0x214f 0x214f, GC_OtherSymbol);
  (R 0x2150 0x215f, GC_OtherNumber);
  (R 0x2160 0x2182, GC_LetterNumber);
  (R 0x2183 0x2183, GC_UppercaseLetter);
  (R 0x2184 0x2184, GC_LowercaseLetter);
  (R 0x2185 0x2188, GC_LetterNumber);
  (R 0x2189 0x2189, GC_OtherNumber);
  (R 0x218a 0x218b, GC_OtherSymbol);
  (R 0x2190 0x2194, GC_MathSymbol);
  (R 0x2195 0x2199, GC_OtherSymbol);
  (R 0x219a 0x219b, GC_MathSymbol);
  (R 0x219c 0x219f, GC_OtherSymbol);
  (R 0x21a0 0x21a0, GC_MathSymbol);
  (R 0x21a1 0x21a2, GC_OtherSymbol);
  (R 0x21a3 0x21a3, GC_MathSymbol);
  (R 0x21a4 0x21a5, GC_OtherSymbol);
  (R 0x21a6 0x21a6, GC_MathSymbol);
  (R 0x21a7 0x21ad, GC_OtherSymbol);
  (R 0x21ae 0x21ae, GC_MathSymbol);
  (R 0x21af 0x21cd, GC_OtherSymbol);
  (R 0x21ce 0x21cf, GC_MathSymbol);
  (R 0x21d0 0x21d1, GC_OtherSymbol);
  (R 0x21d2 0x21d2, GC_MathSymbol);
  (R 0x21d3 0x21d3, GC_OtherSymbol);
  (R 0x21d4 0x21d4, GC_MathSymbol);
  (R 0x21d5 0x21f3, GC_OtherSymbol);
  (R 0x21f4 0x22ff, GC_MathSymbol);
  (R 0x2300 0x2307, GC_OtherSymbol);
  (R 0x2308 0x2308, GC_OpenPunctuation);
  (R 0x2309 0x2309, GC_ClosePunctuation);
  (R 0x230a 0x230a, GC_OpenPunctuation);
  (R 0x230b 0x230b, GC_ClosePunctuation);
  (R 0x230c 0x231f, GC_OtherSymbol);
  (R 0x2320 0x2321, GC_MathSymbol);
  (R 0x2322 0x2328, GC_OtherSymbol);
  (R 0x2329 0x2329, GC_OpenPunctuation);
  (R 0x232a 0x232a, GC_ClosePunctuation);
  (R 0x232b 0x237b, GC_OtherSymbol);
  (R 0x237c 0x237c, GC_MathSymbol);
  (R 0x237d 0x239a, GC_OtherSymbol);
  (R 0x239b 0x23b3, GC_MathSymbol);
  (R 0x23b4 0x23db, GC_OtherSymbol);
  (R 0x23dc 0x23e1, GC_MathSymbol);
  (R 0x23e2 0x2426, GC_OtherSymbol);
  (R 0x2440 0x244a, GC_OtherSymbol);
  (R 0x2460 0x249b, GC_OtherNumber);
  (R 0x249c 0x24e9, GC_OtherSymbol);
  (R 0x24ea 0x24ff, GC_OtherNumber);
  (R 0x2500 0x25b6, GC_OtherSymbol);
  (R 0x25b7 0x25b7, GC_MathSymbol);
  (R 0x25b8 0x25c0, GC_OtherSymbol);
  (R 0x25c1 0x25c1, GC_MathSymbol);
  (R 0x25c2 0x25f7, GC_OtherSymbol);
  (R 0x25f8 0x25ff, GC_MathSymbol);
  (R 0x2600 0x266e, GC_OtherSymbol);
  (R 0x266f 0x266f, GC_MathSymbol);
  (R 0x2670 0x2767, GC_OtherSymbol);
  (R 0x2768 0x2768, GC_OpenPunctuation);
  (R 0x2769 0x2769, GC_ClosePunctuation);
  (R 0x276a 0x276a, GC_OpenPunctuation);
  (R 0x276b 0x276b, GC_ClosePunctuation);
  (R 0x276c 0x276c, GC_OpenPunctuation);
  (R 0x276d 0x276d, GC_ClosePunctuation);
  (R 0x276e 0x276e, GC_OpenPunctuation);
  (R 0x276f 0x276f, GC_ClosePunctuation);
  (R 0x2770 0x2770, GC_OpenPunctuation);
  (R 0x2771 0x2771, GC_ClosePunctuation);
  (R 0x2772 0x2772, GC_OpenPunctuation);
  (R 0x2773 0x2773, GC_ClosePunctuation);
  (R 0x2774 0x2774, GC_OpenPunctuation);
  (R 0x2775 0x2775, GC_ClosePunctuation);
  (R 0x2776 0x2793, GC_OtherNumber);
  (R 0x2794 0x27bf, GC_OtherSymbol);
  (R 0x27c0 0x27c4, GC_MathSymbol);
  (R 0x27c5 0x27c5, GC_OpenPunctuation);
  (R 0x27c6 0x27c6, GC_ClosePunctuation);
  (R 0x27c7 0x27e5, GC_MathSymbol);
  (R 0x27e6 0x27e6, GC_OpenPunctuation);
  (R 0x27e7 0x27e7, GC_ClosePunctuation);
  (R 0x27e8 0x27e8, GC_OpenPunctuation);
  (R 0x27e9 0x27e9, GC_ClosePunctuation);
  (R 0x27ea 0x27ea, GC_OpenPunctuation);
  (R 0x27eb 0x27eb, GC_ClosePunctuation);
  (R 0x27ec 0x27ec, GC_OpenPunctuation);
  (R 0x27ed 0x27ed, GC_ClosePunctuation);
  (R 0x27ee 0x27ee, GC_OpenPunctuation);
  (R 0x27ef 0x27ef, GC_ClosePunctuation);
  (R 0x27f0 0x27ff, GC_MathSymbol);
  (R 0x2800 0x28ff, GC_OtherSymbol);
  (R 0x2900 0x2982, GC_MathSymbol);
  (R 0x2983 0x2983, GC_OpenPunctuation);
  (R 0x2984 0x2984, GC_ClosePunctuation);
  (R 0x2985 0x2985, GC_OpenPunctuation);
  (R 0x2986 0x2986, GC_ClosePunctuation);
  (R 0x2987 0x2987, GC_OpenPunctuation);
  (R 0x2988 0x2988, GC_ClosePunctuation);
  (R 0x2989 0x2989, GC_OpenPunctuation);
  (R 0x298a 0x298a, GC_ClosePunctuation);
  (R 0x298b 0x298b, GC_OpenPunctuation);
  (R 0x298c 0x298c, GC_ClosePunctuation);
  (R 0x298d 0x298d, GC_OpenPunctuation);
  (R 0x298e 0x298e, GC_ClosePunctuation);
  (R 0x298f 0x298f, GC_OpenPunctuation);
  (R 0x2990 0x2990, GC_ClosePunctuation);
  (R 0x2991 0x2991, GC_OpenPunctuation);
  (R 0x2992 0x2992, GC_ClosePunctuation);
  (R 0x2993 0x2993, GC_OpenPunctuation);
  (R 0x2994 0x2994, GC_ClosePunctuation);
  (R 0x2995 0x2995, GC_OpenPunctuation);
  (R 0x2996 0x2996, GC_ClosePunctuation);
  (R 0x2997 0x2997, GC_OpenPunctuation);
  (R 0x2998 0x2998, GC_ClosePunctuation);
  (R 0x2999 0x29d7, GC_MathSymbol);
  (R 0x29d8 0x29d8, GC_OpenPunctuation);
  (R 0x29d9 0x29d9, GC_ClosePunctuation);
  (R 0x29da 0x29da, GC_OpenPunctuation);
  (R 0x29db 0x29db, GC_ClosePunctuation);
  (R 0x29dc 0x29fb, GC_MathSymbol);
  (R 0x29fc 0x29fc, GC_OpenPunctuation);
  (R 0x29fd 0x29fd, GC_ClosePunctuation);
  (R 0x29fe 0x2aff, GC_MathSymbol);
  (R 0x2b00 0x2b2f, GC_OtherSymbol);
  (R 0x2b30 0x2b44, GC_MathSymbol);
  (R 0x2b45 0x2b46, GC_OtherSymbol);
  (R 0x2b47 0x2b4c, GC_MathSymbol);
  (R 0x2b4d 0x2b73, GC_OtherSymbol);
  (R 0x2b76 0x2b95, GC_OtherSymbol);
  (R 0x2b98 0x2bb9, GC_OtherSymbol);
  (R 0x2bbd 0x2bc8, GC_OtherSymbol);
  (R 0x2bca 0x2bd2, GC_OtherSymbol);
  (R 0x2bec 0x2bef, GC_OtherSymbol);
  (R 0x2c00 0x2c2e, GC_UppercaseLetter);
  (R 0x2c30 0x2c5e, GC_LowercaseLetter);
  (R 0x2c60 0x2c60, GC_UppercaseLetter);
  (R 0x2c61 0x2c61, GC_LowercaseLetter);
  (R 0x2c62 0x2c64, GC_UppercaseLetter);
  (R 0x2c65 0x2c66, GC_LowercaseLetter);
  (R 0x2c67 0x2c67, GC_UppercaseLetter);
  (R 0x2c68 0x2c68, GC_LowercaseLetter);
  (R 0x2c69 0x2c69, GC_UppercaseLetter);
  (R 0x2c6a 0x2c6a, GC_LowercaseLetter);
  (R 0x2c6b 0x2c6b, GC_UppercaseLetter);
  (R 0x2c6c 0x2c6c, GC_LowercaseLetter);
  (R 0x2c6d 0x2c70, GC_UppercaseLetter);
  (R 0x2c71 0x2c71, GC_LowercaseLetter);
  (R 0x2c72 0x2c72, GC_UppercaseLetter);
  (R 0x2c73 0x2c74, GC_LowercaseLetter);
  (R 0x2c75 0x2c75, GC_UppercaseLetter);
  (R 0x2c76 0x2c7b, GC_LowercaseLetter);
  (R 0x2c7c 0x2c7d, GC_ModifierLetter);
  (R 0x2c7e 0x2c80, GC_UppercaseLetter);
  (R 0x2c81 0x2c81, GC_LowercaseLetter);
  (R 0x2c82 0x2c82, GC_UppercaseLetter);
  (R 0x2c83 0x2c83, GC_LowercaseLetter);
  (R 0x2c84 0x2c84, GC_UppercaseLetter);
  (R 0x2c85 0x2c85, GC_LowercaseLetter);
  (R 0x2c86 0x2c86, GC_UppercaseLetter);
  (R 0x2c87 0x2c87, GC_LowercaseLetter);
  (R 0x2c88 0x2c88, GC_UppercaseLetter);
  (R 0x2c89 0x2c89, GC_LowercaseLetter);
  (R 0x2c8a 0x2c8a, GC_UppercaseLetter);
  (R 0x2c8b 0x2c8b, GC_LowercaseLetter);
  (R 0x2c8c 0x2c8c, GC_UppercaseLetter);
  (R 0x2c8d 0x2c8d, GC_LowercaseLetter);
  (R 0x2c8e 0x2c8e, GC_UppercaseLetter);
  (R 0x2c8f 0x2c8f, GC_LowercaseLetter);
  (R 0x2c90 0x2c90, GC_UppercaseLetter);
  (R 0x2c91 0x2c91, GC_LowercaseLetter);
  (R 0x2c92 0x2c92, GC_UppercaseLetter);
  (R 0x2c93 0x2c93, GC_LowercaseLetter);
  (R 0x2c94 0x2c94, GC_UppercaseLetter);
  (R 0x2c95 0x2c95, GC_LowercaseLetter);
  (R 0x2c96 0x2c96, GC_UppercaseLetter);
  (R 0x2c97 0x2c97, GC_LowercaseLetter);
  (R 0x2c98 0x2c98, GC_UppercaseLetter);
  (R 0x2c99 0x2c99, GC_LowercaseLetter);
  (R 0x2c9a 0x2c9a, GC_UppercaseLetter);
  (R 0x2c9b 0x2c9b, GC_LowercaseLetter);
  (R 0x2c9c 0x2c9c, GC_UppercaseLetter);
  (R 0x2c9d 0x2c9d, GC_LowercaseLetter);
  (R 0x2c9e 0x2c9e, GC_UppercaseLetter);
  (R 0x2c9f 0x2c9f, GC_LowercaseLetter);
  (R 0x2ca0 0x2ca0, GC_UppercaseLetter);
  (R 0x2ca1 0x2ca1, GC_LowercaseLetter);
  (R 0x2ca2 0x2ca2, GC_UppercaseLetter);
  (R 0x2ca3 0x2ca3, GC_LowercaseLetter);
  (R 0x2ca4 0x2ca4, GC_UppercaseLetter);
  (R 0x2ca5 0x2ca5, GC_LowercaseLetter);
  (R 0x2ca6 0x2ca6, GC_UppercaseLetter);
  (R 0x2ca7 0x2ca7, GC_LowercaseLetter);
  (R 0x2ca8 0x2ca8, GC_UppercaseLetter);
  (R 0x2ca9 0x2ca9, GC_LowercaseLetter);
  (R 0x2caa 0x2caa, GC_UppercaseLetter);
  (R 0x2cab 0x2cab, GC_LowercaseLetter);
  (R 0x2cac 0x2cac, GC_UppercaseLetter);
  (R 0x2cad 0x2cad, GC_LowercaseLetter);
  (R 0x2cae 0x2cae, GC_UppercaseLetter);
  (R 0x2caf 0x2caf, GC_LowercaseLetter);
  (R 0x2cb0 0x2cb0, GC_UppercaseLetter);
  (R 0x2cb1 0x2cb1, GC_LowercaseLetter);
  (R 0x2cb2 0x2cb2, GC_UppercaseLetter);
  (R 0x2cb3 0x2cb3, GC_LowercaseLetter);
  (R 0x2cb4 0x2cb4, GC_UppercaseLetter);
  (R 0x2cb5 0x2cb5, GC_LowercaseLetter);
  (R 0x2cb6 0x2cb6, GC_UppercaseLetter);
  (R 0x2cb7 0x2cb7, GC_LowercaseLetter);
  (R 0x2cb8 0x2cb8, GC_UppercaseLetter);
  (R 0x2cb9 0x2cb9, GC_LowercaseLetter);
  (R 0x2cba 0x2cba, GC_UppercaseLetter);
  (R 0x2cbb 0x2cbb, GC_LowercaseLetter);
  (R 0x2cbc 0x2cbc, GC_UppercaseLetter);
  (R 0x2cbd 0x2cbd, GC_LowercaseLetter);
  (R 0x2cbe 0x2cbe, GC_UppercaseLetter);
  (R 0x2cbf 0x2cbf, GC_LowercaseLetter);
  (R 0x2cc0 0x2cc0, GC_UppercaseLetter);
  (R 0x2cc1 0x2cc1, GC_LowercaseLetter);
  (R 0x2cc2 0x2cc2, GC_UppercaseLetter);
  (R 0x2cc3 0x2cc3, GC_LowercaseLetter);
  (R 0x2cc4 0x2cc4, GC_UppercaseLetter);
  (R 0x2cc5 0x2cc5, GC_LowercaseLetter);
  (R 0x2cc6 0x2cc6, GC_UppercaseLetter);
  (R 0x2cc7 0x2cc7, GC_LowercaseLetter);
  (R 0x2cc8 0x2cc8, GC_UppercaseLetter);
  (R 0x2cc9 0x2cc9, GC_LowercaseLetter);
  (R 0x2cca 0x2cca, GC_UppercaseLetter);
  (R 0x2ccb 0x2ccb, GC_LowercaseLetter);
  (R 0x2ccc 0x2ccc, GC_UppercaseLetter);
  (R 0x2ccd 0x2ccd, GC_LowercaseLetter);
  (R 0x2cce 0x2cce, GC_UppercaseLetter);
  (R 0x2ccf 0x2ccf, GC_LowercaseLetter);
  (R 0x2cd0 0x2cd0, GC_UppercaseLetter);
  (R 0x2cd1 0x2cd1, GC_LowercaseLetter);
  (R 0x2cd2 0x2cd2, GC_UppercaseLetter);
  (R 0x2cd3 0x2cd3, GC_LowercaseLetter);
  (R 0x2cd4 0x2cd4, GC_UppercaseLetter);
  (R 0x2cd5 0x2cd5, GC_LowercaseLetter);
  (R 0x2cd6 0x2cd6, GC_UppercaseLetter);
  (R 0x2cd7 0x2cd7, GC_LowercaseLetter);
  (R 0x2cd8 0x2cd8, GC_UppercaseLetter);
  (R 0x2cd9 0x2cd9, GC_LowercaseLetter);
  (R 0x2cda 0x2cda, GC_UppercaseLetter);
  (R 0x2cdb 0x2cdb, GC_LowercaseLetter);
  (R 0x2cdc 0x2cdc, GC_UppercaseLetter);
  (R 0x2cdd 0x2cdd, GC_LowercaseLetter);
  (R 0x2cde 0x2cde, GC_UppercaseLetter);
  (R 0x2cdf 0x2cdf, GC_LowercaseLetter);
  (R 0x2ce0 0x2ce0, GC_UppercaseLetter);
  (R 0x2ce1 0x2ce1, GC_LowercaseLetter);
  (R 0x2ce2 0x2ce2, GC_UppercaseLetter);
  (R 0x2ce3 0x2ce4, GC_LowercaseLetter);
  (R 0x2ce5 0x2cea, GC_OtherSymbol);
  (R 0x2ceb 0x2ceb, GC_UppercaseLetter);
  (R 0x2cec 0x2cec, GC_LowercaseLetter);
  (R 0x2ced 0x2ced, GC_UppercaseLetter);
  (R 0x2cee 0x2cee, GC_LowercaseLetter);
  (R 0x2cef 0x2cf1, GC_NonspacingMark);
  (R 0x2cf2 0x2cf2, GC_UppercaseLetter);
  (R 0x2cf3 0x2cf3, GC_LowercaseLetter);
  (R 0x2cf9 0x2cfc, GC_OtherPunctuation);
  (R 0x2cfd 0x2cfd, GC_OtherNumber);
  (R 0x2cfe 0x2cff, GC_OtherPunctuation);
  (R 0x2d00 0x2d25, GC_LowercaseLetter);
  (R 0x2d27 0x2d27, GC_LowercaseLetter);
  (R 0x2d2d 0x2d2d, GC_LowercaseLetter);
  (R 0x2d30 0x2d67, GC_OtherLetter);
  (R 0x2d6f 0x2d6f, GC_ModifierLetter);
  (R 0x2d70 0x2d70, GC_OtherPunctuation);
  (R 0x2d7f 0x2d7f, GC_NonspacingMark);
  (R 0x2d80 0x2d96, GC_OtherLetter);
  (R 0x2da0 0x2da6, GC_OtherLetter);
  (R 0x2da8 0x2dae, GC_OtherLetter);
  (R 0x2db0 0x2db6, GC_OtherLetter);
  (R 0x2db8 0x2dbe, GC_OtherLetter);
  (R 0x2dc0 0x2dc6, GC_OtherLetter);
  (R 0x2dc8 0x2dce, GC_OtherLetter);
  (R 0x2dd0 0x2dd6, GC_OtherLetter);
  (R 0x2dd8 0x2dde, GC_OtherLetter);
  (R 0x2de0 0x2dff, GC_NonspacingMark);
  (R 0x2e00 0x2e01, GC_OtherPunctuation);
  (R 0x2e02 0x2e02, GC_InitialPunctuation);
  (R 0x2e03 0x2e03, GC_FinalPunctuation);
  (R 0x2e04 0x2e04, GC_InitialPunctuation);
  (R 0x2e05 0x2e05, GC_FinalPunctuation);
  (R 0x2e06 0x2e08, GC_OtherPunctuation);
  (R 0x2e09 0x2e09, GC_InitialPunctuation);
  (R 0x2e0a 0x2e0a, GC_FinalPunctuation);
  (R 0x2e0b 0x2e0b, GC_OtherPunctuation);
  (R 0x2e0c 0x2e0c, GC_InitialPunctuation);
  (R 0x2e0d 0x2e0d, GC_FinalPunctuation);
  (R 0x2e0e 0x2e16, GC_OtherPunctuation);
  (R 0x2e17 0x2e17, GC_DashPunctuation);
  (R 0x2e18 0x2e19, GC_OtherPunctuation);
  (R 0x2e1a 0x2e1a, GC_DashPunctuation);
  (R 0x2e1b 0x2e1b, GC_OtherPunctuation);
  (R 0x2e1c 0x2e1c, GC_InitialPunctuation);
  (R 0x2e1d 0x2e1d, GC_FinalPunctuation);
  (R 0x2e1e 0x2e1f, GC_OtherPunctuation);
  (R 0x2e20 0x2e20, GC_InitialPunctuation);
  (R 0x2e21 0x2e21, GC_FinalPunctuation);
  (R 0x2e22 0x2e22, GC_OpenPunctuation);
  (R 0x2e23 0x2e23, GC_ClosePunctuation);
  (R 0x2e24 0x2e24, GC_OpenPunctuation);
  (R 0x2e25 0x2e25, GC_ClosePunctuation);
  (R 0x2e26 0x2e26, GC_OpenPunctuation);
  (R 0x2e27 0x2e27, GC_ClosePunctuation);
  (R 0x2e28 0x2e28, GC_OpenPunctuation);
  (R 0x2e29 0x2e29, GC_ClosePunctuation);
  (R 0x2e2a 0x2e2e, GC_OtherPunctuation);
  (R 0x2e2f 0x2e2f, GC_ModifierLetter);
  (R 0x2e30 0x2e39, GC_OtherPunctuation);
  (R 0x2e3a 0x2e3b, GC_DashPunctuation);
  (R 0x2e3c 0x2e3f, GC_OtherPunctuation);
  (R 0x2e40 0x2e40, GC_DashPunctuation);
  (R 0x2e41 0x2e41, GC_OtherPunctuation);
  (R 0x2e42 0x2e42, GC_OpenPunctuation);
  (R 0x2e43 0x2e49, GC_OtherPunctuation);
  (R 0x2e80 0x2e99, GC_OtherSymbol);
  (R 0x2e9b 0x2ef3, GC_OtherSymbol);
  (R 0x2f00 0x2fd5, GC_OtherSymbol);
  (R 0x2ff0 0x2ffb, GC_OtherSymbol);
  (R 0x3000 0x3000, GC_SpaceSeparator);
  (R 0x3001 0x3003, GC_OtherPunctuation);
  (R 0x3004 0x3004, GC_OtherSymbol);
  (R 0x3005 0x3005, GC_ModifierLetter);
  (R 0x3006 0x3006, GC_OtherLetter);
  (R 0x3007 0x3007, GC_LetterNumber);
  (R 0x3008 0x3008, GC_OpenPunctuation);
  (R 0x3009 0x3009, GC_ClosePunctuation);
  (R 0x300a 0x300a, GC_OpenPunctuation);
  (R 0x300b 0x300b, GC_ClosePunctuation);
  (R 0x300c 0x300c, GC_OpenPunctuation);
  (R 0x300d 0x300d, GC_ClosePunctuation);
  (R 0x300e 0x300e, GC_OpenPunctuation);
  (R 0x300f 0x300f, GC_ClosePunctuation);
  (R 0x3010 0x3010, GC_OpenPunctuation);
  (R 0x3011 0x3011, GC_ClosePunctuation);
  (R 0x3012 0x3013, GC_OtherSymbol);
  (R 0x3014 0x3014, GC_OpenPunctuation);
  (R 0x3015 0x3015, GC_ClosePunctuation);
  (R 0x3016 0x3016, GC_OpenPunctuation);
  (R 0x3017 0x3017, GC_ClosePunctuation);
  (R 0x3018 0x3018, GC_OpenPunctuation);
  (R 0x3019 0x3019, GC_ClosePunctuation);
  (R 0x301a 0x301a, GC_OpenPunctuation);
  (R 0x301b 0x301b, GC_ClosePunctuation);
  (R 0x301c 0x301c, GC_DashPunctuation);
  (R 0x301d 0x301d, GC_OpenPunctuation);
  (R 0x301e 0x301f, GC_ClosePunctuation);
  (R 0x3020 0x3020, GC_OtherSymbol);
  (R 0x3021 0x3029, GC_LetterNumber);
  (R 0x302a 0x302d, GC_NonspacingMark);
  (R 0x302e 0x302f, GC_SpacingMark);
  (R 0x3030 0x3030, GC_DashPunctuation);
  (R 0x3031 0x3035, GC_ModifierLetter);
  (R 0x3036 0x3037, GC_OtherSymbol);
  (R 0x3038 0x303a, GC_LetterNumber);
  (R 0x303b 0x303b, GC_ModifierLetter);
  (R 0x303c 0x303c, GC_OtherLetter);
  (R 0x303d 0x303d, GC_OtherPunctuation);
  (R 0x303e 0x303f, GC_OtherSymbol);
  (R 0x3041 0x3096, GC_OtherLetter);
  (R 0x3099 0x309a, GC_NonspacingMark);
  (R 0x309b 0x309c, GC_ModifierSymbol);
  (R 0x309d 0x309e, GC_ModifierLetter);
  (R 0x309f 0x309f, GC_OtherLetter);
  (R 0x30a0 0x30a0, GC_DashPunctuation);
  (R 0x30a1 0x30fa, GC_OtherLetter);
  (R 0x30fb 0x30fb, GC_OtherPunctuation);
  (R 0x30fc 0x30fe, GC_ModifierLetter);
  (R 0x30ff 0x30ff, GC_OtherLetter);
  (R 0x3105 0x312e, GC_OtherLetter);
  (R 0x3131 0x318e, GC_OtherLetter);
  (R 0x3190 0x3191, GC_OtherSymbol);
  (R 0x3192 0x3195, GC_OtherNumber);
  (R 0x3196 0x319f, GC_OtherSymbol);
  (R 0x31a0 0x31ba, GC_OtherLetter);
  (R 0x31c0 0x31e3, GC_OtherSymbol);
  (R 0x31f0 0x31ff, GC_OtherLetter);
  (R 0x3200 0x321e, GC_OtherSymbol)].

Definition GENERAL_CATEGORY_5 : list (CharRange * GeneralCategory) := [
  (R 0x3220 0x3229, GC_OtherNumber);
  (R 0x322a 0x3247, GC_OtherSymbol);
  (R 0x3248 0x324f, GC_OtherNumber);
  (R 0x3250 0x3250, GC_OtherSymbol);
  (R 0x3251 0x325f, GC_OtherNumber);
  (R 0x3260 0x327f, GC_OtherSymbol);
  (R 0x3280 0x3289, GC_OtherNumber);
  (R 0x328a 0x32b0, GC_OtherSymbol);
  (R 0x32b1 0x32bf, GC_OtherNumber);
  (R 0x32c0 0x32fe, GC_OtherSymbol);
  (R 0x3300 0x33ff, GC_OtherSymbol);
  (R 0x3400 0x4db5, GC_OtherLetter);
  (R 0x4dc0 0x4dff, GC_OtherSymbol);
  (R 0x4e00 0x9fea, GC_OtherLetter);
  (R 0xa000 0xa014, GC_OtherLetter);
  (R 0xa015 0xa015, GC_ModifierLetter);
  (R 0xa016 0xa48c, GC_OtherLetter);
  (R 0xa490 0xa4c6, GC_OtherSymbol);
  (R 0xa4d0 0xa4f7, GC_OtherLetter);
  (R 0xa4f8 0xa4fd, GC_ModifierLetter);
  (R 0xa4fe 0xa4ff, GC_OtherPunctuation);
  (R 0xa500 0xa60b, GC_OtherLetter);
  (R 0xa60c 0xa60c, GC_ModifierLetter);
  (R 0xa60d 0xa60f, GC_OtherPunctuation);
  (R 0xa610 0xa61f, GC_OtherLetter);
  (R 0xa620 0xa629, GC_DecimalNumber);
  (R 0xa62a 0xa62b, GC_OtherLetter);
  (R 0xa640 0xa640, GC_UppercaseLetter);
  (R 0xa641 0xa641, GC_LowercaseLetter);
  (R 0xa642 0xa642, GC_UppercaseLetter);
  (R 0xa643 0xa643, GC_LowercaseLetter);
  (R 0xa644 0xa644, GC_UppercaseLetter);
  (R 0xa645 0xa645, GC_LowercaseLetter);
  (R 0xa646 0xa646, GC_UppercaseLetter);
  (R 0xa647 0xa647, GC_LowercaseLetter);
  (R 0xa648 0xa648, GC_UppercaseLetter);
  (R 0xa649 0xa649, GC_LowercaseLetter);
  (R 0xa64a 0xa64a, GC_UppercaseLetter);
  (R 0xa64b 0xa64b, GC_LowercaseLetter);
  (R 0xa64c 0xa64c, GC_UppercaseLetter);
  (R 0xa64d 0xa64d, GC_LowercaseLetter);
  (R 0xa64e 0xa64e, GC_UppercaseLetter);
  (R 0xa64f 0xa64f, GC_LowercaseLetter);
  (R 0xa650 0xa650, GC_UppercaseLetter);
  (R 0xa651 0xa651, GC_LowercaseLetter);
  (R 0xa652 0xa652, GC_UppercaseLetter);
  (R 0xa653 0xa653, GC_LowercaseLetter);
  (R 0xa654 0xa654, GC_UppercaseLetter);
  (R 0xa655 0xa655, GC_LowercaseLetter);
  (R 0xa656 0xa656, GC_UppercaseLetter);
  (R 0xa657 0xa657, GC_LowercaseLetter);
  (R 0xa658 0xa658, GC_UppercaseLetter);
  (R 0xa659 0xa659, GC_LowercaseLetter);
  (R 0xa65a 0xa65a, GC_UppercaseLetter);
  (R 0xa65b 0xa65b, GC_LowercaseLetter);
  (R 0xa65c 0xa65c, GC_UppercaseLetter);
  (R 0xa65d 0xa65d, GC_LowercaseLetter);
  (R 0xa65e 0xa65e, GC_UppercaseLetter);
  (R 0xa65f 0xa65f, GC_LowercaseLetter);
  (R 0xa660 0xa660, GC_UppercaseLetter);
  (R 0xa661 0xa661, GC_LowercaseLetter);
  (R 0xa662 0xa662, GC_UppercaseLetter);
  (R 0xa663 0xa663, GC_LowercaseLetter);
  (R 0xa664 0xa664, GC_UppercaseLetter);
  (R 0xa665 0xa665, GC_LowercaseLetter);
  (R 0xa666 0xa666, GC_UppercaseLetter);
  (R 0xa667 0xa667, GC_LowercaseLetter);
  (R 0xa668 0xa668, GC_UppercaseLetter);
  (R 0xa669 0xa669, GC_LowercaseLetter);
  (R 0xa66a 0xa66a, GC_UppercaseLetter);
  (R 0xa66b 0xa66b, GC_LowercaseLetter);
  (R 0xa66c 0xa66c, GC_UppercaseLetter);
  (R 0xa66d 0xa66d, GC_LowercaseLetter);
  (R 0xa66e 0xa66e, GC_OtherLetter);
  (R 0xa66f 0xa66f, GC_NonspacingMark);
  (R 0xa670 0xa672, GC_EnclosingMark);
  (R 0xa673 0xa673, GC_OtherPunctuation);
  (R 0xa674 0xa67d, GC_NonspacingMark);
  (R 0xa67e 0xa67e, GC_OtherPunctuation);
  (R 0xa67f 0xa67f, GC_ModifierLetter);
  (R 0xa680 0xa680, GC_UppercaseLetter);
  (R 0xa681 0xa681, GC_LowercaseLetter);
  (R 0xa682 0xa682, GC_UppercaseLetter);
  (R 0xa683 0xa683, GC_LowercaseLetter);
  (R 0xa684 0xa684, GC_UppercaseLetter);
  (R 0xa685 0xa685, GC_LowercaseLetter);
  (R 0xa686 0xa686, GC_UppercaseLetter);
  (R 0xa687 0xa687, GC_LowercaseLetter);
  (R 0xa688 0xa688, GC_UppercaseLetter);
  (R 0xa689 0xa689, GC_LowercaseLetter);
  (R 0xa68a 0xa68a, GC_UppercaseLetter);
  (R 0xa68b 0xa68b, GC_LowercaseLetter);
  (R 0xa68c 0xa68c, GC_UppercaseLetter);
  (R 0xa68d 0xa68d, GC_LowercaseLetter);
  (R 0xa68e 0xa68e, GC_UppercaseLetter);
  (R 0xa68f 0xa68f, GC_LowercaseLetter);
  (R 0xa690 0xa690, GC_UppercaseLetter);
  (R 0xa691 0xa691, GC_LowercaseLetter);
  (R 0xa692 0xa692, GC_UppercaseLetter);
  (R 0xa693 0xa693, GC_LowercaseLetter);
  (R 0xa694 0xa694, GC_UppercaseLetter);
  (R 0xa695 0xa695, GC_LowercaseLetter);
  (R 0xa696 0xa696, GC_UppercaseLetter);
  (R 0xa697 0xa697, GC_LowercaseLetter);
  (R 0xa698 0xa698, GC_UppercaseLetter);
  (R 0xa699 0xa699, GC_LowercaseLetter);
  (R 0xa69a 0xa69a, GC_UppercaseLetter);
  (R 0xa69b 0xa69b, GC_LowercaseLetter);
  (R 0xa69c 0xa69d, GC_ModifierLetter);
  (R 0xa69e 0xa69f, GC_NonspacingMark);
  (R 0xa6a0 0xa6e5, GC_OtherLetter);
  (R 0xa6e6 0xa6ef, GC_LetterNumber);
  (R 0xa6f0 0xa6f1, GC_NonspacingMark);
  (R 0xa6f2 0xa6f7, GC_OtherPunctuation);
  (R 0xa700 0xa716, GC_ModifierSymbol);
  (R 0xa717 0xa71f, GC_ModifierLetter);
  (R 0xa720 0xa721, GC_ModifierSymbol);
  (R 0xa722 0xa722, GC_UppercaseLetter);
  (R 0xa723 0xa723, GC_LowercaseLetter);
  (R 0xa724 0xa724, GC_UppercaseLetter);
  (R 0xa725 0xa725, GC_LowercaseLetter);
  (R 0xa726 0xa726, GC_UppercaseLetter);
  (R 0xa727 0xa727, GC_LowercaseLetter);
  (R 0xa728 0xa728, GC_UppercaseLetter);
  (R 0xa729 0xa729, GC_LowercaseLetter);
  (R 0xa72a 0xa72a, GC_UppercaseLetter);
  (R 0xa72b 0xa72b, GC_LowercaseLetter);
  (R 0xa72c 0xa72c, GC_UppercaseLetter);
  (R 0xa72d 0xa72d, GC_LowercaseLetter);
  (R 0xa72e 0xa72e, GC_UppercaseLetter);
  (R 0xa72f 0xa731, GC_LowercaseLetter);
  (R 0xa732 0xa732, GC_UppercaseLetter);
  (R 0xa733 0xa733, GC_LowercaseLetter);
  (R 0xa734 0xa734, GC_UppercaseLetter);
  (R 0xa735 0xa735, GC_LowercaseLetter);
  (R 0xa736 0xa736, GC_UppercaseLetter);
  (R 0xa737 0xa737, GC_LowercaseLetter);
  (R 0xa738 0xa738, GC_UppercaseLetter);
  (R 0xa739 0xa739, GC_LowercaseLetter);
  (R 0xa73a 0xa73a, GC_UppercaseLetter);
  (R 0xa73b 0xa73b, GC_LowercaseLetter);
  (R 0xa73c 0xa73c, GC_UppercaseLetter);
  (R 0xa73d 0xa73d, GC_LowercaseLetter);
  (R 0xa73e 0xa73e, GC_UppercaseLetter);
  (R 0xa73f 0xa73f, GC_LowercaseLetter);
  (R 0xa740 0xa740, GC_UppercaseLetter);
  (R 0xa741 0xa741, GC_LowercaseLetter);
  (R 0xa742 0xa742, GC_UppercaseLetter);
  (R 0xa743 0xa743, GC_LowercaseLetter);
  (R 0xa744 0xa744, GC_UppercaseLetter);
  (R 0xa745 0xa745, GC_LowercaseLetter);
  (R 0xa746 0xa746, GC_UppercaseLetter);
  (R 0xa747 0xa747, GC_LowercaseLetter);
  (R 0xa748 0xa748, GC_UppercaseLetter);
  (R 0xa749 0xa749, GC_LowercaseLetter);
  (R 0xa74a 0xa74a, GC_UppercaseLetter);
  (R 0xa74b 0xa74b, GC_LowercaseLetter);
  (R 0xa74c 0xa74c, GC_UppercaseLetter);
  (R 0xa74d 0xa74d, GC_LowercaseLetter);
  (R 0xa74e 0xa74e, GC_UppercaseLetter);
  (R 0xa74f 0xa74f, GC_LowercaseLetter);
  (R 0xa750 0xa750, GC_UppercaseLetter);
  (R 0xa751 0xa751, GC_LowercaseLetter);
  (R 0xa752 0xa752, GC_UppercaseLetter);
  (R 0xa753 0xa753, GC_LowercaseLetter);
  (R 0xa754 0xa754, GC_UppercaseLetter);
  (R 0xa755 0xa755, GC_LowercaseLetter);
  (R 0xa756 0xa756, GC_UppercaseLetter);
  (R 0xa757 0xa757, GC_LowercaseLetter);
  (R 0xa758 0xa758, GC_UppercaseLetter);
  (R 0xa759 0xa759, GC_LowercaseLetter);
  (R 0xa75a 0xa75a, GC_UppercaseLetter);
  (R 0xa75b 0xa75b, GC_LowercaseLetter);
  (R 0xa75c 0xa75c, GC_UppercaseLetter);
  (R 0xa75d 0xa75d, GC_LowercaseLetter);
  (R 0xa75e 0xa75e, GC_UppercaseLetter);
  (R 0xa75f 0xa75f, GC_LowercaseLetter);
  (R 0xa760 0xa760, GC_UppercaseLetter);
  (R 0xa761 0xa761, GC_LowercaseLetter);
  (R 0xa762 0xa762, GC_UppercaseLetter);
  (R 0xa763 0xa763, GC_LowercaseLetter);
  (R 0xa764 0xa764, GC_UppercaseLetter);
  (R 0xa765 0xa765, GC_LowercaseLetter);
  (R 0xa766 0xa766, GC_UppercaseLetter);
  (R 0xa767 0xa767, GC_LowercaseLetter);
  (R 0xa768 0xa768, GC_UppercaseLetter);
  (R 0xa769 0xa769, GC_LowercaseLetter);
  (R 0xa76a 0xa76a, GC_UppercaseLetter);
  (R 0xa76b 0xa76b, GC_LowercaseLetter);
  (R 0xa76c 0xa76c, GC_UppercaseLetter);
  (R 0xa76d 0xa76d, GC_LowercaseLetter);
  (R 0xa76e 0xa76e, GC_UppercaseLetter);
  (R 0xa76f 0xa76f, GC_LowercaseLetter);
  (R 0xa770 0xa770, GC_ModifierLetter);
  (R 0xa771 0xa778, GC_LowercaseLetter);
  (R 0xa779 0xa779, GC_UppercaseLetter);
  (R 0xa77a 0xa77a, GC_LowercaseLetter);
  (R 0xa77b 0xa77b, GC_UppercaseLetter);
  (R 0xa77c 0xa77c, GC_LowercaseLetter);
  (R 0xa77d 0xa77e, GC_UppercaseLetter);
  (R 0xa77f 0xa77f, GC_LowercaseLetter);
  (R 0xa780 0xa780, GC_UppercaseLetter);
  (R 0xa781 0xa781, GC_LowercaseLetter);
  (R 0xa782 0xa782, GC_UppercaseLetter);
  (R 0xa783 0xa783, GC_LowercaseLetter);
  (R 0xa784 0xa784, GC_UppercaseLetter);
  (R 0xa785 0xa785, GC_LowercaseLetter);
  (R 0xa786 0xa786, GC_UppercaseLetter);
  (R 0xa787 0xa787, GC_LowercaseLetter);
  (R 0xa788 0xa788, GC_ModifierLetter);
  (R 0xa789 0xa78a, GC_ModifierSymbol);
  (R 0xa78b 0xa78b, GC_UppercaseLetter);
  (R 0xa78c 0xa78c, GC_LowercaseLetter);
  (R 0xa78d 0xa78d, GC_UppercaseLetter);
  (R 0xa78e 0xa78e, GC_LowercaseLetter);
  (R 0xa78f 0xa78f, GC_OtherLetter);
  (R 0xa790 0xa790, GC_UppercaseLetter);
  (R 0xa791 0xa791, GC_LowercaseLetter);
  (R 0xa792 0xa792, GC_UppercaseLetter);
  (R 0xa793 0xa795, GC_LowercaseLetter);
  (R 0xa796 0xa796, GC_UppercaseLetter);
  (R 0xa797 0xa797, GC_LowercaseLetter);
  (R 0xa798 0xa798, GC_UppercaseLetter);
  (R 0xa799 0xa799, GC_LowercaseLetter);
  (R 0xa79a 0xa79a, GC_UppercaseLetter);
  (R 0xa79b 0xa79b, GC_LowercaseLetter);
  (R 0xa79c 0xa79c, GC_UppercaseLetter);
  (R 0xa79d 0xa79d, GC_LowercaseLetter);
  (R 0xa79e 0xa79e, GC_UppercaseLetter);
  (R 0xa79f 0xa79f, GC_LowercaseLetter);
  (R 0xa7a0 0xa7a0, GC_UppercaseLetter);
  (R 0xa7a1 0xa7a1, GC_LowercaseLetter);
  (R 0xa7a2 0xa7a2, GC_UppercaseLetter);
  (R 0xa7a3 0xa7a3, GC_LowercaseLetter);
  (R 0xa7a4 0xa7a4, GC_UppercaseLetter);
  (R 0xa7a5 0xa7a5, GC_LowercaseLetter);
  (R 0xa7a6 0xa7a6, GC_UppercaseLetter);
  (R 0xa7a7 0xa7a7, GC_LowercaseLetter);
  (R 0xa7a8 0xa7a8, GC_UppercaseLetter);
  (R 0xa7a9 0xa7a9, GC_LowercaseLetter);
  (R 0xa7aa 0xa7ae, GC_UppercaseLetter);
  (R 0xa7b0 0xa7b4, GC_UppercaseLetter);
  (R 0xa7b5 0xa7b5, GC_LowercaseLetter);
  (R 0xa7b6 0xa7b6, GC_UppercaseLetter);
  (R 0xa7b7 0xa7b7, GC_LowercaseLetter);
  (R 0xa7f7 0xa7f7, GC_OtherLetter);
  (R 0xa7f8 0xa7f9, GC_ModifierLetter);
  (R 0xa7fa 0xa7fa, GC_LowercaseLetter);
  (R 0xa7fb 0xa801, GC_OtherLetter);
  (R 0xa802 0xa802, GC_NonspacingMark);
  (R 0xa803 0xa805, GC_OtherLetter);
  (R 0xa806 0xa806, GC_NonspacingMark);
  (R 0xa807 0xa80a, GC_OtherLetter);
  (R 0xa80b 0xa80b, GC_NonspacingMark);
  (R 0xa80c 0xa822, GC_OtherLetter);
  (R 0xa823 0xa824, GC_SpacingMark);
  (R 0xa825 0xa826, GC_NonspacingMark);
  (R 0xa827 0xa827, GC_SpacingMark);
  (R 0xa828 0xa82b, GC_OtherSymbol);
  (R 0xa830 0xa835, GC_OtherNumber);
  (R 0xa836 0xa837, GC_OtherSymbol);
  (R 0xa838 0xa838, GC_CurrencySymbol);
  (R 0xa839 0xa839, GC_OtherSymbol);
  (R 0xa840 0xa873, GC_OtherLetter);
  (R 0xa874 0xa877, GC_OtherPunctuation);
  (R 0xa880 0xa881, GC_SpacingMark);
  (R 0xa882 0xa8b3, GC_OtherLetter);
  (R 0xa8b4 0xa8c3, GC_SpacingMark);
  (R 0xa8c4 0xa8c5, GC_NonspacingMark);
  (R 0xa8ce 0xa8cf, GC_OtherPunctuation);
  (R 0xa8d0 0xa8d9, GC_DecimalNumber);
  (R 0xa8e0 0xa8f1, GC_NonspacingMark);
  (R 0xa8f2 0xa8f7, GC_OtherLetter);
  (R 0xa8f8 0xa8fa, GC_OtherPunctuation);
  (R 0xa8fb 0xa8fb, GC_OtherLetter);
  (R 0xa8fc 0xa8fc, GC_OtherPunctuation);
  (R 0xa8fd 0xa8fd, GC_OtherLetter);
  (R 0xa900 0xa909, GC_DecimalNumber);
  (R 0xa90a 0xa925, GC_OtherLetter);
  (R 0xa926 0xa92d, GC_NonspacingMark);
  (R 0xa92e 0xa92f, GC_OtherPunctuation);
  (R 0xa930 0xa946, GC_OtherLetter);
  (R 0xa947 0xa951, GC_NonspacingMark);
  (R 0xa952 0xa953, GC_SpacingMark);
  (R 0xa95f 0xa95f, GC_OtherPunctuation);
  (R 0xa960 0xa97c, GC_OtherLetter);
  (R 0xa980 0xa982, GC_NonspacingMark);
  (R 0xa983 0xa983, GC_SpacingMark);
  (R 0xa984 0xa9b2, GC_OtherLetter);
  (R 0xa9b3 0xa9b3, GC_NonspacingMark);
  (R 0xa9b4 0xa9b5, GC_SpacingMark);
  (R 0xa9b6 0xa9b9, GC_NonspacingMark);
  (R 0xa9ba 0xa9bb, GC_SpacingMark);
  (R 0xa9bc 0xa9bc, GC_NonspacingMark);
  (R 0xa9bd 0xa9c0, GC_SpacingMark);
  (R 0xa9c1 0xa9cd, GC_OtherPunctuation);
  (R 0xa9cf 0xa9cf, GC_ModifierLetter);
  (R 0xa9d0 0xa9d9, GC_DecimalNumber);
  (R 0xa9de 0xa9df, GC_OtherPunctuation);
  (R 0xa9e0 0xa9e4, GC_OtherLetter);
  (R 0xa9e5 0xa9e5, GC_NonspacingMark);
  (R 0xa9e6 0xa9e6, GC_ModifierLetter);
  (R 0xa9e7 0xa9ef, GC_OtherLetter);
  (R 0xa9f0 0xa9f9, GC_DecimalNumber);
  (R 0xa9fa 0xa9fe, GC_OtherLetter);
  (R 0xaa00 0xaa28, GC_OtherLetter);
  (R 0xaa29 0xaa2e, GC_NonspacingMark);
  (R 0xaa2f 0xaa30, GC_SpacingMark);
  (R 0xaa31 0xaa32, GC_NonspacingMark);
  (R 0xaa33 0xaa34, GC_SpacingMark);
  (R 0xaa35 0xaa36, GC_NonspacingMark);
  (R 0xaa40 0xaa42, GC_OtherLetter);
  (R 0xaa43 0xaa43, GC_NonspacingMark);
  (R 0xaa44 0xaa4b, GC_OtherLetter);
  (R 0xaa4c 0xaa4c, GC_NonspacingMark);
  (R 0xaa4d 0xaa4d, GC_SpacingMark);
  (R 0xaa50 0xaa59, GC_DecimalNumber);
  (R 0xaa5c 0xaa5f, GC_OtherPunctuation);
  (R 0xaa60 0xaa6f, GC_OtherLetter);
  (R 0xaa70 0xaa70, GC_ModifierLetter);
  (R 0xaa71 0xaa76, GC_OtherLetter);
  (R 0xaa77 0xaa79, GC_OtherSymbol);
  (R 0xaa7a 0xaa7a, GC_OtherLetter);
  (R 0xaa7b 0xaa7b, GC_SpacingMark);
  (R 0xaa7c 0xaa7c, GC_NonspacingMark);
  (R 0xaa7d 0xaa7d, GC_SpacingMark);
  (R 0xaa7e 0xaaaf, GC_OtherLetter);
  (R 0xaab0 0xaab0, GC_NonspacingMark);
  (R 0xaab1 0xaab1, GC_OtherLetter);
  (R 0xaab2 0xaab4, GC_NonspacingMark);
  (R 0xaab5 0xaab6, GC_OtherLetter);
  (R 0xaab7 0xaab8, GC_NonspacingMark);
  (R 0xaab9 0xaabd, GC_OtherLetter);
  (R 0xaabe 0xaabf, GC_NonspacingMark);
  (R 0xaac0 0xaac0, GC_OtherLetter);
  (R 0xaac1 0xaac1, GC_NonspacingMark);
  (R 0xaac2 0xaac2, GC_OtherLetter);
  (R 0xaadb 0xaadc, GC_OtherLetter);
  (R 0xaadd 0xaadd, GC_ModifierLetter);
  (R 0xaade 0xaadf, GC_OtherPunctuation);
  (R 0xaae0 0xaaea, GC_OtherLetter);
  (R 0xaaeb 0xaaeb, GC_SpacingMark);
  (R 0xaaec 0xaaed, GC_NonspacingMark);
  (R 0xaaee 0xaaef, GC_SpacingMark);
  (R 0xaaf0 0xaaf1, GC_OtherPunctuation);
  (R 0xaaf2 0xaaf2, GC_OtherLetter);
  (R 0xaaf3 0xaaf4, GC_ModifierLetter);
  (R 0xaaf5 0xaaf5, GC_SpacingMark);
  (R 0xaaf6 0xaaf6, GC_NonspacingMark);
  (R 0xab01 0xab06, GC_OtherLetter);
  (R 0xab09 0xab0e, GC_OtherLetter);
  (R 0xab11 0xab16, GC_OtherLetter);
  (R 0xab20 0xab26, GC_OtherLetter);
  (R 0xab28 0xab2e, GC_OtherLetter);
  (R 0xab30 0xab5a, GC_LowercaseLetter);
  (R 0xab5b 0xab5b, GC_ModifierSymbol);
  (R 0xab5c 0xab5f, GC_ModifierLetter);
  (R 0xab60 0xab65, GC_LowercaseLetter);
  (R 0xab70 0xabbf, GC_LowercaseLetter);
  (R 0xabc0 0xabe2, GC_OtherLetter);
  (R 0xabe3 0xabe4, GC_SpacingMark);
  (R 0xabe5 0xabe5, GC_NonspacingMark);
  (R 0xabe6 0xabe7, GC_SpacingMark);
  (R 0xabe8 0xabe8, GC_NonspacingMark);
  (R 0xabe9 0xabea, GC_SpacingMark);
  (R 0xabeb 0xabeb, GC_OtherPunctuation);
  (R 0xabec 0xabec, GC_SpacingMark);
  (R 0xabed 0xabed, GC_NonspacingMark);
  (R 0xabf0 0xabf9, GC_DecimalNumber);
  (R 0xac00 0xd7a3, GC_OtherLetter);
  (R 0xd7b0 0xd7c6, GC_OtherLetter);
  (R 0xd7cb 0xd7fb, GC_OtherLetter);
  (R 0xe000 0xf8ff, GC_PrivateUse);
  (R 0xf900 0xfa6d, GC_OtherLetter);
  (R 0xfa70 0xfad9, GC_OtherLetter);
  (R 0xfb00 0xfb06, GC_LowercaseLetter);
  (R 0xfb13 0xfb17, GC_LowercaseLetter);
  (R 0xfb1d 0xfb1d, GC_OtherLetter);
  (R 0xfb1e 0xfb1e, GC_NonspacingMark);
  (R 0xfb1f 0xfb28, GC_OtherLetter);
  (R 0xfb29 0xfb29, GC_MathSymbol);
  (R 0xfb2a 0xfb36, GC_OtherLetter);
  (R 0xfb38 0xfb3c, GC_OtherLetter);
  (R 0xfb3e 0xfb3e, GC_OtherLetter);
  (R 0xfb40 0xfb41, GC_OtherLetter);
  (R 0xfb43 0xfb44, GC_OtherLetter);
  (R 0xfb46 0xfbb1, GC_OtherLetter);
  (R 0xfbb2 0xfbc1, GC_ModifierSymbol);
  (R 0xfbd3 0xfd3d, GC_OtherLetter);
  (R 0xfd3e 0xfd3e, GC_ClosePunctuation);
  (R 0xfd3f 0xfd3f, GC_OpenPunctuation);
  (R 0xfd50 0xfd8f, GC_OtherLetter);
  (R 0xfd92 0xfdc7, GC_OtherLetter);
  (R 0xfdf0 0xfdfb, GC_OtherLetter);
  (R 0xfdfc 0xfdfc, GC_CurrencySymbol);
  (R 0xfdfd 0xfdfd, GC_OtherSymbol);
  (R 0xfe00 0xfe0f, GC_NonspacingMark);
  (R 0xfe10 0xfe16, GC_OtherPunctuation);
  (R 0xfe17 0xfe17, GC_OpenPunctuation);
  (R 0xfe18 0xfe18, GC_ClosePunctuation)].

Definition GENERAL_CATEGORY_6 : list (CharRange * GeneralCategory) := [
  (R 0xfe19 0xfe19, GC_OtherPunctuation);
  (R 0xfe20 0xfe2f, GC_NonspacingMark);
  (R 0xfe30 0xfe30, GC_OtherPunctuation);
  (R 0xfe31 0xfe32, GC_DashPunctuation);
  (R 0xfe33 0xfe34, GC_ConnectorPunctuation);
  (R 0xfe35 0xfe35, GC_OpenPunctuation);
  (R 0xfe36 0xfe36, GC_ClosePunctuation);
  (R 0xfe37 0xfe37, GC_OpenPunctuation);
  (R 0xfe38 0xfe38, GC_ClosePunctuation);
  (R 0xfe39 0xfe39, GC_OpenPunctuation);
  (R 0xfe3a 0xfe3a, GC_ClosePunctuation);
  (R 0xfe3b 0xfe3b, GC_OpenPunctuation);
  (R 0xfe3c 0xfe3c, GC_ClosePunctuation);
  (R 0xfe3d 0xfe3d, GC_OpenPunctuation);
  (R 0xfe3e 0xfe3e, GC_ClosePunctuation);
  (R 0xfe3f 0xfe3f, GC_OpenPunctuation);
  (R 0xfe40 0xfe40, GC_ClosePunctuation);
  (R 0xfe41 0xfe41, GC_OpenPunctuation);
  (R 0xfe42 0xfe42, GC_ClosePunctuation);
  (R 0xfe43 0xfe43, GC_OpenPunctuation);
  (R 0xfe44 0xfe44, GC_ClosePunctuation);
  (R 0xfe45 0xfe46, GC_OtherPunctuation);
  (R 0xfe47 0xfe47, GC_OpenPunctuation);
  (R 0xfe48 0xfe48, GC_ClosePunctuation);
  (R 0xfe49 0xfe4c, GC_OtherPunctuation);
  (R 0xfe4d 0xfe4f, GC_ConnectorPunctuation);
  (R 0xfe50 0xfe52, GC_OtherPunctuation);
  (R 0xfe54 0xfe57, GC_OtherPunctuation);
  (R 0xfe58 0xfe58, GC_DashPunctuation);
  (R 0xfe59 0xfe59, GC_OpenPunctuation);
  (R 0xfe5a 0xfe5a, GC_ClosePunctuation);
  (R 0xfe5b 0xfe5b, GC_OpenPunctuation);
  (R 0xfe5c 0xfe5c, GC_ClosePunctuation);
  (R 0xfe5d 0xfe5d, GC_OpenPunctuation);
  (R 0xfe5e 0xfe5e, GC_ClosePunctuation);
  (R 0xfe5f 0xfe61, GC_OtherPunctuation);
  (R 0xfe62 0xfe62, GC_MathSymbol);
  (R 0xfe63 0xfe63, GC_DashPunctuation);
  (R 0xfe64 0xfe66, GC_MathSymbol);
  (R 0xfe68 0xfe68, GC_OtherPunctuation);
  (R 0xfe69 0xfe69, GC_CurrencySymbol);
  (R 0xfe6a 0xfe6b, GC_OtherPunctuation);
  (R 0xfe70 0xfe74, GC_OtherLetter);
  (R 0xfe76 0xfefc, GC_OtherLetter);
  (R 0xfeff 0xfeff, GC_Format);
  (R 0xff01 0xff03, GC_OtherPunctuation);
  (R 0xff04 0xff04, GC_CurrencySymbol);
  (R 0xff05 0xff07, GC_OtherPunctuation);
  (R 0xff08 0xff08, GC_OpenPunctuation);
  (R 0xff09 0xff09, GC_ClosePunctuation);
  (R 0xff0a 0xff0a, GC_OtherPunctuation);
  (R 0xff0b 0xff0b, GC_MathSymbol);
  (R 0xff0c 0xff0c, GC_OtherPunctuation);
  (R 0xff0d 0xff0d, GC_DashPunctuation);
  (R 0xff0e 0xff0f, GC_OtherPunctuation);
  (R 0xff10 0xff19, GC_DecimalNumber);
  (R 0xff1a 0xff1b, GC_OtherPunctuation);
  (R 0xff1c 0xff1e, GC_MathSymbol);
  (R 0xff1f 0xff20, GC_OtherPunctuation);
  (R 0xff21 0xff3a, GC_UppercaseLetter);
  (R 0xff3b 0xff3b, GC_OpenPunctuation);
  (R 0xff3c 0xff3c, GC_OtherPunctuation);
  (R 0xff3d 0xff3d, GC_ClosePunctuation);
  (R 0xff3e 0xff3e, GC_ModifierSymbol);
  (R 0xff3f 0xff3f, GC_ConnectorPunctuation);
  (R 0xff40 0xff40, GC_ModifierSymbol);
  (R 0xff41 0xff5a, GC_LowercaseLetter);
  (R 0xff5b 0xff5b, GC_OpenPunctuation);
  (R 0xff5c 0xff5c, GC_MathSymbol);
  (R 0xff5d 0xff5d, GC_ClosePunctuation);
  (R 0xff5e 0xff5e, GC_MathSymbol);
  (R 0xff5f 0xff5f, GC_OpenPunctuation);
  (R 0xff60 0xff60, GC_ClosePunctuation);
  (R 0xff61 0xff61, GC_OtherPunctuation);
  (R 0xff62 0xff62, GC_OpenPunctuation);
  (R 0xff63 0xff63, GC_ClosePunctuation);
  (R 0xff64 0xff65, GC_OtherPunctuation);
  (R 0xff66 0xff6f, GC_OtherLetter);
  (R 0xff70 0xff70, GC_ModifierLetter);
  (R 0xff71 0xff9d, GC_OtherLetter);
  (R 0xff9e 0xff9f, GC_ModifierLetter);
  (R 0xffa0 0xffbe, GC_OtherLetter);
  (R 0xffc2 0xffc7, GC_OtherLetter);
  (R 0xffca 0xffcf, GC_OtherLetter);
  (R 0xffd2 0xffd7, GC_OtherLetter);
  (R 0xffda 0xffdc, GC_OtherLetter);
  (R 0xffe0 0xffe1, GC_CurrencySymbol);
  (R 0xffe2 0xffe2, GC_MathSymbol);
  (R 0xffe3 0xffe3, GC_ModifierSymbol);
  (R 0xffe4 0xffe4, GC_OtherSymbol);
  (R 0xffe5 0xffe6, GC_CurrencySymbol);
  (R 0xffe8 0xffe8, GC_OtherSymbol);
  (R 0xffe9 0xffec, GC_MathSymbol);
  (R 0xffed 0xffee, GC_OtherSymbol);
  (R 0xfff9 0xfffb, GC_Format);
  (R 0xfffc 0xfffd, GC_OtherSymbol);
  (R 0x10000 0x1000b, GC_OtherLetter);
  (R 0x1000d 0x10026, GC_OtherLetter);
  (R 0x10028 0x1003a, GC_OtherLetter);
  (R 0x1003c 0x1003d, GC_OtherLetter);
  (R 0x1003f 0x1004d, GC_OtherLetter);
  (R 0x10050 0x1005d, GC_OtherLetter);
  (R 0x10080 0x100fa, GC_OtherLetter);
  (R 0x10100 0x10102, GC_OtherPunctuation);
  (R 0x10107 0x10133, GC_OtherNumber);
  (R 0x10137 0x1013f, GC_OtherSymbol);
  (R 0x10140 0x10174, GC_LetterNumber);
  (R 0x10175 0x10178, GC_OtherNumber);
  (R 0x10179 0x10189, GC_OtherSymbol);
  (R 0x1018a 0x1018b, GC_OtherNumber);
  (R 0x1018c 0x1018e, GC_OtherSymbol);
  (R 0x10190 0x1019b, GC_OtherSymbol);
  (R 0x101a0 0x101a0, GC_OtherSymbol);
  (R 0x101d0 0x101fc, GC_OtherSymbol);
  (R 0x101fd 0x101fd, GC_NonspacingMark);
  (R 0x10280 0x1029c, GC_OtherLetter);
  (R 0x102a0 0x102d0, GC_OtherLetter);
  (R 0x102e0 0x102e0, GC_NonspacingMark);
  (R 0x102e1 0x102fb, GC_OtherNumber);
  (R 0x10300 0x1031f, GC_OtherLetter);
  (R 0x10320 0x10323, GC_OtherNumber);
  (R 0x1032d 0x10340, GC_OtherLetter);
  (R 0x10341 0x10341, GC_LetterNumber);
  (R 0x10342 0x10349, GC_OtherLetter);
  (R 0x1034a 0x1034a, GC_LetterNumber);
  (R 0x10350 0x10375, GC_OtherLetter);
  (R 0x10376 0x1037a, GC_NonspacingMark);
  (R 0x10380 0x1039d, GC_OtherLetter);
  (R 0x1039f 0x1039f, GC_OtherPunctuation);
  (R 0x103a0 0x103c3, GC_OtherLetter);
  (R 0x103c8 0x103cf, GC_OtherLetter);
  (R 0x103d0 0x103d0, GC_OtherPunctuation);
  (R 0x103d1 0x103d5, GC_LetterNumber);
  (R 0x10400 0x10427, GC_UppercaseLetter);
  (R 0x10428 0x1044f, GC_LowercaseLetter);
  (R 0x10450 0x1049d, GC_OtherLetter);
  (R 0x104a0 0x104a9, GC_DecimalNumber);
  (R 0x104b0 0x104d3, GC_UppercaseLetter);
  (R 0x104d8 0x104fb, GC_LowercaseLetter);
  (R 0x10500 0x10527, GC_OtherLetter);
  (R 0x10530 0x10563, GC_OtherLetter);
  (R 0x1056f 0x1056f, GC_OtherPunctuation);
  (R 0x10600 0x10736, GC_OtherLetter);
  (R 0x10740 0x10755, GC_OtherLetter);
  (R 0x10760 0x10767, GC_OtherLetter);
  (R 0x10800 0x10805, GC_OtherLetter);
  (R 0x10808 0x10808, GC_OtherLetter);
  (R 0x1080a 0x10835, GC_OtherLetter);
  (R 0x10837 0x10838, GC_OtherLetter);
  (R 0x1083c 0x1083c, GC_OtherLetter);
  (R 0x1083f 0x10855, GC_OtherLetter);
  (R 0x10857 0x10857, GC_OtherPunctuation);
  (R 0x10858 0x1085f, GC_OtherNumber);
  (R 0x10860 0x10876, GC_OtherLetter);
  (R 0x10877 0x10878, GC_OtherSymbol);
  (R 0x10879 0x1087f, GC_OtherNumber);
  (R 0x10880 0x1089e, GC_OtherLetter);
  (R 0x108a7 0x108af, GC_OtherNumber);
  (R 0x108e0 0x108f2, GC_OtherLetter);
  (R 0x108f4 0x108f5, GC_OtherLetter);
  (R 0x108fb 0x108ff, GC_OtherNumber);
  (R 0x10900 0x10915, GC_OtherLetter);
  (R 0x10916 0x1091b, GC_OtherNumber);
  (R 0x1091f 0x1091f, GC_OtherPunctuation);
  (R 0x10920 0x10939, GC_OtherLetter);
  (R 0x1093f 0x1093f, GC_OtherPunctuation);
  (R 0x10980 0x109b7, GC_OtherLetter);
  (R 0x109bc 0x109bd, GC_OtherNumber);
  (R 0x109be 0x109bf, GC_OtherLetter);
  (R 0x109c0 0x109cf, GC_OtherNumber);
  (R 0x109d2 0x109ff, GC_OtherNumber);
  (R 0x10a00 0x10a00, GC_OtherLetter);
  (R 0x10a01 0x10a03, GC_NonspacingMark);
  (R 0x10a05 0x10a06, GC_NonspacingMark);
  (R 0x10a0c 0x10a0f, GC_NonspacingMark);
  (R 0x10a10 0x10a13, GC_OtherLetter);
  (R 0x10a15 0x10a17, GC_OtherLetter);
  (R 0x10a19 0x10a33, GC_OtherLetter);
  (R 0x10a38 0x10a3a, GC_NonspacingMark);
  (R 0x10a3f 0x10a3f, GC_NonspacingMark);
  (R 0x10a40 0x10a47, GC_OtherNumber);
  (R 0x10a50 0x10a58, GC_OtherPunctuation);
  (R 0x10a60 0x10a7c, GC_OtherLetter);
  (R 0x10a7d 0x10a7e, GC_OtherNumber);
  (R 0x10a7f 0x10a7f, GC_OtherPunctuation);
  (R 0x10a80 0x10a9c, GC_OtherLetter);
  (R 0x10a9d 0x10a9f, GC_OtherNumber);
  (R 0x10ac0 0x10ac7, GC_OtherLetter);
  (R 0x10ac8 0x10ac8, GC_OtherSymbol);
  (R 0x10ac9 0x10ae4, GC_OtherLetter);
  (R 0x10ae5 0x10ae6, GC_NonspacingMark);
  (R 0x10aeb 0x10aef, GC_OtherNumber);
  (R 0x10af0 0x10af6, GC_OtherPunctuation);
  (R 0x10b00 0x10b35, GC_OtherLetter);
  (R 0x10b39 0x10b3f, GC_OtherPunctuation);
  (R 0x10b40 0x10b55, GC_OtherLetter);
  (R 0x10b58 0x10b5f, GC_OtherNumber);
  (R 0x10b60 0x10b72, GC_OtherLetter);
  (R 0x10b78 0x10b7f, GC_OtherNumber);
  (R 0x10b80 0x10b91, GC_OtherLetter);
  (R 0x10b99 0x10b9c, GC_OtherPunctuation);
  (R 0x10ba9 0x10baf, GC_OtherNumber);
  (R 0x10c00 0x10c48, GC_OtherLetter);
  (R 0x10c80 0x10cb2, GC_UppercaseLetter);
  (R 0x10cc0 0x10cf2, GC_LowercaseLetter);
  (R 0x10cfa 0x10cff, GC_OtherNumber);
  (R 0x10e60 0x10e7e, GC_OtherNumber);
  (R 0x11000 0x11000, GC_SpacingMark);
  (R 0x11001 0x11001, GC_NonspacingMark);
  (R 0x11002 0x11002, GC_SpacingMark);
  (R 0x11003 0x11037, GC_OtherLetter);
  (R 0x11038 0x11046, GC_NonspacingMark);
  (R 0x11047 0x1104d, GC_OtherPunctuation);
  (R 0x11052 0x11065, GC_OtherNumber);
  (R 0x11066 0x1106f, GC_DecimalNumber);
  (R 0x1107f 0x11081, GC_NonspacingMark);
  (R 0x11082 0x11082, GC_SpacingMark);
  (R 0x11083 0x110af, GC_OtherLetter);
  (R 0x110b0 0x110b2, GC_SpacingMark);
  (R 0x110b3 0x110b6, GC_NonspacingMark);
  (R 0x110b7 0x110b8, GC_SpacingMark);
  (R 0x110b9 0x110ba, GC_NonspacingMark);
  (R 0x110bb 0x110bc, GC_OtherPunctuation);
  (R 0x110bd 0x110bd, GC_Format);
  (R 0x110be 0x110c1, GC_OtherPunctuation);
  (R 0x110d0 0x110e8, GC_OtherLetter);
  (R 0x110f0 0x110f9, GC_DecimalNumber);
  (R 0x11100 0x11102, GC_NonspacingMark);
  (R 0x11103 0x11126, GC_OtherLetter);
  (R 0x11127 0x1112b, GC_NonspacingMark);
  (R 0x1112c 0x1112c, GC_SpacingMark);
  (R 0x1112d 0x11134, GC_NonspacingMark);
  (R 0x11136 0x1113f, GC_DecimalNumber);
  (R 0x11140 0x11143, GC_OtherPunctuation);
  (R 0x11150 0x11172, GC_OtherLetter);
  (R 0x11173 0x11173, GC_NonspacingMark);
  (R 0x11174 0x11175, GC_OtherPunctuation);
  (R 0x11176 0x11176, GC_OtherLetter);
  (R 0x11180 0x11181, GC_NonspacingMark);
  (R 0x11182 0x11182, GC_SpacingMark);
  (R 0x11183 0x111b2, GC_OtherLetter);
  (R 0x111b3 0x111b5, GC_SpacingMark);
  (R 0x111b6 0x111be, GC_NonspacingMark);
  (R 0x111bf 0x111c0, GC_SpacingMark);
  (R 0x111c1 0x111c4, GC_OtherLetter);
  (R 0x111c5 0x111c9, GC_OtherPunctuation);
  (R 0x111ca 0x111cc, GC_NonspacingMark);
  (R 0x111cd 0x111cd, GC_OtherPunctuation);
  (R 0x111d0 0x111d9, GC_DecimalNumber);
  (R 0x111da 0x111da, GC_OtherLetter);
  (R 0x111db 0x111db, GC_OtherPunctuation);
  (R 0x111dc 0x111dc, GC_OtherLetter);
  (R 0x111dd 0x111df, GC_OtherPunctuation);
  (R 0x111e1 0x111f4, GC_OtherNumber);
  (R 0x11200 0x11211, GC_OtherLetter);
  (R 0x11213 0x1122b, GC_OtherLetter);
  (R 0x1122c 0x1122e, GC_SpacingMark);
  (R 0x1122f 0x11231, GC_NonspacingMark);
  (R 0x11232 0x11233, GC_SpacingMark);
  (R 0x11234 0x11234, GC_NonspacingMark);
  (R 0x11235 0x11235, GC_SpacingMark);
  (R 0x11236 0x11237, GC_NonspacingMark);
  (R 0x11238 0x1123d, GC_OtherPunctuation);
  (R 0x1123e 0x1123e, GC_NonspacingMark);
  (R 0x11280 0x11286, GC_OtherLetter);
  (R 0x11288 0x11288, GC_OtherLetter);
  (R 0x1128a 0x1128d, GC_OtherLetter);
  (R 0x1128f 0x1129d, GC_OtherLetter);
  (R 0x1129f 0x112a8, GC_OtherLetter);
  (R 0x112a9 0x112a9, GC_OtherPunctuation);
  (R 0x112b0 0x112de, GC_OtherLetter);
  (R 0x112df 0x112df, GC_NonspacingMark);
  (R 0x112e0 0x112e2, GC_SpacingMark);
  (R 0x112e3 0x112ea, GC_NonspacingMark);
  (R 0x112f0 0x112f9, GC_DecimalNumber);
  (R 0x11300 0x11301, GC_NonspacingMark);
  (R 0x11302 0x11303, GC_SpacingMark);
  (R 0x11305 0x1130c, GC_OtherLetter);
  (R 0x1130f 0x11310, GC_OtherLetter);
  (R 0x11313 0x11328, GC_OtherLetter);
  (R 0x1132a 0x11330, GC_OtherLetter);
  (R 0x11332 0x11333, GC_OtherLetter);
  (R 0x11335 0x11339, GC_OtherLetter);
  (R 0x1133c 0x1133c, GC_NonspacingMark);
  (R 0x1133d 0x1133d, GC_OtherLetter);
  (R 0x1133e 0x1133f, GC_SpacingMark);
  (R 0x11340 0x11340, GC_NonspacingMark);
  (R 0x11341 0x11344, GC_SpacingMark);
  (R 0x11347 0x11348, GC_SpacingMark);
  (R 0x1134b 0x1134d, GC_SpacingMark);
  (R 0x11350 0x11350, GC_OtherLetter);
  (R 0x11357 0x11357, GC_SpacingMark);
  (R 0x1135d 0x11361, GC_OtherLetter);
  (R 0x11362 0x11363, GC_SpacingMark);
  (R 0x11366 0x1136c, GC_NonspacingMark);
  (R 0x11370 0x11374, GC_NonspacingMark);
  (R 0x11400 0x11434, GC_OtherLetter);
  (R 0x11435 0x11437, GC_SpacingMark);
  (R 0x11438 0x1143f, GC_NonspacingMark);
  (R 0x11440 0x11441, GC_SpacingMark);
  (R 0x11442 0x11444, GC_NonspacingMark);
  (R 0x11445 0x11445, GC_SpacingMark);
  (R 0x11446 0x11446, GC_NonspacingMark);
  (R 0x11447 0x1144a, GC_OtherLetter);
  (R 0x1144b 0x1144f, GC_OtherPunctuation);
  (R 0x11450 0x11459, GC_DecimalNumber);
  (R 0x1145b 0x1145b, GC_OtherPunctuation);
  (R 0x1145d 0x1145d, GC_OtherPunctuation);
  (R 0x11480 0x114af, GC_OtherLetter);
  (R 0x114b0 0x114b2, GC_SpacingMark);
  (R 0x114b3 0x114b8, GC_NonspacingMark);
  (R 0x114b9 0x114b9, GC_SpacingMark);
  (R 0x114ba 0x114ba, GC_NonspacingMark);
  (R 0x114bb 0x114be, GC_SpacingMark);
  (R 0x114bf 0x114c0, GC_NonspacingMark);
  (R 0x114c1 0x114c1, GC_SpacingMark);
  (R 0x114c2 0x114c3, GC_NonspacingMark);
  (R 0x114c4 0x114c5, GC_OtherLetter);
  (R 0x114c6 0x114c6, GC_OtherPunctuation);
  (R 0x114c7 0x114c7, GC_OtherLetter);
  (R 0x114d0 0x114d9, GC_DecimalNumber);
  (R 0x11580 0x115ae, GC_OtherLetter);
  (R 0x115af 0x115b1, GC_SpacingMark);
  (R 0x115b2 0x115b5, GC_NonspacingMark);
  (R 0x115b8 0x115bb, GC_SpacingMark);
  (R 0x115bc 0x115bd, GC_NonspacingMark);
  (R 0x115be 0x115be, GC_SpacingMark);
  (R 0x115bf 0x115c0, GC_NonspacingMark);
  (R 0x115c1 0x115d7, GC_OtherPunctuation);
  (R 0x115d8 0x115db, GC_OtherLetter);
  (R 0x115dc 0x115dd, GC_NonspacingMark);
  (R 0x11600 0x1162f, GC_OtherLetter);
  (R 0x11630 0x11632, GC_SpacingMark);
  (R 0x11633 0x1163a, GC_NonspacingMark);
  (R 0x1163b 0x1163c, GC_SpacingMark);
  (R 0x1163d 0x1163d, GC_NonspacingMark);
  (R 0x1163e 0x1163e, GC_SpacingMark);
  (R 0x1163f 0x11640, GC_NonspacingMark);
  (R 0x11641 0x11643, GC_OtherPunctuation);
  (R 0x11644 0x11644, GC_OtherLetter);
  (R 0x11650 0x11659, GC_DecimalNumber);
  (R 0x11660 0x1166c, GC_OtherPunctuation);
  (R 0x11680 0x116aa, GC_OtherLetter);
  (R 0x116ab 0x116ab, GC_NonspacingMark);
  (R 0x116ac 0x116ac, GC_SpacingMark);
  (R 0x116ad 0x116ad, GC_NonspacingMark);
  (R 0x116ae 0x116af, GC_SpacingMark);
  (R 0x116b0 0x116b5, GC_NonspacingMark);
  (R 0x116b6 0x116b6, GC_SpacingMark);
  (R 0x116b7 0x116b7, GC_NonspacingMark);
  (R 0x116c0 0x116c9, GC_DecimalNumber);
  (R 0x11700 0x11719, GC_OtherLetter);
  (R 0x1171d 0x1171f, GC_NonspacingMark);
  (R 0x11720 0x11721, GC_SpacingMark);
  (R 0x11722 0x11725, GC_NonspacingMark);
  (R 0x11726 0x11726, GC_SpacingMark);
  (R 0x11727 0x1172b, GC_NonspacingMark);
  (R 0x11730 0x11739, GC_DecimalNumber);
  (R 0x1173a 0x1173b, GC_OtherNumber);
  (R 0x1173c 0x1173e, GC_OtherPunctuation);
  (R 0x1173f 0x1173f, GC_OtherSymbol);
  (R 0x118a0 0x118bf, GC_UppercaseLetter);
  (R 0x118c0 0x118df, GC_LowercaseLetter);
  (R 0x118e0 0x118e9, GC_DecimalNumber);
  (R 0x118ea 0x118f2, GC_OtherNumber);
  (R 0x118ff 0x118ff, GC_OtherLetter);
  (R 0x11a00 0x11a00, GC_OtherLetter);
  (R 0x11a01 0x11a06, GC_NonspacingMark);
  (R 0x11a07 0x11a08, GC_SpacingMark);
  (R 0x11a09 0x11a0a, GC_NonspacingMark);
  (R 0x11a0b 0x11a32, GC_OtherLetter);
  (R 0x11a33 0x11a38, GC_NonspacingMark);
  (R 0x11a39 0x11a39, GC_SpacingMark);
  (R 0x11a3a 0x11a3a, GC_OtherLetter);
  (R 0x11a3b 0x11a3e, GC_NonspacingMark);
  (R 0x11a3f 0x11a46, GC_OtherPunctuation);
  (R 0x11a47 0x11a47, GC_NonspacingMark);
  (R 0x11a50 0x11a50, GC_OtherLetter);
  (R 0x11a51 0x11a56, GC_NonspacingMark);
  (R 0x11a57 0x11a58, GC_SpacingMark);
  (R 0x11a59 0x11a5b, GC_NonspacingMark);
  (R 0x11a5c 0x11a83, GC_OtherLetter);
  (R 0x11a86 0x11a89, GC_OtherLetter);
  (R 0x11a8a 0x11a96, GC_NonspacingMark);
  (R 0x11a97 0x11a97, GC_SpacingMark);
  (R 0x11a98 0x11a99, GC_NonspacingMark);
  (R 0x11a9a 0x11a9c, GC_OtherPunctuation);
  (R 0x11a9e 0x11aa2, GC_OtherPunctuation);
  (R 0x11ac0 0x11af8, GC_OtherLetter);
  (R 0x11c00 0x11c08, GC_OtherLetter);
  (R 0x11c0a 0x11c2e, GC_OtherLetter);
  (R 0x11c2f 0x11c2f, GC_SpacingMark);
  (R 0x11c30 0x11c36, GC_NonspacingMark);
  (R 0x11c38 0x11c3d, GC_NonspacingMark);
  (R 0x11c3e 0x11c3e, GC_SpacingMark);
  (R 0x11c3f 0x11c3f, GC_NonspacingMark);
  (R 0x11c40 0x11c40, GC_OtherLetter);
  (R 0x11c41 0x11c45, GC_OtherPunctuation);
  (R 0x11c50 0x11c59, GC_DecimalNumber);
  (R 0x11c5a 0x11c6c, GC_OtherNumber)].

Definition GENERAL_CATEGORY_7 : list (CharRange * GeneralCategory) := [
  (R 0x11c70 0x11c71, GC_OtherPunctuation);
  (R 0x11c72 0x11c8f, GC_OtherLetter);
  (R 0x11c92 0x11ca7, GC_NonspacingMark);
  (R 0x11ca9 0x11ca9, GC_SpacingMark);
  (R 0x11caa 0x11cb0, GC_NonspacingMark);
  (R 0x11cb1 0x11cb1, GC_SpacingMark);
  (R 0x11cb2 0x11cb3, GC_NonspacingMark);
  (R 0x11cb4 0x11cb4, GC_SpacingMark);
  (R 0x11cb5 0x11cb6, GC_NonspacingMark);
  (R 0x11d00 0x11d06, GC_OtherLetter);
  (R 0x11d08 0x11d09, GC_OtherLetter);
  (R 0x11d0b 0x11d30, GC_OtherLetter);
  (R 0x11d31 0x11d36, GC_NonspacingMark);
  (R 0x11d3a 0x11d3a, GC_NonspacingMark);
  (R 0x11d3c 0x11d3d, GC_NonspacingMark);
  (R 0x11d3f 0x11d45, GC_NonspacingMark);
  (R 0x11d46 0x11d46, GC_OtherLetter);
  (R 0x11d47 0x11d47, GC_NonspacingMark);
  (R 0x11d50 0x11d59, GC_DecimalNumber);
  (R 0x12000 0x12399, GC_OtherLetter);
  (R 0x12400 0x1246e, GC_LetterNumber);
  (R 0x12470 0x12474, GC_OtherPunctuation);
  (R 0x12480 0x12543, GC_OtherLetter);
  (R 0x13000 0x1342e, GC_OtherLetter);
  (R 0x14400 0x14646, GC_OtherLetter);
  (R 0x16800 0x16a38, GC_OtherLetter);
  (R 0x16a40 0x16a5e, GC_OtherLetter);
  (R 0x16a60 0x16a69, GC_DecimalNumber);
  (R 0x16a6e 0x16a6f, GC_OtherPunctuation);
  (R 0x16ad0 0x16aed, GC_OtherLetter);
  (R 0x16af0 0x16af4, GC_NonspacingMark);
  (R 0x16af5 0x16af5, GC_OtherPunctuation);
  (R 0x16b00 0x16b2f, GC_OtherLetter);
  (R 0x16b30 0x16b36, GC_NonspacingMark);
  (R 0x16b37 0x16b3b, GC_OtherPunctuation);
  (R 0x16b3c 0x16b3f, GC_OtherSymbol);
  (R 0x16b40 0x16b43, GC_ModifierLetter);
  (R 0x16b44 0x16b44, GC_OtherPunctuation);
  (R 0x16b45 0x16b45, GC_OtherSymbol);
  (R 0x16b50 0x16b59, GC_DecimalNumber);
  (R 0x16b5b 0x16b61, GC_OtherNumber);
  (R 0x16b63 0x16b77, GC_OtherLetter);
  (R 0x16b7d 0x16b8f, GC_OtherLetter);
  (R 0x16f00 0x16f44, GC_OtherLetter);
  (R 0x16f50 0x16f50, GC_OtherLetter);
  (R 0x16f51 0x16f7e, GC_SpacingMark);
  (R 0x16f8f 0x16f92, GC_NonspacingMark);
  (R 0x16f93 0x16f9f, GC_ModifierLetter);
  (R 0x16fe0 0x16fe1, GC_ModifierLetter);
  (R 0x17000 0x187ec, GC_OtherLetter);
  (R 0x18800 0x18af2, GC_OtherLetter);
  (R 0x1b000 0x1b11e, GC_OtherLetter);
  (R 0x1b170 0x1b2fb, GC_OtherLetter);
  (R 0x1bc00 0x1bc6a, GC_OtherLetter);
  (R 0x1bc70 0x1bc7c, GC_OtherLetter);
  (R 0x1bc80 0x1bc88, GC_OtherLetter);
  (R 0x1bc90 0x1bc99, GC_OtherLetter);
  (R 0x1bc9c 0x1bc9c, GC_OtherSymbol);
  (R 0x1bc9d 0x1bc9e, GC_NonspacingMark);
  (R 0x1bc9f 0x1bc9f, GC_OtherPunctuation);
  (R 0x1bca0 0x1bca3, GC_Format);
  (R 0x1d000 0x1d0f5, GC_OtherSymbol);
  (R 0x1d100 0x1d126, GC_OtherSymbol);
  (R 0x1d129 0x1d164, GC_OtherSymbol);
  (R 0x1d165 0x1d166, GC_SpacingMark);
  (R 0x1d167 0x1d169, GC_NonspacingMark);
  (R 0x1d16a 0x1d16c, GC_OtherSymbol);
  (R 0x1d16d 0x1d172, GC_SpacingMark);
  (R 0x1d173 0x1d17a, GC_Format);
  (R 0x1d17b 0x1d182, GC_NonspacingMark);
  (R 0x1d183 0x1d184, GC_OtherSymbol);
  (R 0x1d185 0x1d18b, GC_NonspacingMark);
  (R 0x1d18c 0x1d1a9, GC_OtherSymbol);
  (R 0x1d1aa 0x1d1ad, GC_NonspacingMark);
  (R 0x1d1ae 0x1d1e8, GC_OtherSymbol);
  (R 0x1d200 0x1d241, GC_OtherSymbol);
  (R 0x1d242 0x1d244, GC_NonspacingMark);
  (R 0x1d245 0x1d245, GC_OtherSymbol);
  (R 0x1d300 0x1d356, GC_OtherSymbol);
  (R 0x1d360 0x1d371, GC_OtherNumber);
  (R 0x1d400 0x1d419, GC_UppercaseLetter);
  (R 0x1d41a 0x1d433, GC_LowercaseLetter);
  (R 0x1d434 0x1d44d, GC_UppercaseLetter);
  (R 0x1d44e 0x1d454, GC_LowercaseLetter);
  (R 0x1d456 0x1d467, GC_LowercaseLetter);
  (R 0x1d468 0x1d481, GC_UppercaseLetter);
  (R 0x1d482 0x1d49b, GC_LowercaseLetter);
  (R 0x1d49c 0x1d49c, GC_UppercaseLetter);
  (R 0x1d49e 0x1d49f, GC_UppercaseLetter);
  (R 0x1d4a2 0x1d4a2, GC_UppercaseLetter);
  (R 0x1d4a5 0x1d4a6, GC_UppercaseLetter);
  (R 0x1d4a9 0x1d4ac, GC_UppercaseLetter);
  (R 0x1d4ae 0x1d4b5, GC_UppercaseLetter);
  (R 0x1d4b6 0x1d4b9, GC_LowercaseLetter);
  (R 0x1d4bb 0x1d4bb, GC_LowercaseLetter);
  (R 0x1d4bd 0x1d4c3, GC_LowercaseLetter);
  (R 0x1d4c5 0x1d4cf, GC_LowercaseLetter);
  (R 0x1d4d0 0x1d4e9, GC_UppercaseLetter);
  (R 0x1d4ea 0x1d503, GC_LowercaseLetter);
  (R 0x1d504 0x1d505, GC_UppercaseLetter);
  (R 0x1d507 0x1d50a, GC_UppercaseLetter);
  (R 0x1d50d 0x1d514, GC_UppercaseLetter);
  (R 0x1d516 0x1d51c, GC_UppercaseLetter);
  (R 0x1d51e 0x1d537, GC_LowercaseLetter);
  (R 0x1d538 0x1d539, GC_UppercaseLetter);
  (R 0x1d53b 0x1d53e, GC_UppercaseLetter);
  (R 0x1d540 0x1d544, GC_UppercaseLetter);
  (R 0x1d546 0x1d546, GC_UppercaseLetter);
  (R 0x1d54a 0x1d550, GC_UppercaseLetter);
  (R 0x1d552 0x1d56b, GC_LowercaseLetter);
  (R 0x1d56c 0x1d585, GC_UppercaseLetter);
  (R 0x1d586 0x1d59f, GC_LowercaseLetter);
  (R 0x1d5a0 0x1d5b9, GC_UppercaseLetter);
  (R 0x1d5ba 0x1d5d3, GC_LowercaseLetter);
  (R 0x1d5d4 0x1d5ed, GC_UppercaseLetter);
  (R 0x1d5ee 0x1d607, GC_LowercaseLetter);
  (R 0x1d608 0x1d621, GC_UppercaseLetter);
  (R 0x1d622 0x1d63b, GC_LowercaseLetter);
  (R 0x1d63c 0x1d655, GC_UppercaseLetter);
  (R 0x1d656 0x1d66f, GC_LowercaseLetter);
  (R 0x1d670 0x1d689, GC_UppercaseLetter);
  (R 0x1d68a 0x1d6a5, GC_LowercaseLetter);
  (R 0x1d6a8 0x1d6c0, GC_UppercaseLetter);
  (R 0x1d6c1 0x1d6c1, GC_MathSymbol);
  (R 0x1d6c2 0x1d6da, GC_LowercaseLetter);
  (R 0x1d6db 0x1d6db, GC_MathSymbol);
  (R 0x1d6dc 0x1d6e1, GC_LowercaseLetter);
  (R 0x1d6e2 0x1d6fa, GC_UppercaseLetter);
  (R 0x1d6fb 0x1d6fb, GC_MathSymbol);
  (R 0x1d6fc 0x1d714, GC_LowercaseLetter);
  (R 0x1d715 0x1d715, GC_MathSymbol);
  (R 0x1d716 0x1d71b, GC_LowercaseLetter);
  (R 0x1d71c 0x1d734, GC_UppercaseLetter);
  (R 0x1d735 0x1d735, GC_MathSymbol);
  (R 0x1d736 0x1d74e, GC_LowercaseLetter);
  (R 0x1d74f 0x1d74f, GC_MathSymbol);
  (R 0x1d750 0x1d755, GC_LowercaseLetter);
  (R 0x1d756 0x1d76e, GC_UppercaseLetter);
  (R 0x1d76f 0x1d76f, GC_MathSymbol);
  (R 0x1d770 0x1d788, GC_LowercaseLetter);
  (R 0x1d789 0x1d789, GC_MathSymbol);
  (R 0x1d78a 0x1d78f, GC_LowercaseLetter);
  (R 0x1d790 0x1d7a8, GC_UppercaseLetter);
  (R 0x1d7a9 0x1d7a9, GC_MathSymbol);
  (R 0x1d7aa 0x1d7c2, GC_LowercaseLetter);
  (R 0x1d7c3 0x1d7c3, GC_MathSymbol);
  (R 0x1d7c4 0x1d7c9, GC_LowercaseLetter);
  (R 0x1d7ca 0x1d7ca, GC_UppercaseLetter);
  (R 0x1d7cb 0x1d7cb, GC_LowercaseLetter);
  (R 0x1d7ce 0x1d7ff, GC_DecimalNumber);
  (R 0x1d800 0x1d9ff, GC_OtherSymbol);
  (R 0x1da00 0x1da36, GC_NonspacingMark);
  (R 0x1da37 0x1da3a, GC_OtherSymbol);
  (R 0x1da3b 0x1da6c, GC_NonspacingMark);
  (R 0x1da6d 0x1da74, GC_OtherSymbol);
  (R 0x1da75 0x1da75, GC_NonspacingMark);
  (R 0x1da76 0x1da83, GC_OtherSymbol);
  (R 0x1da84 0x1da84, GC_NonspacingMark);
  (R 0x1da85 0x1da86, GC_OtherSymbol);
  (R 0x1da87 0x1da8b, GC_OtherPunctuation);
  (R 0x1da9b 0x1da9f, GC_NonspacingMark);
  (R 0x1daa1 0x1daaf, GC_NonspacingMark);
  (R 0x1e000 0x1e006, GC_NonspacingMark);
  (R 0x1e008 0x1e018, GC_NonspacingMark);
  (R 0x1e01b 0x1e021, GC_NonspacingMark);
  (R 0x1e023 0x1e024, GC_NonspacingMark);
  (R 0x1e026 0x1e02a, GC_NonspacingMark);
  (R 0x1e800 0x1e8c4, GC_OtherLetter);
  (R 0x1e8c7 0x1e8cf, GC_OtherNumber);
  (R 0x1e8d0 0x1e8d6, GC_NonspacingMark);
  (R 0x1e900 0x1e921, GC_UppercaseLetter);
  (R 0x1e922 0x1e943, GC_LowercaseLetter);
  (R 0x1e944 0x1e94a, GC_NonspacingMark);
  (R 0x1e950 0x1e959, GC_DecimalNumber);
  (R 0x1e95e 0x1e95f, GC_OtherPunctuation);
  (R 0x1ee00 0x1ee03, GC_OtherLetter);
  (R 0x1ee05 0x1ee1f, GC_OtherLetter);
  (R 0x1ee21 0x1ee22, GC_OtherLetter);
  (R 0x1ee24 0x1ee24, GC_OtherLetter);
  (R 0x1ee27 0x1ee27, GC_OtherLetter);
  (R 0x1ee29 0x1ee32, GC_OtherLetter);
  (R 0x1ee34 0x1ee37, GC_OtherLetter);
  (R 0x1ee39 0x1ee39, GC_OtherLetter);
  (R 0x1ee3b 0x1ee3b, GC_OtherLetter);
  (R 0x1ee42 0x1ee42, GC_OtherLetter);
  (R 0x1ee47 0x1ee47, GC_OtherLetter);
  (R 0x1ee49 0x1ee49, GC_OtherLetter);
  (R 0x1ee4b 0x1ee4b, GC_OtherLetter);
  (R 0x1ee4d 0x1ee4f, GC_OtherLetter);
  (R 0x1ee51 0x1ee52, GC_OtherLetter);
  (R 0x1ee54 0x1ee54, GC_OtherLetter);
  (R 0x1ee57 0x1ee57, GC_OtherLetter);
  (R 0x1ee59 0x1ee59, GC_OtherLetter);
  (R 0x1ee5b 0x1ee5b, GC_OtherLetter);
  (R 0x1ee5d 0x1ee5d, GC_OtherLetter);
  (R 0x1ee5f 0x1ee5f, GC_OtherLetter);
  (R 0x1ee61 0x1ee62, GC_OtherLetter);
  (R 0x1ee64 0x1ee64, GC_OtherLetter);
  (R 0x1ee67 0x1ee6a, GC_OtherLetter);
  (R 0x1ee6c 0x1ee72, GC_OtherLetter);
  (R 0x1ee74 0x1ee77, GC_OtherLetter);
  (R 0x1ee79 0x1ee7c, GC_OtherLetter);
  (R 0x1ee7e 0x1ee7e, GC_OtherLetter);
  (R 0x1ee80 0x1ee89, GC_OtherLetter);
  (R 0x1ee8b 0x1ee9b, GC_OtherLetter);
  (R 0x1eea1 0x1eea3, GC_OtherLetter);
  (R 0x1eea5 0x1eea9, GC_OtherLetter);
  (R 0x1eeab 0x1eebb, GC_OtherLetter);
  (R 0x1eef0 0x1eef1, GC_MathSymbol);
  (R 0x1f000 0x1f02b, GC_OtherSymbol);
  (R 0x1f030 0x1f093, GC_OtherSymbol);
  (R 0x1f0a0 0x1f0ae, GC_OtherSymbol);
  (R 0x1f0b1 0x1f0bf, GC_OtherSymbol);
  (R 0x1f0c1 0x1f0cf, GC_OtherSymbol);
  (R 0x1f0d1 0x1f0f5, GC_OtherSymbol);
  (R 0x1f100 0x1f10c, GC_OtherNumber);
  (R 0x1f110 0x1f12e, GC_OtherSymbol);
  (R 0x1f130 0x1f16b, GC_OtherSymbol);
  (R 0x1f170 0x1f1ac, GC_OtherSymbol);
  (R 0x1f1e6 0x1f202, GC_OtherSymbol);
  (R 0x1f210 0x1f23b, GC_OtherSymbol);
  (R 0x1f240 0x1f248, GC_OtherSymbol);
  (R 0x1f250 0x1f251, GC_OtherSymbol);
  (R 0x1f260 0x1f265, GC_OtherSymbol);
  (R 0x1f300 0x1f3fa, GC_OtherSymbol);
  (R 0x1f3fb 0x1f3ff, GC_ModifierSymbol);
  (R 0x1f400 0x1f6d4, GC_OtherSymbol);
  (R 0x1f6e0 0x1f6ec, GC_OtherSymbol);
  (R 0x1f6f0 0x1f6f8, GC_OtherSymbol);
  (R 0x1f700 0x1f773, GC_OtherSymbol);
  (R 0x1f780 0x1f7d4, GC_OtherSymbol);
  (R 0x1f800 0x1f80b, GC_OtherSymbol);
  (R 0x1f810 0x1f847, GC_OtherSymbol);
  (R 0x1f850 0x1f859, GC_OtherSymbol);
  (R 0x1f860 0x1f887, GC_OtherSymbol);
  (R 0x1f890 0x1f8ad, GC_OtherSymbol);
  (R 0x1f900 0x1f90b, GC_OtherSymbol);
  (R 0x1f910 0x1f93e, GC_OtherSymbol);
  (R 0x1f940 0x1f94c, GC_OtherSymbol);
  (R 0x1f950 0x1f96b, GC_OtherSymbol);
  (R 0x1f980 0x1f997, GC_OtherSymbol);
  (R 0x1f9c0 0x1f9c0, GC_OtherSymbol);
  (R 0x1f9d0 0x1f9e6, GC_OtherSymbol);
  (R 0x20000 0x2a6d6, GC_OtherLetter);
  (R 0x2a700 0x2b734, GC_OtherLetter);
  (R 0x2b740 0x2b81d, GC_OtherLetter);
  (R 0x2b820 0x2cea1, GC_OtherLetter);
  (R 0x2ceb0 0x2ebe0, GC_OtherLetter);
  (R 0x2f800 0x2fa1d, GC_OtherLetter);
  (R 0xe0001 0xe0001, GC_Format);
  (R 0xe0020 0xe007f, GC_Format);
  (R 0xe0100 0xe01ef, GC_NonspacingMark);
  (R 0xf0000 0xffffd, GC_PrivateUse);
  (R 0x100000 0x10fffd, GC_PrivateUse)].

Definition GENERAL_CATEGORY : CharDataTable GeneralCategory :=
  Range (GENERAL_CATEGORY_0 ++ GENERAL_CATEGORY_1 ++ GENERAL_CATEGORY_2 ++ GENERAL_CATEGORY_3 ++ GENERAL_CATEGORY_4 ++ GENERAL_CATEGORY_5 ++ GENERAL_CATEGORY_6 ++ GENERAL_CATEGORY_7).
