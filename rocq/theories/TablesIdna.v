(** GENERATED by tools/gen_tables.py from the .rsv tables of /repo.  Do not edit. *)
From Coq Require Import List NArith.
From Verif Require Import Base RangeModel TableModel Enums TableTypes.
Import ListNotations.
Open Scope N_scope.
Local Notation R := mkRange.

(** unic/idna/mapping/tables/idna_mapping.rsv:1-7620 (7616 entries) *)
Definition MAPPING_0 : list (CharRange * Mapping) := [
  (R 0x0 0x2c, IM_DisallowedStd3Valid);
  (R 0x2d 0x2e, IM_Valid);
  (R 0x2f 0x2f, IM_DisallowedStd3Valid);
  (R 0x30 0x39, IM_Valid);
  (R 0x3a 0x40, IM_DisallowedStd3Valid);
  (R 0x41 0x41, IM_Mapped [0x61]);
  (R 0x42 0x42, IM_Mapped [0x62]);
  (R 0x43 0x43, IM_Mapped [0x63]);
  (R 0x44 0x44, IM_Mapped [0x64]);
  (R 0x45 0x45, IM_Mapped [0x65]);
  (R 0x46 0x46, IM_Mapped [0x66]);
  (R 0x47 0x47, IM_Mapped [0x67]);
  (R 0x48 0x48, IM_Mapped [0x68]);
  (R 0x49 0x49, IM_Mapped [0x69]);
  (R 0x4a 0x4a, IM_Mapped [0x6a]);
  (R 0x4b 0x4b, IM_Mapped [0x6b]);
  (R 0x4c 0x4c, IM_Mapped [0x6c]);
  (R 0x4d 0x4d, IM_Mapped [0x6d]);
  (R 0x4e 0x4e, IM_Mapped [0x6e]);
  (R 0x4f 0x4f, IM_Mapped [0x6f]);
  (R 0x50 0x50, IM_Mapped [0x70]);
  (R 0x51 0x51, IM_Mapped [0x71]);
  (R 0x52 0x52, IM_Mapped [0x72]);
  (R 0x53 0x53, IM_Mapped [0x73]);
  (R 0x54 0x54, IM_Mapped [0x74]);
  (R 0x55 0x55, IM_Mapped [0x75]);
  (R 0x56 0x56, IM_Mapped [0x76]);
  (R 0x57 0x57, IM_Mapped [0x77]);
  (R 0x58 0x58, IM_Mapped [0x78]);
  (R 0x59 0x59, IM_Mapped [0x79]);
  (R 0x5a 0x5a, IM_Mapped [0x7a]);
  (R 0x5b 0x60, IM_DisallowedStd3Valid);
  (R 0x61 0x7a, IM_Valid);
  (R 0x7b 0x7f, IM_DisallowedStd3Valid);
  (R 0x80 0x9f, IM_Disallowed);
  (R 0xa0 0xa0, IM_DisallowedStd3Mapped [0x20]);
  (R 0xa1 0xa7, IM_Valid);
  (R 0xa8 0xa8, IM_DisallowedStd3Mapped [0x20; 0x308]);
  (R 0xa9 0xa9, IM_Valid);
  (R 0xaa 0xaa, IM_Mapped [0x61]);
  (R 0xab 0xac, IM_Valid);
  (R 0xad 0xad, IM_Ignored);
  (R 0xae 0xae, IM_Valid);
  (R 0xaf 0xaf, IM_DisallowedStd3Mapped [0x20; 0x304]);
  (R 0xb0 0xb1, IM_Valid);
  (R 0xb2 0xb2, IM_Mapped [0x32]);
  (R 0xb3 0xb3, IM_Mapped [0x33]);
  (R 0xb4 0xb4, IM_DisallowedStd3Mapped [0x20; 0x301]);
  (R 0xb5 0xb5, IM_Mapped [0x3bc]);
  (R 0xb6 0xb7, IM_Valid);
  (R 0xb8 0xb8, IM_DisallowedStd3Mapped [0x20; 0x327]);
  (R 0xb9 0xb9, IM_Mapped [0x31]);
  (R 0xba 0xba, IM_Mapped [0x6f]);
  (R 0xbb 0xbb, IM_Valid);
  (R 0xbc 0xbc, IM_Mapped [0x31; 0x2044; 0x34]);
  (R 0xbd 0xbd, IM_Mapped [0x31; 0x2044; 0x32]);
  (R 0xbe 0xbe, IM_Mapped [0x33; 0x2044; 0x34]);
  (R 0xbf 0xbf, IM_Valid);
  (R 0xc0 0xc0, IM_Mapped [0xe0]);
  (R 0xc1 0xc1, IM_Mapped [0xe1]);
  (R 0xc2 0xc2, IM_Mapped [0xe2]);
  (R 0xc3 0xc3, IM_Mapped [0xe3]);
  (R 0xc4 0xc4, IM_Mapped [0xe4]);
  (R 0xc5 0xc5, IM_Mapped [0xe5]);
  (R 0xc6 0xc6, IM_Mapped [0xe6]);
  (R 0xc7 0xc7, IM_Mapped [0xe7]);
  (R 0xc8 0xc8, IM_Mapped [0xe8]);
  (R 0xc9 0xc9, IM_Mapped [0xe9]);
  (R 0xca 0xca, IM_Mapped [0xea]);
  (R 0xcb 0xcb, IM_Mapped [0xeb]);
  (R 0xcc 0xcc, IM_Mapped [0xec]);
  (R 0xcd 0xcd, IM_Mapped [0xed]);
  (R 0xce 0xce, IM_Mapped [0xee]);
  (R 0xcf 0xcf, IM_Mapped [0xef]);
  (R 0xd0 0xd0, IM_Mapped [0xf0]);
  (R 0xd1 0xd1, IM_Mapped [0xf1]);
  (R 0xd2 0xd2, IM_Mapped [0xf2]);
  (R 0xd3 0xd3, IM_Mapped [0xf3]);
  (R 0xd4 0xd4, IM_Mapped [0xf4]);
  (R 0xd5 0xd5, IM_Mapped [0xf5]);
  (R 0xd6 0xd6, IM_Mapped [0xf6]);
  (R 0xd7 0xd7, IM_Valid);
  (R 0xd8 0xd8, IM_Mapped [0xf8]);
  (R 0xd9 0xd9, IM_Mapped [0xf9]);
  (R 0xda 0xda, IM_Mapped [0xfa]);
  (R 0xdb 0xdb, IM_Mapped [0xfb]);
  (R 0xdc 0xdc, IM_Mapped [0xfc]);
  (R 0xdd 0xdd, IM_Mapped [0xfd]);
  (R 0xde 0xde, IM_Mapped [0xfe]);
  (R 0xdf 0xdf, IM_Deviation [0x73; 0x73]);
  (R 0xe0 0xff, IM_Valid);
  (R 0x100 0x100, IM_Mapped [0x101]);
  (R 0x101 0x101, IM_Valid);
  (R 0x102 0x102, IM_Mapped [0x103]);
  (R 0x103 0x103, IM_Valid);
  (R 0x104 0x104, IM_Mapped [0x105]);
  (R 0x105 0x105, IM_Valid);
  (R 0x106 0x106, IM_Mapped [0x107]);
  (R 0x107 0x107, IM_Valid);
  (R 0x108 0x108, IM_Mapped [0x109]);
  (R 0x109 0x109, IM_Valid);
  (R 0x10a 0x10a, IM_Mapped [0x10b]);
  (R 0x10b 0x10b, IM_Valid);
  (R 0x10c 0x10c, IM_Mapped [0x10d]);
  (R 0x10d 0x10d, IM_Valid);
  (R 0x10e 0x10e, IM_Mapped [0x10f]);
  (R 0x10f 0x10f, IM_Valid);
  (R 0x110 0x110, IM_Mapped [0x111]);
  (R 0x111 0x111, IM_Valid);
  (R 0x112 0x112, IM_Mapped [0x113]);
  (R 0x113 0x113, IM_Valid);
  (R 0x114 0x114, IM_Mapped [0x115]);
  (R 0x115 0x115, IM_Valid);
  (R 0x116 0x116, IM_Mapped [0x117]);
  (R 0x117 0x117, IM_Valid);
  (R 0x118 0x118, IM_Mapped [0x119]);
  (R 0x119 0x119, IM_Valid);
  (R 0x11a 0x11a, IM_Mapped [0x11b]);
  (R 0x11b 0x11b, IM_Valid);
  (R 0x11c 0x11c, IM_Mapped [0x11d]);
  (R 0x11d 0x11d, IM_Valid);
  (R 0x11e 0x11e, IM_Mapped [0x11f]);
  (R 0x11f 0x11f, IM_Valid);
  (R 0x120 0x120, IM_Mapped [0x121]);
  (R 0x121 0x121, IM_Valid);
  (R 0x122 0x122, IM_Mapped [0x123]);
  (R 0x123 0x123, IM_Valid);
  (R 0x124 0x124, IM_Mapped [0x125]);
  (R 0x125 0x125, IM_Valid);
  (R 0x126 0x126, IM_Mapped [0x127]);
  (R 0x127 0x127, IM_Valid);
  (R 0x128 0x128, IM_Mapped [0x129]);
  (R 0x129 0x129, IM_Valid);
  (R 0x12a 0x12a, IM_Mapped [0x12b]);
  (R 0x12b 0x12b, IM_Valid);
  (R 0x12c 0x12c, IM_Mapped [0x12d]);
  (R 0x12d 0x12d, IM_Valid);
  (R 0x12e 0x12e, IM_Mapped [0x12f]);
  (R 0x12f 0x12f, IM_Valid);
  (R 0x130 0x130, IM_Mapped [0x69; 0x307]);
  (R 0x131 0x131, IM_Valid);
  (R 0x132 0x133, IM_Mapped [0x69; 0x6a]);
  (R 0x134 0x134, IM_Mapped [0x135]);
  (R 0x135 0x135, IM_Valid);
  (R 0x136 0x136, IM_Mapped [0x137]);
  (R 0x137 0x138, IM_Valid);
  (R 0x139 0x139, IM_Mapped [0x13a]);
  (R 0x13a 0x13a, IM_Valid);
  (R 0x13b 0x13b, IM_Mapped [0x13c]);
  (R 0x13c 0x13c, IM_Valid);
  (R 0x13d 0x13d, IM_Mapped [0x13e]);
  (R 0x13e 0x13e, IM_Valid);
  (R 0x13f 0x140, IM_Mapped [0x6c; 0xb7]);
  (R 0x141 0x141, IM_Mapped [0x142]);
  (R 0x142 0x142, IM_Valid);
  (R 0x143 0x143, IM_Mapped [0x144]);
  (R 0x144 0x144, IM_Valid);
  (R 0x145 0x145, IM_Mapped [0x146]);
  (R 0x146 0x146, IM_Valid);
  (R 0x147 0x147, IM_Mapped [0x148]);
  (R 0x148 0x148, IM_Valid);
  (R 0x149 0x149, IM_Mapped [0x2bc; 0x6e]);
  (R 0x14a 0x14a, IM_Mapped [0x14b]);
  (R 0x14b 0x14b, IM_Valid);
  (R 0x14c 0x14c, IM_Mapped [0x14d]);
  (R 0x14d 0x14d, IM_Valid);
  (R 0x14e 0x14e, IM_Mapped [0x14f]);
  (R 0x14f 0x14f, IM_Valid);
  (R 0x150 0x150, IM_Mapped [0x151]);
  (R 0x151 0x151, IM_Valid);
  (R 0x152 0x152, IM_Mapped [0x153]);
  (R 0x153 0x153, IM_Valid);
  (R 0x154 0x154, IM_Mapped [0x155]);
  (R 0x155 0x155, IM_Valid);
  (R 0x156 0x156, IM_Mapped [0x157]);
  (R 0x157 0x157, IM_Valid);
  (R 0x158 0x158, IM_Mapped [0x159]);
  (R 0x159 0x159, IM_Valid);
  (R 0x15a 0x15a, IM_Mapped [0x15b]);
  (R 0x15b 0x15b, IM_Valid);
  (R 0x15c 0x15c, IM_Mapped [0x15d]);
  (R 0x15d 0x15d, IM_Valid);
  (R 0x15e 0x15e, IM_Mapped [0x15f]);
  (R 0x15f 0x15f, IM_Valid);
  (R 0x160 0x160, IM_Mapped [0x161]);
  (R 0x161 0x161, IM_Valid);
  (R 0x162 0x162, IM_Mapped [0x163]);
  (R 0x163 0x163, IM_Valid);
  (R 0x164 0x164, IM_Mapped [0x165]);
  (R 0x165 0x165, IM_Valid);
  (R 0x166 0x166, IM_Mapped [0x167]);
  (R 0x167 0x167, IM_Valid);
  (R 0x168 0x168, IM_Mapped [0x169]);
  (R 0x169 0x169, IM_Valid);
  (R 0x16a 0x16a, IM_Mapped [0x16b]);
  (R 0x16b 0x16b, IM_Valid);
  (R 0x16c 0x16c, IM_Mapped [0x16d]);
  (R 0x16d 0x16d, IM_Valid);
  (R 0x16e 0x16e, IM_Mapped [0x16f]);
  (R 0x16f 0x16f, IM_Valid);
  (R 0x170 0x170, IM_Mapped [0x171]);
  (R 0x171 0x171, IM_Valid);
  (R 0x172 0x172, IM_Mapped [0x173]);
  (R 0x173 0x173, IM_Valid);
  (R 0x174 0x174, IM_Mapped [0x175]);
  (R 0x175 0x175, IM_Valid);
  (R 0x176 0x176, IM_Mapped [0x177]);
  (R 0x177 0x177, IM_Valid);
  (R 0x178 0x178, IM_Mapped [0xff]);
  (R 0x179 0x179, IM_Mapped [0x17a]);
  (R 0x17a 0x17a, IM_Valid);
  (R 0x17b 0x17b, IM_Mapped [0x17c]);
  (R 0x17c 0x17c, IM_Valid);
  (R 0x17d 0x17d, IM_Mapped [0x17e]);
  (R 0x17e 0x17e, IM_Valid);
  (R 0x17f 0x17f, IM_Mapped [0x73]);
  (R 0x180 0x180, IM_Valid);
  (R 0x181 0x181, IM_Mapped [0x253]);
  (R 0x182 0x182, IM_Mapped [0x183]);
  (R 0x183 0x183, IM_Valid);
  (R 0x184 0x184, IM_Mapped [0x185]);
  (R 0x185 0x185, IM_Valid);
  (R 0x186 0x186, IM_Mapped [0x254]);
  (R 0x187 0x187, IM_Mapped [0x188]);
  (R 0x188 0x188, IM_Valid);
  (R 0x189 0x189, IM_Mapped [0x256]);
  (R 0x18a 0x18a, IM_Mapped [0x257]);
  (R 0x18b 0x18b, IM_Mapped [0x18c]);
  (R 0x18c 0x18d, IM_Valid);
  (R 0x18e 0x18e, IM_Mapped [0x1dd]);
  (R 0x18f 0x18f, IM_Mapped [0x259]);
  (R 0x190 0x190, IM_Mapped [0x25b]);
  (R 0x191 0x191, IM_Mapped [0x192]);
  (R 0x192 0x192, IM_Valid);
  (R 0x193 0x193, IM_Mapped [0x260]);
  (R 0x194 0x194, IM_Mapped [0x263]);
  (R 0x195 0x195, IM_Valid);
  (R 0x196 0x196, IM_Mapped [0x269]);
  (R 0x197 0x197, IM_Mapped [0x268]);
  (R 0x198 0x198, IM_Mapped [0x199]);
  (R 0x199 0x19b, IM_Valid);
  (R 0x19c 0x19c, IM_Mapped [0x26f]);
  (R 0x19d 0x19d, IM_Mapped [0x272]);
  (R 0x19e 0x19e, IM_Valid);
  (R 0x19f 0x19f, IM_Mapped [0x275]);
  (R 0x1a0 0x1a0, IM_Mapped [0x1a1]);
  (R 0x1a1 0x1a1, IM_Valid);
  (R 0x1a2 0x1a2, IM_Mapped [0x1a3]);
  (R 0x1a3 0x1a3, IM_Valid);
  (R 0x1a4 0x1a4, IM_Mapped [0x1a5]);
  (R 0x1a5 0x1a5, IM_Valid);
  (R 0x1a6 0x1a6, IM_Mapped [0x280]);
  (R 0x1a7 0x1a7, IM_Mapped [0x1a8]);
  (R 0x1a8 0x1a8, IM_Valid);
  (R 0x1a9 0x1a9, IM_Mapped [0x283]);
  (R 0x1aa 0x1ab, IM_Valid);
  (R 0x1ac 0x1ac, IM_Mapped [0x1ad]);
  (R 0x1ad 0x1ad, IM_Valid);
  (R 0x1ae 0x1ae, IM_Mapped [0x288]);
  (R 0x1af 0x1af, IM_Mapped [0x1b0]);
  (R 0x1b0 0x1b0, IM_Valid);
  (R 0x1b1 0x1b1, IM_Mapped [0x28a]);
  (R 0x1b2 0x1b2, IM_Mapped [0x28b]);
  (R 0x1b3 0x1b3, IM_Mapped [0x1b4]);
  (R 0x1b4 0x1b4, IM_Valid);
  (R 0x1b5 0x1b5, IM_Mapped [0x1b6]);
  (R 0x1b6 0x1b6, IM_Valid);
  (R 0x1b7 0x1b7, IM_Mapped [0x292]);
  (R 0x1b8 0x1b8, IM_Mapped [0x1b9]);
  (R 0x1b9 0x1bb, IM_Valid);
  (R 0x1bc 0x1bc, IM_Mapped [0x1bd]);
  (R 0x1bd 0x1c3, IM_Valid);
  (R 0x1c4 0x1c6, IM_Mapped [0x64; 0x17e]);
  (R 0x1c7 0x1c9, IM_Mapped [0x6c; 0x6a]);
  (R 0x1ca 0x1cc, IM_Mapped [0x6e; 0x6a]);
  (R 0x1cd 0x1cd, IM_Mapped [0x1ce]);
  (R 0x1ce 0x1ce, IM_Valid);
  (R 0x1cf 0x1cf, IM_Mapped [0x1d0]);
  (R 0x1d0 0x1d0, IM_Valid);
  (R 0x1d1 0x1d1, IM_Mapped [0x1d2]);
  (R 0x1d2 0x1d2, IM_Valid);
  (R 0x1d3 0x1d3, IM_Mapped [0x1d4]);
  (R 0x1d4 0x1d4, IM_Valid);
  (R 0x1d5 0x1d5, IM_Mapped [0x1d6]);
  (R 0x1d6 0x1d6, IM_Valid);
  (R 0x1d7 0x1d7, IM_Mapped [0x1d8]);
  (R 0x1d8 0x1d8, IM_Valid);
  (R 0x1d9 0x1d9, IM_Mapped [0x1da]);
  (R 0x1da 0x1da, IM_Valid);
  (R 0x1db 0x1db, IM_Mapped [0x1dc]);
  (R 0x1dc 0x1dd, IM_Valid);
  (R 0x1de 0x1de, IM_Mapped [0x1df]);
  (R 0x1df 0x1df, IM_Valid);
  (R 0x1e0 0x1e0, IM_Mapped [0x1e1]);
  (R 0x1e1 0x1e1, IM_Valid);
  (R 0x1e2 0x1e2, IM_Mapped [0x1e3]);
  (R 0x1e3 0x1e3, IM_Valid);
  (R 0x1e4 0x1e4, IM_Mapped [0x1e5]);
  (R 0x1e5 0x1e5, IM_Valid);
  (R 0x1e6 0x1e6, IM_Mapped [0x1e7]);
  (R 0x1e7 0x1e7, IM_Valid);
  (R 0x1e8 0x1e8, IM_Mapped [0x1e9]);
  (R 0x1e9 0x1e9, IM_Valid);
  (R 0x1ea 0x1ea, IM_Mapped [0x1eb]);
  (R 0x1eb 0x1eb, IM_Valid);
  (R 0x1ec 0x1ec, IM_Mapped [0x1ed]);
  (R 0x1ed 0x1ed, IM_Valid);
  (R 0x1ee 0x1ee, IM_Mapped [0x1ef]);
  (R 0x1ef 0x1f0, IM_Valid);
  (R 0x1f1 0x1f3, IM_Mapped [0x64; 0x7a]);
  (R 0x1f4 0x1f4, IM_Mapped [0x1f5]);
  (R 0x1f5 0x1f5, IM_Valid);
  (R 0x1f6 0x1f6, IM_Mapped [0x195]);
  (R 0x1f7 0x1f7, IM_Mapped [0x1bf]);
  (R 0x1f8 0x1f8, IM_Mapped [0x1f9]);
  (R 0x1f9 0x1f9, IM_Valid);
  (R 0x1fa 0x1fa, IM_Mapped [0x1fb]);
  (R 0x1fb 0x1fb, IM_Valid);
  (R 0x1fc 0x1fc, IM_Mapped [0x1fd]);
  (R 0x1fd 0x1fd, IM_Valid);
  (R 0x1fe 0x1fe, IM_Mapped [0x1ff]);
  (R 0x1ff 0x1ff, IM_Valid);
  (R 0x200 0x200, IM_Mapped [0x201]);
  (R 0x201 0x201, IM_Valid);
  (R 0x202 0x202, IM_Mapped [0x203]);
  (R 0x203 0x203, IM_Valid);
  (R 0x204 0x204, IM_Mapped [0x205]);
  (R 0x205 0x205, IM_Valid);
  (R 0x206 0x206, IM_Mapped [0x207]);
  (R 0x207 0x207, IM_Valid);
  (R 0x208 0x208, IM_Mapped [0x209]);
  (R 0x209 0x209, IM_Valid);
  (R 0x20a 0x20a, IM_Mapped [0x20b]);
  (R 0x20b 0x20b, IM_Valid);
  (R 0x20c 0x20c, IM_Mapped [0x20d]);
  (R 0x20d 0x20d, IM_Valid);
  (R 0x20e 0x20e, IM_Mapped [0x20f]);
  (R 0x20f 0x20f, IM_Valid);
  (R 0x210 0x210, IM_Mapped [0x211]);
  (R 0x211 0x211, IM_Valid);
  (R 0x212 0x212, IM_Mapped [0x213]);
  (R 0x213 0x213, IM_Valid);
  (R 0x214 0x214, IM_Mapped [0x215]);
  (R 0x215 0x215, IM_Valid);
  (R 0x216 0x216, IM_Mapped [0x217]);
  (R 0x217 0x217, IM_Valid);
  (R 0x218 0x218, IM_Mapped [0x219]);
  (R 0x219 0x219, IM_Valid);
  (R 0x21a 0x21a, IM_Mapped [0x21b]);
  (R 0x21b 0x21b, IM_Valid);
  (R 0x21c 0x21c, IM_Mapped [0x21d]);
  (R 0x21d 0x21d, IM_Valid);
  (R 0x21e 0x21e, IM_Mapped [0x21f]);
  (R 0x21f 0x21f, IM_Valid);
  (R 0x220 0x220, IM_Mapped [0x19e]);
  (R 0x221 0x221, IM_Valid);
  (R 0x222 0x222, IM_Mapped [0x223]);
  (R 0x223 0x223, IM_Valid);
  (R 0x224 0x224, IM_Mapped [0x225]);
  (R 0x225 0x225, IM_Valid);
  (R 0x226 0x226, IM_Mapped [0x227]);
  (R 0x227 0x227, IM_Valid);
  (R 0x228 0x228, IM_Mapped [0x229]);
  (R 0x229 0x229, IM_Valid);
  (R 0x22a 0x22a, IM_Mapped [0x22b]);
  (R 0x22b 0x22b, IM_Valid);
  (R 0x22c 0x22c, IM_Mapped [0x22d]);
  (R 0x22d 0x22d, IM_Valid);
  (R 0x22e 0x22e, IM_Mapped [0x22f]);
  (R 0x22f 0x22f, IM_Valid);
  (R 0x230 0x230, IM_Mapped [0x231]);
  (R 0x231 0x231, IM_Valid);
  (R 0x232 0x232, IM_Mapped [0x233]);
  (R 0x233 0x239, IM_Valid);
  (R 0x23a 0x23a, IM_Mapped [0x2c65]);
  (R 0x23b 0x23b, IM_Mapped [0x23c]);
  (R 0x23c 0x23c, IM_Valid);
  (R 0x23d 0x23d, IM_Mapped [0x19a]);
  (R 0x23e 0x23e, IM_Mapped [0x2c66]);
  (R 0x23f 0x240, IM_Valid);
  (R 0x241 0x241, IM_Mapped [0x242]);
  (R 0x242 0x242, IM_Valid);
  (R 0x243 0x243, IM_Mapped [0x180]);
  (R 0x244 0x244, IM_Mapped [0x289]);
  (R 0x245 0x245, IM_Mapped [0x28c]);
  (R 0x246 0x246, IM_Mapped [0x247]);
  (R 0x247 0x247, IM_Valid);
  (R 0x248 0x248, IM_Mapped [0x249]);
  (R 0x249 0x249, IM_Valid);
  (R 0x24a 0x24a, IM_Mapped [0x24b]);
  (R 0x24b 0x24b, IM_Valid);
  (R 0x24c 0x24c, IM_Mapped [0x24d]);
  (R 0x24d 0x24d, IM_Valid);
  (R 0x24e 0x24e, IM_Mapped [0x24f]);
  (R 0x24f 0x2af, IM_Valid);
  (R 0x2b0 0x2b0, IM_Mapped [0x68]);
  (R 0x2b1 0x2b1, IM_Mapped [0x266]);
  (R 0x2b2 0x2b2, IM_Mapped [0x6a]);
  (R 0x2b3 0x2b3, IM_Mapped [0x72]);
  (R 0x2b4 0x2b4, IM_Mapped [0x279])].

Definition MAPPING_1 : list (CharRange * Mapping) := [
  (R 0x2b5 0x2b5, IM_Mapped [0x27b]);
  (R 0x2b6 0x2b6, IM_Mapped [0x281]);
  (R 0x2b7 0x2b7, IM_Mapped [0x77]);
  (R 0x2b8 0x2b8, IM_Mapped [0x79]);
  (R 0x2b9 0x2d7, IM_Valid);
  (R 0x2d8 0x2d8, IM_DisallowedStd3Mapped [0x20; 0x306]);
  (R 0x2d9 0x2d9, IM_DisallowedStd3Mapped [0x20; 0x307]);
  (R 0x2da 0x2da, IM_DisallowedStd3Mapped [0x20; 0x30a]);
  (R 0x2db 0x2db, IM_DisallowedStd3Mapped [0x20; 0x328]);
  (R 0x2dc 0x2dc, IM_DisallowedStd3Mapped [0x20; 0x303]);
  (R 0x2dd 0x2dd, IM_DisallowedStd3Mapped [0x20; 0x30b]);
  (R 0x2de 0x2df, IM_Valid);
  (R 0x2e0 0x2e0, IM_Mapped [0x263]);
  (R 0x2e1 0x2e1, IM_Mapped [0x6c]);
  (R 0x2e2 0x2e2, IM_Mapped [0x73]);
  (R 0x2e3 0x2e3, IM_Mapped [0x78]);
  (R 0x2e4 0x2e4, IM_Mapped [0x295]);
  (R 0x2e5 0x33f, IM_Valid);
  (R 0x340 0x340, IM_Mapped [0x300]);
  (R 0x341 0x341, IM_Mapped [0x301]);
  (R 0x342 0x342, IM_Valid);
  (R 0x343 0x343, IM_Mapped [0x313]);
  (R 0x344 0x344, IM_Mapped [0x308; 0x301]);
  (R 0x345 0x345, IM_Mapped [0x3b9]);
  (R 0x346 0x34e, IM_Valid);
  (R 0x34f 0x34f, IM_Ignored);
  (R 0x350 0x36f, IM_Valid);
  (R 0x370 0x370, IM_Mapped [0x371]);
  (R 0x371 0x371, IM_Valid);
  (R 0x372 0x372, IM_Mapped [0x373]);
  (R 0x373 0x373, IM_Valid);
  (R 0x374 0x374, IM_Mapped [0x2b9]);
  (R 0x375 0x375, IM_Valid);
  (R 0x376 0x376, IM_Mapped [0x377]);
  (R 0x377 0x377, IM_Valid);
  (R 0x378 0x379, IM_Disallowed);
  (R 0x37a 0x37a, IM_DisallowedStd3Mapped [0x20; 0x3b9]);
  (R 0x37b 0x37d, IM_Valid);
  (R 0x37e 0x37e, IM_DisallowedStd3Mapped [0x3b]);
  (R 0x37f 0x37f, IM_Mapped [0x3f3]);
  (R 0x380 0x383, IM_Disallowed);
  (R 0x384 0x384, IM_DisallowedStd3Mapped [0x20; 0x301]);
  (R 0x385 0x385, IM_DisallowedStd3Mapped [0x20; 0x308; 0x301]);
  (R 0x386 0x386, IM_Mapped [0x3ac]);
  (R 0x387 0x387, IM_Mapped [0xb7]);
  (R 0x388 0x388, IM_Mapped [0x3ad]);
  (R 0x389 0x389, IM_Mapped [0x3ae]);
  (R 0x38a 0x38a, IM_Mapped [0x3af]);
  (R 0x38b 0x38b, IM_Disallowed);
  (R 0x38c 0x38c, IM_Mapped [0x3cc]);
  (R 0x38d 0x38d, IM_Disallowed);
  (R 0x38e 0x38e, IM_Mapped [0x3cd]);
  (R 0x38f 0x38f, IM_Mapped [0x3ce]);
  (R 0x390 0x390, IM_Valid);
  (R 0x391 0x391, IM_Mapped [0x3b1]);
  (R 0x392 0x392, IM_Mapped [0x3b2]);
  (R 0x393 0x393, IM_Mapped [0x3b3]);
  (R 0x394 0x394, IM_Mapped [0x3b4]);
  (R 0x395 0x395, IM_Mapped [0x3b5]);
  (R 0x396 0x396, IM_Mapped [0x3b6]);
  (R 0x397 0x397, IM_Mapped [0x3b7]);
  (R 0x398 0x398, IM_Mapped [0x3b8]);
  (R 0x399 0x399, IM_Mapped [0x3b9]);
  (R 0x39a 0x39a, IM_Mapped [0x3ba]);
  (R 0x39b 0x39b, IM_Mapped [0x3bb]);
  (R 0x39c 0x39c, IM_Mapped [0x3bc]);
  (R 0x39d 0x39d, IM_Mapped [0x3bd]);
  (R 0x39e 0x39e, IM_Mapped [0x3be]);
  (R 0x39f 0x39f, IM_Mapped [0x3bf]);
  (R 0x3a0 0x3a0, IM_Mapped [0x3c0]);
  (R 0x3a1 0x3a1, IM_Mapped [0x3c1]);
  (R 0x3a2 0x3a2, IM_Disallowed);
  (R 0x3a3 0x3a3, IM_Mapped [0x3c3]);
  (R 0x3a4 0x3a4, IM_Mapped [0x3c4]);
  (R 0x3a5 0x3a5, IM_Mapped [0x3c5]);
  (R 0x3a6 0x3a6, IM_Mapped [0x3c6]);
  (R 0x3a7 0x3a7, IM_Mapped [0x3c7]);
  (R 0x3a8 0x3a8, IM_Mapped [0x3c8]);
  (R 0x3a9 0x3a9, IM_Mapped [0x3c9]);
  (R 0x3aa 0x3aa, IM_Mapped [0x3ca]);
  (R 0x3ab 0x3ab, IM_Mapped [0x3cb]);
  (R 0x3ac 0x3c1, IM_Valid);
  (R 0x3c2 0x3c2, IM_Deviation [0x3c3]);
  (R 0x3c3 0x3ce, IM_Valid);
  (R 0x3cf 0x3cf, IM_Mapped [0x3d7]);
  (R 0x3d0 0x3d0, IM_Mapped [0x3b2]);
  (R 0x3d1 0x3d1, IM_Mapped [0x3b8]);
  (R 0x3d2 0x3d2, IM_Mapped [0x3c5]);
  (R 0x3d3 0x3d3, IM_Mapped [0x3cd]);
  (R 0x3d4 0x3d4, IM_Mapped [0x3cb]);
  (R 0x3d5 0x3d5, IM_Mapped [0x3c6]);
  (R 0x3d6 0x3d6, IM_Mapped [0x3c0]);
  (R 0x3d7 0x3d7, IM_Valid);
  (R 0x3d8 0x3d8, IM_Mapped [0x3d9]);
  (R 0x3d9 0x3d9, IM_Valid);
  (R 0x3da 0x3da, IM_Mapped [0x3db]);
  (R 0x3db 0x3db, IM_Valid);
  (R 0x3dc 0x3dc, IM_Mapped [0x3dd]);
  (R 0x3dd 0x3dd, IM_Valid);
  (R 0x3de 0x3de, IM_Mapped [0x3df]);
  (R 0x3df 0x3df, IM_Valid);
  (R 0x3e0 0x3e0, IM_Mapped [0x3e1]);
  (R 0x3e1 0x3e1, IM_Valid);
  (R 0x3e2 0x3e2, IM_Mapped [0x3e3]);
  (R 0x3e3 0x3e3, IM_Valid);
  (R 0x3e4 0x3e4, IM_Mapped [0x3e5]);
  (R 0x3e5 0x3e5, IM_Valid);
  (R 0x3e6 0x3e6, IM_Mapped [0x3e7]);
  (R 0x3e7 0x3e7, IM_Valid);
  (R 0x3e8 0x3e8, IM_Mapped [0x3e9]);
  (R 0x3e9 0x3e9, IM_Valid);
  (R 0x3ea 0x3ea, IM_Mapped [0x3eb]);
  (R 0x3eb 0x3eb, IM_Valid);
  (R 0x3ec 0x3ec, IM_Mapped [0x3ed]);
  (R 0x3ed 0x3ed, IM_Valid);
  (R 0x3ee 0x3ee, IM_Mapped [0x3ef]);
  (R 0x3ef 0x3ef, IM_Valid);
  (R 0x3f0 0x3f0, IM_Mapped [0x3ba]);
  (R 0x3f1 0x3f1, IM_Mapped [0x3c1]);
  (R 0x3f2 0x3f2, IM_Mapped [0x3c3]);
  (R 0x3f3 0x3f3, IM_Valid);
  (R 0x3f4 0x3f4, IM_Mapped [0x3b8]);
  (R 0x3f5 0x3f5, IM_Mapped [0x3b5]);
  (R 0x3f6 0x3f6, IM_Valid);
  (R 0x3f7 0x3f7, IM_Mapped [0x3f8]);
  (R 0x3f8 0x3f8, IM_Valid);
  (R 0x3f9 0x3f9, IM_Mapped [0x3c3]);
  (R 0x3fa 0x3fa, IM_Mapped [0x3fb]);
  (R 0x3fb 0x3fc, IM_Valid);
  (R 0x3fd 0x3fd, IM_Mapped [0x37b]);
  (R 0x3fe 0x3fe, IM_Mapped [0x37c]);
  (R 0x3ff 0x3ff, IM_Mapped [0x37d]);
  (R 0x400 0x400, IM_Mapped [0x450]);
  (R 0x401 0x401, IM_Mapped [0x451]);
  (R 0x402 0x402, IM_Mapped [0x452]);
  (R 0x403 0x403, IM_Mapped [0x453]);
  (R 0x404 0x404, IM_Mapped [0x454]);
  (R 0x405 0x405, IM_Mapped [0x455]);
  (R 0x406 0x406, IM_Mapped [0x456]);
  (R 0x407 0x407, IM_Mapped [0x457]);
  (R 0x408 0x408, IM_Mapped [0x458]);
  (R 0x409 0x409, IM_Mapped [0x459]);
  (R 0x40a 0x40a, IM_Mapped [0x45a]);
  (R 0x40b 0x40b, IM_Mapped [0x45b]);
  (R 0x40c 0x40c, IM_Mapped [0x45c]);
  (R 0x40d 0x40d, IM_Mapped [0x45d]);
  (R 0x40e 0x40e, IM_Mapped [0x45e]);
  (R 0x40f 0x40f, IM_Mapped [0x45f]);
  (R 0x410 0x410, IM_Mapped [0x430]);
  (R 0x411 0x411, IM_Mapped [0x431]);
  (R 0x412 0x412, IM_Mapped [0x432]);
  (R 0x413 0x413, IM_Mapped [0x433]);
  (R 0x414 0x414, IM_Mapped [0x434]);
  (R 0x415 0x415, IM_Mapped [0x435]);
  (R 0x416 0x416, IM_Mapped [0x436]);
  (R 0x417 0x417, IM_Mapped [0x437]);
  (R 0x418 0x418, IM_Mapped [0x438]);
  (R 0x419 0x419, IM_Mapped [0x439]);
  (R 0x41a 0x41a, IM_Mapped [0x43a]);
  (R 0x41b 0x41b, IM_Mapped [0x43b]);
  (R 0x41c 0x41c, IM_Mapped [0x43c]);
  (R 0x41d 0x41d, IM_Mapped [0x43d]);
  (R 0x41e 0x41e, IM_Mapped [0x43e]);
  (R 0x41f 0x41f, IM_Mapped [0x43f]);
  (R 0x420 0x420, IM_Mapped [0x440]);
  (R 0x421 0x421, IM_Mapped [0x441]);
  (R 0x422 0x422, IM_Mapped [0x442]);
  (R 0x423 0x423, IM_Mapped [0x443]);
  (R 0x424 0x424, IM_Mapped [0x444]);
  (R 0x425 0x425, IM_Mapped [0x445]);
  (R 0x426 0x426, IM_Mapped [0x446]);
  (R 0x427 0x427, IM_Mapped [0x447]);
  (R 0x428 0x428, IM_Mapped [0x448]);
  (R 0x429 0x429, IM_Mapped [0x449]);
  (R 0x42a 0x42a, IM_Mapped [0x44a]);
  (R 0x42b 0x42b, IM_Mapped [0x44b]);
  (R 0x42c 0x42c, IM_Mapped [0x44c]);
  (R 0x42d 0x42d, IM_Mapped [0x44d]);
  (R 0x42e 0x42e, IM_Mapped [0x44e]);
  (R 0x42f 0x42f, IM_Mapped [0x44f]);
  (R 0x430 0x45f, IM_Valid);
  (R 0x460 0x460, IM_Mapped [0x461]);
  (R 0x461 0x461, IM_Valid);
  (R 0x462 0x462, IM_Mapped [0x463]);
  (R 0x463 0x463, IM_Valid);
  (R 0x464 0x464, IM_Mapped [0x465]);
  (R 0x465 0x465, IM_Valid);
  (R 0x466 0x466, IM_Mapped [0x467]);
  (R 0x467 0x467, IM_Valid);
  (R 0x468 0x468, IM_Mapped [0x469]);
  (R 0x469 0x469, IM_Valid);
  (R 0x46a 0x46a, IM_Mapped [0x46b]);
  (R 0x46b 0x46b, IM_Valid);
  (R 0x46c 0x46c, IM_Mapped [0x46d]);
  (R 0x46d 0x46d, IM_Valid);
  (R 0x46e 0x46e, IM_Mapped [0x46f]);
  (R 0x46f 0x46f, IM_Valid);
  (R 0x470 0x470, IM_Mapped [0x471]);
  (R 0x471 0x471, IM_Valid);
  (R 0x472 0x472, IM_Mapped [0x473]);
  (R 0x473 0x473, IM_Valid);
  (R 0x474 0x474, IM_Mapped [0x475]);
  (R 0x475 0x475, IM_Valid);
  (R 0x476 0x476, IM_Mapped [0x477]);
  (R 0x477 0x477, IM_Valid);
  (R 0x478 0x478, IM_Mapped [0x479]);
  (R 0x479 0x479, IM_Valid);
  (R 0x47a 0x47a, IM_Mapped [0x47b]);
  (R 0x47b 0x47b, IM_Valid);
  (R 0x47c 0x47c, IM_Mapped [0x47d]);
  (R 0x47d 0x47d, IM_Valid);
  (R 0x47e 0x47e, IM_Mapped [0x47f]);
  (R 0x47f 0x47f, IM_Valid);
  (R 0x480 0x480, IM_Mapped [0x481]);
  (R 0x481 0x489, IM_Valid);
  (R 0x48a 0x48a, IM_Mapped [0x48b]);
  (R 0x48b 0x48b, IM_Valid);
  (R 0x48c 0x48c, IM_Mapped [0x48d]);
  (R 0x48d 0x48d, IM_Valid);
  (R 0x48e 0x48e, IM_Mapped [0x48f]);
  (R 0x48f 0x48f, IM_Valid);
  (R 0x490 0x490, IM_Mapped [0x491]);
  (R 0x491 0x491, IM_Valid);
  (R 0x492 0x492, IM_Mapped [0x493]);
  (R 0x493 0x493, IM_Valid);
  (R 0x494 0x494, IM_Mapped [0x495]);
  (R 0x495 0x495, IM_Valid);
  (R 0x496 0x496, IM_Mapped [0x497]);
  (R 0x497 0x497, IM_Valid);
  (R 0x498 0x498, IM_Mapped [0x499]);
  (R 0x499 0x499, IM_Valid);
  (R 0x49a 0x49a, IM_Mapped [0x49b]);
  (R 0x49b 0x49b, IM_Valid);
  (R 0x49c 0x49c, IM_Mapped [0x49d]);
  (R 0x49d 0x49d, IM_Valid);
  (R 0x49e 0x49e, IM_Mapped [0x49f]);
  (R 0x49f 0x49f, IM_Valid);
  (R 0x4a0 0x4a0, IM_Mapped [0x4a1]);
  (R 0x4a1 0x4a1, IM_Valid);
  (R 0x4a2 0x4a2, IM_Mapped [0x4a3]);
  (R 0x4a3 0x4a3, IM_Valid);
  (R 0x4a4 0x4a4, IM_Mapped [0x4a5]);
  (R 0x4a5 0x4a5, IM_Valid);
  (R 0x4a6 0x4a6, IM_Mapped [0x4a7]);
  (R 0x4a7 0x4a7, IM_Valid);
  (R 0x4a8 0x4a8, IM_Mapped [0x4a9]);
  (R 0x4a9 0x4a9, IM_Valid);
  (R 0x4aa 0x4aa, IM_Mapped [0x4ab]);
  (R 0x4ab 0x4ab, IM_Valid);
  (R 0x4ac 0x4ac, IM_Mapped [0x4ad]);
  (R 0x4ad 0x4ad, IM_Valid);
  (R 0x4ae 0x4ae, IM_Mapped [0x4af]);
  (R 0x4af 0x4af, IM_Valid);
  (R 0x4b0 0x4b0, IM_Mapped [0x4b1]);
  (R 0x4b1 0x4b1, IM_Valid);
  (R 0x4b2 0x4b2, IM_Mapped [0x4b3]);
  (R 0x4b3 0x4b3, IM_Valid);
  (R 0x4b4 0x4b4, IM_Mapped [0x4b5]);
  (R 0x4b5 0x4b5, IM_Valid);
  (R 0x4b6 0x4b6, IM_Mapped [0x4b7]);
  (R 0x4b7 0x4b7, IM_Valid);
  (R 0x4b8 0x4b8, IM_Mapped [0x4b9]);
  (R 0x4b9 0x4b9, IM_Valid);
  (R 0x4ba 0x4ba, IM_Mapped [0x4bb]);
  (R 0x4bb 0x4bb, IM_Valid);
  (R 0x4bc 0x4bc, IM_Mapped [0x4bd]);
  (R 0x4bd 0x4bd, IM_Valid);
  (R 0x4be 0x4be, IM_Mapped [0x4bf]);
  (R 0x4bf 0x4bf, IM_Valid);
  (R 0x4c0 0x4c0, IM_Disallowed);
  (R 0x4c1 0x4c1, IM_Mapped [0x4c2]);
  (R 0x4c2 0x4c2, IM_Valid);
  (R 0x4c3 0x4c3, IM_Mapped [0x4c4]);
  (R 0x4c4 0x4c4, IM_Valid);
  (R 0x4c5 0x4c5, IM_Mapped [0x4c6]);
  (R 0x4c6 0x4c6, IM_Valid);
  (R 0x4c7 0x4c7, IM_Mapped [0x4c8]);
  (R 0x4c8 0x4c8, IM_Valid);
  (R 0x4c9 0x4c9, IM_Mapped [0x4ca]);
  (R 0x4ca 0x4ca, IM_Valid);
  (R 0x4cb 0x4cb, IM_Mapped [0x4cc]);
  (R 0x4cc 0x4cc, IM_Valid);
  (R 0x4cd 0x4cd, IM_Mapped [0x4ce]);
  (R 0x4ce 0x4cf, IM_Valid);
  (R 0x4d0 0x4d0, IM_Mapped [0x4d1]);
  (R 0x4d1 0x4d1, IM_Valid);
  (R 0x4d2 0x4d2, IM_Mapped [0x4d3]);
  (R 0x4d3 0x4d3, IM_Valid);
  (R 0x4d4 0x4d4, IM_Mapped [0x4d5]);
  (R 0x4d5 0x4d5, IM_Valid);
  (R 0x4d6 0x4d6, IM_Mapped [0x4d7]);
  (R 0x4d7 0x4d7, IM_Valid);
  (R 0x4d8 0x4d8, IM_Mapped [0x4d9]);
  (R 0x4d9 0x4d9, IM_Valid);
  (R 0x4da 0x4da, IM_Mapped [0x4db]);
  (R 0x4db 0x4db, IM_Valid);
  (R 0x4dc 0x4dc, IM_Mapped [0x4dd]);
  (R 0x4dd 0x4dd, IM_Valid);
  (R 0x4de 0x4de, IM_Mapped [0x4df]);
  (R 0x4df 0x4df, IM_Valid);
  (R 0x4e0 0x4e0, IM_Mapped [0x4e1]);
  (R 0x4e1 0x4e1, IM_Valid);
  (R 0x4e2 0x4e2, IM_Mapped [0x4e3]);
  (R 0x4e3 0x4e3, IM_Valid);
  (R 0x4e4 0x4e4, IM_Mapped [0x4e5]);
  (R 0x4e5 0x4e5, IM_Valid);
  (R 0x4e6 0x4e6, IM_Mapped [0x4e7]);
  (R 0x4e7 0x4e7, IM_Valid);
  (R 0x4e8 0x4e8, IM_Mapped [0x4e9]);
  (R 0x4e9 0x4e9, IM_Valid);
  (R 0x4ea 0x4ea, IM_Mapped [0x4eb]);
  (R 0x4eb 0x4eb, IM_Valid);
  (R 0x4ec 0x4ec, IM_Mapped [0x4ed]);
  (R 0x4ed 0x4ed, IM_Valid);
  (R 0x4ee 0x4ee, IM_Mapped [0x4ef]);
  (R 0x4ef 0x4ef, IM_Valid);
  (R 0x4f0 0x4f0, IM_Mapped [0x4f1]);
  (R 0x4f1 0x4f1, IM_Valid);
  (R 0x4f2 0x4f2, IM_Mapped [0x4f3]);
  (R 0x4f3 0x4f3, IM_Valid);
  (R 0x4f4 0x4f4, IM_Mapped [0x4f5]);
  (R 0x4f5 0x4f5, IM_Valid);
  (R 0x4f6 0x4f6, IM_Mapped [0x4f7]);
  (R 0x4f7 0x4f7, IM_Valid);
  (R 0x4f8 0x4f8, IM_Mapped [0x4f9]);
  (R 0x4f9 0x4f9, IM_Valid);
  (R 0x4fa 0x4fa, IM_Mapped [0x4fb]);
  (R 0x4fb 0x4fb, IM_Valid);
  (R 0x4fc 0x4fc, IM_Mapped [0x4fd]);
  (R 0x4fd 0x4fd, IM_Valid);
  (R 0x4fe 0x4fe, IM_Mapped [0x4ff]);
  (R 0x4ff 0x4ff, IM_Valid);
  (R 0x500 0x500, IM_Mapped [0x501]);
  (R 0x501 0x501, IM_Valid);
  (R 0x502 0x502, IM_Mapped [0x503]);
  (R 0x503 0x503, IM_Valid);
  (R 0x504 0x504, IM_Mapped [0x505]);
  (R 0x505 0x505, IM_Valid);
  (R 0x506 0x506, IM_Mapped [0x507]);
  (R 0x507 0x507, IM_Valid);
  (R 0x508 0x508, IM_Mapped [0x509]);
  (R 0x509 0x509, IM_Valid);
  (R 0x50a 0x50a, IM_Mapped [0x50b]);
  (R 0x50b 0x50b, IM_Valid);
  (R 0x50c 0x50c, IM_Mapped [0x50d]);
  (R 0x50d 0x50d, IM_Valid);
  (R 0x50e 0x50e, IM_Mapped [0x50f]);
  (R 0x50f 0x50f, IM_Valid);
  (R 0x510 0x510, IM_Mapped [0x511]);
  (R 0x511 0x511, IM_Valid);
  (R 0x512 0x512, IM_Mapped [0x513]);
  (R 0x513 0x513, IM_Valid);
  (R 0x514 0x514, IM_Mapped [0x515]);
  (R 0x515 0x515, IM_Valid);
  (R 0x516 0x516, IM_Mapped [0x517]);
  (R 0x517 0x517, IM_Valid);
  (R 0x518 0x518, IM_Mapped [0x519]);
  (R 0x519 0x519, IM_Valid);
  (R 0x51a 0x51a, IM_Mapped [0x51b]);
  (R 0x51b 0x51b, IM_Valid);
  (R 0x51c 0x51c, IM_Mapped [0x51d]);
  (R 0x51d 0x51d, IM_Valid);
  (R 0x51e 0x51e, IM_Mapped [0x51f]);
  (R 0x51f 0x51f, IM_Valid);
  (R 0x520 0x520, IM_Mapped [0x521]);
  (R 0x521 0x521, IM_Valid);
  (R 0x522 0x522, IM_Mapped [0x523]);
  (R 0x523 0x523, IM_Valid);
  (R 0x524 0x524, IM_Mapped [0x525]);
  (R 0x525 0x525, IM_Valid);
  (R 0x526 0x526, IM_Mapped [0x527]);
  (R 0x527 0x527, IM_Valid);
  (R 0x528 0x528, IM_Mapped [0x529]);
  (R 0x529 0x529, IM_Valid);
  (R 0x52a 0x52a, IM_Mapped [0x52b]);
  (R 0x52b 0x52b, IM_Valid);
  (R 0x52c 0x52c, IM_Mapped [0x52d]);
  (R 0x52d 0x52d, IM_Valid);
  (R 0x52e 0x52e, IM_Mapped [0x52f]);
  (R 0x52f 0x52f, IM_Valid);
  (R 0x530 0x530, IM_Disallowed);
  (R 0x531 0x531, IM_Mapped [0x561]);
  (R 0x532 0x532, IM_Mapped [0x562]);
  (R 0x533 0x533, IM_Mapped [0x563]);
  (R 0x534 0x534, IM_Mapped [0x564]);
  (R 0x535 0x535, IM_Mapped [0x565]);
  (R 0x536 0x536, IM_Mapped [0x566]);
  (R 0x537 0x537, IM_Mapped [0x567]);
  (R 0x538 0x538, IM_Mapped [0x568]);
  (R 0x539 0x539, IM_Mapped [0x569]);
  (R 0x53a 0x53a, IM_Mapped [0x56a]);
  (R 0x53b 0x53b, IM_Mapped [0x56b]);
  (R 0x53c 0x53c, IM_Mapped [0x56c]);
  (R 0x53d 0x53d, IM_Mapped [0x56d]);
  (R 0x53e 0x53e, IM_Mapped [0x56e]);
  (R 0x53f 0x53f, IM_Mapped [0x56f]);
  (R 0x540 0x540, IM_Mapped [0x570]);
  (R 0x541 0x541, IM_Mapped [0x571]);
  (R 0x542 0x542, IM_Mapped [0x572]);
  (R 0x543 0x543, IM_Mapped [0x573])].

Definition MAPPING_2 : list (CharRange * Mapping) := [
  (R 0x544 0x544, IM_Mapped [0x574]);
  (R 0x545 0x545, IM_Mapped [0x575]);
  (R 0x546 0x546, IM_Mapped [0x576]);
  (R 0x547 0x547, IM_Mapped [0x577]);
  (R 0x548 0x548, IM_Mapped [0x578]);
  (R 0x549 0x549, IM_Mapped [0x579]);
  (R 0x54a 0x54a, IM_Mapped [0x57a]);
  (R 0x54b 0x54b, IM_Mapped [0x57b]);
  (R 0x54c 0x54c, IM_Mapped [0x57c]);
  (R 0x54d 0x54d, IM_Mapped [0x57d]);
  (R 0x54e 0x54e, IM_Mapped [0x57e]);
  (R 0x54f 0x54f, IM_Mapped [0x57f]);
  (R 0x550 0x550, IM_Mapped [0x580]);
  (R 0x551 0x551, IM_Mapped [0x581]);
  (R 0x552 0x552, IM_Mapped [0x582]);
  (R 0x553 0x553, IM_Mapped [0x583]);
  (R 0x554 0x554, IM_Mapped [0x584]);
  (R 0x555 0x555, IM_Mapped [0x585]);
  (R 0x556 0x556, IM_Mapped [0x586]);
  (R 0x557 0x558, IM_Disallowed);
  (R 0x559 0x55f, IM_Valid);
  (R 0x560 0x560, IM_Disallowed);
  (R 0x561 0x586, IM_Valid);
  (R 0x587 0x587, IM_Mapped [0x565; 0x582]);
  (R 0x588 0x588, IM_Disallowed);
  (R 0x589 0x58a, IM_Valid);
  (R 0x58b 0x58c, IM_Disallowed);
  (R 0x58d 0x58f, IM_Valid);
  (R 0x590 0x590, IM_Disallowed);
  (R 0x591 0x5c7, IM_Valid);
  (R 0x5c8 0x5cf, IM_Disallowed);
  (R 0x5d0 0x5ea, IM_Valid);
  (R 0x5eb 0x5ef, IM_Disallowed);
  (R 0x5f0 0x5f4, IM_Valid);
  (R 0x5f5 0x605, IM_Disallowed);
  (R 0x606 0x61b, IM_Valid);
  (R 0x61c 0x61d, IM_Disallowed);
  (R 0x61e 0x674, IM_Valid);
  (R 0x675 0x675, IM_Mapped [0x627; 0x674]);
  (R 0x676 0x676, IM_Mapped [0x648; 0x674]);
  (R 0x677 0x677, IM_Mapped [0x6c7; 0x674]);
  (R 0x678 0x678, IM_Mapped [0x64a; 0x674]);
  (R 0x679 0x6dc, IM_Valid);
  (R 0x6dd 0x6dd, IM_Disallowed);
  (R 0x6de 0x70d, IM_Valid);
  (R 0x70e 0x70f, IM_Disallowed);
  (R 0x710 0x74a, IM_Valid);
  (R 0x74b 0x74c, IM_Disallowed);
  (R 0x74d 0x7b1, IM_Valid);
  (R 0x7b2 0x7bf, IM_Disallowed);
  (R 0x7c0 0x7fa, IM_Valid);
  (R 0x7fb 0x7ff, IM_Disallowed);
  (R 0x800 0x82d, IM_Valid);
  (R 0x82e 0x82f, IM_Disallowed);
  (R 0x830 0x83e, IM_Valid);
  (R 0x83f 0x83f, IM_Disallowed);
  (R 0x840 0x85b, IM_Valid);
  (R 0x85c 0x85d, IM_Disallowed);
  (R 0x85e 0x85e, IM_Valid);
  (R 0x85f 0x85f, IM_Disallowed);
  (R 0x860 0x86a, IM_Valid);
  (R 0x86b 0x89f, IM_Disallowed);
  (R 0x8a0 0x8b4, IM_Valid);
  (R 0x8b5 0x8b5, IM_Disallowed);
  (R 0x8b6 0x8bd, IM_Valid);
  (R 0x8be 0x8d3, IM_Disallowed);
  (R 0x8d4 0x8e1, IM_Valid);
  (R 0x8e2 0x8e2, IM_Disallowed);
  (R 0x8e3 0x957, IM_Valid);
  (R 0x958 0x958, IM_Mapped [0x915; 0x93c]);
  (R 0x959 0x959, IM_Mapped [0x916; 0x93c]);
  (R 0x95a 0x95a, IM_Mapped [0x917; 0x93c]);
  (R 0x95b 0x95b, IM_Mapped [0x91c; 0x93c]);
  (R 0x95c 0x95c, IM_Mapped [0x921; 0x93c]);
  (R 0x95d 0x95d, IM_Mapped [0x922; 0x93c]);
  (R 0x95e 0x95e, IM_Mapped [0x92b; 0x93c]);
  (R 0x95f 0x95f, IM_Mapped [0x92f; 0x93c]);
  (R 0x960 0x983, IM_Valid);
  (R 0x984 0x984, IM_Disallowed);
  (R 0x985 0x98c, IM_Valid);
  (R 0x98d 0x98e, IM_Disallowed);
  (R 0x98f 0x990, IM_Valid);
  (R 0x991 0x992, IM_Disallowed);
  (R 0x993 0x9a8, IM_Valid);
  (R 0x9a9 0x9a9, IM_Disallowed);
  (R 0x9aa 0x9b0, IM_Valid);
  (R 0x9b1 0x9b1, IM_Disallowed);
  (R 0x9b2 0x9b2, IM_Valid);
  (R 0x9b3 0x9b5, IM_Disallowed);
  (R 0x9b6 0x9b9, IM_Valid);
  (R 0x9ba 0x9bb, IM_Disallowed);
  (R 0x9bc 0x9c4, IM_Valid);
  (R 0x9c5 0x9c6, IM_Disallowed);
  (R 0x9c7 0x9c8, IM_Valid);
  (R 0x9c9 0x9ca, IM_Disallowed);
  (R 0x9cb 0x9ce, IM_Valid);
  (R 0x9cf 0x9d6, IM_Disallowed);
  (R 0x9d7 0x9d7, IM_Valid);
  (R 0x9d8 0x9db, IM_Disallowed);
  (R 0x9dc 0x9dc, IM_Mapped [0x9a1; 0x9bc]);
  (R 0x9dd 0x9dd, IM_Mapped [0x9a2; 0x9bc]);
  (R 0x9de 0x9de, IM_Disallowed);
  (R 0x9df 0x9df, IM_Mapped [0x9af; 0x9bc]);
  (R 0x9e0 0x9e3, IM_Valid);
  (R 0x9e4 0x9e5, IM_Disallowed);
  (R 0x9e6 0x9fd, IM_Valid);
  (R 0x9fe 0xa00, IM_Disallowed);
  (R 0xa01 0xa03, IM_Valid);
  (R 0xa04 0xa04, IM_Disallowed);
  (R 0xa05 0xa0a, IM_Valid);
  (R 0xa0b 0xa0e, IM_Disallowed);
  (R 0xa0f 0xa10, IM_Valid);
  (R 0xa11 0xa12, IM_Disallowed);
  (R 0xa13 0xa28, IM_Valid);
  (R 0xa29 0xa29, IM_Disallowed);
  (R 0xa2a 0xa30, IM_Valid);
  (R 0xa31 0xa31, IM_Disallowed);
  (R 0xa32 0xa32, IM_Valid);
  (R 0xa33 0xa33, IM_Mapped [0xa32; 0xa3c]);
  (R 0xa34 0xa34, IM_Disallowed);
  (R 0xa35 0xa35, IM_Valid);
  (R 0xa36 0xa36, IM_Mapped [0xa38; 0xa3c]);
  (R 0xa37 0xa37, IM_Disallowed);
  (R 0xa38 0xa39, IM_Valid);
  (R 0xa3a 0xa3b, IM_Disallowed);
  (R 0xa3c 0xa3c, IM_Valid);
  (R 0xa3d 0xa3d, IM_Disallowed);
  (R 0xa3e 0xa42, IM_Valid);
  (R 0xa43 0xa46, IM_Disallowed);
  (R 0xa47 0xa48, IM_Valid);
  (R 0xa49 0xa4a, IM_Disallowed);
  (R 0xa4b 0xa4d, IM_Valid);
  (R 0xa4e 0xa50, IM_Disallowed);
  (R 0xa51 0xa51, IM_Valid);
  (R 0xa52 0xa58, IM_Disallowed);
  (R 0xa59 0xa59, IM_Mapped [0xa16; 0xa3c]);
  (R 0xa5a 0xa5a, IM_Mapped [0xa17; 0xa3c]);
  (R 0xa5b 0xa5b, IM_Mapped [0xa1c; 0xa3c]);
  (R 0xa5c 0xa5c, IM_Valid);
  (R 0xa5d 0xa5d, IM_Disallowed);
  (R 0xa5e 0xa5e, IM_Mapped [0xa2b; 0xa3c]);
  (R 0xa5f 0xa65, IM_Disallowed);
  (R 0xa66 0xa75, IM_Valid);
  (R 0xa76 0xa80, IM_Disallowed);
  (R 0xa81 0xa83, IM_Valid);
  (R 0xa84 0xa84, IM_Disallowed);
  (R 0xa85 0xa8d, IM_Valid);
  (R 0xa8e 0xa8e, IM_Disallowed);
  (R 0xa8f 0xa91, IM_Valid);
  (R 0xa92 0xa92, IM_Disallowed);
  (R 0xa93 0xaa8, IM_Valid);
  (R 0xaa9 0xaa9, IM_Disallowed);
  (R 0xaaa 0xab0, IM_Valid);
  (R 0xab1 0xab1, IM_Disallowed);
  (R 0xab2 0xab3, IM_Valid);
  (R 0xab4 0xab4, IM_Disallowed);
  (R 0xab5 0xab9, IM_Valid);
  (R 0xaba 0xabb, IM_Disallowed);
  (R 0xabc 0xac5, IM_Valid);
  (R 0xac6 0xac6, IM_Disallowed);
  (R 0xac7 0xac9, IM_Valid);
  (R 0xaca 0xaca, IM_Disallowed);
  (R 0xacb 0xacd, IM_Valid);
  (R 0xace 0xacf, IM_Disallowed);
  (R 0xad0 0xad0, IM_Valid);
  (R 0xad1 0xadf, IM_Disallowed);
  (R 0xae0 0xae3, IM_Valid);
  (R 0xae4 0xae5, IM_Disallowed);
  (R 0xae6 0xaf1, IM_Valid);
  (R 0xaf2 0xaf8, IM_Disallowed);
  (R 0xaf9 0xaff, IM_Valid);
  (R 0xb00 0xb00, IM_Disallowed);
  (R 0xb01 0xb03, IM_Valid);
  (R 0xb04 0xb04, IM_Disallowed);
  (R 0xb05 0xb0c, IM_Valid);
  (R 0xb0d 0xb0e, IM_Disallowed);
  (R 0xb0f 0xb10, IM_Valid);
  (R 0xb11 0xb12, IM_Disallowed);
  (R 0xb13 0xb28, IM_Valid);
  (R 0xb29 0xb29, IM_Disallowed);
  (R 0xb2a 0xb30, IM_Valid);
  (R 0xb31 0xb31, IM_Disallowed);
  (R 0xb32 0xb33, IM_Valid);
  (R 0xb34 0xb34, IM_Disallowed);
  (R 0xb35 0xb39, IM_Valid);
  (R 0xb3a 0xb3b, IM_Disallowed);
  (R 0xb3c 0xb44, IM_Valid);
  (R 0xb45 0xb46, IM_Disallowed);
  (R 0xb47 0xb48, IM_Valid);
  (R 0xb49 0xb4a, IM_Disallowed);
  (R 0xb4b 0xb4d, IM_Valid);
  (R 0xb4e 0xb55, IM_Disallowed);
  (R 0xb56 0xb57, IM_Valid);
  (R 0xb58 0xb5b, IM_Disallowed);
  (R 0xb5c 0xb5c, IM_Mapped [0xb21; 0xb3c]);
  (R 0xb5d 0xb5d, IM_Mapped [0xb22; 0xb3c]);
  (R 0xb5e 0xb5e, IM_Disallowed);
  (R 0xb5f 0xb63, IM_Valid);
  (R 0xb64 0xb65, IM_Disallowed);
  (R 0xb66 0xb77, IM_Valid);
  (R 0xb78 0xb81, IM_Disallowed);
  (R 0xb82 0xb83, IM_Valid);
  (R 0xb84 0xb84, IM_Disallowed);
  (R 0xb85 0xb8a, IM_Valid);
  (R 0xb8b 0xb8d, IM_Disallowed);
  (R 0xb8e 0xb90, IM_Valid);
  (R 0xb91 0xb91, IM_Disallowed);
  (R 0xb92 0xb95, IM_Valid);
  (R 0xb96 0xb98, IM_Disallowed);
  (R 0xb99 0xb9a, IM_Valid);
  (R 0xb9b 0xb9b, IM_Disallowed);
  (R 0xb9c 0xb9c, IM_Valid);
  (R 0xb9d 0xb9d, IM_Disallowed);
  (R 0xb9e 0xb9f, IM_Valid);
  (R 0xba0 0xba2, IM_Disallowed);
  (R 0xba3 0xba4, IM_Valid);
  (R 0xba5 0xba7, IM_Disallowed);
  (R 0xba8 0xbaa, IM_Valid);
  (R 0xbab 0xbad, IM_Disallowed);
  (R 0xbae 0xbb9, IM_Valid);
  (R 0xbba 0xbbd, IM_Disallowed);
  (R 0xbbe 0xbc2, IM_Valid);
  (R 0xbc3 0xbc5, IM_Disallowed);
  (R 0xbc6 0xbc8, IM_Valid);
  (R 0xbc9 0xbc9, IM_Disallowed);
  (R 0xbca 0xbcd, IM_Valid);
  (R 0xbce 0xbcf, IM_Disallowed);
  (R 0xbd0 0xbd0, IM_Valid);
  (R 0xbd1 0xbd6, IM_Disallowed);
  (R 0xbd7 0xbd7, IM_Valid);
  (R 0xbd8 0xbe5, IM_Disallowed);
  (R 0xbe6 0xbfa, IM_Valid);
  (R 0xbfb 0xbff, IM_Disallowed);
  (R 0xc00 0xc03, IM_Valid);
  (R 0xc04 0xc04, IM_Disallowed);
  (R 0xc05 0xc0c, IM_Valid);
  (R 0xc0d 0xc0d, IM_Disallowed);
  (R 0xc0e 0xc10, IM_Valid);
  (R 0xc11 0xc11, IM_Disallowed);
  (R 0xc12 0xc28, IM_Valid);
  (R 0xc29 0xc29, IM_Disallowed);
  (R 0xc2a 0xc39, IM_Valid);
  (R 0xc3a 0xc3c, IM_Disallowed);
  (R 0xc3d 0xc44, IM_Valid);
  (R 0xc45 0xc45, IM_Disallowed);
  (R 0xc46 0xc48, IM_Valid);
  (R 0xc49 0xc49, IM_Disallowed);
  (R 0xc4a 0xc4d, IM_Valid);
  (R 0xc4e 0xc54, IM_Disallowed);
  (R 0xc55 0xc56, IM_Valid);
  (R 0xc57 0xc57, IM_Disallowed);
  (R 0xc58 0xc5a, IM_Valid);
  (R 0xc5b 0xc5f, IM_Disallowed);
  (R 0xc60 0xc63, IM_Valid);
  (R 0xc64 0xc65, IM_Disallowed);
  (R 0xc66 0xc6f, IM_Valid);
  (R 0xc70 0xc77, IM_Disallowed);
  (R 0xc78 0xc83, IM_Valid);
  (R 0xc84 0xc84, IM_Disallowed);
  (R 0xc85 0xc8c, IM_Valid);
  (R 0xc8d 0xc8d, IM_Disallowed);
  (R 0xc8e 0xc90, IM_Valid);
  (R 0xc91 0xc91, IM_Disallowed);
  (R 0xc92 0xca8, IM_Valid);
  (R 0xca9 0xca9, IM_Disallowed);
  (R 0xcaa 0xcb3, IM_Valid);
  (R 0xcb4 0xcb4, IM_Disallowed);
  (R 0xcb5 0xcb9, IM_Valid);
  (R 0xcba 0xcbb, IM_Disallowed);
  (R 0xcbc 0xcc4, IM_Valid);
  (R 0xcc5 0xcc5, IM_Disallowed);
  (R 0xcc6 0xcc8, IM_Valid);
  (R 0xcc9 0xcc9, IM_Disallowed);
  (R 0xcca 0xccd, IM_Valid);
  (R 0xcce 0xcd4, IM_Disallowed);
  (R 0xcd5 0xcd6, IM_Valid);
  (R 0xcd7 0xcdd, IM_Disallowed);
  (R 0xcde 0xcde, IM_Valid);
  (R 0xcdf 0xcdf, IM_Disallowed);
  (R 0xce0 0xce3, IM_Valid);
  (R 0xce4 0xce5, IM_Disallowed);
  (R 0xce6 0xcef, IM_Valid);
  (R 0xcf0 0xcf0, IM_Disallowed);
  (R 0xcf1 0xcf2, IM_Valid);
  (R 0xcf3 0xcff, IM_Disallowed);
  (R 0xd00 0xd03, IM_Valid);
  (R 0xd04 0xd04, IM_Disallowed);
  (R 0xd05 0xd0c, IM_Valid);
  (R 0xd0d 0xd0d, IM_Disallowed);
  (R 0xd0e 0xd10, IM_Valid);
  (R 0xd11 0xd11, IM_Disallowed);
  (R 0xd12 0xd44, IM_Valid);
  (R 0xd45 0xd45, IM_Disallowed);
  (R 0xd46 0xd48, IM_Valid);
  (R 0xd49 0xd49, IM_Disallowed);
  (R 0xd4a 0xd4f, IM_Valid);
  (R 0xd50 0xd53, IM_Disallowed);
  (R 0xd54 0xd63, IM_Valid);
  (R 0xd64 0xd65, IM_Disallowed);
  (R 0xd66 0xd7f, IM_Valid);
  (R 0xd80 0xd81, IM_Disallowed);
  (R 0xd82 0xd83, IM_Valid);
  (R 0xd84 0xd84, IM_Disallowed);
  (R 0xd85 0xd96, IM_Valid);
  (R 0xd97 0xd99, IM_Disallowed);
  (R 0xd9a 0xdb1, IM_Valid);
  (R 0xdb2 0xdb2, IM_Disallowed);
  (R 0xdb3 0xdbb, IM_Valid);
  (R 0xdbc 0xdbc, IM_Disallowed);
  (R 0xdbd 0xdbd, IM_Valid);
  (R 0xdbe 0xdbf, IM_Disallowed);
  (R 0xdc0 0xdc6, IM_Valid);
  (R 0xdc7 0xdc9, IM_Disallowed);
  (R 0xdca 0xdca, IM_Valid);
  (R 0xdcb 0xdce, IM_Disallowed);
  (R 0xdcf 0xdd4, IM_Valid);
  (R 0xdd5 0xdd5, IM_Disallowed);
  (R 0xdd6 0xdd6, IM_Valid);
  (R 0xdd7 0xdd7, IM_Disallowed);
  (R 0xdd8 0xddf, IM_Valid);
  (R 0xde0 0xde5, IM_Disallowed);
  (R 0xde6 0xdef, IM_Valid);
  (R 0xdf0 0xdf1, IM_Disallowed);
  (R 0xdf2 0xdf4, IM_Valid);
  (R 0xdf5 0xe00, IM_Disallowed);
  (R 0xe01 0xe32, IM_Valid);
  (R 0xe33 0xe33, IM_Mapped [0xe4d; 0xe32]);
  (R 0xe34 0xe3a, IM_Valid);
  (R 0xe3b 0xe3e, IM_Disallowed);
  (R 0xe3f 0xe5b, IM_Valid);
  (R 0xe5c 0xe80, IM_Disallowed);
  (R 0xe81 0xe82, IM_Valid);
  (R 0xe83 0xe83, IM_Disallowed);
  (R 0xe84 0xe84, IM_Valid);
  (R 0xe85 0xe86, IM_Disallowed);
  (R 0xe87 0xe88, IM_Valid);
  (R 0xe89 0xe89, IM_Disallowed);
  (R 0xe8a 0xe8a, IM_Valid);
  (R 0xe8b 0xe8c, IM_Disallowed);
  (R 0xe8d 0xe8d, IM_Valid);
  (R 0xe8e 0xe93, IM_Disallowed);
  (R 0xe94 0xe97, IM_Valid);
  (R 0xe98 0xe98, IM_Disallowed);
  (R 0xe99 0xe9f, IM_Valid);
  (R 0xea0 0xea0, IM_Disallowed);
  (R 0xea1 0xea3, IM_Valid);
  (R 0xea4 0xea4, IM_Disallowed);
  (R 0xea5 0xea5, IM_Valid);
  (R 0xea6 0xea6, IM_Disallowed);
  (R 0xea7 0xea7, IM_Valid);
  (R 0xea8 0xea9, IM_Disallowed);
  (R 0xeaa 0xeab, IM_Valid);
  (R 0xeac 0xeac, IM_Disallowed);
  (R 0xead 0xeb2, IM_Valid);
  (R 0xeb3 0xeb3, IM_Mapped [0xecd; 0xeb2]);
  (R 0xeb4 0xeb9, IM_Valid);
  (R 0xeba 0xeba, IM_Disallowed);
  (R 0xebb 0xebd, IM_Valid);
  (R 0xebe 0xebf, IM_Disallowed);
  (R 0xec0 0xec4, IM_Valid);
  (R 0xec5 0xec5, IM_Disallowed);
  (R 0xec6 0xec6, IM_Valid);
  (R 0xec7 0xec7, IM_Disallowed);
  (R 0xec8 0xecd, IM_Valid);
  (R 0xece 0xecf, IM_Disallowed);
  (R 0xed0 0xed9, IM_Valid);
  (R 0xeda 0xedb, IM_Disallowed);
  (R 0xedc 0xedc, IM_Mapped [0xeab; 0xe99]);
  (R 0xedd 0xedd, IM_Mapped [0xeab; 0xea1]);
  (R 0xede 0xedf, IM_Valid);
  (R 0xee0 0xeff, IM_Disallowed);
  (R 0xf00 0xf0b, IM_Valid);
  (R 0xf0c 0xf0c, IM_Mapped [0xf0b]);
  (R 0xf0d 0xf42, IM_Valid);
  (R 0xf43 0xf43, IM_Mapped [0xf42; 0xfb7]);
  (R 0xf44 0xf47, IM_Valid);
  (R 0xf48 0xf48, IM_Disallowed);
  (R 0xf49 0xf4c, IM_Valid);
  (R 0xf4d 0xf4d, IM_Mapped [0xf4c; 0xfb7]);
  (R 0xf4e 0xf51, IM_Valid);
  (R 0xf52 0xf52, IM_Mapped [0xf51; 0xfb7]);
  (R 0xf53 0xf56, IM_Valid);
  (R 0xf57 0xf57, IM_Mapped [0xf56; 0xfb7]);
  (R 0xf58 0xf5b, IM_Valid);
  (R 0xf5c 0xf5c, IM_Mapped [0xf5b; 0xfb7]);
  (R 0xf5d 0xf68, IM_Valid);
  (R 0xf69 0xf69, IM_Mapped [0xf40; 0xfb5]);
  (R 0xf6a 0xf6c, IM_Valid);
  (R 0xf6d 0xf70, IM_Disallowed);
  (R 0xf71 0xf72, IM_Valid);
  (R 0xf73 0xf73, IM_Mapped [0xf71; 0xf72]);
  (R 0xf74 0xf74, IM_Valid);
  (R 0xf75 0xf75, IM_Mapped [0xf71; 0xf74]);
  (R 0xf76 0xf76, IM_Mapped [0xfb2; 0xf80]);
  (R 0xf77 0xf77, IM_Mapped [0xfb2; 0xf71; 0xf80]);
  (R 0xf78 0xf78, IM_Mapped [0xfb3; 0xf80]);
  (R 0xf79 0xf79, IM_Mapped [0xfb3; 0xf71; 0xf80]);
  (R 0xf7a 0xf80, IM_Valid);
  (R 0xf81 0xf81, IM_Mapped [0xf71; 0xf80]);
  (R 0xf82 0xf92, IM_Valid)].

Definition MAPPING_3 : list (CharRange * Mapping) := [
  (R 0xf93 0xf93, IM_Mapped [0xf92; 0xfb7]);
  (R 0xf94 0xf97, IM_Valid);
  (R 0xf98 0xf98, IM_Disallowed);
  (R 0xf99 0xf9c, IM_Valid);
  (R 0xf9d 0xf9d, IM_Mapped [0xf9c; 0xfb7]);
  (R 0xf9e 0xfa1, IM_Valid);
  (R 0xfa2 0xfa2, IM_Mapped [0xfa1; 0xfb7]);
  (R 0xfa3 0xfa6, IM_Valid);
  (R 0xfa7 0xfa7, IM_Mapped [0xfa6; 0xfb7]);
  (R 0xfa8 0xfab, IM_Valid);
  (R 0xfac 0xfac, IM_Mapped [0xfab; 0xfb7]);
  (R 0xfad 0xfb8, IM_Valid);
  (R 0xfb9 0xfb9, IM_Mapped [0xf90; 0xfb5]);
  (R 0xfba 0xfbc, IM_Valid);
  (R 0xfbd 0xfbd, IM_Disallowed);
  (R 0xfbe 0xfcc, IM_Valid);
  (R 0xfcd 0xfcd, IM_Disallowed);
  (R 0xfce 0xfda, IM_Valid);
  (R 0xfdb 0xfff, IM_Disallowed);
  (R 0x1000 0x109f, IM_Valid);
  (R 0x10a0 0x10c6, IM_Disallowed);
  (R 0x10c7 0x10c7, IM_Mapped [0x2d27]);
  (R 0x10c8 0x10cc, IM_Disallowed);
  (R 0x10cd 0x10cd, IM_Mapped [0x2d2d]);
  (R 0x10ce 0x10cf, IM_Disallowed);
  (R 0x10d0 0x10fb, IM_Valid);
  (R 0x10fc 0x10fc, IM_Mapped [0x10dc]);
  (R 0x10fd 0x115e, IM_Valid);
  (R 0x115f 0x1160, IM_Disallowed);
  (R 0x1161 0x1248, IM_Valid);
  (R 0x1249 0x1249, IM_Disallowed);
  (R 0x124a 0x124d, IM_Valid);
  (R 0x124e 0x124f, IM_Disallowed);
  (R 0x1250 0x1256, IM_Valid);
  (R 0x1257 0x1257, IM_Disallowed);
  (R 0x1258 0x1258, IM_Valid);
  (R 0x1259 0x1259, IM_Disallowed);
  (R 0x125a 0x125d, IM_Valid);
  (R 0x125e 0x125f, IM_Disallowed);
  (R 0x1260 0x1288, IM_Valid);
  (R 0x1289 0x1289, IM_Disallowed);
  (R 0x128a 0x128d, IM_Valid);
  (R 0x128e 0x128f, IM_Disallowed);
  (R 0x1290 0x12b0, IM_Valid);
  (R 0x12b1 0x12b1, IM_Disallowed);
  (R 0x12b2 0x12b5, IM_Valid);
  (R 0x12b6 0x12b7, IM_Disallowed);
  (R 0x12b8 0x12be, IM_Valid);
  (R 0x12bf 0x12bf, IM_Disallowed);
  (R 0x12c0 0x12c0, IM_Valid);
  (R 0x12c1 0x12c1, IM_Disallowed);
  (R 0x12c2 0x12c5, IM_Valid);
  (R 0x12c6 0x12c7, IM_Disallowed);
  (R 0x12c8 0x12d6, IM_Valid);
  (R 0x12d7 0x12d7, IM_Disallowed);
  (R 0x12d8 0x1310, IM_Valid);
  (R 0x1311 0x1311, IM_Disallowed);
  (R 0x1312 0x1315, IM_Valid);
  (R 0x1316 0x1317, IM_Disallowed);
  (R 0x1318 0x135a, IM_Valid);
  (R 0x135b 0x135c, IM_Disallowed);
  (R 0x135d 0x137c, IM_Valid);
  (R 0x137d 0x137f, IM_Disallowed);
  (R 0x1380 0x1399, IM_Valid);
  (R 0x139a 0x139f, IM_Disallowed);
  (R 0x13a0 0x13f5, IM_Valid);
  (R 0x13f6 0x13f7, IM_Disallowed);
  (R 0x13f8 0x13f8, IM_Mapped [0x13f0]);
  (R 0x13f9 0x13f9, IM_Mapped [0x13f1]);
  (R 0x13fa 0x13fa, IM_Mapped [0x13f2]);
  (R 0x13fb 0x13fb, IM_Mapped [0x13f3]);
  (R 0x13fc 0x13fc, IM_Mapped [0x13f4]);
  (R 0x13fd 0x13fd, IM_Mapped [0x13f5]);
  (R 0x13fe 0x13ff, IM_Disallowed);
  (R 0x1400 0x167f, IM_Valid);
  (R 0x1680 0x1680, IM_Disallowed);
  (R 0x1681 0x169c, IM_Valid);
  (R 0x169d 0x169f, IM_Disallowed);
  (R 0x16a0 0x16f8, IM_Valid);
  (R 0x16f9 0x16ff, IM_Disallowed);
  (R 0x1700 0x170c, IM_Valid);
  (R 0x170d 0x170d, IM_Disallowed);
  (R 0x170e 0x1714, IM_Valid);
  (R 0x1715 0x171f, IM_Disallowed);
  (R 0x1720 0x1736, IM_Valid);
  (R 0x1737 0x173f, IM_Disallowed);
  (R 0x1740 0x1753, IM_Valid);
  (R 0x1754 0x175f, IM_Disallowed);
  (R 0x1760 0x176c, IM_Valid);
  (R 0x176d 0x176d, IM_Disallowed);
  (R 0x176e 0x1770, IM_Valid);
  (R 0x1771 0x1771, IM_Disallowed);
  (R 0x1772 0x1773, IM_Valid);
  (R 0x1774 0x177f, IM_Disallowed);
  (R 0x1780 0x17b3, IM_Valid);
  (R 0x17b4 0x17b5, IM_Disallowed);
  (R 0x17b6 0x17dd, IM_Valid);
  (R 0x17de 0x17df, IM_Disallowed);
  (R 0x17e0 0x17e9, IM_Valid);
  (R 0x17ea 0x17ef, IM_Disallowed);
  (R 0x17f0 0x17f9, IM_Valid);
  (R 0x17fa 0x17ff, IM_Disallowed);
  (R 0x1800 0x1805, IM_Valid);
  (R 0x1806 0x1806, IM_Disallowed);
  (R 0x1807 0x180a, IM_Valid);
  (R 0x180b 0x180d, IM_Ignored);
  (R 0x180e 0x180f, IM_Disallowed);
  (R 0x1810 0x1819, IM_Valid);
  (R 0x181a 0x181f, IM_Disallowed);
  (R 0x1820 0x1877, IM_Valid);
  (R 0x1878 0x187f, IM_Disallowed);
  (R 0x1880 0x18aa, IM_Valid);
  (R 0x18ab 0x18af, IM_Disallowed);
  (R 0x18b0 0x18f5, IM_Valid);
  (R 0x18f6 0x18ff, IM_Disallowed);
  (R 0x1900 0x191e, IM_Valid);
  (R 0x191f 0x191f, IM_Disallowed);
  (R 0x1920 0x192b, IM_Valid);
  (R 0x192c 0x192f, IM_Disallowed);
  (R 0x1930 0x193b, IM_Valid);
  (R 0x193c 0x193f, IM_Disallowed);
  (R 0x1940 0x1940, IM_Valid);
  (R 0x1941 0x1943, IM_Disallowed);
  (R 0x1944 0x196d, IM_Valid);
  (R 0x196e 0x196f, IM_Disallowed);
  (R 0x1970 0x1974, IM_Valid);
  (R 0x1975 0x197f, IM_Disallowed);
  (R 0x1980 0x19ab, IM_Valid);
  (R 0x19ac 0x19af, IM_Disallowed);
  (R 0x19b0 0x19c9, IM_Valid);
  (R 0x19ca 0x19cf, IM_Disallowed);
  (R 0x19d0 0x19da, IM_Valid);
  (R 0x19db 0x19dd, IM_Disallowed);
  (R 0x19de 0x1a1b, IM_Valid);
  (R 0x1a1c 0x1a1d, IM_Disallowed);
  (R 0x1a1e 0x1a5e, IM_Valid);
  (R 0x1a5f 0x1a5f, IM_Disallowed);
  (R 0x1a60 0x1a7c, IM_Valid);
  (R 0x1a7d 0x1a7e, IM_Disallowed);
  (R 0x1a7f 0x1a89, IM_Valid);
  (R 0x1a8a 0x1a8f, IM_Disallowed);
  (R 0x1a90 0x1a99, IM_Valid);
  (R 0x1a9a 0x1a9f, IM_Disallowed);
  (R 0x1aa0 0x1aad, IM_Valid);
  (R 0x1aae 0x1aaf, IM_Disallowed);
  (R 0x1ab0 0x1abe, IM_Valid);
  (R 0x1abf 0x1aff, IM_Disallowed);
  (R 0x1b00 0x1b4b, IM_Valid);
  (R 0x1b4c 0x1b4f, IM_Disallowed);
  (R 0x1b50 0x1b7c, IM_Valid);
  (R 0x1b7d 0x1b7f, IM_Disallowed);
  (R 0x1b80 0x1bf3, IM_Valid);
  (R 0x1bf4 0x1bfb, IM_Disallowed);
  (R 0x1bfc 0x1c37, IM_Valid);
  (R 0x1c38 0x1c3a, IM_Disallowed);
  (R 0x1c3b 0x1c49, IM_Valid);
  (R 0x1c4a 0x1c4c, IM_Disallowed);
  (R 0x1c4d 0x1c7f, IM_Valid);
  (R 0x1c80 0x1c80, IM_Mapped [0x432]);
  (R 0x1c81 0x1c81, IM_Mapped [0x434]);
  (R 0x1c82 0x1c82, IM_Mapped [0x43e]);
  (R 0x1c83 0x1c83, IM_Mapped [0x441]);
  (R 0x1c84 0x1c85, IM_Mapped [0x442]);
  (R 0x1c86 0x1c86, IM_Mapped [0x44a]);
  (R 0x1c87 0x1c87, IM_Mapped [0x463]);
  (R 0x1c88 0x1c88, IM_Mapped [0xa64b]);
  (R 0x1c89 0x1cbf, IM_Disallowed);
  (R 0x1cc0 0x1cc7, IM_Valid);
  (R 0x1cc8 0x1ccf, IM_Disallowed);
  (R 0x1cd0 0x1cf9, IM_Valid);
  (R 0x1cfa 0x1cff, IM_Disallowed);
  (R 0x1d00 0x1d2b, IM_Valid);
  (R 0x1d2c 0x1d2c, IM_Mapped [0x61]);
  (R 0x1d2d 0x1d2d, IM_Mapped [0xe6]);
  (R 0x1d2e 0x1d2e, IM_Mapped [0x62]);
  (R 0x1d2f 0x1d2f, IM_Valid);
  (R 0x1d30 0x1d30, IM_Mapped [0x64]);
  (R 0x1d31 0x1d31, IM_Mapped [0x65]);
  (R 0x1d32 0x1d32, IM_Mapped [0x1dd]);
  (R 0x1d33 0x1d33, IM_Mapped [0x67]);
  (R 0x1d34 0x1d34, IM_Mapped [0x68]);
  (R 0x1d35 0x1d35, IM_Mapped [0x69]);
  (R 0x1d36 0x1d36, IM_Mapped [0x6a]);
  (R 0x1d37 0x1d37, IM_Mapped [0x6b]);
  (R 0x1d38 0x1d38, IM_Mapped [0x6c]);
  (R 0x1d39 0x1d39, IM_Mapped [0x6d]);
  (R 0x1d3a 0x1d3a, IM_Mapped [0x6e]);
  (R 0x1d3b 0x1d3b, IM_Valid);
  (R 0x1d3c 0x1d3c, IM_Mapped [0x6f]);
  (R 0x1d3d 0x1d3d, IM_Mapped [0x223]);
  (R 0x1d3e 0x1d3e, IM_Mapped [0x70]);
  (R 0x1d3f 0x1d3f, IM_Mapped [0x72]);
  (R 0x1d40 0x1d40, IM_Mapped [0x74]);
  (R 0x1d41 0x1d41, IM_Mapped [0x75]);
  (R 0x1d42 0x1d42, IM_Mapped [0x77]);
  (R 0x1d43 0x1d43, IM_Mapped [0x61]);
  (R 0x1d44 0x1d44, IM_Mapped [0x250]);
  (R 0x1d45 0x1d45, IM_Mapped [0x251]);
  (R 0x1d46 0x1d46, IM_Mapped [0x1d02]);
  (R 0x1d47 0x1d47, IM_Mapped [0x62]);
  (R 0x1d48 0x1d48, IM_Mapped [0x64]);
  (R 0x1d49 0x1d49, IM_Mapped [0x65]);
  (R 0x1d4a 0x1d4a, IM_Mapped [0x259]);
  (R 0x1d4b 0x1d4b, IM_Mapped [0x25b]);
  (R 0x1d4c 0x1d4c, IM_Mapped [0x25c]);
  (R 0x1d4d 0x1d4d, IM_Mapped [0x67]);
  (R 0x1d4e 0x1d4e, IM_Valid);
  (R 0x1d4f 0x1d4f, IM_Mapped [0x6b]);
  (R 0x1d50 0x1d50, IM_Mapped [0x6d]);
  (R 0x1d51 0x1d51, IM_Mapped [0x14b]);
  (R 0x1d52 0x1d52, IM_Mapped [0x6f]);
  (R 0x1d53 0x1d53, IM_Mapped [0x254]);
  (R 0x1d54 0x1d54, IM_Mapped [0x1d16]);
  (R 0x1d55 0x1d55, IM_Mapped [0x1d17]);
  (R 0x1d56 0x1d56, IM_Mapped [0x70]);
  (R 0x1d57 0x1d57, IM_Mapped [0x74]);
  (R 0x1d58 0x1d58, IM_Mapped [0x75]);
  (R 0x1d59 0x1d59, IM_Mapped [0x1d1d]);
  (R 0x1d5a 0x1d5a, IM_Mapped [0x26f]);
  (R 0x1d5b 0x1d5b, IM_Mapped [0x76]);
  (R 0x1d5c 0x1d5c, IM_Mapped [0x1d25]);
  (R 0x1d5d 0x1d5d, IM_Mapped [0x3b2]);
  (R 0x1d5e 0x1d5e, IM_Mapped [0x3b3]);
  (R 0x1d5f 0x1d5f, IM_Mapped [0x3b4]);
  (R 0x1d60 0x1d60, IM_Mapped [0x3c6]);
  (R 0x1d61 0x1d61, IM_Mapped [0x3c7]);
  (R 0x1d62 0x1d62, IM_Mapped [0x69]);
  (R 0x1d63 0x1d63, IM_Mapped [0x72]);
  (R 0x1d64 0x1d64, IM_Mapped [0x75]);
  (R 0x1d65 0x1d65, IM_Mapped [0x76]);
  (R 0x1d66 0x1d66, IM_Mapped [0x3b2]);
  (R 0x1d67 0x1d67, IM_Mapped [0x3b3]);
  (R 0x1d68 0x1d68, IM_Mapped [0x3c1]);
  (R 0x1d69 0x1d69, IM_Mapped [0x3c6]);
  (R 0x1d6a 0x1d6a, IM_Mapped [0x3c7]);
  (R 0x1d6b 0x1d77, IM_Valid);
  (R 0x1d78 0x1d78, IM_Mapped [0x43d]);
  (R 0x1d79 0x1d9a, IM_Valid);
  (R 0x1d9b 0x1d9b, IM_Mapped [0x252]);
  (R 0x1d9c 0x1d9c, IM_Mapped [0x63]);
  (R 0x1d9d 0x1d9d, IM_Mapped [0x255]);
  (R 0x1d9e 0x1d9e, IM_Mapped [0xf0]);
  (R 0x1d9f 0x1d9f, IM_Mapped [0x25c]);
  (R 0x1da0 0x1da0, IM_Mapped [0x66]);
  (R 0x1da1 0x1da1, IM_Mapped [0x25f]);
  (R 0x1da2 0x1da2, IM_Mapped [0x261]);
  (R 0x1da3 0x1da3, IM_Mapped [0x265]);
  (R 0x1da4 0x1da4, IM_Mapped [0x268]);
  (R 0x1da5 0x1da5, IM_Mapped [0x269]);
  (R 0x1da6 0x1da6, IM_Mapped [0x26a]);
  (R 0x1da7 0x1da7, IM_Mapped [0x1d7b]);
  (R 0x1da8 0x1da8, IM_Mapped [0x29d]);
  (R 0x1da9 0x1da9, IM_Mapped [0x26d]);
  (R 0x1daa 0x1daa, IM_Mapped [0x1d85]);
  (R 0x1dab 0x1dab, IM_Mapped [0x29f]);
  (R 0x1dac 0x1dac, IM_Mapped [0x271]);
  (R 0x1dad 0x1dad, IM_Mapped [0x270]);
  (R 0x1dae 0x1dae, IM_Mapped [0x272]);
  (R 0x1daf 0x1daf, IM_Mapped [0x273]);
  (R 0x1db0 0x1db0, IM_Mapped [0x274]);
  (R 0x1db1 0x1db1, IM_Mapped [0x275]);
  (R 0x1db2 0x1db2, IM_Mapped [0x278]);
  (R 0x1db3 0x1db3, IM_Mapped [0x282]);
  (R 0x1db4 0x1db4, IM_Mapped [0x283]);
  (R 0x1db5 0x1db5, IM_Mapped [0x1ab]);
  (R 0x1db6 0x1db6, IM_Mapped [0x289]);
  (R 0x1db7 0x1db7, IM_Mapped [0x28a]);
  (R 0x1db8 0x1db8, IM_Mapped [0x1d1c]);
  (R 0x1db9 0x1db9, IM_Mapped [0x28b]);
  (R 0x1dba 0x1dba, IM_Mapped [0x28c]);
  (R 0x1dbb 0x1dbb, IM_Mapped [0x7a]);
  (R 0x1dbc 0x1dbc, IM_Mapped [0x290]);
  (R 0x1dbd 0x1dbd, IM_Mapped [0x291]);
  (R 0x1dbe 0x1dbe, IM_Mapped [0x292]);
  (R 0x1dbf 0x1dbf, IM_Mapped [0x3b8]);
  (R 0x1dc0 0x1df9, IM_Valid);
  (R 0x1dfa 0x1dfa, IM_Disallowed);
  (R 0x1dfb 0x1dff, IM_Valid);
  (R 0x1e00 0x1e00, IM_Mapped [0x1e01]);
  (R 0x1e01 0x1e01, IM_Valid);
  (R 0x1e02 0x1e02, IM_Mapped [0x1e03]);
  (R 0x1e03 0x1e03, IM_Valid);
  (R 0x1e04 0x1e04, IM_Mapped [0x1e05]);
  (R 0x1e05 0x1e05, IM_Valid);
  (R 0x1e06 0x1e06, IM_Mapped [0x1e07]);
  (R 0x1e07 0x1e07, IM_Valid);
  (R 0x1e08 0x1e08, IM_Mapped [0x1e09]);
  (R 0x1e09 0x1e09, IM_Valid);
  (R 0x1e0a 0x1e0a, IM_Mapped [0x1e0b]);
  (R 0x1e0b 0x1e0b, IM_Valid);
  (R 0x1e0c 0x1e0c, IM_Mapped [0x1e0d]);
  (R 0x1e0d 0x1e0d, IM_Valid);
  (R 0x1e0e 0x1e0e, IM_Mapped [0x1e0f]);
  (R 0x1e0f 0x1e0f, IM_Valid);
  (R 0x1e10 0x1e10, IM_Mapped [0x1e11]);
  (R 0x1e11 0x1e11, IM_Valid);
  (R 0x1e12 0x1e12, IM_Mapped [0x1e13]);
  (R 0x1e13 0x1e13, IM_Valid);
  (R 0x1e14 0x1e14, IM_Mapped [0x1e15]);
  (R 0x1e15 0x1e15, IM_Valid);
  (R 0x1e16 0x1e16, IM_Mapped [0x1e17]);
  (R 0x1e17 0x1e17, IM_Valid);
  (R 0x1e18 0x1e18, IM_Mapped [0x1e19]);
  (R 0x1e19 0x1e19, IM_Valid);
  (R 0x1e1a 0x1e1a, IM_Mapped [0x1e1b]);
  (R 0x1e1b 0x1e1b, IM_Valid);
  (R 0x1e1c 0x1e1c, IM_Mapped [0x1e1d]);
  (R 0x1e1d 0x1e1d, IM_Valid);
  (R 0x1e1e 0x1e1e, IM_Mapped [0x1e1f]);
  (R 0x1e1f 0x1e1f, IM_Valid);
  (R 0x1e20 0x1e20, IM_Mapped [0x1e21]);
  (R 0x1e21 0x1e21, IM_Valid);
  (R 0x1e22 0x1e22, IM_Mapped [0x1e23]);
  (R 0x1e23 0x1e23, IM_Valid);
  (R 0x1e24 0x1e24, IM_Mapped [0x1e25]);
  (R 0x1e25 0x1e25, IM_Valid);
  (R 0x1e26 0x1e26, IM_Mapped [0x1e27]);
  (R 0x1e27 0x1e27, IM_Valid);
  (R 0x1e28 0x1e28, IM_Mapped [0x1e29]);
  (R 0x1e29 0x1e29, IM_Valid);
  (R 0x1e2a 0x1e2a, IM_Mapped [0x1e2b]);
  (R 0x1e2b 0x1e2b, IM_Valid);
  (R 0x1e2c 0x1e2c, IM_Mapped [0x1e2d]);
  (R 0x1e2d 0x1e2d, IM_Valid);
  (R 0x1e2e 0x1e2e, IM_Mapped [0x1e2f]);
  (R 0x1e2f 0x1e2f, IM_Valid);
  (R 0x1e30 0x1e30, IM_Mapped [0x1e31]);
  (R 0x1e31 0x1e31, IM_Valid);
  (R 0x1e32 0x1e32, IM_Mapped [0x1e33]);
  (R 0x1e33 0x1e33, IM_Valid);
  (R 0x1e34 0x1e34, IM_Mapped [0x1e35]);
  (R 0x1e35 0x1e35, IM_Valid);
  (R 0x1e36 0x1e36, IM_Mapped [0x1e37]);
  (R 0x1e37 0x1e37, IM_Valid);
  (R 0x1e38 0x1e38, IM_Mapped [0x1e39]);
  (R 0x1e39 0x1e39, IM_Valid);
  (R 0x1e3a 0x1e3a, IM_Mapped [0x1e3b]);
  (R 0x1e3b 0x1e3b, IM_Valid);
  (R 0x1e3c 0x1e3c, IM_Mapped [0x1e3d]);
  (R 0x1e3d 0x1e3d, IM_Valid);
  (R 0x1e3e 0x1e3e, IM_Mapped [0x1e3f]);
  (R 0x1e3f 0x1e3f, IM_Valid);
  (R 0x1e40 0x1e40, IM_Mapped [0x1e41]);
  (R 0x1e41 0x1e41, IM_Valid);
  (R 0x1e42 0x1e42, IM_Mapped [0x1e43]);
  (R 0x1e43 0x1e43, IM_Valid);
  (R 0x1e44 0x1e44, IM_Mapped [0x1e45]);
  (R 0x1e45 0x1e45, IM_Valid);
  (R 0x1e46 0x1e46, IM_Mapped [0x1e47]);
  (R 0x1e47 0x1e47, IM_Valid);
  (R 0x1e48 0x1e48, IM_Mapped [0x1e49]);
  (R 0x1e49 0x1e49, IM_Valid);
  (R 0x1e4a 0x1e4a, IM_Mapped [0x1e4b]);
  (R 0x1e4b 0x1e4b, IM_Valid);
  (R 0x1e4c 0x1e4c, IM_Mapped [0x1e4d]);
  (R 0x1e4d 0x1e4d, IM_Valid);
  (R 0x1e4e 0x1e4e, IM_Mapped [0x1e4f]);
  (R 0x1e4f 0x1e4f, IM_Valid);
  (R 0x1e50 0x1e50, IM_Mapped [0x1e51]);
  (R 0x1e51 0x1e51, IM_Valid);
  (R 0x1e52 0x1e52, IM_Mapped [0x1e53]);
  (R 0x1e53 0x1e53, IM_Valid);
  (R 0x1e54 0x1e54, IM_Mapped [0x1e55]);
  (R 0x1e55 0x1e55, IM_Valid);
  (R 0x1e56 0x1e56, IM_Mapped [0x1e57]);
  (R 0x1e57 0x1e57, IM_Valid);
  (R 0x1e58 0x1e58, IM_Mapped [0x1e59]);
  (R 0x1e59 0x1e59, IM_Valid);
  (R 0x1e5a 0x1e5a, IM_Mapped [0x1e5b]);
  (R 0x1e5b 0x1e5b, IM_Valid);
  (R 0x1e5c 0x1e5c, IM_Mapped [0x1e5d]);
  (R 0x1e5d 0x1e5d, IM_Valid);
  (R 0x1e5e 0x1e5e, IM_Mapped [0x1e5f]);
  (R 0x1e5f 0x1e5f, IM_Valid);
  (R 0x1e60 0x1e60, IM_Mapped [0x1e61]);
  (R 0x1e61 0x1e61, IM_Valid);
  (R 0x1e62 0x1e62, IM_Mapped [0x1e63]);
  (R 0x1e63 0x1e63, IM_Valid);
  (R 0x1e64 0x1e64, IM_Mapped [0x1e65]);
  (R 0x1e65 0x1e65, IM_Valid);
  (R 0x1e66 0x1e66, IM_Mapped [0x1e67]);
  (R 0x1e67 0x1e67, IM_Valid);
  (R 0x1e68 0x1e68, IM_Mapped [0x1e69]);
  (R 0x1e69 0x1e69, IM_Valid);
  (R 0x1e6a 0x1e6a, IM_Mapped [0x1e6b]);
  (R 0x1e6b 0x1e6b, IM_Valid);
  (R 0x1e6c 0x1e6c, IM_Mapped [0x1e6d]);
  (R 0x1e6d 0x1e6d, IM_Valid);
  (R 0x1e6e 0x1e6e, IM_Mapped [0x1e6f]);
  (R 0x1e6f 0x1e6f, IM_Valid);
  (R 0x1e70 0x1e70, IM_Mapped [0x1e71]);
  (R 0x1e71 0x1e71, IM_Valid);
  (R 0x1e72 0x1e72, IM_Mapped [0x1e73]);
  (R 0x1e73 0x1e73, IM_Valid);
  (R 0x1e74 0x1e74, IM_Mapped [0x1e75]);
  (R 0x1e75 0x1e75, IM_Valid);
  (R 0x1e76 0x1e76, IM_Mapped [0x1e77]);
  (R 0x1e77 0x1e77, IM_Valid);
  (R 0x1e78 0x1e78, IM_Mapped [0x1e79]);
  (R 0x1e79 0x1e79, IM_Valid)].

Definition MAPPING_4 : list (CharRange * Mapping) := [
  (R 0x1e7a 0x1e7a, IM_Mapped [0x1e7b]);
  (R 0x1e7b 0x1e7b, IM_Valid);
  (R 0x1e7c 0x1e7c, IM_Mapped [0x1e7d]);
  (R 0x1e7d 0x1e7d, IM_Valid);
  (R 0x1e7e 0x1e7e, IM_Mapped [0x1e7f]);
  (R 0x1e7f 0x1e7f, IM_Valid);
  (R 0x1e80 0x1e80, IM_Mapped [0x1e81]);
  (R 0x1e81 0x1e81, IM_Valid);
  (R 0x1e82 0x1e82, IM_Mapped [0x1e83]);
  (R 0x1e83 0x1e83, IM_Valid);
  (R 0x1e84 0x1e84, IM_Mapped [0x1e85]);
  (R 0x1e85 0x1e85, IM_Valid);
  (R 0x1e86 0x1e86, IM_Mapped [0x1e87]);
  (R 0x1e87 0x1e87, IM_Valid);
  (R 0x1e88 0x1e88, IM_Mapped [0x1e89]);
  (R 0x1e89 0x1e89, IM_Valid);
  (R 0x1e8a 0x1e8a, IM_Mapped [0x1e8b]);
  (R 0x1e8b 0x1e8b, IM_Valid);
  (R 0x1e8c 0x1e8c, IM_Mapped [0x1e8d]);
  (R 0x1e8d 0x1e8d, IM_Valid);
  (R 0x1e8e 0x1e8e, IM_Mapped [0x1e8f]);
  (R 0x1e8f 0x1e8f, IM_Valid);
  (R 0x1e90 0x1e90, IM_Mapped [0x1e91]);
  (R 0x1e91 0x1e91, IM_Valid);
  (R 0x1e92 0x1e92, IM_Mapped [0x1e93]);
  (R 0x1e93 0x1e93, IM_Valid);
  (R 0x1e94 0x1e94, IM_Mapped [0x1e95]);
  (R 0x1e95 0x1e99, IM_Valid);
  (R 0x1e9a 0x1e9a, IM_Mapped [0x61; 0x2be]);
  (R 0x1e9b 0x1e9b, IM_Mapped [0x1e61]);
  (R 0x1e9c 0x1e9d, IM_Valid);
  (R 0x1e9e 0x1e9e, IM_Mapped [0x73; 0x73]);
  (R 0x1e9f 0x1e9f, IM_Valid);
  (R 0x1ea0 0x1ea0, IM_Mapped [0x1ea1]);
  (R 0x1ea1 0x1ea1, IM_Valid);
  (R 0x1ea2 0x1ea2, IM_Mapped [0x1ea3]);
  (R 0x1ea3 0x1ea3, IM_Valid);
  (R 0x1ea4 0x1ea4, IM_Mapped [0x1ea5]);
  (R 0x1ea5 0x1ea5, IM_Valid);
  (R 0x1ea6 0x1ea6, IM_Mapped [0x1ea7]);
  (R 0x1ea7 0x1ea7, IM_Valid);
  (R 0x1ea8 0x1ea8, IM_Mapped [0x1ea9]);
  (R 0x1ea9 0x1ea9, IM_Valid);
  (R 0x1eaa 0x1eaa, IM_Mapped [0x1eab]);
  (R 0x1eab 0x1eab, IM_Valid);
  (R 0x1eac 0x1eac, IM_Mapped [0x1ead]);
  (R 0x1ead 0x1ead, IM_Valid);
  (R 0x1eae 0x1eae, IM_Mapped [0x1eaf]);
  (R 0x1eaf 0x1eaf, IM_Valid);
  (R 0x1eb0 0x1eb0, IM_Mapped [0x1eb1]);
  (R 0x1eb1 0x1eb1, IM_Valid);
  (R 0x1eb2 0x1eb2, IM_Mapped [0x1eb3]);
  (R 0x1eb3 0x1eb3, IM_Valid);
  (R 0x1eb4 0x1eb4, IM_Mapped [0x1eb5]);
  (R 0x1eb5 0x1eb5, IM_Valid);
  (R 0x1eb6 0x1eb6, IM_Mapped [0x1eb7]);
  (R 0x1eb7 0x1eb7, IM_Valid);
  (R 0x1eb8 0x1eb8, IM_Mapped [0x1eb9]);
  (R 0x1eb9 0x1eb9, IM_Valid);
  (R 0x1eba 0x1eba, IM_Mapped [0x1ebb]);
  (R 0x1ebb 0x1ebb, IM_Valid);
  (R 0x1ebc 0x1ebc, IM_Mapped [0x1ebd]);
  (R 0x1ebd 0x1ebd, IM_Valid);
  (R 0x1ebe 0x1ebe, IM_Mapped [0x1ebf]);
  (R 0x1ebf 0x1ebf, IM_Valid);
  (R 0x1ec0 0x1ec0, IM_Mapped [0x1ec1]);
  (R 0x1ec1 0x1ec1, IM_Valid);
  (R 0x1ec2 0x1ec2, IM_Mapped [0x1ec3]);
  (R 0x1ec3 0x1ec3, IM_Valid);
  (R 0x1ec4 0x1ec4, IM_Mapped [0x1ec5]);
  (R 0x1ec5 0x1ec5, IM_Valid);
  (R 0x1ec6 0x1ec6, IM_Mapped [0x1ec7]);
  (R 0x1ec7 0x1ec7, IM_Valid);
  (R 0x1ec8 0x1ec8, IM_Mapped [0x1ec9]);
  (R 0x1ec9 0x1ec9, IM_Valid);
  (R 0x1eca 0x1eca, IM_Mapped [0x1ecb]);
  (R 0x1ecb 0x1ecb, IM_Valid);
  (R 0x1ecc 0x1ecc, IM_Mapped [0x1ecd]);
  (R 0x1ecd 0x1ecd, IM_Valid);
  (R 0x1ece 0x1ece, IM_Mapped [0x1ecf]);
  (R 0x1ecf 0x1ecf, IM_Valid);
  (R 0x1ed0 0x1ed0, IM_Mapped [0x1ed1]);
  (R 0x1ed1 0x1ed1, IM_Valid);
  (R 0x1ed2 0x1ed2, IM_Mapped [0x1ed3]);
  (R 0x1ed3 0x1ed3, IM_Valid);
  (R 0x1ed4 0x1ed4, IM_Mapped [0x1ed5]);
  (R 0x1ed5 0x1ed5, IM_Valid);
  (R 0x1ed6 0x1ed6, IM_Mapped [0x1ed7]);
  (R 0x1ed7 0x1ed7, IM_Valid);
  (R 0x1ed8 0x1ed8, IM_Mapped [0x1ed9]);
  (R 0x1ed9 0x1ed9, IM_Valid);
  (R 0x1eda 0x1eda, IM_Mapped [0x1edb]);
  (R 0x1edb 0x1edb, IM_Valid);
  (R 0x1edc 0x1edc, IM_Mapped [0x1edd]);
  (R 0x1edd 0x1edd, IM_Valid);
  (R 0x1ede 0x1ede, IM_Mapped [0x1edf]);
  (R 0x1edf 0x1edf, IM_Valid);
  (R 0x1ee0 0x1ee0, IM_Mapped [0x1ee1]);
  (R 0x1ee1 0x1ee1, IM_Valid);
  (R 0x1ee2 0x1ee2, IM_Mapped [0x1ee3]);
  (R 0x1ee3 0x1ee3, IM_Valid);
  (R 0x1ee4 0x1ee4, IM_Mapped [0x1ee5]);
  (R 0x1ee5 0x1ee5, IM_Valid);
  (R 0x1ee6 0x1ee6, IM_Mapped [0x1ee7]);
  (R 0x1ee7 0x1ee7, IM_Valid);
  (R 0x1ee8 0x1ee8, IM_Mapped [0x1ee9]);
  (R 0x1ee9 0x1ee9, IM_Valid);
  (R 0x1eea 0x1eea, IM_Mapped [0x1eeb]);
  (R 0x1eeb 0x1eeb, IM_Valid);
  (R 0x1eec 0x1eec, IM_Mapped [0x1eed]);
  (R 0x1eed 0x1eed, IM_Valid);
  (R 0x1eee 0x1eee, IM_Mapped [0x1eef]);
  (R 0x1eef 0x1eef, IM_Valid);
  (R 0x1ef0 0x1ef0, IM_Mapped [0x1ef1]);
  (R 0x1ef1 0x1ef1, IM_Valid);
  (R 0x1ef2 0x1ef2, IM_Mapped [0x1ef3]);
  (R 0x1ef3 0x1ef3, IM_Valid);
  (R 0x1ef4 0x1ef4, IM_Mapped [0x1ef5]);
  (R 0x1ef5 0x1ef5, IM_Valid);
  (R 0x1ef6 0x1ef6, IM_Mapped [0x1ef7]);
  (R 0x1ef7 0x1ef7, IM_Valid);
  (R 0x1ef8 0x1ef8, IM_Mapped [0x1ef9]);
  (R 0x1ef9 0x1ef9, IM_Valid);
  (R 0x1efa 0x1efa, IM_Mapped [0x1efb]);
  (R 0x1efb 0x1efb, IM_Valid);
  (R 0x1efc 0x1efc, IM_Mapped [0x1efd]);
  (R 0x1efd 0x1efd, IM_Valid);
  (R 0x1efe 0x1efe, IM_Mapped [0x1eff]);
  (R 0x1eff 0x1f07, IM_Valid);
  (R 0x1f08 0x1f08, IM_Mapped [0x1f00]);
  (R 0x1f09 0x1f09, IM_Mapped [0x1f01]);
  (R 0x1f0a 0x1f0a, IM_Mapped [0x1f02]);
  (R 0x1f0b 0x1f0b, IM_Mapped [0x1f03]);
  (R 0x1f0c 0x1f0c, IM_Mapped [0x1f04]);
  (R 0x1f0d 0x1f0d, IM_Mapped [0x1f05]);
  (R 0x1f0e 0x1f0e, IM_Mapped [0x1f06]);
  (R 0x1f0f 0x1f0f, IM_Mapped [0x1f07]);
  (R 0x1f10 0x1f15, IM_Valid);
  (R 0x1f16 0x1f17, IM_Disallowed);
  (R 0x1f18 0x1f18, IM_Mapped [0x1f10]);
  (R 0x1f19 0x1f19, IM_Mapped [0x1f11]);
  (R 0x1f1a 0x1f1a, IM_Mapped [0x1f12]);
  (R 0x1f1b 0x1f1b, IM_Mapped [0x1f13]);
  (R 0x1f1c 0x1f1c, IM_Mapped [0x1f14]);
  (R 0x1f1d 0x1f1d, IM_Mapped [0x1f15]);
  (R 0x1f1e 0x1f1f, IM_Disallowed);
  (R 0x1f20 0x1f27, IM_Valid);
  (R 0x1f28 0x1f28, IM_Mapped [0x1f20]);
  (R 0x1f29 0x1f29, IM_Mapped [0x1f21]);
  (R 0x1f2a 0x1f2a, IM_Mapped [0x1f22]);
  (R 0x1f2b 0x1f2b, IM_Mapped [0x1f23]);
  (R 0x1f2c 0x1f2c, IM_Mapped [0x1f24]);
  (R 0x1f2d 0x1f2d, IM_Mapped [0x1f25]);
  (R 0x1f2e 0x1f2e, IM_Mapped [0x1f26]);
  (R 0x1f2f 0x1f2f, IM_Mapped [0x1f27]);
  (R 0x1f30 0x1f37, IM_Valid);
  (R 0x1f38 0x1f38, IM_Mapped [0x1f30]);
  (R 0x1f39 0x1f39, IM_Mapped [0x1f31]);
  (R 0x1f3a 0x1f3a, IM_Mapped [0x1f32]);
  (R 0x1f3b 0x1f3b, IM_Mapped [0x1f33]);
  (R 0x1f3c 0x1f3c, IM_Mapped [0x1f34]);
  (R 0x1f3d 0x1f3d, IM_Mapped [0x1f35]);
  (R 0x1f3e 0x1f3e, IM_Mapped [0x1f36]);
  (R 0x1f3f 0x1f3f, IM_Mapped [0x1f37]);
  (R 0x1f40 0x1f45, IM_Valid);
  (R 0x1f46 0x1f47, IM_Disallowed);
  (R 0x1f48 0x1f48, IM_Mapped [0x1f40]);
  (R 0x1f49 0x1f49, IM_Mapped [0x1f41]);
  (R 0x1f4a 0x1f4a, IM_Mapped [0x1f42]);
  (R 0x1f4b 0x1f4b, IM_Mapped [0x1f43]);
  (R 0x1f4c 0x1f4c, IM_Mapped [0x1f44]);
  (R 0x1f4d 0x1f4d, IM_Mapped [0x1f45]);
  (R 0x1f4e 0x1f4f, IM_Disallowed);
  (R 0x1f50 0x1f57, IM_Valid);
  (R 0x1f58 0x1f58, IM_Disallowed);
  (R 0x1f59 0x1f59, IM_Mapped [0x1f51]);
  (R 0x1f5a 0x1f5a, IM_Disallowed);
  (R 0x1f5b 0x1f5b, IM_Mapped [0x1f53]);
  (R 0x1f5c 0x1f5c, IM_Disallowed);
  (R 0x1f5d 0x1f5d, IM_Mapped [0x1f55]);
  (R 0x1f5e 0x1f5e, IM_Disallowed);
  (R 0x1f5f 0x1f5f, IM_Mapped [0x1f57]);
  (R 0x1f60 0x1f67, IM_Valid);
  (R 0x1f68 0x1f68, IM_Mapped [0x1f60]);
  (R 0x1f69 0x1f69, IM_Mapped [0x1f61]);
  (R 0x1f6a 0x1f6a, IM_Mapped [0x1f62]);
  (R 0x1f6b 0x1f6b, IM_Mapped [0x1f63]);
  (R 0x1f6c 0x1f6c, IM_Mapped [0x1f64]);
  (R 0x1f6d 0x1f6d, IM_Mapped [0x1f65]);
  (R 0x1f6e 0x1f6e, IM_Mapped [0x1f66]);
  (R 0x1f6f 0x1f6f, IM_Mapped [0x1f67]);
  (R 0x1f70 0x1f70, IM_Valid);
  (R 0x1f71 0x1f71, IM_Mapped [0x3ac]);
  (R 0x1f72 0x1f72, IM_Valid);
  (R 0x1f73 0x1f73, IM_Mapped [0x3ad]);
  (R 0x1f74 0x1f74, IM_Valid);
  (R 0x1f75 0x1f75, IM_Mapped [0x3ae]);
  (R 0x1f76 0x1f76, IM_Valid);
  (R 0x1f77 0x1f77, IM_Mapped [0x3af]);
  (R 0x1f78 0x1f78, IM_Valid);
  (R 0x1f79 0x1f79, IM_Mapped [0x3cc]);
  (R 0x1f7a 0x1f7a, IM_Valid);
  (R 0x1f7b 0x1f7b, IM_Mapped [0x3cd]);
  (R 0x1f7c 0x1f7c, IM_Valid);
  (R 0x1f7d 0x1f7d, IM_Mapped [0x3ce]);
  (R 0x1f7e 0x1f7f, IM_Disallowed);
  (R 0x1f80 0x1f80, IM_Mapped [0x1f00; 0x3b9]);
  (R 0x1f81 0x1f81, IM_Mapped [0x1f01; 0x3b9]);
  (R 0x1f82 0x1f82, IM_Mapped [0x1f02; 0x3b9]);
  (R 0x1f83 0x1f83, IM_Mapped [0x1f03; 0x3b9]);
  (R 0x1f84 0x1f84, IM_Mapped [0x1f04; 0x3b9]);
  (R 0x1f85 0x1f85, IM_Mapped [0x1f05; 0x3b9]);
  (R 0x1f86 0x1f86, IM_Mapped [0x1f06; 0x3b9]);
  (R 0x1f87 0x1f87, IM_Mapped [0x1f07; 0x3b9]);
  (R 0x1f88 0x1f88, IM_Mapped [0x1f00; 0x3b9]);
  (R 0x1f89 0x1f89, IM_Mapped [0x1f01; 0x3b9]);
  (R 0x1f8a 0x1f8a, IM_Mapped [0x1f02; 0x3b9]);
  (R 0x1f8b 0x1f8b, IM_Mapped [0x1f03; 0x3b9]);
  (R 0x1f8c 0x1f8c, IM_Mapped [0x1f04; 0x3b9]);
  (R 0x1f8d 0x1f8d, IM_Mapped [0x1f05; 0x3b9]);
  (R 0x1f8e 0x1f8e, IM_Mapped [0x1f06; 0x3b9]);
  (R 0x1f8f 0x1f8f, IM_Mapped [0x1f07; 0x3b9]);
  (R 0x1f90 0x1f90, IM_Mapped [0x1f20; 0x3b9]);
  (R 0x1f91 0x1f91, IM_Mapped [0x1f21; 0x3b9]);
  (R 0x1f92 0x1f92, IM_Mapped [0x1f22; 0x3b9]);
  (R 0x1f93 0x1f93, IM_Mapped [0x1f23; 0x3b9]);
  (R 0x1f94 0x1f94, IM_Mapped [0x1f24; 0x3b9]);
  (R 0x1f95 0x1f95, IM_Mapped [0x1f25; 0x3b9]);
  (R 0x1f96 0x1f96, IM_Mapped [0x1f26; 0x3b9]);
  (R 0x1f97 0x1f97, IM_Mapped [0x1f27; 0x3b9]);
  (R 0x1f98 0x1f98, IM_Mapped [0x1f20; 0x3b9]);
  (R 0x1f99 0x1f99, IM_Mapped [0x1f21; 0x3b9]);
  (R 0x1f9a 0x1f9a, IM_Mapped [0x1f22; 0x3b9]);
  (R 0x1f9b 0x1f9b, IM_Mapped [0x1f23; 0x3b9]);
  (R 0x1f9c 0x1f9c, IM_Mapped [0x1f24; 0x3b9]);
  (R 0x1f9d 0x1f9d, IM_Mapped [0x1f25; 0x3b9]);
  (R 0x1f9e 0x1f9e, IM_Mapped [0x1f26; 0x3b9]);
  (R 0x1f9f 0x1f9f, IM_Mapped [0x1f27; 0x3b9]);
  (R 0x1fa0 0x1fa0, IM_Mapped [0x1f60; 0x3b9]);
  (R 0x1fa1 0x1fa1, IM_Mapped [0x1f61; 0x3b9]);
  (R 0x1fa2 0x1fa2, IM_Mapped [0x1f62; 0x3b9]);
  (R 0x1fa3 0x1fa3, IM_Mapped [0x1f63; 0x3b9]);
  (R 0x1fa4 0x1fa4, IM_Mapped [0x1f64; 0x3b9]);
  (R 0x1fa5 0x1fa5, IM_Mapped [0x1f65; 0x3b9]);
  (R 0x1fa6 0x1fa6, IM_Mapped [0x1f66; 0x3b9]);
  (R 0x1fa7 0x1fa7, IM_Mapped [0x1f67; 0x3b9]);
  (R 0x1fa8 0x1fa8, IM_Mapped [0x1f60; 0x3b9]);
  (R 0x1fa9 0x1fa9, IM_Mapped [0x1f61; 0x3b9]);
  (R 0x1faa 0x1faa, IM_Mapped [0x1f62; 0x3b9]);
  (R 0x1fab 0x1fab, IM_Mapped [0x1f63; 0x3b9]);
  (R 0x1fac 0x1fac, IM_Mapped [0x1f64; 0x3b9]);
  (R 0x1fad 0x1fad, IM_Mapped [0x1f65; 0x3b9]);
  (R 0x1fae 0x1fae, IM_Mapped [0x1f66; 0x3b9]);
  (R 0x1faf 0x1faf, IM_Mapped [0x1f67; 0x3b9]);
  (R 0x1fb0 0x1fb1, IM_Valid);
  (R 0x1fb2 0x1fb2, IM_Mapped [0x1f70; 0x3b9]);
  (R 0x1fb3 0x1fb3, IM_Mapped [0x3b1; 0x3b9]);
  (R 0x1fb4 0x1fb4, IM_Mapped [0x3ac; 0x3b9]);
  (R 0x1fb5 0x1fb5, IM_Disallowed);
  (R 0x1fb6 0x1fb6, IM_Valid);
  (R 0x1fb7 0x1fb7, IM_Mapped [0x1fb6; 0x3b9]);
  (R 0x1fb8 0x1fb8, IM_Mapped [0x1fb0]);
  (R 0x1fb9 0x1fb9, IM_Mapped [0x1fb1]);
  (R 0x1fba 0x1fba, IM_Mapped [0x1f70]);
  (R 0x1fbb 0x1fbb, IM_Mapped [0x3ac]);
  (R 0x1fbc 0x1fbc, IM_Mapped [0x3b1; 0x3b9]);
  (R 0x1fbd 0x1fbd, IM_DisallowedStd3Mapped [0x20; 0x313]);
  (R 0x1fbe 0x1fbe, IM_Mapped [0x3b9]);
  (R 0x1fbf 0x1fbf, IM_DisallowedStd3Mapped [0x20; 0x313]);
  (R 0x1fc0 0x1fc0, IM_DisallowedStd3Mapped [0x20; 0x342]);
  (R 0x1fc1 0x1fc1, IM_DisallowedStd3Mapped [0x20; 0x308; 0x342]);
  (R 0x1fc2 0x1fc2, IM_Mapped [0x1f74; 0x3b9]);
  (R 0x1fc3 0x1fc3, IM_Mapped [0x3b7; 0x3b9]);
  (R 0x1fc4 0x1fc4, IM_Mapped [0x3ae; 0x3b9]);
  (R 0x1fc5 0x1fc5, IM_Disallowed);
  (R 0x1fc6 0x1fc6, IM_Valid);
  (R 0x1fc7 0x1fc7, IM_Mapped [0x1fc6; 0x3b9]);
  (R 0x1fc8 0x1fc8, IM_Mapped [0x1f72]);
  (R 0x1fc9 0x1fc9, IM_Mapped [0x3ad]);
  (R 0x1fca 0x1fca, IM_Mapped [0x1f74]);
  (R 0x1fcb 0x1fcb, IM_Mapped [0x3ae]);
  (R 0x1fcc 0x1fcc, IM_Mapped [0x3b7; 0x3b9]);
  (R 0x1fcd 0x1fcd, IM_DisallowedStd3Mapped [0x20; 0x313; 0x300]);
  (R 0x1fce 0x1fce, IM_DisallowedStd3Mapped [0x20; 0x313; 0x301]);
  (R 0x1fcf 0x1fcf, IM_DisallowedStd3Mapped [0x20; 0x313; 0x342]);
  (R 0x1fd0 0x1fd2, IM_Valid);
  (R 0x1fd3 0x1fd3, IM_Mapped [0x390]);
  (R 0x1fd4 0x1fd5, IM_Disallowed);
  (R 0x1fd6 0x1fd7, IM_Valid);
  (R 0x1fd8 0x1fd8, IM_Mapped [0x1fd0]);
  (R 0x1fd9 0x1fd9, IM_Mapped [0x1fd1]);
  (R 0x1fda 0x1fda, IM_Mapped [0x1f76]);
  (R 0x1fdb 0x1fdb, IM_Mapped [0x3af]);
  (R 0x1fdc 0x1fdc, IM_Disallowed);
  (R 0x1fdd 0x1fdd, IM_DisallowedStd3Mapped [0x20; 0x314; 0x300]);
  (R 0x1fde 0x1fde, IM_DisallowedStd3Mapped [0x20; 0x314; 0x301]);
  (R 0x1fdf 0x1fdf, IM_DisallowedStd3Mapped [0x20; 0x314; 0x342]);
  (R 0x1fe0 0x1fe2, IM_Valid);
  (R 0x1fe3 0x1fe3, IM_Mapped [0x3b0]);
  (R 0x1fe4 0x1fe7, IM_Valid);
  (R 0x1fe8 0x1fe8, IM_Mapped [0x1fe0]);
  (R 0x1fe9 0x1fe9, IM_Mapped [0x1fe1]);
  (R 0x1fea 0x1fea, IM_Mapped [0x1f7a]);
  (R 0x1feb 0x1feb, IM_Mapped [0x3cd]);
  (R 0x1fec 0x1fec, IM_Mapped [0x1fe5]);
  (R 0x1fed 0x1fed, IM_DisallowedStd3Mapped [0x20; 0x308; 0x300]);
  (R 0x1fee 0x1fee, IM_DisallowedStd3Mapped [0x20; 0x308; 0x301]);
  (R 0x1fef 0x1fef, IM_DisallowedStd3Mapped [0x60]);
  (R 0x1ff0 0x1ff1, IM_Disallowed);
  (R 0x1ff2 0x1ff2, IM_Mapped [0x1f7c; 0x3b9]);
  (R 0x1ff3 0x1ff3, IM_Mapped [0x3c9; 0x3b9]);
  (R 0x1ff4 0x1ff4, IM_Mapped [0x3ce; 0x3b9]);
  (R 0x1ff5 0x1ff5, IM_Disallowed);
  (R 0x1ff6 0x1ff6, IM_Valid);
  (R 0x1ff7 0x1ff7, IM_Mapped [0x1ff6; 0x3b9]);
  (R 0x1ff8 0x1ff8, IM_Mapped [0x1f78]);
  (R 0x1ff9 0x1ff9, IM_Mapped [0x3cc]);
  (R 0x1ffa 0x1ffa, IM_Mapped [0x1f7c]);
  (R 0x1ffb 0x1ffb, IM_Mapped [0x3ce]);
  (R 0x1ffc 0x1ffc, IM_Mapped [0x3c9; 0x3b9]);
  (R 0x1ffd 0x1ffd, IM_DisallowedStd3Mapped [0x20; 0x301]);
  (R 0x1ffe 0x1ffe, IM_DisallowedStd3Mapped [0x20; 0x314]);
  (R 0x1fff 0x1fff, IM_Disallowed);
  (R 0x2000 0x200a, IM_DisallowedStd3Mapped [0x20]);
  (R 0x200b 0x200b, IM_Ignored);
  (R 0x200c 0x200d, IM_Deviation []);
  (R 0x200e 0x200f, IM_Disallowed);
  (R 0x2010 0x2010, IM_Valid);
  (R 0x2011 0x2011, IM_Mapped [0x2010]);
  (R 0x2012 0x2016, IM_Valid);
  (R 0x2017 0x2017, IM_DisallowedStd3Mapped [0x20; 0x333]);
  (R 0x2018 0x2023, IM_Valid);
  (R 0x2024 0x2026, IM_Disallowed);
  (R 0x2027 0x2027, IM_Valid);
  (R 0x2028 0x202e, IM_Disallowed);
  (R 0x202f 0x202f, IM_DisallowedStd3Mapped [0x20]);
  (R 0x2030 0x2032, IM_Valid);
  (R 0x2033 0x2033, IM_Mapped [0x2032; 0x2032]);
  (R 0x2034 0x2034, IM_Mapped [0x2032; 0x2032; 0x2032]);
  (R 0x2035 0x2035, IM_Valid);
  (R 0x2036 0x2036, IM_Mapped [0x2035; 0x2035]);
  (R 0x2037 0x2037, IM_Mapped [0x2035; 0x2035; 0x2035]);
  (R 0x2038 0x203b, IM_Valid);
  (R 0x203c 0x203c, IM_DisallowedStd3Mapped [0x21; 0x21]);
  (R 0x203d 0x203d, IM_Valid);
  (R 0x203e 0x203e, IM_DisallowedStd3Mapped [0x20; 0x305]);
  (R 0x203f 0x2046, IM_Valid);
  (R 0x2047 0x2047, IM_DisallowedStd3Mapped [0x3f; 0x3f]);
  (R 0x2048 0x2048, IM_DisallowedStd3Mapped [0x3f; 0x21]);
  (R 0x2049 0x2049, IM_DisallowedStd3Mapped [0x21; 0x3f]);
  (R 0x204a 0x2056, IM_Valid);
  (R 0x2057 0x2057, IM_Mapped [0x2032; 0x2032; 0x2032; 0x2032]);
  (R 0x2058 0x205e, IM_Valid);
  (R 0x205f 0x205f, IM_DisallowedStd3Mapped [0x20]);
  (R 0x2060 0x2060, IM_Ignored);
  (R 0x2061 0x2063, IM_Disallowed);
  (R 0x2064 0x2064, IM_Ignored);
  (R 0x2065 0x206f, IM_Disallowed);
  (R 0x2070 0x2070, IM_Mapped [0x30]);
  (R 0x2071 0x2071, IM_Mapped [0x69]);
  (R 0x2072 0x2073, IM_Disallowed);
  (R 0x2074 0x2074, IM_Mapped [0x34]);
  (R 0x2075 0x2075, IM_Mapped [0x35]);
  (R 0x2076 0x2076, IM_Mapped [0x36]);
  (R 0x2077 0x2077, IM_Mapped [0x37]);
  (R 0x2078 0x2078, IM_Mapped [0x38]);
  (R 0x2079 0x2079, IM_Mapped [0x39]);
  (R 0x207a 0x207a, IM_DisallowedStd3Mapped [0x2b]);
  (R 0x207b 0x207b, IM_Mapped [0x2212]);
  (R 0x207c 0x207c, IM_DisallowedStd3Mapped [0x3d]);
  (R 0x207d 0x207d, IM_DisallowedStd3Mapped [0x28]);
  (R 0x207e 0x207e, IM_DisallowedStd3Mapped [0x29]);
  (R 0x207f 0x207f, IM_Mapped [0x6e]);
  (R 0x2080 0x2080, IM_Mapped [0x30]);
  (R 0x2081 0x2081, IM_Mapped [0x31]);
  (R 0x2082 0x2082, IM_Mapped [0x32]);
  (R 0x2083 0x2083, IM_Mapped [0x33]);
  (R 0x2084 0x2084, IM_Mapped [0x34]);
  (R 0x2085 0x2085, IM_Mapped [0x35]);
  (R 0x2086 0x2086, IM_Mapped [0x36]);
  (R 0x2087 0x2087, IM_Mapped [0x37]);
  (R 0x2088 0x2088, IM_Mapped [0x38]);
  (R 0x2089 0x2089, IM_Mapped [0x39]);
  (R 0x208a 0x208a, IM_DisallowedStd3Mapped [0x2b]);
  (R 0x208b 0x208b, IM_Mapped [0x2212]);
  (R 0x208c 0x208c, IM_DisallowedStd3Mapped [0x3d]);
  (R 0x208d 0x208d, IM_DisallowedStd3Mapped [0x28]);
  (R 0x208e 0x208e, IM_DisallowedStd3Mapped [0x29]);
  (R 0x208f 0x208f, IM_Disallowed);
  (R 0x2090 0x2090, IM_Mapped [0x61]);
  (R 0x2091 0x2091, IM_Mapped [0x65]);
  (R 0x2092 0x2092, IM_Mapped [0x6f]);
  (R 0x2093 0x2093, IM_Mapped [0x78]);
  (R 0x2094 0x2094, IM_Mapped [0x259]);
  (R 0x2095 0x2095, IM_Mapped [0x68]);
  (R 0x2096 0x2096, IM_Mapped [0x6b]);
  (R 0x2097 0x2097, IM_Mapped [0x6c]);
  (R 0x2098 0x2098, IM_Mapped [0x6d]);
  (R 0x2099 0x2099, IM_Mapped [0x6e]);
  (R 0x209a 0x209a, IM_Mapped [0x70])].

Definition MAPPING_5 : list (CharRange * Mapping) := [
  (R 0x209b 0x209b, IM_Mapped [0x73]);
  (R 0x209c 0x209c, IM_Mapped [0x74]);
  (R 0x209d 0x209f, IM_Disallowed);
  (R 0x20a0 0x20a7, IM_Valid);
  (R 0x20a8 0x20a8, IM_Mapped [0x72; 0x73]);
  (R 0x20a9 0x20bf, IM_Valid);
  (R 0x20c0 0x20cf, IM_Disallowed);
  (R 0x20d0 0x20f0, IM_Valid);
  (R 0x20f1 0x20ff, IM_Disallowed);
  (R 0x2100 0x2100, IM_DisallowedStd3Mapped [0x61; 0x2f; 0x63]);
  (R 0x2101 0x2101, IM_DisallowedStd3Mapped [0x61; 0x2f; 0x73]);
  (R 0x2102 0x2102, IM_Mapped [0x63]);
  (R 0x2103 0x2103, IM_Mapped [0xb0; 0x63]);
  (R 0x2104 0x2104, IM_Valid);
  (R 0x2105 0x2105, IM_DisallowedStd3Mapped [0x63; 0x2f; 0x6f]);
  (R 0x2106 0x2106, IM_DisallowedStd3Mapped [0x63; 0x2f; 0x75]);
  (R 0x2107 0x2107, IM_Mapped [0x25b]);
  (R 0x2108 0x2108, IM_Valid);
  (R 0x2109 0x2109, IM_Mapped [0xb0; 0x66]);
  (R 0x210a 0x210a, IM_Mapped [0x67]);
  (R 0x210b 0x210e, IM_Mapped [0x68]);
  (R 0x210f 0x210f, IM_Mapped [0x127]);
  (R 0x2110 0x2111, IM_Mapped [0x69]);
  (R 0x2112 0x2113, IM_Mapped [0x6c]);
  (R 0x2114 0x2114, IM_Valid);
  (R 0x2115 0x2115, IM_Mapped [0x6e]);
  (R 0x2116 0x2116, IM_Mapped [0x6e; 0x6f]);
  (R 0x2117 0x2118, IM_Valid);
  (R 0x2119 0x2119, IM_Mapped [0x70]);
  (R 0x211a 0x211a, IM_Mapped [0x71]);
  (R 0x211b 0x211d, IM_Mapped [0x72]);
  (R 0x211e 0x211f, IM_Valid);
  (R 0x2120 0x2120, IM_Mapped [0x73; 0x6d]);
  (R 0x2121 0x2121, IM_Mapped [0x74; 0x65; 0x6c]);
  (R 0x2122 0x2122, IM_Mapped [0x74; 0x6d]);
  (R 0x2123 0x2123, IM_Valid);
  (R 0x2124 0x2124, IM_Mapped [0x7a]);
  (R 0x2125 0x2125, IM_Valid);
  (R 0x2126 0x2126, IM_Mapped [0x3c9]);
  (R 0x2127 0x2127, IM_Valid);
  (R 0x2128 0x2128, IM_Mapped [0x7a]);
  (R 0x2129 0x2129, IM_Valid);
  (R 0x212a 0x212a, IM_Mapped [0x6b]);
  (R 0x212b 0x212b, IM_Mapped [0xe5]);
  (R 0x212c 0x212c, IM_Mapped [0x62]);
  (R 0x212d 0x212d, IM_Mapped [0x63]);
  (R 0x212e 0x212e, IM_Valid);
  (R 0x212f 0x2130, IM_Mapped [0x65]);
  (R 0x2131 0x2131, IM_Mapped [0x66]);
  (R 0x2132 0x2132, IM_Disallowed);
  (R 0x2133 0x2133, IM_Mapped [0x6d]);
  (R 0x2134 0x2134, IM_Mapped [0x6f]);
  (R 0x2135 0x2135, IM_Mapped [0x5d0]);
  (R 0x2136 0x2136, IM_Mapped [0x5d1]);
  (R 0x2137 0x2137, IM_Mapped [0x5d2]);
  (R 0x2138 0x2138, IM_Mapped [0x5d3]);
  (R 0x2139 0x2139, IM_Mapped [0x69]);
  (R 0x213a 0x213a, IM_Valid);
  (R 0x213b 0x213b, IM_Mapped [0x66; 0x61; 0x78]);
  (R 0x213c 0x213c, IM_Mapped [0x3c0]);
  (R 0x213d 0x213e, IM_Mapped [0x3b3]);
  (R 0x213f 0x213f, IM_Mapped [0x3c0]);
  (R 0x2140 0x2140, IM_Mapped [0x2211]);
  (R 0x2141 0x2144, IM_Valid);
  (R 0x2145 0x2146, IM_Mapped [0x64]);
  (R 0x2147 0x2147, IM_Mapped [0x65]);
  (R 0x2148 0x2148, IM_Mapped [0x69]);
  (R 0x2149 0x2149, IM_Mapped [0x6a]);
  (R 0x214a 0x214f, IM_Valid);
  (R 0x2150 0x2150, IM_Mapped [0x31; 0x2044; 0x37]);
  (R 0x2151 0x2151, IM_Mapped [0x31; 0x2044; 0x39]);
  (R 0x2152 0x2152, IM_Mapped [0x31; 0x2044; 0x31; 0x30]);
  (R 0x2153 0x2153, IM_Mapped [0x31; 0x2044; 0x33]);
  (R 0x2154 0x2154, IM_Mapped [0x32; 0x2044; 0x33]);
  (R 0x2155 0x2155, IM_Mapped [0x31; 0x2044; 0x35]);
  (R 0x2156 0x2156, IM_Mapped [0x32; 0x2044; 0x35]);
  (R 0x2157 0x2157, IM_Mapped [0x33; 0x2044; 0x35]);
  (R 0x2158 0x2158, IM_Mapped [0x34; 0x2044; 0x35]);
  (R 0x2159 0x2159, IM_Mapped [0x31; 0x2044; 0x36]);
  (R 0x215a 0x215a, IM_Mapped [0x35; 0x2044; 0x36]);
  (R 0x215b 0x215b, IM_Mapped [0x31; 0x2044; 0x38]);
  (R 0x215c 0x215c, IM_Mapped [0x33; 0x2044; 0x38]);
  (R 0x215d 0x215d, IM_Mapped [0x35; 0x2044; 0x38]);
  (R 0x215e 0x215e, IM_Mapped [0x37; 0x2044; 0x38]);
  (R 0x215f 0x215f, IM_Mapped [0x31; 0x2044]);
  (R 0x2160 0x2160, IM_Mapped [0x69]);
  (R 0x2161 0x2161, IM_Mapped [0x69; 0x69]);
  (R 0x2162 0x2162, IM_Mapped [0x69; 0x69; 0x69]);
  (R 0x2163 0x2163, IM_Mapped [0x69; 0x76]);
  (R 0x2164 0x2164, IM_Mapped [0x76]);
  (R 0x2165 0x2165, IM_Mapped [0x76; 0x69]);
  (R 0x2166 0x2166, IM_Mapped [0x76; 0x69; 0x69]);
  (R 0x2167 0x2167, IM_Mapped [0x76; 0x69; 0x69; 0x69]);
  (R 0x2168 0x2168, IM_Mapped [0x69; 0x78]);
  (R 0x2169 0x2169, IM_Mapped [0x78]);
  (R 0x216a 0x216a, IM_Mapped [0x78; 0x69]);
  (R 0x216b 0x216b, IM_Mapped [0x78; 0x69; 0x69]);
  (R 0x216c 0x216c, IM_Mapped [0x6c]);
  (R 0x216d 0x216d, IM_Mapped [0x63]);
  (R 0x216e 0x216e, IM_Mapped [0x64]);
  (R 0x216f 0x216f, IM_Mapped [0x6d]);
  (R 0x2170 0x2170, IM_Mapped [0x69]);
  (R 0x2171 0x2171, IM_Mapped [0x69; 0x69]);
  (R 0x2172 0x2172, IM_Mapped [0x69; 0x69; 0x69]);
  (R 0x2173 0x2173, IM_Mapped [0x69; 0x76]);
  (R 0x2174 0x2174, IM_Mapped [0x76]);
  (R 0x2175 0x2175, IM_Mapped [0x76; 0x69]);
  (R 0x2176 0x2176, IM_Mapped [0x76; 0x69; 0x69]);
  (R 0x2177 0x2177, IM_Mapped [0x76; 0x69; 0x69; 0x69]);
  (R 0x2178 0x2178, IM_Mapped [0x69; 0x78]);
  (R 0x2179 0x2179, IM_Mapped [0x78]);
  (R 0x217a 0x217a, IM_Mapped [0x78; 0x69]);
  (R 0x217b 0x217b, IM_Mapped [0x78; 0x69; 0x69]);
  (R 0x217c 0x217c, IM_Mapped [0x6c]);
  (R 0x217d 0x217d, IM_Mapped [0x63]);
  (R 0x217e 0x217e, IM_Mapped [0x64]);
  (R 0x217f 0x217f, IM_Mapped [0x6d]);
  (R 0x2180 0x2182, IM_Valid);
  (R 0x2183 0x2183, IM_Disallowed);
  (R 0x2184 0x2188, IM_Valid);
  (R 0x2189 0x2189, IM_Mapped [0x30; 0x2044; 0x33]);
  (R 0x218a 0x218b, IM_Valid);
  (R 0x218c 0x218f, IM_Disallowed);
  (R 0x2190 0x222b, IM_Valid);
  (R 0x222c 0x222c, IM_Mapped [0x222b; 0x222b]);
  (R 0x222d 0x222d, IM_Mapped [0x222b; 0x222b; 0x222b]);
  (R 0x222e 0x222e, IM_Valid);
  (R 0x222f 0x222f, IM_Mapped [0x222e; 0x222e]);
  (R 0x2230 0x2230, IM_Mapped [0x222e; 0x222e; 0x222e]);
  (R 0x2231 0x225f, IM_Valid);
  (R 0x2260 0x2260, IM_DisallowedStd3Valid);
  (R 0x2261 0x226d, IM_Valid);
  (R 0x226e 0x226f, IM_DisallowedStd3Valid);
  (R 0x2270 0x2328, IM_Valid);
  (R 0x2329 0x2329, IM_Mapped [0x3008]);
  (R 0x232a 0x232a, IM_Mapped [0x3009]);
  (R 0x232b 0x2426, IM_Valid);
  (R 0x2427 0x243f, IM_Disallowed);
  (R 0x2440 0x244a, IM_Valid);
  (R 0x244b 0x245f, IM_Disallowed);
  (R 0x2460 0x2460, IM_Mapped [0x31]);
  (R 0x2461 0x2461, IM_Mapped [0x32]);
  (R 0x2462 0x2462, IM_Mapped [0x33]);
  (R 0x2463 0x2463, IM_Mapped [0x34]);
  (R 0x2464 0x2464, IM_Mapped [0x35]);
  (R 0x2465 0x2465, IM_Mapped [0x36]);
  (R 0x2466 0x2466, IM_Mapped [0x37]);
  (R 0x2467 0x2467, IM_Mapped [0x38]);
  (R 0x2468 0x2468, IM_Mapped [0x39]);
  (R 0x2469 0x2469, IM_Mapped [0x31; 0x30]);
  (R 0x246a 0x246a, IM_Mapped [0x31; 0x31]);
  (R 0x246b 0x246b, IM_Mapped [0x31; 0x32]);
  (R 0x246c 0x246c, IM_Mapped [0x31; 0x33]);
  (R 0x246d 0x246d, IM_Mapped [0x31; 0x34]);
  (R 0x246e 0x246e, IM_Mapped [0x31; 0x35]);
  (R 0x246f 0x246f, IM_Mapped [0x31; 0x36]);
  (R 0x2470 0x2470, IM_Mapped [0x31; 0x37]);
  (R 0x2471 0x2471, IM_Mapped [0x31; 0x38]);
  (R 0x2472 0x2472, IM_Mapped [0x31; 0x39]);
  (R 0x2473 0x2473, IM_Mapped [0x32; 0x30]);
  (R 0x2474 0x2474, IM_DisallowedStd3Mapped [0x28; 0x31; 0x29]);
  (R 0x2475 0x2475, IM_DisallowedStd3Mapped [0x28; 0x32; 0x29]);
  (R 0x2476 0x2476, IM_DisallowedStd3Mapped [0x28; 0x33; 0x29]);
  (R 0x2477 0x2477, IM_DisallowedStd3Mapped [0x28; 0x34; 0x29]);
  (R 0x2478 0x2478, IM_DisallowedStd3Mapped [0x28; 0x35; 0x29]);
  (R 0x2479 0x2479, IM_DisallowedStd3Mapped [0x28; 0x36; 0x29]);
  (R 0x247a 0x247a, IM_DisallowedStd3Mapped [0x28; 0x37; 0x29]);
  (R 0x247b 0x247b, IM_DisallowedStd3Mapped [0x28; 0x38; 0x29]);
  (R 0x247c 0x247c, IM_DisallowedStd3Mapped [0x28; 0x39; 0x29]);
  (R 0x247d 0x247d, IM_DisallowedStd3Mapped [0x28; 0x31; 0x30; 0x29]);
  (R 0x247e 0x247e, IM_DisallowedStd3Mapped [0x28; 0x31; 0x31; 0x29]);
  (R 0x247f 0x247f, IM_DisallowedStd3Mapped [0x28; 0x31; 0x32; 0x29]);
  (R 0x2480 0x2480, IM_DisallowedStd3Mapped [0x28; 0x31; 0x33; 0x29]);
  (R 0x2481 0x2481, IM_DisallowedStd3Mapped [0x28; 0x31; 0x34; 0x29]);
  (R 0x2482 0x2482, IM_DisallowedStd3Mapped [0x28; 0x31; 0x35; 0x29]);
  (R 0x2483 0x2483, IM_DisallowedStd3Mapped [0x28; 0x31; 0x36; 0x29]);
  (R 0x2484 0x2484, IM_DisallowedStd3Mapped [0x28; 0x31; 0x37; 0x29]);
  (R 0x2485 0x2485, IM_DisallowedStd3Mapped [0x28; 0x31; 0x38; 0x29]);
  (R 0x2486 0x2486, IM_DisallowedStd3Mapped [0x28; 0x31; 0x39; 0x29]);
  (R 0x2487 0x2487, IM_DisallowedStd3Mapped [0x28; 0x32; 0x30; 0x29]);
  (R 0x2488 0x249b, IM_Disallowed);
  (R 0x249c 0x249c, IM_DisallowedStd3Mapped [0x28; 0x61; 0x29]);
  (R 0x249d 0x249d, IM_DisallowedStd3Mapped [0x28; 0x62; 0x29]);
  (R 0x249e 0x249e, IM_DisallowedStd3Mapped [0x28; 0x63; 0x29]);
  (R 0x249f 0x249f, IM_DisallowedStd3Mapped [0x28; 0x64; 0x29]);
  (R 0x24a0 0x24a0, IM_DisallowedStd3Mapped [0x28; 0x65; 0x29]);
  (R 0x24a1 0x24a1, IM_DisallowedStd3Mapped [0x28; 0x66; 0x29]);
  (R 0x24a2 0x24a2, IM_DisallowedStd3Mapped [0x28; 0x67; 0x29]);
  (R 0x24a3 0x24a3, IM_DisallowedStd3Mapped [0x28; 0x68; 0x29]);
  (R 0x24a4 0x24a4, IM_DisallowedStd3Mapped [0x28; 0x69; 0x29]);
  (R 0x24a5 0x24a5, IM_DisallowedStd3Mapped [0x28; 0x6a; 0x29]);
  (R 0x24a6 0x24a6, IM_DisallowedStd3Mapped [0x28; 0x6b; 0x29]);
  (R 0x24a7 0x24a7, IM_DisallowedStd3Mapped [0x28; 0x6c; 0x29]);
  (R 0x24a8 0x24a8, IM_DisallowedStd3Mapped [0x28; 0x6d; 0x29]);
  (R 0x24a9 0x24a9, IM_DisallowedStd3Mapped [0x28; 0x6e; 0x29]);
  (R 0x24aa 0x24aa, IM_DisallowedStd3Mapped [0x28; 0x6f; 0x29]);
  (R 0x24ab 0x24ab, IM_DisallowedStd3Mapped [0x28; 0x70; 0x29]);
  (R 0x24ac 0x24ac, IM_DisallowedStd3Mapped [0x28; 0x71; 0x29]);
  (R 0x24ad 0x24ad, IM_DisallowedStd3Mapped [0x28; 0x72; 0x29]);
  (R 0x24ae 0x24ae, IM_DisallowedStd3Mapped [0x28; 0x73; 0x29]);
  (R 0x24af 0x24af, IM_DisallowedStd3Mapped [0x28; 0x74; 0x29]);
  (R 0x24b0 0x24b0, IM_DisallowedStd3Mapped [0x28; 0x75; 0x29]);
  (R 0x24b1 0x24b1, IM_DisallowedStd3Mapped [0x28; 0x76; 0x29]);
  (R 0x24b2 0x24b2, IM_DisallowedStd3Mapped [0x28; 0x77; 0x29]);
  (R 0x24b3 0x24b3, IM_DisallowedStd3Mapped [0x28; 0x78; 0x29]);
  (R 0x24b4 0x24b4, IM_DisallowedStd3Mapped [0x28; 0x79; 0x29]);
  (R 0x24b5 0x24b5, IM_DisallowedStd3Mapped [0x28; 0x7a; 0x29]);
  (R 0x24b6 0x24b6, IM_Mapped [0x61]);
  (R 0x24b7 0x24b7, IM_Mapped [0x62]);
  (R 0x24b8 0x24b8, IM_Mapped [0x63]);
  (R 0x24b9 0x24b9, IM_Mapped [0x64]);
  (R 0x24ba 0x24ba, IM_Mapped [0x65]);
  (R 0x24bb 0x24bb, IM_Mapped [0x66]);
  (R 0x24bc 0x24bc, IM_Mapped [0x67]);
  (R 0x24bd 0x24bd, IM_Mapped [0x68]);
  (R 0x24be 0x24be, IM_Mapped [0x69]);
  (R 0x24bf 0x24bf, IM_Mapped [0x6a]);
  (R 0x24c0 0x24c0, IM_Mapped [0x6b]);
  (R 0x24c1 0x24c1, IM_Mapped [0x6c]);
  (R 0x24c2 0x24c2, IM_Mapped [0x6d]);
  (R 0x24c3 0x24c3, IM_Mapped [0x6e]);
  (R 0x24c4 0x24c4, IM_Mapped [0x6f]);
  (R 0x24c5 0x24c5, IM_Mapped [0x70]);
  (R 0x24c6 0x24c6, IM_Mapped [0x71]);
  (R 0x24c7 0x24c7, IM_Mapped [0x72]);
  (R 0x24c8 0x24c8, IM_Mapped [0x73]);
  (R 0x24c9 0x24c9, IM_Mapped [0x74]);
  (R 0x24ca 0x24ca, IM_Mapped [0x75]);
  (R 0x24cb 0x24cb, IM_Mapped [0x76]);
  (R 0x24cc 0x24cc, IM_Mapped [0x77]);
  (R 0x24cd 0x24cd, IM_Mapped [0x78]);
  (R 0x24ce 0x24ce, IM_Mapped [0x79]);
  (R 0x24cf 0x24cf, IM_Mapped [0x7a]);
  (R 0x24d0 0x24d0, IM_Mapped [0x61]);
  (R 0x24d1 0x24d1, IM_Mapped [0x62]);
  (R 0x24d2 0x24d2, IM_Mapped [0x63]);
  (R 0x24d3 0x24d3, IM_Mapped [0x64]);
  (R 0x24d4 0x24d4, IM_Mapped [0x65]);
  (R 0x24d5 0x24d5, IM_Mapped [0x66]);
  (R 0x24d6 0x24d6, IM_Mapped [0x67]);
  (R 0x24d7 0x24d7, IM_Mapped [0x68]);
  (R 0x24d8 0x24d8, IM_Mapped [0x69]);
  (R 0x24d9 0x24d9, IM_Mapped [0x6a]);
  (R 0x24da 0x24da, IM_Mapped [0x6b]);
  (R 0x24db 0x24db, IM_Mapped [0x6c]);
  (R 0x24dc 0x24dc, IM_Mapped [0x6d]);
  (R 0x24dd 0x24dd, IM_Mapped [0x6e]);
  (R 0x24de 0x24de, IM_Mapped [0x6f]);
  (R 0x24df 0x24df, IM_Mapped [0x70]);
  (R 0x24e0 0x24e0, IM_Mapped [0x71]);
  (R 0x24e1 0x24e1, IM_Mapped [0x72]);
  (R 0x24e2 0x24e2, IM_Mapped [0x73]);
  (R 0x24e3 0x24e3, IM_Mapped [0x74]);
  (R 0x24e4 0x24e4, IM_Mapped [0x75]);
  (R 0x24e5 0x24e5, IM_Mapped [0x76]);
  (R 0x24e6 0x24e6, IM_Mapped [0x77]);
  (R 0x24e7 0x24e7, IM_Mapped [0x78]);
  (R 0x24e8 0x24e8, IM_Mapped [0x79]);
  (R 0x24e9 0x24e9, IM_Mapped [0x7a]);
  (R 0x24ea 0x24ea, IM_Mapped [0x30]);
  (R 0x24eb 0x2a0b, IM_Valid);
  (R 0x2a0c 0x2a0c, IM_Mapped [0x222b; 0x222b; 0x222b; 0x222b]);
  (R 0x2a0d 0x2a73, IM_Valid);
  (R 0x2a74 0x2a74, IM_DisallowedStd3Mapped [0x3a; 0x3a; 0x3d]);
  (R 0x2a75 0x2a75, IM_DisallowedStd3Mapped [0x3d; 0x3d]);
  (R 0x2a76 0x2a76, IM_DisallowedStd3Mapped [0x3d; 0x3d; 0x3d]);
  (R 0x2a77 0x2adb, IM_Valid);
  (R 0x2adc 0x2adc, IM_Mapped [0x2add; 0x338]);
  (R 0x2add 0x2b73, IM_Valid);
  (R 0x2b74 0x2b75, IM_Disallowed);
  (R 0x2b76 0x2b95, IM_Valid);
  (R 0x2b96 0x2b97, IM_Disallowed);
  (R 0x2b98 0x2bb9, IM_Valid);
  (R 0x2bba 0x2bbc, IM_Disallowed);
  (R 0x2bbd 0x2bc8, IM_Valid);
  (R 0x2bc9 0x2bc9, IM_Disallowed);
  (R 0x2bca 0x2bd2, IM_Valid);
  (R 0x2bd3 0x2beb, IM_Disallowed);
  (R 0x2bec 0x2bef, IM_Valid);
  (R 0x2bf0 0x2bff, IM_Disallowed);
  (R 0x2c00 0x2c00, IM_Mapped [0x2c30]);
  (R 0x2c01 0x2c01, IM_Mapped [0x2c31]);
  (R 0x2c02 0x2c02, IM_Mapped [0x2c32]);
  (R 0x2c03 0x2c03, IM_Mapped [0x2c33]);
  (R 0x2c04 0x2c04, IM_Mapped [0x2c34]);
  (R 0x2c05 0x2c05, IM_Mapped [0x2c35]);
  (R 0x2c06 0x2c06, IM_Mapped [0x2c36]);
  (R 0x2c07 0x2c07, IM_Mapped [0x2c37]);
  (R 0x2c08 0x2c08, IM_Mapped [0x2c38]);
  (R 0x2c09 0x2c09, IM_Mapped [0x2c39]);
  (R 0x2c0a 0x2c0a, IM_Mapped [0x2c3a]);
  (R 0x2c0b 0x2c0b, IM_Mapped [0x2c3b]);
  (R 0x2c0c 0x2c0c, IM_Mapped [0x2c3c]);
  (R 0x2c0d 0x2c0d, IM_Mapped [0x2c3d]);
  (R 0x2c0e 0x2c0e, IM_Mapped [0x2c3e]);
  (R 0x2c0f 0x2c0f, IM_Mapped [0x2c3f]);
  (R 0x2c10 0x2c10, IM_Mapped [0x2c40]);
  (R 0x2c11 0x2c11, IM_Mapped [0x2c41]);
  (R 0x2c12 0x2c12, IM_Mapped [0x2c42]);
  (R 0x2c13 0x2c13, IM_Mapped [0x2c43]);
  (R 0x2c14 0x2c14, IM_Mapped [0x2c44]);
  (R 0x2c15 0x2c15, IM_Mapped [0x2c45]);
  (R 0x2c16 0x2c16, IM_Mapped [0x2c46]);
  (R 0x2c17 0x2c17, IM_Mapped [0x2c47]);
  (R 0x2c18 0x2c18, IM_Mapped [0x2c48]);
  (R 0x2c19 0x2c19, IM_Mapped [0x2c49]);
  (R 0x2c1a 0x2c1a, IM_Mapped [0x2c4a]);
  (R 0x2c1b 0x2c1b, IM_Mapped [0x2c4b]);
  (R 0x2c1c 0x2c1c, IM_Mapped [0x2c4c]);
  (R 0x2c1d 0x2c1d, IM_Mapped [0x2c4d]);
  (R 0x2c1e 0x2c1e, IM_Mapped [0x2c4e]);
  (R 0x2c1f 0x2c1f, IM_Mapped [0x2c4f]);
  (R 0x2c20 0x2c20, IM_Mapped [0x2c50]);
  (R 0x2c21 0x2c21, IM_Mapped [0x2c51]);
  (R 0x2c22 0x2c22, IM_Mapped [0x2c52]);
  (R 0x2c23 0x2c23, IM_Mapped [0x2c53]);
  (R 0x2c24 0x2c24, IM_Mapped [0x2c54]);
  (R 0x2c25 0x2c25, IM_Mapped [0x2c55]);
  (R 0x2c26 0x2c26, IM_Mapped [0x2c56]);
  (R 0x2c27 0x2c27, IM_Mapped [0x2c57]);
  (R 0x2c28 0x2c28, IM_Mapped [0x2c58]);
  (R 0x2c29 0x2c29, IM_Mapped [0x2c59]);
  (R 0x2c2a 0x2c2a, IM_Mapped [0x2c5a]);
  (R 0x2c2b 0x2c2b, IM_Mapped [0x2c5b]);
  (R 0x2c2c 0x2c2c, IM_Mapped [0x2c5c]);
  (R 0x2c2d 0x2c2d, IM_Mapped [0x2c5d]);
  (R 0x2c2e 0x2c2e, IM_Mapped [0x2c5e]);
  (R 0x2c2f 0x2c2f, IM_Disallowed);
  (R 0x2c30 0x2c5e, IM_Valid);
  (R 0x2c5f 0x2c5f, IM_Disallowed);
  (R 0x2c60 0x2c60, IM_Mapped [0x2c61]);
  (R 0x2c61 0x2c61, IM_Valid);
  (R 0x2c62 0x2c62, IM_Mapped [0x26b]);
  (R 0x2c63 0x2c63, IM_Mapped [0x1d7d]);
  (R 0x2c64 0x2c64, IM_Mapped [0x27d]);
  (R 0x2c65 0x2c66, IM_Valid);
  (R 0x2c67 0x2c67, IM_Mapped [0x2c68]);
  (R 0x2c68 0x2c68, IM_Valid);
  (R 0x2c69 0x2c69, IM_Mapped [0x2c6a]);
  (R 0x2c6a 0x2c6a, IM_Valid);
  (R 0x2c6b 0x2c6b, IM_Mapped [0x2c6c]);
  (R 0x2c6c 0x2c6c, IM_Valid);
  (R 0x2c6d 0x2c6d, IM_Mapped [0x251]);
  (R 0x2c6e 0x2c6e, IM_Mapped [0x271]);
  (R 0x2c6f 0x2c6f, IM_Mapped [0x250]);
  (R 0x2c70 0x2c70, IM_Mapped [0x252]);
  (R 0x2c71 0x2c71, IM_Valid);
  (R 0x2c72 0x2c72, IM_Mapped [0x2c73]);
  (R 0x2c73 0x2c74, IM_Valid);
  (R 0x2c75 0x2c75, IM_Mapped [0x2c76]);
  (R 0x2c76 0x2c7b, IM_Valid);
  (R 0x2c7c 0x2c7c, IM_Mapped [0x6a]);
  (R 0x2c7d 0x2c7d, IM_Mapped [0x76]);
  (R 0x2c7e 0x2c7e, IM_Mapped [0x23f]);
  (R 0x2c7f 0x2c7f, IM_Mapped [0x240]);
  (R 0x2c80 0x2c80, IM_Mapped [0x2c81]);
  (R 0x2c81 0x2c81, IM_Valid);
  (R 0x2c82 0x2c82, IM_Mapped [0x2c83]);
  (R 0x2c83 0x2c83, IM_Valid);
  (R 0x2c84 0x2c84, IM_Mapped [0x2c85]);
  (R 0x2c85 0x2c85, IM_Valid);
  (R 0x2c86 0x2c86, IM_Mapped [0x2c87]);
  (R 0x2c87 0x2c87, IM_Valid);
  (R 0x2c88 0x2c88, IM_Mapped [0x2c89]);
  (R 0x2c89 0x2c89, IM_Valid);
  (R 0x2c8a 0x2c8a, IM_Mapped [0x2c8b]);
  (R 0x2c8b 0x2c8b, IM_Valid);
  (R 0x2c8c 0x2c8c, IM_Mapped [0x2c8d]);
  (R 0x2c8d 0x2c8d, IM_Valid);
  (R 0x2c8e 0x2c8e, IM_Mapped [0x2c8f]);
  (R 0x2c8f 0x2c8f, IM_Valid);
  (R 0x2c90 0x2c90, IM_Mapped [0x2c91]);
  (R 0x2c91 0x2c91, IM_Valid);
  (R 0x2c92 0x2c92, IM_Mapped [0x2c93]);
  (R 0x2c93 0x2c93, IM_Valid);
  (R 0x2c94 0x2c94, IM_Mapped [0x2c95]);
  (R 0x2c95 0x2c95, IM_Valid);
  (R 0x2c96 0x2c96, IM_Mapped [0x2c97]);
  (R 0x2c97 0x2c97, IM_Valid);
  (R 0x2c98 0x2c98, IM_Mapped [0x2c99]);
  (R 0x2c99 0x2c99, IM_Valid);
  (R 0x2c9a 0x2c9a, IM_Mapped [0x2c9b]);
  (R 0x2c9b 0x2c9b, IM_Valid);
  (R 0x2c9c 0x2c9c, IM_Mapped [0x2c9d]);
  (R 0x2c9d 0x2c9d, IM_Valid);
  (R 0x2c9e 0x2c9e, IM_Mapped [0x2c9f]);
  (R 0x2c9f 0x2c9f, IM_Valid);
  (R 0x2ca0 0x2ca0, IM_Mapped [0x2ca1]);
  (R 0x2ca1 0x2ca1, IM_Valid);
  (R 0x2ca2 0x2ca2, IM_Mapped [0x2ca3]);
  (R 0x2ca3 0x2ca3, IM_Valid);
  (R 0x2ca4 0x2ca4, IM_Mapped [0x2ca5]);
  (R 0x2ca5 0x2ca5, IM_Valid);
  (R 0x2ca6 0x2ca6, IM_Mapped [0x2ca7]);
  (R 0x2ca7 0x2ca7, IM_Valid);
  (R 0x2ca8 0x2ca8, IM_Mapped [0x2ca9]);
  (R 0x2ca9 0x2ca9, IM_Valid);
  (R 0x2caa 0x2caa, IM_Mapped [0x2cab]);
  (R 0x2cab 0x2cab, IM_Valid);
  (R 0x2cac 0x2cac, IM_Mapped [0x2cad])].

Definition MAPPING_6 : list (CharRange * Mapping) := [
  (R 0x2cad 0x2cad, IM_Valid);
  (R 0x2cae 0x2cae, IM_Mapped [0x2caf]);
  (R 0x2caf 0x2caf, IM_Valid);
  (R 0x2cb0 0x2cb0, IM_Mapped [0x2cb1]);
  (R 0x2cb1 0x2cb1, IM_Valid);
  (R 0x2cb2 0x2cb2, IM_Mapped [0x2cb3]);
  (R 0x2cb3 0x2cb3, IM_Valid);
  (R 0x2cb4 0x2cb4, IM_Mapped [0x2cb5]);
  (R 0x2cb5 0x2cb5, IM_Valid);
  (R 0x2cb6 0x2cb6, IM_Mapped [0x2cb7]);
  (R 0x2cb7 0x2cb7, IM_Valid);
  (R 0x2cb8 0x2cb8, IM_Mapped [0x2cb9]);
  (R 0x2cb9 0x2cb9, IM_Valid);
  (R 0x2cba 0x2cba, IM_Mapped [0x2cbb]);
  (R 0x2cbb 0x2cbb, IM_Valid);
  (R 0x2cbc 0x2cbc, IM_Mapped [0x2cbd]);
  (R 0x2cbd 0x2cbd, IM_Valid);
  (R 0x2cbe 0x2cbe, IM_Mapped [0x2cbf]);
  (R 0x2cbf 0x2cbf, IM_Valid);
  (R 0x2cc0 0x2cc0, IM_Mapped [0x2cc1]);
  (R 0x2cc1 0x2cc1, IM_Valid);
  (R 0x2cc2 0x2cc2, IM_Mapped [0x2cc3]);
  (R 0x2cc3 0x2cc3, IM_Valid);
  (R 0x2cc4 0x2cc4, IM_Mapped [0x2cc5]);
  (R 0x2cc5 0x2cc5, IM_Valid);
  (R 0x2cc6 0x2cc6, IM_Mapped [0x2cc7]);
  (R 0x2cc7 0x2cc7, IM_Valid);
  (R 0x2cc8 0x2cc8, IM_Mapped [0x2cc9]);
  (R 0x2cc9 0x2cc9, IM_Valid);
  (R 0x2cca 0x2cca, IM_Mapped [0x2ccb]);
  (R 0x2ccb 0x2ccb, IM_Valid);
  (R 0x2ccc 0x2ccc, IM_Mapped [0x2ccd]);
  (R 0x2ccd 0x2ccd, IM_Valid);
  (R 0x2cce 0x2cce, IM_Mapped [0x2ccf]);
  (R 0x2ccf 0x2ccf, IM_Valid);
  (R 0x2cd0 0x2cd0, IM_Mapped [0x2cd1]);
  (R 0x2cd1 0x2cd1, IM_Valid);
  (R 0x2cd2 0x2cd2, IM_Mapped [0x2cd3]);
  (R 0x2cd3 0x2cd3, IM_Valid);
  (R 0x2cd4 0x2cd4, IM_Mapped [0x2cd5]);
  (R 0x2cd5 0x2cd5, IM_Valid);
  (R 0x2cd6 0x2cd6, IM_Mapped [0x2cd7]);
  (R 0x2cd7 0x2cd7, IM_Valid);
  (R 0x2cd8 0x2cd8, IM_Mapped [0x2cd9]);
  (R 0x2cd9 0x2cd9, IM_Valid);
  (R 0x2cda 0x2cda, IM_Mapped [0x2cdb]);
  (R 0x2cdb 0x2cdb, IM_Valid);
  (R 0x2cdc 0x2cdc, IM_Mapped [0x2cdd]);
  (R 0x2cdd 0x2cdd, IM_Valid);
  (R 0x2cde 0x2cde, IM_Mapped [0x2cdf]);
  (R 0x2cdf 0x2cdf, IM_Valid);
  (R 0x2ce0 0x2ce0, IM_Mapped [0x2ce1]);
  (R 0x2ce1 0x2ce1, IM_Valid);
  (R 0x2ce2 0x2ce2, IM_Mapped [0x2ce3]);
  (R 0x2ce3 0x2cea, IM_Valid);
  (R 0x2ceb 0x2ceb, IM_Mapped [0x2cec]);
  (R 0x2cec 0x2cec, IM_Valid);
  (R 0x2ced 0x2ced, IM_Mapped [0x2cee]);
  (R 0x2cee 0x2cf1, IM_Valid);
  (R 0x2cf2 0x2cf2, IM_Mapped [0x2cf3]);
  (R 0x2cf3 0x2cf3, IM_Valid);
  (R 0x2cf4 0x2cf8, IM_Disallowed);
  (R 0x2cf9 0x2d25, IM_Valid);
  (R 0x2d26 0x2d26, IM_Disallowed);
  (R 0x2d27 0x2d27, IM_Valid);
  (R 0x2d28 0x2d2c, IM_Disallowed);
  (R 0x2d2d 0x2d2d, IM_Valid);
  (R 0x2d2e 0x2d2f, IM_Disallowed);
  (R 0x2d30 0x2d67, IM_Valid);
  (R 0x2d68 0x2d6e, IM_Disallowed);
  (R 0x2d6f 0x2d6f, IM_Mapped [0x2d61]);
  (R 0x2d70 0x2d70, IM_Valid);
  (R 0x2d71 0x2d7e, IM_Disallowed);
  (R 0x2d7f 0x2d96, IM_Valid);
  (R 0x2d97 0x2d9f, IM_Disallowed);
  (R 0x2da0 0x2da6, IM_Valid);
  (R 0x2da7 0x2da7, IM_Disallowed);
  (R 0x2da8 0x2dae, IM_Valid);
  (R 0x2daf 0x2daf, IM_Disallowed);
  (R 0x2db0 0x2db6, IM_Valid);
  (R 0x2db7 0x2db7, IM_Disallowed);
  (R 0x2db8 0x2dbe, IM_Valid);
  (R 0x2dbf 0x2dbf, IM_Disallowed);
  (R 0x2dc0 0x2dc6, IM_Valid);
  (R 0x2dc7 0x2dc7, IM_Disallowed);
  (R 0x2dc8 0x2dce, IM_Valid);
  (R 0x2dcf 0x2dcf, IM_Disallowed);
  (R 0x2dd0 0x2dd6, IM_Valid);
  (R 0x2dd7 0x2dd7, IM_Disallowed);
  (R 0x2dd8 0x2dde, IM_Valid);
  (R 0x2ddf 0x2ddf, IM_Disallowed);
  (R 0x2de0 0x2e49, IM_Valid);
  (R 0x2e4a 0x2e7f, IM_Disallowed);
  (R 0x2e80 0x2e99, IM_Valid);
  (R 0x2e9a 0x2e9a, IM_Disallowed);
  (R 0x2e9b 0x2e9e, IM_Valid);
  (R 0x2e9f 0x2e9f, IM_Mapped [0x6bcd]);
  (R 0x2ea0 0x2ef2, IM_Valid);
  (R 0x2ef3 0x2ef3, IM_Mapped [0x9f9f]);
  (R 0x2ef4 0x2eff, IM_Disallowed);
  (R 0x2f00 0x2f00, IM_Mapped [0x4e00]);
  (R 0x2f01 0x2f01, IM_Mapped [0x4e28]);
  (R 0x2f02 0x2f02, IM_Mapped [0x4e36]);
  (R 0x2f03 0x2f03, IM_Mapped [0x4e3f]);
  (R 0x2f04 0x2f04, IM_Mapped [0x4e59]);
  (R 0x2f05 0x2f05, IM_Mapped [0x4e85]);
  (R 0x2f06 0x2f06, IM_Mapped [0x4e8c]);
  (R 0x2f07 0x2f07, IM_Mapped [0x4ea0]);
  (R 0x2f08 0x2f08, IM_Mapped [0x4eba]);
  (R 0x2f09 0x2f09, IM_Mapped [0x513f]);
  (R 0x2f0a 0x2f0a, IM_Mapped [0x5165]);
  (R 0x2f0b 0x2f0b, IM_Mapped [0x516b]);
  (R 0x2f0c 0x2f0c, IM_Mapped [0x5182]);
  (R 0x2f0d 0x2f0d, IM_Mapped [0x5196]);
  (R 0x2f0e 0x2f0e, IM_Mapped [0x51ab]);
  (R 0x2f0f 0x2f0f, IM_Mapped [0x51e0]);
  (R 0x2f10 0x2f10, IM_Mapped [0x51f5]);
  (R 0x2f11 0x2f11, IM_Mapped [0x5200]);
  (R 0x2f12 0x2f12, IM_Mapped [0x529b]);
  (R 0x2f13 0x2f13, IM_Mapped [0x52f9]);
  (R 0x2f14 0x2f14, IM_Mapped [0x5315]);
  (R 0x2f15 0x2f15, IM_Mapped [0x531a]);
  (R 0x2f16 0x2f16, IM_Mapped [0x5338]);
  (R 0x2f17 0x2f17, IM_Mapped [0x5341]);
  (R 0x2f18 0x2f18, IM_Mapped [0x535c]);
  (R 0x2f19 0x2f19, IM_Mapped [0x5369]);
  (R 0x2f1a 0x2f1a, IM_Mapped [0x5382]);
  (R 0x2f1b 0x2f1b, IM_Mapped [0x53b6]);
  (R 0x2f1c 0x2f1c, IM_Mapped [0x53c8]);
  (R 0x2f1d 0x2f1d, IM_Mapped [0x53e3]);
  (R 0x2f1e 0x2f1e, IM_Mapped [0x56d7]);
  (R 0x2f1f 0x2f1f, IM_Mapped [0x571f]);
  (R 0x2f20 0x2f20, IM_Mapped [0x58eb]);
  (R 0x2f21 0x2f21, IM_Mapped [0x5902]);
  (R 0x2f22 0x2f22, IM_Mapped [0x590a]);
  (R 0x2f23 0x2f23, IM_Mapped [0x5915]);
  (R 0x2f24 0x2f24, IM_Mapped [0x5927]);
  (R 0x2f25 0x2f25, IM_Mapped [0x5973]);
  (R 0x2f26 0x2f26, IM_Mapped [0x5b50]);
  (R 0x2f27 0x2f27, IM_Mapped [0x5b80]);
  (R 0x2f28 0x2f28, IM_Mapped [0x5bf8]);
  (R 0x2f29 0x2f29, IM_Mapped [0x5c0f]);
  (R 0x2f2a 0x2f2a, IM_Mapped [0x5c22]);
  (R 0x2f2b 0x2f2b, IM_Mapped [0x5c38]);
  (R 0x2f2c 0x2f2c, IM_Mapped [0x5c6e]);
  (R 0x2f2d 0x2f2d, IM_Mapped [0x5c71]);
  (R 0x2f2e 0x2f2e, IM_Mapped [0x5ddb]);
  (R 0x2f2f 0x2f2f, IM_Mapped [0x5de5]);
  (R 0x2f30 0x2f30, IM_Mapped [0x5df1]);
  (R 0x2f31 0x2f31, IM_Mapped [0x5dfe]);
  (R 0x2f32 0x2f32, IM_Mapped [0x5e72]);
  (R 0x2f33 0x2f33, IM_Mapped [0x5e7a]);
  (R 0x2f34 0x2f34, IM_Mapped [0x5e7f]);
  (R 0x2f35 0x2f35, IM_Mapped [0x5ef4]);
  (R 0x2f36 0x2f36, IM_Mapped [0x5efe]);
  (R 0x2f37 0x2f37, IM_Mapped [0x5f0b]);
  (R 0x2f38 0x2f38, IM_Mapped [0x5f13]);
  (R 0x2f39 0x2f39, IM_Mapped [0x5f50]);
  (R 0x2f3a 0x2f3a, IM_Mapped [0x5f61]);
  (R 0x2f3b 0x2f3b, IM_Mapped [0x5f73]);
  (R 0x2f3c 0x2f3c, IM_Mapped [0x5fc3]);
  (R 0x2f3d 0x2f3d, IM_Mapped [0x6208]);
  (R 0x2f3e 0x2f3e, IM_Mapped [0x6236]);
  (R 0x2f3f 0x2f3f, IM_Mapped [0x624b]);
  (R 0x2f40 0x2f40, IM_Mapped [0x652f]);
  (R 0x2f41 0x2f41, IM_Mapped [0x6534]);
  (R 0x2f42 0x2f42, IM_Mapped [0x6587]);
  (R 0x2f43 0x2f43, IM_Mapped [0x6597]);
  (R 0x2f44 0x2f44, IM_Mapped [0x65a4]);
  (R 0x2f45 0x2f45, IM_Mapped [0x65b9]);
  (R 0x2f46 0x2f46, IM_Mapped [0x65e0]);
  (R 0x2f47 0x2f47, IM_Mapped [0x65e5]);
  (R 0x2f48 0x2f48, IM_Mapped [0x66f0]);
  (R 0x2f49 0x2f49, IM_Mapped [0x6708]);
  (R 0x2f4a 0x2f4a, IM_Mapped [0x6728]);
  (R 0x2f4b 0x2f4b, IM_Mapped [0x6b20]);
  (R 0x2f4c 0x2f4c, IM_Mapped [0x6b62]);
  (R 0x2f4d 0x2f4d, IM_Mapped [0x6b79]);
  (R 0x2f4e 0x2f4e, IM_Mapped [0x6bb3]);
  (R 0x2f4f 0x2f4f, IM_Mapped [0x6bcb]);
  (R 0x2f50 0x2f50, IM_Mapped [0x6bd4]);
  (R 0x2f51 0x2f51, IM_Mapped [0x6bdb]);
  (R 0x2f52 0x2f52, IM_Mapped [0x6c0f]);
  (R 0x2f53 0x2f53, IM_Mapped [0x6c14]);
  (R 0x2f54 0x2f54, IM_Mapped [0x6c34]);
  (R 0x2f55 0x2f55, IM_Mapped [0x706b]);
  (R 0x2f56 0x2f56, IM_Mapped [0x722a]);
  (R 0x2f57 0x2f57, IM_Mapped [0x7236]);
  (R 0x2f58 0x2f58, IM_Mapped [0x723b]);
  (R 0x2f59 0x2f59, IM_Mapped [0x723f]);
  (R 0x2f5a 0x2f5a, IM_Mapped [0x7247]);
  (R 0x2f5b 0x2f5b, IM_Mapped [0x7259]);
  (R 0x2f5c 0x2f5c, IM_Mapped [0x725b]);
  (R 0x2f5d 0x2f5d, IM_Mapped [0x72ac]);
  (R 0x2f5e 0x2f5e, IM_Mapped [0x7384]);
  (R 0x2f5f 0x2f5f, IM_Mapped [0x7389]);
  (R 0x2f60 0x2f60, IM_Mapped [0x74dc]);
  (R 0x2f61 0x2f61, IM_Mapped [0x74e6]);
  (R 0x2f62 0x2f62, IM_Mapped [0x7518]);
  (R 0x2f63 0x2f63, IM_Mapped [0x751f]);
  (R 0x2f64 0x2f64, IM_Mapped [0x7528]);
  (R 0x2f65 0x2f65, IM_Mapped [0x7530]);
  (R 0x2f66 0x2f66, IM_Mapped [0x758b]);
  (R 0x2f67 0x2f67, IM_Mapped [0x7592]);
  (R 0x2f68 0x2f68, IM_Mapped [0x7676]);
  (R 0x2f69 0x2f69, IM_Mapped [0x767d]);
  (R 0x2f6a 0x2f6a, IM_Mapped [0x76ae]);
  (R 0x2f6b 0x2f6b, IM_Mapped [0x76bf]);
  (R 0x2f6c 0x2f6c, IM_Mapped [0x76ee]);
  (R 0x2f6d 0x2f6d, IM_Mapped [0x77db]);
  (R 0x2f6e 0x2f6e, IM_Mapped [0x77e2]);
  (R 0x2f6f 0x2f6f, IM_Mapped [0x77f3]);
  (R 0x2f70 0x2f70, IM_Mapped [0x793a]);
  (R 0x2f71 0x2f71, IM_Mapped [0x79b8]);
  (R 0x2f72 0x2f72, IM_Mapped [0x79be]);
  (R 0x2f73 0x2f73, IM_Mapped [0x7a74]);
  (R 0x2f74 0x2f74, IM_Mapped [0x7acb]);
  (R 0x2f75 0x2f75, IM_Mapped [0x7af9]);
  (R 0x2f76 0x2f76, IM_Mapped [0x7c73]);
  (R 0x2f77 0x2f77, IM_Mapped [0x7cf8]);
  (R 0x2f78 0x2f78, IM_Mapped [0x7f36]);
  (R 0x2f79 0x2f79, IM_Mapped [0x7f51]);
  (R 0x2f7a 0x2f7a, IM_Mapped [0x7f8a]);
  (R 0x2f7b 0x2f7b, IM_Mapped [0x7fbd]);
  (R 0x2f7c 0x2f7c, IM_Mapped [0x8001]);
  (R 0x2f7d 0x2f7d, IM_Mapped [0x800c]);
  (R 0x2f7e 0x2f7e, IM_Mapped [0x8012]);
  (R 0x2f7f 0x2f7f, IM_Mapped [0x8033]);
  (R 0x2f80 0x2f80, IM_Mapped [0x807f]);
  (R 0x2f81 0x2f81, IM_Mapped [0x8089]);
  (R 0x2f82 0x2f82, IM_Mapped [0x81e3]);
  (R 0x2f83 0x2f83, IM_Mapped [0x81ea]);
  (R 0x2f84 0x2f84, IM_Mapped [0x81f3]);
  (R 0x2f85 0x2f85, IM_Mapped [0x81fc]);
  (R 0x2f86 0x2f86, IM_Mapped [0x820c]);
  (R 0x2f87 0x2f87, IM_Mapped [0x821b]);
  (R 0x2f88 0x2f88, IM_Mapped [0x821f]);
  (R 0x2f89 0x2f89, IM_Mapped [0x826e]);
  (R 0x2f8a 0x2f8a, IM_Mapped [0x8272]);
  (R 0x2f8b 0x2f8b, IM_Mapped [0x8278]);
  (R 0x2f8c 0x2f8c, IM_Mapped [0x864d]);
  (R 0x2f8d 0x2f8d, IM_Mapped [0x866b]);
  (R 0x2f8e 0x2f8e, IM_Mapped [0x8840]);
  (R 0x2f8f 0x2f8f, IM_Mapped [0x884c]);
  (R 0x2f90 0x2f90, IM_Mapped [0x8863]);
  (R 0x2f91 0x2f91, IM_Mapped [0x897e]);
  (R 0x2f92 0x2f92, IM_Mapped [0x898b]);
  (R 0x2f93 0x2f93, IM_Mapped [0x89d2]);
  (R 0x2f94 0x2f94, IM_Mapped [0x8a00]);
  (R 0x2f95 0x2f95, IM_Mapped [0x8c37]);
  (R 0x2f96 0x2f96, IM_Mapped [0x8c46]);
  (R 0x2f97 0x2f97, IM_Mapped [0x8c55]);
  (R 0x2f98 0x2f98, IM_Mapped [0x8c78]);
  (R 0x2f99 0x2f99, IM_Mapped [0x8c9d]);
  (R 0x2f9a 0x2f9a, IM_Mapped [0x8d64]);
  (R 0x2f9b 0x2f9b, IM_Mapped [0x8d70]);
  (R 0x2f9c 0x2f9c, IM_Mapped [0x8db3]);
  (R 0x2f9d 0x2f9d, IM_Mapped [0x8eab]);
  (R 0x2f9e 0x2f9e, IM_Mapped [0x8eca]);
  (R 0x2f9f 0x2f9f, IM_Mapped [0x8f9b]);
  (R 0x2fa0 0x2fa0, IM_Mapped [0x8fb0]);
  (R 0x2fa1 0x2fa1, IM_Mapped [0x8fb5]);
  (R 0x2fa2 0x2fa2, IM_Mapped [0x9091]);
  (R 0x2fa3 0x2fa3, IM_Mapped [0x9149]);
  (R 0x2fa4 0x2fa4, IM_Mapped [0x91c6]);
  (R 0x2fa5 0x2fa5, IM_Mapped [0x91cc]);
  (R 0x2fa6 0x2fa6, IM_Mapped [0x91d1]);
  (R 0x2fa7 0x2fa7, IM_Mapped [0x9577]);
  (R 0x2fa8 0x2fa8, IM_Mapped [0x9580]);
  (R 0x2fa9 0x2fa9, IM_Mapped [0x961c]);
  (R 0x2faa 0x2faa, IM_Mapped [0x96b6]);
  (R 0x2fab 0x2fab, IM_Mapped [0x96b9]);
  (R 0x2fac 0x2fac, IM_Mapped [0x96e8]);
  (R 0x2fad 0x2fad, IM_Mapped [0x9751]);
  (R 0x2fae 0x2fae, IM_Mapped [0x975e]);
  (R 0x2faf 0x2faf, IM_Mapped [0x9762]);
  (R 0x2fb0 0x2fb0, IM_Mapped [0x9769]);
  (R 0x2fb1 0x2fb1, IM_Mapped [0x97cb]);
  (R 0x2fb2 0x2fb2, IM_Mapped [0x97ed]);
  (R 0x2fb3 0x2fb3, IM_Mapped [0x97f3]);
  (R 0x2fb4 0x2fb4, IM_Mapped [0x9801]);
  (R 0x2fb5 0x2fb5, IM_Mapped [0x98a8]);
  (R 0x2fb6 0x2fb6, IM_Mapped [0x98db]);
  (R 0x2fb7 0x2fb7, IM_Mapped [0x98df]);
  (R 0x2fb8 0x2fb8, IM_Mapped [0x9996]);
  (R 0x2fb9 0x2fb9, IM_Mapped [0x9999]);
  (R 0x2fba 0x2fba, IM_Mapped [0x99ac]);
  (R 0x2fbb 0x2fbb, IM_Mapped [0x9aa8]);
  (R 0x2fbc 0x2fbc, IM_Mapped [0x9ad8]);
  (R 0x2fbd 0x2fbd, IM_Mapped [0x9adf]);
  (R 0x2fbe 0x2fbe, IM_Mapped [0x9b25]);
  (R 0x2fbf 0x2fbf, IM_Mapped [0x9b2f]);
  (R 0x2fc0 0x2fc0, IM_Mapped [0x9b32]);
  (R 0x2fc1 0x2fc1, IM_Mapped [0x9b3c]);
  (R 0x2fc2 0x2fc2, IM_Mapped [0x9b5a]);
  (R 0x2fc3 0x2fc3, IM_Mapped [0x9ce5]);
  (R 0x2fc4 0x2fc4, IM_Mapped [0x9e75]);
  (R 0x2fc5 0x2fc5, IM_Mapped [0x9e7f]);
  (R 0x2fc6 0x2fc6, IM_Mapped [0x9ea5]);
  (R 0x2fc7 0x2fc7, IM_Mapped [0x9ebb]);
  (R 0x2fc8 0x2fc8, IM_Mapped [0x9ec3]);
  (R 0x2fc9 0x2fc9, IM_Mapped [0x9ecd]);
  (R 0x2fca 0x2fca, IM_Mapped [0x9ed1]);
  (R 0x2fcb 0x2fcb, IM_Mapped [0x9ef9]);
  (R 0x2fcc 0x2fcc, IM_Mapped [0x9efd]);
  (R 0x2fcd 0x2fcd, IM_Mapped [0x9f0e]);
  (R 0x2fce 0x2fce, IM_Mapped [0x9f13]);
  (R 0x2fcf 0x2fcf, IM_Mapped [0x9f20]);
  (R 0x2fd0 0x2fd0, IM_Mapped [0x9f3b]);
  (R 0x2fd1 0x2fd1, IM_Mapped [0x9f4a]);
  (R 0x2fd2 0x2fd2, IM_Mapped [0x9f52]);
  (R 0x2fd3 0x2fd3, IM_Mapped [0x9f8d]);
  (R 0x2fd4 0x2fd4, IM_Mapped [0x9f9c]);
  (R 0x2fd5 0x2fd5, IM_Mapped [0x9fa0]);
  (R 0x2fd6 0x2fff, IM_Disallowed);
  (R 0x3000 0x3000, IM_DisallowedStd3Mapped [0x20]);
  (R 0x3001 0x3001, IM_Valid);
  (R 0x3002 0x3002, IM_Mapped [0x2e]);
  (R 0x3003 0x3035, IM_Valid);
  (R 0x3036 0x3036, IM_Mapped [0x3012]);
  (R 0x3037 0x3037, IM_Valid);
  (R 0x3038 0x3038, IM_Mapped [0x5341]);
  (R 0x3039 0x3039, IM_Mapped [0x5344]);
  (R 0x303a 0x303a, IM_Mapped [0x5345]);
  (R 0x303b 0x303f, IM_Valid);
  (R 0x3040 0x3040, IM_Disallowed);
  (R 0x3041 0x3096, IM_Valid);
  (R 0x3097 0x3098, IM_Disallowed);
  (R 0x3099 0x309a, IM_Valid);
  (R 0x309b 0x309b, IM_DisallowedStd3Mapped [0x20; 0x3099]);
  (R 0x309c 0x309c, IM_DisallowedStd3Mapped [0x20; 0x309a]);
  (R 0x309d 0x309e, IM_Valid);
  (R 0x309f 0x309f, IM_Mapped [0x3088; 0x308a]);
  (R 0x30a0 0x30fe, IM_Valid);
  (R 0x30ff 0x30ff, IM_Mapped [0x30b3; 0x30c8]);
  (R 0x3100 0x3104, IM_Disallowed);
  (R 0x3105 0x312e, IM_Valid);
  (R 0x312f 0x3130, IM_Disallowed);
  (R 0x3131 0x3131, IM_Mapped [0x1100]);
  (R 0x3132 0x3132, IM_Mapped [0x1101]);
  (R 0x3133 0x3133, IM_Mapped [0x11aa]);
  (R 0x3134 0x3134, IM_Mapped [0x1102]);
  (R 0x3135 0x3135, IM_Mapped [0x11ac]);
  (R 0x3136 0x3136, IM_Mapped [0x11ad]);
  (R 0x3137 0x3137, IM_Mapped [0x1103]);
  (R 0x3138 0x3138, IM_Mapped [0x1104]);
  (R 0x3139 0x3139, IM_Mapped [0x1105]);
  (R 0x313a 0x313a, IM_Mapped [0x11b0]);
  (R 0x313b 0x313b, IM_Mapped [0x11b1]);
  (R 0x313c 0x313c, IM_Mapped [0x11b2]);
  (R 0x313d 0x313d, IM_Mapped [0x11b3]);
  (R 0x313e 0x313e, IM_Mapped [0x11b4]);
  (R 0x313f 0x313f, IM_Mapped [0x11b5]);
  (R 0x3140 0x3140, IM_Mapped [0x111a]);
  (R 0x3141 0x3141, IM_Mapped [0x1106]);
  (R 0x3142 0x3142, IM_Mapped [0x1107]);
  (R 0x3143 0x3143, IM_Mapped [0x1108]);
  (R 0x3144 0x3144, IM_Mapped [0x1121]);
  (R 0x3145 0x3145, IM_Mapped [0x1109]);
  (R 0x3146 0x3146, IM_Mapped [0x110a]);
  (R 0x3147 0x3147, IM_Mapped [0x110b]);
  (R 0x3148 0x3148, IM_Mapped [0x110c]);
  (R 0x3149 0x3149, IM_Mapped [0x110d]);
  (R 0x314a 0x314a, IM_Mapped [0x110e]);
  (R 0x314b 0x314b, IM_Mapped [0x110f]);
  (R 0x314c 0x314c, IM_Mapped [0x1110]);
  (R 0x314d 0x314d, IM_Mapped [0x1111]);
  (R 0x314e 0x314e, IM_Mapped [0x1112]);
  (R 0x314f 0x314f, IM_Mapped [0x1161]);
  (R 0x3150 0x3150, IM_Mapped [0x1162]);
  (R 0x3151 0x3151, IM_Mapped [0x1163]);
  (R 0x3152 0x3152, IM_Mapped [0x1164]);
  (R 0x3153 0x3153, IM_Mapped [0x1165]);
  (R 0x3154 0x3154, IM_Mapped [0x1166]);
  (R 0x3155 0x3155, IM_Mapped [0x1167]);
  (R 0x3156 0x3156, IM_Mapped [0x1168]);
  (R 0x3157 0x3157, IM_Mapped [0x1169]);
  (R 0x3158 0x3158, IM_Mapped [0x116a]);
  (R 0x3159 0x3159, IM_Mapped [0x116b]);
  (R 0x315a 0x315a, IM_Mapped [0x116c]);
  (R 0x315b 0x315b, IM_Mapped [0x116d]);
  (R 0x315c 0x315c, IM_Mapped [0x116e]);
  (R 0x315d 0x315d, IM_Mapped [0x116f]);
  (R 0x315e 0x315e, IM_Mapped [0x1170]);
  (R 0x315f 0x315f, IM_Mapped [0x1171]);
  (R 0x3160 0x3160, IM_Mapped [0x1172]);
  (R 0x3161 0x3161, IM_Mapped [0x1173]);
  (R 0x3162 0x3162, IM_Mapped [0x1174]);
  (R 0x3163 0x3163, IM_Mapped [0x1175]);
  (R 0x3164 0x3164, IM_Disallowed);
  (R 0x3165 0x3165, IM_Mapped [0x1114]);
  (R 0x3166 0x3166, IM_Mapped [0x1115]);
  (R 0x3167 0x3167, IM_Mapped [0x11c7]);
  (R 0x3168 0x3168, IM_Mapped [0x11c8]);
  (R 0x3169 0x3169, IM_Mapped [0x11cc]);
  (R 0x316a 0x316a, IM_Mapped [0x11ce]);
  (R 0x316b 0x316b, IM_Mapped [0x11d3]);
  (R 0x316c 0x316c, IM_Mapped [0x11d7]);
  (R 0x316d 0x316d, IM_Mapped [0x11d9]);
  (R 0x316e 0x316e, IM_Mapped [0x111c])].

Definition MAPPING_7 : list (CharRange * Mapping) := [
  (R 0x316f 0x316f, IM_Mapped [0x11dd]);
  (R 0x3170 0x3170, IM_Mapped [0x11df]);
  (R 0x3171 0x3171, IM_Mapped [0x111d]);
  (R 0x3172 0x3172, IM_Mapped [0x111e]);
  (R 0x3173 0x3173, IM_Mapped [0x1120]);
  (R 0x3174 0x3174, IM_Mapped [0x1122]);
  (R 0x3175 0x3175, IM_Mapped [0x1123]);
  (R 0x3176 0x3176, IM_Mapped [0x1127]);
  (R 0x3177 0x3177, IM_Mapped [0x1129]);
  (R 0x3178 0x3178, IM_Mapped [0x112b]);
  (R 0x3179 0x3179, IM_Mapped [0x112c]);
  (R 0x317a 0x317a, IM_Mapped [0x112d]);
  (R 0x317b 0x317b, IM_Mapped [0x112e]);
  (R 0x317c 0x317c, IM_Mapped [0x112f]);
  (R 0x317d 0x317d, IM_Mapped [0x1132]);
  (R 0x317e 0x317e, IM_Mapped [0x1136]);
  (R 0x317f 0x317f, IM_Mapped [0x1140]);
  (R 0x3180 0x3180, IM_Mapped [0x1147]);
  (R 0x3181 0x3181, IM_Mapped [0x114c]);
  (R 0x3182 0x3182, IM_Mapped [0x11f1]);
  (R 0x3183 0x3183, IM_Mapped [0x11f2]);
  (R 0x3184 0x3184, IM_Mapped [0x1157]);
  (R 0x3185 0x3185, IM_Mapped [0x1158]);
  (R 0x3186 0x3186, IM_Mapped [0x1159]);
  (R 0x3187 0x3187, IM_Mapped [0x1184]);
  (R 0x3188 0x3188, IM_Mapped [0x1185]);
  (R 0x3189 0x3189, IM_Mapped [0x1188]);
  (R 0x318a 0x318a, IM_Mapped [0x1191]);
  (R 0x318b 0x318b, IM_Mapped [0x1192]);
  (R 0x318c 0x318c, IM_Mapped [0x1194]);
  (R 0x318d 0x318d, IM_Mapped [0x119e]);
  (R 0x318e 0x318e, IM_Mapped [0x11a1]);
  (R 0x318f 0x318f, IM_Disallowed);
  (R 0x3190 0x3191, IM_Valid);
  (R 0x3192 0x3192, IM_Mapped [0x4e00]);
  (R 0x3193 0x3193, IM_Mapped [0x4e8c]);
  (R 0x3194 0x3194, IM_Mapped [0x4e09]);
  (R 0x3195 0x3195, IM_Mapped [0x56db]);
  (R 0x3196 0x3196, IM_Mapped [0x4e0a]);
  (R 0x3197 0x3197, IM_Mapped [0x4e2d]);
  (R 0x3198 0x3198, IM_Mapped [0x4e0b]);
  (R 0x3199 0x3199, IM_Mapped [0x7532]);
  (R 0x319a 0x319a, IM_Mapped [0x4e59]);
  (R 0x319b 0x319b, IM_Mapped [0x4e19]);
  (R 0x319c 0x319c, IM_Mapped [0x4e01]);
  (R 0x319d 0x319d, IM_Mapped [0x5929]);
  (R 0x319e 0x319e, IM_Mapped [0x5730]);
  (R 0x319f 0x319f, IM_Mapped [0x4eba]);
  (R 0x31a0 0x31ba, IM_Valid);
  (R 0x31bb 0x31bf, IM_Disallowed);
  (R 0x31c0 0x31e3, IM_Valid);
  (R 0x31e4 0x31ef, IM_Disallowed);
  (R 0x31f0 0x31ff, IM_Valid);
  (R 0x3200 0x3200, IM_DisallowedStd3Mapped [0x28; 0x1100; 0x29]);
  (R 0x3201 0x3201, IM_DisallowedStd3Mapped [0x28; 0x1102; 0x29]);
  (R 0x3202 0x3202, IM_DisallowedStd3Mapped [0x28; 0x1103; 0x29]);
  (R 0x3203 0x3203, IM_DisallowedStd3Mapped [0x28; 0x1105; 0x29]);
  (R 0x3204 0x3204, IM_DisallowedStd3Mapped [0x28; 0x1106; 0x29]);
  (R 0x3205 0x3205, IM_DisallowedStd3Mapped [0x28; 0x1107; 0x29]);
  (R 0x3206 0x3206, IM_DisallowedStd3Mapped [0x28; 0x1109; 0x29]);
  (R 0x3207 0x3207, IM_DisallowedStd3Mapped [0x28; 0x110b; 0x29]);
  (R 0x3208 0x3208, IM_DisallowedStd3Mapped [0x28; 0x110c; 0x29]);
  (R 0x3209 0x3209, IM_DisallowedStd3Mapped [0x28; 0x110e; 0x29]);
  (R 0x320a 0x320a, IM_DisallowedStd3Mapped [0x28; 0x110f; 0x29]);
  (R 0x320b 0x320b, IM_DisallowedStd3Mapped [0x28; 0x1110; 0x29]);
  (R 0x320c 0x320c, IM_DisallowedStd3Mapped [0x28; 0x1111; 0x29]);
  (R 0x320d 0x320d, IM_DisallowedStd3Mapped [0x28; 0x1112; 0x29]);
  (R 0x320e 0x320e, IM_DisallowedStd3Mapped [0x28; 0xac00; 0x29]);
  (R 0x320f 0x320f, IM_DisallowedStd3Mapped [0x28; 0xb098; 0x29]);
  (R 0x3210 0x3210, IM_DisallowedStd3Mapped [0x28; 0xb2e4; 0x29]);
  (R 0x3211 0x3211, IM_DisallowedStd3Mapped [0x28; 0xb77c; 0x29]);
  (R 0x3212 0x3212, IM_DisallowedStd3Mapped [0x28; 0xb9c8; 0x29]);
  (R 0x3213 0x3213, IM_DisallowedStd3Mapped [0x28; 0xbc14; 0x29]);
  (R 0x3214 0x3214, IM_DisallowedStd3Mapped [0x28; 0xc0ac; 0x29]);
  (R 0x3215 0x3215, IM_DisallowedStd3Mapped [0x28; 0xc544; 0x29]);
  (R 0x3216 0x3216, IM_DisallowedStd3Mapped [0x28; 0xc790; 0x29]);
  (R 0x3217 0x3217, IM_DisallowedStd3Mapped [0x28; 0xcc28; 0x29]);
  (R 0x3218 0x3218, IM_DisallowedStd3Mapped [0x28; 0xce74; 0x29]);
  (R 0x3219 0x3219, IM_DisallowedStd3Mapped [0x28; 0xd0c0; 0x29]);
  (R 0x321a 0x321a, IM_DisallowedStd3Mapped [0x28; 0xd30c; 0x29]);
  (R 0x321b 0x321b, IM_DisallowedStd3Mapped [0x28; 0xd558; 0x29]);
  (R 0x321c 0x321c, IM_DisallowedStd3Mapped [0x28; 0xc8fc; 0x29]);
  (R 0x321d 0x321d, IM_DisallowedStd3Mapped [0x28; 0xc624; 0xc804; 0x29]);
  (R 0x321e 0x321e, IM_DisallowedStd3Mapped [0x28; 0xc624; 0xd6c4; 0x29]);
  (R 0x321f 0x321f, IM_Disallowed);
  (R 0x3220 0x3220, IM_DisallowedStd3Mapped [0x28; 0x4e00; 0x29]);
  (R 0x3221 0x3221, IM_DisallowedStd3Mapped [0x28; 0x4e8c; 0x29]);
  (R 0x3222 0x3222, IM_DisallowedStd3Mapped [0x28; 0x4e09; 0x29]);
  (R 0x3223 0x3223, IM_DisallowedStd3Mapped [0x28; 0x56db; 0x29]);
  (R 0x3224 0x3224, IM_DisallowedStd3Mapped [0x28; 0x4e94; 0x29]);
  (R 0x3225 0x3225, IM_DisallowedStd3Mapped [0x28; 0x516d; 0x29]);
  (R 0x3226 0x3226, IM_DisallowedStd3Mapped [0x28; 0x4e03; 0x29]);
  (R 0x3227 0x3227, IM_DisallowedStd3Mapped [0x28; 0x516b; 0x29]);
  (R 0x3228 0x3228, IM_DisallowedStd3Mapped [0x28; 0x4e5d; 0x29]);
  (R 0x3229 0x3229, IM_DisallowedStd3Mapped [0x28; 0x5341; 0x29]);
  (R 0x322a 0x322a, IM_DisallowedStd3Mapped [0x28; 0x6708; 0x29]);
  (R 0x322b 0x322b, IM_DisallowedStd3Mapped [0x28; 0x706b; 0x29]);
  (R 0x322c 0x322c, IM_DisallowedStd3Mapped [0x28; 0x6c34; 0x29]);
  (R 0x322d 0x322d, IM_DisallowedStd3Mapped [0x28; 0x6728; 0x29]);
  (R 0x322e 0x322e, IM_DisallowedStd3Mapped [0x28; 0x91d1; 0x29]);
  (R 0x322f 0x322f, IM_DisallowedStd3Mapped [0x28; 0x571f; 0x29]);
  (R 0x3230 0x3230, IM_DisallowedStd3Mapped [0x28; 0x65e5; 0x29]);
  (R 0x3231 0x3231, IM_DisallowedStd3Mapped [0x28; 0x682a; 0x29]);
  (R 0x3232 0x3232, IM_DisallowedStd3Mapped [0x28; 0x6709; 0x29]);
  (R 0x3233 0x3233, IM_DisallowedStd3Mapped [0x28; 0x793e; 0x29]);
  (R 0x3234 0x3234, IM_DisallowedStd3Mapped [0x28; 0x540d; 0x29]);
  (R 0x3235 0x3235, IM_DisallowedStd3Mapped [0x28; 0x7279; 0x29]);
  (R 0x3236 0x3236, IM_DisallowedStd3Mapped [0x28; 0x8ca1; 0x29]);
  (R 0x3237 0x3237, IM_DisallowedStd3Mapped [0x28; 0x795d; 0x29]);
  (R 0x3238 0x3238, IM_DisallowedStd3Mapped [0x28; 0x52b4; 0x29]);
  (R 0x3239 0x3239, IM_DisallowedStd3Mapped [0x28; 0x4ee3; 0x29]);
  (R 0x323a 0x323a, IM_DisallowedStd3Mapped [0x28; 0x547c; 0x29]);
  (R 0x323b 0x323b, IM_DisallowedStd3Mapped [0x28; 0x5b66; 0x29]);
  (R 0x323c 0x323c, IM_DisallowedStd3Mapped [0x28; 0x76e3; 0x29]);
  (R 0x323d 0x323d, IM_DisallowedStd3Mapped [0x28; 0x4f01; 0x29]);
  (R 0x323e 0x323e, IM_DisallowedStd3Mapped [0x28; 0x8cc7; 0x29]);
  (R 0x323f 0x323f, IM_DisallowedStd3Mapped [0x28; 0x5354; 0x29]);
  (R 0x3240 0x3240, IM_DisallowedStd3Mapped [0x28; 0x796d; 0x29]);
  (R 0x3241 0x3241, IM_DisallowedStd3Mapped [0x28; 0x4f11; 0x29]);
  (R 0x3242 0x3242, IM_DisallowedStd3Mapped [0x28; 0x81ea; 0x29]);
  (R 0x3243 0x3243, IM_DisallowedStd3Mapped [0x28; 0x81f3; 0x29]);
  (R 0x3244 0x3244, IM_Mapped [0x554f]);
  (R 0x3245 0x3245, IM_Mapped [0x5e7c]);
  (R 0x3246 0x3246, IM_Mapped [0x6587]);
  (R 0x3247 0x3247, IM_Mapped [0x7b8f]);
  (R 0x3248 0x324f, IM_Valid);
  (R 0x3250 0x3250, IM_Mapped [0x70; 0x74; 0x65]);
  (R 0x3251 0x3251, IM_Mapped [0x32; 0x31]);
  (R 0x3252 0x3252, IM_Mapped [0x32; 0x32]);
  (R 0x3253 0x3253, IM_Mapped [0x32; 0x33]);
  (R 0x3254 0x3254, IM_Mapped [0x32; 0x34]);
  (R 0x3255 0x3255, IM_Mapped [0x32; 0x35]);
  (R 0x3256 0x3256, IM_Mapped [0x32; 0x36]);
  (R 0x3257 0x3257, IM_Mapped [0x32; 0x37]);
  (R 0x3258 0x3258, IM_Mapped [0x32; 0x38]);
  (R 0x3259 0x3259, IM_Mapped [0x32; 0x39]);
  (R 0x325a 0x325a, IM_Mapped [0x33; 0x30]);
  (R 0x325b 0x325b, IM_Mapped [0x33; 0x31]);
  (R 0x325c 0x325c, IM_Mapped [0x33; 0x32]);
  (R 0x325d 0x325d, IM_Mapped [0x33; 0x33]);
  (R 0x325e 0x325e, IM_Mapped [0x33; 0x34]);
  (R 0x325f 0x325f, IM_Mapped [0x33; 0x35]);
  (R 0x3260 0x3260, IM_Mapped [0x1100]);
  (R 0x3261 0x3261, IM_Mapped [0x1102]);
  (R 0x3262 0x3262, IM_Mapped [0x1103]);
  (R 0x3263 0x3263, IM_Mapped [0x1105]);
  (R 0x3264 0x3264, IM_Mapped [0x1106]);
  (R 0x3265 0x3265, IM_Mapped [0x1107]);
  (R 0x3266 0x3266, IM_Mapped [0x1109]);
  (R 0x3267 0x3267, IM_Mapped [0x110b]);
  (R 0x3268 0x3268, IM_Mapped [0x110c]);
  (R 0x3269 0x3269, IM_Mapped [0x110e]);
  (R 0x326a 0x326a, IM_Mapped [0x110f]);
  (R 0x326b 0x326b, IM_Mapped [0x1110]);
  (R 0x326c 0x326c, IM_Mapped [0x1111]);
  (R 0x326d 0x326d, IM_Mapped [0x1112]);
  (R 0x326e 0x326e, IM_Mapped [0xac00]);
  (R 0x326f 0x326f, IM_Mapped [0xb098]);
  (R 0x3270 0x3270, IM_Mapped [0xb2e4]);
  (R 0x3271 0x3271, IM_Mapped [0xb77c]);
  (R 0x3272 0x3272, IM_Mapped [0xb9c8]);
  (R 0x3273 0x3273, IM_Mapped [0xbc14]);
  (R 0x3274 0x3274, IM_Mapped [0xc0ac]);
  (R 0x3275 0x3275, IM_Mapped [0xc544]);
  (R 0x3276 0x3276, IM_Mapped [0xc790]);
  (R 0x3277 0x3277, IM_Mapped [0xcc28]);
  (R 0x3278 0x3278, IM_Mapped [0xce74]);
  (R 0x3279 0x3279, IM_Mapped [0xd0c0]);
  (R 0x327a 0x327a, IM_Mapped [0xd30c]);
  (R 0x327b 0x327b, IM_Mapped [0xd558]);
  (R 0x327c 0x327c, IM_Mapped [0xcc38; 0xace0]);
  (R 0x327d 0x327d, IM_Mapped [0xc8fc; 0xc758]);
  (R 0x327e 0x327e, IM_Mapped [0xc6b0]);
  (R 0x327f 0x327f, IM_Valid);
  (R 0x3280 0x3280, IM_Mapped [0x4e00]);
  (R 0x3281 0x3281, IM_Mapped [0x4e8c]);
  (R 0x3282 0x3282, IM_Mapped [0x4e09]);
  (R 0x3283 0x3283, IM_Mapped [0x56db]);
  (R 0x3284 0x3284, IM_Mapped [0x4e94]);
  (R 0x3285 0x3285, IM_Mapped [0x516d]);
  (R 0x3286 0x3286, IM_Mapped [0x4e03]);
  (R 0x3287 0x3287, IM_Mapped [0x516b]);
  (R 0x3288 0x3288, IM_Mapped [0x4e5d]);
  (R 0x3289 0x3289, IM_Mapped [0x5341]);
  (R 0x328a 0x328a, IM_Mapped [0x6708]);
  (R 0x328b 0x328b, IM_Mapped [0x706b]);
  (R 0x328c 0x328c, IM_Mapped [0x6c34]);
  (R 0x328d 0x328d, IM_Mapped [0x6728]);
  (R 0x328e 0x328e, IM_Mapped [0x91d1]);
  (R 0x328f 0x328f, IM_Mapped [0x571f]);
  (R 0x3290 0x3290, IM_Mapped [0x65e5]);
  (R 0x3291 0x3291, IM_Mapped [0x682a]);
  (R 0x3292 0x3292, IM_Mapped [0x6709]);
  (R 0x3293 0x3293, IM_Mapped [0x793e]);
  (R 0x3294 0x3294, IM_Mapped [0x540d]);
  (R 0x3295 0x3295, IM_Mapped [0x7279]);
  (R 0x3296 0x3296, IM_Mapped [0x8ca1]);
  (R 0x3297 0x3297, IM_Mapped [0x795d]);
  (R 0x3298 0x3298, IM_Mapped [0x52b4]);
  (R 0x3299 0x3299, IM_Mapped [0x79d8]);
  (R 0x329a 0x329a, IM_Mapped [0x7537]);
  (R 0x329b 0x329b, IM_Mapped [0x5973]);
  (R 0x329c 0x329c, IM_Mapped [0x9069]);
  (R 0x329d 0x329d, IM_Mapped [0x512a]);
  (R 0x329e 0x329e, IM_Mapped [0x5370]);
  (R 0x329f 0x329f, IM_Mapped [0x6ce8]);
  (R 0x32a0 0x32a0, IM_Mapped [0x9805]);
  (R 0x32a1 0x32a1, IM_Mapped [0x4f11]);
  (R 0x32a2 0x32a2, IM_Mapped [0x5199]);
  (R 0x32a3 0x32a3, IM_Mapped [0x6b63]);
  (R 0x32a4 0x32a4, IM_Mapped [0x4e0a]);
  (R 0x32a5 0x32a5, IM_Mapped [0x4e2d]);
  (R 0x32a6 0x32a6, IM_Mapped [0x4e0b]);
  (R 0x32a7 0x32a7, IM_Mapped [0x5de6]);
  (R 0x32a8 0x32a8, IM_Mapped [0x53f3]);
  (R 0x32a9 0x32a9, IM_Mapped [0x533b]);
  (R 0x32aa 0x32aa, IM_Mapped [0x5b97]);
  (R 0x32ab 0x32ab, IM_Mapped [0x5b66]);
  (R 0x32ac 0x32ac, IM_Mapped [0x76e3]);
  (R 0x32ad 0x32ad, IM_Mapped [0x4f01]);
  (R 0x32ae 0x32ae, IM_Mapped [0x8cc7]);
  (R 0x32af 0x32af, IM_Mapped [0x5354]);
  (R 0x32b0 0x32b0, IM_Mapped [0x591c]);
  (R 0x32b1 0x32b1, IM_Mapped [0x33; 0x36]);
  (R 0x32b2 0x32b2, IM_Mapped [0x33; 0x37]);
  (R 0x32b3 0x32b3, IM_Mapped [0x33; 0x38]);
  (R 0x32b4 0x32b4, IM_Mapped [0x33; 0x39]);
  (R 0x32b5 0x32b5, IM_Mapped [0x34; 0x30]);
  (R 0x32b6 0x32b6, IM_Mapped [0x34; 0x31]);
  (R 0x32b7 0x32b7, IM_Mapped [0x34; 0x32]);
  (R 0x32b8 0x32b8, IM_Mapped [0x34; 0x33]);
  (R 0x32b9 0x32b9, IM_Mapped [0x34; 0x34]);
  (R 0x32ba 0x32ba, IM_Mapped [0x34; 0x35]);
  (R 0x32bb 0x32bb, IM_Mapped [0x34; 0x36]);
  (R 0x32bc 0x32bc, IM_Mapped [0x34; 0x37]);
  (R 0x32bd 0x32bd, IM_Mapped [0x34; 0x38]);
  (R 0x32be 0x32be, IM_Mapped [0x34; 0x39]);
  (R 0x32bf 0x32bf, IM_Mapped [0x35; 0x30]);
  (R 0x32c0 0x32c0, IM_Mapped [0x31; 0x6708]);
  (R 0x32c1 0x32c1, IM_Mapped [0x32; 0x6708]);
  (R 0x32c2 0x32c2, IM_Mapped [0x33; 0x6708]);
  (R 0x32c3 0x32c3, IM_Mapped [0x34; 0x6708]);
  (R 0x32c4 0x32c4, IM_Mapped [0x35; 0x6708]);
  (R 0x32c5 0x32c5, IM_Mapped [0x36; 0x6708]);
  (R 0x32c6 0x32c6, IM_Mapped [0x37; 0x6708]);
  (R 0x32c7 0x32c7, IM_Mapped [0x38; 0x6708]);
  (R 0x32c8 0x32c8, IM_Mapped [0x39; 0x6708]);
  (R 0x32c9 0x32c9, IM_Mapped [0x31; 0x30; 0x6708]);
  (R 0x32ca 0x32ca, IM_Mapped [0x31; 0x31; 0x6708]);
  (R 0x32cb 0x32cb, IM_Mapped [0x31; 0x32; 0x6708]);
  (R 0x32cc 0x32cc, IM_Mapped [0x68; 0x67]);
  (R 0x32cd 0x32cd, IM_Mapped [0x65; 0x72; 0x67]);
  (R 0x32ce 0x32ce, IM_Mapped [0x65; 0x76]);
  (R 0x32cf 0x32cf, IM_Mapped [0x6c; 0x74; 0x64]);
  (R 0x32d0 0x32d0, IM_Mapped [0x30a2]);
  (R 0x32d1 0x32d1, IM_Mapped [0x30a4]);
  (R 0x32d2 0x32d2, IM_Mapped [0x30a6]);
  (R 0x32d3 0x32d3, IM_Mapped [0x30a8]);
  (R 0x32d4 0x32d4, IM_Mapped [0x30aa]);
  (R 0x32d5 0x32d5, IM_Mapped [0x30ab]);
  (R 0x32d6 0x32d6, IM_Mapped [0x30ad]);
  (R 0x32d7 0x32d7, IM_Mapped [0x30af]);
  (R 0x32d8 0x32d8, IM_Mapped [0x30b1]);
  (R 0x32d9 0x32d9, IM_Mapped [0x30b3]);
  (R 0x32da 0x32da, IM_Mapped [0x30b5]);
  (R 0x32db 0x32db, IM_Mapped [0x30b7]);
  (R 0x32dc 0x32dc, IM_Mapped [0x30b9]);
  (R 0x32dd 0x32dd, IM_Mapped [0x30bb]);
  (R 0x32de 0x32de, IM_Mapped [0x30bd]);
  (R 0x32df 0x32df, IM_Mapped [0x30bf]);
  (R 0x32e0 0x32e0, IM_Mapped [0x30c1]);
  (R 0x32e1 0x32e1, IM_Mapped [0x30c4]);
  (R 0x32e2 0x32e2, IM_Mapped [0x30c6]);
  (R 0x32e3 0x32e3, IM_Mapped [0x30c8]);
  (R 0x32e4 0x32e4, IM_Mapped [0x30ca]);
  (R 0x32e5 0x32e5, IM_Mapped [0x30cb]);
  (R 0x32e6 0x32e6, IM_Mapped [0x30cc]);
  (R 0x32e7 0x32e7, IM_Mapped [0x30cd]);
  (R 0x32e8 0x32e8, IM_Mapped [0x30ce]);
  (R 0x32e9 0x32e9, IM_Mapped [0x30cf]);
  (R 0x32ea 0x32ea, IM_Mapped [0x30d2]);
  (R 0x32eb 0x32eb, IM_Mapped [0x30d5]);
  (R 0x32ec 0x32ec, IM_Mapped [0x30d8]);
  (R 0x32ed 0x32ed, IM_Mapped [0x30db]);
  (R 0x32ee 0x32ee, IM_Mapped [0x30de]);
  (R 0x32ef 0x32ef, IM_Mapped [0x30df]);
  (R 0x32f0 0x32f0, IM_Mapped [0x30e0]);
  (R 0x32f1 0x32f1, IM_Mapped [0x30e1]);
  (R 0x32f2 0x32f2, IM_Mapped [0x30e2]);
  (R 0x32f3 0x32f3, IM_Mapped [0x30e4]);
  (R 0x32f4 0x32f4, IM_Mapped [0x30e6]);
  (R 0x32f5 0x32f5, IM_Mapped [0x30e8]);
  (R 0x32f6 0x32f6, IM_Mapped [0x30e9]);
  (R 0x32f7 0x32f7, IM_Mapped [0x30ea]);
  (R 0x32f8 0x32f8, IM_Mapped [0x30eb]);
  (R 0x32f9 0x32f9, IM_Mapped [0x30ec]);
  (R 0x32fa 0x32fa, IM_Mapped [0x30ed]);
  (R 0x32fb 0x32fb, IM_Mapped [0x30ef]);
  (R 0x32fc 0x32fc, IM_Mapped [0x30f0]);
  (R 0x32fd 0x32fd, IM_Mapped [0x30f1]);
  (R 0x32fe 0x32fe, IM_Mapped [0x30f2]);
  (R 0x32ff 0x32ff, IM_Disallowed);
  (R 0x3300 0x3300, IM_Mapped [0x30a2; 0x30d1; 0x30fc; 0x30c8]);
  (R 0x3301 0x3301, IM_Mapped [0x30a2; 0x30eb; 0x30d5; 0x30a1]);
  (R 0x3302 0x3302, IM_Mapped [0x30a2; 0x30f3; 0x30da; 0x30a2]);
  (R 0x3303 0x3303, IM_Mapped [0x30a2; 0x30fc; 0x30eb]);
  (R 0x3304 0x3304, IM_Mapped [0x30a4; 0x30cb; 0x30f3; 0x30b0]);
  (R 0x3305 0x3305, IM_Mapped [0x30a4; 0x30f3; 0x30c1]);
  (R 0x3306 0x3306, IM_Mapped [0x30a6; 0x30a9; 0x30f3]);
  (R 0x3307 0x3307, IM_Mapped [0x30a8; 0x30b9; 0x30af; 0x30fc; 0x30c9]);
  (R 0x3308 0x3308, IM_Mapped [0x30a8; 0x30fc; 0x30ab; 0x30fc]);
  (R 0x3309 0x3309, IM_Mapped [0x30aa; 0x30f3; 0x30b9]);
  (R 0x330a 0x330a, IM_Mapped [0x30aa; 0x30fc; 0x30e0]);
  (R 0x330b 0x330b, IM_Mapped [0x30ab; 0x30a4; 0x30ea]);
  (R 0x330c 0x330c, IM_Mapped [0x30ab; 0x30e9; 0x30c3; 0x30c8]);
  (R 0x330d 0x330d, IM_Mapped [0x30ab; 0x30ed; 0x30ea; 0x30fc]);
  (R 0x330e 0x330e, IM_Mapped [0x30ac; 0x30ed; 0x30f3]);
  (R 0x330f 0x330f, IM_Mapped [0x30ac; 0x30f3; 0x30de]);
  (R 0x3310 0x3310, IM_Mapped [0x30ae; 0x30ac]);
  (R 0x3311 0x3311, IM_Mapped [0x30ae; 0x30cb; 0x30fc]);
  (R 0x3312 0x3312, IM_Mapped [0x30ad; 0x30e5; 0x30ea; 0x30fc]);
  (R 0x3313 0x3313, IM_Mapped [0x30ae; 0x30eb; 0x30c0; 0x30fc]);
  (R 0x3314 0x3314, IM_Mapped [0x30ad; 0x30ed]);
  (R 0x3315 0x3315, IM_Mapped [0x30ad; 0x30ed; 0x30b0; 0x30e9; 0x30e0]);
  (R 0x3316 0x3316, IM_Mapped [0x30ad; 0x30ed; 0x30e1; 0x30fc; 0x30c8; 0x30eb]);
  (R 0x3317 0x3317, IM_Mapped [0x30ad; 0x30ed; 0x30ef; 0x30c3; 0x30c8]);
  (R 0x3318 0x3318, IM_Mapped [0x30b0; 0x30e9; 0x30e0]);
  (R 0x3319 0x3319, IM_Mapped [0x30b0; 0x30e9; 0x30e0; 0x30c8; 0x30f3]);
  (R 0x331a 0x331a, IM_Mapped [0x30af; 0x30eb; 0x30bc; 0x30a4; 0x30ed]);
  (R 0x331b 0x331b, IM_Mapped [0x30af; 0x30ed; 0x30fc; 0x30cd]);
  (R 0x331c 0x331c, IM_Mapped [0x30b1; 0x30fc; 0x30b9]);
  (R 0x331d 0x331d, IM_Mapped [0x30b3; 0x30eb; 0x30ca]);
  (R 0x331e 0x331e, IM_Mapped [0x30b3; 0x30fc; 0x30dd]);
  (R 0x331f 0x331f, IM_Mapped [0x30b5; 0x30a4; 0x30af; 0x30eb]);
  (R 0x3320 0x3320, IM_Mapped [0x30b5; 0x30f3; 0x30c1; 0x30fc; 0x30e0]);
  (R 0x3321 0x3321, IM_Mapped [0x30b7; 0x30ea; 0x30f3; 0x30b0]);
  (R 0x3322 0x3322, IM_Mapped [0x30bb; 0x30f3; 0x30c1]);
  (R 0x3323 0x3323, IM_Mapped [0x30bb; 0x30f3; 0x30c8]);
  (R 0x3324 0x3324, IM_Mapped [0x30c0; 0x30fc; 0x30b9]);
  (R 0x3325 0x3325, IM_Mapped [0x30c7; 0x30b7]);
  (R 0x3326 0x3326, IM_Mapped [0x30c9; 0x30eb]);
  (R 0x3327 0x3327, IM_Mapped [0x30c8; 0x30f3]);
  (R 0x3328 0x3328, IM_Mapped [0x30ca; 0x30ce]);
  (R 0x3329 0x3329, IM_Mapped [0x30ce; 0x30c3; 0x30c8]);
  (R 0x332a 0x332a, IM_Mapped [0x30cf; 0x30a4; 0x30c4]);
  (R 0x332b 0x332b, IM_Mapped [0x30d1; 0x30fc; 0x30bb; 0x30f3; 0x30c8]);
  (R 0x332c 0x332c, IM_Mapped [0x30d1; 0x30fc; 0x30c4]);
  (R 0x332d 0x332d, IM_Mapped [0x30d0; 0x30fc; 0x30ec; 0x30eb]);
  (R 0x332e 0x332e, IM_Mapped [0x30d4; 0x30a2; 0x30b9; 0x30c8; 0x30eb]);
  (R 0x332f 0x332f, IM_Mapped [0x30d4; 0x30af; 0x30eb]);
  (R 0x3330 0x3330, IM_Mapped [0x30d4; 0x30b3]);
  (R 0x3331 0x3331, IM_Mapped [0x30d3; 0x30eb]);
  (R 0x3332 0x3332, IM_Mapped [0x30d5; 0x30a1; 0x30e9; 0x30c3; 0x30c9]);
  (R 0x3333 0x3333, IM_Mapped [0x30d5; 0x30a3; 0x30fc; 0x30c8]);
  (R 0x3334 0x3334, IM_Mapped [0x30d6; 0x30c3; 0x30b7; 0x30a7; 0x30eb]);
  (R 0x3335 0x3335, IM_Mapped [0x30d5; 0x30e9; 0x30f3]);
  (R 0x3336 0x3336, IM_Mapped [0x30d8; 0x30af; 0x30bf; 0x30fc; 0x30eb]);
  (R 0x3337 0x3337, IM_Mapped [0x30da; 0x30bd]);
  (R 0x3338 0x3338, IM_Mapped [0x30da; 0x30cb; 0x30d2]);
  (R 0x3339 0x3339, IM_Mapped [0x30d8; 0x30eb; 0x30c4]);
  (R 0x333a 0x333a, IM_Mapped [0x30da; 0x30f3; 0x30b9]);
  (R 0x333b 0x333b, IM_Mapped [0x30da; 0x30fc; 0x30b8]);
  (R 0x333c 0x333c, IM_Mapped [0x30d9; 0x30fc; 0x30bf]);
  (R 0x333d 0x333d, IM_Mapped [0x30dd; 0x30a4; 0x30f3; 0x30c8]);
  (R 0x333e 0x333e, IM_Mapped [0x30dc; 0x30eb; 0x30c8]);
  (R 0x333f 0x333f, IM_Mapped [0x30db; 0x30f3]);
  (R 0x3340 0x3340, IM_Mapped [0x30dd; 0x30f3; 0x30c9]);
  (R 0x3341 0x3341, IM_Mapped [0x30db; 0x30fc; 0x30eb]);
  (R 0x3342 0x3342, IM_Mapped [0x30db; 0x30fc; 0x30f3]);
  (R 0x3343 0x3343, IM_Mapped [0x30de; 0x30a4; 0x30af; 0x30ed]);
  (R 0x3344 0x3344, IM_Mapped [0x30de; 0x30a4; 0x30eb]);
  (R 0x3345 0x3345, IM_Mapped [0x30de; 0x30c3; 0x30cf]);
  (R 0x3346 0x3346, IM_Mapped [0x30de; 0x30eb; 0x30af]);
  (R 0x3347 0x3347, IM_Mapped [0x30de; 0x30f3; 0x30b7; 0x30e7; 0x30f3]);
  (R 0x3348 0x3348, IM_Mapped [0x30df; 0x30af; 0x30ed; 0x30f3]);
  (R 0x3349 0x3349, IM_Mapped [0x30df; 0x30ea]);
  (R 0x334a 0x334a, IM_Mapped [0x30df; 0x30ea; 0x30d0; 0x30fc; 0x30eb]);
  (R 0x334b 0x334b, IM_Mapped [0x30e1; 0x30ac]);
  (R 0x334c 0x334c, IM_Mapped [0x30e1; 0x30ac; 0x30c8; 0x30f3]);
  (R 0x334d 0x334d, IM_Mapped [0x30e1; 0x30fc; 0x30c8; 0x30eb]);
  (R 0x334e 0x334e, IM_Mapped [0x30e4; 0x30fc; 0x30c9]);
  (R 0x334f 0x334f, IM_Mapped [0x30e4; 0x30fc; 0x30eb]);
  (R 0x3350 0x3350, IM_Mapped [0x30e6; 0x30a2; 0x30f3]);
  (R 0x3351 0x3351, IM_Mapped [0x30ea; 0x30c3; 0x30c8; 0x30eb]);
  (R 0x3352 0x3352, IM_Mapped [0x30ea; 0x30e9]);
  (R 0x3353 0x3353, IM_Mapped [0x30eb; 0x30d4; 0x30fc]);
  (R 0x3354 0x3354, IM_Mapped [0x30eb; 0x30fc; 0x30d6; 0x30eb]);
  (R 0x3355 0x3355, IM_Mapped [0x30ec; 0x30e0]);
  (R 0x3356 0x3356, IM_Mapped [0x30ec; 0x30f3; 0x30c8; 0x30b2; 0x30f3]);
  (R 0x3357 0x3357, IM_Mapped [0x30ef; 0x30c3; 0x30c8]);
  (R 0x3358 0x3358, IM_Mapped [0x30; 0x70b9]);
  (R 0x3359 0x3359, IM_Mapped [0x31; 0x70b9]);
  (R 0x335a 0x335a, IM_Mapped [0x32; 0x70b9]);
  (R 0x335b 0x335b, IM_Mapped [0x33; 0x70b9]);
  (R 0x335c 0x335c, IM_Mapped [0x34; 0x70b9]);
  (R 0x335d 0x335d, IM_Mapped [0x35; 0x70b9]);
  (R 0x335e 0x335e, IM_Mapped [0x36; 0x70b9]);
  (R 0x335f 0x335f, IM_Mapped [0x37; 0x70b9]);
  (R 0x3360 0x3360, IM_Mapped [0x38; 0x70b9]);
  (R 0x3361 0x3361, IM_Mapped [0x39; 0x70b9])].

Definition MAPPING_8 : list (CharRange * Mapping) := [
  (R 0x3362 0x3362, IM_Mapped [0x31; 0x30; 0x70b9]);
  (R 0x3363 0x3363, IM_Mapped [0x31; 0x31; 0x70b9]);
  (R 0x3364 0x3364, IM_Mapped [0x31; 0x32; 0x70b9]);
  (R 0x3365 0x3365, IM_Mapped [0x31; 0x33; 0x70b9]);
  (R 0x3366 0x3366, IM_Mapped [0x31; 0x34; 0x70b9]);
  (R 0x3367 0x3367, IM_Mapped [0x31; 0x35; 0x70b9]);
  (R 0x3368 0x3368, IM_Mapped [0x31; 0x36; 0x70b9]);
  (R 0x3369 0x3369, IM_Mapped [0x31; 0x37; 0x70b9]);
  (R 0x336a 0x336a, IM_Mapped [0x31; 0x38; 0x70b9]);
  (R 0x336b 0x336b, IM_Mapped [0x31; 0x39; 0x70b9]);
  (R 0x336c 0x336c, IM_Mapped [0x32; 0x30; 0x70b9]);
  (R 0x336d 0x336d, IM_Mapped [0x32; 0x31; 0x70b9]);
  (R 0x336e 0x336e, IM_Mapped [0x32; 0x32; 0x70b9]);
  (R 0x336f 0x336f, IM_Mapped [0x32; 0x33; 0x70b9]);
  (R 0x3370 0x3370, IM_Mapped [0x32; 0x34; 0x70b9]);
  (R 0x3371 0x3371, IM_Mapped [0x68; 0x70; 0x61]);
  (R 0x3372 0x3372, IM_Mapped [0x64; 0x61]);
  (R 0x3373 0x3373, IM_Mapped [0x61; 0x75]);
  (R 0x3374 0x3374, IM_Mapped [0x62; 0x61; 0x72]);
  (R 0x3375 0x3375, IM_Mapped [0x6f; 0x76]);
  (R 0x3376 0x3376, IM_Mapped [0x70; 0x63]);
  (R 0x3377 0x3377, IM_Mapped [0x64; 0x6d]);
  (R 0x3378 0x3378, IM_Mapped [0x64; 0x6d; 0x32]);
  (R 0x3379 0x3379, IM_Mapped [0x64; 0x6d; 0x33]);
  (R 0x337a 0x337a, IM_Mapped [0x69; 0x75]);
  (R 0x337b 0x337b, IM_Mapped [0x5e73; 0x6210]);
  (R 0x337c 0x337c, IM_Mapped [0x662d; 0x548c]);
  (R 0x337d 0x337d, IM_Mapped [0x5927; 0x6b63]);
  (R 0x337e 0x337e, IM_Mapped [0x660e; 0x6cbb]);
  (R 0x337f 0x337f, IM_Mapped [0x682a; 0x5f0f; 0x4f1a; 0x793e]);
  (R 0x3380 0x3380, IM_Mapped [0x70; 0x61]);
  (R 0x3381 0x3381, IM_Mapped [0x6e; 0x61]);
  (R 0x3382 0x3382, IM_Mapped [0x3bc; 0x61]);
  (R 0x3383 0x3383, IM_Mapped [0x6d; 0x61]);
  (R 0x3384 0x3384, IM_Mapped [0x6b; 0x61]);
  (R 0x3385 0x3385, IM_Mapped [0x6b; 0x62]);
  (R 0x3386 0x3386, IM_Mapped [0x6d; 0x62]);
  (R 0x3387 0x3387, IM_Mapped [0x67; 0x62]);
  (R 0x3388 0x3388, IM_Mapped [0x63; 0x61; 0x6c]);
  (R 0x3389 0x3389, IM_Mapped [0x6b; 0x63; 0x61; 0x6c]);
  (R 0x338a 0x338a, IM_Mapped [0x70; 0x66]);
  (R 0x338b 0x338b, IM_Mapped [0x6e; 0x66]);
  (R 0x338c 0x338c, IM_Mapped [0x3bc; 0x66]);
  (R 0x338d 0x338d, IM_Mapped [0x3bc; 0x67]);
  (R 0x338e 0x338e, IM_Mapped [0x6d; 0x67]);
  (R 0x338f 0x338f, IM_Mapped [0x6b; 0x67]);
  (R 0x3390 0x3390, IM_Mapped [0x68; 0x7a]);
  (R 0x3391 0x3391, IM_Mapped [0x6b; 0x68; 0x7a]);
  (R 0x3392 0x3392, IM_Mapped [0x6d; 0x68; 0x7a]);
  (R 0x3393 0x3393, IM_Mapped [0x67; 0x68; 0x7a]);
  (R 0x3394 0x3394, IM_Mapped [0x74; 0x68; 0x7a]);
  (R 0x3395 0x3395, IM_Mapped [0x3bc; 0x6c]);
  (R 0x3396 0x3396, IM_Mapped [0x6d; 0x6c]);
  (R 0x3397 0x3397, IM_Mapped [0x64; 0x6c]);
  (R 0x3398 0x3398, IM_Mapped [0x6b; 0x6c]);
  (R 0x3399 0x3399, IM_Mapped [0x66; 0x6d]);
  (R 0x339a 0x339a, IM_Mapped [0x6e; 0x6d]);
  (R 0x339b 0x339b, IM_Mapped [0x3bc; 0x6d]);
  (R 0x339c 0x339c, IM_Mapped [0x6d; 0x6d]);
  (R 0x339d 0x339d, IM_Mapped [0x63; 0x6d]);
  (R 0x339e 0x339e, IM_Mapped [0x6b; 0x6d]);
  (R 0x339f 0x339f, IM_Mapped [0x6d; 0x6d; 0x32]);
  (R 0x33a0 0x33a0, IM_Mapped [0x63; 0x6d; 0x32]);
  (R 0x33a1 0x33a1, IM_Mapped [0x6d; 0x32]);
  (R 0x33a2 0x33a2, IM_Mapped [0x6b; 0x6d; 0x32]);
  (R 0x33a3 0x33a3, IM_Mapped [0x6d; 0x6d; 0x33]);
  (R 0x33a4 0x33a4, IM_Mapped [0x63; 0x6d; 0x33]);
  (R 0x33a5 0x33a5, IM_Mapped [0x6d; 0x33]);
  (R 0x33a6 0x33a6, IM_Mapped [0x6b; 0x6d; 0x33]);
  (R 0x33a7 0x33a7, IM_Mapped [0x6d; 0x2215; 0x73]);
  (R 0x33a8 0x33a8, IM_Mapped [0x6d; 0x2215; 0x73; 0x32]);
  (R 0x33a9 0x33a9, IM_Mapped [0x70; 0x61]);
  (R 0x33aa 0x33aa, IM_Mapped [0x6b; 0x70; 0x61]);
  (R 0x33ab 0x33ab, IM_Mapped [0x6d; 0x70; 0x61]);
  (R 0x33ac 0x33ac, IM_Mapped [0x67; 0x70; 0x61]);
  (R 0x33ad 0x33ad, IM_Mapped [0x72; 0x61; 0x64]);
  (R 0x33ae 0x33ae, IM_Mapped [0x72; 0x61; 0x64; 0x2215; 0x73]);
  (R 0x33af 0x33af, IM_Mapped [0x72; 0x61; 0x64; 0x2215; 0x73; 0x32]);
  (R 0x33b0 0x33b0, IM_Mapped [0x70; 0x73]);
  (R 0x33b1 0x33b1, IM_Mapped [0x6e; 0x73]);
  (R 0x33b2 0x33b2, IM_Mapped [0x3bc; 0x73]);
  (R 0x33b3 0x33b3, IM_Mapped [0x6d; 0x73]);
  (R 0x33b4 0x33b4, IM_Mapped [0x70; 0x76]);
  (R 0x33b5 0x33b5, IM_Mapped [0x6e; 0x76]);
  (R 0x33b6 0x33b6, IM_Mapped [0x3bc; 0x76]);
  (R 0x33b7 0x33b7, IM_Mapped [0x6d; 0x76]);
  (R 0x33b8 0x33b8, IM_Mapped [0x6b; 0x76]);
  (R 0x33b9 0x33b9, IM_Mapped [0x6d; 0x76]);
  (R 0x33ba 0x33ba, IM_Mapped [0x70; 0x77]);
  (R 0x33bb 0x33bb, IM_Mapped [0x6e; 0x77]);
  (R 0x33bc 0x33bc, IM_Mapped [0x3bc; 0x77]);
  (R 0x33bd 0x33bd, IM_Mapped [0x6d; 0x77]);
  (R 0x33be 0x33be, IM_Mapped [0x6b; 0x77]);
  (R 0x33bf 0x33bf, IM_Mapped [0x6d; 0x77]);
  (R 0x33c0 0x33c0, IM_Mapped [0x6b; 0x3c9]);
  (R 0x33c1 0x33c1, IM_Mapped [0x6d; 0x3c9]);
  (R 0x33c2 0x33c2, IM_Disallowed);
  (R 0x33c3 0x33c3, IM_Mapped [0x62; 0x71]);
  (R 0x33c4 0x33c4, IM_Mapped [0x63; 0x63]);
  (R 0x33c5 0x33c5, IM_Mapped [0x63; 0x64]);
  (R 0x33c6 0x33c6, IM_Mapped [0x63; 0x2215; 0x6b; 0x67]);
  (R 0x33c7 0x33c7, IM_Disallowed);
  (R 0x33c8 0x33c8, IM_Mapped [0x64; 0x62]);
  (R 0x33c9 0x33c9, IM_Mapped [0x67; 0x79]);
  (R 0x33ca 0x33ca, IM_Mapped [0x68; 0x61]);
  (R 0x33cb 0x33cb, IM_Mapped [0x68; 0x70]);
  (R 0x33cc 0x33cc, IM_Mapped [0x69; 0x6e]);
  (R 0x33cd 0x33cd, IM_Mapped [0x6b; 0x6b]);
  (R 0x33ce 0x33ce, IM_Mapped [0x6b; 0x6d]);
  (R 0x33cf 0x33cf, IM_Mapped [0x6b; 0x74]);
  (R 0x33d0 0x33d0, IM_Mapped [0x6c; 0x6d]);
  (R 0x33d1 0x33d1, IM_Mapped [0x6c; 0x6e]);
  (R 0x33d2 0x33d2, IM_Mapped [0x6c; 0x6f; 0x67]);
  (R 0x33d3 0x33d3, IM_Mapped [0x6c; 0x78]);
  (R 0x33d4 0x33d4, IM_Mapped [0x6d; 0x62]);
  (R 0x33d5 0x33d5, IM_Mapped [0x6d; 0x69; 0x6c]);
  (R 0x33d6 0x33d6, IM_Mapped [0x6d; 0x6f; 0x6c]);
  (R 0x33d7 0x33d7, IM_Mapped [0x70; 0x68]);
  (R 0x33d8 0x33d8, IM_Disallowed);
  (R 0x33d9 0x33d9, IM_Mapped [0x70; 0x70; 0x6d]);
  (R 0x33da 0x33da, IM_Mapped [0x70; 0x72]);
  (R 0x33db 0x33db, IM_Mapped [0x73; 0x72]);
  (R 0x33dc 0x33dc, IM_Mapped [0x73; 0x76]);
  (R 0x33dd 0x33dd, IM_Mapped [0x77; 0x62]);
  (R 0x33de 0x33de, IM_Mapped [0x76; 0x2215; 0x6d]);
  (R 0x33df 0x33df, IM_Mapped [0x61; 0x2215; 0x6d]);
  (R 0x33e0 0x33e0, IM_Mapped [0x31; 0x65e5]);
  (R 0x33e1 0x33e1, IM_Mapped [0x32; 0x65e5]);
  (R 0x33e2 0x33e2, IM_Mapped [0x33; 0x65e5]);
  (R 0x33e3 0x33e3, IM_Mapped [0x34; 0x65e5]);
  (R 0x33e4 0x33e4, IM_Mapped [0x35; 0x65e5]);
  (R 0x33e5 0x33e5, IM_Mapped [0x36; 0x65e5]);
  (R 0x33e6 0x33e6, IM_Mapped [0x37; 0x65e5]);
  (R 0x33e7 0x33e7, IM_Mapped [0x38; 0x65e5]);
  (R 0x33e8 0x33e8, IM_Mapped [0x39; 0x65e5]);
  (R 0x33e9 0x33e9, IM_Mapped [0x31; 0x30; 0x65e5]);
  (R 0x33ea 0x33ea, IM_Mapped [0x31; 0x31; 0x65e5]);
  (R 0x33eb 0x33eb, IM_Mapped [0x31; 0x32; 0x65e5]);
  (R 0x33ec 0x33ec, IM_Mapped [0x31; 0x33; 0x65e5]);
  (R 0x33ed 0x33ed, IM_Mapped [0x31; 0x34; 0x65e5]);
  (R 0x33ee 0x33ee, IM_Mapped [0x31; 0x35; 0x65e5]);
  (R 0x33ef 0x33ef, IM_Mapped [0x31; 0x36; 0x65e5]);
  (R 0x33f0 0x33f0, IM_Mapped [0x31; 0x37; 0x65e5]);
  (R 0x33f1 0x33f1, IM_Mapped [0x31; 0x38; 0x65e5]);
  (R 0x33f2 0x33f2, IM_Mapped [0x31; 0x39; 0x65e5]);
  (R 0x33f3 0x33f3, IM_Mapped [0x32; 0x30; 0x65e5]);
  (R 0x33f4 0x33f4, IM_Mapped [0x32; 0x31; 0x65e5]);
  (R 0x33f5 0x33f5, IM_Mapped [0x32; 0x32; 0x65e5]);
  (R 0x33f6 0x33f6, IM_Mapped [0x32; 0x33; 0x65e5]);
  (R 0x33f7 0x33f7, IM_Mapped [0x32; 0x34; 0x65e5]);
  (R 0x33f8 0x33f8, IM_Mapped [0x32; 0x35; 0x65e5]);
  (R 0x33f9 0x33f9, IM_Mapped [0x32; 0x36; 0x65e5]);
  (R 0x33fa 0x33fa, IM_Mapped [0x32; 0x37; 0x65e5]);
  (R 0x33fb 0x33fb, IM_Mapped [0x32; 0x38; 0x65e5]);
  (R 0x33fc 0x33fc, IM_Mapped [0x32; 0x39; 0x65e5]);
  (R 0x33fd 0x33fd, IM_Mapped [0x33; 0x30; 0x65e5]);
  (R 0x33fe 0x33fe, IM_Mapped [0x33; 0x31; 0x65e5]);
  (R 0x33ff 0x33ff, IM_Mapped [0x67; 0x61; 0x6c]);
  (R 0x3400 0x4db5, IM_Valid);
  (R 0x4db6 0x4dbf, IM_Disallowed);
  (R 0x4dc0 0x9fea, IM_Valid);
  (R 0x9feb 0x9fff, IM_Disallowed);
  (R 0xa000 0xa48c, IM_Valid);
  (R 0xa48d 0xa48f, IM_Disallowed);
  (R 0xa490 0xa4c6, IM_Valid);
  (R 0xa4c7 0xa4cf, IM_Disallowed);
  (R 0xa4d0 0xa62b, IM_Valid);
  (R 0xa62c 0xa63f, IM_Disallowed);
  (R 0xa640 0xa640, IM_Mapped [0xa641]);
  (R 0xa641 0xa641, IM_Valid);
  (R 0xa642 0xa642, IM_Mapped [0xa643]);
  (R 0xa643 0xa643, IM_Valid);
  (R 0xa644 0xa644, IM_Mapped [0xa645]);
  (R 0xa645 0xa645, IM_Valid);
  (R 0xa646 0xa646, IM_Mapped [0xa647]);
  (R 0xa647 0xa647, IM_Valid);
  (R 0xa648 0xa648, IM_Mapped [0xa649]);
  (R 0xa649 0xa649, IM_Valid);
  (R 0xa64a 0xa64a, IM_Mapped [0xa64b]);
  (R 0xa64b 0xa64b, IM_Valid);
  (R 0xa64c 0xa64c, IM_Mapped [0xa64d]);
  (R 0xa64d 0xa64d, IM_Valid);
  (R 0xa64e 0xa64e, IM_Mapped [0xa64f]);
  (R 0xa64f 0xa64f, IM_Valid);
  (R 0xa650 0xa650, IM_Mapped [0xa651]);
  (R 0xa651 0xa651, IM_Valid);
  (R 0xa652 0xa652, IM_Mapped [0xa653]);
  (R 0xa653 0xa653, IM_Valid);
  (R 0xa654 0xa654, IM_Mapped [0xa655]);
  (R 0xa655 0xa655, IM_Valid);
  (R 0xa656 0xa656, IM_Mapped [0xa657]);
  (R 0xa657 0xa657, IM_Valid);
  (R 0xa658 0xa658, IM_Mapped [0xa659]);
  (R 0xa659 0xa659, IM_Valid);
  (R 0xa65a 0xa65a, IM_Mapped [0xa65b]);
  (R 0xa65b 0xa65b, IM_Valid);
  (R 0xa65c 0xa65c, IM_Mapped [0xa65d]);
  (R 0xa65d 0xa65d, IM_Valid);
  (R 0xa65e 0xa65e, IM_Mapped [0xa65f]);
  (R 0xa65f 0xa65f, IM_Valid);
  (R 0xa660 0xa660, IM_Mapped [0xa661]);
  (R 0xa661 0xa661, IM_Valid);
  (R 0xa662 0xa662, IM_Mapped [0xa663]);
  (R 0xa663 0xa663, IM_Valid);
  (R 0xa664 0xa664, IM_Mapped [0xa665]);
  (R 0xa665 0xa665, IM_Valid);
  (R 0xa666 0xa666, IM_Mapped [0xa667]);
  (R 0xa667 0xa667, IM_Valid);
  (R 0xa668 0xa668, IM_Mapped [0xa669]);
  (R 0xa669 0xa669, IM_Valid);
  (R 0xa66a 0xa66a, IM_Mapped [0xa66b]);
  (R 0xa66b 0xa66b, IM_Valid);
  (R 0xa66c 0xa66c, IM_Mapped [0xa66d]);
  (R 0xa66d 0xa67f, IM_Valid);
  (R 0xa680 0xa680, IM_Mapped [0xa681]);
  (R 0xa681 0xa681, IM_Valid);
  (R 0xa682 0xa682, IM_Mapped [0xa683]);
  (R 0xa683 0xa683, IM_Valid);
  (R 0xa684 0xa684, IM_Mapped [0xa685]);
  (R 0xa685 0xa685, IM_Valid);
  (R 0xa686 0xa686, IM_Mapped [0xa687]);
  (R 0xa687 0xa687, IM_Valid);
  (R 0xa688 0xa688, IM_Mapped [0xa689]);
  (R 0xa689 0xa689, IM_Valid);
  (R 0xa68a 0xa68a, IM_Mapped [0xa68b]);
  (R 0xa68b 0xa68b, IM_Valid);
  (R 0xa68c 0xa68c, IM_Mapped [0xa68d]);
  (R 0xa68d 0xa68d, IM_Valid);
  (R 0xa68e 0xa68e, IM_Mapped [0xa68f]);
  (R 0xa68f 0xa68f, IM_Valid);
  (R 0xa690 0xa690, IM_Mapped [0xa691]);
  (R 0xa691 0xa691, IM_Valid);
  (R 0xa692 0xa692, IM_Mapped [0xa693]);
  (R 0xa693 0xa693, IM_Valid);
  (R 0xa694 0xa694, IM_Mapped [0xa695]);
  (R 0xa695 0xa695, IM_Valid);
  (R 0xa696 0xa696, IM_Mapped [0xa697]);
  (R 0xa697 0xa697, IM_Valid);
  (R 0xa698 0xa698, IM_Mapped [0xa699]);
  (R 0xa699 0xa699, IM_Valid);
  (R 0xa69a 0xa69a, IM_Mapped [0xa69b]);
  (R 0xa69b 0xa69b, IM_Valid);
  (R 0xa69c 0xa69c, IM_Mapped [0x44a]);
  (R 0xa69d 0xa69d, IM_Mapped [0x44c]);
  (R 0xa69e 0xa6f7, IM_Valid);
  (R 0xa6f8 0xa6ff, IM_Disallowed);
  (R 0xa700 0xa721, IM_Valid);
  (R 0xa722 0xa722, IM_Mapped [0xa723]);
  (R 0xa723 0xa723, IM_Valid);
  (R 0xa724 0xa724, IM_Mapped [0xa725]);
  (R 0xa725 0xa725, IM_Valid);
  (R 0xa726 0xa726, IM_Mapped [0xa727]);
  (R 0xa727 0xa727, IM_Valid);
  (R 0xa728 0xa728, IM_Mapped [0xa729]);
  (R 0xa729 0xa729, IM_Valid);
  (R 0xa72a 0xa72a, IM_Mapped [0xa72b]);
  (R 0xa72b 0xa72b, IM_Valid);
  (R 0xa72c 0xa72c, IM_Mapped [0xa72d]);
  (R 0xa72d 0xa72d, IM_Valid);
  (R 0xa72e 0xa72e, IM_Mapped [0xa72f]);
  (R 0xa72f 0xa731, IM_Valid);
  (R 0xa732 0xa732, IM_Mapped [0xa733]);
  (R 0xa733 0xa733, IM_Valid);
  (R 0xa734 0xa734, IM_Mapped [0xa735]);
  (R 0xa735 0xa735, IM_Valid);
  (R 0xa736 0xa736, IM_Mapped [0xa737]);
  (R 0xa737 0xa737, IM_Valid);
  (R 0xa738 0xa738, IM_Mapped [0xa739]);
  (R 0xa739 0xa739, IM_Valid);
  (R 0xa73a 0xa73a, IM_Mapped [0xa73b]);
  (R 0xa73b 0xa73b, IM_Valid);
  (R 0xa73c 0xa73c, IM_Mapped [0xa73d]);
  (R 0xa73d 0xa73d, IM_Valid);
  (R 0xa73e 0xa73e, IM_Mapped [0xa73f]);
  (R 0xa73f 0xa73f, IM_Valid);
  (R 0xa740 0xa740, IM_Mapped [0xa741]);
  (R 0xa741 0xa741, IM_Valid);
  (R 0xa742 0xa742, IM_Mapped [0xa743]);
  (R 0xa743 0xa743, IM_Valid);
  (R 0xa744 0xa744, IM_Mapped [0xa745]);
  (R 0xa745 0xa745, IM_Valid);
  (R 0xa746 0xa746, IM_Mapped [0xa747]);
  (R 0xa747 0xa747, IM_Valid);
  (R 0xa748 0xa748, IM_Mapped [0xa749]);
  (R 0xa749 0xa749, IM_Valid);
  (R 0xa74a 0xa74a, IM_Mapped [0xa74b]);
  (R 0xa74b 0xa74b, IM_Valid);
  (R 0xa74c 0xa74c, IM_Mapped [0xa74d]);
  (R 0xa74d 0xa74d, IM_Valid);
  (R 0xa74e 0xa74e, IM_Mapped [0xa74f]);
  (R 0xa74f 0xa74f, IM_Valid);
  (R 0xa750 0xa750, IM_Mapped [0xa751]);
  (R 0xa751 0xa751, IM_Valid);
  (R 0xa752 0xa752, IM_Mapped [0xa753]);
  (R 0xa753 0xa753, IM_Valid);
  (R 0xa754 0xa754, IM_Mapped [0xa755]);
  (R 0xa755 0xa755, IM_Valid);
  (R 0xa756 0xa756, IM_Mapped [0xa757]);
  (R 0xa757 0xa757, IM_Valid);
  (R 0xa758 0xa758, IM_Mapped [0xa759]);
  (R 0xa759 0xa759, IM_Valid);
  (R 0xa75a 0xa75a, IM_Mapped [0xa75b]);
  (R 0xa75b 0xa75b, IM_Valid);
  (R 0xa75c 0xa75c, IM_Mapped [0xa75d]);
  (R 0xa75d 0xa75d, IM_Valid);
  (R 0xa75e 0xa75e, IM_Mapped [0xa75f]);
  (R 0xa75f 0xa75f, IM_Valid);
  (R 0xa760 0xa760, IM_Mapped [0xa761]);
  (R 0xa761 0xa761, IM_Valid);
  (R 0xa762 0xa762, IM_Mapped [0xa763]);
  (R 0xa763 0xa763, IM_Valid);
  (R 0xa764 0xa764, IM_Mapped [0xa765]);
  (R 0xa765 0xa765, IM_Valid);
  (R 0xa766 0xa766, IM_Mapped [0xa767]);
  (R 0xa767 0xa767, IM_Valid);
  (R 0xa768 0xa768, IM_Mapped [0xa769]);
  (R 0xa769 0xa769, IM_Valid);
  (R 0xa76a 0xa76a, IM_Mapped [0xa76b]);
  (R 0xa76b 0xa76b, IM_Valid);
  (R 0xa76c 0xa76c, IM_Mapped [0xa76d]);
  (R 0xa76d 0xa76d, IM_Valid);
  (R 0xa76e 0xa76e, IM_Mapped [0xa76f]);
  (R 0xa76f 0xa76f, IM_Valid);
  (R 0xa770 0xa770, IM_Mapped [0xa76f]);
  (R 0xa771 0xa778, IM_Valid);
  (R 0xa779 0xa779, IM_Mapped [0xa77a]);
  (R 0xa77a 0xa77a, IM_Valid);
  (R 0xa77b 0xa77b, IM_Mapped [0xa77c]);
  (R 0xa77c 0xa77c, IM_Valid);
  (R 0xa77d 0xa77d, IM_Mapped [0x1d79]);
  (R 0xa77e 0xa77e, IM_Mapped [0xa77f]);
  (R 0xa77f 0xa77f, IM_Valid);
  (R 0xa780 0xa780, IM_Mapped [0xa781]);
  (R 0xa781 0xa781, IM_Valid);
  (R 0xa782 0xa782, IM_Mapped [0xa783]);
  (R 0xa783 0xa783, IM_Valid);
  (R 0xa784 0xa784, IM_Mapped [0xa785]);
  (R 0xa785 0xa785, IM_Valid);
  (R 0xa786 0xa786, IM_Mapped [0xa787]);
  (R 0xa787 0xa78a, IM_Valid);
  (R 0xa78b 0xa78b, IM_Mapped [0xa78c]);
  (R 0xa78c 0xa78c, IM_Valid);
  (R 0xa78d 0xa78d, IM_Mapped [0x265]);
  (R 0xa78e 0xa78f, IM_Valid);
  (R 0xa790 0xa790, IM_Mapped [0xa791]);
  (R 0xa791 0xa791, IM_Valid);
  (R 0xa792 0xa792, IM_Mapped [0xa793]);
  (R 0xa793 0xa795, IM_Valid);
  (R 0xa796 0xa796, IM_Mapped [0xa797]);
  (R 0xa797 0xa797, IM_Valid);
  (R 0xa798 0xa798, IM_Mapped [0xa799]);
  (R 0xa799 0xa799, IM_Valid);
  (R 0xa79a 0xa79a, IM_Mapped [0xa79b]);
  (R 0xa79b 0xa79b, IM_Valid);
  (R 0xa79c 0xa79c, IM_Mapped [0xa79d]);
  (R 0xa79d 0xa79d, IM_Valid);
  (R 0xa79e 0xa79e, IM_Mapped [0xa79f]);
  (R 0xa79f 0xa79f, IM_Valid);
  (R 0xa7a0 0xa7a0, IM_Mapped [0xa7a1]);
  (R 0xa7a1 0xa7a1, IM_Valid);
  (R 0xa7a2 0xa7a2, IM_Mapped [0xa7a3]);
  (R 0xa7a3 0xa7a3, IM_Valid);
  (R 0xa7a4 0xa7a4, IM_Mapped [0xa7a5]);
  (R 0xa7a5 0xa7a5, IM_Valid);
  (R 0xa7a6 0xa7a6, IM_Mapped [0xa7a7]);
  (R 0xa7a7 0xa7a7, IM_Valid);
  (R 0xa7a8 0xa7a8, IM_Mapped [0xa7a9]);
  (R 0xa7a9 0xa7a9, IM_Valid);
  (R 0xa7aa 0xa7aa, IM_Mapped [0x266]);
  (R 0xa7ab 0xa7ab, IM_Mapped [0x25c]);
  (R 0xa7ac 0xa7ac, IM_Mapped [0x261]);
  (R 0xa7ad 0xa7ad, IM_Mapped [0x26c]);
  (R 0xa7ae 0xa7ae, IM_Mapped [0x26a]);
  (R 0xa7af 0xa7af, IM_Disallowed);
  (R 0xa7b0 0xa7b0, IM_Mapped [0x29e]);
  (R 0xa7b1 0xa7b1, IM_Mapped [0x287]);
  (R 0xa7b2 0xa7b2, IM_Mapped [0x29d]);
  (R 0xa7b3 0xa7b3, IM_Mapped [0xab53]);
  (R 0xa7b4 0xa7b4, IM_Mapped [0xa7b5]);
  (R 0xa7b5 0xa7b5, IM_Valid);
  (R 0xa7b6 0xa7b6, IM_Mapped [0xa7b7]);
  (R 0xa7b7 0xa7b7, IM_Valid);
  (R 0xa7b8 0xa7f6, IM_Disallowed);
  (R 0xa7f7 0xa7f7, IM_Valid);
  (R 0xa7f8 0xa7f8, IM_Mapped [0x127]);
  (R 0xa7f9 0xa7f9, IM_Mapped [0x153]);
  (R 0xa7fa 0xa82b, IM_Valid);
  (R 0xa82c 0xa82f, IM_Disallowed);
  (R 0xa830 0xa839, IM_Valid);
  (R 0xa83a 0xa83f, IM_Disallowed);
  (R 0xa840 0xa877, IM_Valid);
  (R 0xa878 0xa87f, IM_Disallowed);
  (R 0xa880 0xa8c5, IM_Valid);
  (R 0xa8c6 0xa8cd, IM_Disallowed);
  (R 0xa8ce 0xa8d9, IM_Valid);
  (R 0xa8da 0xa8df, IM_Disallowed);
  (R 0xa8e0 0xa8fd, IM_Valid);
  (R 0xa8fe 0xa8ff, IM_Disallowed);
  (R 0xa900 0xa953, IM_Valid);
  (R 0xa954 0xa95e, IM_Disallowed)].

Definition MAPPING_9 : list (CharRange * Mapping) := [
  (R 0xa95f 0xa97c, IM_Valid);
  (R 0xa97d 0xa97f, IM_Disallowed);
  (R 0xa980 0xa9cd, IM_Valid);
  (R 0xa9ce 0xa9ce, IM_Disallowed);
  (R 0xa9cf 0xa9d9, IM_Valid);
  (R 0xa9da 0xa9dd, IM_Disallowed);
  (R 0xa9de 0xa9fe, IM_Valid);
  (R 0xa9ff 0xa9ff, IM_Disallowed);
  (R 0xaa00 0xaa36, IM_Valid);
  (R 0xaa37 0xaa3f, IM_Disallowed);
  (R 0xaa40 0xaa4d, IM_Valid);
  (R 0xaa4e 0xaa4f, IM_Disallowed);
  (R 0xaa50 0xaa59, IM_Valid);
  (R 0xaa5a 0xaa5b, IM_Disallowed);
  (R 0xaa5c 0xaac2, IM_Valid);
  (R 0xaac3 0xaada, IM_Disallowed);
  (R 0xaadb 0xaaf6, IM_Valid);
  (R 0xaaf7 0xab00, IM_Disallowed);
  (R 0xab01 0xab06, IM_Valid);
  (R 0xab07 0xab08, IM_Disallowed);
  (R 0xab09 0xab0e, IM_Valid);
  (R 0xab0f 0xab10, IM_Disallowed);
  (R 0xab11 0xab16, IM_Valid);
  (R 0xab17 0xab1f, IM_Disallowed);
  (R 0xab20 0xab26, IM_Valid);
  (R 0xab27 0xab27, IM_Disallowed);
  (R 0xab28 0xab2e, IM_Valid);
  (R 0xab2f 0xab2f, IM_Disallowed);
  (R 0xab30 0xab5b, IM_Valid);
  (R 0xab5c 0xab5c, IM_Mapped [0xa727]);
  (R 0xab5d 0xab5d, IM_Mapped [0xab37]);
  (R 0xab5e 0xab5e, IM_Mapped [0x26b]);
  (R 0xab5f 0xab5f, IM_Mapped [0xab52]);
  (R 0xab60 0xab65, IM_Valid);
  (R 0xab66 0xab6f, IM_Disallowed);
  (R 0xab70 0xab70, IM_Mapped [0x13a0]);
  (R 0xab71 0xab71, IM_Mapped [0x13a1]);
  (R 0xab72 0xab72, IM_Mapped [0x13a2]);
  (R 0xab73 0xab73, IM_Mapped [0x13a3]);
  (R 0xab74 0xab74, IM_Mapped [0x13a4]);
  (R 0xab75 0xab75, IM_Mapped [0x13a5]);
  (R 0xab76 0xab76, IM_Mapped [0x13a6]);
  (R 0xab77 0xab77, IM_Mapped [0x13a7]);
  (R 0xab78 0xab78, IM_Mapped [0x13a8]);
  (R 0xab79 0xab79, IM_Mapped [0x13a9]);
  (R 0xab7a 0xab7a, IM_Mapped [0x13aa]);
  (R 0xab7b 0xab7b, IM_Mapped [0x13ab]);
  (R 0xab7c 0xab7c, IM_Mapped [0x13ac]);
  (R 0xab7d 0xab7d, IM_Mapped [0x13ad]);
  (R 0xab7e 0xab7e, IM_Mapped [0x13ae]);
  (R 0xab7f 0xab7f, IM_Mapped [0x13af]);
  (R 0xab80 0xab80, IM_Mapped [0x13b0]);
  (R 0xab81 0xab81, IM_Mapped [0x13b1]);
  (R 0xab82 0xab82, IM_Mapped [0x13b2]);
  (R 0xab83 0xab83, IM_Mapped [0x13b3]);
  (R 0xab84 0xab84, IM_Mapped [0x13b4]);
  (R 0xab85 0xab85, IM_Mapped [0x13b5]);
  (R 0xab86 0xab86, IM_Mapped [0x13b6]);
  (R 0xab87 0xab87, IM_Mapped [0x13b7]);
  (R 0xab88 0xab88, IM_Mapped [0x13b8]);
  (R 0xab89 0xab89, IM_Mapped [0x13b9]);
  (R 0xab8a 0xab8a, IM_Mapped [0x13ba]);
  (R 0xab8b 0xab8b, IM_Mapped [0x13bb]);
  (R 0xab8c 0xab8c, IM_Mapped [0x13bc]);
  (R 0xab8d 0xab8d, IM_Mapped [0x13bd]);
  (R 0xab8e 0xab8e, IM_Mapped [0x13be]);
  (R 0xab8f 0xab8f, IM_Mapped [0x13bf]);
  (R 0xab90 0xab90, IM_Mapped [0x13c0]);
  (R 0xab91 0xab91, IM_Mapped [0x13c1]);
  (R 0xab92 0xab92, IM_Mapped [0x13c2]);
  (R 0xab93 0xab93, IM_Mapped [0x13c3]);
  (R 0xab94 0xab94, IM_Mapped [0x13c4]);
  (R 0xab95 0xab95, IM_Mapped [0x13c5]);
  (R 0xab96 0xab96, IM_Mapped [0x13c6]);
  (R 0xab97 0xab97, IM_Mapped [0x13c7]);
  (R 0xab98 0xab98, IM_Mapped [0x13c8]);
  (R 0xab99 0xab99, IM_Mapped [0x13c9]);
  (R 0xab9a 0xab9a, IM_Mapped [0x13ca]);
  (R 0xab9b 0xab9b, IM_Mapped [0x13cb]);
  (R 0xab9c 0xab9c, IM_Mapped [0x13cc]);
  (R 0xab9d 0xab9d, IM_Mapped [0x13cd]);
  (R 0xab9e 0xab9e, IM_Mapped [0x13ce]);
  (R 0xab9f 0xab9f, IM_Mapped [0x13cf]);
  (R 0xaba0 0xaba0, IM_Mapped [0x13d0]);
  (R 0xaba1 0xaba1, IM_Mapped [0x13d1]);
  (R 0xaba2 0xaba2, IM_Mapped [0x13d2]);
  (R 0xaba3 0xaba3, IM_Mapped [0x13d3]);
  (R 0xaba4 0xaba4, IM_Mapped [0x13d4]);
  (R 0xaba5 0xaba5, IM_Mapped [0x13d5]);
  (R 0xaba6 0xaba6, IM_Mapped [0x13d6]);
  (R 0xaba7 0xaba7, IM_Mapped [0x13d7]);
  (R 0xaba8 0xaba8, IM_Mapped [0x13d8]);
  (R 0xaba9 0xaba9, IM_Mapped [0x13d9]);
  (R 0xabaa 0xabaa, IM_Mapped [0x13da]);
  (R 0xabab 0xabab, IM_Mapped [0x13db]);
  (R 0xabac 0xabac, IM_Mapped [0x13dc]);
  (R 0xabad 0xabad, IM_Mapped [0x13dd]);
  (R 0xabae 0xabae, IM_Mapped [0x13de]);
  (R 0xabaf 0xabaf, IM_Mapped [0x13df]);
  (R 0xabb0 0xabb0, IM_Mapped [0x13e0]);
  (R 0xabb1 0xabb1, IM_Mapped [0x13e1]);
  (R 0xabb2 0xabb2, IM_Mapped [0x13e2]);
  (R 0xabb3 0xabb3, IM_Mapped [0x13e3]);
  (R 0xabb4 0xabb4, IM_Mapped [0x13e4]);
  (R 0xabb5 0xabb5, IM_Mapped [0x13e5]);
  (R 0xabb6 0xabb6, IM_Mapped [0x13e6]);
  (R 0xabb7 0xabb7, IM_Mapped [0x13e7]);
  (R 0xabb8 0xabb8, IM_Mapped [0x13e8]);
  (R 0xabb9 0xabb9, IM_Mapped [0x13e9]);
  (R 0xabba 0xabba, IM_Mapped [0x13ea]);
  (R 0xabbb 0xabbb, IM_Mapped [0x13eb]);
  (R 0xabbc 0xabbc, IM_Mapped [0x13ec]);
  (R 0xabbd 0xabbd, IM_Mapped [0x13ed]);
  (R 0xabbe 0xabbe, IM_Mapped [0x13ee]);
  (R 0xabbf 0xabbf, IM_Mapped [0x13ef]);
  (R 0xabc0 0xabed, IM_Valid);
  (R 0xabee 0xabef, IM_Disallowed);
  (R 0xabf0 0xabf9, IM_Valid);
  (R 0xabfa 0xabff, IM_Disallowed);
  (R 0xac00 0xd7a3, IM_Valid);
  (R 0xd7a4 0xd7af, IM_Disallowed);
  (R 0xd7b0 0xd7c6, IM_Valid);
  (R 0xd7c7 0xd7ca, IM_Disallowed);
  (R 0xd7cb 0xd7fb, IM_Valid);
  (R 0xd7fc 0xd7ff, IM_Disallowed);
  (R 0xe000 0xf8ff, IM_Disallowed);
  (R 0xf900 0xf900, IM_Mapped [0x8c48]);
  (R 0xf901 0xf901, IM_Mapped [0x66f4]);
  (R 0xf902 0xf902, IM_Mapped [0x8eca]);
  (R 0xf903 0xf903, IM_Mapped [0x8cc8]);
  (R 0xf904 0xf904, IM_Mapped [0x6ed1]);
  (R 0xf905 0xf905, IM_Mapped [0x4e32]);
  (R 0xf906 0xf906, IM_Mapped [0x53e5]);
  (R 0xf907 0xf908, IM_Mapped [0x9f9c]);
  (R 0xf909 0xf909, IM_Mapped [0x5951]);
  (R 0xf90a 0xf90a, IM_Mapped [0x91d1]);
  (R 0xf90b 0xf90b, IM_Mapped [0x5587]);
  (R 0xf90c 0xf90c, IM_Mapped [0x5948]);
  (R 0xf90d 0xf90d, IM_Mapped [0x61f6]);
  (R 0xf90e 0xf90e, IM_Mapped [0x7669]);
  (R 0xf90f 0xf90f, IM_Mapped [0x7f85]);
  (R 0xf910 0xf910, IM_Mapped [0x863f]);
  (R 0xf911 0xf911, IM_Mapped [0x87ba]);
  (R 0xf912 0xf912, IM_Mapped [0x88f8]);
  (R 0xf913 0xf913, IM_Mapped [0x908f]);
  (R 0xf914 0xf914, IM_Mapped [0x6a02]);
  (R 0xf915 0xf915, IM_Mapped [0x6d1b]);
  (R 0xf916 0xf916, IM_Mapped [0x70d9]);
  (R 0xf917 0xf917, IM_Mapped [0x73de]);
  (R 0xf918 0xf918, IM_Mapped [0x843d]);
  (R 0xf919 0xf919, IM_Mapped [0x916a]);
  (R 0xf91a 0xf91a, IM_Mapped [0x99f1]);
  (R 0xf91b 0xf91b, IM_Mapped [0x4e82]);
  (R 0xf91c 0xf91c, IM_Mapped [0x5375]);
  (R 0xf91d 0xf91d, IM_Mapped [0x6b04]);
  (R 0xf91e 0xf91e, IM_Mapped [0x721b]);
  (R 0xf91f 0xf91f, IM_Mapped [0x862d]);
  (R 0xf920 0xf920, IM_Mapped [0x9e1e]);
  (R 0xf921 0xf921, IM_Mapped [0x5d50]);
  (R 0xf922 0xf922, IM_Mapped [0x6feb]);
  (R 0xf923 0xf923, IM_Mapped [0x85cd]);
  (R 0xf924 0xf924, IM_Mapped [0x8964]);
  (R 0xf925 0xf925, IM_Mapped [0x62c9]);
  (R 0xf926 0xf926, IM_Mapped [0x81d8]);
  (R 0xf927 0xf927, IM_Mapped [0x881f]);
  (R 0xf928 0xf928, IM_Mapped [0x5eca]);
  (R 0xf929 0xf929, IM_Mapped [0x6717]);
  (R 0xf92a 0xf92a, IM_Mapped [0x6d6a]);
  (R 0xf92b 0xf92b, IM_Mapped [0x72fc]);
  (R 0xf92c 0xf92c, IM_Mapped [0x90ce]);
  (R 0xf92d 0xf92d, IM_Mapped [0x4f86]);
  (R 0xf92e 0xf92e, IM_Mapped [0x51b7]);
  (R 0xf92f 0xf92f, IM_Mapped [0x52de]);
  (R 0xf930 0xf930, IM_Mapped [0x64c4]);
  (R 0xf931 0xf931, IM_Mapped [0x6ad3]);
  (R 0xf932 0xf932, IM_Mapped [0x7210]);
  (R 0xf933 0xf933, IM_Mapped [0x76e7]);
  (R 0xf934 0xf934, IM_Mapped [0x8001]);
  (R 0xf935 0xf935, IM_Mapped [0x8606]);
  (R 0xf936 0xf936, IM_Mapped [0x865c]);
  (R 0xf937 0xf937, IM_Mapped [0x8def]);
  (R 0xf938 0xf938, IM_Mapped [0x9732]);
  (R 0xf939 0xf939, IM_Mapped [0x9b6f]);
  (R 0xf93a 0xf93a, IM_Mapped [0x9dfa]);
  (R 0xf93b 0xf93b, IM_Mapped [0x788c]);
  (R 0xf93c 0xf93c, IM_Mapped [0x797f]);
  (R 0xf93d 0xf93d, IM_Mapped [0x7da0]);
  (R 0xf93e 0xf93e, IM_Mapped [0x83c9]);
  (R 0xf93f 0xf93f, IM_Mapped [0x9304]);
  (R 0xf940 0xf940, IM_Mapped [0x9e7f]);
  (R 0xf941 0xf941, IM_Mapped [0x8ad6]);
  (R 0xf942 0xf942, IM_Mapped [0x58df]);
  (R 0xf943 0xf943, IM_Mapped [0x5f04]);
  (R 0xf944 0xf944, IM_Mapped [0x7c60]);
  (R 0xf945 0xf945, IM_Mapped [0x807e]);
  (R 0xf946 0xf946, IM_Mapped [0x7262]);
  (R 0xf947 0xf947, IM_Mapped [0x78ca]);
  (R 0xf948 0xf948, IM_Mapped [0x8cc2]);
  (R 0xf949 0xf949, IM_Mapped [0x96f7]);
  (R 0xf94a 0xf94a, IM_Mapped [0x58d8]);
  (R 0xf94b 0xf94b, IM_Mapped [0x5c62]);
  (R 0xf94c 0xf94c, IM_Mapped [0x6a13]);
  (R 0xf94d 0xf94d, IM_Mapped [0x6dda]);
  (R 0xf94e 0xf94e, IM_Mapped [0x6f0f]);
  (R 0xf94f 0xf94f, IM_Mapped [0x7d2f]);
  (R 0xf950 0xf950, IM_Mapped [0x7e37]);
  (R 0xf951 0xf951, IM_Mapped [0x964b]);
  (R 0xf952 0xf952, IM_Mapped [0x52d2]);
  (R 0xf953 0xf953, IM_Mapped [0x808b]);
  (R 0xf954 0xf954, IM_Mapped [0x51dc]);
  (R 0xf955 0xf955, IM_Mapped [0x51cc]);
  (R 0xf956 0xf956, IM_Mapped [0x7a1c]);
  (R 0xf957 0xf957, IM_Mapped [0x7dbe]);
  (R 0xf958 0xf958, IM_Mapped [0x83f1]);
  (R 0xf959 0xf959, IM_Mapped [0x9675]);
  (R 0xf95a 0xf95a, IM_Mapped [0x8b80]);
  (R 0xf95b 0xf95b, IM_Mapped [0x62cf]);
  (R 0xf95c 0xf95c, IM_Mapped [0x6a02]);
  (R 0xf95d 0xf95d, IM_Mapped [0x8afe]);
  (R 0xf95e 0xf95e, IM_Mapped [0x4e39]);
  (R 0xf95f 0xf95f, IM_Mapped [0x5be7]);
  (R 0xf960 0xf960, IM_Mapped [0x6012]);
  (R 0xf961 0xf961, IM_Mapped [0x7387]);
  (R 0xf962 0xf962, IM_Mapped [0x7570]);
  (R 0xf963 0xf963, IM_Mapped [0x5317]);
  (R 0xf964 0xf964, IM_Mapped [0x78fb]);
  (R 0xf965 0xf965, IM_Mapped [0x4fbf]);
  (R 0xf966 0xf966, IM_Mapped [0x5fa9]);
  (R 0xf967 0xf967, IM_Mapped [0x4e0d]);
  (R 0xf968 0xf968, IM_Mapped [0x6ccc]);
  (R 0xf969 0xf969, IM_Mapped [0x6578]);
  (R 0xf96a 0xf96a, IM_Mapped [0x7d22]);
  (R 0xf96b 0xf96b, IM_Mapped [0x53c3]);
  (R 0xf96c 0xf96c, IM_Mapped [0x585e]);
  (R 0xf96d 0xf96d, IM_Mapped [0x7701]);
  (R 0xf96e 0xf96e, IM_Mapped [0x8449]);
  (R 0xf96f 0xf96f, IM_Mapped [0x8aaa]);
  (R 0xf970 0xf970, IM_Mapped [0x6bba]);
  (R 0xf971 0xf971, IM_Mapped [0x8fb0]);
  (R 0xf972 0xf972, IM_Mapped [0x6c88]);
  (R 0xf973 0xf973, IM_Mapped [0x62fe]);
  (R 0xf974 0xf974, IM_Mapped [0x82e5]);
  (R 0xf975 0xf975, IM_Mapped [0x63a0]);
  (R 0xf976 0xf976, IM_Mapped [0x7565]);
  (R 0xf977 0xf977, IM_Mapped [0x4eae]);
  (R 0xf978 0xf978, IM_Mapped [0x5169]);
  (R 0xf979 0xf979, IM_Mapped [0x51c9]);
  (R 0xf97a 0xf97a, IM_Mapped [0x6881]);
  (R 0xf97b 0xf97b, IM_Mapped [0x7ce7]);
  (R 0xf97c 0xf97c, IM_Mapped [0x826f]);
  (R 0xf97d 0xf97d, IM_Mapped [0x8ad2]);
  (R 0xf97e 0xf97e, IM_Mapped [0x91cf]);
  (R 0xf97f 0xf97f, IM_Mapped [0x52f5]);
  (R 0xf980 0xf980, IM_Mapped [0x5442]);
  (R 0xf981 0xf981, IM_Mapped [0x5973]);
  (R 0xf982 0xf982, IM_Mapped [0x5eec]);
  (R 0xf983 0xf983, IM_Mapped [0x65c5]);
  (R 0xf984 0xf984, IM_Mapped [0x6ffe]);
  (R 0xf985 0xf985, IM_Mapped [0x792a]);
  (R 0xf986 0xf986, IM_Mapped [0x95ad]);
  (R 0xf987 0xf987, IM_Mapped [0x9a6a]);
  (R 0xf988 0xf988, IM_Mapped [0x9e97]);
  (R 0xf989 0xf989, IM_Mapped [0x9ece]);
  (R 0xf98a 0xf98a, IM_Mapped [0x529b]);
  (R 0xf98b 0xf98b, IM_Mapped [0x66c6]);
  (R 0xf98c 0xf98c, IM_Mapped [0x6b77]);
  (R 0xf98d 0xf98d, IM_Mapped [0x8f62]);
  (R 0xf98e 0xf98e, IM_Mapped [0x5e74]);
  (R 0xf98f 0xf98f, IM_Mapped [0x6190]);
  (R 0xf990 0xf990, IM_Mapped [0x6200]);
  (R 0xf991 0xf991, IM_Mapped [0x649a]);
  (R 0xf992 0xf992, IM_Mapped [0x6f23]);
  (R 0xf993 0xf993, IM_Mapped [0x7149]);
  (R 0xf994 0xf994, IM_Mapped [0x7489]);
  (R 0xf995 0xf995, IM_Mapped [0x79ca]);
  (R 0xf996 0xf996, IM_Mapped [0x7df4]);
  (R 0xf997 0xf997, IM_Mapped [0x806f]);
  (R 0xf998 0xf998, IM_Mapped [0x8f26]);
  (R 0xf999 0xf999, IM_Mapped [0x84ee]);
  (R 0xf99a 0xf99a, IM_Mapped [0x9023]);
  (R 0xf99b 0xf99b, IM_Mapped [0x934a]);
  (R 0xf99c 0xf99c, IM_Mapped [0x5217]);
  (R 0xf99d 0xf99d, IM_Mapped [0x52a3]);
  (R 0xf99e 0xf99e, IM_Mapped [0x54bd]);
  (R 0xf99f 0xf99f, IM_Mapped [0x70c8]);
  (R 0xf9a0 0xf9a0, IM_Mapped [0x88c2]);
  (R 0xf9a1 0xf9a1, IM_Mapped [0x8aaa]);
  (R 0xf9a2 0xf9a2, IM_Mapped [0x5ec9]);
  (R 0xf9a3 0xf9a3, IM_Mapped [0x5ff5]);
  (R 0xf9a4 0xf9a4, IM_Mapped [0x637b]);
  (R 0xf9a5 0xf9a5, IM_Mapped [0x6bae]);
  (R 0xf9a6 0xf9a6, IM_Mapped [0x7c3e]);
  (R 0xf9a7 0xf9a7, IM_Mapped [0x7375]);
  (R 0xf9a8 0xf9a8, IM_Mapped [0x4ee4]);
  (R 0xf9a9 0xf9a9, IM_Mapped [0x56f9]);
  (R 0xf9aa 0xf9aa, IM_Mapped [0x5be7]);
  (R 0xf9ab 0xf9ab, IM_Mapped [0x5dba]);
  (R 0xf9ac 0xf9ac, IM_Mapped [0x601c]);
  (R 0xf9ad 0xf9ad, IM_Mapped [0x73b2]);
  (R 0xf9ae 0xf9ae, IM_Mapped [0x7469]);
  (R 0xf9af 0xf9af, IM_Mapped [0x7f9a]);
  (R 0xf9b0 0xf9b0, IM_Mapped [0x8046]);
  (R 0xf9b1 0xf9b1, IM_Mapped [0x9234]);
  (R 0xf9b2 0xf9b2, IM_Mapped [0x96f6]);
  (R 0xf9b3 0xf9b3, IM_Mapped [0x9748]);
  (R 0xf9b4 0xf9b4, IM_Mapped [0x9818]);
  (R 0xf9b5 0xf9b5, IM_Mapped [0x4f8b]);
  (R 0xf9b6 0xf9b6, IM_Mapped [0x79ae]);
  (R 0xf9b7 0xf9b7, IM_Mapped [0x91b4]);
  (R 0xf9b8 0xf9b8, IM_Mapped [0x96b8]);
  (R 0xf9b9 0xf9b9, IM_Mapped [0x60e1]);
  (R 0xf9ba 0xf9ba, IM_Mapped [0x4e86]);
  (R 0xf9bb 0xf9bb, IM_Mapped [0x50da]);
  (R 0xf9bc 0xf9bc, IM_Mapped [0x5bee]);
  (R 0xf9bd 0xf9bd, IM_Mapped [0x5c3f]);
  (R 0xf9be 0xf9be, IM_Mapped [0x6599]);
  (R 0xf9bf 0xf9bf, IM_Mapped [0x6a02]);
  (R 0xf9c0 0xf9c0, IM_Mapped [0x71ce]);
  (R 0xf9c1 0xf9c1, IM_Mapped [0x7642]);
  (R 0xf9c2 0xf9c2, IM_Mapped [0x84fc]);
  (R 0xf9c3 0xf9c3, IM_Mapped [0x907c]);
  (R 0xf9c4 0xf9c4, IM_Mapped [0x9f8d]);
  (R 0xf9c5 0xf9c5, IM_Mapped [0x6688]);
  (R 0xf9c6 0xf9c6, IM_Mapped [0x962e]);
  (R 0xf9c7 0xf9c7, IM_Mapped [0x5289]);
  (R 0xf9c8 0xf9c8, IM_Mapped [0x677b]);
  (R 0xf9c9 0xf9c9, IM_Mapped [0x67f3]);
  (R 0xf9ca 0xf9ca, IM_Mapped [0x6d41]);
  (R 0xf9cb 0xf9cb, IM_Mapped [0x6e9c]);
  (R 0xf9cc 0xf9cc, IM_Mapped [0x7409]);
  (R 0xf9cd 0xf9cd, IM_Mapped [0x7559]);
  (R 0xf9ce 0xf9ce, IM_Mapped [0x786b]);
  (R 0xf9cf 0xf9cf, IM_Mapped [0x7d10]);
  (R 0xf9d0 0xf9d0, IM_Mapped [0x985e]);
  (R 0xf9d1 0xf9d1, IM_Mapped [0x516d]);
  (R 0xf9d2 0xf9d2, IM_Mapped [0x622e]);
  (R 0xf9d3 0xf9d3, IM_Mapped [0x9678]);
  (R 0xf9d4 0xf9d4, IM_Mapped [0x502b]);
  (R 0xf9d5 0xf9d5, IM_Mapped [0x5d19]);
  (R 0xf9d6 0xf9d6, IM_Mapped [0x6dea]);
  (R 0xf9d7 0xf9d7, IM_Mapped [0x8f2a]);
  (R 0xf9d8 0xf9d8, IM_Mapped [0x5f8b]);
  (R 0xf9d9 0xf9d9, IM_Mapped [0x6144]);
  (R 0xf9da 0xf9da, IM_Mapped [0x6817]);
  (R 0xf9db 0xf9db, IM_Mapped [0x7387]);
  (R 0xf9dc 0xf9dc, IM_Mapped [0x9686]);
  (R 0xf9dd 0xf9dd, IM_Mapped [0x5229]);
  (R 0xf9de 0xf9de, IM_Mapped [0x540f]);
  (R 0xf9df 0xf9df, IM_Mapped [0x5c65]);
  (R 0xf9e0 0xf9e0, IM_Mapped [0x6613]);
  (R 0xf9e1 0xf9e1, IM_Mapped [0x674e]);
  (R 0xf9e2 0xf9e2, IM_Mapped [0x68a8]);
  (R 0xf9e3 0xf9e3, IM_Mapped [0x6ce5]);
  (R 0xf9e4 0xf9e4, IM_Mapped [0x7406]);
  (R 0xf9e5 0xf9e5, IM_Mapped [0x75e2]);
  (R 0xf9e6 0xf9e6, IM_Mapped [0x7f79]);
  (R 0xf9e7 0xf9e7, IM_Mapped [0x88cf]);
  (R 0xf9e8 0xf9e8, IM_Mapped [0x88e1]);
  (R 0xf9e9 0xf9e9, IM_Mapped [0x91cc]);
  (R 0xf9ea 0xf9ea, IM_Mapped [0x96e2]);
  (R 0xf9eb 0xf9eb, IM_Mapped [0x533f]);
  (R 0xf9ec 0xf9ec, IM_Mapped [0x6eba]);
  (R 0xf9ed 0xf9ed, IM_Mapped [0x541d]);
  (R 0xf9ee 0xf9ee, IM_Mapped [0x71d0]);
  (R 0xf9ef 0xf9ef, IM_Mapped [0x7498]);
  (R 0xf9f0 0xf9f0, IM_Mapped [0x85fa]);
  (R 0xf9f1 0xf9f1, IM_Mapped [0x96a3]);
  (R 0xf9f2 0xf9f2, IM_Mapped [0x9c57]);
  (R 0xf9f3 0xf9f3, IM_Mapped [0x9e9f]);
  (R 0xf9f4 0xf9f4, IM_Mapped [0x6797]);
  (R 0xf9f5 0xf9f5, IM_Mapped [0x6dcb]);
  (R 0xf9f6 0xf9f6, IM_Mapped [0x81e8]);
  (R 0xf9f7 0xf9f7, IM_Mapped [0x7acb]);
  (R 0xf9f8 0xf9f8, IM_Mapped [0x7b20]);
  (R 0xf9f9 0xf9f9, IM_Mapped [0x7c92]);
  (R 0xf9fa 0xf9fa, IM_Mapped [0x72c0]);
  (R 0xf9fb 0xf9fb, IM_Mapped [0x7099]);
  (R 0xf9fc 0xf9fc, IM_Mapped [0x8b58]);
  (R 0xf9fd 0xf9fd, IM_Mapped [0x4ec0]);
  (R 0xf9fe 0xf9fe, IM_Mapped [0x8336]);
  (R 0xf9ff 0xf9ff, IM_Mapped [0x523a]);
  (R 0xfa00 0xfa00, IM_Mapped [0x5207]);
  (R 0xfa01 0xfa01, IM_Mapped [0x5ea6]);
  (R 0xfa02 0xfa02, IM_Mapped [0x62d3]);
  (R 0xfa03 0xfa03, IM_Mapped [0x7cd6]);
  (R 0xfa04 0xfa04, IM_Mapped [0x5b85]);
  (R 0xfa05 0xfa05, IM_Mapped [0x6d1e]);
  (R 0xfa06 0xfa06, IM_Mapped [0x66b4]);
  (R 0xfa07 0xfa07, IM_Mapped [0x8f3b]);
  (R 0xfa08 0xfa08, IM_Mapped [0x884c]);
  (R 0xfa09 0xfa09, IM_Mapped [0x964d]);
  (R 0xfa0a 0xfa0a, IM_Mapped [0x898b]);
  (R 0xfa0b 0xfa0b, IM_Mapped [0x5ed3]);
  (R 0xfa0c 0xfa0c, IM_Mapped [0x5140]);
  (R 0xfa0d 0xfa0d, IM_Mapped [0x55c0]);
  (R 0xfa0e 0xfa0f, IM_Valid);
  (R 0xfa10 0xfa10, IM_Mapped [0x585a]);
  (R 0xfa11 0xfa11, IM_Valid);
  (R 0xfa12 0xfa12, IM_Mapped [0x6674]);
  (R 0xfa13 0xfa14, IM_Valid)].

Definition MAPPING_10 : list (CharRange * Mapping) := [
  (R 0xfa15 0xfa15, IM_Mapped [0x51de]);
  (R 0xfa16 0xfa16, IM_Mapped [0x732a]);
  (R 0xfa17 0xfa17, IM_Mapped [0x76ca]);
  (R 0xfa18 0xfa18, IM_Mapped [0x793c]);
  (R 0xfa19 0xfa19, IM_Mapped [0x795e]);
  (R 0xfa1a 0xfa1a, IM_Mapped [0x7965]);
  (R 0xfa1b 0xfa1b, IM_Mapped [0x798f]);
  (R 0xfa1c 0xfa1c, IM_Mapped [0x9756]);
  (R 0xfa1d 0xfa1d, IM_Mapped [0x7cbe]);
  (R 0xfa1e 0xfa1e, IM_Mapped [0x7fbd]);
  (R 0xfa1f 0xfa1f, IM_Valid);
  (R 0xfa20 0xfa20, IM_Mapped [0x8612]);
  (R 0xfa21 0xfa21, IM_Valid);
  (R 0xfa22 0xfa22, IM_Mapped [0x8af8]);
  (R 0xfa23 0xfa24, IM_Valid);
  (R 0xfa25 0xfa25, IM_Mapped [0x9038]);
  (R 0xfa26 0xfa26, IM_Mapped [0x90fd]);
  (R 0xfa27 0xfa29, IM_Valid);
  (R 0xfa2a 0xfa2a, IM_Mapped [0x98ef]);
  (R 0xfa2b 0xfa2b, IM_Mapped [0x98fc]);
  (R 0xfa2c 0xfa2c, IM_Mapped [0x9928]);
  (R 0xfa2d 0xfa2d, IM_Mapped [0x9db4]);
  (R 0xfa2e 0xfa2e, IM_Mapped [0x90de]);
  (R 0xfa2f 0xfa2f, IM_Mapped [0x96b7]);
  (R 0xfa30 0xfa30, IM_Mapped [0x4fae]);
  (R 0xfa31 0xfa31, IM_Mapped [0x50e7]);
  (R 0xfa32 0xfa32, IM_Mapped [0x514d]);
  (R 0xfa33 0xfa33, IM_Mapped [0x52c9]);
  (R 0xfa34 0xfa34, IM_Mapped [0x52e4]);
  (R 0xfa35 0xfa35, IM_Mapped [0x5351]);
  (R 0xfa36 0xfa36, IM_Mapped [0x559d]);
  (R 0xfa37 0xfa37, IM_Mapped [0x5606]);
  (R 0xfa38 0xfa38, IM_Mapped [0x5668]);
  (R 0xfa39 0xfa39, IM_Mapped [0x5840]);
  (R 0xfa3a 0xfa3a, IM_Mapped [0x58a8]);
  (R 0xfa3b 0xfa3b, IM_Mapped [0x5c64]);
  (R 0xfa3c 0xfa3c, IM_Mapped [0x5c6e]);
  (R 0xfa3d 0xfa3d, IM_Mapped [0x6094]);
  (R 0xfa3e 0xfa3e, IM_Mapped [0x6168]);
  (R 0xfa3f 0xfa3f, IM_Mapped [0x618e]);
  (R 0xfa40 0xfa40, IM_Mapped [0x61f2]);
  (R 0xfa41 0xfa41, IM_Mapped [0x654f]);
  (R 0xfa42 0xfa42, IM_Mapped [0x65e2]);
  (R 0xfa43 0xfa43, IM_Mapped [0x6691]);
  (R 0xfa44 0xfa44, IM_Mapped [0x6885]);
  (R 0xfa45 0xfa45, IM_Mapped [0x6d77]);
  (R 0xfa46 0xfa46, IM_Mapped [0x6e1a]);
  (R 0xfa47 0xfa47, IM_Mapped [0x6f22]);
  (R 0xfa48 0xfa48, IM_Mapped [0x716e]);
  (R 0xfa49 0xfa49, IM_Mapped [0x722b]);
  (R 0xfa4a 0xfa4a, IM_Mapped [0x7422]);
  (R 0xfa4b 0xfa4b, IM_Mapped [0x7891]);
  (R 0xfa4c 0xfa4c, IM_Mapped [0x793e]);
  (R 0xfa4d 0xfa4d, IM_Mapped [0x7949]);
  (R 0xfa4e 0xfa4e, IM_Mapped [0x7948]);
  (R 0xfa4f 0xfa4f, IM_Mapped [0x7950]);
  (R 0xfa50 0xfa50, IM_Mapped [0x7956]);
  (R 0xfa51 0xfa51, IM_Mapped [0x795d]);
  (R 0xfa52 0xfa52, IM_Mapped [0x798d]);
  (R 0xfa53 0xfa53, IM_Mapped [0x798e]);
  (R 0xfa54 0xfa54, IM_Mapped [0x7a40]);
  (R 0xfa55 0xfa55, IM_Mapped [0x7a81]);
  (R 0xfa56 0xfa56, IM_Mapped [0x7bc0]);
  (R 0xfa57 0xfa57, IM_Mapped [0x7df4]);
  (R 0xfa58 0xfa58, IM_Mapped [0x7e09]);
  (R 0xfa59 0xfa59, IM_Mapped [0x7e41]);
  (R 0xfa5a 0xfa5a, IM_Mapped [0x7f72]);
  (R 0xfa5b 0xfa5b, IM_Mapped [0x8005]);
  (R 0xfa5c 0xfa5c, IM_Mapped [0x81ed]);
  (R 0xfa5d 0xfa5e, IM_Mapped [0x8279]);
  (R 0xfa5f 0xfa5f, IM_Mapped [0x8457]);
  (R 0xfa60 0xfa60, IM_Mapped [0x8910]);
  (R 0xfa61 0xfa61, IM_Mapped [0x8996]);
  (R 0xfa62 0xfa62, IM_Mapped [0x8b01]);
  (R 0xfa63 0xfa63, IM_Mapped [0x8b39]);
  (R 0xfa64 0xfa64, IM_Mapped [0x8cd3]);
  (R 0xfa65 0xfa65, IM_Mapped [0x8d08]);
  (R 0xfa66 0xfa66, IM_Mapped [0x8fb6]);
  (R 0xfa67 0xfa67, IM_Mapped [0x9038]);
  (R 0xfa68 0xfa68, IM_Mapped [0x96e3]);
  (R 0xfa69 0xfa69, IM_Mapped [0x97ff]);
  (R 0xfa6a 0xfa6a, IM_Mapped [0x983b]);
  (R 0xfa6b 0xfa6b, IM_Mapped [0x6075]);
  (R 0xfa6c 0xfa6c, IM_Mapped [0x242ee]);
  (R 0xfa6d 0xfa6d, IM_Mapped [0x8218]);
  (R 0xfa6e 0xfa6f, IM_Disallowed);
  (R 0xfa70 0xfa70, IM_Mapped [0x4e26]);
  (R 0xfa71 0xfa71, IM_Mapped [0x51b5]);
  (R 0xfa72 0xfa72, IM_Mapped [0x5168]);
  (R 0xfa73 0xfa73, IM_Mapped [0x4f80]);
  (R 0xfa74 0xfa74, IM_Mapped [0x5145]);
  (R 0xfa75 0xfa75, IM_Mapped [0x5180]);
  (R 0xfa76 0xfa76, IM_Mapped [0x52c7]);
  (R 0xfa77 0xfa77, IM_Mapped [0x52fa]);
  (R 0xfa78 0xfa78, IM_Mapped [0x559d]);
  (R 0xfa79 0xfa79, IM_Mapped [0x5555]);
  (R 0xfa7a 0xfa7a, IM_Mapped [0x5599]);
  (R 0xfa7b 0xfa7b, IM_Mapped [0x55e2]);
  (R 0xfa7c 0xfa7c, IM_Mapped [0x585a]);
  (R 0xfa7d 0xfa7d, IM_Mapped [0x58b3]);
  (R 0xfa7e 0xfa7e, IM_Mapped [0x5944]);
  (R 0xfa7f 0xfa7f, IM_Mapped [0x5954]);
  (R 0xfa80 0xfa80, IM_Mapped [0x5a62]);
  (R 0xfa81 0xfa81, IM_Mapped [0x5b28]);
  (R 0xfa82 0xfa82, IM_Mapped [0x5ed2]);
  (R 0xfa83 0xfa83, IM_Mapped [0x5ed9]);
  (R 0xfa84 0xfa84, IM_Mapped [0x5f69]);
  (R 0xfa85 0xfa85, IM_Mapped [0x5fad]);
  (R 0xfa86 0xfa86, IM_Mapped [0x60d8]);
  (R 0xfa87 0xfa87, IM_Mapped [0x614e]);
  (R 0xfa88 0xfa88, IM_Mapped [0x6108]);
  (R 0xfa89 0xfa89, IM_Mapped [0x618e]);
  (R 0xfa8a 0xfa8a, IM_Mapped [0x6160]);
  (R 0xfa8b 0xfa8b, IM_Mapped [0x61f2]);
  (R 0xfa8c 0xfa8c, IM_Mapped [0x6234]);
  (R 0xfa8d 0xfa8d, IM_Mapped [0x63c4]);
  (R 0xfa8e 0xfa8e, IM_Mapped [0x641c]);
  (R 0xfa8f 0xfa8f, IM_Mapped [0x6452]);
  (R 0xfa90 0xfa90, IM_Mapped [0x6556]);
  (R 0xfa91 0xfa91, IM_Mapped [0x6674]);
  (R 0xfa92 0xfa92, IM_Mapped [0x6717]);
  (R 0xfa93 0xfa93, IM_Mapped [0x671b]);
  (R 0xfa94 0xfa94, IM_Mapped [0x6756]);
  (R 0xfa95 0xfa95, IM_Mapped [0x6b79]);
  (R 0xfa96 0xfa96, IM_Mapped [0x6bba]);
  (R 0xfa97 0xfa97, IM_Mapped [0x6d41]);
  (R 0xfa98 0xfa98, IM_Mapped [0x6edb]);
  (R 0xfa99 0xfa99, IM_Mapped [0x6ecb]);
  (R 0xfa9a 0xfa9a, IM_Mapped [0x6f22]);
  (R 0xfa9b 0xfa9b, IM_Mapped [0x701e]);
  (R 0xfa9c 0xfa9c, IM_Mapped [0x716e]);
  (R 0xfa9d 0xfa9d, IM_Mapped [0x77a7]);
  (R 0xfa9e 0xfa9e, IM_Mapped [0x7235]);
  (R 0xfa9f 0xfa9f, IM_Mapped [0x72af]);
  (R 0xfaa0 0xfaa0, IM_Mapped [0x732a]);
  (R 0xfaa1 0xfaa1, IM_Mapped [0x7471]);
  (R 0xfaa2 0xfaa2, IM_Mapped [0x7506]);
  (R 0xfaa3 0xfaa3, IM_Mapped [0x753b]);
  (R 0xfaa4 0xfaa4, IM_Mapped [0x761d]);
  (R 0xfaa5 0xfaa5, IM_Mapped [0x761f]);
  (R 0xfaa6 0xfaa6, IM_Mapped [0x76ca]);
  (R 0xfaa7 0xfaa7, IM_Mapped [0x76db]);
  (R 0xfaa8 0xfaa8, IM_Mapped [0x76f4]);
  (R 0xfaa9 0xfaa9, IM_Mapped [0x774a]);
  (R 0xfaaa 0xfaaa, IM_Mapped [0x7740]);
  (R 0xfaab 0xfaab, IM_Mapped [0x78cc]);
  (R 0xfaac 0xfaac, IM_Mapped [0x7ab1]);
  (R 0xfaad 0xfaad, IM_Mapped [0x7bc0]);
  (R 0xfaae 0xfaae, IM_Mapped [0x7c7b]);
  (R 0xfaaf 0xfaaf, IM_Mapped [0x7d5b]);
  (R 0xfab0 0xfab0, IM_Mapped [0x7df4]);
  (R 0xfab1 0xfab1, IM_Mapped [0x7f3e]);
  (R 0xfab2 0xfab2, IM_Mapped [0x8005]);
  (R 0xfab3 0xfab3, IM_Mapped [0x8352]);
  (R 0xfab4 0xfab4, IM_Mapped [0x83ef]);
  (R 0xfab5 0xfab5, IM_Mapped [0x8779]);
  (R 0xfab6 0xfab6, IM_Mapped [0x8941]);
  (R 0xfab7 0xfab7, IM_Mapped [0x8986]);
  (R 0xfab8 0xfab8, IM_Mapped [0x8996]);
  (R 0xfab9 0xfab9, IM_Mapped [0x8abf]);
  (R 0xfaba 0xfaba, IM_Mapped [0x8af8]);
  (R 0xfabb 0xfabb, IM_Mapped [0x8acb]);
  (R 0xfabc 0xfabc, IM_Mapped [0x8b01]);
  (R 0xfabd 0xfabd, IM_Mapped [0x8afe]);
  (R 0xfabe 0xfabe, IM_Mapped [0x8aed]);
  (R 0xfabf 0xfabf, IM_Mapped [0x8b39]);
  (R 0xfac0 0xfac0, IM_Mapped [0x8b8a]);
  (R 0xfac1 0xfac1, IM_Mapped [0x8d08]);
  (R 0xfac2 0xfac2, IM_Mapped [0x8f38]);
  (R 0xfac3 0xfac3, IM_Mapped [0x9072]);
  (R 0xfac4 0xfac4, IM_Mapped [0x9199]);
  (R 0xfac5 0xfac5, IM_Mapped [0x9276]);
  (R 0xfac6 0xfac6, IM_Mapped [0x967c]);
  (R 0xfac7 0xfac7, IM_Mapped [0x96e3]);
  (R 0xfac8 0xfac8, IM_Mapped [0x9756]);
  (R 0xfac9 0xfac9, IM_Mapped [0x97db]);
  (R 0xfaca 0xfaca, IM_Mapped [0x97ff]);
  (R 0xfacb 0xfacb, IM_Mapped [0x980b]);
  (R 0xfacc 0xfacc, IM_Mapped [0x983b]);
  (R 0xfacd 0xfacd, IM_Mapped [0x9b12]);
  (R 0xface 0xface, IM_Mapped [0x9f9c]);
  (R 0xfacf 0xfacf, IM_Mapped [0x2284a]);
  (R 0xfad0 0xfad0, IM_Mapped [0x22844]);
  (R 0xfad1 0xfad1, IM_Mapped [0x233d5]);
  (R 0xfad2 0xfad2, IM_Mapped [0x3b9d]);
  (R 0xfad3 0xfad3, IM_Mapped [0x4018]);
  (R 0xfad4 0xfad4, IM_Mapped [0x4039]);
  (R 0xfad5 0xfad5, IM_Mapped [0x25249]);
  (R 0xfad6 0xfad6, IM_Mapped [0x25cd0]);
  (R 0xfad7 0xfad7, IM_Mapped [0x27ed3]);
  (R 0xfad8 0xfad8, IM_Mapped [0x9f43]);
  (R 0xfad9 0xfad9, IM_Mapped [0x9f8e]);
  (R 0xfada 0xfaff, IM_Disallowed);
  (R 0xfb00 0xfb00, IM_Mapped [0x66; 0x66]);
  (R 0xfb01 0xfb01, IM_Mapped [0x66; 0x69]);
  (R 0xfb02 0xfb02, IM_Mapped [0x66; 0x6c]);
  (R 0xfb03 0xfb03, IM_Mapped [0x66; 0x66; 0x69]);
  (R 0xfb04 0xfb04, IM_Mapped [0x66; 0x66; 0x6c]);
  (R 0xfb05 0xfb06, IM_Mapped [0x73; 0x74]);
  (R 0xfb07 0xfb12, IM_Disallowed);
  (R 0xfb13 0xfb13, IM_Mapped [0x574; 0x576]);
  (R 0xfb14 0xfb14, IM_Mapped [0x574; 0x565]);
  (R 0xfb15 0xfb15, IM_Mapped [0x574; 0x56b]);
  (R 0xfb16 0xfb16, IM_Mapped [0x57e; 0x576]);
  (R 0xfb17 0xfb17, IM_Mapped [0x574; 0x56d]);
  (R 0xfb18 0xfb1c, IM_Disallowed);
  (R 0xfb1d 0xfb1d, IM_Mapped [0x5d9; 0x5b4]);
  (R 0xfb1e 0xfb1e, IM_Valid);
  (R 0xfb1f 0xfb1f, IM_Mapped [0x5f2; 0x5b7]);
  (R 0xfb20 0xfb20, IM_Mapped [0x5e2]);
  (R 0xfb21 0xfb21, IM_Mapped [0x5d0]);
  (R 0xfb22 0xfb22, IM_Mapped [0x5d3]);
  (R 0xfb23 0xfb23, IM_Mapped [0x5d4]);
  (R 0xfb24 0xfb24, IM_Mapped [0x5db]);
  (R 0xfb25 0xfb25, IM_Mapped [0x5dc]);
  (R 0xfb26 0xfb26, IM_Mapped [0x5dd]);
  (R 0xfb27 0xfb27, IM_Mapped [0x5e8]);
  (R 0xfb28 0xfb28, IM_Mapped [0x5ea]);
  (R 0xfb29 0xfb29, IM_DisallowedStd3Mapped [0x2b]);
  (R 0xfb2a 0xfb2a, IM_Mapped [0x5e9; 0x5c1]);
  (R 0xfb2b 0xfb2b, IM_Mapped [0x5e9; 0x5c2]);
  (R 0xfb2c 0xfb2c, IM_Mapped [0x5e9; 0x5bc; 0x5c1]);
  (R 0xfb2d 0xfb2d, IM_Mapped [0x5e9; 0x5bc; 0x5c2]);
  (R 0xfb2e 0xfb2e, IM_Mapped [0x5d0; 0x5b7]);
  (R 0xfb2f 0xfb2f, IM_Mapped [0x5d0; 0x5b8]);
  (R 0xfb30 0xfb30, IM_Mapped [0x5d0; 0x5bc]);
  (R 0xfb31 0xfb31, IM_Mapped [0x5d1; 0x5bc]);
  (R 0xfb32 0xfb32, IM_Mapped [0x5d2; 0x5bc]);
  (R 0xfb33 0xfb33, IM_Mapped [0x5d3; 0x5bc]);
  (R 0xfb34 0xfb34, IM_Mapped [0x5d4; 0x5bc]);
  (R 0xfb35 0xfb35, IM_Mapped [0x5d5; 0x5bc]);
  (R 0xfb36 0xfb36, IM_Mapped [0x5d6; 0x5bc]);
  (R 0xfb37 0xfb37, IM_Disallowed);
  (R 0xfb38 0xfb38, IM_Mapped [0x5d8; 0x5bc]);
  (R 0xfb39 0xfb39, IM_Mapped [0x5d9; 0x5bc]);
  (R 0xfb3a 0xfb3a, IM_Mapped [0x5da; 0x5bc]);
  (R 0xfb3b 0xfb3b, IM_Mapped [0x5db; 0x5bc]);
  (R 0xfb3c 0xfb3c, IM_Mapped [0x5dc; 0x5bc]);
  (R 0xfb3d 0xfb3d, IM_Disallowed);
  (R 0xfb3e 0xfb3e, IM_Mapped [0x5de; 0x5bc]);
  (R 0xfb3f 0xfb3f, IM_Disallowed);
  (R 0xfb40 0xfb40, IM_Mapped [0x5e0; 0x5bc]);
  (R 0xfb41 0xfb41, IM_Mapped [0x5e1; 0x5bc]);
  (R 0xfb42 0xfb42, IM_Disallowed);
  (R 0xfb43 0xfb43, IM_Mapped [0x5e3; 0x5bc]);
  (R 0xfb44 0xfb44, IM_Mapped [0x5e4; 0x5bc]);
  (R 0xfb45 0xfb45, IM_Disallowed);
  (R 0xfb46 0xfb46, IM_Mapped [0x5e6; 0x5bc]);
  (R 0xfb47 0xfb47, IM_Mapped [0x5e7; 0x5bc]);
  (R 0xfb48 0xfb48, IM_Mapped [0x5e8; 0x5bc]);
  (R 0xfb49 0xfb49, IM_Mapped [0x5e9; 0x5bc]);
  (R 0xfb4a 0xfb4a, IM_Mapped [0x5ea; 0x5bc]);
  (R 0xfb4b 0xfb4b, IM_Mapped [0x5d5; 0x5b9]);
  (R 0xfb4c 0xfb4c, IM_Mapped [0x5d1; 0x5bf]);
  (R 0xfb4d 0xfb4d, IM_Mapped [0x5db; 0x5bf]);
  (R 0xfb4e 0xfb4e, IM_Mapped [0x5e4; 0x5bf]);
  (R 0xfb4f 0xfb4f, IM_Mapped [0x5d0; 0x5dc]);
  (R 0xfb50 0xfb51, IM_Mapped [0x671]);
  (R 0xfb52 0xfb55, IM_Mapped [0x67b]);
  (R 0xfb56 0xfb59, IM_Mapped [0x67e]);
  (R 0xfb5a 0xfb5d, IM_Mapped [0x680]);
  (R 0xfb5e 0xfb61, IM_Mapped [0x67a]);
  (R 0xfb62 0xfb65, IM_Mapped [0x67f]);
  (R 0xfb66 0xfb69, IM_Mapped [0x679]);
  (R 0xfb6a 0xfb6d, IM_Mapped [0x6a4]);
  (R 0xfb6e 0xfb71, IM_Mapped [0x6a6]);
  (R 0xfb72 0xfb75, IM_Mapped [0x684]);
  (R 0xfb76 0xfb79, IM_Mapped [0x683]);
  (R 0xfb7a 0xfb7d, IM_Mapped [0x686]);
  (R 0xfb7e 0xfb81, IM_Mapped [0x687]);
  (R 0xfb82 0xfb83, IM_Mapped [0x68d]);
  (R 0xfb84 0xfb85, IM_Mapped [0x68c]);
  (R 0xfb86 0xfb87, IM_Mapped [0x68e]);
  (R 0xfb88 0xfb89, IM_Mapped [0x688]);
  (R 0xfb8a 0xfb8b, IM_Mapped [0x698]);
  (R 0xfb8c 0xfb8d, IM_Mapped [0x691]);
  (R 0xfb8e 0xfb91, IM_Mapped [0x6a9]);
  (R 0xfb92 0xfb95, IM_Mapped [0x6af]);
  (R 0xfb96 0xfb99, IM_Mapped [0x6b3]);
  (R 0xfb9a 0xfb9d, IM_Mapped [0x6b1]);
  (R 0xfb9e 0xfb9f, IM_Mapped [0x6ba]);
  (R 0xfba0 0xfba3, IM_Mapped [0x6bb]);
  (R 0xfba4 0xfba5, IM_Mapped [0x6c0]);
  (R 0xfba6 0xfba9, IM_Mapped [0x6c1]);
  (R 0xfbaa 0xfbad, IM_Mapped [0x6be]);
  (R 0xfbae 0xfbaf, IM_Mapped [0x6d2]);
  (R 0xfbb0 0xfbb1, IM_Mapped [0x6d3]);
  (R 0xfbb2 0xfbc1, IM_Valid);
  (R 0xfbc2 0xfbd2, IM_Disallowed);
  (R 0xfbd3 0xfbd6, IM_Mapped [0x6ad]);
  (R 0xfbd7 0xfbd8, IM_Mapped [0x6c7]);
  (R 0xfbd9 0xfbda, IM_Mapped [0x6c6]);
  (R 0xfbdb 0xfbdc, IM_Mapped [0x6c8]);
  (R 0xfbdd 0xfbdd, IM_Mapped [0x6c7; 0x674]);
  (R 0xfbde 0xfbdf, IM_Mapped [0x6cb]);
  (R 0xfbe0 0xfbe1, IM_Mapped [0x6c5]);
  (R 0xfbe2 0xfbe3, IM_Mapped [0x6c9]);
  (R 0xfbe4 0xfbe7, IM_Mapped [0x6d0]);
  (R 0xfbe8 0xfbe9, IM_Mapped [0x649]);
  (R 0xfbea 0xfbeb, IM_Mapped [0x626; 0x627]);
  (R 0xfbec 0xfbed, IM_Mapped [0x626; 0x6d5]);
  (R 0xfbee 0xfbef, IM_Mapped [0x626; 0x648]);
  (R 0xfbf0 0xfbf1, IM_Mapped [0x626; 0x6c7]);
  (R 0xfbf2 0xfbf3, IM_Mapped [0x626; 0x6c6]);
  (R 0xfbf4 0xfbf5, IM_Mapped [0x626; 0x6c8]);
  (R 0xfbf6 0xfbf8, IM_Mapped [0x626; 0x6d0]);
  (R 0xfbf9 0xfbfb, IM_Mapped [0x626; 0x649]);
  (R 0xfbfc 0xfbff, IM_Mapped [0x6cc]);
  (R 0xfc00 0xfc00, IM_Mapped [0x626; 0x62c]);
  (R 0xfc01 0xfc01, IM_Mapped [0x626; 0x62d]);
  (R 0xfc02 0xfc02, IM_Mapped [0x626; 0x645]);
  (R 0xfc03 0xfc03, IM_Mapped [0x626; 0x649]);
  (R 0xfc04 0xfc04, IM_Mapped [0x626; 0x64a]);
  (R 0xfc05 0xfc05, IM_Mapped [0x628; 0x62c]);
  (R 0xfc06 0xfc06, IM_Mapped [0x628; 0x62d]);
  (R 0xfc07 0xfc07, IM_Mapped [0x628; 0x62e]);
  (R 0xfc08 0xfc08, IM_Mapped [0x628; 0x645]);
  (R 0xfc09 0xfc09, IM_Mapped [0x628; 0x649]);
  (R 0xfc0a 0xfc0a, IM_Mapped [0x628; 0x64a]);
  (R 0xfc0b 0xfc0b, IM_Mapped [0x62a; 0x62c]);
  (R 0xfc0c 0xfc0c, IM_Mapped [0x62a; 0x62d]);
  (R 0xfc0d 0xfc0d, IM_Mapped [0x62a; 0x62e]);
  (R 0xfc0e 0xfc0e, IM_Mapped [0x62a; 0x645]);
  (R 0xfc0f 0xfc0f, IM_Mapped [0x62a; 0x649]);
  (R 0xfc10 0xfc10, IM_Mapped [0x62a; 0x64a]);
  (R 0xfc11 0xfc11, IM_Mapped [0x62b; 0x62c]);
  (R 0xfc12 0xfc12, IM_Mapped [0x62b; 0x645]);
  (R 0xfc13 0xfc13, IM_Mapped [0x62b; 0x649]);
  (R 0xfc14 0xfc14, IM_Mapped [0x62b; 0x64a]);
  (R 0xfc15 0xfc15, IM_Mapped [0x62c; 0x62d]);
  (R 0xfc16 0xfc16, IM_Mapped [0x62c; 0x645]);
  (R 0xfc17 0xfc17, IM_Mapped [0x62d; 0x62c]);
  (R 0xfc18 0xfc18, IM_Mapped [0x62d; 0x645]);
  (R 0xfc19 0xfc19, IM_Mapped [0x62e; 0x62c]);
  (R 0xfc1a 0xfc1a, IM_Mapped [0x62e; 0x62d]);
  (R 0xfc1b 0xfc1b, IM_Mapped [0x62e; 0x645]);
  (R 0xfc1c 0xfc1c, IM_Mapped [0x633; 0x62c]);
  (R 0xfc1d 0xfc1d, IM_Mapped [0x633; 0x62d]);
  (R 0xfc1e 0xfc1e, IM_Mapped [0x633; 0x62e]);
  (R 0xfc1f 0xfc1f, IM_Mapped [0x633; 0x645]);
  (R 0xfc20 0xfc20, IM_Mapped [0x635; 0x62d]);
  (R 0xfc21 0xfc21, IM_Mapped [0x635; 0x645]);
  (R 0xfc22 0xfc22, IM_Mapped [0x636; 0x62c]);
  (R 0xfc23 0xfc23, IM_Mapped [0x636; 0x62d]);
  (R 0xfc24 0xfc24, IM_Mapped [0x636; 0x62e]);
  (R 0xfc25 0xfc25, IM_Mapped [0x636; 0x645]);
  (R 0xfc26 0xfc26, IM_Mapped [0x637; 0x62d]);
  (R 0xfc27 0xfc27, IM_Mapped [0x637; 0x645]);
  (R 0xfc28 0xfc28, IM_Mapped [0x638; 0x645]);
  (R 0xfc29 0xfc29, IM_Mapped [0x639; 0x62c]);
  (R 0xfc2a 0xfc2a, IM_Mapped [0x639; 0x645]);
  (R 0xfc2b 0xfc2b, IM_Mapped [0x63a; 0x62c]);
  (R 0xfc2c 0xfc2c, IM_Mapped [0x63a; 0x645]);
  (R 0xfc2d 0xfc2d, IM_Mapped [0x641; 0x62c]);
  (R 0xfc2e 0xfc2e, IM_Mapped [0x641; 0x62d]);
  (R 0xfc2f 0xfc2f, IM_Mapped [0x641; 0x62e]);
  (R 0xfc30 0xfc30, IM_Mapped [0x641; 0x645]);
  (R 0xfc31 0xfc31, IM_Mapped [0x641; 0x649]);
  (R 0xfc32 0xfc32, IM_Mapped [0x641; 0x64a]);
  (R 0xfc33 0xfc33, IM_Mapped [0x642; 0x62d]);
  (R 0xfc34 0xfc34, IM_Mapped [0x642; 0x645]);
  (R 0xfc35 0xfc35, IM_Mapped [0x642; 0x649]);
  (R 0xfc36 0xfc36, IM_Mapped [0x642; 0x64a]);
  (R 0xfc37 0xfc37, IM_Mapped [0x643; 0x627]);
  (R 0xfc38 0xfc38, IM_Mapped [0x643; 0x62c]);
  (R 0xfc39 0xfc39, IM_Mapped [0x643; 0x62d]);
  (R 0xfc3a 0xfc3a, IM_Mapped [0x643; 0x62e]);
  (R 0xfc3b 0xfc3b, IM_Mapped [0x643; 0x644]);
  (R 0xfc3c 0xfc3c, IM_Mapped [0x643; 0x645]);
  (R 0xfc3d 0xfc3d, IM_Mapped [0x643; 0x649]);
  (R 0xfc3e 0xfc3e, IM_Mapped [0x643; 0x64a]);
  (R 0xfc3f 0xfc3f, IM_Mapped [0x644; 0x62c]);
  (R 0xfc40 0xfc40, IM_Mapped [0x644; 0x62d]);
  (R 0xfc41 0xfc41, IM_Mapped [0x644; 0x62e]);
  (R 0xfc42 0xfc42, IM_Mapped [0x644; 0x645]);
  (R 0xfc43 0xfc43, IM_Mapped [0x644; 0x649]);
  (R 0xfc44 0xfc44, IM_Mapped [0x644; 0x64a]);
  (R 0xfc45 0xfc45, IM_Mapped [0x645; 0x62c]);
  (R 0xfc46 0xfc46, IM_Mapped [0x645; 0x62d]);
  (R 0xfc47 0xfc47, IM_Mapped [0x645; 0x62e]);
  (R 0xfc48 0xfc48, IM_Mapped [0x645; 0x645]);
  (R 0xfc49 0xfc49, IM_Mapped [0x645; 0x649]);
  (R 0xfc4a 0xfc4a, IM_Mapped [0x645; 0x64a]);
  (R 0xfc4b 0xfc4b, IM_Mapped [0x646; 0x62c]);
  (R 0xfc4c 0xfc4c, IM_Mapped [0x646; 0x62d]);
  (R 0xfc4d 0xfc4d, IM_Mapped [0x646; 0x62e]);
  (R 0xfc4e 0xfc4e, IM_Mapped [0x646; 0x645]);
  (R 0xfc4f 0xfc4f, IM_Mapped [0x646; 0x649]);
  (R 0xfc50 0xfc50, IM_Mapped [0x646; 0x64a]);
  (R 0xfc51 0xfc51, IM_Mapped [0x647; 0x62c]);
  (R 0xfc52 0xfc52, IM_Mapped [0x647; 0x645]);
  (R 0xfc53 0xfc53, IM_Mapped [0x647; 0x649]);
  (R 0xfc54 0xfc54, IM_Mapped [0x647; 0x64a]);
  (R 0xfc55 0xfc55, IM_Mapped [0x64a; 0x62c]);
  (R 0xfc56 0xfc56, IM_Mapped [0x64a; 0x62d]);
  (R 0xfc57 0xfc57, IM_Mapped [0x64a; 0x62e]);
  (R 0xfc58 0xfc58, IM_Mapped [0x64a; 0x645]);
  (R 0xfc59 0xfc59, IM_Mapped [0x64a; 0x649]);
  (R 0xfc5a 0xfc5a, IM_Mapped [0x64a; 0x64a]);
  (R 0xfc5b 0xfc5b, IM_Mapped [0x630; 0x670])].

Definition MAPPING_11 : list (CharRange * Mapping) := [
  (R 0xfc5c 0xfc5c, IM_Mapped [0x631; 0x670]);
  (R 0xfc5d 0xfc5d, IM_Mapped [0x649; 0x670]);
  (R 0xfc5e 0xfc5e, IM_DisallowedStd3Mapped [0x20; 0x64c; 0x651]);
  (R 0xfc5f 0xfc5f, IM_DisallowedStd3Mapped [0x20; 0x64d; 0x651]);
  (R 0xfc60 0xfc60, IM_DisallowedStd3Mapped [0x20; 0x64e; 0x651]);
  (R 0xfc61 0xfc61, IM_DisallowedStd3Mapped [0x20; 0x64f; 0x651]);
  (R 0xfc62 0xfc62, IM_DisallowedStd3Mapped [0x20; 0x650; 0x651]);
  (R 0xfc63 0xfc63, IM_DisallowedStd3Mapped [0x20; 0x651; 0x670]);
  (R 0xfc64 0xfc64, IM_Mapped [0x626; 0x631]);
  (R 0xfc65 0xfc65, IM_Mapped [0x626; 0x632]);
  (R 0xfc66 0xfc66, IM_Mapped [0x626; 0x645]);
  (R 0xfc67 0xfc67, IM_Mapped [0x626; 0x646]);
  (R 0xfc68 0xfc68, IM_Mapped [0x626; 0x649]);
  (R 0xfc69 0xfc69, IM_Mapped [0x626; 0x64a]);
  (R 0xfc6a 0xfc6a, IM_Mapped [0x628; 0x631]);
  (R 0xfc6b 0xfc6b, IM_Mapped [0x628; 0x632]);
  (R 0xfc6c 0xfc6c, IM_Mapped [0x628; 0x645]);
  (R 0xfc6d 0xfc6d, IM_Mapped [0x628; 0x646]);
  (R 0xfc6e 0xfc6e, IM_Mapped [0x628; 0x649]);
  (R 0xfc6f 0xfc6f, IM_Mapped [0x628; 0x64a]);
  (R 0xfc70 0xfc70, IM_Mapped [0x62a; 0x631]);
  (R 0xfc71 0xfc71, IM_Mapped [0x62a; 0x632]);
  (R 0xfc72 0xfc72, IM_Mapped [0x62a; 0x645]);
  (R 0xfc73 0xfc73, IM_Mapped [0x62a; 0x646]);
  (R 0xfc74 0xfc74, IM_Mapped [0x62a; 0x649]);
  (R 0xfc75 0xfc75, IM_Mapped [0x62a; 0x64a]);
  (R 0xfc76 0xfc76, IM_Mapped [0x62b; 0x631]);
  (R 0xfc77 0xfc77, IM_Mapped [0x62b; 0x632]);
  (R 0xfc78 0xfc78, IM_Mapped [0x62b; 0x645]);
  (R 0xfc79 0xfc79, IM_Mapped [0x62b; 0x646]);
  (R 0xfc7a 0xfc7a, IM_Mapped [0x62b; 0x649]);
  (R 0xfc7b 0xfc7b, IM_Mapped [0x62b; 0x64a]);
  (R 0xfc7c 0xfc7c, IM_Mapped [0x641; 0x649]);
  (R 0xfc7d 0xfc7d, IM_Mapped [0x641; 0x64a]);
  (R 0xfc7e 0xfc7e, IM_Mapped [0x642; 0x649]);
  (R 0xfc7f 0xfc7f, IM_Mapped [0x642; 0x64a]);
  (R 0xfc80 0xfc80, IM_Mapped [0x643; 0x627]);
  (R 0xfc81 0xfc81, IM_Mapped [0x643; 0x644]);
  (R 0xfc82 0xfc82, IM_Mapped [0x643; 0x645]);
  (R 0xfc83 0xfc83, IM_Mapped [0x643; 0x649]);
  (R 0xfc84 0xfc84, IM_Mapped [0x643; 0x64a]);
  (R 0xfc85 0xfc85, IM_Mapped [0x644; 0x645]);
  (R 0xfc86 0xfc86, IM_Mapped [0x644; 0x649]);
  (R 0xfc87 0xfc87, IM_Mapped [0x644; 0x64a]);
  (R 0xfc88 0xfc88, IM_Mapped [0x645; 0x627]);
  (R 0xfc89 0xfc89, IM_Mapped [0x645; 0x645]);
  (R 0xfc8a 0xfc8a, IM_Mapped [0x646; 0x631]);
  (R 0xfc8b 0xfc8b, IM_Mapped [0x646; 0x632]);
  (R 0xfc8c 0xfc8c, IM_Mapped [0x646; 0x645]);
  (R 0xfc8d 0xfc8d, IM_Mapped [0x646; 0x646]);
  (R 0xfc8e 0xfc8e, IM_Mapped [0x646; 0x649]);
  (R 0xfc8f 0xfc8f, IM_Mapped [0x646; 0x64a]);
  (R 0xfc90 0xfc90, IM_Mapped [0x649; 0x670]);
  (R 0xfc91 0xfc91, IM_Mapped [0x64a; 0x631]);
  (R 0xfc92 0xfc92, IM_Mapped [0x64a; 0x632]);
  (R 0xfc93 0xfc93, IM_Mapped [0x64a; 0x645]);
  (R 0xfc94 0xfc94, IM_Mapped [0x64a; 0x646]);
  (R 0xfc95 0xfc95, IM_Mapped [0x64a; 0x649]);
  (R 0xfc96 0xfc96, IM_Mapped [0x64a; 0x64a]);
  (R 0xfc97 0xfc97, IM_Mapped [0x626; 0x62c]);
  (R 0xfc98 0xfc98, IM_Mapped [0x626; 0x62d]);
  (R 0xfc99 0xfc99, IM_Mapped [0x626; 0x62e]);
  (R 0xfc9a 0xfc9a, IM_Mapped [0x626; 0x645]);
  (R 0xfc9b 0xfc9b, IM_Mapped [0x626; 0x647]);
  (R 0xfc9c 0xfc9c, IM_Mapped [0x628; 0x62c]);
  (R 0xfc9d 0xfc9d, IM_Mapped [0x628; 0x62d]);
  (R 0xfc9e 0xfc9e, IM_Mapped [0x628; 0x62e]);
  (R 0xfc9f 0xfc9f, IM_Mapped [0x628; 0x645]);
  (R 0xfca0 0xfca0, IM_Mapped [0x628; 0x647]);
  (R 0xfca1 0xfca1, IM_Mapped [0x62a; 0x62c]);
  (R 0xfca2 0xfca2, IM_Mapped [0x62a; 0x62d]);
  (R 0xfca3 0xfca3, IM_Mapped [0x62a; 0x62e]);
  (R 0xfca4 0xfca4, IM_Mapped [0x62a; 0x645]);
  (R 0xfca5 0xfca5, IM_Mapped [0x62a; 0x647]);
  (R 0xfca6 0xfca6, IM_Mapped [0x62b; 0x645]);
  (R 0xfca7 0xfca7, IM_Mapped [0x62c; 0x62d]);
  (R 0xfca8 0xfca8, IM_Mapped [0x62c; 0x645]);
  (R 0xfca9 0xfca9, IM_Mapped [0x62d; 0x62c]);
  (R 0xfcaa 0xfcaa, IM_Mapped [0x62d; 0x645]);
  (R 0xfcab 0xfcab, IM_Mapped [0x62e; 0x62c]);
  (R 0xfcac 0xfcac, IM_Mapped [0x62e; 0x645]);
  (R 0xfcad 0xfcad, IM_Mapped [0x633; 0x62c]);
  (R 0xfcae 0xfcae, IM_Mapped [0x633; 0x62d]);
  (R 0xfcaf 0xfcaf, IM_Mapped [0x633; 0x62e]);
  (R 0xfcb0 0xfcb0, IM_Mapped [0x633; 0x645]);
  (R 0xfcb1 0xfcb1, IM_Mapped [0x635; 0x62d]);
  (R 0xfcb2 0xfcb2, IM_Mapped [0x635; 0x62e]);
  (R 0xfcb3 0xfcb3, IM_Mapped [0x635; 0x645]);
  (R 0xfcb4 0xfcb4, IM_Mapped [0x636; 0x62c]);
  (R 0xfcb5 0xfcb5, IM_Mapped [0x636; 0x62d]);
  (R 0xfcb6 0xfcb6, IM_Mapped [0x636; 0x62e]);
  (R 0xfcb7 0xfcb7, IM_Mapped [0x636; 0x645]);
  (R 0xfcb8 0xfcb8, IM_Mapped [0x637; 0x62d]);
  (R 0xfcb9 0xfcb9, IM_Mapped [0x638; 0x645]);
  (R 0xfcba 0xfcba, IM_Mapped [0x639; 0x62c]);
  (R 0xfcbb 0xfcbb, IM_Mapped [0x639; 0x645]);
  (R 0xfcbc 0xfcbc, IM_Mapped [0x63a; 0x62c]);
  (R 0xfcbd 0xfcbd, IM_Mapped [0x63a; 0x645]);
  (R 0xfcbe 0xfcbe, IM_Mapped [0x641; 0x62c]);
  (R 0xfcbf 0xfcbf, IM_Mapped [0x641; 0x62d]);
  (R 0xfcc0 0xfcc0, IM_Mapped [0x641; 0x62e]);
  (R 0xfcc1 0xfcc1, IM_Mapped [0x641; 0x645]);
  (R 0xfcc2 0xfcc2, IM_Mapped [0x642; 0x62d]);
  (R 0xfcc3 0xfcc3, IM_Mapped [0x642; 0x645]);
  (R 0xfcc4 0xfcc4, IM_Mapped [0x643; 0x62c]);
  (R 0xfcc5 0xfcc5, IM_Mapped [0x643; 0x62d]);
  (R 0xfcc6 0xfcc6, IM_Mapped [0x643; 0x62e]);
  (R 0xfcc7 0xfcc7, IM_Mapped [0x643; 0x644]);
  (R 0xfcc8 0xfcc8, IM_Mapped [0x643; 0x645]);
  (R 0xfcc9 0xfcc9, IM_Mapped [0x644; 0x62c]);
  (R 0xfcca 0xfcca, IM_Mapped [0x644; 0x62d]);
  (R 0xfccb 0xfccb, IM_Mapped [0x644; 0x62e]);
  (R 0xfccc 0xfccc, IM_Mapped [0x644; 0x645]);
  (R 0xfccd 0xfccd, IM_Mapped [0x644; 0x647]);
  (R 0xfcce 0xfcce, IM_Mapped [0x645; 0x62c]);
  (R 0xfccf 0xfccf, IM_Mapped [0x645; 0x62d]);
  (R 0xfcd0 0xfcd0, IM_Mapped [0x645; 0x62e]);
  (R 0xfcd1 0xfcd1, IM_Mapped [0x645; 0x645]);
  (R 0xfcd2 0xfcd2, IM_Mapped [0x646; 0x62c]);
  (R 0xfcd3 0xfcd3, IM_Mapped [0x646; 0x62d]);
  (R 0xfcd4 0xfcd4, IM_Mapped [0x646; 0x62e]);
  (R 0xfcd5 0xfcd5, IM_Mapped [0x646; 0x645]);
  (R 0xfcd6 0xfcd6, IM_Mapped [0x646; 0x647]);
  (R 0xfcd7 0xfcd7, IM_Mapped [0x647; 0x62c]);
  (R 0xfcd8 0xfcd8, IM_Mapped [0x647; 0x645]);
  (R 0xfcd9 0xfcd9, IM_Mapped [0x647; 0x670]);
  (R 0xfcda 0xfcda, IM_Mapped [0x64a; 0x62c]);
  (R 0xfcdb 0xfcdb, IM_Mapped [0x64a; 0x62d]);
  (R 0xfcdc 0xfcdc, IM_Mapped [0x64a; 0x62e]);
  (R 0xfcdd 0xfcdd, IM_Mapped [0x64a; 0x645]);
  (R 0xfcde 0xfcde, IM_Mapped [0x64a; 0x647]);
  (R 0xfcdf 0xfcdf, IM_Mapped [0x626; 0x645]);
  (R 0xfce0 0xfce0, IM_Mapped [0x626; 0x647]);
  (R 0xfce1 0xfce1, IM_Mapped [0x628; 0x645]);
  (R 0xfce2 0xfce2, IM_Mapped [0x628; 0x647]);
  (R 0xfce3 0xfce3, IM_Mapped [0x62a; 0x645]);
  (R 0xfce4 0xfce4, IM_Mapped [0x62a; 0x647]);
  (R 0xfce5 0xfce5, IM_Mapped [0x62b; 0x645]);
  (R 0xfce6 0xfce6, IM_Mapped [0x62b; 0x647]);
  (R 0xfce7 0xfce7, IM_Mapped [0x633; 0x645]);
  (R 0xfce8 0xfce8, IM_Mapped [0x633; 0x647]);
  (R 0xfce9 0xfce9, IM_Mapped [0x634; 0x645]);
  (R 0xfcea 0xfcea, IM_Mapped [0x634; 0x647]);
  (R 0xfceb 0xfceb, IM_Mapped [0x643; 0x644]);
  (R 0xfcec 0xfcec, IM_Mapped [0x643; 0x645]);
  (R 0xfced 0xfced, IM_Mapped [0x644; 0x645]);
  (R 0xfcee 0xfcee, IM_Mapped [0x646; 0x645]);
  (R 0xfcef 0xfcef, IM_Mapped [0x646; 0x647]);
  (R 0xfcf0 0xfcf0, IM_Mapped [0x64a; 0x645]);
  (R 0xfcf1 0xfcf1, IM_Mapped [0x64a; 0x647]);
  (R 0xfcf2 0xfcf2, IM_Mapped [0x640; 0x64e; 0x651]);
  (R 0xfcf3 0xfcf3, IM_Mapped [0x640; 0x64f; 0x651]);
  (R 0xfcf4 0xfcf4, IM_Mapped [0x640; 0x650; 0x651]);
  (R 0xfcf5 0xfcf5, IM_Mapped [0x637; 0x649]);
  (R 0xfcf6 0xfcf6, IM_Mapped [0x637; 0x64a]);
  (R 0xfcf7 0xfcf7, IM_Mapped [0x639; 0x649]);
  (R 0xfcf8 0xfcf8, IM_Mapped [0x639; 0x64a]);
  (R 0xfcf9 0xfcf9, IM_Mapped [0x63a; 0x649]);
  (R 0xfcfa 0xfcfa, IM_Mapped [0x63a; 0x64a]);
  (R 0xfcfb 0xfcfb, IM_Mapped [0x633; 0x649]);
  (R 0xfcfc 0xfcfc, IM_Mapped [0x633; 0x64a]);
  (R 0xfcfd 0xfcfd, IM_Mapped [0x634; 0x649]);
  (R 0xfcfe 0xfcfe, IM_Mapped [0x634; 0x64a]);
  (R 0xfcff 0xfcff, IM_Mapped [0x62d; 0x649]);
  (R 0xfd00 0xfd00, IM_Mapped [0x62d; 0x64a]);
  (R 0xfd01 0xfd01, IM_Mapped [0x62c; 0x649]);
  (R 0xfd02 0xfd02, IM_Mapped [0x62c; 0x64a]);
  (R 0xfd03 0xfd03, IM_Mapped [0x62e; 0x649]);
  (R 0xfd04 0xfd04, IM_Mapped [0x62e; 0x64a]);
  (R 0xfd05 0xfd05, IM_Mapped [0x635; 0x649]);
  (R 0xfd06 0xfd06, IM_Mapped [0x635; 0x64a]);
  (R 0xfd07 0xfd07, IM_Mapped [0x636; 0x649]);
  (R 0xfd08 0xfd08, IM_Mapped [0x636; 0x64a]);
  (R 0xfd09 0xfd09, IM_Mapped [0x634; 0x62c]);
  (R 0xfd0a 0xfd0a, IM_Mapped [0x634; 0x62d]);
  (R 0xfd0b 0xfd0b, IM_Mapped [0x634; 0x62e]);
  (R 0xfd0c 0xfd0c, IM_Mapped [0x634; 0x645]);
  (R 0xfd0d 0xfd0d, IM_Mapped [0x634; 0x631]);
  (R 0xfd0e 0xfd0e, IM_Mapped [0x633; 0x631]);
  (R 0xfd0f 0xfd0f, IM_Mapped [0x635; 0x631]);
  (R 0xfd10 0xfd10, IM_Mapped [0x636; 0x631]);
  (R 0xfd11 0xfd11, IM_Mapped [0x637; 0x649]);
  (R 0xfd12 0xfd12, IM_Mapped [0x637; 0x64a]);
  (R 0xfd13 0xfd13, IM_Mapped [0x639; 0x649]);
  (R 0xfd14 0xfd14, IM_Mapped [0x639; 0x64a]);
  (R 0xfd15 0xfd15, IM_Mapped [0x63a; 0x649]);
  (R 0xfd16 0xfd16, IM_Mapped [0x63a; 0x64a]);
  (R 0xfd17 0xfd17, IM_Mapped [0x633; 0x649]);
  (R 0xfd18 0xfd18, IM_Mapped [0x633; 0x64a]);
  (R 0xfd19 0xfd19, IM_Mapped [0x634; 0x649]);
  (R 0xfd1a 0xfd1a, IM_Mapped [0x634; 0x64a]);
  (R 0xfd1b 0xfd1b, IM_Mapped [0x62d; 0x649]);
  (R 0xfd1c 0xfd1c, IM_Mapped [0x62d; 0x64a]);
  (R 0xfd1d 0xfd1d, IM_Mapped [0x62c; 0x649]);
  (R 0xfd1e 0xfd1e, IM_Mapped [0x62c; 0x64a]);
  (R 0xfd1f 0xfd1f, IM_Mapped [0x62e; 0x649]);
  (R 0xfd20 0xfd20, IM_Mapped [0x62e; 0x64a]);
  (R 0xfd21 0xfd21, IM_Mapped [0x635; 0x649]);
  (R 0xfd22 0xfd22, IM_Mapped [0x635; 0x64a]);
  (R 0xfd23 0xfd23, IM_Mapped [0x636; 0x649]);
  (R 0xfd24 0xfd24, IM_Mapped [0x636; 0x64a]);
  (R 0xfd25 0xfd25, IM_Mapped [0x634; 0x62c]);
  (R 0xfd26 0xfd26, IM_Mapped [0x634; 0x62d]);
  (R 0xfd27 0xfd27, IM_Mapped [0x634; 0x62e]);
  (R 0xfd28 0xfd28, IM_Mapped [0x634; 0x645]);
  (R 0xfd29 0xfd29, IM_Mapped [0x634; 0x631]);
  (R 0xfd2a 0xfd2a, IM_Mapped [0x633; 0x631]);
  (R 0xfd2b 0xfd2b, IM_Mapped [0x635; 0x631]);
  (R 0xfd2c 0xfd2c, IM_Mapped [0x636; 0x631]);
  (R 0xfd2d 0xfd2d, IM_Mapped [0x634; 0x62c]);
  (R 0xfd2e 0xfd2e, IM_Mapped [0x634; 0x62d]);
  (R 0xfd2f 0xfd2f, IM_Mapped [0x634; 0x62e]);
  (R 0xfd30 0xfd30, IM_Mapped [0x634; 0x645]);
  (R 0xfd31 0xfd31, IM_Mapped [0x633; 0x647]);
  (R 0xfd32 0xfd32, IM_Mapped [0x634; 0x647]);
  (R 0xfd33 0xfd33, IM_Mapped [0x637; 0x645]);
  (R 0xfd34 0xfd34, IM_Mapped [0x633; 0x62c]);
  (R 0xfd35 0xfd35, IM_Mapped [0x633; 0x62d]);
  (R 0xfd36 0xfd36, IM_Mapped [0x633; 0x62e]);
  (R 0xfd37 0xfd37, IM_Mapped [0x634; 0x62c]);
  (R 0xfd38 0xfd38, IM_Mapped [0x634; 0x62d]);
  (R 0xfd39 0xfd39, IM_Mapped [0x634; 0x62e]);
  (R 0xfd3a 0xfd3a, IM_Mapped [0x637; 0x645]);
  (R 0xfd3b 0xfd3b, IM_Mapped [0x638; 0x645]);
  (R 0xfd3c 0xfd3d, IM_Mapped [0x627; 0x64b]);
  (R 0xfd3e 0xfd3f, IM_Valid);
  (R 0xfd40 0xfd4f, IM_Disallowed);
  (R 0xfd50 0xfd50, IM_Mapped [0x62a; 0x62c; 0x645]);
  (R 0xfd51 0xfd52, IM_Mapped [0x62a; 0x62d; 0x62c]);
  (R 0xfd53 0xfd53, IM_Mapped [0x62a; 0x62d; 0x645]);
  (R 0xfd54 0xfd54, IM_Mapped [0x62a; 0x62e; 0x645]);
  (R 0xfd55 0xfd55, IM_Mapped [0x62a; 0x645; 0x62c]);
  (R 0xfd56 0xfd56, IM_Mapped [0x62a; 0x645; 0x62d]);
  (R 0xfd57 0xfd57, IM_Mapped [0x62a; 0x645; 0x62e]);
  (R 0xfd58 0xfd59, IM_Mapped [0x62c; 0x645; 0x62d]);
  (R 0xfd5a 0xfd5a, IM_Mapped [0x62d; 0x645; 0x64a]);
  (R 0xfd5b 0xfd5b, IM_Mapped [0x62d; 0x645; 0x649]);
  (R 0xfd5c 0xfd5c, IM_Mapped [0x633; 0x62d; 0x62c]);
  (R 0xfd5d 0xfd5d, IM_Mapped [0x633; 0x62c; 0x62d]);
  (R 0xfd5e 0xfd5e, IM_Mapped [0x633; 0x62c; 0x649]);
  (R 0xfd5f 0xfd60, IM_Mapped [0x633; 0x645; 0x62d]);
  (R 0xfd61 0xfd61, IM_Mapped [0x633; 0x645; 0x62c]);
  (R 0xfd62 0xfd63, IM_Mapped [0x633; 0x645; 0x645]);
  (R 0xfd64 0xfd65, IM_Mapped [0x635; 0x62d; 0x62d]);
  (R 0xfd66 0xfd66, IM_Mapped [0x635; 0x645; 0x645]);
  (R 0xfd67 0xfd68, IM_Mapped [0x634; 0x62d; 0x645]);
  (R 0xfd69 0xfd69, IM_Mapped [0x634; 0x62c; 0x64a]);
  (R 0xfd6a 0xfd6b, IM_Mapped [0x634; 0x645; 0x62e]);
  (R 0xfd6c 0xfd6d, IM_Mapped [0x634; 0x645; 0x645]);
  (R 0xfd6e 0xfd6e, IM_Mapped [0x636; 0x62d; 0x649]);
  (R 0xfd6f 0xfd70, IM_Mapped [0x636; 0x62e; 0x645]);
  (R 0xfd71 0xfd72, IM_Mapped [0x637; 0x645; 0x62d]);
  (R 0xfd73 0xfd73, IM_Mapped [0x637; 0x645; 0x645]);
  (R 0xfd74 0xfd74, IM_Mapped [0x637; 0x645; 0x64a]);
  (R 0xfd75 0xfd75, IM_Mapped [0x639; 0x62c; 0x645]);
  (R 0xfd76 0xfd77, IM_Mapped [0x639; 0x645; 0x645]);
  (R 0xfd78 0xfd78, IM_Mapped [0x639; 0x645; 0x649]);
  (R 0xfd79 0xfd79, IM_Mapped [0x63a; 0x645; 0x645]);
  (R 0xfd7a 0xfd7a, IM_Mapped [0x63a; 0x645; 0x64a]);
  (R 0xfd7b 0xfd7b, IM_Mapped [0x63a; 0x645; 0x649]);
  (R 0xfd7c 0xfd7d, IM_Mapped [0x641; 0x62e; 0x645]);
  (R 0xfd7e 0xfd7e, IM_Mapped [0x642; 0x645; 0x62d]);
  (R 0xfd7f 0xfd7f, IM_Mapped [0x642; 0x645; 0x645]);
  (R 0xfd80 0xfd80, IM_Mapped [0x644; 0x62d; 0x645]);
  (R 0xfd81 0xfd81, IM_Mapped [0x644; 0x62d; 0x64a]);
  (R 0xfd82 0xfd82, IM_Mapped [0x644; 0x62d; 0x649]);
  (R 0xfd83 0xfd84, IM_Mapped [0x644; 0x62c; 0x62c]);
  (R 0xfd85 0xfd86, IM_Mapped [0x644; 0x62e; 0x645]);
  (R 0xfd87 0xfd88, IM_Mapped [0x644; 0x645; 0x62d]);
  (R 0xfd89 0xfd89, IM_Mapped [0x645; 0x62d; 0x62c]);
  (R 0xfd8a 0xfd8a, IM_Mapped [0x645; 0x62d; 0x645]);
  (R 0xfd8b 0xfd8b, IM_Mapped [0x645; 0x62d; 0x64a]);
  (R 0xfd8c 0xfd8c, IM_Mapped [0x645; 0x62c; 0x62d]);
  (R 0xfd8d 0xfd8d, IM_Mapped [0x645; 0x62c; 0x645]);
  (R 0xfd8e 0xfd8e, IM_Mapped [0x645; 0x62e; 0x62c]);
  (R 0xfd8f 0xfd8f, IM_Mapped [0x645; 0x62e; 0x645]);
  (R 0xfd90 0xfd91, IM_Disallowed);
  (R 0xfd92 0xfd92, IM_Mapped [0x645; 0x62c; 0x62e]);
  (R 0xfd93 0xfd93, IM_Mapped [0x647; 0x645; 0x62c]);
  (R 0xfd94 0xfd94, IM_Mapped [0x647; 0x645; 0x645]);
  (R 0xfd95 0xfd95, IM_Mapped [0x646; 0x62d; 0x645]);
  (R 0xfd96 0xfd96, IM_Mapped [0x646; 0x62d; 0x649]);
  (R 0xfd97 0xfd98, IM_Mapped [0x646; 0x62c; 0x645]);
  (R 0xfd99 0xfd99, IM_Mapped [0x646; 0x62c; 0x649]);
  (R 0xfd9a 0xfd9a, IM_Mapped [0x646; 0x645; 0x64a]);
  (R 0xfd9b 0xfd9b, IM_Mapped [0x646; 0x645; 0x649]);
  (R 0xfd9c 0xfd9d, IM_Mapped [0x64a; 0x645; 0x645]);
  (R 0xfd9e 0xfd9e, IM_Mapped [0x628; 0x62e; 0x64a]);
  (R 0xfd9f 0xfd9f, IM_Mapped [0x62a; 0x62c; 0x64a]);
  (R 0xfda0 0xfda0, IM_Mapped [0x62a; 0x62c; 0x649]);
  (R 0xfda1 0xfda1, IM_Mapped [0x62a; 0x62e; 0x64a]);
  (R 0xfda2 0xfda2, IM_Mapped [0x62a; 0x62e; 0x649]);
  (R 0xfda3 0xfda3, IM_Mapped [0x62a; 0x645; 0x64a]);
  (R 0xfda4 0xfda4, IM_Mapped [0x62a; 0x645; 0x649]);
  (R 0xfda5 0xfda5, IM_Mapped [0x62c; 0x645; 0x64a]);
  (R 0xfda6 0xfda6, IM_Mapped [0x62c; 0x62d; 0x649]);
  (R 0xfda7 0xfda7, IM_Mapped [0x62c; 0x645; 0x649]);
  (R 0xfda8 0xfda8, IM_Mapped [0x633; 0x62e; 0x649]);
  (R 0xfda9 0xfda9, IM_Mapped [0x635; 0x62d; 0x64a]);
  (R 0xfdaa 0xfdaa, IM_Mapped [0x634; 0x62d; 0x64a]);
  (R 0xfdab 0xfdab, IM_Mapped [0x636; 0x62d; 0x64a]);
  (R 0xfdac 0xfdac, IM_Mapped [0x644; 0x62c; 0x64a]);
  (R 0xfdad 0xfdad, IM_Mapped [0x644; 0x645; 0x64a]);
  (R 0xfdae 0xfdae, IM_Mapped [0x64a; 0x62d; 0x64a]);
  (R 0xfdaf 0xfdaf, IM_Mapped [0x64a; 0x62c; 0x64a]);
  (R 0xfdb0 0xfdb0, IM_Mapped [0x64a; 0x645; 0x64a]);
  (R 0xfdb1 0xfdb1, IM_Mapped [0x645; 0x645; 0x64a]);
  (R 0xfdb2 0xfdb2, IM_Mapped [0x642; 0x645; 0x64a]);
  (R 0xfdb3 0xfdb3, IM_Mapped [0x646; 0x62d; 0x64a]);
  (R 0xfdb4 0xfdb4, IM_Mapped [0x642; 0x645; 0x62d]);
  (R 0xfdb5 0xfdb5, IM_Mapped [0x644; 0x62d; 0x645]);
  (R 0xfdb6 0xfdb6, IM_Mapped [0x639; 0x645; 0x64a]);
  (R 0xfdb7 0xfdb7, IM_Mapped [0x643; 0x645; 0x64a]);
  (R 0xfdb8 0xfdb8, IM_Mapped [0x646; 0x62c; 0x62d]);
  (R 0xfdb9 0xfdb9, IM_Mapped [0x645; 0x62e; 0x64a]);
  (R 0xfdba 0xfdba, IM_Mapped [0x644; 0x62c; 0x645]);
  (R 0xfdbb 0xfdbb, IM_Mapped [0x643; 0x645; 0x645]);
  (R 0xfdbc 0xfdbc, IM_Mapped [0x644; 0x62c; 0x645]);
  (R 0xfdbd 0xfdbd, IM_Mapped [0x646; 0x62c; 0x62d]);
  (R 0xfdbe 0xfdbe, IM_Mapped [0x62c; 0x62d; 0x64a]);
  (R 0xfdbf 0xfdbf, IM_Mapped [0x62d; 0x62c; 0x64a]);
  (R 0xfdc0 0xfdc0, IM_Mapped [0x645; 0x62c; 0x64a]);
  (R 0xfdc1 0xfdc1, IM_Mapped [0x641; 0x645; 0x64a]);
  (R 0xfdc2 0xfdc2, IM_Mapped [0x628; 0x62d; 0x64a]);
  (R 0xfdc3 0xfdc3, IM_Mapped [0x643; 0x645; 0x645]);
  (R 0xfdc4 0xfdc4, IM_Mapped [0x639; 0x62c; 0x645]);
  (R 0xfdc5 0xfdc5, IM_Mapped [0x635; 0x645; 0x645]);
  (R 0xfdc6 0xfdc6, IM_Mapped [0x633; 0x62e; 0x64a]);
  (R 0xfdc7 0xfdc7, IM_Mapped [0x646; 0x62c; 0x64a]);
  (R 0xfdc8 0xfdef, IM_Disallowed);
  (R 0xfdf0 0xfdf0, IM_Mapped [0x635; 0x644; 0x6d2]);
  (R 0xfdf1 0xfdf1, IM_Mapped [0x642; 0x644; 0x6d2]);
  (R 0xfdf2 0xfdf2, IM_Mapped [0x627; 0x644; 0x644; 0x647]);
  (R 0xfdf3 0xfdf3, IM_Mapped [0x627; 0x643; 0x628; 0x631]);
  (R 0xfdf4 0xfdf4, IM_Mapped [0x645; 0x62d; 0x645; 0x62f]);
  (R 0xfdf5 0xfdf5, IM_Mapped [0x635; 0x644; 0x639; 0x645]);
  (R 0xfdf6 0xfdf6, IM_Mapped [0x631; 0x633; 0x648; 0x644]);
  (R 0xfdf7 0xfdf7, IM_Mapped [0x639; 0x644; 0x64a; 0x647]);
  (R 0xfdf8 0xfdf8, IM_Mapped [0x648; 0x633; 0x644; 0x645]);
  (R 0xfdf9 0xfdf9, IM_Mapped [0x635; 0x644; 0x649]);
  (R 0xfdfa 0xfdfa, IM_DisallowedStd3Mapped [0x635; 0x644; 0x649; 0x20; 0x627; 0x644; 0x644; 0x647; 0x20; 0x639; 0x644; 0x64a; 0x647; 0x20; 0x648; 0x633; 0x644; 0x645]);
  (R 0xfdfb 0xfdfb, IM_DisallowedStd3Mapped [0x62c; 0x644; 0x20; 0x62c; 0x644; 0x627; 0x644; 0x647]);
  (R 0xfdfc 0xfdfc, IM_Mapped [0x631; 0x6cc; 0x627; 0x644]);
  (R 0xfdfd 0xfdfd, IM_Valid);
  (R 0xfdfe 0xfdff, IM_Disallowed);
  (R 0xfe00 0xfe0f, IM_Ignored);
  (R 0xfe10 0xfe10, IM_DisallowedStd3Mapped [0x2c]);
  (R 0xfe11 0xfe11, IM_Mapped [0x3001]);
  (R 0xfe12 0xfe12, IM_Disallowed);
  (R 0xfe13 0xfe13, IM_DisallowedStd3Mapped [0x3a]);
  (R 0xfe14 0xfe14, IM_DisallowedStd3Mapped [0x3b]);
  (R 0xfe15 0xfe15, IM_DisallowedStd3Mapped [0x21]);
  (R 0xfe16 0xfe16, IM_DisallowedStd3Mapped [0x3f]);
  (R 0xfe17 0xfe17, IM_Mapped [0x3016]);
  (R 0xfe18 0xfe18, IM_Mapped [0x3017]);
  (R 0xfe19 0xfe1f, IM_Disallowed);
  (R 0xfe20 0xfe2f, IM_Valid);
  (R 0xfe30 0xfe30, IM_Disallowed);
  (R 0xfe31 0xfe31, IM_Mapped [0x2014]);
  (R 0xfe32 0xfe32, IM_Mapped [0x2013]);
  (R 0xfe33 0xfe34, IM_DisallowedStd3Mapped [0x5f]);
  (R 0xfe35 0xfe35, IM_DisallowedStd3Mapped [0x28]);
  (R 0xfe36 0xfe36, IM_DisallowedStd3Mapped [0x29]);
  (R 0xfe37 0xfe37, IM_DisallowedStd3Mapped [0x7b]);
  (R 0xfe38 0xfe38, IM_DisallowedStd3Mapped [0x7d]);
  (R 0xfe39 0xfe39, IM_Mapped [0x3014]);
  (R 0xfe3a 0xfe3a, IM_Mapped [0x3015]);
  (R 0xfe3b 0xfe3b, IM_Mapped [0x3010]);
  (R 0xfe3c 0xfe3c, IM_Mapped [0x3011]);
  (R 0xfe3d 0xfe3d, IM_Mapped [0x300a]);
  (R 0xfe3e 0xfe3e, IM_Mapped [0x300b]);
  (R 0xfe3f 0xfe3f, IM_Mapped [0x3008]);
  (R 0xfe40 0xfe40, IM_Mapped [0x3009]);
  (R 0xfe41 0xfe41, IM_Mapped [0x300c]);
  (R 0xfe42 0xfe42, IM_Mapped [0x300d]);
  (R 0xfe43 0xfe43, IM_Mapped [0x300e]);
  (R 0xfe44 0xfe44, IM_Mapped [0x300f]);
  (R 0xfe45 0xfe46, IM_Valid);
  (R 0xfe47 0xfe47, IM_DisallowedStd3Mapped [0x5b]);
  (R 0xfe48 0xfe48, IM_DisallowedStd3Mapped [0x5d]);
  (R 0xfe49 0xfe4c, IM_DisallowedStd3Mapped [0x20; 0x305]);
  (R 0xfe4d 0xfe4f, IM_DisallowedStd3Mapped [0x5f]);
  (R 0xfe50 0xfe50, IM_DisallowedStd3Mapped [0x2c]);
  (R 0xfe51 0xfe51, IM_Mapped [0x3001]);
  (R 0xfe52 0xfe53, IM_Disallowed);
  (R 0xfe54 0xfe54, IM_DisallowedStd3Mapped [0x3b]);
  (R 0xfe55 0xfe55, IM_DisallowedStd3Mapped [0x3a]);
  (R 0xfe56 0xfe56, IM_DisallowedStd3Mapped [0x3f]);
  (R 0xfe57 0xfe57, IM_DisallowedStd3Mapped [0x21]);
  (R 0xfe58 0xfe58, IM_Mapped [0x2014]);
  (R 0xfe59 0xfe59, IM_DisallowedStd3Mapped [0x28]);
  (R 0xfe5a 0xfe5a, IM_DisallowedStd3Mapped [0x29]);
  (R 0xfe5b 0xfe5b, IM_DisallowedStd3Mapped [0x7b]);
  (R 0xfe5c 0xfe5c, IM_DisallowedStd3Mapped [0x7d]);
  (R 0xfe5d 0xfe5d, IM_Mapped [0x3014]);
  (R 0xfe5e 0xfe5e, IM_Mapped [0x3015]);
  (R 0xfe5f 0xfe5f, IM_DisallowedStd3Mapped [0x23]);
  (R 0xfe60 0xfe60, IM_DisallowedStd3Mapped [0x26]);
  (R 0xfe61 0xfe61, IM_DisallowedStd3Mapped [0x2a]);
  (R 0xfe62 0xfe62, IM_DisallowedStd3Mapped [0x2b])].

Definition MAPPING_12 : list (CharRange * Mapping) := [
  (R 0xfe63 0xfe63, IM_Mapped [0x2d]);
  (R 0xfe64 0xfe64, IM_DisallowedStd3Mapped [0x3c]);
  (R 0xfe65 0xfe65, IM_DisallowedStd3Mapped [0x3e]);
  (R 0xfe66 0xfe66, IM_DisallowedStd3Mapped [0x3d]);
  (R 0xfe67 0xfe67, IM_Disallowed);
  (R 0xfe68 0xfe68, IM_DisallowedStd3Mapped [0x5c]);
  (R 0xfe69 0xfe69, IM_DisallowedStd3Mapped [0x24]);
  (R 0xfe6a 0xfe6a, IM_DisallowedStd3Mapped [0x25]);
  (R 0xfe6b 0xfe6b, IM_DisallowedStd3Mapped [0x40]);
  (R 0xfe6c 0xfe6f, IM_Disallowed);
  (R 0xfe70 0xfe70, IM_DisallowedStd3Mapped [0x20; 0x64b]);
  (R 0xfe71 0xfe71, IM_Mapped [0x640; 0x64b]);
  (R 0xfe72 0xfe72, IM_DisallowedStd3Mapped [0x20; 0x64c]);
  (R 0xfe73 0xfe73, IM_Valid);
  (R 0xfe74 0xfe74, IM_DisallowedStd3Mapped [0x20; 0x64d]);
  (R 0xfe75 0xfe75, IM_Disallowed);
  (R 0xfe76 0xfe76, IM_DisallowedStd3Mapped [0x20; 0x64e]);
  (R 0xfe77 0xfe77, IM_Mapped [0x640; 0x64e]);
  (R 0xfe78 0xfe78, IM_DisallowedStd3Mapped [0x20; 0x64f]);
  (R 0xfe79 0xfe79, IM_Mapped [0x640; 0x64f]);
  (R 0xfe7a 0xfe7a, IM_DisallowedStd3Mapped [0x20; 0x650]);
  (R 0xfe7b 0xfe7b, IM_Mapped [0x640; 0x650]);
  (R 0xfe7c 0xfe7c, IM_DisallowedStd3Mapped [0x20; 0x651]);
  (R 0xfe7d 0xfe7d, IM_Mapped [0x640; 0x651]);
  (R 0xfe7e 0xfe7e, IM_DisallowedStd3Mapped [0x20; 0x652]);
  (R 0xfe7f 0xfe7f, IM_Mapped [0x640; 0x652]);
  (R 0xfe80 0xfe80, IM_Mapped [0x621]);
  (R 0xfe81 0xfe82, IM_Mapped [0x622]);
  (R 0xfe83 0xfe84, IM_Mapped [0x623]);
  (R 0xfe85 0xfe86, IM_Mapped [0x624]);
  (R 0xfe87 0xfe88, IM_Mapped [0x625]);
  (R 0xfe89 0xfe8c, IM_Mapped [0x626]);
  (R 0xfe8d 0xfe8e, IM_Mapped [0x627]);
  (R 0xfe8f 0xfe92, IM_Mapped [0x628]);
  (R 0xfe93 0xfe94, IM_Mapped [0x629]);
  (R 0xfe95 0xfe98, IM_Mapped [0x62a]);
  (R 0xfe99 0xfe9c, IM_Mapped [0x62b]);
  (R 0xfe9d 0xfea0, IM_Mapped [0x62c]);
  (R 0xfea1 0xfea4, IM_Mapped [0x62d]);
  (R 0xfea5 0xfea8, IM_Mapped [0x62e]);
  (R 0xfea9 0xfeaa, IM_Mapped [0x62f]);
  (R 0xfeab 0xfeac, IM_Mapped [0x630]);
  (R 0xfead 0xfeae, IM_Mapped [0x631]);
  (R 0xfeaf 0xfeb0, IM_Mapped [0x632]);
  (R 0xfeb1 0xfeb4, IM_Mapped [0x633]);
  (R 0xfeb5 0xfeb8, IM_Mapped [0x634]);
  (R 0xfeb9 0xfebc, IM_Mapped [0x635]);
  (R 0xfebd 0xfec0, IM_Mapped [0x636]);
  (R 0xfec1 0xfec4, IM_Mapped [0x637]);
  (R 0xfec5 0xfec8, IM_Mapped [0x638]);
  (R 0xfec9 0xfecc, IM_Mapped [0x639]);
  (R 0xfecd 0xfed0, IM_Mapped [0x63a]);
  (R 0xfed1 0xfed4, IM_Mapped [0x641]);
  (R 0xfed5 0xfed8, IM_Mapped [0x642]);
  (R 0xfed9 0xfedc, IM_Mapped [0x643]);
  (R 0xfedd 0xfee0, IM_Mapped [0x644]);
  (R 0xfee1 0xfee4, IM_Mapped [0x645]);
  (R 0xfee5 0xfee8, IM_Mapped [0x646]);
  (R 0xfee9 0xfeec, IM_Mapped [0x647]);
  (R 0xfeed 0xfeee, IM_Mapped [0x648]);
  (R 0xfeef 0xfef0, IM_Mapped [0x649]);
  (R 0xfef1 0xfef4, IM_Mapped [0x64a]);
  (R 0xfef5 0xfef6, IM_Mapped [0x644; 0x622]);
  (R 0xfef7 0xfef8, IM_Mapped [0x644; 0x623]);
  (R 0xfef9 0xfefa, IM_Mapped [0x644; 0x625]);
  (R 0xfefb 0xfefc, IM_Mapped [0x644; 0x627]);
  (R 0xfefd 0xfefe, IM_Disallowed);
  (R 0xfeff 0xfeff, IM_Ignored);
  (R 0xff00 0xff00, IM_Disallowed);
  (R 0xff01 0xff01, IM_DisallowedStd3Mapped [0x21]);
  (R 0xff02 0xff02, IM_DisallowedStd3Mapped [0x22]);
  (R 0xff03 0xff03, IM_DisallowedStd3Mapped [0x23]);
  (R 0xff04 0xff04, IM_DisallowedStd3Mapped [0x24]);
  (R 0xff05 0xff05, IM_DisallowedStd3Mapped [0x25]);
  (R 0xff06 0xff06, IM_DisallowedStd3Mapped [0x26]);
  (R 0xff07 0xff07, IM_DisallowedStd3Mapped [0x27]);
  (R 0xff08 0xff08, IM_DisallowedStd3Mapped [0x28]);
  (R 0xff09 0xff09, IM_DisallowedStd3Mapped [0x29]);
  (R 0xff0a 0xff0a, IM_DisallowedStd3Mapped [0x2a]);
  (R 0xff0b 0xff0b, IM_DisallowedStd3Mapped [0x2b]);
  (R 0xff0c 0xff0c, IM_DisallowedStd3Mapped [0x2c]);
  (R 0xff0d 0xff0d, IM_Mapped [0x2d]);
  (R 0xff0e 0xff0e, IM_Mapped [0x2e]);
  (R 0xff0f 0xff0f, IM_DisallowedStd3Mapped [0x2f]);
  (R 0xff10 0xff10, IM_Mapped [0x30]);
  (R 0xff11 0xff11, IM_Mapped [0x31]);
  (R 0xff12 0xff12, IM_Mapped [0x32]);
  (R 0xff13 0xff13, IM_Mapped [0x33]);
  (R 0xff14 0xff14, IM_Mapped [0x34]);
  (R 0xff15 0xff15, IM_Mapped [0x35]);
  (R 0xff16 0xff16, IM_Mapped [0x36]);
  (R 0xff17 0xff17, IM_Mapped [0x37]);
  (R 0xff18 0xff18, IM_Mapped [0x38]);
  (R 0xff19 0xff19, IM_Mapped [0x39]);
  (R 0xff1a 0xff1a, IM_DisallowedStd3Mapped [0x3a]);
  (R 0xff1b 0xff1b, IM_DisallowedStd3Mapped [0x3b]);
  (R 0xff1c 0xff1c, IM_DisallowedStd3Mapped [0x3c]);
  (R 0xff1d 0xff1d, IM_DisallowedStd3Mapped [0x3d]);
  (R 0xff1e 0xff1e, IM_DisallowedStd3Mapped [0x3e]);
  (R 0xff1f 0xff1f, IM_DisallowedStd3Mapped [0x3f]);
  (R 0xff20 0xff20, IM_DisallowedStd3Mapped [0x40]);
  (R 0xff21 0xff21, IM_Mapped [0x61]);
  (R 0xff22 0xff22, IM_Mapped [0x62]);
  (R 0xff23 0xff23, IM_Mapped [0x63]);
  (R 0xff24 0xff24, IM_Mapped [0x64]);
  (R 0xff25 0xff25, IM_Mapped [0x65]);
  (R 0xff26 0xff26, IM_Mapped [0x66]);
  (R 0xff27 0xff27, IM_Mapped [0x67]);
  (R 0xff28 0xff28, IM_Mapped [0x68]);
  (R 0xff29 0xff29, IM_Mapped [0x69]);
  (R 0xff2a 0xff2a, IM_Mapped [0x6a]);
  (R 0xff2b 0xff2b, IM_Mapped [0x6b]);
  (R 0xff2c 0xff2c, IM_Mapped [0x6c]);
  (R 0xff2d 0xff2d, IM_Mapped [0x6d]);
  (R 0xff2e 0xff2e, IM_Mapped [0x6e]);
  (R 0xff2f 0xff2f, IM_Mapped [0x6f]);
  (R 0xff30 0xff30, IM_Mapped [0x70]);
  (R 0xff31 0xff31, IM_Mapped [0x71]);
  (R 0xff32 0xff32, IM_Mapped [0x72]);
  (R 0xff33 0xff33, IM_Mapped [0x73]);
  (R 0xff34 0xff34, IM_Mapped [0x74]);
  (R 0xff35 0xff35, IM_Mapped [0x75]);
  (R 0xff36 0xff36, IM_Mapped [0x76]);
  (R 0xff37 0xff37, IM_Mapped [0x77]);
  (R 0xff38 0xff38, IM_Mapped [0x78]);
  (R 0xff39 0xff39, IM_Mapped [0x79]);
  (R 0xff3a 0xff3a, IM_Mapped [0x7a]);
  (R 0xff3b 0xff3b, IM_DisallowedStd3Mapped [0x5b]);
  (R 0xff3c 0xff3c, IM_DisallowedStd3Mapped [0x5c]);
  (R 0xff3d 0xff3d, IM_DisallowedStd3Mapped [0x5d]);
  (R 0xff3e 0xff3e, IM_DisallowedStd3Mapped [0x5e]);
  (R 0xff3f 0xff3f, IM_DisallowedStd3Mapped [0x5f]);
  (R 0xff40 0xff40, IM_DisallowedStd3Mapped [0x60]);
  (R 0xff41 0xff41, IM_Mapped [0x61]);
  (R 0xff42 0xff42, IM_Mapped [0x62]);
  (R 0xff43 0xff43, IM_Mapped [0x63]);
  (R 0xff44 0xff44, IM_Mapped [0x64]);
  (R 0xff45 0xff45, IM_Mapped [0x65]);
  (R 0xff46 0xff46, IM_Mapped [0x66]);
  (R 0xff47 0xff47, IM_Mapped [0x67]);
  (R 0xff48 0xff48, IM_Mapped [0x68]);
  (R 0xff49 0xff49, IM_Mapped [0x69]);
  (R 0xff4a 0xff4a, IM_Mapped [0x6a]);
  (R 0xff4b 0xff4b, IM_Mapped [0x6b]);
  (R 0xff4c 0xff4c, IM_Mapped [0x6c]);
  (R 0xff4d 0xff4d, IM_Mapped [0x6d]);
  (R 0xff4e 0xff4e, IM_Mapped [0x6e]);
  (R 0xff4f 0xff4f, IM_Mapped [0x6f]);
  (R 0xff50 0xff50, IM_Mapped [0x70]);
  (R 0xff51 0xff51, IM_Mapped [0x71]);
  (R 0xff52 0xff52, IM_Mapped [0x72]);
  (R 0xff53 0xff53, IM_Mapped [0x73]);
  (R 0xff54 0xff54, IM_Mapped [0x74]);
  (R 0xff55 0xff55, IM_Mapped [0x75]);
  (R 0xff56 0xff56, IM_Mapped [0x76]);
  (R 0xff57 0xff57, IM_Mapped [0x77]);
  (R 0xff58 0xff58, IM_Mapped [0x78]);
  (R 0xff59 0xff59, IM_Mapped [0x79]);
  (R 0xff5a 0xff5a, IM_Mapped [0x7a]);
  (R 0xff5b 0xff5b, IM_DisallowedStd3Mapped [0x7b]);
  (R 0xff5c 0xff5c, IM_DisallowedStd3Mapped [0x7c]);
  (R 0xff5d 0xff5d, IM_DisallowedStd3Mapped [0x7d]);
  (R 0xff5e 0xff5e, IM_DisallowedStd3Mapped [0x7e]);
  (R 0xff5f 0xff5f, IM_Mapped [0x2985]);
  (R 0xff60 0xff60, IM_Mapped [0x2986]);
  (R 0xff61 0xff61, IM_Mapped [0x2e]);
  (R 0xff62 0xff62, IM_Mapped [0x300c]);
  (R 0xff63 0xff63, IM_Mapped [0x300d]);
  (R 0xff64 0xff64, IM_Mapped [0x3001]);
  (R 0xff65 0xff65, IM_Mapped [0x30fb]);
  (R 0xff66 0xff66, IM_Mapped [0x30f2]);
  (R 0xff67 0xff67, IM_Mapped [0x30a1]);
  (R 0xff68 0xff68, IM_Mapped [0x30a3]);
  (R 0xff69 0xff69, IM_Mapped [0x30a5]);
  (R 0xff6a 0xff6a, IM_Mapped [0x30a7]);
  (R 0xff6b 0xff6b, IM_Mapped [0x30a9]);
  (R 0xff6c 0xff6c, IM_Mapped [0x30e3]);
  (R 0xff6d 0xff6d, IM_Mapped [0x30e5]);
  (R 0xff6e 0xff6e, IM_Mapped [0x30e7]);
  (R 0xff6f 0xff6f, IM_Mapped [0x30c3]);
  (R 0xff70 0xff70, IM_Mapped [0x30fc]);
  (R 0xff71 0xff71, IM_Mapped [0x30a2]);
  (R 0xff72 0xff72, IM_Mapped [0x30a4]);
  (R 0xff73 0xff73, IM_Mapped [0x30a6]);
  (R 0xff74 0xff74, IM_Mapped [0x30a8]);
  (R 0xff75 0xff75, IM_Mapped [0x30aa]);
  (R 0xff76 0xff76, IM_Mapped [0x30ab]);
  (R 0xff77 0xff77, IM_Mapped [0x30ad]);
  (R 0xff78 0xff78, IM_Mapped [0x30af]);
  (R 0xff79 0xff79, IM_Mapped [0x30b1]);
  (R 0xff7a 0xff7a, IM_Mapped [0x30b3]);
  (R 0xff7b 0xff7b, IM_Mapped [0x30b5]);
  (R 0xff7c 0xff7c, IM_Mapped [0x30b7]);
  (R 0xff7d 0xff7d, IM_Mapped [0x30b9]);
  (R 0xff7e 0xff7e, IM_Mapped [0x30bb]);
  (R 0xff7f 0xff7f, IM_Mapped [0x30bd]);
  (R 0xff80 0xff80, IM_Mapped [0x30bf]);
  (R 0xff81 0xff81, IM_Mapped [0x30c1]);
  (R 0xff82 0xff82, IM_Mapped [0x30c4]);
  (R 0xff83 0xff83, IM_Mapped [0x30c6]);
  (R 0xff84 0xff84, IM_Mapped [0x30c8]);
  (R 0xff85 0xff85, IM_Mapped [0x30ca]);
  (R 0xff86 0xff86, IM_Mapped [0x30cb]);
  (R 0xff87 0xff87, IM_Mapped [0x30cc]);
  (R 0xff88 0xff88, IM_Mapped [0x30cd]);
  (R 0xff89 0xff89, IM_Mapped [0x30ce]);
  (R 0xff8a 0xff8a, IM_Mapped [0x30cf]);
  (R 0xff8b 0xff8b, IM_Mapped [0x30d2]);
  (R 0xff8c 0xff8c, IM_Mapped [0x30d5]);
  (R 0xff8d 0xff8d, IM_Mapped [0x30d8]);
  (R 0xff8e 0xff8e, IM_Mapped [0x30db]);
  (R 0xff8f 0xff8f, IM_Mapped [0x30de]);
  (R 0xff90 0xff90, IM_Mapped [0x30df]);
  (R 0xff91 0xff91, IM_Mapped [0x30e0]);
  (R 0xff92 0xff92, IM_Mapped [0x30e1]);
  (R 0xff93 0xff93, IM_Mapped [0x30e2]);
  (R 0xff94 0xff94, IM_Mapped [0x30e4]);
  (R 0xff95 0xff95, IM_Mapped [0x30e6]);
  (R 0xff96 0xff96, IM_Mapped [0x30e8]);
  (R 0xff97 0xff97, IM_Mapped [0x30e9]);
  (R 0xff98 0xff98, IM_Mapped [0x30ea]);
  (R 0xff99 0xff99, IM_Mapped [0x30eb]);
  (R 0xff9a 0xff9a, IM_Mapped [0x30ec]);
  (R 0xff9b 0xff9b, IM_Mapped [0x30ed]);
  (R 0xff9c 0xff9c, IM_Mapped [0x30ef]);
  (R 0xff9d 0xff9d, IM_Mapped [0x30f3]);
  (R 0xff9e 0xff9e, IM_Mapped [0x3099]);
  (R 0xff9f 0xff9f, IM_Mapped [0x309a]);
  (R 0xffa0 0xffa0, IM_Disallowed);
  (R 0xffa1 0xffa1, IM_Mapped [0x1100]);
  (R 0xffa2 0xffa2, IM_Mapped [0x1101]);
  (R 0xffa3 0xffa3, IM_Mapped [0x11aa]);
  (R 0xffa4 0xffa4, IM_Mapped [0x1102]);
  (R 0xffa5 0xffa5, IM_Mapped [0x11ac]);
  (R 0xffa6 0xffa6, IM_Mapped [0x11ad]);
  (R 0xffa7 0xffa7, IM_Mapped [0x1103]);
  (R 0xffa8 0xffa8, IM_Mapped [0x1104]);
  (R 0xffa9 0xffa9, IM_Mapped [0x1105]);
  (R 0xffaa 0xffaa, IM_Mapped [0x11b0]);
  (R 0xffab 0xffab, IM_Mapped [0x11b1]);
  (R 0xffac 0xffac, IM_Mapped [0x11b2]);
  (R 0xffad 0xffad, IM_Mapped [0x11b3]);
  (R 0xffae 0xffae, IM_Mapped [0x11b4]);
  (R 0xffaf 0xffaf, IM_Mapped [0x11b5]);
  (R 0xffb0 0xffb0, IM_Mapped [0x111a]);
  (R 0xffb1 0xffb1, IM_Mapped [0x1106]);
  (R 0xffb2 0xffb2, IM_Mapped [0x1107]);
  (R 0xffb3 0xffb3, IM_Mapped [0x1108]);
  (R 0xffb4 0xffb4, IM_Mapped [0x1121]);
  (R 0xffb5 0xffb5, IM_Mapped [0x1109]);
  (R 0xffb6 0xffb6, IM_Mapped [0x110a]);
  (R 0xffb7 0xffb7, IM_Mapped [0x110b]);
  (R 0xffb8 0xffb8, IM_Mapped [0x110c]);
  (R 0xffb9 0xffb9, IM_Mapped [0x110d]);
  (R 0xffba 0xffba, IM_Mapped [0x110e]);
  (R 0xffbb 0xffbb, IM_Mapped [0x110f]);
  (R 0xffbc 0xffbc, IM_Mapped [0x1110]);
  (R 0xffbd 0xffbd, IM_Mapped [0x1111]);
  (R 0xffbe 0xffbe, IM_Mapped [0x1112]);
  (R 0xffbf 0xffc1, IM_Disallowed);
  (R 0xffc2 0xffc2, IM_Mapped [0x1161]);
  (R 0xffc3 0xffc3, IM_Mapped [0x1162]);
  (R 0xffc4 0xffc4, IM_Mapped [0x1163]);
  (R 0xffc5 0xffc5, IM_Mapped [0x1164]);
  (R 0xffc6 0xffc6, IM_Mapped [0x1165]);
  (R 0xffc7 0xffc7, IM_Mapped [0x1166]);
  (R 0xffc8 0xffc9, IM_Disallowed);
  (R 0xffca 0xffca, IM_Mapped [0x1167]);
  (R 0xffcb 0xffcb, IM_Mapped [0x1168]);
  (R 0xffcc 0xffcc, IM_Mapped [0x1169]);
  (R 0xffcd 0xffcd, IM_Mapped [0x116a]);
  (R 0xffce 0xffce, IM_Mapped [0x116b]);
  (R 0xffcf 0xffcf, IM_Mapped [0x116c]);
  (R 0xffd0 0xffd1, IM_Disallowed);
  (R 0xffd2 0xffd2, IM_Mapped [0x116d]);
  (R 0xffd3 0xffd3, IM_Mapped [0x116e]);
  (R 0xffd4 0xffd4, IM_Mapped [0x116f]);
  (R 0xffd5 0xffd5, IM_Mapped [0x1170]);
  (R 0xffd6 0xffd6, IM_Mapped [0x1171]);
  (R 0xffd7 0xffd7, IM_Mapped [0x1172]);
  (R 0xffd8 0xffd9, IM_Disallowed);
  (R 0xffda 0xffda, IM_Mapped [0x1173]);
  (R 0xffdb 0xffdb, IM_Mapped [0x1174]);
  (R 0xffdc 0xffdc, IM_Mapped [0x1175]);
  (R 0xffdd 0xffdf, IM_Disallowed);
  (R 0xffe0 0xffe0, IM_Mapped [0xa2]);
  (R 0xffe1 0xffe1, IM_Mapped [0xa3]);
  (R 0xffe2 0xffe2, IM_Mapped [0xac]);
  (R 0xffe3 0xffe3, IM_DisallowedStd3Mapped [0x20; 0x304]);
  (R 0xffe4 0xffe4, IM_Mapped [0xa6]);
  (R 0xffe5 0xffe5, IM_Mapped [0xa5]);
  (R 0xffe6 0xffe6, IM_Mapped [0x20a9]);
  (R 0xffe7 0xffe7, IM_Disallowed);
  (R 0xffe8 0xffe8, IM_Mapped [0x2502]);
  (R 0xffe9 0xffe9, IM_Mapped [0x2190]);
  (R 0xffea 0xffea, IM_Mapped [0x2191]);
  (R 0xffeb 0xffeb, IM_Mapped [0x2192]);
  (R 0xffec 0xffec, IM_Mapped [0x2193]);
  (R 0xffed 0xffed, IM_Mapped [0x25a0]);
  (R 0xffee 0xffee, IM_Mapped [0x25cb]);
  (R 0xffef 0xffff, IM_Disallowed);
  (R 0x10000 0x1000b, IM_Valid);
  (R 0x1000c 0x1000c, IM_Disallowed);
  (R 0x1000d 0x10026, IM_Valid);
  (R 0x10027 0x10027, IM_Disallowed);
  (R 0x10028 0x1003a, IM_Valid);
  (R 0x1003b 0x1003b, IM_Disallowed);
  (R 0x1003c 0x1003d, IM_Valid);
  (R 0x1003e 0x1003e, IM_Disallowed);
  (R 0x1003f 0x1004d, IM_Valid);
  (R 0x1004e 0x1004f, IM_Disallowed);
  (R 0x10050 0x1005d, IM_Valid);
  (R 0x1005e 0x1007f, IM_Disallowed);
  (R 0x10080 0x100fa, IM_Valid);
  (R 0x100fb 0x100ff, IM_Disallowed);
  (R 0x10100 0x10102, IM_Valid);
  (R 0x10103 0x10106, IM_Disallowed);
  (R 0x10107 0x10133, IM_Valid);
  (R 0x10134 0x10136, IM_Disallowed);
  (R 0x10137 0x1018e, IM_Valid);
  (R 0x1018f 0x1018f, IM_Disallowed);
  (R 0x10190 0x1019b, IM_Valid);
  (R 0x1019c 0x1019f, IM_Disallowed);
  (R 0x101a0 0x101a0, IM_Valid);
  (R 0x101a1 0x101cf, IM_Disallowed);
  (R 0x101d0 0x101fd, IM_Valid);
  (R 0x101fe 0x1027f, IM_Disallowed);
  (R 0x10280 0x1029c, IM_Valid);
  (R 0x1029d 0x1029f, IM_Disallowed);
  (R 0x102a0 0x102d0, IM_Valid);
  (R 0x102d1 0x102df, IM_Disallowed);
  (R 0x102e0 0x102fb, IM_Valid);
  (R 0x102fc 0x102ff, IM_Disallowed);
  (R 0x10300 0x10323, IM_Valid);
  (R 0x10324 0x1032c, IM_Disallowed);
  (R 0x1032d 0x1034a, IM_Valid);
  (R 0x1034b 0x1034f, IM_Disallowed);
  (R 0x10350 0x1037a, IM_Valid);
  (R 0x1037b 0x1037f, IM_Disallowed);
  (R 0x10380 0x1039d, IM_Valid);
  (R 0x1039e 0x1039e, IM_Disallowed);
  (R 0x1039f 0x103c3, IM_Valid);
  (R 0x103c4 0x103c7, IM_Disallowed);
  (R 0x103c8 0x103d5, IM_Valid);
  (R 0x103d6 0x103ff, IM_Disallowed);
  (R 0x10400 0x10400, IM_Mapped [0x10428]);
  (R 0x10401 0x10401, IM_Mapped [0x10429]);
  (R 0x10402 0x10402, IM_Mapped [0x1042a]);
  (R 0x10403 0x10403, IM_Mapped [0x1042b]);
  (R 0x10404 0x10404, IM_Mapped [0x1042c]);
  (R 0x10405 0x10405, IM_Mapped [0x1042d]);
  (R 0x10406 0x10406, IM_Mapped [0x1042e]);
  (R 0x10407 0x10407, IM_Mapped [0x1042f]);
  (R 0x10408 0x10408, IM_Mapped [0x10430]);
  (R 0x10409 0x10409, IM_Mapped [0x10431]);
  (R 0x1040a 0x1040a, IM_Mapped [0x10432]);
  (R 0x1040b 0x1040b, IM_Mapped [0x10433]);
  (R 0x1040c 0x1040c, IM_Mapped [0x10434]);
  (R 0x1040d 0x1040d, IM_Mapped [0x10435]);
  (R 0x1040e 0x1040e, IM_Mapped [0x10436]);
  (R 0x1040f 0x1040f, IM_Mapped [0x10437]);
  (R 0x10410 0x10410, IM_Mapped [0x10438]);
  (R 0x10411 0x10411, IM_Mapped [0x10439]);
  (R 0x10412 0x10412, IM_Mapped [0x1043a]);
  (R 0x10413 0x10413, IM_Mapped [0x1043b]);
  (R 0x10414 0x10414, IM_Mapped [0x1043c]);
  (R 0x10415 0x10415, IM_Mapped [0x1043d]);
  (R 0x10416 0x10416, IM_Mapped [0x1043e]);
  (R 0x10417 0x10417, IM_Mapped [0x1043f]);
  (R 0x10418 0x10418, IM_Mapped [0x10440]);
  (R 0x10419 0x10419, IM_Mapped [0x10441]);
  (R 0x1041a 0x1041a, IM_Mapped [0x10442]);
  (R 0x1041b 0x1041b, IM_Mapped [0x10443]);
  (R 0x1041c 0x1041c, IM_Mapped [0x10444]);
  (R 0x1041d 0x1041d, IM_Mapped [0x10445]);
  (R 0x1041e 0x1041e, IM_Mapped [0x10446]);
  (R 0x1041f 0x1041f, IM_Mapped [0x10447]);
  (R 0x10420 0x10420, IM_Mapped [0x10448]);
  (R 0x10421 0x10421, IM_Mapped [0x10449]);
  (R 0x10422 0x10422, IM_Mapped [0x1044a]);
  (R 0x10423 0x10423, IM_Mapped [0x1044b]);
  (R 0x10424 0x10424, IM_Mapped [0x1044c]);
  (R 0x10425 0x10425, IM_Mapped [0x1044d]);
  (R 0x10426 0x10426, IM_Mapped [0x1044e]);
  (R 0x10427 0x10427, IM_Mapped [0x1044f]);
  (R 0x10428 0x1049d, IM_Valid);
  (R 0x1049e 0x1049f, IM_Disallowed);
  (R 0x104a0 0x104a9, IM_Valid);
  (R 0x104aa 0x104af, IM_Disallowed);
  (R 0x104b0 0x104b0, IM_Mapped [0x104d8]);
  (R 0x104b1 0x104b1, IM_Mapped [0x104d9]);
  (R 0x104b2 0x104b2, IM_Mapped [0x104da]);
  (R 0x104b3 0x104b3, IM_Mapped [0x104db]);
  (R 0x104b4 0x104b4, IM_Mapped [0x104dc]);
  (R 0x104b5 0x104b5, IM_Mapped [0x104dd]);
  (R 0x104b6 0x104b6, IM_Mapped [0x104de]);
  (R 0x104b7 0x104b7, IM_Mapped [0x104df]);
  (R 0x104b8 0x104b8, IM_Mapped [0x104e0]);
  (R 0x104b9 0x104b9, IM_Mapped [0x104e1]);
  (R 0x104ba 0x104ba, IM_Mapped [0x104e2])].

Definition MAPPING_13 : list (CharRange * Mapping) := [
  (R 0x104bb 0x104bb, IM_Mapped [0x104e3]);
  (R 0x104bc 0x104bc, IM_Mapped [0x104e4]);
  (R 0x104bd 0x104bd, IM_Mapped [0x104e5]);
  (R 0x104be 0x104be, IM_Mapped [0x104e6]);
  (R 0x104bf 0x104bf, IM_Mapped [0x104e7]);
  (R 0x104c0 0x104c0, IM_Mapped [0x104e8]);
  (R 0x104c1 0x104c1, IM_Mapped [0x104e9]);
  (R 0x104c2 0x104c2, IM_Mapped [0x104ea]);
  (R 0x104c3 0x104c3, IM_Mapped [0x104eb]);
  (R 0x104c4 0x104c4, IM_Mapped [0x104ec]);
  (R 0x104c5 0x104c5, IM_Mapped [0x104ed]);
  (R 0x104c6 0x104c6, IM_Mapped [0x104ee]);
  (R 0x104c7 0x104c7, IM_Mapped [0x104ef]);
  (R 0x104c8 0x104c8, IM_Mapped [0x104f0]);
  (R 0x104c9 0x104c9, IM_Mapped [0x104f1]);
  (R 0x104ca 0x104ca, IM_Mapped [0x104f2]);
  (R 0x104cb 0x104cb, IM_Mapped [0x104f3]);
  (R 0x104cc 0x104cc, IM_Mapped [0x104f4]);
  (R 0x104cd 0x104cd, IM_Mapped [0x104f5]);
  (R 0x104ce 0x104ce, IM_Mapped [0x104f6]);
  (R 0x104cf 0x104cf, IM_Mapped [0x104f7]);
  (R 0x104d0 0x104d0, IM_Mapped [0x104f8]);
  (R 0x104d1 0x104d1, IM_Mapped [0x104f9]);
  (R 0x104d2 0x104d2, IM_Mapped [0x104fa]);
  (R 0x104d3 0x104d3, IM_Mapped [0x104fb]);
  (R 0x104d4 0x104d7, IM_Disallowed);
  (R 0x104d8 0x104fb, IM_Valid);
  (R 0x104fc 0x104ff, IM_Disallowed);
  (R 0x10500 0x10527, IM_Valid);
  (R 0x10528 0x1052f, IM_Disallowed);
  (R 0x10530 0x10563, IM_Valid);
  (R 0x10564 0x1056e, IM_Disallowed);
  (R 0x1056f 0x1056f, IM_Valid);
  (R 0x10570 0x105ff, IM_Disallowed);
  (R 0x10600 0x10736, IM_Valid);
  (R 0x10737 0x1073f, IM_Disallowed);
  (R 0x10740 0x10755, IM_Valid);
  (R 0x10756 0x1075f, IM_Disallowed);
  (R 0x10760 0x10767, IM_Valid);
  (R 0x10768 0x107ff, IM_Disallowed);
  (R 0x10800 0x10805, IM_Valid);
  (R 0x10806 0x10807, IM_Disallowed);
  (R 0x10808 0x10808, IM_Valid);
  (R 0x10809 0x10809, IM_Disallowed);
  (R 0x1080a 0x10835, IM_Valid);
  (R 0x10836 0x10836, IM_Disallowed);
  (R 0x10837 0x10838, IM_Valid);
  (R 0x10839 0x1083b, IM_Disallowed);
  (R 0x1083c 0x1083c, IM_Valid);
  (R 0x1083d 0x1083e, IM_Disallowed);
  (R 0x1083f 0x10855, IM_Valid);
  (R 0x10856 0x10856, IM_Disallowed);
  (R 0x10857 0x1089e, IM_Valid);
  (R 0x1089f 0x108a6, IM_Disallowed);
  (R 0x108a7 0x108af, IM_Valid);
  (R 0x108b0 0x108df, IM_Disallowed);
  (R 0x108e0 0x108f2, IM_Valid);
  (R 0x108f3 0x108f3, IM_Disallowed);
  (R 0x108f4 0x108f5, IM_Valid);
  (R 0x108f6 0x108fa, IM_Disallowed);
  (R 0x108fb 0x1091b, IM_Valid);
  (R 0x1091c 0x1091e, IM_Disallowed);
  (R 0x1091f 0x10939, IM_Valid);
  (R 0x1093a 0x1093e, IM_Disallowed);
  (R 0x1093f 0x1093f, IM_Valid);
  (R 0x10940 0x1097f, IM_Disallowed);
  (R 0x10980 0x109b7, IM_Valid);
  (R 0x109b8 0x109bb, IM_Disallowed);
  (R 0x109bc 0x109cf, IM_Valid);
  (R 0x109d0 0x109d1, IM_Disallowed);
  (R 0x109d2 0x10a03, IM_Valid);
  (R 0x10a04 0x10a04, IM_Disallowed);
  (R 0x10a05 0x10a06, IM_Valid);
  (R 0x10a07 0x10a0b, IM_Disallowed);
  (R 0x10a0c 0x10a13, IM_Valid);
  (R 0x10a14 0x10a14, IM_Disallowed);
  (R 0x10a15 0x10a17, IM_Valid);
  (R 0x10a18 0x10a18, IM_Disallowed);
  (R 0x10a19 0x10a33, IM_Valid);
  (R 0x10a34 0x10a37, IM_Disallowed);
  (R 0x10a38 0x10a3a, IM_Valid);
  (R 0x10a3b 0x10a3e, IM_Disallowed);
  (R 0x10a3f 0x10a47, IM_Valid);
  (R 0x10a48 0x10a4f, IM_Disallowed);
  (R 0x10a50 0x10a58, IM_Valid);
  (R 0x10a59 0x10a5f, IM_Disallowed);
  (R 0x10a60 0x10a9f, IM_Valid);
  (R 0x10aa0 0x10abf, IM_Disallowed);
  (R 0x10ac0 0x10ae6, IM_Valid);
  (R 0x10ae7 0x10aea, IM_Disallowed);
  (R 0x10aeb 0x10af6, IM_Valid);
  (R 0x10af7 0x10aff, IM_Disallowed);
  (R 0x10b00 0x10b35, IM_Valid);
  (R 0x10b36 0x10b38, IM_Disallowed);
  (R 0x10b39 0x10b55, IM_Valid);
  (R 0x10b56 0x10b57, IM_Disallowed);
  (R 0x10b58 0x10b72, IM_Valid);
  (R 0x10b73 0x10b77, IM_Disallowed);
  (R 0x10b78 0x10b91, IM_Valid);
  (R 0x10b92 0x10b98, IM_Disallowed);
  (R 0x10b99 0x10b9c, IM_Valid);
  (R 0x10b9d 0x10ba8, IM_Disallowed);
  (R 0x10ba9 0x10baf, IM_Valid);
  (R 0x10bb0 0x10bff, IM_Disallowed);
  (R 0x10c00 0x10c48, IM_Valid);
  (R 0x10c49 0x10c7f, IM_Disallowed);
  (R 0x10c80 0x10c80, IM_Mapped [0x10cc0]);
  (R 0x10c81 0x10c81, IM_Mapped [0x10cc1]);
  (R 0x10c82 0x10c82, IM_Mapped [0x10cc2]);
  (R 0x10c83 0x10c83, IM_Mapped [0x10cc3]);
  (R 0x10c84 0x10c84, IM_Mapped [0x10cc4]);
  (R 0x10c85 0x10c85, IM_Mapped [0x10cc5]);
  (R 0x10c86 0x10c86, IM_Mapped [0x10cc6]);
  (R 0x10c87 0x10c87, IM_Mapped [0x10cc7]);
  (R 0x10c88 0x10c88, IM_Mapped [0x10cc8]);
  (R 0x10c89 0x10c89, IM_Mapped [0x10cc9]);
  (R 0x10c8a 0x10c8a, IM_Mapped [0x10cca]);
  (R 0x10c8b 0x10c8b, IM_Mapped [0x10ccb]);
  (R 0x10c8c 0x10c8c, IM_Mapped [0x10ccc]);
  (R 0x10c8d 0x10c8d, IM_Mapped [0x10ccd]);
  (R 0x10c8e 0x10c8e, IM_Mapped [0x10cce]);
  (R 0x10c8f 0x10c8f, IM_Mapped [0x10ccf]);
  (R 0x10c90 0x10c90, IM_Mapped [0x10cd0]);
  (R 0x10c91 0x10c91, IM_Mapped [0x10cd1]);
  (R 0x10c92 0x10c92, IM_Mapped [0x10cd2]);
  (R 0x10c93 0x10c93, IM_Mapped [0x10cd3]);
  (R 0x10c94 0x10c94, IM_Mapped [0x10cd4]);
  (R 0x10c95 0x10c95, IM_Mapped [0x10cd5]);
  (R 0x10c96 0x10c96, IM_Mapped [0x10cd6]);
  (R 0x10c97 0x10c97, IM_Mapped [0x10cd7]);
  (R 0x10c98 0x10c98, IM_Mapped [0x10cd8]);
  (R 0x10c99 0x10c99, IM_Mapped [0x10cd9]);
  (R 0x10c9a 0x10c9a, IM_Mapped [0x10cda]);
  (R 0x10c9b 0x10c9b, IM_Mapped [0x10cdb]);
  (R 0x10c9c 0x10c9c, IM_Mapped [0x10cdc]);
  (R 0x10c9d 0x10c9d, IM_Mapped [0x10cdd]);
  (R 0x10c9e 0x10c9e, IM_Mapped [0x10cde]);
  (R 0x10c9f 0x10c9f, IM_Mapped [0x10cdf]);
  (R 0x10ca0 0x10ca0, IM_Mapped [0x10ce0]);
  (R 0x10ca1 0x10ca1, IM_Mapped [0x10ce1]);
  (R 0x10ca2 0x10ca2, IM_Mapped [0x10ce2]);
  (R 0x10ca3 0x10ca3, IM_Mapped [0x10ce3]);
  (R 0x10ca4 0x10ca4, IM_Mapped [0x10ce4]);
  (R 0x10ca5 0x10ca5, IM_Mapped [0x10ce5]);
  (R 0x10ca6 0x10ca6, IM_Mapped [0x10ce6]);
  (R 0x10ca7 0x10ca7, IM_Mapped [0x10ce7]);
  (R 0x10ca8 0x10ca8, IM_Mapped [0x10ce8]);
  (R 0x10ca9 0x10ca9, IM_Mapped [0x10ce9]);
  (R 0x10caa 0x10caa, IM_Mapped [0x10cea]);
  (R 0x10cab 0x10cab, IM_Mapped [0x10ceb]);
  (R 0x10cac 0x10cac, IM_Mapped [0x10cec]);
  (R 0x10cad 0x10cad, IM_Mapped [0x10ced]);
  (R 0x10cae 0x10cae, IM_Mapped [0x10cee]);
  (R 0x10caf 0x10caf, IM_Mapped [0x10cef]);
  (R 0x10cb0 0x10cb0, IM_Mapped [0x10cf0]);
  (R 0x10cb1 0x10cb1, IM_Mapped [0x10cf1]);
  (R 0x10cb2 0x10cb2, IM_Mapped [0x10cf2]);
  (R 0x10cb3 0x10cbf, IM_Disallowed);
  (R 0x10cc0 0x10cf2, IM_Valid);
  (R 0x10cf3 0x10cf9, IM_Disallowed);
  (R 0x10cfa 0x10cff, IM_Valid);
  (R 0x10d00 0x10e5f, IM_Disallowed);
  (R 0x10e60 0x10e7e, IM_Valid);
  (R 0x10e7f 0x10fff, IM_Disallowed);
  (R 0x11000 0x1104d, IM_Valid);
  (R 0x1104e 0x11051, IM_Disallowed);
  (R 0x11052 0x1106f, IM_Valid);
  (R 0x11070 0x1107e, IM_Disallowed);
  (R 0x1107f 0x110bc, IM_Valid);
  (R 0x110bd 0x110bd, IM_Disallowed);
  (R 0x110be 0x110c1, IM_Valid);
  (R 0x110c2 0x110cf, IM_Disallowed);
  (R 0x110d0 0x110e8, IM_Valid);
  (R 0x110e9 0x110ef, IM_Disallowed);
  (R 0x110f0 0x110f9, IM_Valid);
  (R 0x110fa 0x110ff, IM_Disallowed);
  (R 0x11100 0x11134, IM_Valid);
  (R 0x11135 0x11135, IM_Disallowed);
  (R 0x11136 0x11143, IM_Valid);
  (R 0x11144 0x1114f, IM_Disallowed);
  (R 0x11150 0x11176, IM_Valid);
  (R 0x11177 0x1117f, IM_Disallowed);
  (R 0x11180 0x111cd, IM_Valid);
  (R 0x111ce 0x111cf, IM_Disallowed);
  (R 0x111d0 0x111df, IM_Valid);
  (R 0x111e0 0x111e0, IM_Disallowed);
  (R 0x111e1 0x111f4, IM_Valid);
  (R 0x111f5 0x111ff, IM_Disallowed);
  (R 0x11200 0x11211, IM_Valid);
  (R 0x11212 0x11212, IM_Disallowed);
  (R 0x11213 0x1123e, IM_Valid);
  (R 0x1123f 0x1127f, IM_Disallowed);
  (R 0x11280 0x11286, IM_Valid);
  (R 0x11287 0x11287, IM_Disallowed);
  (R 0x11288 0x11288, IM_Valid);
  (R 0x11289 0x11289, IM_Disallowed);
  (R 0x1128a 0x1128d, IM_Valid);
  (R 0x1128e 0x1128e, IM_Disallowed);
  (R 0x1128f 0x1129d, IM_Valid);
  (R 0x1129e 0x1129e, IM_Disallowed);
  (R 0x1129f 0x112a9, IM_Valid);
  (R 0x112aa 0x112af, IM_Disallowed);
  (R 0x112b0 0x112ea, IM_Valid);
  (R 0x112eb 0x112ef, IM_Disallowed);
  (R 0x112f0 0x112f9, IM_Valid);
  (R 0x112fa 0x112ff, IM_Disallowed);
  (R 0x11300 0x11303, IM_Valid);
  (R 0x11304 0x11304, IM_Disallowed);
  (R 0x11305 0x1130c, IM_Valid);
  (R 0x1130d 0x1130e, IM_Disallowed);
  (R 0x1130f 0x11310, IM_Valid);
  (R 0x11311 0x11312, IM_Disallowed);
  (R 0x11313 0x11328, IM_Valid);
  (R 0x11329 0x11329, IM_Disallowed);
  (R 0x1132a 0x11330, IM_Valid);
  (R 0x11331 0x11331, IM_Disallowed);
  (R 0x11332 0x11333, IM_Valid);
  (R 0x11334 0x11334, IM_Disallowed);
  (R 0x11335 0x11339, IM_Valid);
  (R 0x1133a 0x1133b, IM_Disallowed);
  (R 0x1133c 0x11344, IM_Valid);
  (R 0x11345 0x11346, IM_Disallowed);
  (R 0x11347 0x11348, IM_Valid);
  (R 0x11349 0x1134a, IM_Disallowed);
  (R 0x1134b 0x1134d, IM_Valid);
  (R 0x1134e 0x1134f, IM_Disallowed);
  (R 0x11350 0x11350, IM_Valid);
  (R 0x11351 0x11356, IM_Disallowed);
  (R 0x11357 0x11357, IM_Valid);
  (R 0x11358 0x1135c, IM_Disallowed);
  (R 0x1135d 0x11363, IM_Valid);
  (R 0x11364 0x11365, IM_Disallowed);
  (R 0x11366 0x1136c, IM_Valid);
  (R 0x1136d 0x1136f, IM_Disallowed);
  (R 0x11370 0x11374, IM_Valid);
  (R 0x11375 0x113ff, IM_Disallowed);
  (R 0x11400 0x11459, IM_Valid);
  (R 0x1145a 0x1145a, IM_Disallowed);
  (R 0x1145b 0x1145b, IM_Valid);
  (R 0x1145c 0x1145c, IM_Disallowed);
  (R 0x1145d 0x1145d, IM_Valid);
  (R 0x1145e 0x1147f, IM_Disallowed);
  (R 0x11480 0x114c7, IM_Valid);
  (R 0x114c8 0x114cf, IM_Disallowed);
  (R 0x114d0 0x114d9, IM_Valid);
  (R 0x114da 0x1157f, IM_Disallowed);
  (R 0x11580 0x115b5, IM_Valid);
  (R 0x115b6 0x115b7, IM_Disallowed);
  (R 0x115b8 0x115dd, IM_Valid);
  (R 0x115de 0x115ff, IM_Disallowed);
  (R 0x11600 0x11644, IM_Valid);
  (R 0x11645 0x1164f, IM_Disallowed);
  (R 0x11650 0x11659, IM_Valid);
  (R 0x1165a 0x1165f, IM_Disallowed);
  (R 0x11660 0x1166c, IM_Valid);
  (R 0x1166d 0x1167f, IM_Disallowed);
  (R 0x11680 0x116b7, IM_Valid);
  (R 0x116b8 0x116bf, IM_Disallowed);
  (R 0x116c0 0x116c9, IM_Valid);
  (R 0x116ca 0x116ff, IM_Disallowed);
  (R 0x11700 0x11719, IM_Valid);
  (R 0x1171a 0x1171c, IM_Disallowed);
  (R 0x1171d 0x1172b, IM_Valid);
  (R 0x1172c 0x1172f, IM_Disallowed);
  (R 0x11730 0x1173f, IM_Valid);
  (R 0x11740 0x1189f, IM_Disallowed);
  (R 0x118a0 0x118a0, IM_Mapped [0x118c0]);
  (R 0x118a1 0x118a1, IM_Mapped [0x118c1]);
  (R 0x118a2 0x118a2, IM_Mapped [0x118c2]);
  (R 0x118a3 0x118a3, IM_Mapped [0x118c3]);
  (R 0x118a4 0x118a4, IM_Mapped [0x118c4]);
  (R 0x118a5 0x118a5, IM_Mapped [0x118c5]);
  (R 0x118a6 0x118a6, IM_Mapped [0x118c6]);
  (R 0x118a7 0x118a7, IM_Mapped [0x118c7]);
  (R 0x118a8 0x118a8, IM_Mapped [0x118c8]);
  (R 0x118a9 0x118a9, IM_Mapped [0x118c9]);
  (R 0x118aa 0x118aa, IM_Mapped [0x118ca]);
  (R 0x118ab 0x118ab, IM_Mapped [0x118cb]);
  (R 0x118ac 0x118ac, IM_Mapped [0x118cc]);
  (R 0x118ad 0x118ad, IM_Mapped [0x118cd]);
  (R 0x118ae 0x118ae, IM_Mapped [0x118ce]);
  (R 0x118af 0x118af, IM_Mapped [0x118cf]);
  (R 0x118b0 0x118b0, IM_Mapped [0x118d0]);
  (R 0x118b1 0x118b1, IM_Mapped [0x118d1]);
  (R 0x118b2 0x118b2, IM_Mapped [0x118d2]);
  (R 0x118b3 0x118b3, IM_Mapped [0x118d3]);
  (R 0x118b4 0x118b4, IM_Mapped [0x118d4]);
  (R 0x118b5 0x118b5, IM_Mapped [0x118d5]);
  (R 0x118b6 0x118b6, IM_Mapped [0x118d6]);
  (R 0x118b7 0x118b7, IM_Mapped [0x118d7]);
  (R 0x118b8 0x118b8, IM_Mapped [0x118d8]);
  (R 0x118b9 0x118b9, IM_Mapped [0x118d9]);
  (R 0x118ba 0x118ba, IM_Mapped [0x118da]);
  (R 0x118bb 0x118bb, IM_Mapped [0x118db]);
  (R 0x118bc 0x118bc, IM_Mapped [0x118dc]);
  (R 0x118bd 0x118bd, IM_Mapped [0x118dd]);
  (R 0x118be 0x118be, IM_Mapped [0x118de]);
  (R 0x118bf 0x118bf, IM_Mapped [0x118df]);
  (R 0x118c0 0x118f2, IM_Valid);
  (R 0x118f3 0x118fe, IM_Disallowed);
  (R 0x118ff 0x118ff, IM_Valid);
  (R 0x11900 0x119ff, IM_Disallowed);
  (R 0x11a00 0x11a47, IM_Valid);
  (R 0x11a48 0x11a4f, IM_Disallowed);
  (R 0x11a50 0x11a83, IM_Valid);
  (R 0x11a84 0x11a85, IM_Disallowed);
  (R 0x11a86 0x11a9c, IM_Valid);
  (R 0x11a9d 0x11a9d, IM_Disallowed);
  (R 0x11a9e 0x11aa2, IM_Valid);
  (R 0x11aa3 0x11abf, IM_Disallowed);
  (R 0x11ac0 0x11af8, IM_Valid);
  (R 0x11af9 0x11bff, IM_Disallowed);
  (R 0x11c00 0x11c08, IM_Valid);
  (R 0x11c09 0x11c09, IM_Disallowed);
  (R 0x11c0a 0x11c36, IM_Valid);
  (R 0x11c37 0x11c37, IM_Disallowed);
  (R 0x11c38 0x11c45, IM_Valid);
  (R 0x11c46 0x11c4f, IM_Disallowed);
  (R 0x11c50 0x11c6c, IM_Valid);
  (R 0x11c6d 0x11c6f, IM_Disallowed);
  (R 0x11c70 0x11c8f, IM_Valid);
  (R 0x11c90 0x11c91, IM_Disallowed);
  (R 0x11c92 0x11ca7, IM_Valid);
  (R 0x11ca8 0x11ca8, IM_Disallowed);
  (R 0x11ca9 0x11cb6, IM_Valid);
  (R 0x11cb7 0x11cff, IM_Disallowed);
  (R 0x11d00 0x11d06, IM_Valid);
  (R 0x11d07 0x11d07, IM_Disallowed);
  (R 0x11d08 0x11d09, IM_Valid);
  (R 0x11d0a 0x11d0a, IM_Disallowed);
  (R 0x11d0b 0x11d36, IM_Valid);
  (R 0x11d37 0x11d39, IM_Disallowed);
  (R 0x11d3a 0x11d3a, IM_Valid);
  (R 0x11d3b 0x11d3b, IM_Disallowed);
  (R 0x11d3c 0x11d3d, IM_Valid);
  (R 0x11d3e 0x11d3e, IM_Disallowed);
  (R 0x11d3f 0x11d47, IM_Valid);
  (R 0x11d48 0x11d4f, IM_Disallowed);
  (R 0x11d50 0x11d59, IM_Valid);
  (R 0x11d5a 0x11fff, IM_Disallowed);
  (R 0x12000 0x12399, IM_Valid);
  (R 0x1239a 0x123ff, IM_Disallowed);
  (R 0x12400 0x1246e, IM_Valid);
  (R 0x1246f 0x1246f, IM_Disallowed);
  (R 0x12470 0x12474, IM_Valid);
  (R 0x12475 0x1247f, IM_Disallowed);
  (R 0x12480 0x12543, IM_Valid);
  (R 0x12544 0x12fff, IM_Disallowed);
  (R 0x13000 0x1342e, IM_Valid);
  (R 0x1342f 0x143ff, IM_Disallowed);
  (R 0x14400 0x14646, IM_Valid);
  (R 0x14647 0x167ff, IM_Disallowed);
  (R 0x16800 0x16a38, IM_Valid);
  (R 0x16a39 0x16a3f, IM_Disallowed);
  (R 0x16a40 0x16a5e, IM_Valid);
  (R 0x16a5f 0x16a5f, IM_Disallowed);
  (R 0x16a60 0x16a69, IM_Valid);
  (R 0x16a6a 0x16a6d, IM_Disallowed);
  (R 0x16a6e 0x16a6f, IM_Valid);
  (R 0x16a70 0x16acf, IM_Disallowed);
  (R 0x16ad0 0x16aed, IM_Valid);
  (R 0x16aee 0x16aef, IM_Disallowed);
  (R 0x16af0 0x16af5, IM_Valid);
  (R 0x16af6 0x16aff, IM_Disallowed);
  (R 0x16b00 0x16b45, IM_Valid);
  (R 0x16b46 0x16b4f, IM_Disallowed);
  (R 0x16b50 0x16b59, IM_Valid);
  (R 0x16b5a 0x16b5a, IM_Disallowed);
  (R 0x16b5b 0x16b61, IM_Valid);
  (R 0x16b62 0x16b62, IM_Disallowed);
  (R 0x16b63 0x16b77, IM_Valid);
  (R 0x16b78 0x16b7c, IM_Disallowed);
  (R 0x16b7d 0x16b8f, IM_Valid);
  (R 0x16b90 0x16eff, IM_Disallowed);
  (R 0x16f00 0x16f44, IM_Valid);
  (R 0x16f45 0x16f4f, IM_Disallowed);
  (R 0x16f50 0x16f7e, IM_Valid);
  (R 0x16f7f 0x16f8e, IM_Disallowed);
  (R 0x16f8f 0x16f9f, IM_Valid);
  (R 0x16fa0 0x16fdf, IM_Disallowed);
  (R 0x16fe0 0x16fe1, IM_Valid);
  (R 0x16fe2 0x16fff, IM_Disallowed);
  (R 0x17000 0x187ec, IM_Valid);
  (R 0x187ed 0x187ff, IM_Disallowed);
  (R 0x18800 0x18af2, IM_Valid);
  (R 0x18af3 0x1afff, IM_Disallowed);
  (R 0x1b000 0x1b11e, IM_Valid);
  (R 0x1b11f 0x1b16f, IM_Disallowed);
  (R 0x1b170 0x1b2fb, IM_Valid);
  (R 0x1b2fc 0x1bbff, IM_Disallowed);
  (R 0x1bc00 0x1bc6a, IM_Valid);
  (R 0x1bc6b 0x1bc6f, IM_Disallowed);
  (R 0x1bc70 0x1bc7c, IM_Valid);
  (R 0x1bc7d 0x1bc7f, IM_Disallowed);
  (R 0x1bc80 0x1bc88, IM_Valid);
  (R 0x1bc89 0x1bc8f, IM_Disallowed);
  (R 0x1bc90 0x1bc99, IM_Valid);
  (R 0x1bc9a 0x1bc9b, IM_Disallowed);
  (R 0x1bc9c 0x1bc9f, IM_Valid);
  (R 0x1bca0 0x1bca3, IM_Ignored)].

Definition MAPPING_14 : list (CharRange * Mapping) := [
  (R 0x1bca4 0x1cfff, IM_Disallowed);
  (R 0x1d000 0x1d0f5, IM_Valid);
  (R 0x1d0f6 0x1d0ff, IM_Disallowed);
  (R 0x1d100 0x1d126, IM_Valid);
  (R 0x1d127 0x1d128, IM_Disallowed);
  (R 0x1d129 0x1d15d, IM_Valid);
  (R 0x1d15e 0x1d15e, IM_Mapped [0x1d157; 0x1d165]);
  (R 0x1d15f 0x1d15f, IM_Mapped [0x1d158; 0x1d165]);
  (R 0x1d160 0x1d160, IM_Mapped [0x1d158; 0x1d165; 0x1d16e]);
  (R 0x1d161 0x1d161, IM_Mapped [0x1d158; 0x1d165; 0x1d16f]);
  (R 0x1d162 0x1d162, IM_Mapped [0x1d158; 0x1d165; 0x1d170]);
  (R 0x1d163 0x1d163, IM_Mapped [0x1d158; 0x1d165; 0x1d171]);
  (R 0x1d164 0x1d164, IM_Mapped [0x1d158; 0x1d165; 0x1d172]);
  (R 0x1d165 0x1d172, IM_Valid);
  (R 0x1d173 0x1d17a, IM_Disallowed);
  (R 0x1d17b 0x1d1ba, IM_Valid);
  (R 0x1d1bb 0x1d1bb, IM_Mapped [0x1d1b9; 0x1d165]);
  (R 0x1d1bc 0x1d1bc, IM_Mapped [0x1d1ba; 0x1d165]);
  (R 0x1d1bd 0x1d1bd, IM_Mapped [0x1d1b9; 0x1d165; 0x1d16e]);
  (R 0x1d1be 0x1d1be, IM_Mapped [0x1d1ba; 0x1d165; 0x1d16e]);
  (R 0x1d1bf 0x1d1bf, IM_Mapped [0x1d1b9; 0x1d165; 0x1d16f]);
  (R 0x1d1c0 0x1d1c0, IM_Mapped [0x1d1ba; 0x1d165; 0x1d16f]);
  (R 0x1d1c1 0x1d1e8, IM_Valid);
  (R 0x1d1e9 0x1d1ff, IM_Disallowed);
  (R 0x1d200 0x1d245, IM_Valid);
  (R 0x1d246 0x1d2ff, IM_Disallowed);
  (R 0x1d300 0x1d356, IM_Valid);
  (R 0x1d357 0x1d35f, IM_Disallowed);
  (R 0x1d360 0x1d371, IM_Valid);
  (R 0x1d372 0x1d3ff, IM_Disallowed);
  (R 0x1d400 0x1d400, IM_Mapped [0x61]);
  (R 0x1d401 0x1d401, IM_Mapped [0x62]);
  (R 0x1d402 0x1d402, IM_Mapped [0x63]);
  (R 0x1d403 0x1d403, IM_Mapped [0x64]);
  (R 0x1d404 0x1d404, IM_Mapped [0x65]);
  (R 0x1d405 0x1d405, IM_Mapped [0x66]);
  (R 0x1d406 0x1d406, IM_Mapped [0x67]);
  (R 0x1d407 0x1d407, IM_Mapped [0x68]);
  (R 0x1d408 0x1d408, IM_Mapped [0x69]);
  (R 0x1d409 0x1d409, IM_Mapped [0x6a]);
  (R 0x1d40a 0x1d40a, IM_Mapped [0x6b]);
  (R 0x1d40b 0x1d40b, IM_Mapped [0x6c]);
  (R 0x1d40c 0x1d40c, IM_Mapped [0x6d]);
  (R 0x1d40d 0x1d40d, IM_Mapped [0x6e]);
  (R 0x1d40e 0x1d40e, IM_Mapped [0x6f]);
  (R 0x1d40f 0x1d40f, IM_Mapped [0x70]);
  (R 0x1d410 0x1d410, IM_Mapped [0x71]);
  (R 0x1d411 0x1d411, IM_Mapped [0x72]);
  (R 0x1d412 0x1d412, IM_Mapped [0x73]);
  (R 0x1d413 0x1d413, IM_Mapped [0x74]);
  (R 0x1d414 0x1d414, IM_Mapped [0x75]);
  (R 0x1d415 0x1d415, IM_Mapped [0x76]);
  (R 0x1d416 0x1d416, IM_Mapped [0x77]);
  (R 0x1d417 0x1d417, IM_Mapped [0x78]);
  (R 0x1d418 0x1d418, IM_Mapped [0x79]);
  (R 0x1d419 0x1d419, IM_Mapped [0x7a]);
  (R 0x1d41a 0x1d41a, IM_Mapped [0x61]);
  (R 0x1d41b 0x1d41b, IM_Mapped [0x62]);
  (R 0x1d41c 0x1d41c, IM_Mapped [0x63]);
  (R 0x1d41d 0x1d41d, IM_Mapped [0x64]);
  (R 0x1d41e 0x1d41e, IM_Mapped [0x65]);
  (R 0x1d41f 0x1d41f, IM_Mapped [0x66]);
  (R 0x1d420 0x1d420, IM_Mapped [0x67]);
  (R 0x1d421 0x1d421, IM_Mapped [0x68]);
  (R 0x1d422 0x1d422, IM_Mapped [0x69]);
  (R 0x1d423 0x1d423, IM_Mapped [0x6a]);
  (R 0x1d424 0x1d424, IM_Mapped [0x6b]);
  (R 0x1d425 0x1d425, IM_Mapped [0x6c]);
  (R 0x1d426 0x1d426, IM_Mapped [0x6d]);
  (R 0x1d427 0x1d427, IM_Mapped [0x6e]);
  (R 0x1d428 0x1d428, IM_Mapped [0x6f]);
  (R 0x1d429 0x1d429, IM_Mapped [0x70]);
  (R 0x1d42a 0x1d42a, IM_Mapped [0x71]);
  (R 0x1d42b 0x1d42b, IM_Mapped [0x72]);
  (R 0x1d42c 0x1d42c, IM_Mapped [0x73]);
  (R 0x1d42d 0x1d42d, IM_Mapped [0x74]);
  (R 0x1d42e 0x1d42e, IM_Mapped [0x75]);
  (R 0x1d42f 0x1d42f, IM_Mapped [0x76]);
  (R 0x1d430 0x1d430, IM_Mapped [0x77]);
  (R 0x1d431 0x1d431, IM_Mapped [0x78]);
  (R 0x1d432 0x1d432, IM_Mapped [0x79]);
  (R 0x1d433 0x1d433, IM_Mapped [0x7a]);
  (R 0x1d434 0x1d434, IM_Mapped [0x61]);
  (R 0x1d435 0x1d435, IM_Mapped [0x62]);
  (R 0x1d436 0x1d436, IM_Mapped [0x63]);
  (R 0x1d437 0x1d437, IM_Mapped [0x64]);
  (R 0x1d438 0x1d438, IM_Mapped [0x65]);
  (R 0x1d439 0x1d439, IM_Mapped [0x66]);
  (R 0x1d43a 0x1d43a, IM_Mapped [0x67]);
  (R 0x1d43b 0x1d43b, IM_Mapped [0x68]);
  (R 0x1d43c 0x1d43c, IM_Mapped [0x69]);
  (R 0x1d43d 0x1d43d, IM_Mapped [0x6a]);
  (R 0x1d43e 0x1d43e, IM_Mapped [0x6b]);
  (R 0x1d43f 0x1d43f, IM_Mapped [0x6c]);
  (R 0x1d440 0x1d440, IM_Mapped [0x6d]);
  (R 0x1d441 0x1d441, IM_Mapped [0x6e]);
  (R 0x1d442 0x1d442, IM_Mapped [0x6f]);
  (R 0x1d443 0x1d443, IM_Mapped [0x70]);
  (R 0x1d444 0x1d444, IM_Mapped [0x71]);
  (R 0x1d445 0x1d445, IM_Mapped [0x72]);
  (R 0x1d446 0x1d446, IM_Mapped [0x73]);
  (R 0x1d447 0x1d447, IM_Mapped [0x74]);
  (R 0x1d448 0x1d448, IM_Mapped [0x75]);
  (R 0x1d449 0x1d449, IM_Mapped [0x76]);
  (R 0x1d44a 0x1d44a, IM_Mapped [0x77]);
  (R 0x1d44b 0x1d44b, IM_Mapped [0x78]);
  (R 0x1d44c 0x1d44c, IM_Mapped [0x79]);
  (R 0x1d44d 0x1d44d, IM_Mapped [0x7a]);
  (R 0x1d44e 0x1d44e, IM_Mapped [0x61]);
  (R 0x1d44f 0x1d44f, IM_Mapped [0x62]);
  (R 0x1d450 0x1d450, IM_Mapped [0x63]);
  (R 0x1d451 0x1d451, IM_Mapped [0x64]);
  (R 0x1d452 0x1d452, IM_Mapped [0x65]);
  (R 0x1d453 0x1d453, IM_Mapped [0x66]);
  (R 0x1d454 0x1d454, IM_Mapped [0x67]);
  (R 0x1d455 0x1d455, IM_Disallowed);
  (R 0x1d456 0x1d456, IM_Mapped [0x69]);
  (R 0x1d457 0x1d457, IM_Mapped [0x6a]);
  (R 0x1d458 0x1d458, IM_Mapped [0x6b]);
  (R 0x1d459 0x1d459, IM_Mapped [0x6c]);
  (R 0x1d45a 0x1d45a, IM_Mapped [0x6d]);
  (R 0x1d45b 0x1d45b, IM_Mapped [0x6e]);
  (R 0x1d45c 0x1d45c, IM_Mapped [0x6f]);
  (R 0x1d45d 0x1d45d, IM_Mapped [0x70]);
  (R 0x1d45e 0x1d45e, IM_Mapped [0x71]);
  (R 0x1d45f 0x1d45f, IM_Mapped [0x72]);
  (R 0x1d460 0x1d460, IM_Mapped [0x73]);
  (R 0x1d461 0x1d461, IM_Mapped [0x74]);
  (R 0x1d462 0x1d462, IM_Mapped [0x75]);
  (R 0x1d463 0x1d463, IM_Mapped [0x76]);
  (R 0x1d464 0x1d464, IM_Mapped [0x77]);
  (R 0x1d465 0x1d465, IM_Mapped [0x78]);
  (R 0x1d466 0x1d466, IM_Mapped [0x79]);
  (R 0x1d467 0x1d467, IM_Mapped [0x7a]);
  (R 0x1d468 0x1d468, IM_Mapped [0x61]);
  (R 0x1d469 0x1d469, IM_Mapped [0x62]);
  (R 0x1d46a 0x1d46a, IM_Mapped [0x63]);
  (R 0x1d46b 0x1d46b, IM_Mapped [0x64]);
  (R 0x1d46c 0x1d46c, IM_Mapped [0x65]);
  (R 0x1d46d 0x1d46d, IM_Mapped [0x66]);
  (R 0x1d46e 0x1d46e, IM_Mapped [0x67]);
  (R 0x1d46f 0x1d46f, IM_Mapped [0x68]);
  (R 0x1d470 0x1d470, IM_Mapped [0x69]);
  (R 0x1d471 0x1d471, IM_Mapped [0x6a]);
  (R 0x1d472 0x1d472, IM_Mapped [0x6b]);
  (R 0x1d473 0x1d473, IM_Mapped [0x6c]);
  (R 0x1d474 0x1d474, IM_Mapped [0x6d]);
  (R 0x1d475 0x1d475, IM_Mapped [0x6e]);
  (R 0x1d476 0x1d476, IM_Mapped [0x6f]);
  (R 0x1d477 0x1d477, IM_Mapped [0x70]);
  (R 0x1d478 0x1d478, IM_Mapped [0x71]);
  (R 0x1d479 0x1d479, IM_Mapped [0x72]);
  (R 0x1d47a 0x1d47a, IM_Mapped [0x73]);
  (R 0x1d47b 0x1d47b, IM_Mapped [0x74]);
  (R 0x1d47c 0x1d47c, IM_Mapped [0x75]);
  (R 0x1d47d 0x1d47d, IM_Mapped [0x76]);
  (R 0x1d47e 0x1d47e, IM_Mapped [0x77]);
  (R 0x1d47f 0x1d47f, IM_Mapped [0x78]);
  (R 0x1d480 0x1d480, IM_Mapped [0x79]);
  (R 0x1d481 0x1d481, IM_Mapped [0x7a]);
  (R 0x1d482 0x1d482, IM_Mapped [0x61]);
  (R 0x1d483 0x1d483, IM_Mapped [0x62]);
  (R 0x1d484 0x1d484, IM_Mapped [0x63]);
  (R 0x1d485 0x1d485, IM_Mapped [0x64]);
  (R 0x1d486 0x1d486, IM_Mapped [0x65]);
  (R 0x1d487 0x1d487, IM_Mapped [0x66]);
  (R 0x1d488 0x1d488, IM_Mapped [0x67]);
  (R 0x1d489 0x1d489, IM_Mapped [0x68]);
  (R 0x1d48a 0x1d48a, IM_Mapped [0x69]);
  (R 0x1d48b 0x1d48b, IM_Mapped [0x6a]);
  (R 0x1d48c 0x1d48c, IM_Mapped [0x6b]);
  (R 0x1d48d 0x1d48d, IM_Mapped [0x6c]);
  (R 0x1d48e 0x1d48e, IM_Mapped [0x6d]);
  (R 0x1d48f 0x1d48f, IM_Mapped [0x6e]);
  (R 0x1d490 0x1d490, IM_Mapped [0x6f]);
  (R 0x1d491 0x1d491, IM_Mapped [0x70]);
  (R 0x1d492 0x1d492, IM_Mapped [0x71]);
  (R 0x1d493 0x1d493, IM_Mapped [0x72]);
  (R 0x1d494 0x1d494, IM_Mapped [0x73]);
  (R 0x1d495 0x1d495, IM_Mapped [0x74]);
  (R 0x1d496 0x1d496, IM_Mapped [0x75]);
  (R 0x1d497 0x1d497, IM_Mapped [0x76]);
  (R 0x1d498 0x1d498, IM_Mapped [0x77]);
  (R 0x1d499 0x1d499, IM_Mapped [0x78]);
  (R 0x1d49a 0x1d49a, IM_Mapped [0x79]);
  (R 0x1d49b 0x1d49b, IM_Mapped [0x7a]);
  (R 0x1d49c 0x1d49c, IM_Mapped [0x61]);
  (R 0x1d49d 0x1d49d, IM_Disallowed);
  (R 0x1d49e 0x1d49e, IM_Mapped [0x63]);
  (R 0x1d49f 0x1d49f, IM_Mapped [0x64]);
  (R 0x1d4a0 0x1d4a1, IM_Disallowed);
  (R 0x1d4a2 0x1d4a2, IM_Mapped [0x67]);
  (R 0x1d4a3 0x1d4a4, IM_Disallowed);
  (R 0x1d4a5 0x1d4a5, IM_Mapped [0x6a]);
  (R 0x1d4a6 0x1d4a6, IM_Mapped [0x6b]);
  (R 0x1d4a7 0x1d4a8, IM_Disallowed);
  (R 0x1d4a9 0x1d4a9, IM_Mapped [0x6e]);
  (R 0x1d4aa 0x1d4aa, IM_Mapped [0x6f]);
  (R 0x1d4ab 0x1d4ab, IM_Mapped [0x70]);
  (R 0x1d4ac 0x1d4ac, IM_Mapped [0x71]);
  (R 0x1d4ad 0x1d4ad, IM_Disallowed);
  (R 0x1d4ae 0x1d4ae, IM_Mapped [0x73]);
  (R 0x1d4af 0x1d4af, IM_Mapped [0x74]);
  (R 0x1d4b0 0x1d4b0, IM_Mapped [0x75]);
  (R 0x1d4b1 0x1d4b1, IM_Mapped [0x76]);
  (R 0x1d4b2 0x1d4b2, IM_Mapped [0x77]);
  (R 0x1d4b3 0x1d4b3, IM_Mapped [0x78]);
  (R 0x1d4b4 0x1d4b4, IM_Mapped [0x79]);
  (R 0x1d4b5 0x1d4b5, IM_Mapped [0x7a]);
  (R 0x1d4b6 0x1d4b6, IM_Mapped [0x61]);
  (R 0x1d4b7 0x1d4b7, IM_Mapped [0x62]);
  (R 0x1d4b8 0x1d4b8, IM_Mapped [0x63]);
  (R 0x1d4b9 0x1d4b9, IM_Mapped [0x64]);
  (R 0x1d4ba 0x1d4ba, IM_Disallowed);
  (R 0x1d4bb 0x1d4bb, IM_Mapped [0x66]);
  (R 0x1d4bc 0x1d4bc, IM_Disallowed);
  (R 0x1d4bd 0x1d4bd, IM_Mapped [0x68]);
  (R 0x1d4be 0x1d4be, IM_Mapped [0x69]);
  (R 0x1d4bf 0x1d4bf, IM_Mapped [0x6a]);
  (R 0x1d4c0 0x1d4c0, IM_Mapped [0x6b]);
  (R 0x1d4c1 0x1d4c1, IM_Mapped [0x6c]);
  (R 0x1d4c2 0x1d4c2, IM_Mapped [0x6d]);
  (R 0x1d4c3 0x1d4c3, IM_Mapped [0x6e]);
  (R 0x1d4c4 0x1d4c4, IM_Disallowed);
  (R 0x1d4c5 0x1d4c5, IM_Mapped [0x70]);
  (R 0x1d4c6 0x1d4c6, IM_Mapped [0x71]);
  (R 0x1d4c7 0x1d4c7, IM_Mapped [0x72]);
  (R 0x1d4c8 0x1d4c8, IM_Mapped [0x73]);
  (R 0x1d4c9 0x1d4c9, IM_Mapped [0x74]);
  (R 0x1d4ca 0x1d4ca, IM_Mapped [0x75]);
  (R 0x1d4cb 0x1d4cb, IM_Mapped [0x76]);
  (R 0x1d4cc 0x1d4cc, IM_Mapped [0x77]);
  (R 0x1d4cd 0x1d4cd, IM_Mapped [0x78]);
  (R 0x1d4ce 0x1d4ce, IM_Mapped [0x79]);
  (R 0x1d4cf 0x1d4cf, IM_Mapped [0x7a]);
  (R 0x1d4d0 0x1d4d0, IM_Mapped [0x61]);
  (R 0x1d4d1 0x1d4d1, IM_Mapped [0x62]);
  (R 0x1d4d2 0x1d4d2, IM_Mapped [0x63]);
  (R 0x1d4d3 0x1d4d3, IM_Mapped [0x64]);
  (R 0x1d4d4 0x1d4d4, IM_Mapped [0x65]);
  (R 0x1d4d5 0x1d4d5, IM_Mapped [0x66]);
  (R 0x1d4d6 0x1d4d6, IM_Mapped [0x67]);
  (R 0x1d4d7 0x1d4d7, IM_Mapped [0x68]);
  (R 0x1d4d8 0x1d4d8, IM_Mapped [0x69]);
  (R 0x1d4d9 0x1d4d9, IM_Mapped [0x6a]);
  (R 0x1d4da 0x1d4da, IM_Mapped [0x6b]);
  (R 0x1d4db 0x1d4db, IM_Mapped [0x6c]);
  (R 0x1d4dc 0x1d4dc, IM_Mapped [0x6d]);
  (R 0x1d4dd 0x1d4dd, IM_Mapped [0x6e]);
  (R 0x1d4de 0x1d4de, IM_Mapped [0x6f]);
  (R 0x1d4df 0x1d4df, IM_Mapped [0x70]);
  (R 0x1d4e0 0x1d4e0, IM_Mapped [0x71]);
  (R 0x1d4e1 0x1d4e1, IM_Mapped [0x72]);
  (R 0x1d4e2 0x1d4e2, IM_Mapped [0x73]);
  (R 0x1d4e3 0x1d4e3, IM_Mapped [0x74]);
  (R 0x1d4e4 0x1d4e4, IM_Mapped [0x75]);
  (R 0x1d4e5 0x1d4e5, IM_Mapped [0x76]);
  (R 0x1d4e6 0x1d4e6, IM_Mapped [0x77]);
  (R 0x1d4e7 0x1d4e7, IM_Mapped [0x78]);
  (R 0x1d4e8 0x1d4e8, IM_Mapped [0x79]);
  (R 0x1d4e9 0x1d4e9, IM_Mapped [0x7a]);
  (R 0x1d4ea 0x1d4ea, IM_Mapped [0x61]);
  (R 0x1d4eb 0x1d4eb, IM_Mapped [0x62]);
  (R 0x1d4ec 0x1d4ec, IM_Mapped [0x63]);
  (R 0x1d4ed 0x1d4ed, IM_Mapped [0x64]);
  (R 0x1d4ee 0x1d4ee, IM_Mapped [0x65]);
  (R 0x1d4ef 0x1d4ef, IM_Mapped [0x66]);
  (R 0x1d4f0 0x1d4f0, IM_Mapped [0x67]);
  (R 0x1d4f1 0x1d4f1, IM_Mapped [0x68]);
  (R 0x1d4f2 0x1d4f2, IM_Mapped [0x69]);
  (R 0x1d4f3 0x1d4f3, IM_Mapped [0x6a]);
  (R 0x1d4f4 0x1d4f4, IM_Mapped [0x6b]);
  (R 0x1d4f5 0x1d4f5, IM_Mapped [0x6c]);
  (R 0x1d4f6 0x1d4f6, IM_Mapped [0x6d]);
  (R 0x1d4f7 0x1d4f7, IM_Mapped [0x6e]);
  (R 0x1d4f8 0x1d4f8, IM_Mapped [0x6f]);
  (R 0x1d4f9 0x1d4f9, IM_Mapped [0x70]);
  (R 0x1d4fa 0x1d4fa, IM_Mapped [0x71]);
  (R 0x1d4fb 0x1d4fb, IM_Mapped [0x72]);
  (R 0x1d4fc 0x1d4fc, IM_Mapped [0x73]);
  (R 0x1d4fd 0x1d4fd, IM_Mapped [0x74]);
  (R 0x1d4fe 0x1d4fe, IM_Mapped [0x75]);
  (R 0x1d4ff 0x1d4ff, IM_Mapped [0x76]);
  (R 0x1d500 0x1d500, IM_Mapped [0x77]);
  (R 0x1d501 0x1d501, IM_Mapped [0x78]);
  (R 0x1d502 0x1d502, IM_Mapped [0x79]);
  (R 0x1d503 0x1d503, IM_Mapped [0x7a]);
  (R 0x1d504 0x1d504, IM_Mapped [0x61]);
  (R 0x1d505 0x1d505, IM_Mapped [0x62]);
  (R 0x1d506 0x1d506, IM_Disallowed);
  (R 0x1d507 0x1d507, IM_Mapped [0x64]);
  (R 0x1d508 0x1d508, IM_Mapped [0x65]);
  (R 0x1d509 0x1d509, IM_Mapped [0x66]);
  (R 0x1d50a 0x1d50a, IM_Mapped [0x67]);
  (R 0x1d50b 0x1d50c, IM_Disallowed);
  (R 0x1d50d 0x1d50d, IM_Mapped [0x6a]);
  (R 0x1d50e 0x1d50e, IM_Mapped [0x6b]);
  (R 0x1d50f 0x1d50f, IM_Mapped [0x6c]);
  (R 0x1d510 0x1d510, IM_Mapped [0x6d]);
  (R 0x1d511 0x1d511, IM_Mapped [0x6e]);
  (R 0x1d512 0x1d512, IM_Mapped [0x6f]);
  (R 0x1d513 0x1d513, IM_Mapped [0x70]);
  (R 0x1d514 0x1d514, IM_Mapped [0x71]);
  (R 0x1d515 0x1d515, IM_Disallowed);
  (R 0x1d516 0x1d516, IM_Mapped [0x73]);
  (R 0x1d517 0x1d517, IM_Mapped [0x74]);
  (R 0x1d518 0x1d518, IM_Mapped [0x75]);
  (R 0x1d519 0x1d519, IM_Mapped [0x76]);
  (R 0x1d51a 0x1d51a, IM_Mapped [0x77]);
  (R 0x1d51b 0x1d51b, IM_Mapped [0x78]);
  (R 0x1d51c 0x1d51c, IM_Mapped [0x79]);
  (R 0x1d51d 0x1d51d, IM_Disallowed);
  (R 0x1d51e 0x1d51e, IM_Mapped [0x61]);
  (R 0x1d51f 0x1d51f, IM_Mapped [0x62]);
  (R 0x1d520 0x1d520, IM_Mapped [0x63]);
  (R 0x1d521 0x1d521, IM_Mapped [0x64]);
  (R 0x1d522 0x1d522, IM_Mapped [0x65]);
  (R 0x1d523 0x1d523, IM_Mapped [0x66]);
  (R 0x1d524 0x1d524, IM_Mapped [0x67]);
  (R 0x1d525 0x1d525, IM_Mapped [0x68]);
  (R 0x1d526 0x1d526, IM_Mapped [0x69]);
  (R 0x1d527 0x1d527, IM_Mapped [0x6a]);
  (R 0x1d528 0x1d528, IM_Mapped [0x6b]);
  (R 0x1d529 0x1d529, IM_Mapped [0x6c]);
  (R 0x1d52a 0x1d52a, IM_Mapped [0x6d]);
  (R 0x1d52b 0x1d52b, IM_Mapped [0x6e]);
  (R 0x1d52c 0x1d52c, IM_Mapped [0x6f]);
  (R 0x1d52d 0x1d52d, IM_Mapped [0x70]);
  (R 0x1d52e 0x1d52e, IM_Mapped [0x71]);
  (R 0x1d52f 0x1d52f, IM_Mapped [0x72]);
  (R 0x1d530 0x1d530, IM_Mapped [0x73]);
  (R 0x1d531 0x1d531, IM_Mapped [0x74]);
  (R 0x1d532 0x1d532, IM_Mapped [0x75]);
  (R 0x1d533 0x1d533, IM_Mapped [0x76]);
  (R 0x1d534 0x1d534, IM_Mapped [0x77]);
  (R 0x1d535 0x1d535, IM_Mapped [0x78]);
  (R 0x1d536 0x1d536, IM_Mapped [0x79]);
  (R 0x1d537 0x1d537, IM_Mapped [0x7a]);
  (R 0x1d538 0x1d538, IM_Mapped [0x61]);
  (R 0x1d539 0x1d539, IM_Mapped [0x62]);
  (R 0x1d53a 0x1d53a, IM_Disallowed);
  (R 0x1d53b 0x1d53b, IM_Mapped [0x64]);
  (R 0x1d53c 0x1d53c, IM_Mapped [0x65]);
  (R 0x1d53d 0x1d53d, IM_Mapped [0x66]);
  (R 0x1d53e 0x1d53e, IM_Mapped [0x67]);
  (R 0x1d53f 0x1d53f, IM_Disallowed);
  (R 0x1d540 0x1d540, IM_Mapped [0x69]);
  (R 0x1d541 0x1d541, IM_Mapped [0x6a]);
  (R 0x1d542 0x1d542, IM_Mapped [0x6b]);
  (R 0x1d543 0x1d543, IM_Mapped [0x6c]);
  (R 0x1d544 0x1d544, IM_Mapped [0x6d]);
  (R 0x1d545 0x1d545, IM_Disallowed);
  (R 0x1d546 0x1d546, IM_Mapped [0x6f]);
  (R 0x1d547 0x1d549, IM_Disallowed);
  (R 0x1d54a 0x1d54a, IM_Mapped [0x73]);
  (R 0x1d54b 0x1d54b, IM_Mapped [0x74]);
  (R 0x1d54c 0x1d54c, IM_Mapped [0x75]);
  (R 0x1d54d 0x1d54d, IM_Mapped [0x76]);
  (R 0x1d54e 0x1d54e, IM_Mapped [0x77]);
  (R 0x1d54f 0x1d54f, IM_Mapped [0x78]);
  (R 0x1d550 0x1d550, IM_Mapped [0x79]);
  (R 0x1d551 0x1d551, IM_Disallowed);
  (R 0x1d552 0x1d552, IM_Mapped [0x61]);
  (R 0x1d553 0x1d553, IM_Mapped [0x62]);
  (R 0x1d554 0x1d554, IM_Mapped [0x63]);
  (R 0x1d555 0x1d555, IM_Mapped [0x64]);
  (R 0x1d556 0x1d556, IM_Mapped [0x65]);
  (R 0x1d557 0x1d557, IM_Mapped [0x66]);
  (R 0x1d558 0x1d558, IM_Mapped [0x67]);
  (R 0x1d559 0x1d559, IM_Mapped [0x68]);
  (R 0x1d55a 0x1d55a, IM_Mapped [0x69]);
  (R 0x1d55b 0x1d55b, IM_Mapped [0x6a]);
  (R 0x1d55c 0x1d55c, IM_Mapped [0x6b]);
  (R 0x1d55d 0x1d55d, IM_Mapped [0x6c]);
  (R 0x1d55e 0x1d55e, IM_Mapped [0x6d]);
  (R 0x1d55f 0x1d55f, IM_Mapped [0x6e]);
  (R 0x1d560 0x1d560, IM_Mapped [0x6f]);
  (R 0x1d561 0x1d561, IM_Mapped [0x70]);
  (R 0x1d562 0x1d562, IM_Mapped [0x71]);
  (R 0x1d563 0x1d563, IM_Mapped [0x72]);
  (R 0x1d564 0x1d564, IM_Mapped [0x73]);
  (R 0x1d565 0x1d565, IM_Mapped [0x74]);
  (R 0x1d566 0x1d566, IM_Mapped [0x75]);
  (R 0x1d567 0x1d567, IM_Mapped [0x76]);
  (R 0x1d568 0x1d568, IM_Mapped [0x77]);
  (R 0x1d569 0x1d569, IM_Mapped [0x78]);
  (R 0x1d56a 0x1d56a, IM_Mapped [0x79]);
  (R 0x1d56b 0x1d56b, IM_Mapped [0x7a]);
  (R 0x1d56c 0x1d56c, IM_Mapped [0x61]);
  (R 0x1d56d 0x1d56d, IM_Mapped [0x62]);
  (R 0x1d56e 0x1d56e, IM_Mapped [0x63]);
  (R 0x1d56f 0x1d56f, IM_Mapped [0x64]);
  (R 0x1d570 0x1d570, IM_Mapped [0x65]);
  (R 0x1d571 0x1d571, IM_Mapped [0x66]);
  (R 0x1d572 0x1d572, IM_Mapped [0x67]);
  (R 0x1d573 0x1d573, IM_Mapped [0x68]);
  (R 0x1d574 0x1d574, IM_Mapped [0x69]);
  (R 0x1d575 0x1d575, IM_Mapped [0x6a]);
  (R 0x1d576 0x1d576, IM_Mapped [0x6b]);
  (R 0x1d577 0x1d577, IM_Mapped [0x6c])].

Definition MAPPING_15 : list (CharRange * Mapping) := [
  (R 0x1d578 0x1d578, IM_Mapped [0x6d]);
  (R 0x1d579 0x1d579, IM_Mapped [0x6e]);
  (R 0x1d57a 0x1d57a, IM_Mapped [0x6f]);
  (R 0x1d57b 0x1d57b, IM_Mapped [0x70]);
  (R 0x1d57c 0x1d57c, IM_Mapped [0x71]);
  (R 0x1d57d 0x1d57d, IM_Mapped [0x72]);
  (R 0x1d57e 0x1d57e, IM_Mapped [0x73]);
  (R 0x1d57f 0x1d57f, IM_Mapped [0x74]);
  (R 0x1d580 0x1d580, IM_Mapped [0x75]);
  (R 0x1d581 0x1d581, IM_Mapped [0x76]);
  (R 0x1d582 0x1d582, IM_Mapped [0x77]);
  (R 0x1d583 0x1d583, IM_Mapped [0x78]);
  (R 0x1d584 0x1d584, IM_Mapped [0x79]);
  (R 0x1d585 0x1d585, IM_Mapped [0x7a]);
  (R 0x1d586 0x1d586, IM_Mapped [0x61]);
  (R 0x1d587 0x1d587, IM_Mapped [0x62]);
  (R 0x1d588 0x1d588, IM_Mapped [0x63]);
  (R 0x1d589 0x1d589, IM_Mapped [0x64]);
  (R 0x1d58a 0x1d58a, IM_Mapped [0x65]);
  (R 0x1d58b 0x1d58b, IM_Mapped [0x66]);
  (R 0x1d58c 0x1d58c, IM_Mapped [0x67]);
  (R 0x1d58d 0x1d58d, IM_Mapped [0x68]);
  (R 0x1d58e 0x1d58e, IM_Mapped [0x69]);
  (R 0x1d58f 0x1d58f, IM_Mapped [0x6a]);
  (R 0x1d590 0x1d590, IM_Mapped [0x6b]);
  (R 0x1d591 0x1d591, IM_Mapped [0x6c]);
  (R 0x1d592 0x1d592, IM_Mapped [0x6d]);
  (R 0x1d593 0x1d593, IM_Mapped [0x6e]);
  (R 0x1d594 0x1d594, IM_Mapped [0x6f]);
  (R 0x1d595 0x1d595, IM_Mapped [0x70]);
  (R 0x1d596 0x1d596, IM_Mapped [0x71]);
  (R 0x1d597 0x1d597, IM_Mapped [0x72]);
  (R 0x1d598 0x1d598, IM_Mapped [0x73]);
  (R 0x1d599 0x1d599, IM_Mapped [0x74]);
  (R 0x1d59a 0x1d59a, IM_Mapped [0x75]);
  (R 0x1d59b 0x1d59b, IM_Mapped [0x76]);
  (R 0x1d59c 0x1d59c, IM_Mapped [0x77]);
  (R 0x1d59d 0x1d59d, IM_Mapped [0x78]);
  (R 0x1d59e 0x1d59e, IM_Mapped [0x79]);
  (R 0x1d59f 0x1d59f, IM_Mapped [0x7a]);
  (R 0x1d5a0 0x1d5a0, IM_Mapped [0x61]);
  (R 0x1d5a1 0x1d5a1, IM_Mapped [0x62]);
  (R 0x1d5a2 0x1d5a2, IM_Mapped [0x63]);
  (R 0x1d5a3 0x1d5a3, IM_Mapped [0x64]);
  (R 0x1d5a4 0x1d5a4, IM_Mapped [0x65]);
  (R 0x1d5a5 0x1d5a5, IM_Mapped [0x66]);
  (R 0x1d5a6 0x1d5a6, IM_Mapped [0x67]);
  (R 0x1d5a7 0x1d5a7, IM_Mapped [0x68]);
  (R 0x1d5a8 0x1d5a8, IM_Mapped [0x69]);
  (R 0x1d5a9 0x1d5a9, IM_Mapped [0x6a]);
  (R 0x1d5aa 0x1d5aa, IM_Mapped [0x6b]);
  (R 0x1d5ab 0x1d5ab, IM_Mapped [0x6c]);
  (R 0x1d5ac 0x1d5ac, IM_Mapped [0x6d]);
  (R 0x1d5ad 0x1d5ad, IM_Mapped [0x6e]);
  (R 0x1d5ae 0x1d5ae, IM_Mapped [0x6f]);
  (R 0x1d5af 0x1d5af, IM_Mapped [0x70]);
  (R 0x1d5b0 0x1d5b0, IM_Mapped [0x71]);
  (R 0x1d5b1 0x1d5b1, IM_Mapped [0x72]);
  (R 0x1d5b2 0x1d5b2, IM_Mapped [0x73]);
  (R 0x1d5b3 0x1d5b3, IM_Mapped [0x74]);
  (R 0x1d5b4 0x1d5b4, IM_Mapped [0x75]);
  (R 0x1d5b5 0x1d5b5, IM_Mapped [0x76]);
  (R 0x1d5b6 0x1d5b6, IM_Mapped [0x77]);
  (R 0x1d5b7 0x1d5b7, IM_Mapped [0x78]);
  (R 0x1d5b8 0x1d5b8, IM_Mapped [0x79]);
  (R 0x1d5b9 0x1d5b9, IM_Mapped [0x7a]);
  (R 0x1d5ba 0x1d5ba, IM_Mapped [0x61]);
  (R 0x1d5bb 0x1d5bb, IM_Mapped [0x62]);
  (R 0x1d5bc 0x1d5bc, IM_Mapped [0x63]);
  (R 0x1d5bd 0x1d5bd, IM_Mapped [0x64]);
  (R 0x1d5be 0x1d5be, IM_Mapped [0x65]);
  (R 0x1d5bf 0x1d5bf, IM_Mapped [0x66]);
  (R 0x1d5c0 0x1d5c0, IM_Mapped [0x67]);
  (R 0x1d5c1 0x1d5c1, IM_Mapped [0x68]);
  (R 0x1d5c2 0x1d5c2, IM_Mapped [0x69]);
  (R 0x1d5c3 0x1d5c3, IM_Mapped [0x6a]);
  (R 0x1d5c4 0x1d5c4, IM_Mapped [0x6b]);
  (R 0x1d5c5 0x1d5c5, IM_Mapped [0x6c]);
  (R 0x1d5c6 0x1d5c6, IM_Mapped [0x6d]);
  (R 0x1d5c7 0x1d5c7, IM_Mapped [0x6e]);
  (R 0x1d5c8 0x1d5c8, IM_Mapped [0x6f]);
  (R 0x1d5c9 0x1d5c9, IM_Mapped [0x70]);
  (R 0x1d5ca 0x1d5ca, IM_Mapped [0x71]);
  (R 0x1d5cb 0x1d5cb, IM_Mapped [0x72]);
  (R 0x1d5cc 0x1d5cc, IM_Mapped [0x73]);
  (R 0x1d5cd 0x1d5cd, IM_Mapped [0x74]);
  (R 0x1d5ce 0x1d5ce, IM_Mapped [0x75]);
  (R 0x1d5cf 0x1d5cf, IM_Mapped [0x76]);
  (R 0x1d5d0 0x1d5d0, IM_Mapped [0x77]);
  (R 0x1d5d1 0x1d5d1, IM_Mapped [0x78]);
  (R 0x1d5d2 0x1d5d2, IM_Mapped [0x79]);
  (R 0x1d5d3 0x1d5d3, IM_Mapped [0x7a]);
  (R 0x1d5d4 0x1d5d4, IM_Mapped [0x61]);
  (R 0x1d5d5 0x1d5d5, IM_Mapped [0x62]);
  (R 0x1d5d6 0x1d5d6, IM_Mapped [0x63]);
  (R 0x1d5d7 0x1d5d7, IM_Mapped [0x64]);
  (R 0x1d5d8 0x1d5d8, IM_Mapped [0x65]);
  (R 0x1d5d9 0x1d5d9, IM_Mapped [0x66]);
  (R 0x1d5da 0x1d5da, IM_Mapped [0x67]);
  (R 0x1d5db 0x1d5db, IM_Mapped [0x68]);
  (R 0x1d5dc 0x1d5dc, IM_Mapped [0x69]);
  (R 0x1d5dd 0x1d5dd, IM_Mapped [0x6a]);
  (R 0x1d5de 0x1d5de, IM_Mapped [0x6b]);
  (R 0x1d5df 0x1d5df, IM_Mapped [0x6c]);
  (R 0x1d5e0 0x1d5e0, IM_Mapped [0x6d]);
  (R 0x1d5e1 0x1d5e1, IM_Mapped [0x6e]);
  (R 0x1d5e2 0x1d5e2, IM_Mapped [0x6f]);
  (R 0x1d5e3 0x1d5e3, IM_Mapped [0x70]);
  (R 0x1d5e4 0x1d5e4, IM_Mapped [0x71]);
  (R 0x1d5e5 0x1d5e5, IM_Mapped [0x72]);
  (R 0x1d5e6 0x1d5e6, IM_Mapped [0x73]);
  (R 0x1d5e7 0x1d5e7, IM_Mapped [0x74]);
  (R 0x1d5e8 0x1d5e8, IM_Mapped [0x75]);
  (R 0x1d5e9 0x1d5e9, IM_Mapped [0x76]);
  (R 0x1d5ea 0x1d5ea, IM_Mapped [0x77]);
  (R 0x1d5eb 0x1d5eb, IM_Mapped [0x78]);
  (R 0x1d5ec 0x1d5ec, IM_Mapped [0x79]);
  (R 0x1d5ed 0x1d5ed, IM_Mapped [0x7a]);
  (R 0x1d5ee 0x1d5ee, IM_Mapped [0x61]);
  (R 0x1d5ef 0x1d5ef, IM_Mapped [0x62]);
  (R 0x1d5f0 0x1d5f0, IM_Mapped [0x63]);
  (R 0x1d5f1 0x1d5f1, IM_Mapped [0x64]);
  (R 0x1d5f2 0x1d5f2, IM_Mapped [0x65]);
  (R 0x1d5f3 0x1d5f3, IM_Mapped [0x66]);
  (R 0x1d5f4 0x1d5f4, IM_Mapped [0x67]);
  (R 0x1d5f5 0x1d5f5, IM_Mapped [0x68]);
  (R 0x1d5f6 0x1d5f6, IM_Mapped [0x69]);
  (R 0x1d5f7 0x1d5f7, IM_Mapped [0x6a]);
  (R 0x1d5f8 0x1d5f8, IM_Mapped [0x6b]);
  (R 0x1d5f9 0x1d5f9, IM_Mapped [0x6c]);
  (R 0x1d5fa 0x1d5fa, IM_Mapped [0x6d]);
  (R 0x1d5fb 0x1d5fb, IM_Mapped [0x6e]);
  (R 0x1d5fc 0x1d5fc, IM_Mapped [0x6f]);
  (R 0x1d5fd 0x1d5fd, IM_Mapped [0x70]);
  (R 0x1d5fe 0x1d5fe, IM_Mapped [0x71]);
  (R 0x1d5ff 0x1d5ff, IM_Mapped [0x72]);
  (R 0x1d600 0x1d600, IM_Mapped [0x73]);
  (R 0x1d601 0x1d601, IM_Mapped [0x74]);
  (R 0x1d602 0x1d602, IM_Mapped [0x75]);
  (R 0x1d603 0x1d603, IM_Mapped [0x76]);
  (R 0x1d604 0x1d604, IM_Mapped [0x77]);
  (R 0x1d605 0x1d605, IM_Mapped [0x78]);
  (R 0x1d606 0x1d606, IM_Mapped [0x79]);
  (R 0x1d607 0x1d607, IM_Mapped [0x7a]);
  (R 0x1d608 0x1d608, IM_Mapped [0x61]);
  (R 0x1d609 0x1d609, IM_Mapped [0x62]);
  (R 0x1d60a 0x1d60a, IM_Mapped [0x63]);
  (R 0x1d60b 0x1d60b, IM_Mapped [0x64]);
  (R 0x1d60c 0x1d60c, IM_Mapped [0x65]);
  (R 0x1d60d 0x1d60d, IM_Mapped [0x66]);
  (R 0x1d60e 0x1d60e, IM_Mapped [0x67]);
  (R 0x1d60f 0x1d60f, IM_Mapped [0x68]);
  (R 0x1d610 0x1d610, IM_Mapped [0x69]);
  (R 0x1d611 0x1d611, IM_Mapped [0x6a]);
  (R 0x1d612 0x1d612, IM_Mapped [0x6b]);
  (R 0x1d613 0x1d613, IM_Mapped [0x6c]);
  (R 0x1d614 0x1d614, IM_Mapped [0x6d]);
  (R 0x1d615 0x1d615, IM_Mapped [0x6e]);
  (R 0x1d616 0x1d616, IM_Mapped [0x6f]);
  (R 0x1d617 0x1d617, IM_Mapped [0x70]);
  (R 0x1d618 0x1d618, IM_Mapped [0x71]);
  (R 0x1d619 0x1d619, IM_Mapped [0x72]);
  (R 0x1d61a 0x1d61a, IM_Mapped [0x73]);
  (R 0x1d61b 0x1d61b, IM_Mapped [0x74]);
  (R 0x1d61c 0x1d61c, IM_Mapped [0x75]);
  (R 0x1d61d 0x1d61d, IM_Mapped [0x76]);
  (R 0x1d61e 0x1d61e, IM_Mapped [0x77]);
  (R 0x1d61f 0x1d61f, IM_Mapped [0x78]);
  (R 0x1d620 0x1d620, IM_Mapped [0x79]);
  (R 0x1d621 0x1d621, IM_Mapped [0x7a]);
  (R 0x1d622 0x1d622, IM_Mapped [0x61]);
  (R 0x1d623 0x1d623, IM_Mapped [0x62]);
  (R 0x1d624 0x1d624, IM_Mapped [0x63]);
  (R 0x1d625 0x1d625, IM_Mapped [0x64]);
  (R 0x1d626 0x1d626, IM_Mapped [0x65]);
  (R 0x1d627 0x1d627, IM_Mapped [0x66]);
  (R 0x1d628 0x1d628, IM_Mapped [0x67]);
  (R 0x1d629 0x1d629, IM_Mapped [0x68]);
  (R 0x1d62a 0x1d62a, IM_Mapped [0x69]);
  (R 0x1d62b 0x1d62b, IM_Mapped [0x6a]);
  (R 0x1d62c 0x1d62c, IM_Mapped [0x6b]);
  (R 0x1d62d 0x1d62d, IM_Mapped [0x6c]);
  (R 0x1d62e 0x1d62e, IM_Mapped [0x6d]);
  (R 0x1d62f 0x1d62f, IM_Mapped [0x6e]);
  (R 0x1d630 0x1d630, IM_Mapped [0x6f]);
  (R 0x1d631 0x1d631, IM_Mapped [0x70]);
  (R 0x1d632 0x1d632, IM_Mapped [0x71]);
  (R 0x1d633 0x1d633, IM_Mapped [0x72]);
  (R 0x1d634 0x1d634, IM_Mapped [0x73]);
  (R 0x1d635 0x1d635, IM_Mapped [0x74]);
  (R 0x1d636 0x1d636, IM_Mapped [0x75]);
  (R 0x1d637 0x1d637, IM_Mapped [0x76]);
  (R 0x1d638 0x1d638, IM_Mapped [0x77]);
  (R 0x1d639 0x1d639, IM_Mapped [0x78]);
  (R 0x1d63a 0x1d63a, IM_Mapped [0x79]);
  (R 0x1d63b 0x1d63b, IM_Mapped [0x7a]);
  (R 0x1d63c 0x1d63c, IM_Mapped [0x61]);
  (R 0x1d63d 0x1d63d, IM_Mapped [0x62]);
  (R 0x1d63e 0x1d63e, IM_Mapped [0x63]);
  (R 0x1d63f 0x1d63f, IM_Mapped [0x64]);
  (R 0x1d640 0x1d640, IM_Mapped [0x65]);
  (R 0x1d641 0x1d641, IM_Mapped [0x66]);
  (R 0x1d642 0x1d642, IM_Mapped [0x67]);
  (R 0x1d643 0x1d643, IM_Mapped [0x68]);
  (R 0x1d644 0x1d644, IM_Mapped [0x69]);
  (R 0x1d645 0x1d645, IM_Mapped [0x6a]);
  (R 0x1d646 0x1d646, IM_Mapped [0x6b]);
  (R 0x1d647 0x1d647, IM_Mapped [0x6c]);
  (R 0x1d648 0x1d648, IM_Mapped [0x6d]);
  (R 0x1d649 0x1d649, IM_Mapped [0x6e]);
  (R 0x1d64a 0x1d64a, IM_Mapped [0x6f]);
  (R 0x1d64b 0x1d64b, IM_Mapped [0x70]);
  (R 0x1d64c 0x1d64c, IM_Mapped [0x71]);
  (R 0x1d64d 0x1d64d, IM_Mapped [0x72]);
  (R 0x1d64e 0x1d64e, IM_Mapped [0x73]);
  (R 0x1d64f 0x1d64f, IM_Mapped [0x74]);
  (R 0x1d650 0x1d650, IM_Mapped [0x75]);
  (R 0x1d651 0x1d651, IM_Mapped [0x76]);
  (R 0x1d652 0x1d652, IM_Mapped [0x77]);
  (R 0x1d653 0x1d653, IM_Mapped [0x78]);
  (R 0x1d654 0x1d654, IM_Mapped [0x79]);
  (R 0x1d655 0x1d655, IM_Mapped [0x7a]);
  (R 0x1d656 0x1d656, IM_Mapped [0x61]);
  (R 0x1d657 0x1d657, IM_Mapped [0x62]);
  (R 0x1d658 0x1d658, IM_Mapped [0x63]);
  (R 0x1d659 0x1d659, IM_Mapped [0x64]);
  (R 0x1d65a 0x1d65a, IM_Mapped [0x65]);
  (R 0x1d65b 0x1d65b, IM_Mapped [0x66]);
  (R 0x1d65c 0x1d65c, IM_Mapped [0x67]);
  (R 0x1d65d 0x1d65d, IM_Mapped [0x68]);
  (R 0x1d65e 0x1d65e, IM_Mapped [0x69]);
  (R 0x1d65f 0x1d65f, IM_Mapped [0x6a]);
  (R 0x1d660 0x1d660, IM_Mapped [0x6b]);
  (R 0x1d661 0x1d661, IM_Mapped [0x6c]);
  (R 0x1d662 0x1d662, IM_Mapped [0x6d]);
  (R 0x1d663 0x1d663, IM_Mapped [0x6e]);
  (R 0x1d664 0x1d664, IM_Mapped [0x6f]);
  (R 0x1d665 0x1d665, IM_Mapped [0x70]);
  (R 0x1d666 0x1d666, IM_Mapped [0x71]);
  (R 0x1d667 0x1d667, IM_Mapped [0x72]);
  (R 0x1d668 0x1d668, IM_Mapped [0x73]);
  (R 0x1d669 0x1d669, IM_Mapped [0x74]);
  (R 0x1d66a 0x1d66a, IM_Mapped [0x75]);
  (R 0x1d66b 0x1d66b, IM_Mapped [0x76]);
  (R 0x1d66c 0x1d66c, IM_Mapped [0x77]);
  (R 0x1d66d 0x1d66d, IM_Mapped [0x78]);
  (R 0x1d66e 0x1d66e, IM_Mapped [0x79]);
  (R 0x1d66f 0x1d66f, IM_Mapped [0x7a]);
  (R 0x1d670 0x1d670, IM_Mapped [0x61]);
  (R 0x1d671 0x1d671, IM_Mapped [0x62]);
  (R 0x1d672 0x1d672, IM_Mapped [0x63]);
  (R 0x1d673 0x1d673, IM_Mapped [0x64]);
  (R 0x1d674 0x1d674, IM_Mapped [0x65]);
  (R 0x1d675 0x1d675, IM_Mapped [0x66]);
  (R 0x1d676 0x1d676, IM_Mapped [0x67]);
  (R 0x1d677 0x1d677, IM_Mapped [0x68]);
  (R 0x1d678 0x1d678, IM_Mapped [0x69]);
  (R 0x1d679 0x1d679, IM_Mapped [0x6a]);
  (R 0x1d67a 0x1d67a, IM_Mapped [0x6b]);
  (R 0x1d67b 0x1d67b, IM_Mapped [0x6c]);
  (R 0x1d67c 0x1d67c, IM_Mapped [0x6d]);
  (R 0x1d67d 0x1d67d, IM_Mapped [0x6e]);
  (R 0x1d67e 0x1d67e, IM_Mapped [0x6f]);
  (R 0x1d67f 0x1d67f, IM_Mapped [0x70]);
  (R 0x1d680 0x1d680, IM_Mapped [0x71]);
  (R 0x1d681 0x1d681, IM_Mapped [0x72]);
  (R 0x1d682 0x1d682, IM_Mapped [0x73]);
  (R 0x1d683 0x1d683, IM_Mapped [0x74]);
  (R 0x1d684 0x1d684, IM_Mapped [0x75]);
  (R 0x1d685 0x1d685, IM_Mapped [0x76]);
  (R 0x1d686 0x1d686, IM_Mapped [0x77]);
  (R 0x1d687 0x1d687, IM_Mapped [0x78]);
  (R 0x1d688 0x1d688, IM_Mapped [0x79]);
  (R 0x1d689 0x1d689, IM_Mapped [0x7a]);
  (R 0x1d68a 0x1d68a, IM_Mapped [0x61]);
  (R 0x1d68b 0x1d68b, IM_Mapped [0x62]);
  (R 0x1d68c 0x1d68c, IM_Mapped [0x63]);
  (R 0x1d68d 0x1d68d, IM_Mapped [0x64]);
  (R 0x1d68e 0x1d68e, IM_Mapped [0x65]);
  (R 0x1d68f 0x1d68f, IM_Mapped [0x66]);
  (R 0x1d690 0x1d690, IM_Mapped [0x67]);
  (R 0x1d691 0x1d691, IM_Mapped [0x68]);
  (R 0x1d692 0x1d692, IM_Mapped [0x69]);
  (R 0x1d693 0x1d693, IM_Mapped [0x6a]);
  (R 0x1d694 0x1d694, IM_Mapped [0x6b]);
  (R 0x1d695 0x1d695, IM_Mapped [0x6c]);
  (R 0x1d696 0x1d696, IM_Mapped [0x6d]);
  (R 0x1d697 0x1d697, IM_Mapped [0x6e]);
  (R 0x1d698 0x1d698, IM_Mapped [0x6f]);
  (R 0x1d699 0x1d699, IM_Mapped [0x70]);
  (R 0x1d69a 0x1d69a, IM_Mapped [0x71]);
  (R 0x1d69b 0x1d69b, IM_Mapped [0x72]);
  (R 0x1d69c 0x1d69c, IM_Mapped [0x73]);
  (R 0x1d69d 0x1d69d, IM_Mapped [0x74]);
  (R 0x1d69e 0x1d69e, IM_Mapped [0x75]);
  (R 0x1d69f 0x1d69f, IM_Mapped [0x76]);
  (R 0x1d6a0 0x1d6a0, IM_Mapped [0x77]);
  (R 0x1d6a1 0x1d6a1, IM_Mapped [0x78]);
  (R 0x1d6a2 0x1d6a2, IM_Mapped [0x79]);
  (R 0x1d6a3 0x1d6a3, IM_Mapped [0x7a]);
  (R 0x1d6a4 0x1d6a4, IM_Mapped [0x131]);
  (R 0x1d6a5 0x1d6a5, IM_Mapped [0x237]);
  (R 0x1d6a6 0x1d6a7, IM_Disallowed);
  (R 0x1d6a8 0x1d6a8, IM_Mapped [0x3b1]);
  (R 0x1d6a9 0x1d6a9, IM_Mapped [0x3b2]);
  (R 0x1d6aa 0x1d6aa, IM_Mapped [0x3b3]);
  (R 0x1d6ab 0x1d6ab, IM_Mapped [0x3b4]);
  (R 0x1d6ac 0x1d6ac, IM_Mapped [0x3b5]);
  (R 0x1d6ad 0x1d6ad, IM_Mapped [0x3b6]);
  (R 0x1d6ae 0x1d6ae, IM_Mapped [0x3b7]);
  (R 0x1d6af 0x1d6af, IM_Mapped [0x3b8]);
  (R 0x1d6b0 0x1d6b0, IM_Mapped [0x3b9]);
  (R 0x1d6b1 0x1d6b1, IM_Mapped [0x3ba]);
  (R 0x1d6b2 0x1d6b2, IM_Mapped [0x3bb]);
  (R 0x1d6b3 0x1d6b3, IM_Mapped [0x3bc]);
  (R 0x1d6b4 0x1d6b4, IM_Mapped [0x3bd]);
  (R 0x1d6b5 0x1d6b5, IM_Mapped [0x3be]);
  (R 0x1d6b6 0x1d6b6, IM_Mapped [0x3bf]);
  (R 0x1d6b7 0x1d6b7, IM_Mapped [0x3c0]);
  (R 0x1d6b8 0x1d6b8, IM_Mapped [0x3c1]);
  (R 0x1d6b9 0x1d6b9, IM_Mapped [0x3b8]);
  (R 0x1d6ba 0x1d6ba, IM_Mapped [0x3c3]);
  (R 0x1d6bb 0x1d6bb, IM_Mapped [0x3c4]);
  (R 0x1d6bc 0x1d6bc, IM_Mapped [0x3c5]);
  (R 0x1d6bd 0x1d6bd, IM_Mapped [0x3c6]);
  (R 0x1d6be 0x1d6be, IM_Mapped [0x3c7]);
  (R 0x1d6bf 0x1d6bf, IM_Mapped [0x3c8]);
  (R 0x1d6c0 0x1d6c0, IM_Mapped [0x3c9]);
  (R 0x1d6c1 0x1d6c1, IM_Mapped [0x2207]);
  (R 0x1d6c2 0x1d6c2, IM_Mapped [0x3b1]);
  (R 0x1d6c3 0x1d6c3, IM_Mapped [0x3b2]);
  (R 0x1d6c4 0x1d6c4, IM_Mapped [0x3b3]);
  (R 0x1d6c5 0x1d6c5, IM_Mapped [0x3b4]);
  (R 0x1d6c6 0x1d6c6, IM_Mapped [0x3b5]);
  (R 0x1d6c7 0x1d6c7, IM_Mapped [0x3b6]);
  (R 0x1d6c8 0x1d6c8, IM_Mapped [0x3b7]);
  (R 0x1d6c9 0x1d6c9, IM_Mapped [0x3b8]);
  (R 0x1d6ca 0x1d6ca, IM_Mapped [0x3b9]);
  (R 0x1d6cb 0x1d6cb, IM_Mapped [0x3ba]);
  (R 0x1d6cc 0x1d6cc, IM_Mapped [0x3bb]);
  (R 0x1d6cd 0x1d6cd, IM_Mapped [0x3bc]);
  (R 0x1d6ce 0x1d6ce, IM_Mapped [0x3bd]);
  (R 0x1d6cf 0x1d6cf, IM_Mapped [0x3be]);
  (R 0x1d6d0 0x1d6d0, IM_Mapped [0x3bf]);
  (R 0x1d6d1 0x1d6d1, IM_Mapped [0x3c0]);
  (R 0x1d6d2 0x1d6d2, IM_Mapped [0x3c1]);
  (R 0x1d6d3 0x1d6d4, IM_Mapped [0x3c3]);
  (R 0x1d6d5 0x1d6d5, IM_Mapped [0x3c4]);
  (R 0x1d6d6 0x1d6d6, IM_Mapped [0x3c5]);
  (R 0x1d6d7 0x1d6d7, IM_Mapped [0x3c6]);
  (R 0x1d6d8 0x1d6d8, IM_Mapped [0x3c7]);
  (R 0x1d6d9 0x1d6d9, IM_Mapped [0x3c8]);
  (R 0x1d6da 0x1d6da, IM_Mapped [0x3c9]);
  (R 0x1d6db 0x1d6db, IM_Mapped [0x2202]);
  (R 0x1d6dc 0x1d6dc, IM_Mapped [0x3b5]);
  (R 0x1d6dd 0x1d6dd, IM_Mapped [0x3b8]);
  (R 0x1d6de 0x1d6de, IM_Mapped [0x3ba]);
  (R 0x1d6df 0x1d6df, IM_Mapped [0x3c6]);
  (R 0x1d6e0 0x1d6e0, IM_Mapped [0x3c1]);
  (R 0x1d6e1 0x1d6e1, IM_Mapped [0x3c0]);
  (R 0x1d6e2 0x1d6e2, IM_Mapped [0x3b1]);
  (R 0x1d6e3 0x1d6e3, IM_Mapped [0x3b2]);
  (R 0x1d6e4 0x1d6e4, IM_Mapped [0x3b3]);
  (R 0x1d6e5 0x1d6e5, IM_Mapped [0x3b4]);
  (R 0x1d6e6 0x1d6e6, IM_Mapped [0x3b5]);
  (R 0x1d6e7 0x1d6e7, IM_Mapped [0x3b6]);
  (R 0x1d6e8 0x1d6e8, IM_Mapped [0x3b7]);
  (R 0x1d6e9 0x1d6e9, IM_Mapped [0x3b8]);
  (R 0x1d6ea 0x1d6ea, IM_Mapped [0x3b9]);
  (R 0x1d6eb 0x1d6eb, IM_Mapped [0x3ba]);
  (R 0x1d6ec 0x1d6ec, IM_Mapped [0x3bb]);
  (R 0x1d6ed 0x1d6ed, IM_Mapped [0x3bc]);
  (R 0x1d6ee 0x1d6ee, IM_Mapped [0x3bd]);
  (R 0x1d6ef 0x1d6ef, IM_Mapped [0x3be]);
  (R 0x1d6f0 0x1d6f0, IM_Mapped [0x3bf]);
  (R 0x1d6f1 0x1d6f1, IM_Mapped [0x3c0]);
  (R 0x1d6f2 0x1d6f2, IM_Mapped [0x3c1]);
  (R 0x1d6f3 0x1d6f3, IM_Mapped [0x3b8]);
  (R 0x1d6f4 0x1d6f4, IM_Mapped [0x3c3]);
  (R 0x1d6f5 0x1d6f5, IM_Mapped [0x3c4]);
  (R 0x1d6f6 0x1d6f6, IM_Mapped [0x3c5]);
  (R 0x1d6f7 0x1d6f7, IM_Mapped [0x3c6]);
  (R 0x1d6f8 0x1d6f8, IM_Mapped [0x3c7]);
  (R 0x1d6f9 0x1d6f9, IM_Mapped [0x3c8]);
  (R 0x1d6fa 0x1d6fa, IM_Mapped [0x3c9]);
  (R 0x1d6fb 0x1d6fb, IM_Mapped [0x2207]);
  (R 0x1d6fc 0x1d6fc, IM_Mapped [0x3b1]);
  (R 0x1d6fd 0x1d6fd, IM_Mapped [0x3b2]);
  (R 0x1d6fe 0x1d6fe, IM_Mapped [0x3b3]);
  (R 0x1d6ff 0x1d6ff, IM_Mapped [0x3b4]);
  (R 0x1d700 0x1d700, IM_Mapped [0x3b5]);
  (R 0x1d701 0x1d701, IM_Mapped [0x3b6]);
  (R 0x1d702 0x1d702, IM_Mapped [0x3b7]);
  (R 0x1d703 0x1d703, IM_Mapped [0x3b8]);
  (R 0x1d704 0x1d704, IM_Mapped [0x3b9]);
  (R 0x1d705 0x1d705, IM_Mapped [0x3ba]);
  (R 0x1d706 0x1d706, IM_Mapped [0x3bb]);
  (R 0x1d707 0x1d707, IM_Mapped [0x3bc]);
  (R 0x1d708 0x1d708, IM_Mapped [0x3bd]);
  (R 0x1d709 0x1d709, IM_Mapped [0x3be])].

Definition MAPPING_16 : list (CharRange * Mapping) := [
  (R 0x1d70a 0x1d70a, IM_Mapped [0x3bf]);
  (R 0x1d70b 0x1d70b, IM_Mapped [0x3c0]);
  (R 0x1d70c 0x1d70c, IM_Mapped [0x3c1]);
  (R 0x1d70d 0x1d70e, IM_Mapped [0x3c3]);
  (R 0x1d70f 0x1d70f, IM_Mapped [0x3c4]);
  (R 0x1d710 0x1d710, IM_Mapped [0x3c5]);
  (R 0x1d711 0x1d711, IM_Mapped [0x3c6]);
  (R 0x1d712 0x1d712, IM_Mapped [0x3c7]);
  (R 0x1d713 0x1d713, IM_Mapped [0x3c8]);
  (R 0x1d714 0x1d714, IM_Mapped [0x3c9]);
  (R 0x1d715 0x1d715, IM_Mapped [0x2202]);
  (R 0x1d716 0x1d716, IM_Mapped [0x3b5]);
  (R 0x1d717 0x1d717, IM_Mapped [0x3b8]);
  (R 0x1d718 0x1d718, IM_Mapped [0x3ba]);
  (R 0x1d719 0x1d719, IM_Mapped [0x3c6]);
  (R 0x1d71a 0x1d71a, IM_Mapped [0x3c1]);
  (R 0x1d71b 0x1d71b, IM_Mapped [0x3c0]);
  (R 0x1d71c 0x1d71c, IM_Mapped [0x3b1]);
  (R 0x1d71d 0x1d71d, IM_Mapped [0x3b2]);
  (R 0x1d71e 0x1d71e, IM_Mapped [0x3b3]);
  (R 0x1d71f 0x1d71f, IM_Mapped [0x3b4]);
  (R 0x1d720 0x1d720, IM_Mapped [0x3b5]);
  (R 0x1d721 0x1d721, IM_Mapped [0x3b6]);
  (R 0x1d722 0x1d722, IM_Mapped [0x3b7]);
  (R 0x1d723 0x1d723, IM_Mapped [0x3b8]);
  (R 0x1d724 0x1d724, IM_Mapped [0x3b9]);
  (R 0x1d725 0x1d725, IM_Mapped [0x3ba]);
  (R 0x1d726 0x1d726, IM_Mapped [0x3bb]);
  (R 0x1d727 0x1d727, IM_Mapped [0x3bc]);
  (R 0x1d728 0x1d728, IM_Mapped [0x3bd]);
  (R 0x1d729 0x1d729, IM_Mapped [0x3be]);
  (R 0x1d72a 0x1d72a, IM_Mapped [0x3bf]);
  (R 0x1d72b 0x1d72b, IM_Mapped [0x3c0]);
  (R 0x1d72c 0x1d72c, IM_Mapped [0x3c1]);
  (R 0x1d72d 0x1d72d, IM_Mapped [0x3b8]);
  (R 0x1d72e 0x1d72e, IM_Mapped [0x3c3]);
  (R 0x1d72f 0x1d72f, IM_Mapped [0x3c4]);
  (R 0x1d730 0x1d730, IM_Mapped [0x3c5]);
  (R 0x1d731 0x1d731, IM_Mapped [0x3c6]);
  (R 0x1d732 0x1d732, IM_Mapped [0x3c7]);
  (R 0x1d733 0x1d733, IM_Mapped [0x3c8]);
  (R 0x1d734 0x1d734, IM_Mapped [0x3c9]);
  (R 0x1d735 0x1d735, IM_Mapped [0x2207]);
  (R 0x1d736 0x1d736, IM_Mapped [0x3b1]);
  (R 0x1d737 0x1d737, IM_Mapped [0x3b2]);
  (R 0x1d738 0x1d738, IM_Mapped [0x3b3]);
  (R 0x1d739 0x1d739, IM_Mapped [0x3b4]);
  (R 0x1d73a 0x1d73a, IM_Mapped [0x3b5]);
  (R 0x1d73b 0x1d73b, IM_Mapped [0x3b6]);
  (R 0x1d73c 0x1d73c, IM_Mapped [0x3b7]);
  (R 0x1d73d 0x1d73d, IM_Mapped [0x3b8]);
  (R 0x1d73e 0x1d73e, IM_Mapped [0x3b9]);
  (R 0x1d73f 0x1d73f, IM_Mapped [0x3ba]);
  (R 0x1d740 0x1d740, IM_Mapped [0x3bb]);
  (R 0x1d741 0x1d741, IM_Mapped [0x3bc]);
  (R 0x1d742 0x1d742, IM_Mapped [0x3bd]);
  (R 0x1d743 0x1d743, IM_Mapped [0x3be]);
  (R 0x1d744 0x1d744, IM_Mapped [0x3bf]);
  (R 0x1d745 0x1d745, IM_Mapped [0x3c0]);
  (R 0x1d746 0x1d746, IM_Mapped [0x3c1]);
  (R 0x1d747 0x1d748, IM_Mapped [0x3c3]);
  (R 0x1d749 0x1d749, IM_Mapped [0x3c4]);
  (R 0x1d74a 0x1d74a, IM_Mapped [0x3c5]);
  (R 0x1d74b 0x1d74b, IM_Mapped [0x3c6]);
  (R 0x1d74c 0x1d74c, IM_Mapped [0x3c7]);
  (R 0x1d74d 0x1d74d, IM_Mapped [0x3c8]);
  (R 0x1d74e 0x1d74e, IM_Mapped [0x3c9]);
  (R 0x1d74f 0x1d74f, IM_Mapped [0x2202]);
  (R 0x1d750 0x1d750, IM_Mapped [0x3b5]);
  (R 0x1d751 0x1d751, IM_Mapped [0x3b8]);
  (R 0x1d752 0x1d752, IM_Mapped [0x3ba]);
  (R 0x1d753 0x1d753, IM_Mapped [0x3c6]);
  (R 0x1d754 0x1d754, IM_Mapped [0x3c1]);
  (R 0x1d755 0x1d755, IM_Mapped [0x3c0]);
  (R 0x1d756 0x1d756, IM_Mapped [0x3b1]);
  (R 0x1d757 0x1d757, IM_Mapped [0x3b2]);
  (R 0x1d758 0x1d758, IM_Mapped [0x3b3]);
  (R 0x1d759 0x1d759, IM_Mapped [0x3b4]);
  (R 0x1d75a 0x1d75a, IM_Mapped [0x3b5]);
  (R 0x1d75b 0x1d75b, IM_Mapped [0x3b6]);
  (R 0x1d75c 0x1d75c, IM_Mapped [0x3b7]);
  (R 0x1d75d 0x1d75d, IM_Mapped [0x3b8]);
  (R 0x1d75e 0x1d75e, IM_Mapped [0x3b9]);
  (R 0x1d75f 0x1d75f, IM_Mapped [0x3ba]);
  (R 0x1d760 0x1d760, IM_Mapped [0x3bb]);
  (R 0x1d761 0x1d761, IM_Mapped [0x3bc]);
  (R 0x1d762 0x1d762, IM_Mapped [0x3bd]);
  (R 0x1d763 0x1d763, IM_Mapped [0x3be]);
  (R 0x1d764 0x1d764, IM_Mapped [0x3bf]);
  (R 0x1d765 0x1d765, IM_Mapped [0x3c0]);
  (R 0x1d766 0x1d766, IM_Mapped [0x3c1]);
  (R 0x1d767 0x1d767, IM_Mapped [0x3b8]);
  (R 0x1d768 0x1d768, IM_Mapped [0x3c3]);
  (R 0x1d769 0x1d769, IM_Mapped [0x3c4]);
  (R 0x1d76a 0x1d76a, IM_Mapped [0x3c5]);
  (R 0x1d76b 0x1d76b, IM_Mapped [0x3c6]);
  (R 0x1d76c 0x1d76c, IM_Mapped [0x3c7]);
  (R 0x1d76d 0x1d76d, IM_Mapped [0x3c8]);
  (R 0x1d76e 0x1d76e, IM_Mapped [0x3c9]);
  (R 0x1d76f 0x1d76f, IM_Mapped [0x2207]);
  (R 0x1d770 0x1d770, IM_Mapped [0x3b1]);
  (R 0x1d771 0x1d771, IM_Mapped [0x3b2]);
  (R 0x1d772 0x1d772, IM_Mapped [0x3b3]);
  (R 0x1d773 0x1d773, IM_Mapped [0x3b4]);
  (R 0x1d774 0x1d774, IM_Mapped [0x3b5]);
  (R 0x1d775 0x1d775, IM_Mapped [0x3b6]);
  (R 0x1d776 0x1d776, IM_Mapped [0x3b7]);
  (R 0x1d777 0x1d777, IM_Mapped [0x3b8]);
  (R 0x1d778 0x1d778, IM_Mapped [0x3b9]);
  (R 0x1d779 0x1d779, IM_Mapped [0x3ba]);
  (R 0x1d77a 0x1d77a, IM_Mapped [0x3bb]);
  (R 0x1d77b 0x1d77b, IM_Mapped [0x3bc]);
  (R 0x1d77c 0x1d77c, IM_Mapped [0x3bd]);
  (R 0x1d77d 0x1d77d, IM_Mapped [0x3be]);
  (R 0x1d77e 0x1d77e, IM_Mapped [0x3bf]);
  (R 0x1d77f 0x1d77f, IM_Mapped [0x3c0]);
  (R 0x1d780 0x1d780, IM_Mapped [0x3c1]);
  (R 0x1d781 0x1d782, IM_Mapped [0x3c3]);
  (R 0x1d783 0x1d783, IM_Mapped [0x3c4]);
  (R 0x1d784 0x1d784, IM_Mapped [0x3c5]);
  (R 0x1d785 0x1d785, IM_Mapped [0x3c6]);
  (R 0x1d786 0x1d786, IM_Mapped [0x3c7]);
  (R 0x1d787 0x1d787, IM_Mapped [0x3c8]);
  (R 0x1d788 0x1d788, IM_Mapped [0x3c9]);
  (R 0x1d789 0x1d789, IM_Mapped [0x2202]);
  (R 0x1d78a 0x1d78a, IM_Mapped [0x3b5]);
  (R 0x1d78b 0x1d78b, IM_Mapped [0x3b8]);
  (R 0x1d78c 0x1d78c, IM_Mapped [0x3ba]);
  (R 0x1d78d 0x1d78d, IM_Mapped [0x3c6]);
  (R 0x1d78e 0x1d78e, IM_Mapped [0x3c1]);
  (R 0x1d78f 0x1d78f, IM_Mapped [0x3c0]);
  (R 0x1d790 0x1d790, IM_Mapped [0x3b1]);
  (R 0x1d791 0x1d791, IM_Mapped [0x3b2]);
  (R 0x1d792 0x1d792, IM_Mapped [0x3b3]);
  (R 0x1d793 0x1d793, IM_Mapped [0x3b4]);
  (R 0x1d794 0x1d794, IM_Mapped [0x3b5]);
  (R 0x1d795 0x1d795, IM_Mapped [0x3b6]);
  (R 0x1d796 0x1d796, IM_Mapped [0x3b7]);
  (R 0x1d797 0x1d797, IM_Mapped [0x3b8]);
  (R 0x1d798 0x1d798, IM_Mapped [0x3b9]);
  (R 0x1d799 0x1d799, IM_Mapped [0x3ba]);
  (R 0x1d79a 0x1d79a, IM_Mapped [0x3bb]);
  (R 0x1d79b 0x1d79b, IM_Mapped [0x3bc]);
  (R 0x1d79c 0x1d79c, IM_Mapped [0x3bd]);
  (R 0x1d79d 0x1d79d, IM_Mapped [0x3be]);
  (R 0x1d79e 0x1d79e, IM_Mapped [0x3bf]);
  (R 0x1d79f 0x1d79f, IM_Mapped [0x3c0]);
  (R 0x1d7a0 0x1d7a0, IM_Mapped [0x3c1]);
  (R 0x1d7a1 0x1d7a1, IM_Mapped [0x3b8]);
  (R 0x1d7a2 0x1d7a2, IM_Mapped [0x3c3]);
  (R 0x1d7a3 0x1d7a3, IM_Mapped [0x3c4]);
  (R 0x1d7a4 0x1d7a4, IM_Mapped [0x3c5]);
  (R 0x1d7a5 0x1d7a5, IM_Mapped [0x3c6]);
  (R 0x1d7a6 0x1d7a6, IM_Mapped [0x3c7]);
  (R 0x1d7a7 0x1d7a7, IM_Mapped [0x3c8]);
  (R 0x1d7a8 0x1d7a8, IM_Mapped [0x3c9]);
  (R 0x1d7a9 0x1d7a9, IM_Mapped [0x2207]);
  (R 0x1d7aa 0x1d7aa, IM_Mapped [0x3b1]);
  (R 0x1d7ab 0x1d7ab, IM_Mapped [0x3b2]);
  (R 0x1d7ac 0x1d7ac, IM_Mapped [0x3b3]);
  (R 0x1d7ad 0x1d7ad, IM_Mapped [0x3b4]);
  (R 0x1d7ae 0x1d7ae, IM_Mapped [0x3b5]);
  (R 0x1d7af 0x1d7af, IM_Mapped [0x3b6]);
  (R 0x1d7b0 0x1d7b0, IM_Mapped [0x3b7]);
  (R 0x1d7b1 0x1d7b1, IM_Mapped [0x3b8]);
  (R 0x1d7b2 0x1d7b2, IM_Mapped [0x3b9]);
  (R 0x1d7b3 0x1d7b3, IM_Mapped [0x3ba]);
  (R 0x1d7b4 0x1d7b4, IM_Mapped [0x3bb]);
  (R 0x1d7b5 0x1d7b5, IM_Mapped [0x3bc]);
  (R 0x1d7b6 0x1d7b6, IM_Mapped [0x3bd]);
  (R 0x1d7b7 0x1d7b7, IM_Mapped [0x3be]);
  (R 0x1d7b8 0x1d7b8, IM_Mapped [0x3bf]);
  (R 0x1d7b9 0x1d7b9, IM_Mapped [0x3c0]);
  (R 0x1d7ba 0x1d7ba, IM_Mapped [0x3c1]);
  (R 0x1d7bb 0x1d7bc, IM_Mapped [0x3c3]);
  (R 0x1d7bd 0x1d7bd, IM_Mapped [0x3c4]);
  (R 0x1d7be 0x1d7be, IM_Mapped [0x3c5]);
  (R 0x1d7bf 0x1d7bf, IM_Mapped [0x3c6]);
  (R 0x1d7c0 0x1d7c0, IM_Mapped [0x3c7]);
  (R 0x1d7c1 0x1d7c1, IM_Mapped [0x3c8]);
  (R 0x1d7c2 0x1d7c2, IM_Mapped [0x3c9]);
  (R 0x1d7c3 0x1d7c3, IM_Mapped [0x2202]);
  (R 0x1d7c4 0x1d7c4, IM_Mapped [0x3b5]);
  (R 0x1d7c5 0x1d7c5, IM_Mapped [0x3b8]);
  (R 0x1d7c6 0x1d7c6, IM_Mapped [0x3ba]);
  (R 0x1d7c7 0x1d7c7, IM_Mapped [0x3c6]);
  (R 0x1d7c8 0x1d7c8, IM_Mapped [0x3c1]);
  (R 0x1d7c9 0x1d7c9, IM_Mapped [0x3c0]);
  (R 0x1d7ca 0x1d7cb, IM_Mapped [0x3dd]);
  (R 0x1d7cc 0x1d7cd, IM_Disallowed);
  (R 0x1d7ce 0x1d7ce, IM_Mapped [0x30]);
  (R 0x1d7cf 0x1d7cf, IM_Mapped [0x31]);
  (R 0x1d7d0 0x1d7d0, IM_Mapped [0x32]);
  (R 0x1d7d1 0x1d7d1, IM_Mapped [0x33]);
  (R 0x1d7d2 0x1d7d2, IM_Mapped [0x34]);
  (R 0x1d7d3 0x1d7d3, IM_Mapped [0x35]);
  (R 0x1d7d4 0x1d7d4, IM_Mapped [0x36]);
  (R 0x1d7d5 0x1d7d5, IM_Mapped [0x37]);
  (R 0x1d7d6 0x1d7d6, IM_Mapped [0x38]);
  (R 0x1d7d7 0x1d7d7, IM_Mapped [0x39]);
  (R 0x1d7d8 0x1d7d8, IM_Mapped [0x30]);
  (R 0x1d7d9 0x1d7d9, IM_Mapped [0x31]);
  (R 0x1d7da 0x1d7da, IM_Mapped [0x32]);
  (R 0x1d7db 0x1d7db, IM_Mapped [0x33]);
  (R 0x1d7dc 0x1d7dc, IM_Mapped [0x34]);
  (R 0x1d7dd 0x1d7dd, IM_Mapped [0x35]);
  (R 0x1d7de 0x1d7de, IM_Mapped [0x36]);
  (R 0x1d7df 0x1d7df, IM_Mapped [0x37]);
  (R 0x1d7e0 0x1d7e0, IM_Mapped [0x38]);
  (R 0x1d7e1 0x1d7e1, IM_Mapped [0x39]);
  (R 0x1d7e2 0x1d7e2, IM_Mapped [0x30]);
  (R 0x1d7e3 0x1d7e3, IM_Mapped [0x31]);
  (R 0x1d7e4 0x1d7e4, IM_Mapped [0x32]);
  (R 0x1d7e5 0x1d7e5, IM_Mapped [0x33]);
  (R 0x1d7e6 0x1d7e6, IM_Mapped [0x34]);
  (R 0x1d7e7 0x1d7e7, IM_Mapped [0x35]);
  (R 0x1d7e8 0x1d7e8, IM_Mapped [0x36]);
  (R 0x1d7e9 0x1d7e9, IM_Mapped [0x37]);
  (R 0x1d7ea 0x1d7ea, IM_Mapped [0x38]);
  (R 0x1d7eb 0x1d7eb, IM_Mapped [0x39]);
  (R 0x1d7ec 0x1d7ec, IM_Mapped [0x30]);
  (R 0x1d7ed 0x1d7ed, IM_Mapped [0x31]);
  (R 0x1d7ee 0x1d7ee, IM_Mapped [0x32]);
  (R 0x1d7ef 0x1d7ef, IM_Mapped [0x33]);
  (R 0x1d7f0 0x1d7f0, IM_Mapped [0x34]);
  (R 0x1d7f1 0x1d7f1, IM_Mapped [0x35]);
  (R 0x1d7f2 0x1d7f2, IM_Mapped [0x36]);
  (R 0x1d7f3 0x1d7f3, IM_Mapped [0x37]);
  (R 0x1d7f4 0x1d7f4, IM_Mapped [0x38]);
  (R 0x1d7f5 0x1d7f5, IM_Mapped [0x39]);
  (R 0x1d7f6 0x1d7f6, IM_Mapped [0x30]);
  (R 0x1d7f7 0x1d7f7, IM_Mapped [0x31]);
  (R 0x1d7f8 0x1d7f8, IM_Mapped [0x32]);
  (R 0x1d7f9 0x1d7f9, IM_Mapped [0x33]);
  (R 0x1d7fa 0x1d7fa, IM_Mapped [0x34]);
  (R 0x1d7fb 0x1d7fb, IM_Mapped [0x35]);
  (R 0x1d7fc 0x1d7fc, IM_Mapped [0x36]);
  (R 0x1d7fd 0x1d7fd, IM_Mapped [0x37]);
  (R 0x1d7fe 0x1d7fe, IM_Mapped [0x38]);
  (R 0x1d7ff 0x1d7ff, IM_Mapped [0x39]);
  (R 0x1d800 0x1da8b, IM_Valid);
  (R 0x1da8c 0x1da9a, IM_Disallowed);
  (R 0x1da9b 0x1da9f, IM_Valid);
  (R 0x1daa0 0x1daa0, IM_Disallowed);
  (R 0x1daa1 0x1daaf, IM_Valid);
  (R 0x1dab0 0x1dfff, IM_Disallowed);
  (R 0x1e000 0x1e006, IM_Valid);
  (R 0x1e007 0x1e007, IM_Disallowed);
  (R 0x1e008 0x1e018, IM_Valid);
  (R 0x1e019 0x1e01a, IM_Disallowed);
  (R 0x1e01b 0x1e021, IM_Valid);
  (R 0x1e022 0x1e022, IM_Disallowed);
  (R 0x1e023 0x1e024, IM_Valid);
  (R 0x1e025 0x1e025, IM_Disallowed);
  (R 0x1e026 0x1e02a, IM_Valid);
  (R 0x1e02b 0x1e7ff, IM_Disallowed);
  (R 0x1e800 0x1e8c4, IM_Valid);
  (R 0x1e8c5 0x1e8c6, IM_Disallowed);
  (R 0x1e8c7 0x1e8d6, IM_Valid);
  (R 0x1e8d7 0x1e8ff, IM_Disallowed);
  (R 0x1e900 0x1e900, IM_Mapped [0x1e922]);
  (R 0x1e901 0x1e901, IM_Mapped [0x1e923]);
  (R 0x1e902 0x1e902, IM_Mapped [0x1e924]);
  (R 0x1e903 0x1e903, IM_Mapped [0x1e925]);
  (R 0x1e904 0x1e904, IM_Mapped [0x1e926]);
  (R 0x1e905 0x1e905, IM_Mapped [0x1e927]);
  (R 0x1e906 0x1e906, IM_Mapped [0x1e928]);
  (R 0x1e907 0x1e907, IM_Mapped [0x1e929]);
  (R 0x1e908 0x1e908, IM_Mapped [0x1e92a]);
  (R 0x1e909 0x1e909, IM_Mapped [0x1e92b]);
  (R 0x1e90a 0x1e90a, IM_Mapped [0x1e92c]);
  (R 0x1e90b 0x1e90b, IM_Mapped [0x1e92d]);
  (R 0x1e90c 0x1e90c, IM_Mapped [0x1e92e]);
  (R 0x1e90d 0x1e90d, IM_Mapped [0x1e92f]);
  (R 0x1e90e 0x1e90e, IM_Mapped [0x1e930]);
  (R 0x1e90f 0x1e90f, IM_Mapped [0x1e931]);
  (R 0x1e910 0x1e910, IM_Mapped [0x1e932]);
  (R 0x1e911 0x1e911, IM_Mapped [0x1e933]);
  (R 0x1e912 0x1e912, IM_Mapped [0x1e934]);
  (R 0x1e913 0x1e913, IM_Mapped [0x1e935]);
  (R 0x1e914 0x1e914, IM_Mapped [0x1e936]);
  (R 0x1e915 0x1e915, IM_Mapped [0x1e937]);
  (R 0x1e916 0x1e916, IM_Mapped [0x1e938]);
  (R 0x1e917 0x1e917, IM_Mapped [0x1e939]);
  (R 0x1e918 0x1e918, IM_Mapped [0x1e93a]);
  (R 0x1e919 0x1e919, IM_Mapped [0x1e93b]);
  (R 0x1e91a 0x1e91a, IM_Mapped [0x1e93c]);
  (R 0x1e91b 0x1e91b, IM_Mapped [0x1e93d]);
  (R 0x1e91c 0x1e91c, IM_Mapped [0x1e93e]);
  (R 0x1e91d 0x1e91d, IM_Mapped [0x1e93f]);
  (R 0x1e91e 0x1e91e, IM_Mapped [0x1e940]);
  (R 0x1e91f 0x1e91f, IM_Mapped [0x1e941]);
  (R 0x1e920 0x1e920, IM_Mapped [0x1e942]);
  (R 0x1e921 0x1e921, IM_Mapped [0x1e943]);
  (R 0x1e922 0x1e94a, IM_Valid);
  (R 0x1e94b 0x1e94f, IM_Disallowed);
  (R 0x1e950 0x1e959, IM_Valid);
  (R 0x1e95a 0x1e95d, IM_Disallowed);
  (R 0x1e95e 0x1e95f, IM_Valid);
  (R 0x1e960 0x1edff, IM_Disallowed);
  (R 0x1ee00 0x1ee00, IM_Mapped [0x627]);
  (R 0x1ee01 0x1ee01, IM_Mapped [0x628]);
  (R 0x1ee02 0x1ee02, IM_Mapped [0x62c]);
  (R 0x1ee03 0x1ee03, IM_Mapped [0x62f]);
  (R 0x1ee04 0x1ee04, IM_Disallowed);
  (R 0x1ee05 0x1ee05, IM_Mapped [0x648]);
  (R 0x1ee06 0x1ee06, IM_Mapped [0x632]);
  (R 0x1ee07 0x1ee07, IM_Mapped [0x62d]);
  (R 0x1ee08 0x1ee08, IM_Mapped [0x637]);
  (R 0x1ee09 0x1ee09, IM_Mapped [0x64a]);
  (R 0x1ee0a 0x1ee0a, IM_Mapped [0x643]);
  (R 0x1ee0b 0x1ee0b, IM_Mapped [0x644]);
  (R 0x1ee0c 0x1ee0c, IM_Mapped [0x645]);
  (R 0x1ee0d 0x1ee0d, IM_Mapped [0x646]);
  (R 0x1ee0e 0x1ee0e, IM_Mapped [0x633]);
  (R 0x1ee0f 0x1ee0f, IM_Mapped [0x639]);
  (R 0x1ee10 0x1ee10, IM_Mapped [0x641]);
  (R 0x1ee11 0x1ee11, IM_Mapped [0x635]);
  (R 0x1ee12 0x1ee12, IM_Mapped [0x642]);
  (R 0x1ee13 0x1ee13, IM_Mapped [0x631]);
  (R 0x1ee14 0x1ee14, IM_Mapped [0x634]);
  (R 0x1ee15 0x1ee15, IM_Mapped [0x62a]);
  (R 0x1ee16 0x1ee16, IM_Mapped [0x62b]);
  (R 0x1ee17 0x1ee17, IM_Mapped [0x62e]);
  (R 0x1ee18 0x1ee18, IM_Mapped [0x630]);
  (R 0x1ee19 0x1ee19, IM_Mapped [0x636]);
  (R 0x1ee1a 0x1ee1a, IM_Mapped [0x638]);
  (R 0x1ee1b 0x1ee1b, IM_Mapped [0x63a]);
  (R 0x1ee1c 0x1ee1c, IM_Mapped [0x66e]);
  (R 0x1ee1d 0x1ee1d, IM_Mapped [0x6ba]);
  (R 0x1ee1e 0x1ee1e, IM_Mapped [0x6a1]);
  (R 0x1ee1f 0x1ee1f, IM_Mapped [0x66f]);
  (R 0x1ee20 0x1ee20, IM_Disallowed);
  (R 0x1ee21 0x1ee21, IM_Mapped [0x628]);
  (R 0x1ee22 0x1ee22, IM_Mapped [0x62c]);
  (R 0x1ee23 0x1ee23, IM_Disallowed);
  (R 0x1ee24 0x1ee24, IM_Mapped [0x647]);
  (R 0x1ee25 0x1ee26, IM_Disallowed);
  (R 0x1ee27 0x1ee27, IM_Mapped [0x62d]);
  (R 0x1ee28 0x1ee28, IM_Disallowed);
  (R 0x1ee29 0x1ee29, IM_Mapped [0x64a]);
  (R 0x1ee2a 0x1ee2a, IM_Mapped [0x643]);
  (R 0x1ee2b 0x1ee2b, IM_Mapped [0x644]);
  (R 0x1ee2c 0x1ee2c, IM_Mapped [0x645]);
  (R 0x1ee2d 0x1ee2d, IM_Mapped [0x646]);
  (R 0x1ee2e 0x1ee2e, IM_Mapped [0x633]);
  (R 0x1ee2f 0x1ee2f, IM_Mapped [0x639]);
  (R 0x1ee30 0x1ee30, IM_Mapped [0x641]);
  (R 0x1ee31 0x1ee31, IM_Mapped [0x635]);
  (R 0x1ee32 0x1ee32, IM_Mapped [0x642]);
  (R 0x1ee33 0x1ee33, IM_Disallowed);
  (R 0x1ee34 0x1ee34, IM_Mapped [0x634]);
  (R 0x1ee35 0x1ee35, IM_Mapped [0x62a]);
  (R 0x1ee36 0x1ee36, IM_Mapped [0x62b]);
  (R 0x1ee37 0x1ee37, IM_Mapped [0x62e]);
  (R 0x1ee38 0x1ee38, IM_Disallowed);
  (R 0x1ee39 0x1ee39, IM_Mapped [0x636]);
  (R 0x1ee3a 0x1ee3a, IM_Disallowed);
  (R 0x1ee3b 0x1ee3b, IM_Mapped [0x63a]);
  (R 0x1ee3c 0x1ee41, IM_Disallowed);
  (R 0x1ee42 0x1ee42, IM_Mapped [0x62c]);
  (R 0x1ee43 0x1ee46, IM_Disallowed);
  (R 0x1ee47 0x1ee47, IM_Mapped [0x62d]);
  (R 0x1ee48 0x1ee48, IM_Disallowed);
  (R 0x1ee49 0x1ee49, IM_Mapped [0x64a]);
  (R 0x1ee4a 0x1ee4a, IM_Disallowed);
  (R 0x1ee4b 0x1ee4b, IM_Mapped [0x644]);
  (R 0x1ee4c 0x1ee4c, IM_Disallowed);
  (R 0x1ee4d 0x1ee4d, IM_Mapped [0x646]);
  (R 0x1ee4e 0x1ee4e, IM_Mapped [0x633]);
  (R 0x1ee4f 0x1ee4f, IM_Mapped [0x639]);
  (R 0x1ee50 0x1ee50, IM_Disallowed);
  (R 0x1ee51 0x1ee51, IM_Mapped [0x635]);
  (R 0x1ee52 0x1ee52, IM_Mapped [0x642]);
  (R 0x1ee53 0x1ee53, IM_Disallowed);
  (R 0x1ee54 0x1ee54, IM_Mapped [0x634]);
  (R 0x1ee55 0x1ee56, IM_Disallowed);
  (R 0x1ee57 0x1ee57, IM_Mapped [0x62e]);
  (R 0x1ee58 0x1ee58, IM_Disallowed);
  (R 0x1ee59 0x1ee59, IM_Mapped [0x636]);
  (R 0x1ee5a 0x1ee5a, IM_Disallowed);
  (R 0x1ee5b 0x1ee5b, IM_Mapped [0x63a]);
  (R 0x1ee5c 0x1ee5c, IM_Disallowed);
  (R 0x1ee5d 0x1ee5d, IM_Mapped [0x6ba]);
  (R 0x1ee5e 0x1ee5e, IM_Disallowed);
  (R 0x1ee5f 0x1ee5f, IM_Mapped [0x66f]);
  (R 0x1ee60 0x1ee60, IM_Disallowed);
  (R 0x1ee61 0x1ee61, IM_Mapped [0x628]);
  (R 0x1ee62 0x1ee62, IM_Mapped [0x62c]);
  (R 0x1ee63 0x1ee63, IM_Disallowed);
  (R 0x1ee64 0x1ee64, IM_Mapped [0x647]);
  (R 0x1ee65 0x1ee66, IM_Disallowed);
  (R 0x1ee67 0x1ee67, IM_Mapped [0x62d]);
  (R 0x1ee68 0x1ee68, IM_Mapped [0x637]);
  (R 0x1ee69 0x1ee69, IM_Mapped [0x64a]);
  (R 0x1ee6a 0x1ee6a, IM_Mapped [0x643]);
  (R 0x1ee6b 0x1ee6b, IM_Disallowed);
  (R 0x1ee6c 0x1ee6c, IM_Mapped [0x645]);
  (R 0x1ee6d 0x1ee6d, IM_Mapped [0x646]);
  (R 0x1ee6e 0x1ee6e, IM_Mapped [0x633])].

Definition MAPPING_17 : list (CharRange * Mapping) := [
  (R 0x1ee6f 0x1ee6f, IM_Mapped [0x639]);
  (R 0x1ee70 0x1ee70, IM_Mapped [0x641]);
  (R 0x1ee71 0x1ee71, IM_Mapped [0x635]);
  (R 0x1ee72 0x1ee72, IM_Mapped [0x642]);
  (R 0x1ee73 0x1ee73, IM_Disallowed);
  (R 0x1ee74 0x1ee74, IM_Mapped [0x634]);
  (R 0x1ee75 0x1ee75, IM_Mapped [0x62a]);
  (R 0x1ee76 0x1ee76, IM_Mapped [0x62b]);
  (R 0x1ee77 0x1ee77, IM_Mapped [0x62e]);
  (R 0x1ee78 0x1ee78, IM_Disallowed);
  (R 0x1ee79 0x1ee79, IM_Mapped [0x636]);
  (R 0x1ee7a 0x1ee7a, IM_Mapped [0x638]);
  (R 0x1ee7b 0x1ee7b, IM_Mapped [0x63a]);
  (R 0x1ee7c 0x1ee7c, IM_Mapped [0x66e]);
  (R 0x1ee7d 0x1ee7d, IM_Disallowed);
  (R 0x1ee7e 0x1ee7e, IM_Mapped [0x6a1]);
  (R 0x1ee7f 0x1ee7f, IM_Disallowed);
  (R 0x1ee80 0x1ee80, IM_Mapped [0x627]);
  (R 0x1ee81 0x1ee81, IM_Mapped [0x628]);
  (R 0x1ee82 0x1ee82, IM_Mapped [0x62c]);
  (R 0x1ee83 0x1ee83, IM_Mapped [0x62f]);
  (R 0x1ee84 0x1ee84, IM_Mapped [0x647]);
  (R 0x1ee85 0x1ee85, IM_Mapped [0x648]);
  (R 0x1ee86 0x1ee86, IM_Mapped [0x632]);
  (R 0x1ee87 0x1ee87, IM_Mapped [0x62d]);
  (R 0x1ee88 0x1ee88, IM_Mapped [0x637]);
  (R 0x1ee89 0x1ee89, IM_Mapped [0x64a]);
  (R 0x1ee8a 0x1ee8a, IM_Disallowed);
  (R 0x1ee8b 0x1ee8b, IM_Mapped [0x644]);
  (R 0x1ee8c 0x1ee8c, IM_Mapped [0x645]);
  (R 0x1ee8d 0x1ee8d, IM_Mapped [0x646]);
  (R 0x1ee8e 0x1ee8e, IM_Mapped [0x633]);
  (R 0x1ee8f 0x1ee8f, IM_Mapped [0x639]);
  (R 0x1ee90 0x1ee90, IM_Mapped [0x641]);
  (R 0x1ee91 0x1ee91, IM_Mapped [0x635]);
  (R 0x1ee92 0x1ee92, IM_Mapped [0x642]);
  (R 0x1ee93 0x1ee93, IM_Mapped [0x631]);
  (R 0x1ee94 0x1ee94, IM_Mapped [0x634]);
  (R 0x1ee95 0x1ee95, IM_Mapped [0x62a]);
  (R 0x1ee96 0x1ee96, IM_Mapped [0x62b]);
  (R 0x1ee97 0x1ee97, IM_Mapped [0x62e]);
  (R 0x1ee98 0x1ee98, IM_Mapped [0x630]);
  (R 0x1ee99 0x1ee99, IM_Mapped [0x636]);
  (R 0x1ee9a 0x1ee9a, IM_Mapped [0x638]);
  (R 0x1ee9b 0x1ee9b, IM_Mapped [0x63a]);
  (R 0x1ee9c 0x1eea0, IM_Disallowed);
  (R 0x1eea1 0x1eea1, IM_Mapped [0x628]);
  (R 0x1eea2 0x1eea2, IM_Mapped [0x62c]);
  (R 0x1eea3 0x1eea3, IM_Mapped [0x62f]);
  (R 0x1eea4 0x1eea4, IM_Disallowed);
  (R 0x1eea5 0x1eea5, IM_Mapped [0x648]);
  (R 0x1eea6 0x1eea6, IM_Mapped [0x632]);
  (R 0x1eea7 0x1eea7, IM_Mapped [0x62d]);
  (R 0x1eea8 0x1eea8, IM_Mapped [0x637]);
  (R 0x1eea9 0x1eea9, IM_Mapped [0x64a]);
  (R 0x1eeaa 0x1eeaa, IM_Disallowed);
  (R 0x1eeab 0x1eeab, IM_Mapped [0x644]);
  (R 0x1eeac 0x1eeac, IM_Mapped [0x645]);
  (R 0x1eead 0x1eead, IM_Mapped [0x646]);
  (R 0x1eeae 0x1eeae, IM_Mapped [0x633]);
  (R 0x1eeaf 0x1eeaf, IM_Mapped [0x639]);
  (R 0x1eeb0 0x1eeb0, IM_Mapped [0x641]);
  (R 0x1eeb1 0x1eeb1, IM_Mapped [0x635]);
  (R 0x1eeb2 0x1eeb2, IM_Mapped [0x642]);
  (R 0x1eeb3 0x1eeb3, IM_Mapped [0x631]);
  (R 0x1eeb4 0x1eeb4, IM_Mapped [0x634]);
  (R 0x1eeb5 0x1eeb5, IM_Mapped [0x62a]);
  (R 0x1eeb6 0x1eeb6, IM_Mapped [0x62b]);
  (R 0x1eeb7 0x1eeb7, IM_Mapped [0x62e]);
  (R 0x1eeb8 0x1eeb8, IM_Mapped [0x630]);
  (R 0x1eeb9 0x1eeb9, IM_Mapped [0x636]);
  (R 0x1eeba 0x1eeba, IM_Mapped [0x638]);
  (R 0x1eebb 0x1eebb, IM_Mapped [0x63a]);
  (R 0x1eebc 0x1eeef, IM_Disallowed);
  (R 0x1eef0 0x1eef1, IM_Valid);
  (R 0x1eef2 0x1efff, IM_Disallowed);
  (R 0x1f000 0x1f02b, IM_Valid);
  (R 0x1f02c 0x1f02f, IM_Disallowed);
  (R 0x1f030 0x1f093, IM_Valid);
  (R 0x1f094 0x1f09f, IM_Disallowed);
  (R 0x1f0a0 0x1f0ae, IM_Valid);
  (R 0x1f0af 0x1f0b0, IM_Disallowed);
  (R 0x1f0b1 0x1f0bf, IM_Valid);
  (R 0x1f0c0 0x1f0c0, IM_Disallowed);
  (R 0x1f0c1 0x1f0cf, IM_Valid);
  (R 0x1f0d0 0x1f0d0, IM_Disallowed);
  (R 0x1f0d1 0x1f0f5, IM_Valid);
  (R 0x1f0f6 0x1f100, IM_Disallowed);
  (R 0x1f101 0x1f101, IM_DisallowedStd3Mapped [0x30; 0x2c]);
  (R 0x1f102 0x1f102, IM_DisallowedStd3Mapped [0x31; 0x2c]);
  (R 0x1f103 0x1f103, IM_DisallowedStd3Mapped [0x32; 0x2c]);
  (R 0x1f104 0x1f104, IM_DisallowedStd3Mapped [0x33; 0x2c]);
  (R 0x1f105 0x1f105, IM_DisallowedStd3Mapped [0x34; 0x2c]);
  (R 0x1f106 0x1f106, IM_DisallowedStd3Mapped [0x35; 0x2c]);
  (R 0x1f107 0x1f107, IM_DisallowedStd3Mapped [0x36; 0x2c]);
  (R 0x1f108 0x1f108, IM_DisallowedStd3Mapped [0x37; 0x2c]);
  (R 0x1f109 0x1f109, IM_DisallowedStd3Mapped [0x38; 0x2c]);
  (R 0x1f10a 0x1f10a, IM_DisallowedStd3Mapped [0x39; 0x2c]);
  (R 0x1f10b 0x1f10c, IM_Valid);
  (R 0x1f10d 0x1f10f, IM_Disallowed);
  (R 0x1f110 0x1f110, IM_DisallowedStd3Mapped [0x28; 0x61; 0x29]);
  (R 0x1f111 0x1f111, IM_DisallowedStd3Mapped [0x28; 0x62; 0x29]);
  (R 0x1f112 0x1f112, IM_DisallowedStd3Mapped [0x28; 0x63; 0x29]);
  (R 0x1f113 0x1f113, IM_DisallowedStd3Mapped [0x28; 0x64; 0x29]);
  (R 0x1f114 0x1f114, IM_DisallowedStd3Mapped [0x28; 0x65; 0x29]);
  (R 0x1f115 0x1f115, IM_DisallowedStd3Mapped [0x28; 0x66; 0x29]);
  (R 0x1f116 0x1f116, IM_DisallowedStd3Mapped [0x28; 0x67; 0x29]);
  (R 0x1f117 0x1f117, IM_DisallowedStd3Mapped [0x28; 0x68; 0x29]);
  (R 0x1f118 0x1f118, IM_DisallowedStd3Mapped [0x28; 0x69; 0x29]);
  (R 0x1f119 0x1f119, IM_DisallowedStd3Mapped [0x28; 0x6a; 0x29]);
  (R 0x1f11a 0x1f11a, IM_DisallowedStd3Mapped [0x28; 0x6b; 0x29]);
  (R 0x1f11b 0x1f11b, IM_DisallowedStd3Mapped [0x28; 0x6c; 0x29]);
  (R 0x1f11c 0x1f11c, IM_DisallowedStd3Mapped [0x28; 0x6d; 0x29]);
  (R 0x1f11d 0x1f11d, IM_DisallowedStd3Mapped [0x28; 0x6e; 0x29]);
  (R 0x1f11e 0x1f11e, IM_DisallowedStd3Mapped [0x28; 0x6f; 0x29]);
  (R 0x1f11f 0x1f11f, IM_DisallowedStd3Mapped [0x28; 0x70; 0x29]);
  (R 0x1f120 0x1f120, IM_DisallowedStd3Mapped [0x28; 0x71; 0x29]);
  (R 0x1f121 0x1f121, IM_DisallowedStd3Mapped [0x28; 0x72; 0x29]);
  (R 0x1f122 0x1f122, IM_DisallowedStd3Mapped [0x28; 0x73; 0x29]);
  (R 0x1f123 0x1f123, IM_DisallowedStd3Mapped [0x28; 0x74; 0x29]);
  (R 0x1f124 0x1f124, IM_DisallowedStd3Mapped [0x28; 0x75; 0x29]);
  (R 0x1f125 0x1f125, IM_DisallowedStd3Mapped [0x28; 0x76; 0x29]);
  (R 0x1f126 0x1f126, IM_DisallowedStd3Mapped [0x28; 0x77; 0x29]);
  (R 0x1f127 0x1f127, IM_DisallowedStd3Mapped [0x28; 0x78; 0x29]);
  (R 0x1f128 0x1f128, IM_DisallowedStd3Mapped [0x28; 0x79; 0x29]);
  (R 0x1f129 0x1f129, IM_DisallowedStd3Mapped [0x28; 0x7a; 0x29]);
  (R 0x1f12a 0x1f12a, IM_Mapped [0x3014; 0x73; 0x3015]);
  (R 0x1f12b 0x1f12b, IM_Mapped [0x63]);
  (R 0x1f12c 0x1f12c, IM_Mapped [0x72]);
  (R 0x1f12d 0x1f12d, IM_Mapped [0x63; 0x64]);
  (R 0x1f12e 0x1f12e, IM_Mapped [0x77; 0x7a]);
  (R 0x1f12f 0x1f12f, IM_Disallowed);
  (R 0x1f130 0x1f130, IM_Mapped [0x61]);
  (R 0x1f131 0x1f131, IM_Mapped [0x62]);
  (R 0x1f132 0x1f132, IM_Mapped [0x63]);
  (R 0x1f133 0x1f133, IM_Mapped [0x64]);
  (R 0x1f134 0x1f134, IM_Mapped [0x65]);
  (R 0x1f135 0x1f135, IM_Mapped [0x66]);
  (R 0x1f136 0x1f136, IM_Mapped [0x67]);
  (R 0x1f137 0x1f137, IM_Mapped [0x68]);
  (R 0x1f138 0x1f138, IM_Mapped [0x69]);
  (R 0x1f139 0x1f139, IM_Mapped [0x6a]);
  (R 0x1f13a 0x1f13a, IM_Mapped [0x6b]);
  (R 0x1f13b 0x1f13b, IM_Mapped [0x6c]);
  (R 0x1f13c 0x1f13c, IM_Mapped [0x6d]);
  (R 0x1f13d 0x1f13d, IM_Mapped [0x6e]);
  (R 0x1f13e 0x1f13e, IM_Mapped [0x6f]);
  (R 0x1f13f 0x1f13f, IM_Mapped [0x70]);
  (R 0x1f140 0x1f140, IM_Mapped [0x71]);
  (R 0x1f141 0x1f141, IM_Mapped [0x72]);
  (R 0x1f142 0x1f142, IM_Mapped [0x73]);
  (R 0x1f143 0x1f143, IM_Mapped [0x74]);
  (R 0x1f144 0x1f144, IM_Mapped [0x75]);
  (R 0x1f145 0x1f145, IM_Mapped [0x76]);
  (R 0x1f146 0x1f146, IM_Mapped [0x77]);
  (R 0x1f147 0x1f147, IM_Mapped [0x78]);
  (R 0x1f148 0x1f148, IM_Mapped [0x79]);
  (R 0x1f149 0x1f149, IM_Mapped [0x7a]);
  (R 0x1f14a 0x1f14a, IM_Mapped [0x68; 0x76]);
  (R 0x1f14b 0x1f14b, IM_Mapped [0x6d; 0x76]);
  (R 0x1f14c 0x1f14c, IM_Mapped [0x73; 0x64]);
  (R 0x1f14d 0x1f14d, IM_Mapped [0x73; 0x73]);
  (R 0x1f14e 0x1f14e, IM_Mapped [0x70; 0x70; 0x76]);
  (R 0x1f14f 0x1f14f, IM_Mapped [0x77; 0x63]);
  (R 0x1f150 0x1f169, IM_Valid);
  (R 0x1f16a 0x1f16a, IM_Mapped [0x6d; 0x63]);
  (R 0x1f16b 0x1f16b, IM_Mapped [0x6d; 0x64]);
  (R 0x1f16c 0x1f16f, IM_Disallowed);
  (R 0x1f170 0x1f18f, IM_Valid);
  (R 0x1f190 0x1f190, IM_Mapped [0x64; 0x6a]);
  (R 0x1f191 0x1f1ac, IM_Valid);
  (R 0x1f1ad 0x1f1e5, IM_Disallowed);
  (R 0x1f1e6 0x1f1ff, IM_Valid);
  (R 0x1f200 0x1f200, IM_Mapped [0x307b; 0x304b]);
  (R 0x1f201 0x1f201, IM_Mapped [0x30b3; 0x30b3]);
  (R 0x1f202 0x1f202, IM_Mapped [0x30b5]);
  (R 0x1f203 0x1f20f, IM_Disallowed);
  (R 0x1f210 0x1f210, IM_Mapped [0x624b]);
  (R 0x1f211 0x1f211, IM_Mapped [0x5b57]);
  (R 0x1f212 0x1f212, IM_Mapped [0x53cc]);
  (R 0x1f213 0x1f213, IM_Mapped [0x30c7]);
  (R 0x1f214 0x1f214, IM_Mapped [0x4e8c]);
  (R 0x1f215 0x1f215, IM_Mapped [0x591a]);
  (R 0x1f216 0x1f216, IM_Mapped [0x89e3]);
  (R 0x1f217 0x1f217, IM_Mapped [0x5929]);
  (R 0x1f218 0x1f218, IM_Mapped [0x4ea4]);
  (R 0x1f219 0x1f219, IM_Mapped [0x6620]);
  (R 0x1f21a 0x1f21a, IM_Mapped [0x7121]);
  (R 0x1f21b 0x1f21b, IM_Mapped [0x6599]);
  (R 0x1f21c 0x1f21c, IM_Mapped [0x524d]);
  (R 0x1f21d 0x1f21d, IM_Mapped [0x5f8c]);
  (R 0x1f21e 0x1f21e, IM_Mapped [0x518d]);
  (R 0x1f21f 0x1f21f, IM_Mapped [0x65b0]);
  (R 0x1f220 0x1f220, IM_Mapped [0x521d]);
  (R 0x1f221 0x1f221, IM_Mapped [0x7d42]);
  (R 0x1f222 0x1f222, IM_Mapped [0x751f]);
  (R 0x1f223 0x1f223, IM_Mapped [0x8ca9]);
  (R 0x1f224 0x1f224, IM_Mapped [0x58f0]);
  (R 0x1f225 0x1f225, IM_Mapped [0x5439]);
  (R 0x1f226 0x1f226, IM_Mapped [0x6f14]);
  (R 0x1f227 0x1f227, IM_Mapped [0x6295]);
  (R 0x1f228 0x1f228, IM_Mapped [0x6355]);
  (R 0x1f229 0x1f229, IM_Mapped [0x4e00]);
  (R 0x1f22a 0x1f22a, IM_Mapped [0x4e09]);
  (R 0x1f22b 0x1f22b, IM_Mapped [0x904a]);
  (R 0x1f22c 0x1f22c, IM_Mapped [0x5de6]);
  (R 0x1f22d 0x1f22d, IM_Mapped [0x4e2d]);
  (R 0x1f22e 0x1f22e, IM_Mapped [0x53f3]);
  (R 0x1f22f 0x1f22f, IM_Mapped [0x6307]);
  (R 0x1f230 0x1f230, IM_Mapped [0x8d70]);
  (R 0x1f231 0x1f231, IM_Mapped [0x6253]);
  (R 0x1f232 0x1f232, IM_Mapped [0x7981]);
  (R 0x1f233 0x1f233, IM_Mapped [0x7a7a]);
  (R 0x1f234 0x1f234, IM_Mapped [0x5408]);
  (R 0x1f235 0x1f235, IM_Mapped [0x6e80]);
  (R 0x1f236 0x1f236, IM_Mapped [0x6709]);
  (R 0x1f237 0x1f237, IM_Mapped [0x6708]);
  (R 0x1f238 0x1f238, IM_Mapped [0x7533]);
  (R 0x1f239 0x1f239, IM_Mapped [0x5272]);
  (R 0x1f23a 0x1f23a, IM_Mapped [0x55b6]);
  (R 0x1f23b 0x1f23b, IM_Mapped [0x914d]);
  (R 0x1f23c 0x1f23f, IM_Disallowed);
  (R 0x1f240 0x1f240, IM_Mapped [0x3014; 0x672c; 0x3015]);
  (R 0x1f241 0x1f241, IM_Mapped [0x3014; 0x4e09; 0x3015]);
  (R 0x1f242 0x1f242, IM_Mapped [0x3014; 0x4e8c; 0x3015]);
  (R 0x1f243 0x1f243, IM_Mapped [0x3014; 0x5b89; 0x3015]);
  (R 0x1f244 0x1f244, IM_Mapped [0x3014; 0x70b9; 0x3015]);
  (R 0x1f245 0x1f245, IM_Mapped [0x3014; 0x6253; 0x3015]);
  (R 0x1f246 0x1f246, IM_Mapped [0x3014; 0x76d7; 0x3015]);
  (R 0x1f247 0x1f247, IM_Mapped [0x3014; 0x52dd; 0x3015]);
  (R 0x1f248 0x1f248, IM_Mapped [0x3014; 0x6557; 0x3015]);
  (R 0x1f249 0x1f24f, IM_Disallowed);
  (R 0x1f250 0x1f250, IM_Mapped [0x5f97]);
  (R 0x1f251 0x1f251, IM_Mapped [0x53ef]);
  (R 0x1f252 0x1f25f, IM_Disallowed);
  (R 0x1f260 0x1f265, IM_Valid);
  (R 0x1f266 0x1f2ff, IM_Disallowed);
  (R 0x1f300 0x1f6d4, IM_Valid);
  (R 0x1f6d5 0x1f6df, IM_Disallowed);
  (R 0x1f6e0 0x1f6ec, IM_Valid);
  (R 0x1f6ed 0x1f6ef, IM_Disallowed);
  (R 0x1f6f0 0x1f6f8, IM_Valid);
  (R 0x1f6f9 0x1f6ff, IM_Disallowed);
  (R 0x1f700 0x1f773, IM_Valid);
  (R 0x1f774 0x1f77f, IM_Disallowed);
  (R 0x1f780 0x1f7d4, IM_Valid);
  (R 0x1f7d5 0x1f7ff, IM_Disallowed);
  (R 0x1f800 0x1f80b, IM_Valid);
  (R 0x1f80c 0x1f80f, IM_Disallowed);
  (R 0x1f810 0x1f847, IM_Valid);
  (R 0x1f848 0x1f84f, IM_Disallowed);
  (R 0x1f850 0x1f859, IM_Valid);
  (R 0x1f85a 0x1f85f, IM_Disallowed);
  (R 0x1f860 0x1f887, IM_Valid);
  (R 0x1f888 0x1f88f, IM_Disallowed);
  (R 0x1f890 0x1f8ad, IM_Valid);
  (R 0x1f8ae 0x1f8ff, IM_Disallowed);
  (R 0x1f900 0x1f90b, IM_Valid);
  (R 0x1f90c 0x1f90f, IM_Disallowed);
  (R 0x1f910 0x1f93e, IM_Valid);
  (R 0x1f93f 0x1f93f, IM_Disallowed);
  (R 0x1f940 0x1f94c, IM_Valid);
  (R 0x1f94d 0x1f94f, IM_Disallowed);
  (R 0x1f950 0x1f96b, IM_Valid);
  (R 0x1f96c 0x1f97f, IM_Disallowed);
  (R 0x1f980 0x1f997, IM_Valid);
  (R 0x1f998 0x1f9bf, IM_Disallowed);
  (R 0x1f9c0 0x1f9c0, IM_Valid);
  (R 0x1f9c1 0x1f9cf, IM_Disallowed);
  (R 0x1f9d0 0x1f9e6, IM_Valid);
  (R 0x1f9e7 0x1ffff, IM_Disallowed);
  (R 0x20000 0x2a6d6, IM_Valid);
  (R 0x2a6d7 0x2a6ff, IM_Disallowed);
  (R 0x2a700 0x2b734, IM_Valid);
  (R 0x2b735 0x2b73f, IM_Disallowed);
  (R 0x2b740 0x2b81d, IM_Valid);
  (R 0x2b81e 0x2b81f, IM_Disallowed);
  (R 0x2b820 0x2cea1, IM_Valid);
  (R 0x2cea2 0x2ceaf, IM_Disallowed);
  (R 0x2ceb0 0x2ebe0, IM_Valid);
  (R 0x2ebe1 0x2f7ff, IM_Disallowed);
  (R 0x2f800 0x2f800, IM_Mapped [0x4e3d]);
  (R 0x2f801 0x2f801, IM_Mapped [0x4e38]);
  (R 0x2f802 0x2f802, IM_Mapped [0x4e41]);
  (R 0x2f803 0x2f803, IM_Mapped [0x20122]);
  (R 0x2f804 0x2f804, IM_Mapped [0x4f60]);
  (R 0x2f805 0x2f805, IM_Mapped [0x4fae]);
  (R 0x2f806 0x2f806, IM_Mapped [0x4fbb]);
  (R 0x2f807 0x2f807, IM_Mapped [0x5002]);
  (R 0x2f808 0x2f808, IM_Mapped [0x507a]);
  (R 0x2f809 0x2f809, IM_Mapped [0x5099]);
  (R 0x2f80a 0x2f80a, IM_Mapped [0x50e7]);
  (R 0x2f80b 0x2f80b, IM_Mapped [0x50cf]);
  (R 0x2f80c 0x2f80c, IM_Mapped [0x349e]);
  (R 0x2f80d 0x2f80d, IM_Mapped [0x2063a]);
  (R 0x2f80e 0x2f80e, IM_Mapped [0x514d]);
  (R 0x2f80f 0x2f80f, IM_Mapped [0x5154]);
  (R 0x2f810 0x2f810, IM_Mapped [0x5164]);
  (R 0x2f811 0x2f811, IM_Mapped [0x5177]);
  (R 0x2f812 0x2f812, IM_Mapped [0x2051c]);
  (R 0x2f813 0x2f813, IM_Mapped [0x34b9]);
  (R 0x2f814 0x2f814, IM_Mapped [0x5167]);
  (R 0x2f815 0x2f815, IM_Mapped [0x518d]);
  (R 0x2f816 0x2f816, IM_Mapped [0x2054b]);
  (R 0x2f817 0x2f817, IM_Mapped [0x5197]);
  (R 0x2f818 0x2f818, IM_Mapped [0x51a4]);
  (R 0x2f819 0x2f819, IM_Mapped [0x4ecc]);
  (R 0x2f81a 0x2f81a, IM_Mapped [0x51ac]);
  (R 0x2f81b 0x2f81b, IM_Mapped [0x51b5]);
  (R 0x2f81c 0x2f81c, IM_Mapped [0x291df]);
  (R 0x2f81d 0x2f81d, IM_Mapped [0x51f5]);
  (R 0x2f81e 0x2f81e, IM_Mapped [0x5203]);
  (R 0x2f81f 0x2f81f, IM_Mapped [0x34df]);
  (R 0x2f820 0x2f820, IM_Mapped [0x523b]);
  (R 0x2f821 0x2f821, IM_Mapped [0x5246]);
  (R 0x2f822 0x2f822, IM_Mapped [0x5272]);
  (R 0x2f823 0x2f823, IM_Mapped [0x5277]);
  (R 0x2f824 0x2f824, IM_Mapped [0x3515]);
  (R 0x2f825 0x2f825, IM_Mapped [0x52c7]);
  (R 0x2f826 0x2f826, IM_Mapped [0x52c9]);
  (R 0x2f827 0x2f827, IM_Mapped [0x52e4]);
  (R 0x2f828 0x2f828, IM_Mapped [0x52fa]);
  (R 0x2f829 0x2f829, IM_Mapped [0x5305]);
  (R 0x2f82a 0x2f82a, IM_Mapped [0x5306]);
  (R 0x2f82b 0x2f82b, IM_Mapped [0x5317]);
  (R 0x2f82c 0x2f82c, IM_Mapped [0x5349]);
  (R 0x2f82d 0x2f82d, IM_Mapped [0x5351]);
  (R 0x2f82e 0x2f82e, IM_Mapped [0x535a]);
  (R 0x2f82f 0x2f82f, IM_Mapped [0x5373]);
  (R 0x2f830 0x2f830, IM_Mapped [0x537d]);
  (R 0x2f831 0x2f833, IM_Mapped [0x537f]);
  (R 0x2f834 0x2f834, IM_Mapped [0x20a2c]);
  (R 0x2f835 0x2f835, IM_Mapped [0x7070]);
  (R 0x2f836 0x2f836, IM_Mapped [0x53ca]);
  (R 0x2f837 0x2f837, IM_Mapped [0x53df]);
  (R 0x2f838 0x2f838, IM_Mapped [0x20b63]);
  (R 0x2f839 0x2f839, IM_Mapped [0x53eb]);
  (R 0x2f83a 0x2f83a, IM_Mapped [0x53f1]);
  (R 0x2f83b 0x2f83b, IM_Mapped [0x5406]);
  (R 0x2f83c 0x2f83c, IM_Mapped [0x549e]);
  (R 0x2f83d 0x2f83d, IM_Mapped [0x5438]);
  (R 0x2f83e 0x2f83e, IM_Mapped [0x5448]);
  (R 0x2f83f 0x2f83f, IM_Mapped [0x5468]);
  (R 0x2f840 0x2f840, IM_Mapped [0x54a2]);
  (R 0x2f841 0x2f841, IM_Mapped [0x54f6]);
  (R 0x2f842 0x2f842, IM_Mapped [0x5510]);
  (R 0x2f843 0x2f843, IM_Mapped [0x5553]);
  (R 0x2f844 0x2f844, IM_Mapped [0x5563]);
  (R 0x2f845 0x2f846, IM_Mapped [0x5584]);
  (R 0x2f847 0x2f847, IM_Mapped [0x5599]);
  (R 0x2f848 0x2f848, IM_Mapped [0x55ab]);
  (R 0x2f849 0x2f849, IM_Mapped [0x55b3]);
  (R 0x2f84a 0x2f84a, IM_Mapped [0x55c2]);
  (R 0x2f84b 0x2f84b, IM_Mapped [0x5716]);
  (R 0x2f84c 0x2f84c, IM_Mapped [0x5606]);
  (R 0x2f84d 0x2f84d, IM_Mapped [0x5717]);
  (R 0x2f84e 0x2f84e, IM_Mapped [0x5651]);
  (R 0x2f84f 0x2f84f, IM_Mapped [0x5674]);
  (R 0x2f850 0x2f850, IM_Mapped [0x5207]);
  (R 0x2f851 0x2f851, IM_Mapped [0x58ee]);
  (R 0x2f852 0x2f852, IM_Mapped [0x57ce]);
  (R 0x2f853 0x2f853, IM_Mapped [0x57f4]);
  (R 0x2f854 0x2f854, IM_Mapped [0x580d]);
  (R 0x2f855 0x2f855, IM_Mapped [0x578b]);
  (R 0x2f856 0x2f856, IM_Mapped [0x5832]);
  (R 0x2f857 0x2f857, IM_Mapped [0x5831]);
  (R 0x2f858 0x2f858, IM_Mapped [0x58ac]);
  (R 0x2f859 0x2f859, IM_Mapped [0x214e4]);
  (R 0x2f85a 0x2f85a, IM_Mapped [0x58f2]);
  (R 0x2f85b 0x2f85b, IM_Mapped [0x58f7]);
  (R 0x2f85c 0x2f85c, IM_Mapped [0x5906]);
  (R 0x2f85d 0x2f85d, IM_Mapped [0x591a]);
  (R 0x2f85e 0x2f85e, IM_Mapped [0x5922]);
  (R 0x2f85f 0x2f85f, IM_Mapped [0x5962]);
  (R 0x2f860 0x2f860, IM_Mapped [0x216a8]);
  (R 0x2f861 0x2f861, IM_Mapped [0x216ea]);
  (R 0x2f862 0x2f862, IM_Mapped [0x59ec]);
  (R 0x2f863 0x2f863, IM_Mapped [0x5a1b]);
  (R 0x2f864 0x2f864, IM_Mapped [0x5a27]);
  (R 0x2f865 0x2f865, IM_Mapped [0x59d8]);
  (R 0x2f866 0x2f866, IM_Mapped [0x5a66]);
  (R 0x2f867 0x2f867, IM_Mapped [0x36ee]);
  (R 0x2f868 0x2f868, IM_Disallowed);
  (R 0x2f869 0x2f869, IM_Mapped [0x5b08]);
  (R 0x2f86a 0x2f86b, IM_Mapped [0x5b3e]);
  (R 0x2f86c 0x2f86c, IM_Mapped [0x219c8]);
  (R 0x2f86d 0x2f86d, IM_Mapped [0x5bc3]);
  (R 0x2f86e 0x2f86e, IM_Mapped [0x5bd8]);
  (R 0x2f86f 0x2f86f, IM_Mapped [0x5be7]);
  (R 0x2f870 0x2f870, IM_Mapped [0x5bf3]);
  (R 0x2f871 0x2f871, IM_Mapped [0x21b18]);
  (R 0x2f872 0x2f872, IM_Mapped [0x5bff]);
  (R 0x2f873 0x2f873, IM_Mapped [0x5c06]);
  (R 0x2f874 0x2f874, IM_Disallowed);
  (R 0x2f875 0x2f875, IM_Mapped [0x5c22]);
  (R 0x2f876 0x2f876, IM_Mapped [0x3781]);
  (R 0x2f877 0x2f877, IM_Mapped [0x5c60]);
  (R 0x2f878 0x2f878, IM_Mapped [0x5c6e]);
  (R 0x2f879 0x2f879, IM_Mapped [0x5cc0]);
  (R 0x2f87a 0x2f87a, IM_Mapped [0x5c8d])].

Definition MAPPING_18 : list (CharRange * Mapping) := [
  (R 0x2f87b 0x2f87b, IM_Mapped [0x21de4]);
  (R 0x2f87c 0x2f87c, IM_Mapped [0x5d43]);
  (R 0x2f87d 0x2f87d, IM_Mapped [0x21de6]);
  (R 0x2f87e 0x2f87e, IM_Mapped [0x5d6e]);
  (R 0x2f87f 0x2f87f, IM_Mapped [0x5d6b]);
  (R 0x2f880 0x2f880, IM_Mapped [0x5d7c]);
  (R 0x2f881 0x2f881, IM_Mapped [0x5de1]);
  (R 0x2f882 0x2f882, IM_Mapped [0x5de2]);
  (R 0x2f883 0x2f883, IM_Mapped [0x382f]);
  (R 0x2f884 0x2f884, IM_Mapped [0x5dfd]);
  (R 0x2f885 0x2f885, IM_Mapped [0x5e28]);
  (R 0x2f886 0x2f886, IM_Mapped [0x5e3d]);
  (R 0x2f887 0x2f887, IM_Mapped [0x5e69]);
  (R 0x2f888 0x2f888, IM_Mapped [0x3862]);
  (R 0x2f889 0x2f889, IM_Mapped [0x22183]);
  (R 0x2f88a 0x2f88a, IM_Mapped [0x387c]);
  (R 0x2f88b 0x2f88b, IM_Mapped [0x5eb0]);
  (R 0x2f88c 0x2f88c, IM_Mapped [0x5eb3]);
  (R 0x2f88d 0x2f88d, IM_Mapped [0x5eb6]);
  (R 0x2f88e 0x2f88e, IM_Mapped [0x5eca]);
  (R 0x2f88f 0x2f88f, IM_Mapped [0x2a392]);
  (R 0x2f890 0x2f890, IM_Mapped [0x5efe]);
  (R 0x2f891 0x2f892, IM_Mapped [0x22331]);
  (R 0x2f893 0x2f893, IM_Mapped [0x8201]);
  (R 0x2f894 0x2f895, IM_Mapped [0x5f22]);
  (R 0x2f896 0x2f896, IM_Mapped [0x38c7]);
  (R 0x2f897 0x2f897, IM_Mapped [0x232b8]);
  (R 0x2f898 0x2f898, IM_Mapped [0x261da]);
  (R 0x2f899 0x2f899, IM_Mapped [0x5f62]);
  (R 0x2f89a 0x2f89a, IM_Mapped [0x5f6b]);
  (R 0x2f89b 0x2f89b, IM_Mapped [0x38e3]);
  (R 0x2f89c 0x2f89c, IM_Mapped [0x5f9a]);
  (R 0x2f89d 0x2f89d, IM_Mapped [0x5fcd]);
  (R 0x2f89e 0x2f89e, IM_Mapped [0x5fd7]);
  (R 0x2f89f 0x2f89f, IM_Mapped [0x5ff9]);
  (R 0x2f8a0 0x2f8a0, IM_Mapped [0x6081]);
  (R 0x2f8a1 0x2f8a1, IM_Mapped [0x393a]);
  (R 0x2f8a2 0x2f8a2, IM_Mapped [0x391c]);
  (R 0x2f8a3 0x2f8a3, IM_Mapped [0x6094]);
  (R 0x2f8a4 0x2f8a4, IM_Mapped [0x226d4]);
  (R 0x2f8a5 0x2f8a5, IM_Mapped [0x60c7]);
  (R 0x2f8a6 0x2f8a6, IM_Mapped [0x6148]);
  (R 0x2f8a7 0x2f8a7, IM_Mapped [0x614c]);
  (R 0x2f8a8 0x2f8a8, IM_Mapped [0x614e]);
  (R 0x2f8a9 0x2f8a9, IM_Mapped [0x614c]);
  (R 0x2f8aa 0x2f8aa, IM_Mapped [0x617a]);
  (R 0x2f8ab 0x2f8ab, IM_Mapped [0x618e]);
  (R 0x2f8ac 0x2f8ac, IM_Mapped [0x61b2]);
  (R 0x2f8ad 0x2f8ad, IM_Mapped [0x61a4]);
  (R 0x2f8ae 0x2f8ae, IM_Mapped [0x61af]);
  (R 0x2f8af 0x2f8af, IM_Mapped [0x61de]);
  (R 0x2f8b0 0x2f8b0, IM_Mapped [0x61f2]);
  (R 0x2f8b1 0x2f8b1, IM_Mapped [0x61f6]);
  (R 0x2f8b2 0x2f8b2, IM_Mapped [0x6210]);
  (R 0x2f8b3 0x2f8b3, IM_Mapped [0x621b]);
  (R 0x2f8b4 0x2f8b4, IM_Mapped [0x625d]);
  (R 0x2f8b5 0x2f8b5, IM_Mapped [0x62b1]);
  (R 0x2f8b6 0x2f8b6, IM_Mapped [0x62d4]);
  (R 0x2f8b7 0x2f8b7, IM_Mapped [0x6350]);
  (R 0x2f8b8 0x2f8b8, IM_Mapped [0x22b0c]);
  (R 0x2f8b9 0x2f8b9, IM_Mapped [0x633d]);
  (R 0x2f8ba 0x2f8ba, IM_Mapped [0x62fc]);
  (R 0x2f8bb 0x2f8bb, IM_Mapped [0x6368]);
  (R 0x2f8bc 0x2f8bc, IM_Mapped [0x6383]);
  (R 0x2f8bd 0x2f8bd, IM_Mapped [0x63e4]);
  (R 0x2f8be 0x2f8be, IM_Mapped [0x22bf1]);
  (R 0x2f8bf 0x2f8bf, IM_Mapped [0x6422]);
  (R 0x2f8c0 0x2f8c0, IM_Mapped [0x63c5]);
  (R 0x2f8c1 0x2f8c1, IM_Mapped [0x63a9]);
  (R 0x2f8c2 0x2f8c2, IM_Mapped [0x3a2e]);
  (R 0x2f8c3 0x2f8c3, IM_Mapped [0x6469]);
  (R 0x2f8c4 0x2f8c4, IM_Mapped [0x647e]);
  (R 0x2f8c5 0x2f8c5, IM_Mapped [0x649d]);
  (R 0x2f8c6 0x2f8c6, IM_Mapped [0x6477]);
  (R 0x2f8c7 0x2f8c7, IM_Mapped [0x3a6c]);
  (R 0x2f8c8 0x2f8c8, IM_Mapped [0x654f]);
  (R 0x2f8c9 0x2f8c9, IM_Mapped [0x656c]);
  (R 0x2f8ca 0x2f8ca, IM_Mapped [0x2300a]);
  (R 0x2f8cb 0x2f8cb, IM_Mapped [0x65e3]);
  (R 0x2f8cc 0x2f8cc, IM_Mapped [0x66f8]);
  (R 0x2f8cd 0x2f8cd, IM_Mapped [0x6649]);
  (R 0x2f8ce 0x2f8ce, IM_Mapped [0x3b19]);
  (R 0x2f8cf 0x2f8cf, IM_Mapped [0x6691]);
  (R 0x2f8d0 0x2f8d0, IM_Mapped [0x3b08]);
  (R 0x2f8d1 0x2f8d1, IM_Mapped [0x3ae4]);
  (R 0x2f8d2 0x2f8d2, IM_Mapped [0x5192]);
  (R 0x2f8d3 0x2f8d3, IM_Mapped [0x5195]);
  (R 0x2f8d4 0x2f8d4, IM_Mapped [0x6700]);
  (R 0x2f8d5 0x2f8d5, IM_Mapped [0x669c]);
  (R 0x2f8d6 0x2f8d6, IM_Mapped [0x80ad]);
  (R 0x2f8d7 0x2f8d7, IM_Mapped [0x43d9]);
  (R 0x2f8d8 0x2f8d8, IM_Mapped [0x6717]);
  (R 0x2f8d9 0x2f8d9, IM_Mapped [0x671b]);
  (R 0x2f8da 0x2f8da, IM_Mapped [0x6721]);
  (R 0x2f8db 0x2f8db, IM_Mapped [0x675e]);
  (R 0x2f8dc 0x2f8dc, IM_Mapped [0x6753]);
  (R 0x2f8dd 0x2f8dd, IM_Mapped [0x233c3]);
  (R 0x2f8de 0x2f8de, IM_Mapped [0x3b49]);
  (R 0x2f8df 0x2f8df, IM_Mapped [0x67fa]);
  (R 0x2f8e0 0x2f8e0, IM_Mapped [0x6785]);
  (R 0x2f8e1 0x2f8e1, IM_Mapped [0x6852]);
  (R 0x2f8e2 0x2f8e2, IM_Mapped [0x6885]);
  (R 0x2f8e3 0x2f8e3, IM_Mapped [0x2346d]);
  (R 0x2f8e4 0x2f8e4, IM_Mapped [0x688e]);
  (R 0x2f8e5 0x2f8e5, IM_Mapped [0x681f]);
  (R 0x2f8e6 0x2f8e6, IM_Mapped [0x6914]);
  (R 0x2f8e7 0x2f8e7, IM_Mapped [0x3b9d]);
  (R 0x2f8e8 0x2f8e8, IM_Mapped [0x6942]);
  (R 0x2f8e9 0x2f8e9, IM_Mapped [0x69a3]);
  (R 0x2f8ea 0x2f8ea, IM_Mapped [0x69ea]);
  (R 0x2f8eb 0x2f8eb, IM_Mapped [0x6aa8]);
  (R 0x2f8ec 0x2f8ec, IM_Mapped [0x236a3]);
  (R 0x2f8ed 0x2f8ed, IM_Mapped [0x6adb]);
  (R 0x2f8ee 0x2f8ee, IM_Mapped [0x3c18]);
  (R 0x2f8ef 0x2f8ef, IM_Mapped [0x6b21]);
  (R 0x2f8f0 0x2f8f0, IM_Mapped [0x238a7]);
  (R 0x2f8f1 0x2f8f1, IM_Mapped [0x6b54]);
  (R 0x2f8f2 0x2f8f2, IM_Mapped [0x3c4e]);
  (R 0x2f8f3 0x2f8f3, IM_Mapped [0x6b72]);
  (R 0x2f8f4 0x2f8f4, IM_Mapped [0x6b9f]);
  (R 0x2f8f5 0x2f8f5, IM_Mapped [0x6bba]);
  (R 0x2f8f6 0x2f8f6, IM_Mapped [0x6bbb]);
  (R 0x2f8f7 0x2f8f7, IM_Mapped [0x23a8d]);
  (R 0x2f8f8 0x2f8f8, IM_Mapped [0x21d0b]);
  (R 0x2f8f9 0x2f8f9, IM_Mapped [0x23afa]);
  (R 0x2f8fa 0x2f8fa, IM_Mapped [0x6c4e]);
  (R 0x2f8fb 0x2f8fb, IM_Mapped [0x23cbc]);
  (R 0x2f8fc 0x2f8fc, IM_Mapped [0x6cbf]);
  (R 0x2f8fd 0x2f8fd, IM_Mapped [0x6ccd]);
  (R 0x2f8fe 0x2f8fe, IM_Mapped [0x6c67]);
  (R 0x2f8ff 0x2f8ff, IM_Mapped [0x6d16]);
  (R 0x2f900 0x2f900, IM_Mapped [0x6d3e]);
  (R 0x2f901 0x2f901, IM_Mapped [0x6d77]);
  (R 0x2f902 0x2f902, IM_Mapped [0x6d41]);
  (R 0x2f903 0x2f903, IM_Mapped [0x6d69]);
  (R 0x2f904 0x2f904, IM_Mapped [0x6d78]);
  (R 0x2f905 0x2f905, IM_Mapped [0x6d85]);
  (R 0x2f906 0x2f906, IM_Mapped [0x23d1e]);
  (R 0x2f907 0x2f907, IM_Mapped [0x6d34]);
  (R 0x2f908 0x2f908, IM_Mapped [0x6e2f]);
  (R 0x2f909 0x2f909, IM_Mapped [0x6e6e]);
  (R 0x2f90a 0x2f90a, IM_Mapped [0x3d33]);
  (R 0x2f90b 0x2f90b, IM_Mapped [0x6ecb]);
  (R 0x2f90c 0x2f90c, IM_Mapped [0x6ec7]);
  (R 0x2f90d 0x2f90d, IM_Mapped [0x23ed1]);
  (R 0x2f90e 0x2f90e, IM_Mapped [0x6df9]);
  (R 0x2f90f 0x2f90f, IM_Mapped [0x6f6e]);
  (R 0x2f910 0x2f910, IM_Mapped [0x23f5e]);
  (R 0x2f911 0x2f911, IM_Mapped [0x23f8e]);
  (R 0x2f912 0x2f912, IM_Mapped [0x6fc6]);
  (R 0x2f913 0x2f913, IM_Mapped [0x7039]);
  (R 0x2f914 0x2f914, IM_Mapped [0x701e]);
  (R 0x2f915 0x2f915, IM_Mapped [0x701b]);
  (R 0x2f916 0x2f916, IM_Mapped [0x3d96]);
  (R 0x2f917 0x2f917, IM_Mapped [0x704a]);
  (R 0x2f918 0x2f918, IM_Mapped [0x707d]);
  (R 0x2f919 0x2f919, IM_Mapped [0x7077]);
  (R 0x2f91a 0x2f91a, IM_Mapped [0x70ad]);
  (R 0x2f91b 0x2f91b, IM_Mapped [0x20525]);
  (R 0x2f91c 0x2f91c, IM_Mapped [0x7145]);
  (R 0x2f91d 0x2f91d, IM_Mapped [0x24263]);
  (R 0x2f91e 0x2f91e, IM_Mapped [0x719c]);
  (R 0x2f91f 0x2f91f, IM_Disallowed);
  (R 0x2f920 0x2f920, IM_Mapped [0x7228]);
  (R 0x2f921 0x2f921, IM_Mapped [0x7235]);
  (R 0x2f922 0x2f922, IM_Mapped [0x7250]);
  (R 0x2f923 0x2f923, IM_Mapped [0x24608]);
  (R 0x2f924 0x2f924, IM_Mapped [0x7280]);
  (R 0x2f925 0x2f925, IM_Mapped [0x7295]);
  (R 0x2f926 0x2f926, IM_Mapped [0x24735]);
  (R 0x2f927 0x2f927, IM_Mapped [0x24814]);
  (R 0x2f928 0x2f928, IM_Mapped [0x737a]);
  (R 0x2f929 0x2f929, IM_Mapped [0x738b]);
  (R 0x2f92a 0x2f92a, IM_Mapped [0x3eac]);
  (R 0x2f92b 0x2f92b, IM_Mapped [0x73a5]);
  (R 0x2f92c 0x2f92d, IM_Mapped [0x3eb8]);
  (R 0x2f92e 0x2f92e, IM_Mapped [0x7447]);
  (R 0x2f92f 0x2f92f, IM_Mapped [0x745c]);
  (R 0x2f930 0x2f930, IM_Mapped [0x7471]);
  (R 0x2f931 0x2f931, IM_Mapped [0x7485]);
  (R 0x2f932 0x2f932, IM_Mapped [0x74ca]);
  (R 0x2f933 0x2f933, IM_Mapped [0x3f1b]);
  (R 0x2f934 0x2f934, IM_Mapped [0x7524]);
  (R 0x2f935 0x2f935, IM_Mapped [0x24c36]);
  (R 0x2f936 0x2f936, IM_Mapped [0x753e]);
  (R 0x2f937 0x2f937, IM_Mapped [0x24c92]);
  (R 0x2f938 0x2f938, IM_Mapped [0x7570]);
  (R 0x2f939 0x2f939, IM_Mapped [0x2219f]);
  (R 0x2f93a 0x2f93a, IM_Mapped [0x7610]);
  (R 0x2f93b 0x2f93b, IM_Mapped [0x24fa1]);
  (R 0x2f93c 0x2f93c, IM_Mapped [0x24fb8]);
  (R 0x2f93d 0x2f93d, IM_Mapped [0x25044]);
  (R 0x2f93e 0x2f93e, IM_Mapped [0x3ffc]);
  (R 0x2f93f 0x2f93f, IM_Mapped [0x4008]);
  (R 0x2f940 0x2f940, IM_Mapped [0x76f4]);
  (R 0x2f941 0x2f941, IM_Mapped [0x250f3]);
  (R 0x2f942 0x2f942, IM_Mapped [0x250f2]);
  (R 0x2f943 0x2f943, IM_Mapped [0x25119]);
  (R 0x2f944 0x2f944, IM_Mapped [0x25133]);
  (R 0x2f945 0x2f945, IM_Mapped [0x771e]);
  (R 0x2f946 0x2f947, IM_Mapped [0x771f]);
  (R 0x2f948 0x2f948, IM_Mapped [0x774a]);
  (R 0x2f949 0x2f949, IM_Mapped [0x4039]);
  (R 0x2f94a 0x2f94a, IM_Mapped [0x778b]);
  (R 0x2f94b 0x2f94b, IM_Mapped [0x4046]);
  (R 0x2f94c 0x2f94c, IM_Mapped [0x4096]);
  (R 0x2f94d 0x2f94d, IM_Mapped [0x2541d]);
  (R 0x2f94e 0x2f94e, IM_Mapped [0x784e]);
  (R 0x2f94f 0x2f94f, IM_Mapped [0x788c]);
  (R 0x2f950 0x2f950, IM_Mapped [0x78cc]);
  (R 0x2f951 0x2f951, IM_Mapped [0x40e3]);
  (R 0x2f952 0x2f952, IM_Mapped [0x25626]);
  (R 0x2f953 0x2f953, IM_Mapped [0x7956]);
  (R 0x2f954 0x2f954, IM_Mapped [0x2569a]);
  (R 0x2f955 0x2f955, IM_Mapped [0x256c5]);
  (R 0x2f956 0x2f956, IM_Mapped [0x798f]);
  (R 0x2f957 0x2f957, IM_Mapped [0x79eb]);
  (R 0x2f958 0x2f958, IM_Mapped [0x412f]);
  (R 0x2f959 0x2f959, IM_Mapped [0x7a40]);
  (R 0x2f95a 0x2f95a, IM_Mapped [0x7a4a]);
  (R 0x2f95b 0x2f95b, IM_Mapped [0x7a4f]);
  (R 0x2f95c 0x2f95c, IM_Mapped [0x2597c]);
  (R 0x2f95d 0x2f95e, IM_Mapped [0x25aa7]);
  (R 0x2f95f 0x2f95f, IM_Disallowed);
  (R 0x2f960 0x2f960, IM_Mapped [0x4202]);
  (R 0x2f961 0x2f961, IM_Mapped [0x25bab]);
  (R 0x2f962 0x2f962, IM_Mapped [0x7bc6]);
  (R 0x2f963 0x2f963, IM_Mapped [0x7bc9]);
  (R 0x2f964 0x2f964, IM_Mapped [0x4227]);
  (R 0x2f965 0x2f965, IM_Mapped [0x25c80]);
  (R 0x2f966 0x2f966, IM_Mapped [0x7cd2]);
  (R 0x2f967 0x2f967, IM_Mapped [0x42a0]);
  (R 0x2f968 0x2f968, IM_Mapped [0x7ce8]);
  (R 0x2f969 0x2f969, IM_Mapped [0x7ce3]);
  (R 0x2f96a 0x2f96a, IM_Mapped [0x7d00]);
  (R 0x2f96b 0x2f96b, IM_Mapped [0x25f86]);
  (R 0x2f96c 0x2f96c, IM_Mapped [0x7d63]);
  (R 0x2f96d 0x2f96d, IM_Mapped [0x4301]);
  (R 0x2f96e 0x2f96e, IM_Mapped [0x7dc7]);
  (R 0x2f96f 0x2f96f, IM_Mapped [0x7e02]);
  (R 0x2f970 0x2f970, IM_Mapped [0x7e45]);
  (R 0x2f971 0x2f971, IM_Mapped [0x4334]);
  (R 0x2f972 0x2f972, IM_Mapped [0x26228]);
  (R 0x2f973 0x2f973, IM_Mapped [0x26247]);
  (R 0x2f974 0x2f974, IM_Mapped [0x4359]);
  (R 0x2f975 0x2f975, IM_Mapped [0x262d9]);
  (R 0x2f976 0x2f976, IM_Mapped [0x7f7a]);
  (R 0x2f977 0x2f977, IM_Mapped [0x2633e]);
  (R 0x2f978 0x2f978, IM_Mapped [0x7f95]);
  (R 0x2f979 0x2f979, IM_Mapped [0x7ffa]);
  (R 0x2f97a 0x2f97a, IM_Mapped [0x8005]);
  (R 0x2f97b 0x2f97b, IM_Mapped [0x264da]);
  (R 0x2f97c 0x2f97c, IM_Mapped [0x26523]);
  (R 0x2f97d 0x2f97d, IM_Mapped [0x8060]);
  (R 0x2f97e 0x2f97e, IM_Mapped [0x265a8]);
  (R 0x2f97f 0x2f97f, IM_Mapped [0x8070]);
  (R 0x2f980 0x2f980, IM_Mapped [0x2335f]);
  (R 0x2f981 0x2f981, IM_Mapped [0x43d5]);
  (R 0x2f982 0x2f982, IM_Mapped [0x80b2]);
  (R 0x2f983 0x2f983, IM_Mapped [0x8103]);
  (R 0x2f984 0x2f984, IM_Mapped [0x440b]);
  (R 0x2f985 0x2f985, IM_Mapped [0x813e]);
  (R 0x2f986 0x2f986, IM_Mapped [0x5ab5]);
  (R 0x2f987 0x2f987, IM_Mapped [0x267a7]);
  (R 0x2f988 0x2f988, IM_Mapped [0x267b5]);
  (R 0x2f989 0x2f989, IM_Mapped [0x23393]);
  (R 0x2f98a 0x2f98a, IM_Mapped [0x2339c]);
  (R 0x2f98b 0x2f98b, IM_Mapped [0x8201]);
  (R 0x2f98c 0x2f98c, IM_Mapped [0x8204]);
  (R 0x2f98d 0x2f98d, IM_Mapped [0x8f9e]);
  (R 0x2f98e 0x2f98e, IM_Mapped [0x446b]);
  (R 0x2f98f 0x2f98f, IM_Mapped [0x8291]);
  (R 0x2f990 0x2f990, IM_Mapped [0x828b]);
  (R 0x2f991 0x2f991, IM_Mapped [0x829d]);
  (R 0x2f992 0x2f992, IM_Mapped [0x52b3]);
  (R 0x2f993 0x2f993, IM_Mapped [0x82b1]);
  (R 0x2f994 0x2f994, IM_Mapped [0x82b3]);
  (R 0x2f995 0x2f995, IM_Mapped [0x82bd]);
  (R 0x2f996 0x2f996, IM_Mapped [0x82e6]);
  (R 0x2f997 0x2f997, IM_Mapped [0x26b3c]);
  (R 0x2f998 0x2f998, IM_Mapped [0x82e5]);
  (R 0x2f999 0x2f999, IM_Mapped [0x831d]);
  (R 0x2f99a 0x2f99a, IM_Mapped [0x8363]);
  (R 0x2f99b 0x2f99b, IM_Mapped [0x83ad]);
  (R 0x2f99c 0x2f99c, IM_Mapped [0x8323]);
  (R 0x2f99d 0x2f99d, IM_Mapped [0x83bd]);
  (R 0x2f99e 0x2f99e, IM_Mapped [0x83e7]);
  (R 0x2f99f 0x2f99f, IM_Mapped [0x8457]);
  (R 0x2f9a0 0x2f9a0, IM_Mapped [0x8353]);
  (R 0x2f9a1 0x2f9a1, IM_Mapped [0x83ca]);
  (R 0x2f9a2 0x2f9a2, IM_Mapped [0x83cc]);
  (R 0x2f9a3 0x2f9a3, IM_Mapped [0x83dc]);
  (R 0x2f9a4 0x2f9a4, IM_Mapped [0x26c36]);
  (R 0x2f9a5 0x2f9a5, IM_Mapped [0x26d6b]);
  (R 0x2f9a6 0x2f9a6, IM_Mapped [0x26cd5]);
  (R 0x2f9a7 0x2f9a7, IM_Mapped [0x452b]);
  (R 0x2f9a8 0x2f9a8, IM_Mapped [0x84f1]);
  (R 0x2f9a9 0x2f9a9, IM_Mapped [0x84f3]);
  (R 0x2f9aa 0x2f9aa, IM_Mapped [0x8516]);
  (R 0x2f9ab 0x2f9ab, IM_Mapped [0x273ca]);
  (R 0x2f9ac 0x2f9ac, IM_Mapped [0x8564]);
  (R 0x2f9ad 0x2f9ad, IM_Mapped [0x26f2c]);
  (R 0x2f9ae 0x2f9ae, IM_Mapped [0x455d]);
  (R 0x2f9af 0x2f9af, IM_Mapped [0x4561]);
  (R 0x2f9b0 0x2f9b0, IM_Mapped [0x26fb1]);
  (R 0x2f9b1 0x2f9b1, IM_Mapped [0x270d2]);
  (R 0x2f9b2 0x2f9b2, IM_Mapped [0x456b]);
  (R 0x2f9b3 0x2f9b3, IM_Mapped [0x8650]);
  (R 0x2f9b4 0x2f9b4, IM_Mapped [0x865c]);
  (R 0x2f9b5 0x2f9b5, IM_Mapped [0x8667]);
  (R 0x2f9b6 0x2f9b6, IM_Mapped [0x8669]);
  (R 0x2f9b7 0x2f9b7, IM_Mapped [0x86a9]);
  (R 0x2f9b8 0x2f9b8, IM_Mapped [0x8688]);
  (R 0x2f9b9 0x2f9b9, IM_Mapped [0x870e]);
  (R 0x2f9ba 0x2f9ba, IM_Mapped [0x86e2]);
  (R 0x2f9bb 0x2f9bb, IM_Mapped [0x8779]);
  (R 0x2f9bc 0x2f9bc, IM_Mapped [0x8728]);
  (R 0x2f9bd 0x2f9bd, IM_Mapped [0x876b]);
  (R 0x2f9be 0x2f9be, IM_Mapped [0x8786]);
  (R 0x2f9bf 0x2f9bf, IM_Disallowed);
  (R 0x2f9c0 0x2f9c0, IM_Mapped [0x87e1]);
  (R 0x2f9c1 0x2f9c1, IM_Mapped [0x8801]);
  (R 0x2f9c2 0x2f9c2, IM_Mapped [0x45f9]);
  (R 0x2f9c3 0x2f9c3, IM_Mapped [0x8860]);
  (R 0x2f9c4 0x2f9c4, IM_Mapped [0x8863]);
  (R 0x2f9c5 0x2f9c5, IM_Mapped [0x27667]);
  (R 0x2f9c6 0x2f9c6, IM_Mapped [0x88d7]);
  (R 0x2f9c7 0x2f9c7, IM_Mapped [0x88de]);
  (R 0x2f9c8 0x2f9c8, IM_Mapped [0x4635]);
  (R 0x2f9c9 0x2f9c9, IM_Mapped [0x88fa]);
  (R 0x2f9ca 0x2f9ca, IM_Mapped [0x34bb]);
  (R 0x2f9cb 0x2f9cb, IM_Mapped [0x278ae]);
  (R 0x2f9cc 0x2f9cc, IM_Mapped [0x27966]);
  (R 0x2f9cd 0x2f9cd, IM_Mapped [0x46be]);
  (R 0x2f9ce 0x2f9ce, IM_Mapped [0x46c7]);
  (R 0x2f9cf 0x2f9cf, IM_Mapped [0x8aa0]);
  (R 0x2f9d0 0x2f9d0, IM_Mapped [0x8aed]);
  (R 0x2f9d1 0x2f9d1, IM_Mapped [0x8b8a]);
  (R 0x2f9d2 0x2f9d2, IM_Mapped [0x8c55]);
  (R 0x2f9d3 0x2f9d3, IM_Mapped [0x27ca8]);
  (R 0x2f9d4 0x2f9d4, IM_Mapped [0x8cab]);
  (R 0x2f9d5 0x2f9d5, IM_Mapped [0x8cc1]);
  (R 0x2f9d6 0x2f9d6, IM_Mapped [0x8d1b]);
  (R 0x2f9d7 0x2f9d7, IM_Mapped [0x8d77]);
  (R 0x2f9d8 0x2f9d8, IM_Mapped [0x27f2f]);
  (R 0x2f9d9 0x2f9d9, IM_Mapped [0x20804]);
  (R 0x2f9da 0x2f9da, IM_Mapped [0x8dcb]);
  (R 0x2f9db 0x2f9db, IM_Mapped [0x8dbc]);
  (R 0x2f9dc 0x2f9dc, IM_Mapped [0x8df0]);
  (R 0x2f9dd 0x2f9dd, IM_Mapped [0x208de]);
  (R 0x2f9de 0x2f9de, IM_Mapped [0x8ed4]);
  (R 0x2f9df 0x2f9df, IM_Mapped [0x8f38]);
  (R 0x2f9e0 0x2f9e0, IM_Mapped [0x285d2]);
  (R 0x2f9e1 0x2f9e1, IM_Mapped [0x285ed]);
  (R 0x2f9e2 0x2f9e2, IM_Mapped [0x9094]);
  (R 0x2f9e3 0x2f9e3, IM_Mapped [0x90f1]);
  (R 0x2f9e4 0x2f9e4, IM_Mapped [0x9111]);
  (R 0x2f9e5 0x2f9e5, IM_Mapped [0x2872e]);
  (R 0x2f9e6 0x2f9e6, IM_Mapped [0x911b]);
  (R 0x2f9e7 0x2f9e7, IM_Mapped [0x9238]);
  (R 0x2f9e8 0x2f9e8, IM_Mapped [0x92d7]);
  (R 0x2f9e9 0x2f9e9, IM_Mapped [0x92d8]);
  (R 0x2f9ea 0x2f9ea, IM_Mapped [0x927c]);
  (R 0x2f9eb 0x2f9eb, IM_Mapped [0x93f9]);
  (R 0x2f9ec 0x2f9ec, IM_Mapped [0x9415]);
  (R 0x2f9ed 0x2f9ed, IM_Mapped [0x28bfa]);
  (R 0x2f9ee 0x2f9ee, IM_Mapped [0x958b]);
  (R 0x2f9ef 0x2f9ef, IM_Mapped [0x4995]);
  (R 0x2f9f0 0x2f9f0, IM_Mapped [0x95b7]);
  (R 0x2f9f1 0x2f9f1, IM_Mapped [0x28d77]);
  (R 0x2f9f2 0x2f9f2, IM_Mapped [0x49e6]);
  (R 0x2f9f3 0x2f9f3, IM_Mapped [0x96c3]);
  (R 0x2f9f4 0x2f9f4, IM_Mapped [0x5db2]);
  (R 0x2f9f5 0x2f9f5, IM_Mapped [0x9723]);
  (R 0x2f9f6 0x2f9f6, IM_Mapped [0x29145]);
  (R 0x2f9f7 0x2f9f7, IM_Mapped [0x2921a]);
  (R 0x2f9f8 0x2f9f8, IM_Mapped [0x4a6e]);
  (R 0x2f9f9 0x2f9f9, IM_Mapped [0x4a76]);
  (R 0x2f9fa 0x2f9fa, IM_Mapped [0x97e0]);
  (R 0x2f9fb 0x2f9fb, IM_Mapped [0x2940a]);
  (R 0x2f9fc 0x2f9fc, IM_Mapped [0x4ab2]);
  (R 0x2f9fd 0x2f9fd, IM_Mapped [0x29496]);
  (R 0x2f9fe 0x2f9ff, IM_Mapped [0x980b]);
  (R 0x2fa00 0x2fa00, IM_Mapped [0x9829]);
  (R 0x2fa01 0x2fa01, IM_Mapped [0x295b6]);
  (R 0x2fa02 0x2fa02, IM_Mapped [0x98e2]);
  (R 0x2fa03 0x2fa03, IM_Mapped [0x4b33]);
  (R 0x2fa04 0x2fa04, IM_Mapped [0x9929]);
  (R 0x2fa05 0x2fa05, IM_Mapped [0x99a7]);
  (R 0x2fa06 0x2fa06, IM_Mapped [0x99c2]);
  (R 0x2fa07 0x2fa07, IM_Mapped [0x99fe]);
  (R 0x2fa08 0x2fa08, IM_Mapped [0x4bce]);
  (R 0x2fa09 0x2fa09, IM_Mapped [0x29b30]);
  (R 0x2fa0a 0x2fa0a, IM_Mapped [0x9b12]);
  (R 0x2fa0b 0x2fa0b, IM_Mapped [0x9c40]);
  (R 0x2fa0c 0x2fa0c, IM_Mapped [0x9cfd]);
  (R 0x2fa0d 0x2fa0d, IM_Mapped [0x4cce]);
  (R 0x2fa0e 0x2fa0e, IM_Mapped [0x4ced]);
  (R 0x2fa0f 0x2fa0f, IM_Mapped [0x9d67]);
  (R 0x2fa10 0x2fa10, IM_Mapped [0x2a0ce])].

Definition MAPPING_19 : list (CharRange * Mapping) := [
  (R 0x2fa11 0x2fa11, IM_Mapped [0x4cf8]);
  (R 0x2fa12 0x2fa12, IM_Mapped [0x2a105]);
  (R 0x2fa13 0x2fa13, IM_Mapped [0x2a20e]);
  (R 0x2fa14 0x2fa14, IM_Mapped [0x2a291]);
  (R 0x2fa15 0x2fa15, IM_Mapped [0x9ebb]);
  (R 0x2fa16 0x2fa16, IM_Mapped [0x4d56]);
  (R 0x2fa17 0x2fa17, IM_Mapped [0x9ef9]);
  (R 0x2fa18 0x2fa18, IM_Mapped [0x9efe]);
  (R 0x2fa19 0x2fa19, IM_Mapped [0x9f05]);
  (R 0x2fa1a 0x2fa1a, IM_Mapped [0x9f0f]);
  (R 0x2fa1b 0x2fa1b, IM_Mapped [0x9f16]);
  (R 0x2fa1c 0x2fa1c, IM_Mapped [0x9f3b]);
  (R 0x2fa1d 0x2fa1d, IM_Mapped [0x2a600]);
  (R 0x2fa1e 0xe00ff, IM_Disallowed);
  (R 0xe0100 0xe01ef, IM_Ignored);
  (R 0xe01f0 0x10ffff, IM_Disallowed)].

Definition MAPPING : CharDataTable Mapping :=
  Range (MAPPING_0 ++ MAPPING_1 ++ MAPPING_2 ++ MAPPING_3 ++ MAPPING_4 ++ MAPPING_5 ++ MAPPING_6 ++ MAPPING_7 ++ MAPPING_8 ++ MAPPING_9 ++ MAPPING_10 ++ MAPPING_11 ++ MAPPING_12 ++ MAPPING_13 ++ MAPPING_14 ++ MAPPING_15 ++ MAPPING_16 ++ MAPPING_17 ++ MAPPING_18 ++ MAPPING_19).
