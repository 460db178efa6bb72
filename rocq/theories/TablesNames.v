(** GENERATED by tools/gen_tables.py from the .rsv tables of /repo.  Do not edit. *)
From Coq Require Import List NArith.
From Verif Require Import Base RangeModel TableModel Enums TableTypes TablesWords.
Import ListNotations.
Open Scope N_scope.
Local Notation R := mkRange.

(** unic/ucd/name/tables/name_map.rsv:1-31527 (31523 entries) *)
Definition NAMES_0 : list (N * (list str)) := [
  (0x20, [w_SPACE]);
  (0x21, [w_EXCLAMATION;w_MARK]);
  (0x22, [w_QUOTATION;w_MARK]);
  (0x23, [w_NUMBER;w_SIGN]);
  (0x24, [w_DOLLAR;w_SIGN]);
  (0x25, [w_PERCENT;w_SIGN]);
  (0x26, [w_AMPERSAND]);
  (0x27, [w_APOSTROPHE]);
  (0x28, [w_LEFT;w_PARENTHESIS]);
  (0x29, [w_RIGHT;w_PARENTHESIS]);
  (0x2a, [w_ASTERISK]);
  (0x2b, [w_PLUS;w_SIGN]);
  (0x2c, [w_COMMA]);
  (0x2d, [w_HYPHEN_MINUS]);
  (0x2e, [w_FULL;w_STOP]);
  (0x2f, [w_SOLIDUS]);
  (0x30, [w_DIGIT;w_ZERO]);
  (0x31, [w_DIGIT;w_ONE]);
  (0x32, [w_DIGIT;w_TWO]);
  (0x33, [w_DIGIT;w_THREE]);
  (0x34, [w_DIGIT;w_FOUR]);
  (0x35, [w_DIGIT;w_FIVE]);
  (0x36, [w_DIGIT;w_SIX]);
  (0x37, [w_DIGIT;w_SEVEN]);
  (0x38, [w_DIGIT;w_EIGHT]);
  (0x39, [w_DIGIT;w_NINE]);
  (0x3a, [w_COLON]);
  (0x3b, [w_SEMICOLON]);
  (0x3c, [w_LESS_THAN;w_SIGN]);
  (0x3d, [w_EQUALS;w_SIGN]);
  (0x3e, [w_GREATER_THAN;w_SIGN]);
  (0x3f, [w_QUESTION;w_MARK]);
  (0x40, [w_COMMERCIAL;w_AT]);
  (0x41, [w_LATIN;w_CAPITAL;w_LETTER;w_A]);
  (0x42, [w_LATIN;w_CAPITAL;w_LETTER;w_B]);
  (0x43, [w_LATIN;w_CAPITAL;w_LETTER;w_C]);
  (0x44, [w_LATIN;w_CAPITAL;w_LETTER;w_D]);
  (0x45, [w_LATIN;w_CAPITAL;w_LETTER;w_E]);
  (0x46, [w_LATIN;w_CAPITAL;w_LETTER;w_F]);
  (0x47, [w_LATIN;w_CAPITAL;w_LETTER;w_G]);
  (0x48, [w_LATIN;w_CAPITAL;w_LETTER;w_H]);
  (0x49, [w_LATIN;w_CAPITAL;w_LETTER;w_I]);
  (0x4a, [w_LATIN;w_CAPITAL;w_LETTER;w_J]);
  (0x4b, [w_LATIN;w_CAPITAL;w_LETTER;w_K]);
  (0x4c, [w_LATIN;w_CAPITAL;w_LETTER;w_L]);
  (0x4d, [w_LATIN;w_CAPITAL;w_LETTER;w_M]);
  (0x4e, [w_LATIN;w_CAPITAL;w_LETTER;w_N]);
  (0x4f, [w_LATIN;w_CAPITAL;w_LETTER;w_O]);
  (0x50, [w_LATIN;w_CAPITAL;w_LETTER;w_P]);
  (0x51, [w_LATIN;w_CAPITAL;w_LETTER;w_Q]);
  (0x52, [w_LATIN;w_CAPITAL;w_LETTER;w_R]);
  (0x53, [w_LATIN;w_CAPITAL;w_LETTER;w_S]);
  (0x54, [w_LATIN;w_CAPITAL;w_LETTER;w_T]);
  (0x55, [w_LATIN;w_CAPITAL;w_LETTER;w_U]);
  (0x56, [w_LATIN;w_CAPITAL;w_LETTER;w_V]);
  (0x57, [w_LATIN;w_CAPITAL;w_LETTER;w_W]);
  (0x58, [w_LATIN;w_CAPITAL;w_LETTER;w_X]);
  (0x59, [w_LATIN;w_CAPITAL;w_LETTER;w_Y]);
  (0x5a, [w_LATIN;w_CAPITAL;w_LETTER;w_Z]);
  (0x5b, [w_LEFT;w_SQUARE;w_BRACKET]);
  (0x5c, [w_REVERSE;w_SOLIDUS]);
  (0x5d, [w_RIGHT;w_SQUARE;w_BRACKET]);
  (0x5e, [w_CIRCUMFLEX;w_ACCENT]);
  (0x5f, [w_LOW;w_LINE]);
  (0x60, [w_GRAVE;w_ACCENT]);
  (0x61, [w_LATIN;w_SMALL;w_LETTER;w_A]);
  (0x62, [w_LATIN;w_SMALL;w_LETTER;w_B]);
  (0x63, [w_LATIN;w_SMALL;w_LETTER;w_C]);
  (0x64, [w_LATIN;w_SMALL;w_LETTER;w_D]);
  (0x65, [w_LATIN;w_SMALL;w_LETTER;w_E]);
  (0x66, [w_LATIN;w_SMALL;w_LETTER;w_F]);
  (0x67, [w_LATIN;w_SMALL;w_LETTER;w_G]);
  (0x68, [w_LATIN;w_SMALL;w_LETTER;w_H]);
  (0x69, [w_LATIN;w_SMALL;w_LETTER;w_I]);
  (0x6a, [w_LATIN;w_SMALL;w_LETTER;w_J]);
  (0x6b, [w_LATIN;w_SMALL;w_LETTER;w_K]);
  (0x6c, [w_LATIN;w_SMALL;w_LETTER;w_L]);
  (0x6d, [w_LATIN;w_SMALL;w_LETTER;w_M]);
  (0x6e, [w_LATIN;w_SMALL;w_LETTER;w_N]);
  (0x6f, [w_LATIN;w_SMALL;w_LETTER;w_O]);
  (0x70, [w_LATIN;w_SMALL;w_LETTER;w_P]);
  (0x71, [w_LATIN;w_SMALL;w_LETTER;w_Q]);
  (0x72, [w_LATIN;w_SMALL;w_LETTER;w_R]);
  (0x73, [w_LATIN;w_SMALL;w_LETTER;w_S]);
  (0x74, [w_LATIN;w_SMALL;w_LETTER;w_T]);
  (0x75, [w_LATIN;w_SMALL;w_LETTER;w_U]);
  (0x76, [w_LATIN;w_SMALL;w_LETTER;w_V]);
  (0x77, [w_LATIN;w_SMALL;w_LETTER;w_W]);
  (0x78, [w_LATIN;w_SMALL;w_LETTER;w_X]);
  (0x79, [w_LATIN;w_SMALL;w_LETTER;w_Y]);
  (0x7a, [w_LATIN;w_SMALL;w_LETTER;w_Z]);
  (0x7b, [w_LEFT;w_CURLY;w_BRACKET]);
  (0x7c, [w_VERTICAL;w_LINE]);
  (0x7d, [w_RIGHT;w_CURLY;w_BRACKET]);
  (0x7e, [w_TILDE]);
  (0xa0, [w_NO_BREAK;w_SPACE]);
  (0xa1, [w_INVERTED;w_EXCLAMATION;w_MARK]);
  (0xa2, [w_CENT;w_SIGN]);
  (0xa3, [w_POUND;w_SIGN]);
  (0xa4, [w_CURRENCY;w_SIGN]);
  (0xa5, [w_YEN;w_SIGN]);
  (0xa6, [w_BROKEN;w_BAR]);
  (0xa7, [w_SECTION;w_SIGN]);
  (0xa8, [w_DIAERESIS]);
  (0xa9, [w_COPYRIGHT;w_SIGN]);
  (0xaa, [w_FEMININE;w_ORDINAL;w_INDICATOR]);
  (0xab, [w_LEFT_POINTING;w_DOUBLE;w_ANGLE;w_QUOTATION;w_MARK]);
  (0xac, [w_NOT;w_SIGN]);
  (0xad, [w_SOFT;w_HYPHEN]);
  (0xae, [w_REGISTERED;w_SIGN]);
  (0xaf, [w_MACRON]);
  (0xb0, [w_DEGREE;w_SIGN]);
  (0xb1, [w_PLUS_MINUS;w_SIGN]);
  (0xb2, [w_SUPERSCRIPT;w_TWO]);
  (0xb3, [w_SUPERSCRIPT;w_THREE]);
  (0xb4, [w_ACUTE;w_ACCENT]);
  (0xb5, [w_MICRO;w_SIGN]);
  (0xb6, [w_PILCROW;w_SIGN]);
  (0xb7, [w_MIDDLE;w_DOT]);
  (0xb8, [w_CEDILLA]);
  (0xb9, [w_SUPERSCRIPT;w_ONE]);
  (0xba, [w_MASCULINE;w_ORDINAL;w_INDICATOR]);
  (0xbb, [w_RIGHT_POINTING;w_DOUBLE;w_ANGLE;w_QUOTATION;w_MARK]);
  (0xbc, [w_VULGAR;w_FRACTION;w_ONE;w_QUARTER]);
  (0xbd, [w_VULGAR;w_FRACTION;w_ONE;w_HALF]);
  (0xbe, [w_VULGAR;w_FRACTION;w_THREE;w_QUARTERS]);
  (0xbf, [w_INVERTED;w_QUESTION;w_MARK]);
  (0xc0, [w_LATIN;w_CAPITAL;w_LETTER;w_A;w_WITH;w_GRAVE]);
  (0xc1, [w_LATIN;w_CAPITAL;w_LETTER;w_A;w_WITH;w_ACUTE]);
  (0xc2, [w_LATIN;w_CAPITAL;w_LETTER;w_A;w_WITH;w_CIRCUMFLEX]);
  (0xc3, [w_LATIN;w_CAPITAL;w_LETTER;w_A;w_WITH;w_TILDE]);
  (0xc4, [w_LATIN;w_CAPITAL;w_LETTER;w_A;w_WITH;w_DIAERESIS]);
  (0xc5, [w_LATIN;w_CAPITAL;w_LETTER;w_A;w_WITH;w_RING;w_ABOVE]);
  (0xc6, [w_LATIN;w_CAPITAL;w_LETTER;w_AE]);
  (0xc7, [w_LATIN;w_CAPITAL;w_LETTER;w_C;w_WITH;w_CEDILLA]);
  (0xc8, [w_LATIN;w_CAPITAL;w_LETTER;w_E;w_WITH;w_GRAVE]);
  (0xc9, [w_LATIN;w_CAPITAL;w_LETTER;w_E;w_WITH;w_ACUTE]);
  (0xca, [w_LATIN;w_CAPITAL;w_LETTER;w_E;w_WITH;w_CIRCUMFLEX]);
  (0xcb, [w_LATIN;w_CAPITAL;w_LETTER;w_E;w_WITH;w_DIAERESIS]);
  (0xcc, [w_LATIN;w_CAPITAL;w_LETTER;w_I;w_WITH;w_GRAVE]);
  (0xcd, [w_LATIN;w_CAPITAL;w_LETTER;w_I;w_WITH;w_ACUTE]);
  (0xce, [w_LATIN;w_CAPITAL;w_LETTER;w_I;w_WITH;w_CIRCUMFLEX]);
  (0xcf, [w_LATIN;w_CAPITAL;w_LETTER;w_I;w_WITH;w_DIAERESIS]);
  (0xd0, [w_LATIN;w_CAPITAL;w_LETTER;w_ETH]);
  (0xd1, [w_LATIN;w_CAPITAL;w_LETTER;w_N;w_WITH;w_TILDE]);
  (0xd2, [w_LATIN;w_CAPITAL;w_LETTER;w_O;w_WITH;w_GRAVE]);
  (0xd3, [w_LATIN;w_CAPITAL;w_LETTER;w_O;w_WITH;w_ACUTE]);
  (0xd4, [w_LATIN;w_CAPITAL;w_LETTER;w_O;w_WITH;w_CIRCUMFLEX]);
  (0xd5, [w_LATIN;w_CAPITAL;w_LETTER;w_O;w_WITH;w_TILDE]);
  (0xd6, [w_LATIN;w_CAPITAL;w_LETTER;w_O;w_WITH;w_DIAERESIS]);
  (0xd7, [w_MULTIPLICATION;w_SIGN]);
  (0xd8, [w_LATIN;w_CAPITAL;w_LETTER;w_O;w_WITH;w_STROKE]);
  (0xd9, [w_LATIN;w_CAPITAL;w_LETTER;w_U;w_WITH;w_GRAVE]);
  (0xda, [w_LATIN;w_CAPITAL;w_LETTER;w_U;w_WITH;w_ACUTE]);
  (0xdb, [w_LATIN;w_CAPITAL;w_LETTER;w_U;w_WITH;w_CIRCUMFLEX]);
  (0xdc, [w_LATIN;w_CAPITAL;w_LETTER;w_U;w_WITH;w_DIAERESIS]);
  (0xdd, [w_LATIN;w_CAPITAL;w_LETTER;w_Y;w_WITH;w_ACUTE]);
  (0xde, [w_LATIN;w_CAPITAL;w_LETTER;w_THORN]);
  (0xdf, [w_LATIN;w_SMALL;w_LETTER;w_SHARP;w_S]);
  (0xe0, [w_LATIN;w_SMALL;w_LETTER;w_A;w_WITH;w_GRAVE]);
  (0xe1, [w_LATIN;w_SMALL;w_LETTER;w_A;w_WITH;w_ACUTE]);
  (0xe2, [w_LATIN;w_SMALL;w_LETTER;w_A;w_WITH;w_CIRCUMFLEX]);
  (0xe3, [w_LATIN;w_SMALL;w_LETTER;w_A;w_WITH;w_TILDE]);
  (0xe4, [w_LATIN;w_SMALL;w_LETTER;w_A;w_WITH;w_DIAERESIS]);
  (0xe5, [w_LATIN;w_SMALL;w_LETTER;w_A;w_WITH;w_RING;w_ABOVE]);
  (0xe6, [w_LATIN;w_SMALL;w_LETTER;w_AE]);
  (0xe7, [w_LATIN;w_SMALL;w_LETTER;w_C;w_WITH;w_CEDILLA]);
  (0xe8, [w_LATIN;w_SMALL;w_LETTER;w_E;w_WITH;w_GRAVE]);
  (0xe9, [w_LATIN;w_SMALL;w_LETTER;w_E;w_WITH;w_ACUTE]);
  (0xea, [w_LATIN;w_SMALL;w_LETTER;w_E;w_WITH;w_CIRCUMFLEX]);
  (0xeb, [w_LATIN;w_SMALL;w_LETTER;w_E;w_WITH;w_DIAERESIS]);
  (0xec, [w_LATIN;w_SMALL;w_LETTER;w_I;w_WITH;w_GRAVE]);
  (0xed, [w_LATIN;w_SMALL;w_LETTER;w_I;w_WITH;w_ACUTE]);
  (0xee, [w_LATIN;w_SMALL;w_LETTER;w_I;w_WITH;w_CIRCUMFLEX]);
  (0xef, [w_LATIN;w_SMALL;w_LETTER;w_I;w_WITH;w_DIAERESIS]);
  (0xf0, [w_LATIN;w_SMALL;w_LETTER;w_ETH]);
  (0xf1, [w_LATIN;w_SMALL;w_LETTER;w_N;w_WITH;w_TILDE]);
  (0xf2, [w_LATIN;w_SMALL;w_LETTER;w_O;w_WITH;w_GRAVE]);
  (0xf3, [w_LATIN;w_SMALL;w_LETTER;w_O;w_WITH;w_ACUTE]);
  (0xf4, [w_LATIN;w_SMALL;w_LETTER;w_O;w_WITH;w_CIRCUMFLEX]);
  (0xf5, [w_LATIN;w_SMALL;w_LETTER;w_O;w_WITH;w_TILDE]);
  (0xf6, [w_LATIN;w_SMALL;w_LETTER;w_O;w_WITH;w_DIAERESIS]);
  (0xf7, [w_DIVISION;w_SIGN]);
  (0xf8, [w_LATIN;w_SMALL;w_LETTER;w_O;w_WITH;w_STROKE]);
  (0xf9, [w_LATIN;w_SMALL;w_LETTER;w_U;w_WITH;w_GRAVE]);
  (0xfa, [w_LATIN;w_SMALL;w_LETTER;w_U;w_WITH;w_ACUTE]);
  (0xfb, [w_LATIN;w_SMALL;w_LETTER;w_U;w_WITH;w_CIRCUMFLEX]);
  (0xfc, [w_LATIN;w_SMALL;w_LETTER;w_U;w_WITH;w_DIAERESIS]);
  (0xfd, [w_LATIN;w_SMALL;w_LETTER;w_Y;w_WITH;w_ACUTE]);
  (0xfe, [w_LATIN;w_SMALL;w_LETTER;w_THORN]);
  (0xff, [w_LATIN;w_SMALL;w_LETTER;w_Y;w_WITH;w_DIAERESIS]);
  (0x100, [w_LATIN;w_CAPITAL;w_LETTER;w_A;w_WITH;w_MACRON]);
  (0x101, [w_LATIN;w_SMALL;w_LETTER;w_A;w_WITH;w_MACRON]);
  (0x102, [w_LATIN;w_CAPITAL;w_LETTER;w_A;w_WITH;w_BREVE]);
  (0x103, [w_LATIN;w_SMALL;w_LETTER;w_A;w_WITH;w_BREVE]);
  (0x104, [w_LATIN;w_CAPITAL;w_LETTER;w_A;w_WITH;w_OGONEK]);
  (0x105, [w_LATIN;w_SMALL;w_LETTER;w_A;w_WITH;w_OGONEK]);
  (0x106, [w_LATIN;w_CAPITAL;w_LETTER;w_C;w_WITH;w_ACUTE]);
  (0x107, [w_LATIN;w_SMALL;w_LETTER;w_C;w_WITH;w_ACUTE]);
  (0x108, [w_LATIN;w_CAPITAL;w_LETTER;w_C;w_WITH;w_CIRCUMFLEX]);
  (0x109, [w_LATIN;w_SMALL;w_LETTER;w_C;w_WITH;w_CIRCUMFLEX]);
  (0x10a, [w_LATIN;w_CAPITAL;w_LETTER;w_C;w_WITH;w_DOT;w_ABOVE]);
  (0x10b, [w_LATIN;w_SMALL;w_LETTER;w_C;w_WITH;w_DOT;w_ABOVE]);
  (0x10c, [w_LATIN;w_CAPITAL;w_LETTER;w_C;w_WITH;w_CARON]);
  (0x10d, [w_LATIN;w_SMALL;w_LETTER;w_C;w_WITH;w_CARON]);
  (0x10e, [w_LATIN;w_CAPITAL;w_LETTER;w_D;w_WITH;w_CARON]);
  (0x10f, [w_LATIN;w_SMALL;w_LETTER;w_D;w_WITH;w_CARON]);
  (0x110, [w_LATIN;w_CAPITAL;w_LETTER;w_D;w_WITH;w_STROKE]);
  (0x111, [w_LATIN;w_SMALL;w_LETTER;w_D;w_WITH;w_STROKE]);
  (0x112, [w_LATIN;w_CAPITAL;w_LETTER;w_E;w_WITH;w_MACRON]);
  (0x113, [w_LATIN;w_SMALL;w_LETTER;w_E;w_WITH;w_MACRON]);
  (0x114, [w_LATIN;w_CAPITAL;w_LETTER;w_E;w_WITH;w_BREVE]);
  (0x115, [w_LATIN;w_SMALL;w_LETTER;w_E;w_WITH;w_BREVE]);
  (0x116, [w_LATIN;w_CAPITAL;w_LETTER;w_E;w_WITH;w_DOT;w_ABOVE]);
  (0x117, [w_LATIN;w_SMALL;w_LETTER;w_E;w_WITH;w_DOT;w_ABOVE]);
  (0x118, [w_LATIN;w_CAPITAL;w_LETTER;w_E;w_WITH;w_OGONEK]);
  (0x119, [w_LATIN;w_SMALL;w_LETTER;w_E;w_WITH;w_OGONEK]);
  (0x11a, [w_LATIN;w_CAPITAL;w_LETTER;w_E;w_WITH;w_CARON]);
  (0x11b, [w_LATIN;w_SMALL;w_LETTER;w_E;w_WITH;w_CARON]);
  (0x11c, [w_LATIN;w_CAPITAL;w_LETTER;w_G;w_WITH;w_CIRCUMFLEX]);
  (0x11d, [w_LATIN;w_SMALL;w_LETTER;w_G;w_WITH;w_CIRCUMFLEX]);
  (0x11e, [w_LATIN;w_CAPITAL;w_LETTER;w_G;w_WITH;w_BREVE]);
  (0x11f, [w_LATIN;w_SMALL;w_LETTER;w_G;w_WITH;w_BREVE]);
  (0x120, [w_LATIN;w_CAPITAL;w_LETTER;w_G;w_WITH;w_DOT;w_ABOVE]);
  (0x121, [w_LATIN;w_SMALL;w_LETTER;w_G;w_WITH;w_DOT;w_ABOVE]);
  (0x122, [w_LATIN;w_CAPITAL;w_LETTER;w_G;w_WITH;w_CEDILLA]);
  (0x123, [w_LATIN;w_SMALL;w_LETTER;w_G;w_WITH;w_CEDILLA]);
  (0x124, [w_LATIN;w_CAPITAL;w_LETTER;w_H;w_WITH;w_CIRCUMFLEX]);
  (0x125, [w_LATIN;w_SMALL;w_LETTER;w_H;w_WITH;w_CIRCUMFLEX]);
  (0x126, [w_LATIN;w_CAPITAL;w_LETTER;w_H;w_WITH;w_STROKE]);
  (0x127, [w_LATIN;w_SMALL;w_LETTER;w_H;w_WITH;w_STROKE]);
  (0x128, [w_LATIN;w_CAPITAL;w_LETTER;w_I;w_WITH;w_TILDE]);
  (0x129, [w_LATIN;w_SMALL;w_LETTER;w_I;w_WITH;w_TILDE]);
  (0x12a, [w_LATIN;w_CAPITAL;w_LETTER;w_I;w_WITH;w_MACRON]);
  (0x12b, [w_LATIN;w_SMALL;w_LETTER;w_I;w_WITH;w_MACRON]);
  (0x12c, [w_LATIN;w_CAPITAL;w_LETTER;w_I;w_WITH;w_BREVE]);
  (0x12d, [w_LATIN;w_SMALL;w_LETTER;w_I;w_WITH;w_BREVE]);
  (0x12e, [w_LATIN;w_CAPITAL;w_LETTER;w_I;w_WITH;w_OGONEK]);
  (0x12f, [w_LATIN;w_SMALL;w_LETTER;w_I;w_WITH;w_OGONEK]);
  (0x130, [w_LATIN;w_CAPITAL;w_LETTER;w_I;w_WITH;w_DOT;w_ABOVE]);
  (0x131, [w_LATIN;w_SMALL;w_LETTER;w_DOTLESS;w_I]);
  (0x132, [w_LATIN;w_CAPITAL;w_LIGATURE;w_IJ]);
  (0x133, [w_LATIN;w_SMALL;w_LIGATURE;w_IJ]);
  (0x134, [w_LATIN;w_CAPITAL;w_LETTER;w_J;w_WITH;w_CIRCUMFLEX]);
  (0x135, [w_LATIN;w_SMALL;w_LETTER;w_J;w_WITH;w_CIRCUMFLEX]);
  (0x136, [w_LATIN;w_CAPITAL;w_LETTER;w_K;w_WITH;w_CEDILLA]);
  (0x137, [w_LATIN;w_SMALL;w_LETTER;w_K;w_WITH;w_CEDILLA]);
  (0x138, [w_LATIN;w_SMALL;w_LETTER;w_KRA]);
  (0x139, [w_LATIN;w_CAPITAL;w_LETTER;w_L;w_WITH;w_ACUTE]);
  (0x13a, [w_LATIN;w_SMALL;w_LETTER;w_L;w_WITH;w_ACUTE]);
  (0x13b, [w_LATIN;w_CAPITAL;w_LETTER;w_L;w_WITH;w_CEDILLA]);
  (0x13c, [w_LATIN;w_SMALL;w_LETTER;w_L;w_WITH;w_CEDILLA]);
  (0x13d, [w_LATIN;w_CAPITAL;w_LETTER;w_L;w_WITH;w_CARON]);
  (0x13e, [w_LATIN;w_SMALL;w_LETTER;w_L;w_WITH;w_CARON]);
  (0x13f, [w_LATIN;w_CAPITAL;w_LETTER;w_L;w_WITH;w_MIDDLE;w_DOT]);
  (0x140, [w_LATIN;w_SMALL;w_LETTER;w_L;w_WITH;w_MIDDLE;w_DOT]);
  (0x141, [w_LATIN;w_CAPITAL;w_LETTER;w_L;w_WITH;w_STROKE]);
  (0x142, [w_LATIN;w_SMALL;w_LETTER;w_L;w_WITH;w_STROKE]);
  (0x143, [w_LATIN;w_CAPITAL;w_LETTER;w_N;w_WITH;w_ACUTE]);
  (0x144, [w_LATIN;w_SMALL;w_LETTER;w_N;w_WITH;w_ACUTE]);
  (0x145, [w_LATIN;w_CAPITAL;w_LETTER;w_N;w_WITH;w_CEDILLA]);
  (0x146, [w_LATIN;w_SMALL;w_LETTER;w_N;w_WITH;w_CEDILLA]);
  (0x147, [w_LATIN;w_CAPITAL;w_LETTER;w_N;w_WITH;w_CARON]);
  (0x148, [w_LATIN;w_SMALL;w_LETTER;w_N;w_WITH;w_CARON]);
  (0x149, [w_LATIN;w_SMALL;w_LETTER;w_N;w_PRECEDED;w_BY;w_APOSTROPHE]);
  (0x14a, [w_LATIN;w_CAPITAL;w_LETTER;w_ENG]);
  (0x14b, [w_LATIN;w_SMALL;w_LETTER;w_ENG]);
  (0x14c, [w_LATIN;w_CAPITAL;w_LETTER;w_O;w_WITH;w_MACRON]);
  (0x14d, [w_LATIN;w_SMALL;w_LETTER;w_O;w_WITH;w_MACRON]);
  (0x14e, [w_LATIN;w_CAPITAL;w_LETTER;w_O;w_WITH;w_BREVE]);
  (0x14f, [w_LATIN;w_SMALL;w_LETTER;w_O;w_WITH;w_BREVE]);
  (0x150, [w_LATIN;w_CAPITAL;w_LETTER;w_O;w_WITH;w_DOUBLE;w_ACUTE]);
  (0x151, [w_LATIN;w_SMALL;w_LETTER;w_O;w_WITH;w_DOUBLE;w_ACUTE]);
  (0x152, [w_LATIN;w_CAPITAL;w_LIGATURE;w_OE]);
  (0x153, [w_LATIN;w_SMALL;w_LIGATURE;w_OE]);
  (0x154, [w_LATIN;w_CAPITAL;w_LETTER;w_R;w_WITH;w_ACUTE]);
  (0x155, [w_LATIN;w_SMALL;w_LETTER;w_R;w_WITH;w_ACUTE]);
  (0x156, [w_LATIN;w_CAPITAL;w_LETTER;w_R;w_WITH;w_CEDILLA]);
  (0x157, [w_LATIN;w_SMALL;w_LETTER;w_R;w_WITH;w_CEDILLA]);
  (0x158, [w_LATIN;w_CAPITAL;w_LETTER;w_R;w_WITH;w_CARON]);
  (0x159, [w_LATIN;w_SMALL;w_LETTER;w_R;w_WITH;w_CARON]);
  (0x15a, [w_LATIN;w_CAPITAL;w_LETTER;w_S;w_WITH;w_ACUTE]);
  (0x15b, [w_LATIN;w_SMALL;w_LETTER;w_S;w_WITH;w_ACUTE]);
  (0x15c, [w_LATIN;w_CAPITAL;w_LETTER;w_S;w_WITH;w_CIRCUMFLEX]);
  (0x15d, [w_LATIN;w_SMALL;w_LETTER;w_S;w_WITH;w_CIRCUMFLEX]);
  (0x15e, [w_LATIN;w_CAPITAL;w_LETTER;w_S;w_WITH;w_CEDILLA]);
  (0x15f, [w_LATIN;w_SMALL;w_LETTER;w_S;w_WITH;w_CEDILLA]);
  (0x160, [w_LATIN;w_CAPITAL;w_LETTER;w_S;w_WITH;w_CARON]);
  (0x161, [w_LATIN;w_SMALL;w_LETTER;w_S;w_WITH;w_CARON]);
  (0x162, [w_LATIN;w_CAPITAL;w_LETTER;w_T;w_WITH;w_CEDILLA]);
  (0x163, [w_LATIN;w_SMALL;w_LETTER;w_T;w_WITH;w_CEDILLA]);
  (0x164, [w_LATIN;w_CAPITAL;w_LETTER;w_T;w_WITH;w_CARON]);
  (0x165, [w_LATIN;w_SMALL;w_LETTER;w_T;w_WITH;w_CARON]);
  (0x166, [w_LATIN;w_CAPITAL;w_LETTER;w_T;w_WITH;w_STROKE]);
  (0x167, [w_LATIN;w_SMALL;w_LETTER;w_T;w_WITH;w_STROKE]);
  (0x168, [w_LATIN;w_CAPITAL;w_LETTER;w_U;w_WITH;w_TILDE]);
  (0x169, [w_LATIN;w_SMALL;w_LETTER;w_U;w_WITH;w_TILDE]);
  (0x16a, [w_LATIN;w_CAPITAL;w_LETTER;w_U;w_WITH;w_MACRON]);
  (0x16b, [w_LATIN;w_SMALL;w_LETTER;w_U;w_WITH;w_MACRON]);
  (0x16c, [w_LATIN;w_CAPITAL;w_LETTER;w_U;w_WITH;w_BREVE]);
  (0x16d, [w_LATIN;w_SMALL;w_LETTER;w_U;w_WITH;w_BREVE]);
  (0x16e, [w_LATIN;w_CAPITAL;w_LETTER;w_U;w_WITH;w_RING;w_ABOVE]);
  (0x16f, [w_LATIN;w_SMALL;w_LETTER;w_U;w_WITH;w_RING;w_ABOVE]);
  (0x170, [w_LATIN;w_CAPITAL;w_LETTER;w_U;w_WITH;w_DOUBLE;w_ACUTE]);
  (0x171, [w_LATIN;w_SMALL;w_LETTER;w_U;w_WITH;w_DOUBLE;w_ACUTE]);
  (0x172, [w_LATIN;w_CAPITAL;w_LETTER;w_U;w_WITH;w_OGONEK]);
  (0x173, [w_LATIN;w_SMALL;w_LETTER;w_U;w_WITH;w_OGONEK]);
  (0x174, [w_LATIN;w_CAPITAL;w_LETTER;w_W;w_WITH;w_CIRCUMFLEX]);
  (0x175, [w_LATIN;w_SMALL;w_LETTER;w_W;w_WITH;w_CIRCUMFLEX]);
  (0x176, [w_LATIN;w_CAPITAL;w_LETTER;w_Y;w_WITH;w_CIRCUMFLEX]);
  (0x177, [w_LATIN;w_SMALL;w_LETTER;w_Y;w_WITH;w_CIRCUMFLEX]);
  (0x178, [w_LATIN;w_CAPITAL;w_LETTER;w_Y;w_WITH;w_DIAERESIS]);
  (0x179, [w_LATIN;w_CAPITAL;w_LETTER;w_Z;w_WITH;w_ACUTE]);
  (0x17a, [w_LATIN;w_SMALL;w_LETTER;w_Z;w_WITH;w_ACUTE]);
  (0x17b, [w_LATIN;w_CAPITAL;w_LETTER;w_Z;w_WITH;w_DOT;w_ABOVE]);
  (0x17c, [w_LATIN;w_SMALL;w_LETTER;w_Z;w_WITH;w_DOT;w_ABOVE]);
  (0x17d, [w_LATIN;w_CAPITAL;w_LETTER;w_Z;w_WITH;w_CARON]);
  (0x17e, [w_LATIN;w_SMALL;w_LETTER;w_Z;w_WITH;w_CARON]);
  (0x17f, [w_LATIN;w_SMALL;w_LETTER;w_LONG;w_S]);
  (0x180, [w_LATIN;w_SMALL;w_LETTER;w_B;w_WITH;w_STROKE]);
  (0x181, [w_LATIN;w_CAPITAL;w_LETTER;w_B;w_WITH;w_HOOK]);
  (0x182, [w_LATIN;w_CAPITAL;w_LETTER;w_B;w_WITH;w_TOPBAR]);
  (0x183, [w_LATIN;w_SMALL;w_LETTER;w_B;w_WITH;w_TOPBAR]);
  (0x184, [w_LATIN;w_CAPITAL;w_LETTER;w_TONE;w_SIX]);
  (0x185, [w_LATIN;w_SMALL;w_LETTER;w_TONE;w_SIX]);
  (0x186, [w_LATIN;w_CAPITAL;w_LETTER;w_OPEN;w_O]);
  (0x187, [w_LATIN;w_CAPITAL;w_LETTER;w_C;w_WITH;w_HOOK]);
  (0x188, [w_LATIN;w_SMALL;w_LETTER;w_C;w_WITH;w_HOOK]);
  (0x189, [w_LATIN;w_CAPITAL;w_LETTER;w_AFRICAN;w_D]);
  (0x18a, [w_LATIN;w_CAPITAL;w_LETTER;w_D;w_WITH;w_HOOK]);
  (0x18b, [w_LATIN;w_CAPITAL;w_LETTER;w_D;w_WITH;w_TOPBAR]);
  (0x18c, [w_LATIN;w_SMALL;w_LETTER;w_D;w_WITH;w_TOPBAR]);
  (0x18d, [w_LATIN;w_SMALL;w_LETTER;w_TURNED;w_DELTA]);
  (0x18e, [w_LATIN;w_CAPITAL;w_LETTER;w_REVERSED;w_E]);
  (0x18f, [w_LATIN;w_CAPITAL;w_LETTER;w_SCHWA]);
  (0x190, [w_LATIN;w_CAPITAL;w_LETTER;w_OPEN;w_E]);
  (0x191, [w_LATIN;w_CAPITAL;w_LETTER;w_F;w_WITH;w_HOOK]);
  (0x192, [w_LATIN;w_SMALL;w_LETTER;w_F;w_WITH;w_HOOK]);
  (0x193, [w_LATIN;w_CAPITAL;w_LETTER;w_G;w_WITH;w_HOOK]);
  (0x194, [w_LATIN;w_CAPITAL;w_LETTER;w_GAMMA]);
  (0x195, [w_LATIN;w_SMALL;w_LETTER;w_HV]);
  (0x196, [w_LATIN;w_CAPITAL;w_LETTER;w_IOTA]);
  (0x197, [w_LATIN;w_CAPITAL;w_LETTER;w_I;w_WITH;w_STROKE]);
  (0x198, [w_LATIN;w_CAPITAL;w_LETTER;w_K;w_WITH;w_HOOK]);
  (0x199, [w_LATIN;w_SMALL;w_LETTER;w_K;w_WITH;w_HOOK]);
  (0x19a, [w_LATIN;w_SMALL;w_LETTER;w_L;w_WITH;w_BAR]);
  (0x19b, [w_LATIN;w_SMALL;w_LETTER;w_LAMBDA;w_WITH;w_STROKE]);
  (0x19c, [w_LATIN;w_CAPITAL;w_LETTER;w_TURNED;w_M]);
  (0x19d, [w_LATIN;w_CAPITAL;w_LETTER;w_N;w_WITH;w_LEFT;w_HOOK]);
  (0x19e, [w_LATIN;w_SMALL;w_LETTER;w_N;w_WITH;w_LONG;w_RIGHT;w_LEG]);
  (0x19f, [w_LATIN;w_CAPITAL;w_LETTER;w_O;w_WITH;w_MIDDLE;w_TILDE]);
  (0x1a0, [w_LATIN;w_CAPITAL;w_LETTER;w_O;w_WITH;w_HORN]);
  (0x1a1, [w_LATIN;w_SMALL;w_LETTER;w_O;w_WITH;w_HORN]);
  (0x1a2, [w_LATIN;w_CAPITAL;w_LETTER;w_OI]);
  (0x1a3, [w_LATIN;w_SMALL;w_LETTER;w_OI]);
  (0x1a4, [w_LATIN;w_CAPITAL;w_LETTER;w_P;w_WITH;w_HOOK]);
  (0x1a5, [w_LATIN;w_SMALL;w_LETTER;w_P;w_WITH;w_HOOK]);
  (0x1a6, [w_LATIN;w_LETTER;w_YR]);
  (0x1a7, [w_LATIN;w_CAPITAL;w_LETTER;w_TONE;w_TWO]);
  (0x1a8, [w_LATIN;w_SMALL;w_LETTER;w_TONE;w_TWO]);
  (0x1a9, [w_LATIN;w_CAPITAL;w_LETTER;w_ESH]);
  (0x1aa, [w_LATIN;w_LETTER;w_REVERSED;w_ESH;w_LOOP]);
  (0x1ab, [w_LATIN;w_SMALL;w_LETTER;w_T;w_WITH;w_PALATAL;w_HOOK]);
  (0x1ac, [w_LATIN;w_CAPITAL;w_LETTER;w_T;w_WITH;w_HOOK]);
  (0x1ad, [w_LATIN;w_SMALL;w_LETTER;w_T;w_WITH;w_HOOK]);
  (0x1ae, [w_LATIN;w_CAPITAL;w_LETTER;w_T;w_WITH;w_RETROFLEX;w_HOOK]);
  (0x1af, [w_LATIN;w_CAPITAL;w_LETTER;w_U;w_WITH;w_HORN]);
  (0x1b0, [w_LATIN;w_SMALL;w_LETTER;w_U;w_WITH;w_HORN]);
  (0x1b1, [w_LATIN;w_CAPITAL;w_LETTER;w_UPSILON]);
  (0x1b2, [w_LATIN;w_CAPITAL;w_LETTER;w_V;w_WITH;w_HOOK]);
  (0x1b3, [w_LATIN;w_CAPITAL;w_LETTER;w_Y;w_WITH;w_HOOK]);
  (0x1b4, [w_LATIN;w_SMALL;w_LETTER;w_Y;w_WITH;w_HOOK]);
  (0x1b5, [w_LATIN;w_CAPITAL;w_LETTER;w_Z;w_WITH;w_STROKE]);
  (0x1b6, [w_LATIN;w_SMALL;w_LETTER;w_Z;w_WITH;w_STROKE]);
  (0x1b7, [w_LATIN;w_CAPITAL;w_LETTER;w_EZH]);
  (0x1b8, [w_LATIN;w_CAPITAL;w_LETTER;w_EZH;w_REVERSED]);
  (0x1b9, [w_LATIN;w_SMALL;w_LETTER;w_EZH;w_REVERSED]);
  (0x1ba, [w_LATIN;w_SMALL;w_LETTER;w_EZH;w_WITH;w_TAIL]);
  (0x1bb, [w_LATIN;w_LETTER;w_TWO;w_WITH;w_STROKE]);
  (0x1bc, [w_LATIN;w_CAPITAL;w_LETTER;w_TONE;w_FIVE]);
  (0x1bd, [w_LATIN;w_SMALL;w_LETTER;w_TONE;w_FIVE]);
  (0x1be, [w_LATIN;w_LETTER;w_INVERTED;w_GLOTTAL;w_STOP;w_WITH;w_STROKE]);
  (0x1bf, [w_LATIN;w_LETTER;w_WYNN]);
  (0x1c0, [w_LATIN;w_LETTER;w_DENTAL;w_CLICK]);
  (0x1c1, [w_LATIN;w_LETTER;w_LATERAL;w_CLICK]);
  (0x1c2, [w_LATIN;w_LETTER;w_ALVEOLAR;w_CLICK]);
  (0x1c3, [w_LATIN;w_LETTER;w_RETROFLEX;w_CLICK]);
  (0x1c4, [w_LATIN;w_CAPITAL;w_LETTER;w_DZ;w_WITH;w_CARON]);
  (0x1c5, [w_LATIN;w_CAPITAL;w_LETTER;w_D;w_WITH;w_SMALL;w_LETTER;w_Z;w_WITH;w_CARON]);
  (0x1c6, [w_LATIN;w_SMALL;w_LETTER;w_DZ;w_WITH;w_CARON]);
  (0x1c7, [w_LATIN;w_CAPITAL;w_LETTER;w_LJ]);
  (0x1c8, [w_LATIN;w_CAPITAL;w_LETTER;w_L;w_WITH;w_SMALL;w_LETTER;w_J]);
  (0x1c9, [w_LATIN;w_SMALL;w_LETTER;w_LJ]);
  (0x1ca, [w_LATIN;w_CAPITAL;w_LETTER;w_NJ]);
  (0x1cb, [w_LATIN;w_CAPITAL;w_LETTER;w_N;w_WITH;w_SMALL;w_LETTER;w_J]);
  (0x1cc, [w_LATIN;w_SMALL;w_LETTER;w_NJ]);
  (0x1cd, [w_LATIN;w_CAPITAL;w_LETTER;w_A;w_WITH;w_CARON]);
  (0x1ce, [w_LATIN;w_SMALL;w_LETTER;w_A;w_WITH;w_CARON]);
  (0x1cf, [w_LATIN;w_CAPITAL;w_LETTER;w_I;w_WITH;w_CARON]);
  (0x1d0, [w_LATIN;w_SMALL;w_LETTER;w_I;w_WITH;w_CARON])].

Definition NAMES_1 : list (N * (list str)) := [
  (0x1d1, [w_LATIN;w_CAPITAL;w_LETTER;w_O;w_WITH;w_CARON]);
  (0x1d2, [w_LATIN;w_SMALL;w_LETTER;w_O;w_WITH;w_CARON]);
  (0x1d3, [w_LATIN;w_CAPITAL;w_LETTER;w_U;w_WITH;w_CARON]);
  (0x1d4, [w_LATIN;w_SMALL;w_LETTER;w_U;w_WITH;w_CARON]);
  (0x1d5, [w_LATIN;w_CAPITAL;w_LETTER;w_U;w_WITH;w_DIAERESIS;w_AND;w_MACRON]);
  (0x1d6, [w_LATIN;w_SMALL;w_LETTER;w_U;w_WITH;w_DIAERESIS;w_AND;w_MACRON]);
  (0x1d7, [w_LATIN;w_CAPITAL;w_LETTER;w_U;w_WITH;w_DIAERESIS;w_AND;w_ACUTE]);
  (0x1d8, [w_LATIN;w_SMALL;w_LETTER;w_U;w_WITH;w_DIAERESIS;w_AND;w_ACUTE]);
  (0x1d9, [w_LATIN;w_CAPITAL;w_LETTER;w_U;w_WITH;w_DIAERESIS;w_AND;w_CARON]);
  (0x1da, [w_LATIN;w_SMALL;w_LETTER;w_U;w_WITH;w_DIAERESIS;w_AND;w_CARON]);
  (0x1db, [w_LATIN;w_CAPITAL;w_LETTER;w_U;w_WITH;w_DIAERESIS;w_AND;w_GRAVE]);
  (0x1dc, [w_LATIN;w_SMALL;w_LETTER;w_U;w_WITH;w_DIAERESIS;w_AND;w_GRAVE]);
  (0x1dd, [w_LATIN;w_SMALL;w_LETTER;w_TURNED;w_E]);
  (0x1de, [w_LATIN;w_CAPITAL;w_LETTER;w_A;w_WITH;w_DIAERESIS;w_AND;w_MACRON]);
  (0x1df, [w_LATIN;w_SMALL;w_LETTER;w_A;w_WITH;w_DIAERESIS;w_AND;w_MACRON]);
  (0x1e0, [w_LATIN;w_CAPITAL;w_LETTER;w_A;w_WITH;w_DOT;w_ABOVE;w_AND;w_MACRON]);
  (0x1e1, [w_LATIN;w_SMALL;w_LETTER;w_A;w_WITH;w_DOT;w_ABOVE;w_AND;w_MACRON]);
  (0x1e2, [w_LATIN;w_CAPITAL;w_LETTER;w_AE;w_WITH;w_MACRON]);
  (0x1e3, [w_LATIN;w_SMALL;w_LETTER;w_AE;w_WITH;w_MACRON]);
  (0x1e4, [w_LATIN;w_CAPITAL;w_LETTER;w_G;w_WITH;w_STROKE]);
  (0x1e5, [w_LATIN;w_SMALL;w_LETTER;w_G;w_WITH;w_STROKE]);
  (0x1e6, [w_LATIN;w_CAPITAL;w_LETTER;w_G;w_WITH;w_CARON]);
  (0x1e7, [w_LATIN;w_SMALL;w_LETTER;w_G;w_WITH;w_CARON]);
  (0x1e8, [w_LATIN;w_CAPITAL;w_LETTER;w_K;w_WITH;w_CARON]);
  (0x1e9, [w_LATIN;w_SMALL;w_LETTER;w_K;w_WITH;w_CARON]);
  (0x1ea, [w_LATIN;w_CAPITAL;w_LETTER;w_O;w_WITH;w_OGONEK]);
  (0x1eb, [w_LATIN;w_SMALL;w_LETTER;w_O;w_WITH;w_OGONEK]);
  (0x1ec, [w_LATIN;w_CAPITAL;w_LETTER;w_O;w_WITH;w_OGONEK;w_AND;w_MACRON]);
  (0x1ed, [w_LATIN;w_SMALL;w_LETTER;w_O;w_WITH;w_OGONEK;w_AND;w_MACRON]);
  (0x1ee, [w_LATIN;w_CAPITAL;w_LETTER;w_EZH;w_WITH;w_CARON]);
  (0x1ef, [w_LATIN;w_SMALL;w_LETTER;w_EZH;w_WITH;w_CARON]);
  (0x1f0, [w_LATIN;w_SMALL;w_LETTER;w_J;w_WITH;w_CARON]);
  (0x1f1, [w_LATIN;w_CAPITAL;w_LETTER;w_DZ]);
  (0x1f2, [w_LATIN;w_CAPITAL;w_LETTER;w_D;w_WITH;w_SMALL;w_LETTER;w_Z]);
  (0x1f3, [w_LATIN;w_SMALL;w_LETTER;w_DZ]);
  (0x1f4, [w_LATIN;w_CAPITAL;w_LETTER;w_G;w_WITH;w_ACUTE]);
  (0x1f5, [w_LATIN;w_SMALL;w_LETTER;w_G;w_WITH;w_ACUTE]);
  (0x1f6, [w_LATIN;w_CAPITAL;w_LETTER;w_HWAIR]);
  (0x1f7, [w_LATIN;w_CAPITAL;w_LETTER;w_WYNN]);
  (0x1f8, [w_LATIN;w_CAPITAL;w_LETTER;w_N;w_WITH;w_GRAVE]);
  (0x1f9, [w_LATIN;w_SMALL;w_LETTER;w_N;w_WITH;w_GRAVE]);
  (0x1fa, [w_LATIN;w_CAPITAL;w_LETTER;w_A;w_WITH;w_RING;w_ABOVE;w_AND;w_ACUTE]);
  (0x1fb, [w_LATIN;w_SMALL;w_LETTER;w_A;w_WITH;w_RING;w_ABOVE;w_AND;w_ACUTE]);
  (0x1fc, [w_LATIN;w_CAPITAL;w_LETTER;w_AE;w_WITH;w_ACUTE]);
  (0x1fd, [w_LATIN;w_SMALL;w_LETTER;w_AE;w_WITH;w_ACUTE]);
  (0x1fe, [w_LATIN;w_CAPITAL;w_LETTER;w_O;w_WITH;w_STROKE;w_AND;w_ACUTE]);
  (0x1ff, [w_LATIN;w_SMALL;w_LETTER;w_O;w_WITH;w_STROKE;w_AND;w_ACUTE]);
  (0x200, [w_LATIN;w_CAPITAL;w_LETTER;w_A;w_WITH;w_DOUBLE;w_GRAVE]);
  (0x201, [w_LATIN;w_SMALL;w_LETTER;w_A;w_WITH;w_DOUBLE;w_GRAVE]);
  (0x202, [w_LATIN;w_CAPITAL;w_LETTER;w_A;w_WITH;w_INVERTED;w_BREVE]);
  (0x203, [w_LATIN;w_SMALL;w_LETTER;w_A;w_WITH;w_INVERTED;w_BREVE]);
  (0x204, [w_LATIN;w_CAPITAL;w_LETTER;w_E;w_WITH;w_DOUBLE;w_GRAVE]);
  (0x205, [w_LATIN;w_SMALL;w_LETTER;w_E;w_WITH;w_DOUBLE;w_GRAVE]);
  (0x206, [w_LATIN;w_CAPITAL;w_LETTER;w_E;w_WITH;w_INVERTED;w_BREVE]);
  (0x207, [w_LATIN;w_SMALL;w_LETTER;w_E;w_WITH;w_INVERTED;w_BREVE]);
  (0x208, [w_LATIN;w_CAPITAL;w_LETTER;w_I;w_WITH;w_DOUBLE;w_GRAVE]);
  (0x209, [w_LATIN;w_SMALL;w_LETTER;w_I;w_WITH;w_DOUBLE;w_GRAVE]);
  (0x20a, [w_LATIN;w_CAPITAL;w_LETTER;w_I;w_WITH;w_INVERTED;w_BREVE]);
  (0x20b, [w_LATIN;w_SMALL;w_LETTER;w_I;w_WITH;w_INVERTED;w_BREVE]);
  (0x20c, [w_LATIN;w_CAPITAL;w_LETTER;w_O;w_WITH;w_DOUBLE;w_GRAVE]);
  (0x20d, [w_LATIN;w_SMALL;w_LETTER;w_O;w_WITH;w_DOUBLE;w_GRAVE]);
  (0x20e, [w_LATIN;w_CAPITAL;w_LETTER;w_O;w_WITH;w_INVERTED;w_BREVE]);
  (0x20f, [w_LATIN;w_SMALL;w_LETTER;w_O;w_WITH;w_INVERTED;w_BREVE]);
  (0x210, [w_LATIN;w_CAPITAL;w_LETTER;w_R;w_WITH;w_DOUBLE;w_GRAVE]);
  (0x211, [w_LATIN;w_SMALL;w_LETTER;w_R;w_WITH;w_DOUBLE;w_GRAVE]);
  (0x212, [w_LATIN;w_CAPITAL;w_LETTER;w_R;w_WITH;w_INVERTED;w_BREVE]);
  (0x213, [w_LATIN;w_SMALL;w_LETTER;w_R;w_WITH;w_INVERTED;w_BREVE]);
  (0x214, [w_LATIN;w_CAPITAL;w_LETTER;w_U;w_WITH;w_DOUBLE;w_GRAVE]);
  (0x215, [w_LATIN;w_SMALL;w_LETTER;w_U;w_WITH;w_DOUBLE;w_GRAVE]);
  (0x216, [w_LATIN;w_CAPITAL;w_LETTER;w_U;w_WITH;w_INVERTED;w_BREVE]);
  (0x217, [w_LATIN;w_SMALL;w_LETTER;w_U;w_WITH;w_INVERTED;w_BREVE]);
  (0x218, [w_LATIN;w_CAPITAL;w_LETTER;w_S;w_WITH;w_COMMA;w_BELOW]);
  (0x219, [w_LATIN;w_SMALL;w_LETTER;w_S;w_WITH;w_COMMA;w_BELOW]);
  (0x21a, [w_LATIN;w_CAPITAL;w_LETTER;w_T;w_WITH;w_COMMA;w_BELOW]);
  (0x21b, [w_LATIN;w_SMALL;w_LETTER;w_T;w_WITH;w_COMMA;w_BELOW]);
  (0x21c, [w_LATIN;w_CAPITAL;w_LETTER;w_YOGH]);
  (0x21d, [w_LATIN;w_SMALL;w_LETTER;w_YOGH]);
  (0x21e, [w_LATIN;w_CAPITAL;w_LETTER;w_H;w_WITH;w_CARON]);
  (0x21f, [w_LATIN;w_SMALL;w_LETTER;w_H;w_WITH;w_CARON]);
  (0x220, [w_LATIN;w_CAPITAL;w_LETTER;w_N;w_WITH;w_LONG;w_RIGHT;w_LEG]);
  (0x221, [w_LATIN;w_SMALL;w_LETTER;w_D;w_WITH;w_CURL]);
  (0x222, [w_LATIN;w_CAPITAL;w_LETTER;w_OU]);
  (0x223, [w_LATIN;w_SMALL;w_LETTER;w_OU]);
  (0x224, [w_LATIN;w_CAPITAL;w_LETTER;w_Z;w_WITH;w_HOOK]);
  (0x225, [w_LATIN;w_SMALL;w_LETTER;w_Z;w_WITH;w_HOOK]);
  (0x226, [w_LATIN;w_CAPITAL;w_LETTER;w_A;w_WITH;w_DOT;w_ABOVE]);
  (0x227, [w_LATIN;w_SMALL;w_LETTER;w_A;w_WITH;w_DOT;w_ABOVE]);
  (0x228, [w_LATIN;w_CAPITAL;w_LETTER;w_E;w_WITH;w_CEDILLA]);
  (0x229, [w_LATIN;w_SMALL;w_LETTER;w_E;w_WITH;w_CEDILLA]);
  (0x22a, [w_LATIN;w_CAPITAL;w_LETTER;w_O;w_WITH;w_DIAERESIS;w_AND;w_MACRON]);
  (0x22b, [w_LATIN;w_SMALL;w_LETTER;w_O;w_WITH;w_DIAERESIS;w_AND;w_MACRON]);
  (0x22c, [w_LATIN;w_CAPITAL;w_LETTER;w_O;w_WITH;w_TILDE;w_AND;w_MACRON]);
  (0x22d, [w_LATIN;w_SMALL;w_LETTER;w_O;w_WITH;w_TILDE;w_AND;w_MACRON]);
  (0x22e, [w_LATIN;w_CAPITAL;w_LETTER;w_O;w_WITH;w_DOT;w_ABOVE]);
  (0x22f, [w_LATIN;w_SMALL;w_LETTER;w_O;w_WITH;w_DOT;w_ABOVE]);
  (0x230, [w_LATIN;w_CAPITAL;w_LETTER;w_O;w_WITH;w_DOT;w_ABOVE;w_AND;w_MACRON]);
  (0x231, [w_LATIN;w_SMALL;w_LETTER;w_O;w_WITH;w_DOT;w_ABOVE;w_AND;w_MACRON]);
  (0x232, [w_LATIN;w_CAPITAL;w_LETTER;w_Y;w_WITH;w_MACRON]);
  (0x233, [w_LATIN;w_SMALL;w_LETTER;w_Y;w_WITH;w_MACRON]);
  (0x234, [w_LATIN;w_SMALL;w_LETTER;w_L;w_WITH;w_CURL]);
  (0x235, [w_LATIN;w_SMALL;w_LETTER;w_N;w_WITH;w_CURL]);
  (0x236, [w_LATIN;w_SMALL;w_LETTER;w_T;w_WITH;w_CURL]);
  (0x237, [w_LATIN;w_SMALL;w_LETTER;w_DOTLESS;w_J]);
  (0x238, [w_LATIN;w_SMALL;w_LETTER;w_DB;w_DIGRAPH]);
  (0x239, [w_LATIN;w_SMALL;w_LETTER;w_QP;w_DIGRAPH]);
  (0x23a, [w_LATIN;w_CAPITAL;w_LETTER;w_A;w_WITH;w_STROKE]);
  (0x23b, [w_LATIN;w_CAPITAL;w_LETTER;w_C;w_WITH;w_STROKE]);
  (0x23c, [w_LATIN;w_SMALL;w_LETTER;w_C;w_WITH;w_STROKE]);
  (0x23d, [w_LATIN;w_CAPITAL;w_LETTER;w_L;w_WITH;w_BAR]);
  (0x23e, [w_LATIN;w_CAPITAL;w_LETTER;w_T;w_WITH;w_DIAGONAL;w_STROKE]);
  (0x23f, [w_LATIN;w_SMALL;w_LETTER;w_S;w_WITH;w_SWASH;w_TAIL]);
  (0x240, [w_LATIN;w_SMALL;w_LETTER;w_Z;w_WITH;w_SWASH;w_TAIL]);
  (0x241, [w_LATIN;w_CAPITAL;w_LETTER;w_GLOTTAL;w_STOP]);
  (0x242, [w_LATIN;w_SMALL;w_LETTER;w_GLOTTAL;w_STOP]);
  (0x243, [w_LATIN;w_CAPITAL;w_LETTER;w_B;w_WITH;w_STROKE]);
  (0x244, [w_LATIN;w_CAPITAL;w_LETTER;w_U;w_BAR]);
  (0x245, [w_LATIN;w_CAPITAL;w_LETTER;w_TURNED;w_V]);
  (0x246, [w_LATIN;w_CAPITAL;w_LETTER;w_E;w_WITH;w_STROKE]);
  (0x247, [w_LATIN;w_SMALL;w_LETTER;w_E;w_WITH;w_STROKE]);
  (0x248, [w_LATIN;w_CAPITAL;w_LETTER;w_J;w_WITH;w_STROKE]);
  (0x249, [w_LATIN;w_SMALL;w_LETTER;w_J;w_WITH;w_STROKE]);
  (0x24a, [w_LATIN;w_CAPITAL;w_LETTER;w_SMALL;w_Q;w_WITH;w_HOOK;w_TAIL]);
  (0x24b, [w_LATIN;w_SMALL;w_LETTER;w_Q;w_WITH;w_HOOK;w_TAIL]);
  (0x24c, [w_LATIN;w_CAPITAL;w_LETTER;w_R;w_WITH;w_STROKE]);
  (0x24d, [w_LATIN;w_SMALL;w_LETTER;w_R;w_WITH;w_STROKE]);
  (0x24e, [w_LATIN;w_CAPITAL;w_LETTER;w_Y;w_WITH;w_STROKE]);
  (0x24f, [w_LATIN;w_SMALL;w_LETTER;w_Y;w_WITH;w_STROKE]);
  (0x250, [w_LATIN;w_SMALL;w_LETTER;w_TURNED;w_A]);
  (0x251, [w_LATIN;w_SMALL;w_LETTER;w_ALPHA]);
  (0x252, [w_LATIN;w_SMALL;w_LETTER;w_TURNED;w_ALPHA]);
  (0x253, [w_LATIN;w_SMALL;w_LETTER;w_B;w_WITH;w_HOOK]);
  (0x254, [w_LATIN;w_SMALL;w_LETTER;w_OPEN;w_O]);
  (0x255, [w_LATIN;w_SMALL;w_LETTER;w_C;w_WITH;w_CURL]);
  (0x256, [w_LATIN;w_SMALL;w_LETTER;w_D;w_WITH;w_TAIL]);
  (0x257, [w_LATIN;w_SMALL;w_LETTER;w_D;w_WITH;w_HOOK]);
  (0x258, [w_LATIN;w_SMALL;w_LETTER;w_REVERSED;w_E]);
  (0x259, [w_LATIN;w_SMALL;w_LETTER;w_SCHWA]);
  (0x25a, [w_LATIN;w_SMALL;w_LETTER;w_SCHWA;w_WITH;w_HOOK]);
  (0x25b, [w_LATIN;w_SMALL;w_LETTER;w_OPEN;w_E]);
  (0x25c, [w_LATIN;w_SMALL;w_LETTER;w_REVERSED;w_OPEN;w_E]);
  (0x25d, [w_LATIN;w_SMALL;w_LETTER;w_REVERSED;w_OPEN;w_E;w_WITH;w_HOOK]);
  (0x25e, [w_LATIN;w_SMALL;w_LETTER;w_CLOSED;w_REVERSED;w_OPEN;w_E]);
  (0x25f, [w_LATIN;w_SMALL;w_LETTER;w_DOTLESS;w_J;w_WITH;w_STROKE]);
  (0x260, [w_LATIN;w_SMALL;w_LETTER;w_G;w_WITH;w_HOOK]);
  (0x261, [w_LATIN;w_SMALL;w_LETTER;w_SCRIPT;w_G]);
  (0x262, [w_LATIN;w_LETTER;w_SMALL;w_CAPITAL;w_G]);
  (0x263, [w_LATIN;w_SMALL;w_LETTER;w_GAMMA]);
  (0x264, [w_LATIN;w_SMALL;w_LETTER;w_RAMS;w_HORN]);
  (0x265, [w_LATIN;w_SMALL;w_LETTER;w_TURNED;w_H]);
  (0x266, [w_LATIN;w_SMALL;w_LETTER;w_H;w_WITH;w_HOOK]);
  (0x267, [w_LATIN;w_SMALL;w_LETTER;w_HENG;w_WITH;w_HOOK]);
  (0x268, [w_LATIN;w_SMALL;w_LETTER;w_I;w_WITH;w_STROKE]);
  (0x269, [w_LATIN;w_SMALL;w_LETTER;w_IOTA]);
  (0x26a, [w_LATIN;w_LETTER;w_SMALL;w_CAPITAL;w_I]);
  (0x26b, [w_LATIN;w_SMALL;w_LETTER;w_L;w_WITH;w_MIDDLE;w_TILDE]);
  (0x26c, [w_LATIN;w_SMALL;w_LETTER;w_L;w_WITH;w_BELT]);
  (0x26d, [w_LATIN;w_SMALL;w_LETTER;w_L;w_WITH;w_RETROFLEX;w_HOOK]);
  (0x26e, [w_LATIN;w_SMALL;w_LETTER;w_LEZH]);
  (0x26f, [w_LATIN;w_SMALL;w_LETTER;w_TURNED;w_M]);
  (0x270, [w_LATIN;w_SMALL;w_LETTER;w_TURNED;w_M;w_WITH;w_LONG;w_LEG]);
  (0x271, [w_LATIN;w_SMALL;w_LETTER;w_M;w_WITH;w_HOOK]);
  (0x272, [w_LATIN;w_SMALL;w_LETTER;w_N;w_WITH;w_LEFT;w_HOOK]);
  (0x273, [w_LATIN;w_SMALL;w_LETTER;w_N;w_WITH;w_RETROFLEX;w_HOOK]);
  (0x274, [w_LATIN;w_LETTER;w_SMALL;w_CAPITAL;w_N]);
  (0x275, [w_LATIN;w_SMALL;w_LETTER;w_BARRED;w_O]);
  (0x276, [w_LATIN;w_LETTER;w_SMALL;w_CAPITAL;w_OE]);
  (0x277, [w_LATIN;w_SMALL;w_LETTER;w_CLOSED;w_OMEGA]);
  (0x278, [w_LATIN;w_SMALL;w_LETTER;w_PHI]);
  (0x279, [w_LATIN;w_SMALL;w_LETTER;w_TURNED;w_R]);
  (0x27a, [w_LATIN;w_SMALL;w_LETTER;w_TURNED;w_R;w_WITH;w_LONG;w_LEG]);
  (0x27b, [w_LATIN;w_SMALL;w_LETTER;w_TURNED;w_R;w_WITH;w_HOOK]);
  (0x27c, [w_LATIN;w_SMALL;w_LETTER;w_R;w_WITH;w_LONG;w_LEG]);
  (0x27d, [w_LATIN;w_SMALL;w_LETTER;w_R;w_WITH;w_TAIL]);
  (0x27e, [w_LATIN;w_SMALL;w_LETTER;w_R;w_WITH;w_FISHHOOK]);
  (0x27f, [w_LATIN;w_SMALL;w_LETTER;w_REVERSED;w_R;w_WITH;w_FISHHOOK]);
  (0x280, [w_LATIN;w_LETTER;w_SMALL;w_CAPITAL;w_R]);
  (0x281, [w_LATIN;w_LETTER;w_SMALL;w_CAPITAL;w_INVERTED;w_R]);
  (0x282, [w_LATIN;w_SMALL;w_LETTER;w_S;w_WITH;w_HOOK]);
  (0x283, [w_LATIN;w_SMALL;w_LETTER;w_ESH]);
  (0x284, [w_LATIN;w_SMALL;w_LETTER;w_DOTLESS;w_J;w_WITH;w_STROKE;w_AND;w_HOOK]);
  (0x285, [w_LATIN;w_SMALL;w_LETTER;w_SQUAT;w_REVERSED;w_ESH]);
  (0x286, [w_LATIN;w_SMALL;w_LETTER;w_ESH;w_WITH;w_CURL]);
  (0x287, [w_LATIN;w_SMALL;w_LETTER;w_TURNED;w_T]);
  (0x288, [w_LATIN;w_SMALL;w_LETTER;w_T;w_WITH;w_RETROFLEX;w_HOOK]);
  (0x289, [w_LATIN;w_SMALL;w_LETTER;w_U;w_BAR]);
  (0x28a, [w_LATIN;w_SMALL;w_LETTER;w_UPSILON]);
  (0x28b, [w_LATIN;w_SMALL;w_LETTER;w_V;w_WITH;w_HOOK]);
  (0x28c, [w_LATIN;w_SMALL;w_LETTER;w_TURNED;w_V]);
  (0x28d, [w_LATIN;w_SMALL;w_LETTER;w_TURNED;w_W]);
  (0x28e, [w_LATIN;w_SMALL;w_LETTER;w_TURNED;w_Y]);
  (0x28f, [w_LATIN;w_LETTER;w_SMALL;w_CAPITAL;w_Y]);
  (0x290, [w_LATIN;w_SMALL;w_LETTER;w_Z;w_WITH;w_RETROFLEX;w_HOOK]);
  (0x291, [w_LATIN;w_SMALL;w_LETTER;w_Z;w_WITH;w_CURL]);
  (0x292, [w_LATIN;w_SMALL;w_LETTER;w_EZH]);
  (0x293, [w_LATIN;w_SMALL;w_LETTER;w_EZH;w_WITH;w_CURL]);
  (0x294, [w_LATIN;w_LETTER;w_GLOTTAL;w_STOP]);
  (0x295, [w_LATIN;w_LETTER;w_PHARYNGEAL;w_VOICED;w_FRICATIVE]);
  (0x296, [w_LATIN;w_LETTER;w_INVERTED;w_GLOTTAL;w_STOP]);
  (0x297, [w_LATIN;w_LETTER;w_STRETCHED;w_C]);
  (0x298, [w_LATIN;w_LETTER;w_BILABIAL;w_CLICK]);
  (0x299, [w_LATIN;w_LETTER;w_SMALL;w_CAPITAL;w_B]);
  (0x29a, [w_LATIN;w_SMALL;w_LETTER;w_CLOSED;w_OPEN;w_E]);
  (0x29b, [w_LATIN;w_LETTER;w_SMALL;w_CAPITAL;w_G;w_WITH;w_HOOK]);
  (0x29c, [w_LATIN;w_LETTER;w_SMALL;w_CAPITAL;w_H]);
  (0x29d, [w_LATIN;w_SMALL;w_LETTER;w_J;w_WITH;w_CROSSED_TAIL]);
  (0x29e, [w_LATIN;w_SMALL;w_LETTER;w_TURNED;w_K]);
  (0x29f, [w_LATIN;w_LETTER;w_SMALL;w_CAPITAL;w_L]);
  (0x2a0, [w_LATIN;w_SMALL;w_LETTER;w_Q;w_WITH;w_HOOK]);
  (0x2a1, [w_LATIN;w_LETTER;w_GLOTTAL;w_STOP;w_WITH;w_STROKE]);
  (0x2a2, [w_LATIN;w_LETTER;w_REVERSED;w_GLOTTAL;w_STOP;w_WITH;w_STROKE]);
  (0x2a3, [w_LATIN;w_SMALL;w_LETTER;w_DZ;w_DIGRAPH]);
  (0x2a4, [w_LATIN;w_SMALL;w_LETTER;w_DEZH;w_DIGRAPH]);
  (0x2a5, [w_LATIN;w_SMALL;w_LETTER;w_DZ;w_DIGRAPH;w_WITH;w_CURL]);
  (0x2a6, [w_LATIN;w_SMALL;w_LETTER;w_TS;w_DIGRAPH]);
  (0x2a7, [w_LATIN;w_SMALL;w_LETTER;w_TESH;w_DIGRAPH]);
  (0x2a8, [w_LATIN;w_SMALL;w_LETTER;w_TC;w_DIGRAPH;w_WITH;w_CURL]);
  (0x2a9, [w_LATIN;w_SMALL;w_LETTER;w_FENG;w_DIGRAPH]);
  (0x2aa, [w_LATIN;w_SMALL;w_LETTER;w_LS;w_DIGRAPH]);
  (0x2ab, [w_LATIN;w_SMALL;w_LETTER;w_LZ;w_DIGRAPH]);
  (0x2ac, [w_LATIN;w_LETTER;w_BILABIAL;w_PERCUSSIVE]);
  (0x2ad, [w_LATIN;w_LETTER;w_BIDENTAL;w_PERCUSSIVE]);
  (0x2ae, [w_LATIN;w_SMALL;w_LETTER;w_TURNED;w_H;w_WITH;w_FISHHOOK]);
  (0x2af, [w_LATIN;w_SMALL;w_LETTER;w_TURNED;w_H;w_WITH;w_FISHHOOK;w_AND;w_TAIL]);
  (0x2b0, [w_MODIFIER;w_LETTER;w_SMALL;w_H]);
  (0x2b1, [w_MODIFIER;w_LETTER;w_SMALL;w_H;w_WITH;w_HOOK]);
  (0x2b2, [w_MODIFIER;w_LETTER;w_SMALL;w_J]);
  (0x2b3, [w_MODIFIER;w_LETTER;w_SMALL;w_R]);
  (0x2b4, [w_MODIFIER;w_LETTER;w_SMALL;w_TURNED;w_R]);
  (0x2b5, [w_MODIFIER;w_LETTER;w_SMALL;w_TURNED;w_R;w_WITH;w_HOOK]);
  (0x2b6, [w_MODIFIER;w_LETTER;w_SMALL;w_CAPITAL;w_INVERTED;w_R]);
  (0x2b7, [w_MODIFIER;w_LETTER;w_SMALL;w_W]);
  (0x2b8, [w_MODIFIER;w_LETTER;w_SMALL;w_Y]);
  (0x2b9, [w_MODIFIER;w_LETTER;w_PRIME]);
  (0x2ba, [w_MODIFIER;w_LETTER;w_DOUBLE;w_PRIME]);
  (0x2bb, [w_MODIFIER;w_LETTER;w_TURNED;w_COMMA]);
  (0x2bc, [w_MODIFIER;w_LETTER;w_APOSTROPHE]);
  (0x2bd, [w_MODIFIER;w_LETTER;w_REVERSED;w_COMMA]);
  (0x2be, [w_MODIFIER;w_LETTER;w_RIGHT;w_HALF;w_RING]);
  (0x2bf, [w_MODIFIER;w_LETTER;w_LEFT;w_HALF;w_RING]);
  (0x2c0, [w_MODIFIER;w_LETTER;w_GLOTTAL;w_STOP]);
  (0x2c1, [w_MODIFIER;w_LETTER;w_REVERSED;w_GLOTTAL;w_STOP]);
  (0x2c2, [w_MODIFIER;w_LETTER;w_LEFT;w_ARROWHEAD]);
  (0x2c3, [w_MODIFIER;w_LETTER;w_RIGHT;w_ARROWHEAD]);
  (0x2c4, [w_MODIFIER;w_LETTER;w_UP;w_ARROWHEAD]);
  (0x2c5, [w_MODIFIER;w_LETTER;w_DOWN;w_ARROWHEAD]);
  (0x2c6, [w_MODIFIER;w_LETTER;w_CIRCUMFLEX;w_ACCENT]);
  (0x2c7, [w_CARON]);
  (0x2c8, [w_MODIFIER;w_LETTER;w_VERTICAL;w_LINE]);
  (0x2c9, [w_MODIFIER;w_LETTER;w_MACRON]);
  (0x2ca, [w_MODIFIER;w_LETTER;w_ACUTE;w_ACCENT]);
  (0x2cb, [w_MODIFIER;w_LETTER;w_GRAVE;w_ACCENT]);
  (0x2cc, [w_MODIFIER;w_LETTER;w_LOW;w_VERTICAL;w_LINE]);
  (0x2cd, [w_MODIFIER;w_LETTER;w_LOW;w_MACRON]);
  (0x2ce, [w_MODIFIER;w_LETTER;w_LOW;w_GRAVE;w_ACCENT]);
  (0x2cf, [w_MODIFIER;w_LETTER;w_LOW;w_ACUTE;w_ACCENT]);
  (0x2d0, [w_MODIFIER;w_LETTER;w_TRIANGULAR;w_COLON]);
  (0x2d1, [w_MODIFIER;w_LETTER;w_HALF;w_TRIANGULAR;w_COLON]);
  (0x2d2, [w_MODIFIER;w_LETTER;w_CENTRED;w_RIGHT;w_HALF;w_RING]);
  (0x2d3, [w_MODIFIER;w_LETTER;w_CENTRED;w_LEFT;w_HALF;w_RING]);
  (0x2d4, [w_MODIFIER;w_LETTER;w_UP;w_TACK]);
  (0x2d5, [w_MODIFIER;w_LETTER;w_DOWN;w_TACK]);
  (0x2d6, [w_MODIFIER;w_LETTER;w_PLUS;w_SIGN]);
  (0x2d7, [w_MODIFIER;w_LETTER;w_MINUS;w_SIGN]);
  (0x2d8, [w_BREVE]);
  (0x2d9, [w_DOT;w_ABOVE]);
  (0x2da, [w_RING;w_ABOVE]);
  (0x2db, [w_OGONEK]);
  (0x2dc, [w_SMALL;w_TILDE]);
  (0x2dd, [w_DOUBLE;w_ACUTE;w_ACCENT]);
  (0x2de, [w_MODIFIER;w_LETTER;w_RHOTIC;w_HOOK]);
  (0x2df, [w_MODIFIER;w_LETTER;w_CROSS;w_ACCENT]);
  (0x2e0, [w_MODIFIER;w_LETTER;w_SMALL;w_GAMMA]);
  (0x2e1, [w_MODIFIER;w_LETTER;w_SMALL;w_L]);
  (0x2e2, [w_MODIFIER;w_LETTER;w_SMALL;w_S]);
  (0x2e3, [w_MODIFIER;w_LETTER;w_SMALL;w_X]);
  (0x2e4, [w_MODIFIER;w_LETTER;w_SMALL;w_REVERSED;w_GLOTTAL;w_STOP]);
  (0x2e5, [w_MODIFIER;w_LETTER;w_EXTRA_HIGH;w_TONE;w_BAR]);
  (0x2e6, [w_MODIFIER;w_LETTER;w_HIGH;w_TONE;w_BAR]);
  (0x2e7, [w_MODIFIER;w_LETTER;w_MID;w_TONE;w_BAR]);
  (0x2e8, [w_MODIFIER;w_LETTER;w_LOW;w_TONE;w_BAR]);
  (0x2e9, [w_MODIFIER;w_LETTER;w_EXTRA_LOW;w_TONE;w_BAR]);
  (0x2ea, [w_MODIFIER;w_LETTER;w_YIN;w_DEPARTING;w_TONE;w_MARK]);
  (0x2eb, [w_MODIFIER;w_LETTER;w_YANG;w_DEPARTING;w_TONE;w_MARK]);
  (0x2ec, [w_MODIFIER;w_LETTER;w_VOICING]);
  (0x2ed, [w_MODIFIER;w_LETTER;w_UNASPIRATED]);
  (0x2ee, [w_MODIFIER;w_LETTER;w_DOUBLE;w_APOSTROPHE]);
  (0x2ef, [w_MODIFIER;w_LETTER;w_LOW;w_DOWN;w_ARROWHEAD]);
  (0x2f0, [w_MODIFIER;w_LETTER;w_LOW;w_UP;w_ARROWHEAD]);
  (0x2f1, [w_MODIFIER;w_LETTER;w_LOW;w_LEFT;w_ARROWHEAD]);
  (0x2f2, [w_MODIFIER;w_LETTER;w_LOW;w_RIGHT;w_ARROWHEAD]);
  (0x2f3, [w_MODIFIER;w_LETTER;w_LOW;w_RING]);
  (0x2f4, [w_MODIFIER;w_LETTER;w_MIDDLE;w_GRAVE;w_ACCENT]);
  (0x2f5, [w_MODIFIER;w_LETTER;w_MIDDLE;w_DOUBLE;w_GRAVE;w_ACCENT]);
  (0x2f6, [w_MODIFIER;w_LETTER;w_MIDDLE;w_DOUBLE;w_ACUTE;w_ACCENT]);
  (0x2f7, [w_MODIFIER;w_LETTER;w_LOW;w_TILDE]);
  (0x2f8, [w_MODIFIER;w_LETTER;w_RAISED;w_COLON]);
  (0x2f9, [w_MODIFIER;w_LETTER;w_BEGIN;w_HIGH;w_TONE]);
  (0x2fa, [w_MODIFIER;w_LETTER;w_END;w_HIGH;w_TONE]);
  (0x2fb, [w_MODIFIER;w_LETTER;w_BEGIN;w_LOW;w_TONE]);
  (0x2fc, [w_MODIFIER;w_LETTER;w_END;w_LOW;w_TONE]);
  (0x2fd, [w_MODIFIER;w_LETTER;w_SHELF]);
  (0x2fe, [w_MODIFIER;w_LETTER;w_OPEN;w_SHELF]);
  (0x2ff, [w_MODIFIER;w_LETTER;w_LOW;w_LEFT;w_ARROW]);
  (0x300, [w_COMBINING;w_GRAVE;w_ACCENT]);
  (0x301, [w_COMBINING;w_ACUTE;w_ACCENT]);
  (0x302, [w_COMBINING;w_CIRCUMFLEX;w_ACCENT]);
  (0x303, [w_COMBINING;w_TILDE]);
  (0x304, [w_COMBINING;w_MACRON]);
  (0x305, [w_COMBINING;w_OVERLINE]);
  (0x306, [w_COMBINING;w_BREVE]);
  (0x307, [w_COMBINING;w_DOT;w_ABOVE]);
  (0x308, [w_COMBINING;w_DIAERESIS]);
  (0x309, [w_COMBINING;w_HOOK;w_ABOVE]);
  (0x30a, [w_COMBINING;w_RING;w_ABOVE]);
  (0x30b, [w_COMBINING;w_DOUBLE;w_ACUTE;w_ACCENT]);
  (0x30c, [w_COMBINING;w_CARON]);
  (0x30d, [w_COMBINING;w_VERTICAL;w_LINE;w_ABOVE]);
  (0x30e, [w_COMBINING;w_DOUBLE;w_VERTICAL;w_LINE;w_ABOVE]);
  (0x30f, [w_COMBINING;w_DOUBLE;w_GRAVE;w_ACCENT]);
  (0x310, [w_COMBINING;w_CANDRABINDU]);
  (0x311, [w_COMBINING;w_INVERTED;w_BREVE]);
  (0x312, [w_COMBINING;w_TURNED;w_COMMA;w_ABOVE]);
  (0x313, [w_COMBINING;w_COMMA;w_ABOVE]);
  (0x314, [w_COMBINING;w_REVERSED;w_COMMA;w_ABOVE]);
  (0x315, [w_COMBINING;w_COMMA;w_ABOVE;w_RIGHT]);
  (0x316, [w_COMBINING;w_GRAVE;w_ACCENT;w_BELOW]);
  (0x317, [w_COMBINING;w_ACUTE;w_ACCENT;w_BELOW]);
  (0x318, [w_COMBINING;w_LEFT;w_TACK;w_BELOW]);
  (0x319, [w_COMBINING;w_RIGHT;w_TACK;w_BELOW]);
  (0x31a, [w_COMBINING;w_LEFT;w_ANGLE;w_ABOVE]);
  (0x31b, [w_COMBINING;w_HORN]);
  (0x31c, [w_COMBINING;w_LEFT;w_HALF;w_RING;w_BELOW]);
  (0x31d, [w_COMBINING;w_UP;w_TACK;w_BELOW]);
  (0x31e, [w_COMBINING;w_DOWN;w_TACK;w_BELOW]);
  (0x31f, [w_COMBINING;w_PLUS;w_SIGN;w_BELOW]);
  (0x320, [w_COMBINING;w_MINUS;w_SIGN;w_BELOW]);
  (0x321, [w_COMBINING;w_PALATALIZED;w_HOOK;w_BELOW]);
  (0x322, [w_COMBINING;w_RETROFLEX;w_HOOK;w_BELOW]);
  (0x323, [w_COMBINING;w_DOT;w_BELOW]);
  (0x324, [w_COMBINING;w_DIAERESIS;w_BELOW]);
  (0x325, [w_COMBINING;w_RING;w_BELOW]);
  (0x326, [w_COMBINING;w_COMMA;w_BELOW]);
  (0x327, [w_COMBINING;w_CEDILLA]);
  (0x328, [w_COMBINING;w_OGONEK]);
  (0x329, [w_COMBINING;w_VERTICAL;w_LINE;w_BELOW]);
  (0x32a, [w_COMBINING;w_BRIDGE;w_BELOW]);
  (0x32b, [w_COMBINING;w_INVERTED;w_DOUBLE;w_ARCH;w_BELOW]);
  (0x32c, [w_COMBINING;w_CARON;w_BELOW]);
  (0x32d, [w_COMBINING;w_CIRCUMFLEX;w_ACCENT;w_BELOW]);
  (0x32e, [w_COMBINING;w_BREVE;w_BELOW]);
  (0x32f, [w_COMBINING;w_INVERTED;w_BREVE;w_BELOW]);
  (0x330, [w_COMBINING;w_TILDE;w_BELOW]);
  (0x331, [w_COMBINING;w_MACRON;w_BELOW]);
  (0x332, [w_COMBINING;w_LOW;w_LINE]);
  (0x333, [w_COMBINING;w_DOUBLE;w_LOW;w_LINE]);
  (0x334, [w_COMBINING;w_TILDE;w_OVERLAY]);
  (0x335, [w_COMBINING;w_SHORT;w_STROKE;w_OVERLAY]);
  (0x336, [w_COMBINING;w_LONG;w_STROKE;w_OVERLAY]);
  (0x337, [w_COMBINING;w_SHORT;w_SOLIDUS;w_OVERLAY]);
  (0x338, [w_COMBINING;w_LONG;w_SOLIDUS;w_OVERLAY]);
  (0x339, [w_COMBINING;w_RIGHT;w_HALF;w_RING;w_BELOW]);
  (0x33a, [w_COMBINING;w_INVERTED;w_BRIDGE;w_BELOW]);
  (0x33b, [w_COMBINING;w_SQUARE;w_BELOW]);
  (0x33c, [w_COMBINING;w_SEAGULL;w_BELOW]);
  (0x33d, [w_COMBINING;w_X;w_ABOVE]);
  (0x33e, [w_COMBINING;w_VERTICAL;w_TILDE]);
  (0x33f, [w_COMBINING;w_DOUBLE;w_OVERLINE]);
  (0x340, [w_COMBINING;w_GRAVE;w_TONE;w_MARK]);
  (0x341, [w_COMBINING;w_ACUTE;w_TONE;w_MARK]);
  (0x342, [w_COMBINING;w_GREEK;w_PERISPOMENI]);
  (0x343, [w_COMBINING;w_GREEK;w_KORONIS]);
  (0x344, [w_COMBINING;w_GREEK;w_DIALYTIKA;w_TONOS]);
  (0x345, [w_COMBINING;w_GREEK;w_YPOGEGRAMMENI]);
  (0x346, [w_COMBINING;w_BRIDGE;w_ABOVE]);
  (0x347, [w_COMBINING;w_EQUALS;w_SIGN;w_BELOW]);
  (0x348, [w_COMBINING;w_DOUBLE;w_VERTICAL;w_LINE;w_BELOW]);
  (0x349, [w_COMBINING;w_LEFT;w_ANGLE;w_BELOW]);
  (0x34a, [w_COMBINING;w_NOT;w_TILDE;w_ABOVE]);
  (0x34b, [w_COMBINING;w_HOMOTHETIC;w_ABOVE]);
  (0x34c, [w_COMBINING;w_ALMOST;w_EQUAL;w_TO;w_ABOVE]);
  (0x34d, [w_COMBINING;w_LEFT;w_RIGHT;w_ARROW;w_BELOW]);
  (0x34e, [w_COMBINING;w_UPWARDS;w_ARROW;w_BELOW]);
  (0x34f, [w_COMBINING;w_GRAPHEME;w_JOINER]);
  (0x350, [w_COMBINING;w_RIGHT;w_ARROWHEAD;w_ABOVE]);
  (0x351, [w_COMBINING;w_LEFT;w_HALF;w_RING;w_ABOVE]);
  (0x352, [w_COMBINING;w_FERMATA]);
  (0x353, [w_COMBINING;w_X;w_BELOW]);
  (0x354, [w_COMBINING;w_LEFT;w_ARROWHEAD;w_BELOW]);
  (0x355, [w_COMBINING;w_RIGHT;w_ARROWHEAD;w_BELOW]);
  (0x356, [w_COMBINING;w_RIGHT;w_ARROWHEAD;w_AND;w_UP;w_ARROWHEAD;w_BELOW]);
  (0x357, [w_COMBINING;w_RIGHT;w_HALF;w_RING;w_ABOVE]);
  (0x358, [w_COMBINING;w_DOT;w_ABOVE;w_RIGHT]);
  (0x359, [w_COMBINING;w_ASTERISK;w_BELOW]);
  (0x35a, [w_COMBINING;w_DOUBLE;w_RING;w_BELOW]);
  (0x35b, [w_COMBINING;w_ZIGZAG;w_ABOVE]);
  (0x35c, [w_COMBINING;w_DOUBLE;w_BREVE;w_BELOW]);
  (0x35d, [w_COMBINING;w_DOUBLE;w_BREVE]);
  (0x35e, [w_COMBINING;w_DOUBLE;w_MACRON]);
  (0x35f, [w_COMBINING;w_DOUBLE;w_MACRON;w_BELOW]);
  (0x360, [w_COMBINING;w_DOUBLE;w_TILDE])].

Definition NAMES_2 : list (N * (list str)) := [
  (0x361, [w_COMBINING;w_DOUBLE;w_INVERTED;w_BREVE]);
  (0x362, [w_COMBINING;w_DOUBLE;w_RIGHTWARDS;w_ARROW;w_BELOW]);
  (0x363, [w_COMBINING;w_LATIN;w_SMALL;w_LETTER;w_A]);
  (0x364, [w_COMBINING;w_LATIN;w_SMALL;w_LETTER;w_E]);
  (0x365, [w_COMBINING;w_LATIN;w_SMALL;w_LETTER;w_I]);
  (0x366, [w_COMBINING;w_LATIN;w_SMALL;w_LETTER;w_O]);
  (0x367, [w_COMBINING;w_LATIN;w_SMALL;w_LETTER;w_U]);
  (0x368, [w_COMBINING;w_LATIN;w_SMALL;w_LETTER;w_C]);
  (0x369, [w_COMBINING;w_LATIN;w_SMALL;w_LETTER;w_D]);
  (0x36a, [w_COMBINING;w_LATIN;w_SMALL;w_LETTER;w_H]);
  (0x36b, [w_COMBINING;w_LATIN;w_SMALL;w_LETTER;w_M]);
  (0x36c, [w_COMBINING;w_LATIN;w_SMALL;w_LETTER;w_R]);
  (0x36d, [w_COMBINING;w_LATIN;w_SMALL;w_LETTER;w_T]);
  (0x36e, [w_COMBINING;w_LATIN;w_SMALL;w_LETTER;w_V]);
  (0x36f, [w_COMBINING;w_LATIN;w_SMALL;w_LETTER;w_X]);
  (0x370, [w_GREEK;w_CAPITAL;w_LETTER;w_HETA]);
  (0x371, [w_GREEK;w_SMALL;w_LETTER;w_HETA]);
  (0x372, [w_GREEK;w_CAPITAL;w_LETTER;w_ARCHAIC;w_SAMPI]);
  (0x373, [w_GREEK;w_SMALL;w_LETTER;w_ARCHAIC;w_SAMPI]);
  (0x374, [w_GREEK;w_NUMERAL;w_SIGN]);
  (0x375, [w_GREEK;w_LOWER;w_NUMERAL;w_SIGN]);
  (0x376, [w_GREEK;w_CAPITAL;w_LETTER;w_PAMPHYLIAN;w_DIGAMMA]);
  (0x377, [w_GREEK;w_SMALL;w_LETTER;w_PAMPHYLIAN;w_DIGAMMA]);
  (0x37a, [w_GREEK;w_YPOGEGRAMMENI]);
  (0x37b, [w_GREEK;w_SMALL;w_REVERSED;w_LUNATE;w_SIGMA;w_SYMBOL]);
  (0x37c, [w_GREEK;w_SMALL;w_DOTTED;w_LUNATE;w_SIGMA;w_SYMBOL]);
  (0x37d, [w_GREEK;w_SMALL;w_REVERSED;w_DOTTED;w_LUNATE;w_SIGMA;w_SYMBOL]);
  (0x37e, [w_GREEK;w_QUESTION;w_MARK]);
  (0x37f, [w_GREEK;w_CAPITAL;w_LETTER;w_YOT]);
  (0x384, [w_GREEK;w_TONOS]);
  (0x385, [w_GREEK;w_DIALYTIKA;w_TONOS]);
  (0x386, [w_GREEK;w_CAPITAL;w_LETTER;w_ALPHA;w_WITH;w_TONOS]);
  (0x387, [w_GREEK;w_ANO;w_TELEIA]);
  (0x388, [w_GREEK;w_CAPITAL;w_LETTER;w_EPSILON;w_WITH;w_TONOS]);
  (0x389, [w_GREEK;w_CAPITAL;w_LETTER;w_ETA;w_WITH;w_TONOS]);
  (0x38a, [w_GREEK;w_CAPITAL;w_LETTER;w_IOTA;w_WITH;w_TONOS]);
  (0x38c, [w_GREEK;w_CAPITAL;w_LETTER;w_OMICRON;w_WITH;w_TONOS]);
  (0x38e, [w_GREEK;w_CAPITAL;w_LETTER;w_UPSILON;w_WITH;w_TONOS]);
  (0x38f, [w_GREEK;w_CAPITAL;w_LETTER;w_OMEGA;w_WITH;w_TONOS]);
  (0x390, [w_GREEK;w_SMALL;w_LETTER;w_IOTA;w_WITH;w_DIALYTIKA;w_AND;w_TONOS]);
  (0x391, [w_GREEK;w_CAPITAL;w_LETTER;w_ALPHA]);
  (0x392, [w_GREEK;w_CAPITAL;w_LETTER;w_BETA]);
  (0x393, [w_GREEK;w_CAPITAL;w_LETTER;w_GAMMA]);
  (0x394, [w_GREEK;w_CAPITAL;w_LETTER;w_DELTA]);
  (0x395, [w_GREEK;w_CAPITAL;w_LETTER;w_EPSILON]);
  (0x396, [w_GREEK;w_CAPITAL;w_LETTER;w_ZETA]);
  (0x397, [w_GREEK;w_CAPITAL;w_LETTER;w_ETA]);
  (0x398, [w_GREEK;w_CAPITAL;w_LETTER;w_THETA]);
  (0x399, [w_GREEK;w_CAPITAL;w_LETTER;w_IOTA]);
  (0x39a, [w_GREEK;w_CAPITAL;w_LETTER;w_KAPPA]);
  (0x39b, [w_GREEK;w_CAPITAL;w_LETTER;w_LAMDA]);
  (0x39c, [w_GREEK;w_CAPITAL;w_LETTER;w_MU]);
  (0x39d, [w_GREEK;w_CAPITAL;w_LETTER;w_NU]);
  (0x39e, [w_GREEK;w_CAPITAL;w_LETTER;w_XI]);
  (0x39f, [w_GREEK;w_CAPITAL;w_LETTER;w_OMICRON]);
  (0x3a0, [w_GREEK;w_CAPITAL;w_LETTER;w_PI]);
  (0x3a1, [w_GREEK;w_CAPITAL;w_LETTER;w_RHO]);
  (0x3a3, [w_GREEK;w_CAPITAL;w_LETTER;w_SIGMA]);
  (0x3a4, [w_GREEK;w_CAPITAL;w_LETTER;w_TAU]);
  (0x3a5, [w_GREEK;w_CAPITAL;w_LETTER;w_UPSILON]);
  (0x3a6, [w_GREEK;w_CAPITAL;w_LETTER;w_PHI]);
  (0x3a7, [w_GREEK;w_CAPITAL;w_LETTER;w_CHI]);
  (0x3a8, [w_GREEK;w_CAPITAL;w_LETTER;w_PSI]);
  (0x3a9, [w_GREEK;w_CAPITAL;w_LETTER;w_OMEGA]);
  (0x3aa, [w_GREEK;w_CAPITAL;w_LETTER;w_IOTA;w_WITH;w_DIALYTIKA]);
  (0x3ab, [w_GREEK;w_CAPITAL;w_LETTER;w_UPSILON;w_WITH;w_DIALYTIKA]);
  (0x3ac, [w_GREEK;w_SMALL;w_LETTER;w_ALPHA;w_WITH;w_TONOS]);
  (0x3ad, [w_GREEK;w_SMALL;w_LETTER;w_EPSILON;w_WITH;w_TONOS]);
  (0x3ae, [w_GREEK;w_SMALL;w_LETTER;w_ETA;w_WITH;w_TONOS]);
  (0x3af, [w_GREEK;w_SMALL;w_LETTER;w_IOTA;w_WITH;w_TONOS]);
  (0x3b0, [w_GREEK;w_SMALL;w_LETTER;w_UPSILON;w_WITH;w_DIALYTIKA;w_AND;w_TONOS]);
  (0x3b1, [w_GREEK;w_SMALL;w_LETTER;w_ALPHA]);
  (0x3b2, [w_GREEK;w_SMALL;w_LETTER;w_BETA]);
  (0x3b3, [w_GREEK;w_SMALL;w_LETTER;w_GAMMA]);
  (0x3b4, [w_GREEK;w_SMALL;w_LETTER;w_DELTA]);
  (0x3b5, [w_GREEK;w_SMALL;w_LETTER;w_EPSILON]);
  (0x3b6, [w_GREEK;w_SMALL;w_LETTER;w_ZETA]);
  (0x3b7, [w_GREEK;w_SMALL;w_LETTER;w_ETA]);
  (0x3b8, [w_GREEK;w_SMALL;w_LETTER;w_THETA]);
  (0x3b9, [w_GREEK;w_SMALL;w_LETTER;w_IOTA]);
  (0x3ba, [w_GREEK;w_SMALL;w_LETTER;w_KAPPA]);
  (0x3bb, [w_GREEK;w_SMALL;w_LETTER;w_LAMDA]);
  (0x3bc, [w_GREEK;w_SMALL;w_LETTER;w_MU]);
  (0x3bd, [w_GREEK;w_SMALL;w_LETTER;w_NU]);
  (0x3be, [w_GREEK;w_SMALL;w_LETTER;w_XI]);
  (0x3bf, [w_GREEK;w_SMALL;w_LETTER;w_OMICRON]);
  (0x3c0, [w_GREEK;w_SMALL;w_LETTER;w_PI]);
  (0x3c1, [w_GREEK;w_SMALL;w_LETTER;w_RHO]);
  (0x3c2, [w_GREEK;w_SMALL;w_LETTER;w_FINAL;w_SIGMA]);
  (0x3c3, [w_GREEK;w_SMALL;w_LETTER;w_SIGMA]);
  (0x3c4, [w_GREEK;w_SMALL;w_LETTER;w_TAU]);
  (0x3c5, [w_GREEK;w_SMALL;w_LETTER;w_UPSILON]);
  (0x3c6, [w_GREEK;w_SMALL;w_LETTER;w_PHI]);
  (0x3c7, [w_GREEK;w_SMALL;w_LETTER;w_CHI]);
  (0x3c8, [w_GREEK;w_SMALL;w_LETTER;w_PSI]);
  (0x3c9, [w_GREEK;w_SMALL;w_LETTER;w_OMEGA]);
  (0x3ca, [w_GREEK;w_SMALL;w_LETTER;w_IOTA;w_WITH;w_DIALYTIKA]);
  (0x3cb, [w_GREEK;w_SMALL;w_LETTER;w_UPSILON;w_WITH;w_DIALYTIKA]);
  (0x3cc, [w_GREEK;w_SMALL;w_LETTER;w_OMICRON;w_WITH;w_TONOS]);
  (0x3cd, [w_GREEK;w_SMALL;w_LETTER;w_UPSILON;w_WITH;w_TONOS]);
  (0x3ce, [w_GREEK;w_SMALL;w_LETTER;w_OMEGA;w_WITH;w_TONOS]);
  (0x3cf, [w_GREEK;w_CAPITAL;w_KAI;w_SYMBOL]);
  (0x3d0, [w_GREEK;w_BETA;w_SYMBOL]);
  (0x3d1, [w_GREEK;w_THETA;w_SYMBOL]);
  (0x3d2, [w_GREEK;w_UPSILON;w_WITH;w_HOOK;w_SYMBOL]);
  (0x3d3, [w_GREEK;w_UPSILON;w_WITH;w_ACUTE;w_AND;w_HOOK;w_SYMBOL]);
  (0x3d4, [w_GREEK;w_UPSILON;w_WITH;w_DIAERESIS;w_AND;w_HOOK;w_SYMBOL]);
  (0x3d5, [w_GREEK;w_PHI;w_SYMBOL]);
  (0x3d6, [w_GREEK;w_PI;w_SYMBOL]);
  (0x3d7, [w_GREEK;w_KAI;w_SYMBOL]);
  (0x3d8, [w_GREEK;w_LETTER;w_ARCHAIC;w_KOPPA]);
  (0x3d9, [w_GREEK;w_SMALL;w_LETTER;w_ARCHAIC;w_KOPPA]);
  (0x3da, [w_GREEK;w_LETTER;w_STIGMA]);
  (0x3db, [w_GREEK;w_SMALL;w_LETTER;w_STIGMA]);
  (0x3dc, [w_GREEK;w_LETTER;w_DIGAMMA]);
  (0x3dd, [w_GREEK;w_SMALL;w_LETTER;w_DIGAMMA]);
  (0x3de, [w_GREEK;w_LETTER;w_KOPPA]);
  (0x3df, [w_GREEK;w_SMALL;w_LETTER;w_KOPPA]);
  (0x3e0, [w_GREEK;w_LETTER;w_SAMPI]);
  (0x3e1, [w_GREEK;w_SMALL;w_LETTER;w_SAMPI]);
  (0x3e2, [w_COPTIC;w_CAPITAL;w_LETTER;w_SHEI]);
  (0x3e3, [w_COPTIC;w_SMALL;w_LETTER;w_SHEI]);
  (0x3e4, [w_COPTIC;w_CAPITAL;w_LETTER;w_FEI]);
  (0x3e5, [w_COPTIC;w_SMALL;w_LETTER;w_FEI]);
  (0x3e6, [w_COPTIC;w_CAPITAL;w_LETTER;w_KHEI]);
  (0x3e7, [w_COPTIC;w_SMALL;w_LETTER;w_KHEI]);
  (0x3e8, [w_COPTIC;w_CAPITAL;w_LETTER;w_HORI]);
  (0x3e9, [w_COPTIC;w_SMALL;w_LETTER;w_HORI]);
  (0x3ea, [w_COPTIC;w_CAPITAL;w_LETTER;w_GANGIA]);
  (0x3eb, [w_COPTIC;w_SMALL;w_LETTER;w_GANGIA]);
  (0x3ec, [w_COPTIC;w_CAPITAL;w_LETTER;w_SHIMA]);
  (0x3ed, [w_COPTIC;w_SMALL;w_LETTER;w_SHIMA]);
  (0x3ee, [w_COPTIC;w_CAPITAL;w_LETTER;w_DEI]);
  (0x3ef, [w_COPTIC;w_SMALL;w_LETTER;w_DEI]);
  (0x3f0, [w_GREEK;w_KAPPA;w_SYMBOL]);
  (0x3f1, [w_GREEK;w_RHO;w_SYMBOL]);
  (0x3f2, [w_GREEK;w_LUNATE;w_SIGMA;w_SYMBOL]);
  (0x3f3, [w_GREEK;w_LETTER;w_YOT]);
  (0x3f4, [w_GREEK;w_CAPITAL;w_THETA;w_SYMBOL]);
  (0x3f5, [w_GREEK;w_LUNATE;w_EPSILON;w_SYMBOL]);
  (0x3f6, [w_GREEK;w_REVERSED;w_LUNATE;w_EPSILON;w_SYMBOL]);
  (0x3f7, [w_GREEK;w_CAPITAL;w_LETTER;w_SHO]);
  (0x3f8, [w_GREEK;w_SMALL;w_LETTER;w_SHO]);
  (0x3f9, [w_GREEK;w_CAPITAL;w_LUNATE;w_SIGMA;w_SYMBOL]);
  (0x3fa, [w_GREEK;w_CAPITAL;w_LETTER;w_SAN]);
  (0x3fb, [w_GREEK;w_SMALL;w_LETTER;w_SAN]);
  (0x3fc, [w_GREEK;w_RHO;w_WITH;w_STROKE;w_SYMBOL]);
  (0x3fd, [w_GREEK;w_CAPITAL;w_REVERSED;w_LUNATE;w_SIGMA;w_SYMBOL]);
  (0x3fe, [w_GREEK;w_CAPITAL;w_DOTTED;w_LUNATE;w_SIGMA;w_SYMBOL]);
  (0x3ff, [w_GREEK;w_CAPITAL;w_REVERSED;w_DOTTED;w_LUNATE;w_SIGMA;w_SYMBOL]);
  (0x400, [w_CYRILLIC;w_CAPITAL;w_LETTER;w_IE;w_WITH;w_GRAVE]);
  (0x401, [w_CYRILLIC;w_CAPITAL;w_LETTER;w_IO]);
  (0x402, [w_CYRILLIC;w_CAPITAL;w_LETTER;w_DJE]);
  (0x403, [w_CYRILLIC;w_CAPITAL;w_LETTER;w_GJE]);
  (0x404, [w_CYRILLIC;w_CAPITAL;w_LETTER;w_UKRAINIAN;w_IE]);
  (0x405, [w_CYRILLIC;w_CAPITAL;w_LETTER;w_DZE]);
  (0x406, [w_CYRILLIC;w_CAPITAL;w_LETTER;w_BYELORUSSIAN_UKRAINIAN;w_I]);
  (0x407, [w_CYRILLIC;w_CAPITAL;w_LETTER;w_YI]);
  (0x408, [w_CYRILLIC;w_CAPITAL;w_LETTER;w_JE]);
  (0x409, [w_CYRILLIC;w_CAPITAL;w_LETTER;w_LJE]);
  (0x40a, [w_CYRILLIC;w_CAPITAL;w_LETTER;w_NJE]);
  (0x40b, [w_CYRILLIC;w_CAPITAL;w_LETTER;w_TSHE]);
  (0x40c, [w_CYRILLIC;w_CAPITAL;w_LETTER;w_KJE]);
  (0x40d, [w_CYRILLIC;w_CAPITAL;w_LETTER;w_I;w_WITH;w_GRAVE]);
  (0x40e, [w_CYRILLIC;w_CAPITAL;w_LETTER;w_SHORT;w_U]);
  (0x40f, [w_CYRILLIC;w_CAPITAL;w_LETTER;w_DZHE]);
  (0x410, [w_CYRILLIC;w_CAPITAL;w_LETTER;w_A]);
  (0x411, [w_CYRILLIC;w_CAPITAL;w_LETTER;w_BE]);
  (0x412, [w_CYRILLIC;w_CAPITAL;w_LETTER;w_VE]);
  (0x413, [w_CYRILLIC;w_CAPITAL;w_LETTER;w_GHE]);
  (0x414, [w_CYRILLIC;w_CAPITAL;w_LETTER;w_DE]);
  (0x415, [w_CYRILLIC;w_CAPITAL;w_LETTER;w_IE]);
  (0x416, [w_CYRILLIC;w_CAPITAL;w_LETTER;w_ZHE]);
  (0x417, [w_CYRILLIC;w_CAPITAL;w_LETTER;w_ZE]);
  (0x418, [w_CYRILLIC;w_CAPITAL;w_LETTER;w_I]);
  (0x419, [w_CYRILLIC;w_CAPITAL;w_LETTER;w_SHORT;w_I]);
  (0x41a, [w_CYRILLIC;w_CAPITAL;w_LETTER;w_KA]);
  (0x41b, [w_CYRILLIC;w_CAPITAL;w_LETTER;w_EL]);
  (0x41c, [w_CYRILLIC;w_CAPITAL;w_LETTER;w_EM]);
  (0x41d, [w_CYRILLIC;w_CAPITAL;w_LETTER;w_EN]);
  (0x41e, [w_CYRILLIC;w_CAPITAL;w_LETTER;w_O]);
  (0x41f, [w_CYRILLIC;w_CAPITAL;w_LETTER;w_PE]);
  (0x420, [w_CYRILLIC;w_CAPITAL;w_LETTER;w_ER]);
  (0x421, [w_CYRILLIC;w_CAPITAL;w_LETTER;w_ES]);
  (0x422, [w_CYRILLIC;w_CAPITAL;w_LETTER;w_TE]);
  (0x423, [w_CYRILLIC;w_CAPITAL;w_LETTER;w_U]);
  (0x424, [w_CYRILLIC;w_CAPITAL;w_LETTER;w_EF]);
  (0x425, [w_CYRILLIC;w_CAPITAL;w_LETTER;w_HA]);
  (0x426, [w_CYRILLIC;w_CAPITAL;w_LETTER;w_TSE]);
  (0x427, [w_CYRILLIC;w_CAPITAL;w_LETTER;w_CHE]);
  (0x428, [w_CYRILLIC;w_CAPITAL;w_LETTER;w_SHA]);
  (0x429, [w_CYRILLIC;w_CAPITAL;w_LETTER;w_SHCHA]);
  (0x42a, [w_CYRILLIC;w_CAPITAL;w_LETTER;w_HARD;w_SIGN]);
  (0x42b, [w_CYRILLIC;w_CAPITAL;w_LETTER;w_YERU]);
  (0x42c, [w_CYRILLIC;w_CAPITAL;w_LETTER;w_SOFT;w_SIGN]);
  (0x42d, [w_CYRILLIC;w_CAPITAL;w_LETTER;w_E]);
  (0x42e, [w_CYRILLIC;w_CAPITAL;w_LETTER;w_YU]);
  (0x42f, [w_CYRILLIC;w_CAPITAL;w_LETTER;w_YA]);
  (0x430, [w_CYRILLIC;w_SMALL;w_LETTER;w_A]);
  (0x431, [w_CYRILLIC;w_SMALL;w_LETTER;w_BE]);
  (0x432, [w_CYRILLIC;w_SMALL;w_LETTER;w_VE]);
  (0x433, [w_CYRILLIC;w_SMALL;w_LETTER;w_GHE]);
  (0x434, [w_CYRILLIC;w_SMALL;w_LETTER;w_DE]);
  (0x435, [w_CYRILLIC;w_SMALL;w_LETTER;w_IE]);
  (0x436, [w_CYRILLIC;w_SMALL;w_LETTER;w_ZHE]);
  (0x437, [w_CYRILLIC;w_SMALL;w_LETTER;w_ZE]);
  (0x438, [w_CYRILLIC;w_SMALL;w_LETTER;w_I]);
  (0x439, [w_CYRILLIC;w_SMALL;w_LETTER;w_SHORT;w_I]);
  (0x43a, [w_CYRILLIC;w_SMALL;w_LETTER;w_KA]);
  (0x43b, [w_CYRILLIC;w_SMALL;w_LETTER;w_EL]);
  (0x43c, [w_CYRILLIC;w_SMALL;w_LETTER;w_EM]);
  (0x43d, [w_CYRILLIC;w_SMALL;w_LETTER;w_EN]);
  (0x43e, [w_CYRILLIC;w_SMALL;w_LETTER;w_O]);
  (0x43f, [w_CYRILLIC;w_SMALL;w_LETTER;w_PE]);
  (0x440, [w_CYRILLIC;w_SMALL;w_LETTER;w_ER]);
  (0x441, [w_CYRILLIC;w_SMALL;w_LETTER;w_ES]);
  (0x442, [w_CYRILLIC;w_SMALL;w_LETTER;w_TE]);
  (0x443, [w_CYRILLIC;w_SMALL;w_LETTER;w_U]);
  (0x444, [w_CYRILLIC;w_SMALL;w_LETTER;w_EF]);
  (0x445, [w_CYRILLIC;w_SMALL;w_LETTER;w_HA]);
  (0x446, [w_CYRILLIC;w_SMALL;w_LETTER;w_TSE]);
  (0x447, [w_CYRILLIC;w_SMALL;w_LETTER;w_CHE]);
  (0x448, [w_CYRILLIC;w_SMALL;w_LETTER;w_SHA]);
  (0x449, [w_CYRILLIC;w_SMALL;w_LETTER;w_SHCHA]);
  (0x44a, [w_CYRILLIC;w_SMALL;w_LETTER;w_HARD;w_SIGN]);
  (0x44b, [w_CYRILLIC;w_SMALL;w_LETTER;w_YERU]);
  (0x44c, [w_CYRILLIC;w_SMALL;w_LETTER;w_SOFT;w_SIGN]);
  (0x44d, [w_CYRILLIC;w_SMALL;w_LETTER;w_E]);
  (0x44e, [w_CYRILLIC;w_SMALL;w_LETTER;w_YU]);
  (0x44f, [w_CYRILLIC;w_SMALL;w_LETTER;w_YA]);
  (0x450, [w_CYRILLIC;w_SMALL;w_LETTER;w_IE;w_WITH;w_GRAVE]);
  (0x451, [w_CYRILLIC;w_SMALL;w_LETTER;w_IO]);
  (0x452, [w_CYRILLIC;w_SMALL;w_LETTER;w_DJE]);
  (0x453, [w_CYRILLIC;w_SMALL;w_LETTER;w_GJE]);
  (0x454, [w_CYRILLIC;w_SMALL;w_LETTER;w_UKRAINIAN;w_IE]);
  (0x455, [w_CYRILLIC;w_SMALL;w_LETTER;w_DZE]);
  (0x456, [w_CYRILLIC;w_SMALL;w_LETTER;w_BYELORUSSIAN_UKRAINIAN;w_I]);
  (0x457, [w_CYRILLIC;w_SMALL;w_LETTER;w_YI]);
  (0x458, [w_CYRILLIC;w_SMALL;w_LETTER;w_JE]);
  (0x459, [w_CYRILLIC;w_SMALL;w_LETTER;w_LJE]);
  (0x45a, [w_CYRILLIC;w_SMALL;w_LETTER;w_NJE]);
  (0x45b, [w_CYRILLIC;w_SMALL;w_LETTER;w_TSHE]);
  (0x45c, [w_CYRILLIC;w_SMALL;w_LETTER;w_KJE]);
  (0x45d, [w_CYRILLIC;w_SMALL;w_LETTER;w_I;w_WITH;w_GRAVE]);
  (0x45e, [w_CYRILLIC;w_SMALL;w_LETTER;w_SHORT;w_U]);
  (0x45f, [w_CYRILLIC;w_SMALL;w_LETTER;w_DZHE]);
  (0x460, [w_CYRILLIC;w_CAPITAL;w_LETTER;w_OMEGA]);
  (0x461, [w_CYRILLIC;w_SMALL;w_LETTER;w_OMEGA]);
  (0x462, [w_CYRILLIC;w_CAPITAL;w_LETTER;w_YAT]);
  (0x463, [w_CYRILLIC;w_SMALL;w_LETTER;w_YAT]);
  (0x464, [w_CYRILLIC;w_CAPITAL;w_LETTER;w_IOTIFIED;w_E]);
  (0x465, [w_CYRILLIC;w_SMALL;w_LETTER;w_IOTIFIED;w_E]);
  (0x466, [w_CYRILLIC;w_CAPITAL;w_LETTER;w_LITTLE;w_YUS]);
  (0x467, [w_CYRILLIC;w_SMALL;w_LETTER;w_LITTLE;w_YUS]);
  (0x468, [w_CYRILLIC;w_CAPITAL;w_LETTER;w_IOTIFIED;w_LITTLE;w_YUS]);
  (0x469, [w_CYRILLIC;w_SMALL;w_LETTER;w_IOTIFIED;w_LITTLE;w_YUS]);
  (0x46a, [w_CYRILLIC;w_CAPITAL;w_LETTER;w_BIG;w_YUS]);
  (0x46b, [w_CYRILLIC;w_SMALL;w_LETTER;w_BIG;w_YUS]);
  (0x46c, [w_CYRILLIC;w_CAPITAL;w_LETTER;w_IOTIFIED;w_BIG;w_YUS]);
  (0x46d, [w_CYRILLIC;w_SMALL;w_LETTER;w_IOTIFIED;w_BIG;w_YUS]);
  (0x46e, [w_CYRILLIC;w_CAPITAL;w_LETTER;w_KSI]);
  (0x46f, [w_CYRILLIC;w_SMALL;w_LETTER;w_KSI]);
  (0x470, [w_CYRILLIC;w_CAPITAL;w_LETTER;w_PSI]);
  (0x471, [w_CYRILLIC;w_SMALL;w_LETTER;w_PSI]);
  (0x472, [w_CYRILLIC;w_CAPITAL;w_LETTER;w_FITA]);
  (0x473, [w_CYRILLIC;w_SMALL;w_LETTER;w_FITA]);
  (0x474, [w_CYRILLIC;w_CAPITAL;w_LETTER;w_IZHITSA]);
  (0x475, [w_CYRILLIC;w_SMALL;w_LETTER;w_IZHITSA]);
  (0x476, [w_CYRILLIC;w_CAPITAL;w_LETTER;w_IZHITSA;w_WITH;w_DOUBLE;w_GRAVE;w_ACCENT]);
  (0x477, [w_CYRILLIC;w_SMALL;w_LETTER;w_IZHITSA;w_WITH;w_DOUBLE;w_GRAVE;w_ACCENT]);
  (0x478, [w_CYRILLIC;w_CAPITAL;w_LETTER;w_UK]);
  (0x479, [w_CYRILLIC;w_SMALL;w_LETTER;w_UK]);
  (0x47a, [w_CYRILLIC;w_CAPITAL;w_LETTER;w_ROUND;w_OMEGA]);
  (0x47b, [w_CYRILLIC;w_SMALL;w_LETTER;w_ROUND;w_OMEGA]);
  (0x47c, [w_CYRILLIC;w_CAPITAL;w_LETTER;w_OMEGA;w_WITH;w_TITLO]);
  (0x47d, [w_CYRILLIC;w_SMALL;w_LETTER;w_OMEGA;w_WITH;w_TITLO]);
  (0x47e, [w_CYRILLIC;w_CAPITAL;w_LETTER;w_OT]);
  (0x47f, [w_CYRILLIC;w_SMALL;w_LETTER;w_OT]);
  (0x480, [w_CYRILLIC;w_CAPITAL;w_LETTER;w_KOPPA]);
  (0x481, [w_CYRILLIC;w_SMALL;w_LETTER;w_KOPPA]);
  (0x482, [w_CYRILLIC;w_THOUSANDS;w_SIGN]);
  (0x483, [w_COMBINING;w_CYRILLIC;w_TITLO]);
  (0x484, [w_COMBINING;w_CYRILLIC;w_PALATALIZATION]);
  (0x485, [w_COMBINING;w_CYRILLIC;w_DASIA;w_PNEUMATA]);
  (0x486, [w_COMBINING;w_CYRILLIC;w_PSILI;w_PNEUMATA]);
  (0x487, [w_COMBINING;w_CYRILLIC;w_POKRYTIE]);
  (0x488, [w_COMBINING;w_CYRILLIC;w_HUNDRED;w_THOUSANDS;w_SIGN]);
  (0x489, [w_COMBINING;w_CYRILLIC;w_MILLIONS;w_SIGN]);
  (0x48a, [w_CYRILLIC;w_CAPITAL;w_LETTER;w_SHORT;w_I;w_WITH;w_TAIL]);
  (0x48b, [w_CYRILLIC;w_SMALL;w_LETTER;w_SHORT;w_I;w_WITH;w_TAIL]);
  (0x48c, [w_CYRILLIC;w_CAPITAL;w_LETTER;w_SEMISOFT;w_SIGN]);
  (0x48d, [w_CYRILLIC;w_SMALL;w_LETTER;w_SEMISOFT;w_SIGN]);
  (0x48e, [w_CYRILLIC;w_CAPITAL;w_LETTER;w_ER;w_WITH;w_TICK]);
  (0x48f, [w_CYRILLIC;w_SMALL;w_LETTER;w_ER;w_WITH;w_TICK]);
  (0x490, [w_CYRILLIC;w_CAPITAL;w_LETTER;w_GHE;w_WITH;w_UPTURN]);
  (0x491, [w_CYRILLIC;w_SMALL;w_LETTER;w_GHE;w_WITH;w_UPTURN]);
  (0x492, [w_CYRILLIC;w_CAPITAL;w_LETTER;w_GHE;w_WITH;w_STROKE]);
  (0x493, [w_CYRILLIC;w_SMALL;w_LETTER;w_GHE;w_WITH;w_STROKE]);
  (0x494, [w_CYRILLIC;w_CAPITAL;w_LETTER;w_GHE;w_WITH;w_MIDDLE;w_HOOK]);
  (0x495, [w_CYRILLIC;w_SMALL;w_LETTER;w_GHE;w_WITH;w_MIDDLE;w_HOOK]);
  (0x496, [w_CYRILLIC;w_CAPITAL;w_LETTER;w_ZHE;w_WITH;w_DESCENDER]);
  (0x497, [w_CYRILLIC;w_SMALL;w_LETTER;w_ZHE;w_WITH;w_DESCENDER]);
  (0x498, [w_CYRILLIC;w_CAPITAL;w_LETTER;w_ZE;w_WITH;w_DESCENDER]);
  (0x499, [w_CYRILLIC;w_SMALL;w_LETTER;w_ZE;w_WITH;w_DESCENDER]);
  (0x49a, [w_CYRILLIC;w_CAPITAL;w_LETTER;w_KA;w_WITH;w_DESCENDER]);
  (0x49b, [w_CYRILLIC;w_SMALL;w_LETTER;w_KA;w_WITH;w_DESCENDER]);
  (0x49c, [w_CYRILLIC;w_CAPITAL;w_LETTER;w_KA;w_WITH;w_VERTICAL;w_STROKE]);
  (0x49d, [w_CYRILLIC;w_SMALL;w_LETTER;w_KA;w_WITH;w_VERTICAL;w_STROKE]);
  (0x49e, [w_CYRILLIC;w_CAPITAL;w_LETTER;w_KA;w_WITH;w_STROKE]);
  (0x49f, [w_CYRILLIC;w_SMALL;w_LETTER;w_KA;w_WITH;w_STROKE]);
  (0x4a0, [w_CYRILLIC;w_CAPITAL;w_LETTER;w_BASHKIR;w_KA]);
  (0x4a1, [w_CYRILLIC;w_SMALL;w_LETTER;w_BASHKIR;w_KA]);
  (0x4a2, [w_CYRILLIC;w_CAPITAL;w_LETTER;w_EN;w_WITH;w_DESCENDER]);
  (0x4a3, [w_CYRILLIC;w_SMALL;w_LETTER;w_EN;w_WITH;w_DESCENDER]);
  (0x4a4, [w_CYRILLIC;w_CAPITAL;w_LIGATURE;w_EN;w_GHE]);
  (0x4a5, [w_CYRILLIC;w_SMALL;w_LIGATURE;w_EN;w_GHE]);
  (0x4a6, [w_CYRILLIC;w_CAPITAL;w_LETTER;w_PE;w_WITH;w_MIDDLE;w_HOOK]);
  (0x4a7, [w_CYRILLIC;w_SMALL;w_LETTER;w_PE;w_WITH;w_MIDDLE;w_HOOK]);
  (0x4a8, [w_CYRILLIC;w_CAPITAL;w_LETTER;w_ABKHASIAN;w_HA]);
  (0x4a9, [w_CYRILLIC;w_SMALL;w_LETTER;w_ABKHASIAN;w_HA]);
  (0x4aa, [w_CYRILLIC;w_CAPITAL;w_LETTER;w_ES;w_WITH;w_DESCENDER]);
  (0x4ab, [w_CYRILLIC;w_SMALL;w_LETTER;w_ES;w_WITH;w_DESCENDER]);
  (0x4ac, [w_CYRILLIC;w_CAPITAL;w_LETTER;w_TE;w_WITH;w_DESCENDER]);
  (0x4ad, [w_CYRILLIC;w_SMALL;w_LETTER;w_TE;w_WITH;w_DESCENDER]);
  (0x4ae, [w_CYRILLIC;w_CAPITAL;w_LETTER;w_STRAIGHT;w_U]);
  (0x4af, [w_CYRILLIC;w_SMALL;w_LETTER;w_STRAIGHT;w_U]);
  (0x4b0, [w_CYRILLIC;w_CAPITAL;w_LETTER;w_STRAIGHT;w_U;w_WITH;w_STROKE]);
  (0x4b1, [w_CYRILLIC;w_SMALL;w_LETTER;w_STRAIGHT;w_U;w_WITH;w_STROKE]);
  (0x4b2, [w_CYRILLIC;w_CAPITAL;w_LETTER;w_HA;w_WITH;w_DESCENDER]);
  (0x4b3, [w_CYRILLIC;w_SMALL;w_LETTER;w_HA;w_WITH;w_DESCENDER]);
  (0x4b4, [w_CYRILLIC;w_CAPITAL;w_LIGATURE;w_TE;w_TSE]);
  (0x4b5, [w_CYRILLIC;w_SMALL;w_LIGATURE;w_TE;w_TSE]);
  (0x4b6, [w_CYRILLIC;w_CAPITAL;w_LETTER;w_CHE;w_WITH;w_DESCENDER]);
  (0x4b7, [w_CYRILLIC;w_SMALL;w_LETTER;w_CHE;w_WITH;w_DESCENDER]);
  (0x4b8, [w_CYRILLIC;w_CAPITAL;w_LETTER;w_CHE;w_WITH;w_VERTICAL;w_STROKE]);
  (0x4b9, [w_CYRILLIC;w_SMALL;w_LETTER;w_CHE;w_WITH;w_VERTICAL;w_STROKE]);
  (0x4ba, [w_CYRILLIC;w_CAPITAL;w_LETTER;w_SHHA]);
  (0x4bb, [w_CYRILLIC;w_SMALL;w_LETTER;w_SHHA]);
  (0x4bc, [w_CYRILLIC;w_CAPITAL;w_LETTER;w_ABKHASIAN;w_CHE]);
  (0x4bd, [w_CYRILLIC;w_SMALL;w_LETTER;w_ABKHASIAN;w_CHE]);
  (0x4be, [w_CYRILLIC;w_CAPITAL;w_LETTER;w_ABKHASIAN;w_CHE;w_WITH;w_DESCENDER]);
  (0x4bf, [w_CYRILLIC;w_SMALL;w_LETTER;w_ABKHASIAN;w_CHE;w_WITH;w_DESCENDER]);
  (0x4c0, [w_CYRILLIC;w_LETTER;w_PALOCHKA]);
  (0x4c1, [w_CYRILLIC;w_CAPITAL;w_LETTER;w_ZHE;w_WITH;w_BREVE]);
  (0x4c2, [w_CYRILLIC;w_SMALL;w_LETTER;w_ZHE;w_WITH;w_BREVE]);
  (0x4c3, [w_CYRILLIC;w_CAPITAL;w_LETTER;w_KA;w_WITH;w_HOOK]);
  (0x4c4, [w_CYRILLIC;w_SMALL;w_LETTER;w_KA;w_WITH;w_HOOK]);
  (0x4c5, [w_CYRILLIC;w_CAPITAL;w_LETTER;w_EL;w_WITH;w_TAIL]);
  (0x4c6, [w_CYRILLIC;w_SMALL;w_LETTER;w_EL;w_WITH;w_TAIL]);
  (0x4c7, [w_CYRILLIC;w_CAPITAL;w_LETTER;w_EN;w_WITH;w_HOOK]);
  (0x4c8, [w_CYRILLIC;w_SMALL;w_LETTER;w_EN;w_WITH;w_HOOK]);
  (0x4c9, [w_CYRILLIC;w_CAPITAL;w_LETTER;w_EN;w_WITH;w_TAIL]);
  (0x4ca, [w_CYRILLIC;w_SMALL;w_LETTER;w_EN;w_WITH;w_TAIL]);
  (0x4cb, [w_CYRILLIC;w_CAPITAL;w_LETTER;w_KHAKASSIAN;w_CHE]);
  (0x4cc, [w_CYRILLIC;w_SMALL;w_LETTER;w_KHAKASSIAN;w_CHE]);
  (0x4cd, [w_CYRILLIC;w_CAPITAL;w_LETTER;w_EM;w_WITH;w_TAIL]);
  (0x4ce, [w_CYRILLIC;w_SMALL;w_LETTER;w_EM;w_WITH;w_TAIL]);
  (0x4cf, [w_CYRILLIC;w_SMALL;w_LETTER;w_PALOCHKA]);
  (0x4d0, [w_CYRILLIC;w_CAPITAL;w_LETTER;w_A;w_WITH;w_BREVE]);
  (0x4d1, [w_CYRILLIC;w_SMALL;w_LETTER;w_A;w_WITH;w_BREVE]);
  (0x4d2, [w_CYRILLIC;w_CAPITAL;w_LETTER;w_A;w_WITH;w_DIAERESIS]);
  (0x4d3, [w_CYRILLIC;w_SMALL;w_LETTER;w_A;w_WITH;w_DIAERESIS]);
  (0x4d4, [w_CYRILLIC;w_CAPITAL;w_LIGATURE;w_A;w_IE]);
  (0x4d5, [w_CYRILLIC;w_SMALL;w_LIGATURE;w_A;w_IE]);
  (0x4d6, [w_CYRILLIC;w_CAPITAL;w_LETTER;w_IE;w_WITH;w_BREVE]);
  (0x4d7, [w_CYRILLIC;w_SMALL;w_LETTER;w_IE;w_WITH;w_BREVE]);
  (0x4d8, [w_CYRILLIC;w_CAPITAL;w_LETTER;w_SCHWA]);
  (0x4d9, [w_CYRILLIC;w_SMALL;w_LETTER;w_SCHWA]);
  (0x4da, [w_CYRILLIC;w_CAPITAL;w_LETTER;w_SCHWA;w_WITH;w_DIAERESIS]);
  (0x4db, [w_CYRILLIC;w_SMALL;w_LETTER;w_SCHWA;w_WITH;w_DIAERESIS]);
  (0x4dc, [w_CYRILLIC;w_CAPITAL;w_LETTER;w_ZHE;w_WITH;w_DIAERESIS]);
  (0x4dd, [w_CYRILLIC;w_SMALL;w_LETTER;w_ZHE;w_WITH;w_DIAERESIS]);
  (0x4de, [w_CYRILLIC;w_CAPITAL;w_LETTER;w_ZE;w_WITH;w_DIAERESIS]);
  (0x4df, [w_CYRILLIC;w_SMALL;w_LETTER;w_ZE;w_WITH;w_DIAERESIS]);
  (0x4e0, [w_CYRILLIC;w_CAPITAL;w_LETTER;w_ABKHASIAN;w_DZE]);
  (0x4e1, [w_CYRILLIC;w_SMALL;w_LETTER;w_ABKHASIAN;w_DZE]);
  (0x4e2, [w_CYRILLIC;w_CAPITAL;w_LETTER;w_I;w_WITH;w_MACRON]);
  (0x4e3, [w_CYRILLIC;w_SMALL;w_LETTER;w_I;w_WITH;w_MACRON]);
  (0x4e4, [w_CYRILLIC;w_CAPITAL;w_LETTER;w_I;w_WITH;w_DIAERESIS]);
  (0x4e5, [w_CYRILLIC;w_SMALL;w_LETTER;w_I;w_WITH;w_DIAERESIS]);
  (0x4e6, [w_CYRILLIC;w_CAPITAL;w_LETTER;w_O;w_WITH;w_DIAERESIS]);
  (0x4e7, [w_CYRILLIC;w_SMALL;w_LETTER;w_O;w_WITH;w_DIAERESIS]);
  (0x4e8, [w_CYRILLIC;w_CAPITAL;w_LETTER;w_BARRED;w_O]);
  (0x4e9, [w_CYRILLIC;w_SMALL;w_LETTER;w_BARRED;w_O]);
  (0x4ea, [w_CYRILLIC;w_CAPITAL;w_LETTER;w_BARRED;w_O;w_WITH;w_DIAERESIS]);
  (0x4eb, [w_CYRILLIC;w_SMALL;w_LETTER;w_BARRED;w_O;w_WITH;w_DIAERESIS]);
  (0x4ec, [w_CYRILLIC;w_CAPITAL;w_LETTER;w_E;w_WITH;w_DIAERESIS]);
  (0x4ed, [w_CYRILLIC;w_SMALL;w_LETTER;w_E;w_WITH;w_DIAERESIS]);
  (0x4ee, [w_CYRILLIC;w_CAPITAL;w_LETTER;w_U;w_WITH;w_MACRON]);
  (0x4ef, [w_CYRILLIC;w_SMALL;w_LETTER;w_U;w_WITH;w_MACRON]);
  (0x4f0, [w_CYRILLIC;w_CAPITAL;w_LETTER;w_U;w_WITH;w_DIAERESIS]);
  (0x4f1, [w_CYRILLIC;w_SMALL;w_LETTER;w_U;w_WITH;w_DIAERESIS]);
  (0x4f2, [w_CYRILLIC;w_CAPITAL;w_LETTER;w_U;w_WITH;w_DOUBLE;w_ACUTE]);
  (0x4f3, [w_CYRILLIC;w_SMALL;w_LETTER;w_U;w_WITH;w_DOUBLE;w_ACUTE]);
  (0x4f4, [w_CYRILLIC;w_CAPITAL;w_LETTER;w_CHE;w_WITH;w_DIAERESIS]);
  (0x4f5, [w_CYRILLIC;w_SMALL;w_LETTER;w_CHE;w_WITH;w_DIAERESIS]);
  (0x4f6, [w_CYRILLIC;w_CAPITAL;w_LETTER;w_GHE;w_WITH;w_DESCENDER]);
  (0x4f7, [w_CYRILLIC;w_SMALL;w_LETTER;w_GHE;w_WITH;w_DESCENDER]);
  (0x4f8, [w_CYRILLIC;w_CAPITAL;w_LETTER;w_YERU;w_WITH;w_DIAERESIS]);
  (0x4f9, [w_CYRILLIC;w_SMALL;w_LETTER;w_YERU;w_WITH;w_DIAERESIS])].

Definition NAMES_3 : list (N * (list str)) := [
  (0x4fa, [w_CYRILLIC;w_CAPITAL;w_LETTER;w_GHE;w_WITH;w_STROKE;w_AND;w_HOOK]);
  (0x4fb, [w_CYRILLIC;w_SMALL;w_LETTER;w_GHE;w_WITH;w_STROKE;w_AND;w_HOOK]);
  (0x4fc, [w_CYRILLIC;w_CAPITAL;w_LETTER;w_HA;w_WITH;w_HOOK]);
  (0x4fd, [w_CYRILLIC;w_SMALL;w_LETTER;w_HA;w_WITH;w_HOOK]);
  (0x4fe, [w_CYRILLIC;w_CAPITAL;w_LETTER;w_HA;w_WITH;w_STROKE]);
  (0x4ff, [w_CYRILLIC;w_SMALL;w_LETTER;w_HA;w_WITH;w_STROKE]);
  (0x500, [w_CYRILLIC;w_CAPITAL;w_LETTER;w_KOMI;w_DE]);
  (0x501, [w_CYRILLIC;w_SMALL;w_LETTER;w_KOMI;w_DE]);
  (0x502, [w_CYRILLIC;w_CAPITAL;w_LETTER;w_KOMI;w_DJE]);
  (0x503, [w_CYRILLIC;w_SMALL;w_LETTER;w_KOMI;w_DJE]);
  (0x504, [w_CYRILLIC;w_CAPITAL;w_LETTER;w_KOMI;w_ZJE]);
  (0x505, [w_CYRILLIC;w_SMALL;w_LETTER;w_KOMI;w_ZJE]);
  (0x506, [w_CYRILLIC;w_CAPITAL;w_LETTER;w_KOMI;w_DZJE]);
  (0x507, [w_CYRILLIC;w_SMALL;w_LETTER;w_KOMI;w_DZJE]);
  (0x508, [w_CYRILLIC;w_CAPITAL;w_LETTER;w_KOMI;w_LJE]);
  (0x509, [w_CYRILLIC;w_SMALL;w_LETTER;w_KOMI;w_LJE]);
  (0x50a, [w_CYRILLIC;w_CAPITAL;w_LETTER;w_KOMI;w_NJE]);
  (0x50b, [w_CYRILLIC;w_SMALL;w_LETTER;w_KOMI;w_NJE]);
  (0x50c, [w_CYRILLIC;w_CAPITAL;w_LETTER;w_KOMI;w_SJE]);
  (0x50d, [w_CYRILLIC;w_SMALL;w_LETTER;w_KOMI;w_SJE]);
  (0x50e, [w_CYRILLIC;w_CAPITAL;w_LETTER;w_KOMI;w_TJE]);
  (0x50f, [w_CYRILLIC;w_SMALL;w_LETTER;w_KOMI;w_TJE]);
  (0x510, [w_CYRILLIC;w_CAPITAL;w_LETTER;w_REVERSED;w_ZE]);
  (0x511, [w_CYRILLIC;w_SMALL;w_LETTER;w_REVERSED;w_ZE]);
  (0x512, [w_CYRILLIC;w_CAPITAL;w_LETTER;w_EL;w_WITH;w_HOOK]);
  (0x513, [w_CYRILLIC;w_SMALL;w_LETTER;w_EL;w_WITH;w_HOOK]);
  (0x514, [w_CYRILLIC;w_CAPITAL;w_LETTER;w_LHA]);
  (0x515, [w_CYRILLIC;w_SMALL;w_LETTER;w_LHA]);
  (0x516, [w_CYRILLIC;w_CAPITAL;w_LETTER;w_RHA]);
  (0x517, [w_CYRILLIC;w_SMALL;w_LETTER;w_RHA]);
  (0x518, [w_CYRILLIC;w_CAPITAL;w_LETTER;w_YAE]);
  (0x519, [w_CYRILLIC;w_SMALL;w_LETTER;w_YAE]);
  (0x51a, [w_CYRILLIC;w_CAPITAL;w_LETTER;w_QA]);
  (0x51b, [w_CYRILLIC;w_SMALL;w_LETTER;w_QA]);
  (0x51c, [w_CYRILLIC;w_CAPITAL;w_LETTER;w_WE]);
  (0x51d, [w_CYRILLIC;w_SMALL;w_LETTER;w_WE]);
  (0x51e, [w_CYRILLIC;w_CAPITAL;w_LETTER;w_ALEUT;w_KA]);
  (0x51f, [w_CYRILLIC;w_SMALL;w_LETTER;w_ALEUT;w_KA]);
  (0x520, [w_CYRILLIC;w_CAPITAL;w_LETTER;w_EL;w_WITH;w_MIDDLE;w_HOOK]);
  (0x521, [w_CYRILLIC;w_SMALL;w_LETTER;w_EL;w_WITH;w_MIDDLE;w_HOOK]);
  (0x522, [w_CYRILLIC;w_CAPITAL;w_LETTER;w_EN;w_WITH;w_MIDDLE;w_HOOK]);
  (0x523, [w_CYRILLIC;w_SMALL;w_LETTER;w_EN;w_WITH;w_MIDDLE;w_HOOK]);
  (0x524, [w_CYRILLIC;w_CAPITAL;w_LETTER;w_PE;w_WITH;w_DESCENDER]);
  (0x525, [w_CYRILLIC;w_SMALL;w_LETTER;w_PE;w_WITH;w_DESCENDER]);
  (0x526, [w_CYRILLIC;w_CAPITAL;w_LETTER;w_SHHA;w_WITH;w_DESCENDER]);
  (0x527, [w_CYRILLIC;w_SMALL;w_LETTER;w_SHHA;w_WITH;w_DESCENDER]);
  (0x528, [w_CYRILLIC;w_CAPITAL;w_LETTER;w_EN;w_WITH;w_LEFT;w_HOOK]);
  (0x529, [w_CYRILLIC;w_SMALL;w_LETTER;w_EN;w_WITH;w_LEFT;w_HOOK]);
  (0x52a, [w_CYRILLIC;w_CAPITAL;w_LETTER;w_DZZHE]);
  (0x52b, [w_CYRILLIC;w_SMALL;w_LETTER;w_DZZHE]);
  (0x52c, [w_CYRILLIC;w_CAPITAL;w_LETTER;w_DCHE]);
  (0x52d, [w_CYRILLIC;w_SMALL;w_LETTER;w_DCHE]);
  (0x52e, [w_CYRILLIC;w_CAPITAL;w_LETTER;w_EL;w_WITH;w_DESCENDER]);
  (0x52f, [w_CYRILLIC;w_SMALL;w_LETTER;w_EL;w_WITH;w_DESCENDER]);
  (0x531, [w_ARMENIAN;w_CAPITAL;w_LETTER;w_AYB]);
  (0x532, [w_ARMENIAN;w_CAPITAL;w_LETTER;w_BEN]);
  (0x533, [w_ARMENIAN;w_CAPITAL;w_LETTER;w_GIM]);
  (0x534, [w_ARMENIAN;w_CAPITAL;w_LETTER;w_DA]);
  (0x535, [w_ARMENIAN;w_CAPITAL;w_LETTER;w_ECH]);
  (0x536, [w_ARMENIAN;w_CAPITAL;w_LETTER;w_ZA]);
  (0x537, [w_ARMENIAN;w_CAPITAL;w_LETTER;w_EH]);
  (0x538, [w_ARMENIAN;w_CAPITAL;w_LETTER;w_ET]);
  (0x539, [w_ARMENIAN;w_CAPITAL;w_LETTER;w_TO]);
  (0x53a, [w_ARMENIAN;w_CAPITAL;w_LETTER;w_ZHE]);
  (0x53b, [w_ARMENIAN;w_CAPITAL;w_LETTER;w_INI]);
  (0x53c, [w_ARMENIAN;w_CAPITAL;w_LETTER;w_LIWN]);
  (0x53d, [w_ARMENIAN;w_CAPITAL;w_LETTER;w_XEH]);
  (0x53e, [w_ARMENIAN;w_CAPITAL;w_LETTER;w_CA]);
  (0x53f, [w_ARMENIAN;w_CAPITAL;w_LETTER;w_KEN]);
  (0x540, [w_ARMENIAN;w_CAPITAL;w_LETTER;w_HO]);
  (0x541, [w_ARMENIAN;w_CAPITAL;w_LETTER;w_JA]);
  (0x542, [w_ARMENIAN;w_CAPITAL;w_LETTER;w_GHAD]);
  (0x543, [w_ARMENIAN;w_CAPITAL;w_LETTER;w_CHEH]);
  (0x544, [w_ARMENIAN;w_CAPITAL;w_LETTER;w_MEN]);
  (0x545, [w_ARMENIAN;w_CAPITAL;w_LETTER;w_YI]);
  (0x546, [w_ARMENIAN;w_CAPITAL;w_LETTER;w_NOW]);
  (0x547, [w_ARMENIAN;w_CAPITAL;w_LETTER;w_SHA]);
  (0x548, [w_ARMENIAN;w_CAPITAL;w_LETTER;w_VO]);
  (0x549, [w_ARMENIAN;w_CAPITAL;w_LETTER;w_CHA]);
  (0x54a, [w_ARMENIAN;w_CAPITAL;w_LETTER;w_PEH]);
  (0x54b, [w_ARMENIAN;w_CAPITAL;w_LETTER;w_JHEH]);
  (0x54c, [w_ARMENIAN;w_CAPITAL;w_LETTER;w_RA]);
  (0x54d, [w_ARMENIAN;w_CAPITAL;w_LETTER;w_SEH]);
  (0x54e, [w_ARMENIAN;w_CAPITAL;w_LETTER;w_VEW]);
  (0x54f, [w_ARMENIAN;w_CAPITAL;w_LETTER;w_TIWN]);
  (0x550, [w_ARMENIAN;w_CAPITAL;w_LETTER;w_REH]);
  (0x551, [w_ARMENIAN;w_CAPITAL;w_LETTER;w_CO]);
  (0x552, [w_ARMENIAN;w_CAPITAL;w_LETTER;w_YIWN]);
  (0x553, [w_ARMENIAN;w_CAPITAL;w_LETTER;w_PIWR]);
  (0x554, [w_ARMENIAN;w_CAPITAL;w_LETTER;w_KEH]);
  (0x555, [w_ARMENIAN;w_CAPITAL;w_LETTER;w_OH]);
  (0x556, [w_ARMENIAN;w_CAPITAL;w_LETTER;w_FEH]);
  (0x559, [w_ARMENIAN;w_MODIFIER;w_LETTER;w_LEFT;w_HALF;w_RING]);
  (0x55a, [w_ARMENIAN;w_APOSTROPHE]);
  (0x55b, [w_ARMENIAN;w_EMPHASIS;w_MARK]);
  (0x55c, [w_ARMENIAN;w_EXCLAMATION;w_MARK]);
  (0x55d, [w_ARMENIAN;w_COMMA]);
  (0x55e, [w_ARMENIAN;w_QUESTION;w_MARK]);
  (0x55f, [w_ARMENIAN;w_ABBREVIATION;w_MARK]);
  (0x561, [w_ARMENIAN;w_SMALL;w_LETTER;w_AYB]);
  (0x562, [w_ARMENIAN;w_SMALL;w_LETTER;w_BEN]);
  (0x563, [w_ARMENIAN;w_SMALL;w_LETTER;w_GIM]);
  (0x564, [w_ARMENIAN;w_SMALL;w_LETTER;w_DA]);
  (0x565, [w_ARMENIAN;w_SMALL;w_LETTER;w_ECH]);
  (0x566, [w_ARMENIAN;w_SMALL;w_LETTER;w_ZA]);
  (0x567, [w_ARMENIAN;w_SMALL;w_LETTER;w_EH]);
  (0x568, [w_ARMENIAN;w_SMALL;w_LETTER;w_ET]);
  (0x569, [w_ARMENIAN;w_SMALL;w_LETTER;w_TO]);
  (0x56a, [w_ARMENIAN;w_SMALL;w_LETTER;w_ZHE]);
  (0x56b, [w_ARMENIAN;w_SMALL;w_LETTER;w_INI]);
  (0x56c, [w_ARMENIAN;w_SMALL;w_LETTER;w_LIWN]);
  (0x56d, [w_ARMENIAN;w_SMALL;w_LETTER;w_XEH]);
  (0x56e, [w_ARMENIAN;w_SMALL;w_LETTER;w_CA]);
  (0x56f, [w_ARMENIAN;w_SMALL;w_LETTER;w_KEN]);
  (0x570, [w_ARMENIAN;w_SMALL;w_LETTER;w_HO]);
  (0x571, [w_ARMENIAN;w_SMALL;w_LETTER;w_JA]);
  (0x572, [w_ARMENIAN;w_SMALL;w_LETTER;w_GHAD]);
  (0x573, [w_ARMENIAN;w_SMALL;w_LETTER;w_CHEH]);
  (0x574, [w_ARMENIAN;w_SMALL;w_LETTER;w_MEN]);
  (0x575, [w_ARMENIAN;w_SMALL;w_LETTER;w_YI]);
  (0x576, [w_ARMENIAN;w_SMALL;w_LETTER;w_NOW]);
  (0x577, [w_ARMENIAN;w_SMALL;w_LETTER;w_SHA]);
  (0x578, [w_ARMENIAN;w_SMALL;w_LETTER;w_VO]);
  (0x579, [w_ARMENIAN;w_SMALL;w_LETTER;w_CHA]);
  (0x57a, [w_ARMENIAN;w_SMALL;w_LETTER;w_PEH]);
  (0x57b, [w_ARMENIAN;w_SMALL;w_LETTER;w_JHEH]);
  (0x57c, [w_ARMENIAN;w_SMALL;w_LETTER;w_RA]);
  (0x57d, [w_ARMENIAN;w_SMALL;w_LETTER;w_SEH]);
  (0x57e, [w_ARMENIAN;w_SMALL;w_LETTER;w_VEW]);
  (0x57f, [w_ARMENIAN;w_SMALL;w_LETTER;w_TIWN]);
  (0x580, [w_ARMENIAN;w_SMALL;w_LETTER;w_REH]);
  (0x581, [w_ARMENIAN;w_SMALL;w_LETTER;w_CO]);
  (0x582, [w_ARMENIAN;w_SMALL;w_LETTER;w_YIWN]);
  (0x583, [w_ARMENIAN;w_SMALL;w_LETTER;w_PIWR]);
  (0x584, [w_ARMENIAN;w_SMALL;w_LETTER;w_KEH]);
  (0x585, [w_ARMENIAN;w_SMALL;w_LETTER;w_OH]);
  (0x586, [w_ARMENIAN;w_SMALL;w_LETTER;w_FEH]);
  (0x587, [w_ARMENIAN;w_SMALL;w_LIGATURE;w_ECH;w_YIWN]);
  (0x589, [w_ARMENIAN;w_FULL;w_STOP]);
  (0x58a, [w_ARMENIAN;w_HYPHEN]);
  (0x58d, [w_RIGHT_FACING;w_ARMENIAN;w_ETERNITY;w_SIGN]);
  (0x58e, [w_LEFT_FACING;w_ARMENIAN;w_ETERNITY;w_SIGN]);
  (0x58f, [w_ARMENIAN;w_DRAM;w_SIGN]);
  (0x591, [w_HEBREW;w_ACCENT;w_ETNAHTA]);
  (0x592, [w_HEBREW;w_ACCENT;w_SEGOL]);
  (0x593, [w_HEBREW;w_ACCENT;w_SHALSHELET]);
  (0x594, [w_HEBREW;w_ACCENT;w_ZAQEF;w_QATAN]);
  (0x595, [w_HEBREW;w_ACCENT;w_ZAQEF;w_GADOL]);
  (0x596, [w_HEBREW;w_ACCENT;w_TIPEHA]);
  (0x597, [w_HEBREW;w_ACCENT;w_REVIA]);
  (0x598, [w_HEBREW;w_ACCENT;w_ZARQA]);
  (0x599, [w_HEBREW;w_ACCENT;w_PASHTA]);
  (0x59a, [w_HEBREW;w_ACCENT;w_YETIV]);
  (0x59b, [w_HEBREW;w_ACCENT;w_TEVIR]);
  (0x59c, [w_HEBREW;w_ACCENT;w_GERESH]);
  (0x59d, [w_HEBREW;w_ACCENT;w_GERESH;w_MUQDAM]);
  (0x59e, [w_HEBREW;w_ACCENT;w_GERSHAYIM]);
  (0x59f, [w_HEBREW;w_ACCENT;w_QARNEY;w_PARA]);
  (0x5a0, [w_HEBREW;w_ACCENT;w_TELISHA;w_GEDOLA]);
  (0x5a1, [w_HEBREW;w_ACCENT;w_PAZER]);
  (0x5a2, [w_HEBREW;w_ACCENT;w_ATNAH;w_HAFUKH]);
  (0x5a3, [w_HEBREW;w_ACCENT;w_MUNAH]);
  (0x5a4, [w_HEBREW;w_ACCENT;w_MAHAPAKH]);
  (0x5a5, [w_HEBREW;w_ACCENT;w_MERKHA]);
  (0x5a6, [w_HEBREW;w_ACCENT;w_MERKHA;w_KEFULA]);
  (0x5a7, [w_HEBREW;w_ACCENT;w_DARGA]);
  (0x5a8, [w_HEBREW;w_ACCENT;w_QADMA]);
  (0x5a9, [w_HEBREW;w_ACCENT;w_TELISHA;w_QETANA]);
  (0x5aa, [w_HEBREW;w_ACCENT;w_YERAH;w_BEN;w_YOMO]);
  (0x5ab, [w_HEBREW;w_ACCENT;w_OLE]);
  (0x5ac, [w_HEBREW;w_ACCENT;w_ILUY]);
  (0x5ad, [w_HEBREW;w_ACCENT;w_DEHI]);
  (0x5ae, [w_HEBREW;w_ACCENT;w_ZINOR]);
  (0x5af, [w_HEBREW;w_MARK;w_MASORA;w_CIRCLE]);
  (0x5b0, [w_HEBREW;w_POINT;w_SHEVA]);
  (0x5b1, [w_HEBREW;w_POINT;w_HATAF;w_SEGOL]);
  (0x5b2, [w_HEBREW;w_POINT;w_HATAF;w_PATAH]);
  (0x5b3, [w_HEBREW;w_POINT;w_HATAF;w_QAMATS]);
  (0x5b4, [w_HEBREW;w_POINT;w_HIRIQ]);
  (0x5b5, [w_HEBREW;w_POINT;w_TSERE]);
  (0x5b6, [w_HEBREW;w_POINT;w_SEGOL]);
  (0x5b7, [w_HEBREW;w_POINT;w_PATAH]);
  (0x5b8, [w_HEBREW;w_POINT;w_QAMATS]);
  (0x5b9, [w_HEBREW;w_POINT;w_HOLAM]);
  (0x5ba, [w_HEBREW;w_POINT;w_HOLAM;w_HASER;w_FOR;w_VAV]);
  (0x5bb, [w_HEBREW;w_POINT;w_QUBUTS]);
  (0x5bc, [w_HEBREW;w_POINT;w_DAGESH;w_OR;w_MAPIQ]);
  (0x5bd, [w_HEBREW;w_POINT;w_METEG]);
  (0x5be, [w_HEBREW;w_PUNCTUATION;w_MAQAF]);
  (0x5bf, [w_HEBREW;w_POINT;w_RAFE]);
  (0x5c0, [w_HEBREW;w_PUNCTUATION;w_PASEQ]);
  (0x5c1, [w_HEBREW;w_POINT;w_SHIN;w_DOT]);
  (0x5c2, [w_HEBREW;w_POINT;w_SIN;w_DOT]);
  (0x5c3, [w_HEBREW;w_PUNCTUATION;w_SOF;w_PASUQ]);
  (0x5c4, [w_HEBREW;w_MARK;w_UPPER;w_DOT]);
  (0x5c5, [w_HEBREW;w_MARK;w_LOWER;w_DOT]);
  (0x5c6, [w_HEBREW;w_PUNCTUATION;w_NUN;w_HAFUKHA]);
  (0x5c7, [w_HEBREW;w_POINT;w_QAMATS;w_QATAN]);
  (0x5d0, [w_HEBREW;w_LETTER;w_ALEF]);
  (0x5d1, [w_HEBREW;w_LETTER;w_BET]);
  (0x5d2, [w_HEBREW;w_LETTER;w_GIMEL]);
  (0x5d3, [w_HEBREW;w_LETTER;w_DALET]);
  (0x5d4, [w_HEBREW;w_LETTER;w_HE]);
  (0x5d5, [w_HEBREW;w_LETTER;w_VAV]);
  (0x5d6, [w_HEBREW;w_LETTER;w_ZAYIN]);
  (0x5d7, [w_HEBREW;w_LETTER;w_HET]);
  (0x5d8, [w_HEBREW;w_LETTER;w_TET]);
  (0x5d9, [w_HEBREW;w_LETTER;w_YOD]);
  (0x5da, [w_HEBREW;w_LETTER;w_FINAL;w_KAF]);
  (0x5db, [w_HEBREW;w_LETTER;w_KAF]);
  (0x5dc, [w_HEBREW;w_LETTER;w_LAMED]);
  (0x5dd, [w_HEBREW;w_LETTER;w_FINAL;w_MEM]);
  (0x5de, [w_HEBREW;w_LETTER;w_MEM]);
  (0x5df, [w_HEBREW;w_LETTER;w_FINAL;w_NUN]);
  (0x5e0, [w_HEBREW;w_LETTER;w_NUN]);
  (0x5e1, [w_HEBREW;w_LETTER;w_SAMEKH]);
  (0x5e2, [w_HEBREW;w_LETTER;w_AYIN]);
  (0x5e3, [w_HEBREW;w_LETTER;w_FINAL;w_PE]);
  (0x5e4, [w_HEBREW;w_LETTER;w_PE]);
  (0x5e5, [w_HEBREW;w_LETTER;w_FINAL;w_TSADI]);
  (0x5e6, [w_HEBREW;w_LETTER;w_TSADI]);
  (0x5e7, [w_HEBREW;w_LETTER;w_QOF]);
  (0x5e8, [w_HEBREW;w_LETTER;w_RESH]);
  (0x5e9, [w_HEBREW;w_LETTER;w_SHIN]);
  (0x5ea, [w_HEBREW;w_LETTER;w_TAV]);
  (0x5f0, [w_HEBREW;w_LIGATURE;w_YIDDISH;w_DOUBLE;w_VAV]);
  (0x5f1, [w_HEBREW;w_LIGATURE;w_YIDDISH;w_VAV;w_YOD]);
  (0x5f2, [w_HEBREW;w_LIGATURE;w_YIDDISH;w_DOUBLE;w_YOD]);
  (0x5f3, [w_HEBREW;w_PUNCTUATION;w_GERESH]);
  (0x5f4, [w_HEBREW;w_PUNCTUATION;w_GERSHAYIM]);
  (0x600, [w_ARABIC;w_NUMBER;w_SIGN]);
  (0x601, [w_ARABIC;w_SIGN;w_SANAH]);
  (0x602, [w_ARABIC;w_FOOTNOTE;w_MARKER]);
  (0x603, [w_ARABIC;w_SIGN;w_SAFHA]);
  (0x604, [w_ARABIC;w_SIGN;w_SAMVAT]);
  (0x605, [w_ARABIC;w_NUMBER;w_MARK;w_ABOVE]);
  (0x606, [w_ARABIC_INDIC;w_CUBE;w_ROOT]);
  (0x607, [w_ARABIC_INDIC;w_FOURTH;w_ROOT]);
  (0x608, [w_ARABIC;w_RAY]);
  (0x609, [w_ARABIC_INDIC;w_PER;w_MILLE;w_SIGN]);
  (0x60a, [w_ARABIC_INDIC;w_PER;w_TEN;w_THOUSAND;w_SIGN]);
  (0x60b, [w_AFGHANI;w_SIGN]);
  (0x60c, [w_ARABIC;w_COMMA]);
  (0x60d, [w_ARABIC;w_DATE;w_SEPARATOR]);
  (0x60e, [w_ARABIC;w_POETIC;w_VERSE;w_SIGN]);
  (0x60f, [w_ARABIC;w_SIGN;w_MISRA]);
  (0x610, [w_ARABIC;w_SIGN;w_SALLALLAHOU;w_ALAYHE;w_WASSALLAM]);
  (0x611, [w_ARABIC;w_SIGN;w_ALAYHE;w_ASSALLAM]);
  (0x612, [w_ARABIC;w_SIGN;w_RAHMATULLAH;w_ALAYHE]);
  (0x613, [w_ARABIC;w_SIGN;w_RADI;w_ALLAHOU;w_ANHU]);
  (0x614, [w_ARABIC;w_SIGN;w_TAKHALLUS]);
  (0x615, [w_ARABIC;w_SMALL;w_HIGH;w_TAH]);
  (0x616, [w_ARABIC;w_SMALL;w_HIGH;w_LIGATURE;w_ALEF;w_WITH;w_LAM;w_WITH;w_YEH]);
  (0x617, [w_ARABIC;w_SMALL;w_HIGH;w_ZAIN]);
  (0x618, [w_ARABIC;w_SMALL;w_FATHA]);
  (0x619, [w_ARABIC;w_SMALL;w_DAMMA]);
  (0x61a, [w_ARABIC;w_SMALL;w_KASRA]);
  (0x61b, [w_ARABIC;w_SEMICOLON]);
  (0x61c, [w_ARABIC;w_LETTER;w_MARK]);
  (0x61e, [w_ARABIC;w_TRIPLE;w_DOT;w_PUNCTUATION;w_MARK]);
  (0x61f, [w_ARABIC;w_QUESTION;w_MARK]);
  (0x620, [w_ARABIC;w_LETTER;w_KASHMIRI;w_YEH]);
  (0x621, [w_ARABIC;w_LETTER;w_HAMZA]);
  (0x622, [w_ARABIC;w_LETTER;w_ALEF;w_WITH;w_MADDA;w_ABOVE]);
  (0x623, [w_ARABIC;w_LETTER;w_ALEF;w_WITH;w_HAMZA;w_ABOVE]);
  (0x624, [w_ARABIC;w_LETTER;w_WAW;w_WITH;w_HAMZA;w_ABOVE]);
  (0x625, [w_ARABIC;w_LETTER;w_ALEF;w_WITH;w_HAMZA;w_BELOW]);
  (0x626, [w_ARABIC;w_LETTER;w_YEH;w_WITH;w_HAMZA;w_ABOVE]);
  (0x627, [w_ARABIC;w_LETTER;w_ALEF]);
  (0x628, [w_ARABIC;w_LETTER;w_BEH]);
  (0x629, [w_ARABIC;w_LETTER;w_TEH;w_MARBUTA]);
  (0x62a, [w_ARABIC;w_LETTER;w_TEH]);
  (0x62b, [w_ARABIC;w_LETTER;w_THEH]);
  (0x62c, [w_ARABIC;w_LETTER;w_JEEM]);
  (0x62d, [w_ARABIC;w_LETTER;w_HAH]);
  (0x62e, [w_ARABIC;w_LETTER;w_KHAH]);
  (0x62f, [w_ARABIC;w_LETTER;w_DAL]);
  (0x630, [w_ARABIC;w_LETTER;w_THAL]);
  (0x631, [w_ARABIC;w_LETTER;w_REH]);
  (0x632, [w_ARABIC;w_LETTER;w_ZAIN]);
  (0x633, [w_ARABIC;w_LETTER;w_SEEN]);
  (0x634, [w_ARABIC;w_LETTER;w_SHEEN]);
  (0x635, [w_ARABIC;w_LETTER;w_SAD]);
  (0x636, [w_ARABIC;w_LETTER;w_DAD]);
  (0x637, [w_ARABIC;w_LETTER;w_TAH]);
  (0x638, [w_ARABIC;w_LETTER;w_ZAH]);
  (0x639, [w_ARABIC;w_LETTER;w_AIN]);
  (0x63a, [w_ARABIC;w_LETTER;w_GHAIN]);
  (0x63b, [w_ARABIC;w_LETTER;w_KEHEH;w_WITH;w_TWO;w_DOTS;w_ABOVE]);
  (0x63c, [w_ARABIC;w_LETTER;w_KEHEH;w_WITH;w_THREE;w_DOTS;w_BELOW]);
  (0x63d, [w_ARABIC;w_LETTER;w_FARSI;w_YEH;w_WITH;w_INVERTED;w_V]);
  (0x63e, [w_ARABIC;w_LETTER;w_FARSI;w_YEH;w_WITH;w_TWO;w_DOTS;w_ABOVE]);
  (0x63f, [w_ARABIC;w_LETTER;w_FARSI;w_YEH;w_WITH;w_THREE;w_DOTS;w_ABOVE]);
  (0x640, [w_ARABIC;w_TATWEEL]);
  (0x641, [w_ARABIC;w_LETTER;w_FEH]);
  (0x642, [w_ARABIC;w_LETTER;w_QAF]);
  (0x643, [w_ARABIC;w_LETTER;w_KAF]);
  (0x644, [w_ARABIC;w_LETTER;w_LAM]);
  (0x645, [w_ARABIC;w_LETTER;w_MEEM]);
  (0x646, [w_ARABIC;w_LETTER;w_NOON]);
  (0x647, [w_ARABIC;w_LETTER;w_HEH]);
  (0x648, [w_ARABIC;w_LETTER;w_WAW]);
  (0x649, [w_ARABIC;w_LETTER;w_ALEF;w_MAKSURA]);
  (0x64a, [w_ARABIC;w_LETTER;w_YEH]);
  (0x64b, [w_ARABIC;w_FATHATAN]);
  (0x64c, [w_ARABIC;w_DAMMATAN]);
  (0x64d, [w_ARABIC;w_KASRATAN]);
  (0x64e, [w_ARABIC;w_FATHA]);
  (0x64f, [w_ARABIC;w_DAMMA]);
  (0x650, [w_ARABIC;w_KASRA]);
  (0x651, [w_ARABIC;w_SHADDA]);
  (0x652, [w_ARABIC;w_SUKUN]);
  (0x653, [w_ARABIC;w_MADDAH;w_ABOVE]);
  (0x654, [w_ARABIC;w_HAMZA;w_ABOVE]);
  (0x655, [w_ARABIC;w_HAMZA;w_BELOW]);
  (0x656, [w_ARABIC;w_SUBSCRIPT;w_ALEF]);
  (0x657, [w_ARABIC;w_INVERTED;w_DAMMA]);
  (0x658, [w_ARABIC;w_MARK;w_NOON;w_GHUNNA]);
  (0x659, [w_ARABIC;w_ZWARAKAY]);
  (0x65a, [w_ARABIC;w_VOWEL;w_SIGN;w_SMALL;w_V;w_ABOVE]);
  (0x65b, [w_ARABIC;w_VOWEL;w_SIGN;w_INVERTED;w_SMALL;w_V;w_ABOVE]);
  (0x65c, [w_ARABIC;w_VOWEL;w_SIGN;w_DOT;w_BELOW]);
  (0x65d, [w_ARABIC;w_REVERSED;w_DAMMA]);
  (0x65e, [w_ARABIC;w_FATHA;w_WITH;w_TWO;w_DOTS]);
  (0x65f, [w_ARABIC;w_WAVY;w_HAMZA;w_BELOW]);
  (0x660, [w_ARABIC_INDIC;w_DIGIT;w_ZERO]);
  (0x661, [w_ARABIC_INDIC;w_DIGIT;w_ONE]);
  (0x662, [w_ARABIC_INDIC;w_DIGIT;w_TWO]);
  (0x663, [w_ARABIC_INDIC;w_DIGIT;w_THREE]);
  (0x664, [w_ARABIC_INDIC;w_DIGIT;w_FOUR]);
  (0x665, [w_ARABIC_INDIC;w_DIGIT;w_FIVE]);
  (0x666, [w_ARABIC_INDIC;w_DIGIT;w_SIX]);
  (0x667, [w_ARABIC_INDIC;w_DIGIT;w_SEVEN]);
  (0x668, [w_ARABIC_INDIC;w_DIGIT;w_EIGHT]);
  (0x669, [w_ARABIC_INDIC;w_DIGIT;w_NINE]);
  (0x66a, [w_ARABIC;w_PERCENT;w_SIGN]);
  (0x66b, [w_ARABIC;w_DECIMAL;w_SEPARATOR]);
  (0x66c, [w_ARABIC;w_THOUSANDS;w_SEPARATOR]);
  (0x66d, [w_ARABIC;w_FIVE;w_POINTED;w_STAR]);
  (0x66e, [w_ARABIC;w_LETTER;w_DOTLESS;w_BEH]);
  (0x66f, [w_ARABIC;w_LETTER;w_DOTLESS;w_QAF]);
  (0x670, [w_ARABIC;w_LETTER;w_SUPERSCRIPT;w_ALEF]);
  (0x671, [w_ARABIC;w_LETTER;w_ALEF;w_WASLA]);
  (0x672, [w_ARABIC;w_LETTER;w_ALEF;w_WITH;w_WAVY;w_HAMZA;w_ABOVE]);
  (0x673, [w_ARABIC;w_LETTER;w_ALEF;w_WITH;w_WAVY;w_HAMZA;w_BELOW]);
  (0x674, [w_ARABIC;w_LETTER;w_HIGH;w_HAMZA]);
  (0x675, [w_ARABIC;w_LETTER;w_HIGH;w_HAMZA;w_ALEF]);
  (0x676, [w_ARABIC;w_LETTER;w_HIGH;w_HAMZA;w_WAW]);
  (0x677, [w_ARABIC;w_LETTER;w_U;w_WITH;w_HAMZA;w_ABOVE]);
  (0x678, [w_ARABIC;w_LETTER;w_HIGH;w_HAMZA;w_YEH]);
  (0x679, [w_ARABIC;w_LETTER;w_TTEH]);
  (0x67a, [w_ARABIC;w_LETTER;w_TTEHEH]);
  (0x67b, [w_ARABIC;w_LETTER;w_BEEH]);
  (0x67c, [w_ARABIC;w_LETTER;w_TEH;w_WITH;w_RING]);
  (0x67d, [w_ARABIC;w_LETTER;w_TEH;w_WITH;w_THREE;w_DOTS;w_ABOVE;w_DOWNWARDS]);
  (0x67e, [w_ARABIC;w_LETTER;w_PEH]);
  (0x67f, [w_ARABIC;w_LETTER;w_TEHEH]);
  (0x680, [w_ARABIC;w_LETTER;w_BEHEH]);
  (0x681, [w_ARABIC;w_LETTER;w_HAH;w_WITH;w_HAMZA;w_ABOVE]);
  (0x682, [w_ARABIC;w_LETTER;w_HAH;w_WITH;w_TWO;w_DOTS;w_VERTICAL;w_ABOVE]);
  (0x683, [w_ARABIC;w_LETTER;w_NYEH]);
  (0x684, [w_ARABIC;w_LETTER;w_DYEH]);
  (0x685, [w_ARABIC;w_LETTER;w_HAH;w_WITH;w_THREE;w_DOTS;w_ABOVE]);
  (0x686, [w_ARABIC;w_LETTER;w_TCHEH]);
  (0x687, [w_ARABIC;w_LETTER;w_TCHEHEH]);
  (0x688, [w_ARABIC;w_LETTER;w_DDAL]);
  (0x689, [w_ARABIC;w_LETTER;w_DAL;w_WITH;w_RING]);
  (0x68a, [w_ARABIC;w_LETTER;w_DAL;w_WITH;w_DOT;w_BELOW]);
  (0x68b, [w_ARABIC;w_LETTER;w_DAL;w_WITH;w_DOT;w_BELOW;w_AND;w_SMALL;w_TAH]);
  (0x68c, [w_ARABIC;w_LETTER;w_DAHAL]);
  (0x68d, [w_ARABIC;w_LETTER;w_DDAHAL]);
  (0x68e, [w_ARABIC;w_LETTER;w_DUL]);
  (0x68f, [w_ARABIC;w_LETTER;w_DAL;w_WITH;w_THREE;w_DOTS;w_ABOVE;w_DOWNWARDS]);
  (0x690, [w_ARABIC;w_LETTER;w_DAL;w_WITH;w_FOUR;w_DOTS;w_ABOVE]);
  (0x691, [w_ARABIC;w_LETTER;w_RREH]);
  (0x692, [w_ARABIC;w_LETTER;w_REH;w_WITH;w_SMALL;w_V]);
  (0x693, [w_ARABIC;w_LETTER;w_REH;w_WITH;w_RING]);
  (0x694, [w_ARABIC;w_LETTER;w_REH;w_WITH;w_DOT;w_BELOW]);
  (0x695, [w_ARABIC;w_LETTER;w_REH;w_WITH;w_SMALL;w_V;w_BELOW]);
  (0x696, [w_ARABIC;w_LETTER;w_REH;w_WITH;w_DOT;w_BELOW;w_AND;w_DOT;w_ABOVE]);
  (0x697, [w_ARABIC;w_LETTER;w_REH;w_WITH;w_TWO;w_DOTS;w_ABOVE]);
  (0x698, [w_ARABIC;w_LETTER;w_JEH]);
  (0x699, [w_ARABIC;w_LETTER;w_REH;w_WITH;w_FOUR;w_DOTS;w_ABOVE]);
  (0x69a, [w_ARABIC;w_LETTER;w_SEEN;w_WITH;w_DOT;w_BELOW;w_AND;w_DOT;w_ABOVE]);
  (0x69b, [w_ARABIC;w_LETTER;w_SEEN;w_WITH;w_THREE;w_DOTS;w_BELOW]);
  (0x69c, [w_ARABIC;w_LETTER;w_SEEN;w_WITH;w_THREE;w_DOTS;w_BELOW;w_AND;w_THREE;w_DOTS;w_ABOVE]);
  (0x69d, [w_ARABIC;w_LETTER;w_SAD;w_WITH;w_TWO;w_DOTS;w_BELOW]);
  (0x69e, [w_ARABIC;w_LETTER;w_SAD;w_WITH;w_THREE;w_DOTS;w_ABOVE]);
  (0x69f, [w_ARABIC;w_LETTER;w_TAH;w_WITH;w_THREE;w_DOTS;w_ABOVE]);
  (0x6a0, [w_ARABIC;w_LETTER;w_AIN;w_WITH;w_THREE;w_DOTS;w_ABOVE]);
  (0x6a1, [w_ARABIC;w_LETTER;w_DOTLESS;w_FEH]);
  (0x6a2, [w_ARABIC;w_LETTER;w_FEH;w_WITH;w_DOT;w_MOVED;w_BELOW]);
  (0x6a3, [w_ARABIC;w_LETTER;w_FEH;w_WITH;w_DOT;w_BELOW]);
  (0x6a4, [w_ARABIC;w_LETTER;w_VEH]);
  (0x6a5, [w_ARABIC;w_LETTER;w_FEH;w_WITH;w_THREE;w_DOTS;w_BELOW]);
  (0x6a6, [w_ARABIC;w_LETTER;w_PEHEH]);
  (0x6a7, [w_ARABIC;w_LETTER;w_QAF;w_WITH;w_DOT;w_ABOVE]);
  (0x6a8, [w_ARABIC;w_LETTER;w_QAF;w_WITH;w_THREE;w_DOTS;w_ABOVE]);
  (0x6a9, [w_ARABIC;w_LETTER;w_KEHEH]);
  (0x6aa, [w_ARABIC;w_LETTER;w_SWASH;w_KAF])].

Definition NAMES_4 : list (N * (list str)) := [
  (0x6ab, [w_ARABIC;w_LETTER;w_KAF;w_WITH;w_RING]);
  (0x6ac, [w_ARABIC;w_LETTER;w_KAF;w_WITH;w_DOT;w_ABOVE]);
  (0x6ad, [w_ARABIC;w_LETTER;w_NG]);
  (0x6ae, [w_ARABIC;w_LETTER;w_KAF;w_WITH;w_THREE;w_DOTS;w_BELOW]);
  (0x6af, [w_ARABIC;w_LETTER;w_GAF]);
  (0x6b0, [w_ARABIC;w_LETTER;w_GAF;w_WITH;w_RING]);
  (0x6b1, [w_ARABIC;w_LETTER;w_NGOEH]);
  (0x6b2, [w_ARABIC;w_LETTER;w_GAF;w_WITH;w_TWO;w_DOTS;w_BELOW]);
  (0x6b3, [w_ARABIC;w_LETTER;w_GUEH]);
  (0x6b4, [w_ARABIC;w_LETTER;w_GAF;w_WITH;w_THREE;w_DOTS;w_ABOVE]);
  (0x6b5, [w_ARABIC;w_LETTER;w_LAM;w_WITH;w_SMALL;w_V]);
  (0x6b6, [w_ARABIC;w_LETTER;w_LAM;w_WITH;w_DOT;w_ABOVE]);
  (0x6b7, [w_ARABIC;w_LETTER;w_LAM;w_WITH;w_THREE;w_DOTS;w_ABOVE]);
  (0x6b8, [w_ARABIC;w_LETTER;w_LAM;w_WITH;w_THREE;w_DOTS;w_BELOW]);
  (0x6b9, [w_ARABIC;w_LETTER;w_NOON;w_WITH;w_DOT;w_BELOW]);
  (0x6ba, [w_ARABIC;w_LETTER;w_NOON;w_GHUNNA]);
  (0x6bb, [w_ARABIC;w_LETTER;w_RNOON]);
  (0x6bc, [w_ARABIC;w_LETTER;w_NOON;w_WITH;w_RING]);
  (0x6bd, [w_ARABIC;w_LETTER;w_NOON;w_WITH;w_THREE;w_DOTS;w_ABOVE]);
  (0x6be, [w_ARABIC;w_LETTER;w_HEH;w_DOACHASHMEE]);
  (0x6bf, [w_ARABIC;w_LETTER;w_TCHEH;w_WITH;w_DOT;w_ABOVE]);
  (0x6c0, [w_ARABIC;w_LETTER;w_HEH;w_WITH;w_YEH;w_ABOVE]);
  (0x6c1, [w_ARABIC;w_LETTER;w_HEH;w_GOAL]);
  (0x6c2, [w_ARABIC;w_LETTER;w_HEH;w_GOAL;w_WITH;w_HAMZA;w_ABOVE]);
  (0x6c3, [w_ARABIC;w_LETTER;w_TEH;w_MARBUTA;w_GOAL]);
  (0x6c4, [w_ARABIC;w_LETTER;w_WAW;w_WITH;w_RING]);
  (0x6c5, [w_ARABIC;w_LETTER;w_KIRGHIZ;w_OE]);
  (0x6c6, [w_ARABIC;w_LETTER;w_OE]);
  (0x6c7, [w_ARABIC;w_LETTER;w_U]);
  (0x6c8, [w_ARABIC;w_LETTER;w_YU]);
  (0x6c9, [w_ARABIC;w_LETTER;w_KIRGHIZ;w_YU]);
  (0x6ca, [w_ARABIC;w_LETTER;w_WAW;w_WITH;w_TWO;w_DOTS;w_ABOVE]);
  (0x6cb, [w_ARABIC;w_LETTER;w_VE]);
  (0x6cc, [w_ARABIC;w_LETTER;w_FARSI;w_YEH]);
  (0x6cd, [w_ARABIC;w_LETTER;w_YEH;w_WITH;w_TAIL]);
  (0x6ce, [w_ARABIC;w_LETTER;w_YEH;w_WITH;w_SMALL;w_V]);
  (0x6cf, [w_ARABIC;w_LETTER;w_WAW;w_WITH;w_DOT;w_ABOVE]);
  (0x6d0, [w_ARABIC;w_LETTER;w_E]);
  (0x6d1, [w_ARABIC;w_LETTER;w_YEH;w_WITH;w_THREE;w_DOTS;w_BELOW]);
  (0x6d2, [w_ARABIC;w_LETTER;w_YEH;w_BARREE]);
  (0x6d3, [w_ARABIC;w_LETTER;w_YEH;w_BARREE;w_WITH;w_HAMZA;w_ABOVE]);
  (0x6d4, [w_ARABIC;w_FULL;w_STOP]);
  (0x6d5, [w_ARABIC;w_LETTER;w_AE]);
  (0x6d6, [w_ARABIC;w_SMALL;w_HIGH;w_LIGATURE;w_SAD;w_WITH;w_LAM;w_WITH;w_ALEF;w_MAKSURA]);
  (0x6d7, [w_ARABIC;w_SMALL;w_HIGH;w_LIGATURE;w_QAF;w_WITH;w_LAM;w_WITH;w_ALEF;w_MAKSURA]);
  (0x6d8, [w_ARABIC;w_SMALL;w_HIGH;w_MEEM;w_INITIAL;w_FORM]);
  (0x6d9, [w_ARABIC;w_SMALL;w_HIGH;w_LAM;w_ALEF]);
  (0x6da, [w_ARABIC;w_SMALL;w_HIGH;w_JEEM]);
  (0x6db, [w_ARABIC;w_SMALL;w_HIGH;w_THREE;w_DOTS]);
  (0x6dc, [w_ARABIC;w_SMALL;w_HIGH;w_SEEN]);
  (0x6dd, [w_ARABIC;w_END;w_OF;w_AYAH]);
  (0x6de, [w_ARABIC;w_START;w_OF;w_RUB;w_EL;w_HIZB]);
  (0x6df, [w_ARABIC;w_SMALL;w_HIGH;w_ROUNDED;w_ZERO]);
  (0x6e0, [w_ARABIC;w_SMALL;w_HIGH;w_UPRIGHT;w_RECTANGULAR;w_ZERO]);
  (0x6e1, [w_ARABIC;w_SMALL;w_HIGH;w_DOTLESS;w_HEAD;w_OF;w_KHAH]);
  (0x6e2, [w_ARABIC;w_SMALL;w_HIGH;w_MEEM;w_ISOLATED;w_FORM]);
  (0x6e3, [w_ARABIC;w_SMALL;w_LOW;w_SEEN]);
  (0x6e4, [w_ARABIC;w_SMALL;w_HIGH;w_MADDA]);
  (0x6e5, [w_ARABIC;w_SMALL;w_WAW]);
  (0x6e6, [w_ARABIC;w_SMALL;w_YEH]);
  (0x6e7, [w_ARABIC;w_SMALL;w_HIGH;w_YEH]);
  (0x6e8, [w_ARABIC;w_SMALL;w_HIGH;w_NOON]);
  (0x6e9, [w_ARABIC;w_PLACE;w_OF;w_SAJDAH]);
  (0x6ea, [w_ARABIC;w_EMPTY;w_CENTRE;w_LOW;w_STOP]);
  (0x6eb, [w_ARABIC;w_EMPTY;w_CENTRE;w_HIGH;w_STOP]);
  (0x6ec, [w_ARABIC;w_ROUNDED;w_HIGH;w_STOP;w_WITH;w_FILLED;w_CENTRE]);
  (0x6ed, [w_ARABIC;w_SMALL;w_LOW;w_MEEM]);
  (0x6ee, [w_ARABIC;w_LETTER;w_DAL;w_WITH;w_INVERTED;w_V]);
  (0x6ef, [w_ARABIC;w_LETTER;w_REH;w_WITH;w_INVERTED;w_V]);
  (0x6f0, [w_EXTENDED;w_ARABIC_INDIC;w_DIGIT;w_ZERO]);
  (0x6f1, [w_EXTENDED;w_ARABIC_INDIC;w_DIGIT;w_ONE]);
  (0x6f2, [w_EXTENDED;w_ARABIC_INDIC;w_DIGIT;w_TWO]);
  (0x6f3, [w_EXTENDED;w_ARABIC_INDIC;w_DIGIT;w_THREE]);
  (0x6f4, [w_EXTENDED;w_ARABIC_INDIC;w_DIGIT;w_FOUR]);
  (0x6f5, [w_EXTENDED;w_ARABIC_INDIC;w_DIGIT;w_FIVE]);
  (0x6f6, [w_EXTENDED;w_ARABIC_INDIC;w_DIGIT;w_SIX]);
  (0x6f7, [w_EXTENDED;w_ARABIC_INDIC;w_DIGIT;w_SEVEN]);
  (0x6f8, [w_EXTENDED;w_ARABIC_INDIC;w_DIGIT;w_EIGHT]);
  (0x6f9, [w_EXTENDED;w_ARABIC_INDIC;w_DIGIT;w_NINE]);
  (0x6fa, [w_ARABIC;w_LETTER;w_SHEEN;w_WITH;w_DOT;w_BELOW]);
  (0x6fb, [w_ARABIC;w_LETTER;w_DAD;w_WITH;w_DOT;w_BELOW]);
  (0x6fc, [w_ARABIC;w_LETTER;w_GHAIN;w_WITH;w_DOT;w_BELOW]);
  (0x6fd, [w_ARABIC;w_SIGN;w_SINDHI;w_AMPERSAND]);
  (0x6fe, [w_ARABIC;w_SIGN;w_SINDHI;w_POSTPOSITION;w_MEN]);
  (0x6ff, [w_ARABIC;w_LETTER;w_HEH;w_WITH;w_INVERTED;w_V]);
  (0x700, [w_SYRIAC;w_END;w_OF;w_PARAGRAPH]);
  (0x701, [w_SYRIAC;w_SUPRALINEAR;w_FULL;w_STOP]);
  (0x702, [w_SYRIAC;w_SUBLINEAR;w_FULL;w_STOP]);
  (0x703, [w_SYRIAC;w_SUPRALINEAR;w_COLON]);
  (0x704, [w_SYRIAC;w_SUBLINEAR;w_COLON]);
  (0x705, [w_SYRIAC;w_HORIZONTAL;w_COLON]);
  (0x706, [w_SYRIAC;w_COLON;w_SKEWED;w_LEFT]);
  (0x707, [w_SYRIAC;w_COLON;w_SKEWED;w_RIGHT]);
  (0x708, [w_SYRIAC;w_SUPRALINEAR;w_COLON;w_SKEWED;w_LEFT]);
  (0x709, [w_SYRIAC;w_SUBLINEAR;w_COLON;w_SKEWED;w_RIGHT]);
  (0x70a, [w_SYRIAC;w_CONTRACTION]);
  (0x70b, [w_SYRIAC;w_HARKLEAN;w_OBELUS]);
  (0x70c, [w_SYRIAC;w_HARKLEAN;w_METOBELUS]);
  (0x70d, [w_SYRIAC;w_HARKLEAN;w_ASTERISCUS]);
  (0x70f, [w_SYRIAC;w_ABBREVIATION;w_MARK]);
  (0x710, [w_SYRIAC;w_LETTER;w_ALAPH]);
  (0x711, [w_SYRIAC;w_LETTER;w_SUPERSCRIPT;w_ALAPH]);
  (0x712, [w_SYRIAC;w_LETTER;w_BETH]);
  (0x713, [w_SYRIAC;w_LETTER;w_GAMAL]);
  (0x714, [w_SYRIAC;w_LETTER;w_GAMAL;w_GARSHUNI]);
  (0x715, [w_SYRIAC;w_LETTER;w_DALATH]);
  (0x716, [w_SYRIAC;w_LETTER;w_DOTLESS;w_DALATH;w_RISH]);
  (0x717, [w_SYRIAC;w_LETTER;w_HE]);
  (0x718, [w_SYRIAC;w_LETTER;w_WAW]);
  (0x719, [w_SYRIAC;w_LETTER;w_ZAIN]);
  (0x71a, [w_SYRIAC;w_LETTER;w_HETH]);
  (0x71b, [w_SYRIAC;w_LETTER;w_TETH]);
  (0x71c, [w_SYRIAC;w_LETTER;w_TETH;w_GARSHUNI]);
  (0x71d, [w_SYRIAC;w_LETTER;w_YUDH]);
  (0x71e, [w_SYRIAC;w_LETTER;w_YUDH;w_HE]);
  (0x71f, [w_SYRIAC;w_LETTER;w_KAPH]);
  (0x720, [w_SYRIAC;w_LETTER;w_LAMADH]);
  (0x721, [w_SYRIAC;w_LETTER;w_MIM]);
  (0x722, [w_SYRIAC;w_LETTER;w_NUN]);
  (0x723, [w_SYRIAC;w_LETTER;w_SEMKATH]);
  (0x724, [w_SYRIAC;w_LETTER;w_FINAL;w_SEMKATH]);
  (0x725, [w_SYRIAC;w_LETTER;w_E]);
  (0x726, [w_SYRIAC;w_LETTER;w_PE]);
  (0x727, [w_SYRIAC;w_LETTER;w_REVERSED;w_PE]);
  (0x728, [w_SYRIAC;w_LETTER;w_SADHE]);
  (0x729, [w_SYRIAC;w_LETTER;w_QAPH]);
  (0x72a, [w_SYRIAC;w_LETTER;w_RISH]);
  (0x72b, [w_SYRIAC;w_LETTER;w_SHIN]);
  (0x72c, [w_SYRIAC;w_LETTER;w_TAW]);
  (0x72d, [w_SYRIAC;w_LETTER;w_PERSIAN;w_BHETH]);
  (0x72e, [w_SYRIAC;w_LETTER;w_PERSIAN;w_GHAMAL]);
  (0x72f, [w_SYRIAC;w_LETTER;w_PERSIAN;w_DHALATH]);
  (0x730, [w_SYRIAC;w_PTHAHA;w_ABOVE]);
  (0x731, [w_SYRIAC;w_PTHAHA;w_BELOW]);
  (0x732, [w_SYRIAC;w_PTHAHA;w_DOTTED]);
  (0x733, [w_SYRIAC;w_ZQAPHA;w_ABOVE]);
  (0x734, [w_SYRIAC;w_ZQAPHA;w_BELOW]);
  (0x735, [w_SYRIAC;w_ZQAPHA;w_DOTTED]);
  (0x736, [w_SYRIAC;w_RBASA;w_ABOVE]);
  (0x737, [w_SYRIAC;w_RBASA;w_BELOW]);
  (0x738, [w_SYRIAC;w_DOTTED;w_ZLAMA;w_HORIZONTAL]);
  (0x739, [w_SYRIAC;w_DOTTED;w_ZLAMA;w_ANGULAR]);
  (0x73a, [w_SYRIAC;w_HBASA;w_ABOVE]);
  (0x73b, [w_SYRIAC;w_HBASA;w_BELOW]);
  (0x73c, [w_SYRIAC;w_HBASA_ESASA;w_DOTTED]);
  (0x73d, [w_SYRIAC;w_ESASA;w_ABOVE]);
  (0x73e, [w_SYRIAC;w_ESASA;w_BELOW]);
  (0x73f, [w_SYRIAC;w_RWAHA]);
  (0x740, [w_SYRIAC;w_FEMININE;w_DOT]);
  (0x741, [w_SYRIAC;w_QUSHSHAYA]);
  (0x742, [w_SYRIAC;w_RUKKAKHA]);
  (0x743, [w_SYRIAC;w_TWO;w_VERTICAL;w_DOTS;w_ABOVE]);
  (0x744, [w_SYRIAC;w_TWO;w_VERTICAL;w_DOTS;w_BELOW]);
  (0x745, [w_SYRIAC;w_THREE;w_DOTS;w_ABOVE]);
  (0x746, [w_SYRIAC;w_THREE;w_DOTS;w_BELOW]);
  (0x747, [w_SYRIAC;w_OBLIQUE;w_LINE;w_ABOVE]);
  (0x748, [w_SYRIAC;w_OBLIQUE;w_LINE;w_BELOW]);
  (0x749, [w_SYRIAC;w_MUSIC]);
  (0x74a, [w_SYRIAC;w_BARREKH]);
  (0x74d, [w_SYRIAC;w_LETTER;w_SOGDIAN;w_ZHAIN]);
  (0x74e, [w_SYRIAC;w_LETTER;w_SOGDIAN;w_KHAPH]);
  (0x74f, [w_SYRIAC;w_LETTER;w_SOGDIAN;w_FE]);
  (0x750, [w_ARABIC;w_LETTER;w_BEH;w_WITH;w_THREE;w_DOTS;w_HORIZONTALLY;w_BELOW]);
  (0x751, [w_ARABIC;w_LETTER;w_BEH;w_WITH;w_DOT;w_BELOW;w_AND;w_THREE;w_DOTS;w_ABOVE]);
  (0x752, [w_ARABIC;w_LETTER;w_BEH;w_WITH;w_THREE;w_DOTS;w_POINTING;w_UPWARDS;w_BELOW]);
  (0x753, [w_ARABIC;w_LETTER;w_BEH;w_WITH;w_THREE;w_DOTS;w_POINTING;w_UPWARDS;w_BELOW;w_AND;w_TWO;w_DOTS;w_ABOVE]);
  (0x754, [w_ARABIC;w_LETTER;w_BEH;w_WITH;w_TWO;w_DOTS;w_BELOW;w_AND;w_DOT;w_ABOVE]);
  (0x755, [w_ARABIC;w_LETTER;w_BEH;w_WITH;w_INVERTED;w_SMALL;w_V;w_BELOW]);
  (0x756, [w_ARABIC;w_LETTER;w_BEH;w_WITH;w_SMALL;w_V]);
  (0x757, [w_ARABIC;w_LETTER;w_HAH;w_WITH;w_TWO;w_DOTS;w_ABOVE]);
  (0x758, [w_ARABIC;w_LETTER;w_HAH;w_WITH;w_THREE;w_DOTS;w_POINTING;w_UPWARDS;w_BELOW]);
  (0x759, [w_ARABIC;w_LETTER;w_DAL;w_WITH;w_TWO;w_DOTS;w_VERTICALLY;w_BELOW;w_AND;w_SMALL;w_TAH]);
  (0x75a, [w_ARABIC;w_LETTER;w_DAL;w_WITH;w_INVERTED;w_SMALL;w_V;w_BELOW]);
  (0x75b, [w_ARABIC;w_LETTER;w_REH;w_WITH;w_STROKE]);
  (0x75c, [w_ARABIC;w_LETTER;w_SEEN;w_WITH;w_FOUR;w_DOTS;w_ABOVE]);
  (0x75d, [w_ARABIC;w_LETTER;w_AIN;w_WITH;w_TWO;w_DOTS;w_ABOVE]);
  (0x75e, [w_ARABIC;w_LETTER;w_AIN;w_WITH;w_THREE;w_DOTS;w_POINTING;w_DOWNWARDS;w_ABOVE]);
  (0x75f, [w_ARABIC;w_LETTER;w_AIN;w_WITH;w_TWO;w_DOTS;w_VERTICALLY;w_ABOVE]);
  (0x760, [w_ARABIC;w_LETTER;w_FEH;w_WITH;w_TWO;w_DOTS;w_BELOW]);
  (0x761, [w_ARABIC;w_LETTER;w_FEH;w_WITH;w_THREE;w_DOTS;w_POINTING;w_UPWARDS;w_BELOW]);
  (0x762, [w_ARABIC;w_LETTER;w_KEHEH;w_WITH;w_DOT;w_ABOVE]);
  (0x763, [w_ARABIC;w_LETTER;w_KEHEH;w_WITH;w_THREE;w_DOTS;w_ABOVE]);
  (0x764, [w_ARABIC;w_LETTER;w_KEHEH;w_WITH;w_THREE;w_DOTS;w_POINTING;w_UPWARDS;w_BELOW]);
  (0x765, [w_ARABIC;w_LETTER;w_MEEM;w_WITH;w_DOT;w_ABOVE]);
  (0x766, [w_ARABIC;w_LETTER;w_MEEM;w_WITH;w_DOT;w_BELOW]);
  (0x767, [w_ARABIC;w_LETTER;w_NOON;w_WITH;w_TWO;w_DOTS;w_BELOW]);
  (0x768, [w_ARABIC;w_LETTER;w_NOON;w_WITH;w_SMALL;w_TAH]);
  (0x769, [w_ARABIC;w_LETTER;w_NOON;w_WITH;w_SMALL;w_V]);
  (0x76a, [w_ARABIC;w_LETTER;w_LAM;w_WITH;w_BAR]);
  (0x76b, [w_ARABIC;w_LETTER;w_REH;w_WITH;w_TWO;w_DOTS;w_VERTICALLY;w_ABOVE]);
  (0x76c, [w_ARABIC;w_LETTER;w_REH;w_WITH;w_HAMZA;w_ABOVE]);
  (0x76d, [w_ARABIC;w_LETTER;w_SEEN;w_WITH;w_TWO;w_DOTS;w_VERTICALLY;w_ABOVE]);
  (0x76e, [w_ARABIC;w_LETTER;w_HAH;w_WITH;w_SMALL;w_ARABIC;w_LETTER;w_TAH;w_BELOW]);
  (0x76f, [w_ARABIC;w_LETTER;w_HAH;w_WITH;w_SMALL;w_ARABIC;w_LETTER;w_TAH;w_AND;w_TWO;w_DOTS]);
  (0x770, [w_ARABIC;w_LETTER;w_SEEN;w_WITH;w_SMALL;w_ARABIC;w_LETTER;w_TAH;w_AND;w_TWO;w_DOTS]);
  (0x771, [w_ARABIC;w_LETTER;w_REH;w_WITH;w_SMALL;w_ARABIC;w_LETTER;w_TAH;w_AND;w_TWO;w_DOTS]);
  (0x772, [w_ARABIC;w_LETTER;w_HAH;w_WITH;w_SMALL;w_ARABIC;w_LETTER;w_TAH;w_ABOVE]);
  (0x773, [w_ARABIC;w_LETTER;w_ALEF;w_WITH;w_EXTENDED;w_ARABIC_INDIC;w_DIGIT;w_TWO;w_ABOVE]);
  (0x774, [w_ARABIC;w_LETTER;w_ALEF;w_WITH;w_EXTENDED;w_ARABIC_INDIC;w_DIGIT;w_THREE;w_ABOVE]);
  (0x775, [w_ARABIC;w_LETTER;w_FARSI;w_YEH;w_WITH;w_EXTENDED;w_ARABIC_INDIC;w_DIGIT;w_TWO;w_ABOVE]);
  (0x776, [w_ARABIC;w_LETTER;w_FARSI;w_YEH;w_WITH;w_EXTENDED;w_ARABIC_INDIC;w_DIGIT;w_THREE;w_ABOVE]);
  (0x777, [w_ARABIC;w_LETTER;w_FARSI;w_YEH;w_WITH;w_EXTENDED;w_ARABIC_INDIC;w_DIGIT;w_FOUR;w_BELOW]);
  (0x778, [w_ARABIC;w_LETTER;w_WAW;w_WITH;w_EXTENDED;w_ARABIC_INDIC;w_DIGIT;w_TWO;w_ABOVE]);
  (0x779, [w_ARABIC;w_LETTER;w_WAW;w_WITH;w_EXTENDED;w_ARABIC_INDIC;w_DIGIT;w_THREE;w_ABOVE]);
  (0x77a, [w_ARABIC;w_LETTER;w_YEH;w_BARREE;w_WITH;w_EXTENDED;w_ARABIC_INDIC;w_DIGIT;w_TWO;w_ABOVE]);
  (0x77b, [w_ARABIC;w_LETTER;w_YEH;w_BARREE;w_WITH;w_EXTENDED;w_ARABIC_INDIC;w_DIGIT;w_THREE;w_ABOVE]);
  (0x77c, [w_ARABIC;w_LETTER;w_HAH;w_WITH;w_EXTENDED;w_ARABIC_INDIC;w_DIGIT;w_FOUR;w_BELOW]);
  (0x77d, [w_ARABIC;w_LETTER;w_SEEN;w_WITH;w_EXTENDED;w_ARABIC_INDIC;w_DIGIT;w_FOUR;w_ABOVE]);
  (0x77e, [w_ARABIC;w_LETTER;w_SEEN;w_WITH;w_INVERTED;w_V]);
  (0x77f, [w_ARABIC;w_LETTER;w_KAF;w_WITH;w_TWO;w_DOTS;w_ABOVE]);
  (0x780, [w_THAANA;w_LETTER;w_HAA]);
  (0x781, [w_THAANA;w_LETTER;w_SHAVIYANI]);
  (0x782, [w_THAANA;w_LETTER;w_NOONU]);
  (0x783, [w_THAANA;w_LETTER;w_RAA]);
  (0x784, [w_THAANA;w_LETTER;w_BAA]);
  (0x785, [w_THAANA;w_LETTER;w_LHAVIYANI]);
  (0x786, [w_THAANA;w_LETTER;w_KAAFU]);
  (0x787, [w_THAANA;w_LETTER;w_ALIFU]);
  (0x788, [w_THAANA;w_LETTER;w_VAAVU]);
  (0x789, [w_THAANA;w_LETTER;w_MEEMU]);
  (0x78a, [w_THAANA;w_LETTER;w_FAAFU]);
  (0x78b, [w_THAANA;w_LETTER;w_DHAALU]);
  (0x78c, [w_THAANA;w_LETTER;w_THAA]);
  (0x78d, [w_THAANA;w_LETTER;w_LAAMU]);
  (0x78e, [w_THAANA;w_LETTER;w_GAAFU]);
  (0x78f, [w_THAANA;w_LETTER;w_GNAVIYANI]);
  (0x790, [w_THAANA;w_LETTER;w_SEENU]);
  (0x791, [w_THAANA;w_LETTER;w_DAVIYANI]);
  (0x792, [w_THAANA;w_LETTER;w_ZAVIYANI]);
  (0x793, [w_THAANA;w_LETTER;w_TAVIYANI]);
  (0x794, [w_THAANA;w_LETTER;w_YAA]);
  (0x795, [w_THAANA;w_LETTER;w_PAVIYANI]);
  (0x796, [w_THAANA;w_LETTER;w_JAVIYANI]);
  (0x797, [w_THAANA;w_LETTER;w_CHAVIYANI]);
  (0x798, [w_THAANA;w_LETTER;w_TTAA]);
  (0x799, [w_THAANA;w_LETTER;w_HHAA]);
  (0x79a, [w_THAANA;w_LETTER;w_KHAA]);
  (0x79b, [w_THAANA;w_LETTER;w_THAALU]);
  (0x79c, [w_THAANA;w_LETTER;w_ZAA]);
  (0x79d, [w_THAANA;w_LETTER;w_SHEENU]);
  (0x79e, [w_THAANA;w_LETTER;w_SAADHU]);
  (0x79f, [w_THAANA;w_LETTER;w_DAADHU]);
  (0x7a0, [w_THAANA;w_LETTER;w_TO]);
  (0x7a1, [w_THAANA;w_LETTER;w_ZO]);
  (0x7a2, [w_THAANA;w_LETTER;w_AINU]);
  (0x7a3, [w_THAANA;w_LETTER;w_GHAINU]);
  (0x7a4, [w_THAANA;w_LETTER;w_QAAFU]);
  (0x7a5, [w_THAANA;w_LETTER;w_WAAVU]);
  (0x7a6, [w_THAANA;w_ABAFILI]);
  (0x7a7, [w_THAANA;w_AABAAFILI]);
  (0x7a8, [w_THAANA;w_IBIFILI]);
  (0x7a9, [w_THAANA;w_EEBEEFILI]);
  (0x7aa, [w_THAANA;w_UBUFILI]);
  (0x7ab, [w_THAANA;w_OOBOOFILI]);
  (0x7ac, [w_THAANA;w_EBEFILI]);
  (0x7ad, [w_THAANA;w_EYBEYFILI]);
  (0x7ae, [w_THAANA;w_OBOFILI]);
  (0x7af, [w_THAANA;w_OABOAFILI]);
  (0x7b0, [w_THAANA;w_SUKUN]);
  (0x7b1, [w_THAANA;w_LETTER;w_NAA]);
  (0x7c0, [w_NKO;w_DIGIT;w_ZERO]);
  (0x7c1, [w_NKO;w_DIGIT;w_ONE]);
  (0x7c2, [w_NKO;w_DIGIT;w_TWO]);
  (0x7c3, [w_NKO;w_DIGIT;w_THREE]);
  (0x7c4, [w_NKO;w_DIGIT;w_FOUR]);
  (0x7c5, [w_NKO;w_DIGIT;w_FIVE]);
  (0x7c6, [w_NKO;w_DIGIT;w_SIX]);
  (0x7c7, [w_NKO;w_DIGIT;w_SEVEN]);
  (0x7c8, [w_NKO;w_DIGIT;w_EIGHT]);
  (0x7c9, [w_NKO;w_DIGIT;w_NINE]);
  (0x7ca, [w_NKO;w_LETTER;w_A]);
  (0x7cb, [w_NKO;w_LETTER;w_EE]);
  (0x7cc, [w_NKO;w_LETTER;w_I]);
  (0x7cd, [w_NKO;w_LETTER;w_E]);
  (0x7ce, [w_NKO;w_LETTER;w_U]);
  (0x7cf, [w_NKO;w_LETTER;w_OO]);
  (0x7d0, [w_NKO;w_LETTER;w_O]);
  (0x7d1, [w_NKO;w_LETTER;w_DAGBASINNA]);
  (0x7d2, [w_NKO;w_LETTER;w_N]);
  (0x7d3, [w_NKO;w_LETTER;w_BA]);
  (0x7d4, [w_NKO;w_LETTER;w_PA]);
  (0x7d5, [w_NKO;w_LETTER;w_TA]);
  (0x7d6, [w_NKO;w_LETTER;w_JA]);
  (0x7d7, [w_NKO;w_LETTER;w_CHA]);
  (0x7d8, [w_NKO;w_LETTER;w_DA]);
  (0x7d9, [w_NKO;w_LETTER;w_RA]);
  (0x7da, [w_NKO;w_LETTER;w_RRA]);
  (0x7db, [w_NKO;w_LETTER;w_SA]);
  (0x7dc, [w_NKO;w_LETTER;w_GBA]);
  (0x7dd, [w_NKO;w_LETTER;w_FA]);
  (0x7de, [w_NKO;w_LETTER;w_KA]);
  (0x7df, [w_NKO;w_LETTER;w_LA]);
  (0x7e0, [w_NKO;w_LETTER;w_NA;w_WOLOSO]);
  (0x7e1, [w_NKO;w_LETTER;w_MA]);
  (0x7e2, [w_NKO;w_LETTER;w_NYA]);
  (0x7e3, [w_NKO;w_LETTER;w_NA]);
  (0x7e4, [w_NKO;w_LETTER;w_HA]);
  (0x7e5, [w_NKO;w_LETTER;w_WA]);
  (0x7e6, [w_NKO;w_LETTER;w_YA]);
  (0x7e7, [w_NKO;w_LETTER;w_NYA;w_WOLOSO]);
  (0x7e8, [w_NKO;w_LETTER;w_JONA;w_JA]);
  (0x7e9, [w_NKO;w_LETTER;w_JONA;w_CHA]);
  (0x7ea, [w_NKO;w_LETTER;w_JONA;w_RA]);
  (0x7eb, [w_NKO;w_COMBINING;w_SHORT;w_HIGH;w_TONE]);
  (0x7ec, [w_NKO;w_COMBINING;w_SHORT;w_LOW;w_TONE]);
  (0x7ed, [w_NKO;w_COMBINING;w_SHORT;w_RISING;w_TONE]);
  (0x7ee, [w_NKO;w_COMBINING;w_LONG;w_DESCENDING;w_TONE]);
  (0x7ef, [w_NKO;w_COMBINING;w_LONG;w_HIGH;w_TONE]);
  (0x7f0, [w_NKO;w_COMBINING;w_LONG;w_LOW;w_TONE]);
  (0x7f1, [w_NKO;w_COMBINING;w_LONG;w_RISING;w_TONE]);
  (0x7f2, [w_NKO;w_COMBINING;w_NASALIZATION;w_MARK]);
  (0x7f3, [w_NKO;w_COMBINING;w_DOUBLE;w_DOT;w_ABOVE]);
  (0x7f4, [w_NKO;w_HIGH;w_TONE;w_APOSTROPHE]);
  (0x7f5, [w_NKO;w_LOW;w_TONE;w_APOSTROPHE]);
  (0x7f6, [w_NKO;w_SYMBOL;w_OO;w_DENNEN]);
  (0x7f7, [w_NKO;w_SYMBOL;w_GBAKURUNEN]);
  (0x7f8, [w_NKO;w_COMMA]);
  (0x7f9, [w_NKO;w_EXCLAMATION;w_MARK]);
  (0x7fa, [w_NKO;w_LAJANYALAN]);
  (0x800, [w_SAMARITAN;w_LETTER;w_ALAF]);
  (0x801, [w_SAMARITAN;w_LETTER;w_BIT]);
  (0x802, [w_SAMARITAN;w_LETTER;w_GAMAN]);
  (0x803, [w_SAMARITAN;w_LETTER;w_DALAT]);
  (0x804, [w_SAMARITAN;w_LETTER;w_IY]);
  (0x805, [w_SAMARITAN;w_LETTER;w_BAA]);
  (0x806, [w_SAMARITAN;w_LETTER;w_ZEN]);
  (0x807, [w_SAMARITAN;w_LETTER;w_IT]);
  (0x808, [w_SAMARITAN;w_LETTER;w_TIT]);
  (0x809, [w_SAMARITAN;w_LETTER;w_YUT]);
  (0x80a, [w_SAMARITAN;w_LETTER;w_KAAF]);
  (0x80b, [w_SAMARITAN;w_LETTER;w_LABAT]);
  (0x80c, [w_SAMARITAN;w_LETTER;w_MIM]);
  (0x80d, [w_SAMARITAN;w_LETTER;w_NUN]);
  (0x80e, [w_SAMARITAN;w_LETTER;w_SINGAAT]);
  (0x80f, [w_SAMARITAN;w_LETTER;w_IN]);
  (0x810, [w_SAMARITAN;w_LETTER;w_FI]);
  (0x811, [w_SAMARITAN;w_LETTER;w_TSAADIY]);
  (0x812, [w_SAMARITAN;w_LETTER;w_QUF]);
  (0x813, [w_SAMARITAN;w_LETTER;w_RISH]);
  (0x814, [w_SAMARITAN;w_LETTER;w_SHAN]);
  (0x815, [w_SAMARITAN;w_LETTER;w_TAAF]);
  (0x816, [w_SAMARITAN;w_MARK;w_IN]);
  (0x817, [w_SAMARITAN;w_MARK;w_IN_ALAF]);
  (0x818, [w_SAMARITAN;w_MARK;w_OCCLUSION]);
  (0x819, [w_SAMARITAN;w_MARK;w_DAGESH]);
  (0x81a, [w_SAMARITAN;w_MODIFIER;w_LETTER;w_EPENTHETIC;w_YUT]);
  (0x81b, [w_SAMARITAN;w_MARK;w_EPENTHETIC;w_YUT]);
  (0x81c, [w_SAMARITAN;w_VOWEL;w_SIGN;w_LONG;w_E]);
  (0x81d, [w_SAMARITAN;w_VOWEL;w_SIGN;w_E]);
  (0x81e, [w_SAMARITAN;w_VOWEL;w_SIGN;w_OVERLONG;w_AA]);
  (0x81f, [w_SAMARITAN;w_VOWEL;w_SIGN;w_LONG;w_AA]);
  (0x820, [w_SAMARITAN;w_VOWEL;w_SIGN;w_AA]);
  (0x821, [w_SAMARITAN;w_VOWEL;w_SIGN;w_OVERLONG;w_A]);
  (0x822, [w_SAMARITAN;w_VOWEL;w_SIGN;w_LONG;w_A]);
  (0x823, [w_SAMARITAN;w_VOWEL;w_SIGN;w_A]);
  (0x824, [w_SAMARITAN;w_MODIFIER;w_LETTER;w_SHORT;w_A]);
  (0x825, [w_SAMARITAN;w_VOWEL;w_SIGN;w_SHORT;w_A]);
  (0x826, [w_SAMARITAN;w_VOWEL;w_SIGN;w_LONG;w_U]);
  (0x827, [w_SAMARITAN;w_VOWEL;w_SIGN;w_U]);
  (0x828, [w_SAMARITAN;w_MODIFIER;w_LETTER;w_I]);
  (0x829, [w_SAMARITAN;w_VOWEL;w_SIGN;w_LONG;w_I]);
  (0x82a, [w_SAMARITAN;w_VOWEL;w_SIGN;w_I]);
  (0x82b, [w_SAMARITAN;w_VOWEL;w_SIGN;w_O]);
  (0x82c, [w_SAMARITAN;w_VOWEL;w_SIGN;w_SUKUN]);
  (0x82d, [w_SAMARITAN;w_MARK;w_NEQUDAA]);
  (0x830, [w_SAMARITAN;w_PUNCTUATION;w_NEQUDAA]);
  (0x831, [w_SAMARITAN;w_PUNCTUATION;w_AFSAAQ]);
  (0x832, [w_SAMARITAN;w_PUNCTUATION;w_ANGED]);
  (0x833, [w_SAMARITAN;w_PUNCTUATION;w_BAU]);
  (0x834, [w_SAMARITAN;w_PUNCTUATION;w_ATMAAU]);
  (0x835, [w_SAMARITAN;w_PUNCTUATION;w_SHIYYAALAA]);
  (0x836, [w_SAMARITAN;w_ABBREVIATION;w_MARK]);
  (0x837, [w_SAMARITAN;w_PUNCTUATION;w_MELODIC;w_QITSA]);
  (0x838, [w_SAMARITAN;w_PUNCTUATION;w_ZIQAA]);
  (0x839, [w_SAMARITAN;w_PUNCTUATION;w_QITSA]);
  (0x83a, [w_SAMARITAN;w_PUNCTUATION;w_ZAEF]);
  (0x83b, [w_SAMARITAN;w_PUNCTUATION;w_TURU]);
  (0x83c, [w_SAMARITAN;w_PUNCTUATION;w_ARKAANU]);
  (0x83d, [w_SAMARITAN;w_PUNCTUATION;w_SOF;w_MASHFAAT]);
  (0x83e, [w_SAMARITAN;w_PUNCTUATION;w_ANNAAU]);
  (0x840, [w_MANDAIC;w_LETTER;w_HALQA]);
  (0x841, [w_MANDAIC;w_LETTER;w_AB]);
  (0x842, [w_MANDAIC;w_LETTER;w_AG]);
  (0x843, [w_MANDAIC;w_LETTER;w_AD]);
  (0x844, [w_MANDAIC;w_LETTER;w_AH]);
  (0x845, [w_MANDAIC;w_LETTER;w_USHENNA]);
  (0x846, [w_MANDAIC;w_LETTER;w_AZ]);
  (0x847, [w_MANDAIC;w_LETTER;w_IT]);
  (0x848, [w_MANDAIC;w_LETTER;w_ATT]);
  (0x849, [w_MANDAIC;w_LETTER;w_AKSA]);
  (0x84a, [w_MANDAIC;w_LETTER;w_AK]);
  (0x84b, [w_MANDAIC;w_LETTER;w_AL]);
  (0x84c, [w_MANDAIC;w_LETTER;w_AM]);
  (0x84d, [w_MANDAIC;w_LETTER;w_AN]);
  (0x84e, [w_MANDAIC;w_LETTER;w_AS]);
  (0x84f, [w_MANDAIC;w_LETTER;w_IN]);
  (0x850, [w_MANDAIC;w_LETTER;w_AP]);
  (0x851, [w_MANDAIC;w_LETTER;w_ASZ]);
  (0x852, [w_MANDAIC;w_LETTER;w_AQ]);
  (0x853, [w_MANDAIC;w_LETTER;w_AR])].

Definition NAMES_5 : list (N * (list str)) := [
  (0x854, [w_MANDAIC;w_LETTER;w_ASH]);
  (0x855, [w_MANDAIC;w_LETTER;w_AT]);
  (0x856, [w_MANDAIC;w_LETTER;w_DUSHENNA]);
  (0x857, [w_MANDAIC;w_LETTER;w_KAD]);
  (0x858, [w_MANDAIC;w_LETTER;w_AIN]);
  (0x859, [w_MANDAIC;w_AFFRICATION;w_MARK]);
  (0x85a, [w_MANDAIC;w_VOCALIZATION;w_MARK]);
  (0x85b, [w_MANDAIC;w_GEMINATION;w_MARK]);
  (0x85e, [w_MANDAIC;w_PUNCTUATION]);
  (0x860, [w_SYRIAC;w_LETTER;w_MALAYALAM;w_NGA]);
  (0x861, [w_SYRIAC;w_LETTER;w_MALAYALAM;w_JA]);
  (0x862, [w_SYRIAC;w_LETTER;w_MALAYALAM;w_NYA]);
  (0x863, [w_SYRIAC;w_LETTER;w_MALAYALAM;w_TTA]);
  (0x864, [w_SYRIAC;w_LETTER;w_MALAYALAM;w_NNA]);
  (0x865, [w_SYRIAC;w_LETTER;w_MALAYALAM;w_NNNA]);
  (0x866, [w_SYRIAC;w_LETTER;w_MALAYALAM;w_BHA]);
  (0x867, [w_SYRIAC;w_LETTER;w_MALAYALAM;w_RA]);
  (0x868, [w_SYRIAC;w_LETTER;w_MALAYALAM;w_LLA]);
  (0x869, [w_SYRIAC;w_LETTER;w_MALAYALAM;w_LLLA]);
  (0x86a, [w_SYRIAC;w_LETTER;w_MALAYALAM;w_SSA]);
  (0x8a0, [w_ARABIC;w_LETTER;w_BEH;w_WITH;w_SMALL;w_V;w_BELOW]);
  (0x8a1, [w_ARABIC;w_LETTER;w_BEH;w_WITH;w_HAMZA;w_ABOVE]);
  (0x8a2, [w_ARABIC;w_LETTER;w_JEEM;w_WITH;w_TWO;w_DOTS;w_ABOVE]);
  (0x8a3, [w_ARABIC;w_LETTER;w_TAH;w_WITH;w_TWO;w_DOTS;w_ABOVE]);
  (0x8a4, [w_ARABIC;w_LETTER;w_FEH;w_WITH;w_DOT;w_BELOW;w_AND;w_THREE;w_DOTS;w_ABOVE]);
  (0x8a5, [w_ARABIC;w_LETTER;w_QAF;w_WITH;w_DOT;w_BELOW]);
  (0x8a6, [w_ARABIC;w_LETTER;w_LAM;w_WITH;w_DOUBLE;w_BAR]);
  (0x8a7, [w_ARABIC;w_LETTER;w_MEEM;w_WITH;w_THREE;w_DOTS;w_ABOVE]);
  (0x8a8, [w_ARABIC;w_LETTER;w_YEH;w_WITH;w_TWO;w_DOTS;w_BELOW;w_AND;w_HAMZA;w_ABOVE]);
  (0x8a9, [w_ARABIC;w_LETTER;w_YEH;w_WITH;w_TWO;w_DOTS;w_BELOW;w_AND;w_DOT;w_ABOVE]);
  (0x8aa, [w_ARABIC;w_LETTER;w_REH;w_WITH;w_LOOP]);
  (0x8ab, [w_ARABIC;w_LETTER;w_WAW;w_WITH;w_DOT;w_WITHIN]);
  (0x8ac, [w_ARABIC;w_LETTER;w_ROHINGYA;w_YEH]);
  (0x8ad, [w_ARABIC;w_LETTER;w_LOW;w_ALEF]);
  (0x8ae, [w_ARABIC;w_LETTER;w_DAL;w_WITH;w_THREE;w_DOTS;w_BELOW]);
  (0x8af, [w_ARABIC;w_LETTER;w_SAD;w_WITH;w_THREE;w_DOTS;w_BELOW]);
  (0x8b0, [w_ARABIC;w_LETTER;w_GAF;w_WITH;w_INVERTED;w_STROKE]);
  (0x8b1, [w_ARABIC;w_LETTER;w_STRAIGHT;w_WAW]);
  (0x8b2, [w_ARABIC;w_LETTER;w_ZAIN;w_WITH;w_INVERTED;w_V;w_ABOVE]);
  (0x8b3, [w_ARABIC;w_LETTER;w_AIN;w_WITH;w_THREE;w_DOTS;w_BELOW]);
  (0x8b4, [w_ARABIC;w_LETTER;w_KAF;w_WITH;w_DOT;w_BELOW]);
  (0x8b6, [w_ARABIC;w_LETTER;w_BEH;w_WITH;w_SMALL;w_MEEM;w_ABOVE]);
  (0x8b7, [w_ARABIC;w_LETTER;w_PEH;w_WITH;w_SMALL;w_MEEM;w_ABOVE]);
  (0x8b8, [w_ARABIC;w_LETTER;w_TEH;w_WITH;w_SMALL;w_TEH;w_ABOVE]);
  (0x8b9, [w_ARABIC;w_LETTER;w_REH;w_WITH;w_SMALL;w_NOON;w_ABOVE]);
  (0x8ba, [w_ARABIC;w_LETTER;w_YEH;w_WITH;w_TWO;w_DOTS;w_BELOW;w_AND;w_SMALL;w_NOON;w_ABOVE]);
  (0x8bb, [w_ARABIC;w_LETTER;w_AFRICAN;w_FEH]);
  (0x8bc, [w_ARABIC;w_LETTER;w_AFRICAN;w_QAF]);
  (0x8bd, [w_ARABIC;w_LETTER;w_AFRICAN;w_NOON]);
  (0x8d4, [w_ARABIC;w_SMALL;w_HIGH;w_WORD;w_AR_RUB]);
  (0x8d5, [w_ARABIC;w_SMALL;w_HIGH;w_SAD]);
  (0x8d6, [w_ARABIC;w_SMALL;w_HIGH;w_AIN]);
  (0x8d7, [w_ARABIC;w_SMALL;w_HIGH;w_QAF]);
  (0x8d8, [w_ARABIC;w_SMALL;w_HIGH;w_NOON;w_WITH;w_KASRA]);
  (0x8d9, [w_ARABIC;w_SMALL;w_LOW;w_NOON;w_WITH;w_KASRA]);
  (0x8da, [w_ARABIC;w_SMALL;w_HIGH;w_WORD;w_ATH_THALATHA]);
  (0x8db, [w_ARABIC;w_SMALL;w_HIGH;w_WORD;w_AS_SAJDA]);
  (0x8dc, [w_ARABIC;w_SMALL;w_HIGH;w_WORD;w_AN_NISF]);
  (0x8dd, [w_ARABIC;w_SMALL;w_HIGH;w_WORD;w_SAKTA]);
  (0x8de, [w_ARABIC;w_SMALL;w_HIGH;w_WORD;w_QIF]);
  (0x8df, [w_ARABIC;w_SMALL;w_HIGH;w_WORD;w_WAQFA]);
  (0x8e0, [w_ARABIC;w_SMALL;w_HIGH;w_FOOTNOTE;w_MARKER]);
  (0x8e1, [w_ARABIC;w_SMALL;w_HIGH;w_SIGN;w_SAFHA]);
  (0x8e2, [w_ARABIC;w_DISPUTED;w_END;w_OF;w_AYAH]);
  (0x8e3, [w_ARABIC;w_TURNED;w_DAMMA;w_BELOW]);
  (0x8e4, [w_ARABIC;w_CURLY;w_FATHA]);
  (0x8e5, [w_ARABIC;w_CURLY;w_DAMMA]);
  (0x8e6, [w_ARABIC;w_CURLY;w_KASRA]);
  (0x8e7, [w_ARABIC;w_CURLY;w_FATHATAN]);
  (0x8e8, [w_ARABIC;w_CURLY;w_DAMMATAN]);
  (0x8e9, [w_ARABIC;w_CURLY;w_KASRATAN]);
  (0x8ea, [w_ARABIC;w_TONE;w_ONE;w_DOT;w_ABOVE]);
  (0x8eb, [w_ARABIC;w_TONE;w_TWO;w_DOTS;w_ABOVE]);
  (0x8ec, [w_ARABIC;w_TONE;w_LOOP;w_ABOVE]);
  (0x8ed, [w_ARABIC;w_TONE;w_ONE;w_DOT;w_BELOW]);
  (0x8ee, [w_ARABIC;w_TONE;w_TWO;w_DOTS;w_BELOW]);
  (0x8ef, [w_ARABIC;w_TONE;w_LOOP;w_BELOW]);
  (0x8f0, [w_ARABIC;w_OPEN;w_FATHATAN]);
  (0x8f1, [w_ARABIC;w_OPEN;w_DAMMATAN]);
  (0x8f2, [w_ARABIC;w_OPEN;w_KASRATAN]);
  (0x8f3, [w_ARABIC;w_SMALL;w_HIGH;w_WAW]);
  (0x8f4, [w_ARABIC;w_FATHA;w_WITH;w_RING]);
  (0x8f5, [w_ARABIC;w_FATHA;w_WITH;w_DOT;w_ABOVE]);
  (0x8f6, [w_ARABIC;w_KASRA;w_WITH;w_DOT;w_BELOW]);
  (0x8f7, [w_ARABIC;w_LEFT;w_ARROWHEAD;w_ABOVE]);
  (0x8f8, [w_ARABIC;w_RIGHT;w_ARROWHEAD;w_ABOVE]);
  (0x8f9, [w_ARABIC;w_LEFT;w_ARROWHEAD;w_BELOW]);
  (0x8fa, [w_ARABIC;w_RIGHT;w_ARROWHEAD;w_BELOW]);
  (0x8fb, [w_ARABIC;w_DOUBLE;w_RIGHT;w_ARROWHEAD;w_ABOVE]);
  (0x8fc, [w_ARABIC;w_DOUBLE;w_RIGHT;w_ARROWHEAD;w_ABOVE;w_WITH;w_DOT]);
  (0x8fd, [w_ARABIC;w_RIGHT;w_ARROWHEAD;w_ABOVE;w_WITH;w_DOT]);
  (0x8fe, [w_ARABIC;w_DAMMA;w_WITH;w_DOT]);
  (0x8ff, [w_ARABIC;w_MARK;w_SIDEWAYS;w_NOON;w_GHUNNA]);
  (0x900, [w_DEVANAGARI;w_SIGN;w_INVERTED;w_CANDRABINDU]);
  (0x901, [w_DEVANAGARI;w_SIGN;w_CANDRABINDU]);
  (0x902, [w_DEVANAGARI;w_SIGN;w_ANUSVARA]);
  (0x903, [w_DEVANAGARI;w_SIGN;w_VISARGA]);
  (0x904, [w_DEVANAGARI;w_LETTER;w_SHORT;w_A]);
  (0x905, [w_DEVANAGARI;w_LETTER;w_A]);
  (0x906, [w_DEVANAGARI;w_LETTER;w_AA]);
  (0x907, [w_DEVANAGARI;w_LETTER;w_I]);
  (0x908, [w_DEVANAGARI;w_LETTER;w_II]);
  (0x909, [w_DEVANAGARI;w_LETTER;w_U]);
  (0x90a, [w_DEVANAGARI;w_LETTER;w_UU]);
  (0x90b, [w_DEVANAGARI;w_LETTER;w_VOCALIC;w_R]);
  (0x90c, [w_DEVANAGARI;w_LETTER;w_VOCALIC;w_L]);
  (0x90d, [w_DEVANAGARI;w_LETTER;w_CANDRA;w_E]);
  (0x90e, [w_DEVANAGARI;w_LETTER;w_SHORT;w_E]);
  (0x90f, [w_DEVANAGARI;w_LETTER;w_E]);
  (0x910, [w_DEVANAGARI;w_LETTER;w_AI]);
  (0x911, [w_DEVANAGARI;w_LETTER;w_CANDRA;w_O]);
  (0x912, [w_DEVANAGARI;w_LETTER;w_SHORT;w_O]);
  (0x913, [w_DEVANAGARI;w_LETTER;w_O]);
  (0x914, [w_DEVANAGARI;w_LETTER;w_AU]);
  (0x915, [w_DEVANAGARI;w_LETTER;w_KA]);
  (0x916, [w_DEVANAGARI;w_LETTER;w_KHA]);
  (0x917, [w_DEVANAGARI;w_LETTER;w_GA]);
  (0x918, [w_DEVANAGARI;w_LETTER;w_GHA]);
  (0x919, [w_DEVANAGARI;w_LETTER;w_NGA]);
  (0x91a, [w_DEVANAGARI;w_LETTER;w_CA]);
  (0x91b, [w_DEVANAGARI;w_LETTER;w_CHA]);
  (0x91c, [w_DEVANAGARI;w_LETTER;w_JA]);
  (0x91d, [w_DEVANAGARI;w_LETTER;w_JHA]);
  (0x91e, [w_DEVANAGARI;w_LETTER;w_NYA]);
  (0x91f, [w_DEVANAGARI;w_LETTER;w_TTA]);
  (0x920, [w_DEVANAGARI;w_LETTER;w_TTHA]);
  (0x921, [w_DEVANAGARI;w_LETTER;w_DDA]);
  (0x922, [w_DEVANAGARI;w_LETTER;w_DDHA]);
  (0x923, [w_DEVANAGARI;w_LETTER;w_NNA]);
  (0x924, [w_DEVANAGARI;w_LETTER;w_TA]);
  (0x925, [w_DEVANAGARI;w_LETTER;w_THA]);
  (0x926, [w_DEVANAGARI;w_LETTER;w_DA]);
  (0x927, [w_DEVANAGARI;w_LETTER;w_DHA]);
  (0x928, [w_DEVANAGARI;w_LETTER;w_NA]);
  (0x929, [w_DEVANAGARI;w_LETTER;w_NNNA]);
  (0x92a, [w_DEVANAGARI;w_LETTER;w_PA]);
  (0x92b, [w_DEVANAGARI;w_LETTER;w_PHA]);
  (0x92c, [w_DEVANAGARI;w_LETTER;w_BA]);
  (0x92d, [w_DEVANAGARI;w_LETTER;w_BHA]);
  (0x92e, [w_DEVANAGARI;w_LETTER;w_MA]);
  (0x92f, [w_DEVANAGARI;w_LETTER;w_YA]);
  (0x930, [w_DEVANAGARI;w_LETTER;w_RA]);
  (0x931, [w_DEVANAGARI;w_LETTER;w_RRA]);
  (0x932, [w_DEVANAGARI;w_LETTER;w_LA]);
  (0x933, [w_DEVANAGARI;w_LETTER;w_LLA]);
  (0x934, [w_DEVANAGARI;w_LETTER;w_LLLA]);
  (0x935, [w_DEVANAGARI;w_LETTER;w_VA]);
  (0x936, [w_DEVANAGARI;w_LETTER;w_SHA]);
  (0x937, [w_DEVANAGARI;w_LETTER;w_SSA]);
  (0x938, [w_DEVANAGARI;w_LETTER;w_SA]);
  (0x939, [w_DEVANAGARI;w_LETTER;w_HA]);
  (0x93a, [w_DEVANAGARI;w_VOWEL;w_SIGN;w_OE]);
  (0x93b, [w_DEVANAGARI;w_VOWEL;w_SIGN;w_OOE]);
  (0x93c, [w_DEVANAGARI;w_SIGN;w_NUKTA]);
  (0x93d, [w_DEVANAGARI;w_SIGN;w_AVAGRAHA]);
  (0x93e, [w_DEVANAGARI;w_VOWEL;w_SIGN;w_AA]);
  (0x93f, [w_DEVANAGARI;w_VOWEL;w_SIGN;w_I]);
  (0x940, [w_DEVANAGARI;w_VOWEL;w_SIGN;w_II]);
  (0x941, [w_DEVANAGARI;w_VOWEL;w_SIGN;w_U]);
  (0x942, [w_DEVANAGARI;w_VOWEL;w_SIGN;w_UU]);
  (0x943, [w_DEVANAGARI;w_VOWEL;w_SIGN;w_VOCALIC;w_R]);
  (0x944, [w_DEVANAGARI;w_VOWEL;w_SIGN;w_VOCALIC;w_RR]);
  (0x945, [w_DEVANAGARI;w_VOWEL;w_SIGN;w_CANDRA;w_E]);
  (0x946, [w_DEVANAGARI;w_VOWEL;w_SIGN;w_SHORT;w_E]);
  (0x947, [w_DEVANAGARI;w_VOWEL;w_SIGN;w_E]);
  (0x948, [w_DEVANAGARI;w_VOWEL;w_SIGN;w_AI]);
  (0x949, [w_DEVANAGARI;w_VOWEL;w_SIGN;w_CANDRA;w_O]);
  (0x94a, [w_DEVANAGARI;w_VOWEL;w_SIGN;w_SHORT;w_O]);
  (0x94b, [w_DEVANAGARI;w_VOWEL;w_SIGN;w_O]);
  (0x94c, [w_DEVANAGARI;w_VOWEL;w_SIGN;w_AU]);
  (0x94d, [w_DEVANAGARI;w_SIGN;w_VIRAMA]);
  (0x94e, [w_DEVANAGARI;w_VOWEL;w_SIGN;w_PRISHTHAMATRA;w_E]);
  (0x94f, [w_DEVANAGARI;w_VOWEL;w_SIGN;w_AW]);
  (0x950, [w_DEVANAGARI;w_OM]);
  (0x951, [w_DEVANAGARI;w_STRESS;w_SIGN;w_UDATTA]);
  (0x952, [w_DEVANAGARI;w_STRESS;w_SIGN;w_ANUDATTA]);
  (0x953, [w_DEVANAGARI;w_GRAVE;w_ACCENT]);
  (0x954, [w_DEVANAGARI;w_ACUTE;w_ACCENT]);
  (0x955, [w_DEVANAGARI;w_VOWEL;w_SIGN;w_CANDRA;w_LONG;w_E]);
  (0x956, [w_DEVANAGARI;w_VOWEL;w_SIGN;w_UE]);
  (0x957, [w_DEVANAGARI;w_VOWEL;w_SIGN;w_UUE]);
  (0x958, [w_DEVANAGARI;w_LETTER;w_QA]);
  (0x959, [w_DEVANAGARI;w_LETTER;w_KHHA]);
  (0x95a, [w_DEVANAGARI;w_LETTER;w_GHHA]);
  (0x95b, [w_DEVANAGARI;w_LETTER;w_ZA]);
  (0x95c, [w_DEVANAGARI;w_LETTER;w_DDDHA]);
  (0x95d, [w_DEVANAGARI;w_LETTER;w_RHA]);
  (0x95e, [w_DEVANAGARI;w_LETTER;w_FA]);
  (0x95f, [w_DEVANAGARI;w_LETTER;w_YYA]);
  (0x960, [w_DEVANAGARI;w_LETTER;w_VOCALIC;w_RR]);
  (0x961, [w_DEVANAGARI;w_LETTER;w_VOCALIC;w_LL]);
  (0x962, [w_DEVANAGARI;w_VOWEL;w_SIGN;w_VOCALIC;w_L]);
  (0x963, [w_DEVANAGARI;w_VOWEL;w_SIGN;w_VOCALIC;w_LL]);
  (0x964, [w_DEVANAGARI;w_DANDA]);
  (0x965, [w_DEVANAGARI;w_DOUBLE;w_DANDA]);
  (0x966, [w_DEVANAGARI;w_DIGIT;w_ZERO]);
  (0x967, [w_DEVANAGARI;w_DIGIT;w_ONE]);
  (0x968, [w_DEVANAGARI;w_DIGIT;w_TWO]);
  (0x969, [w_DEVANAGARI;w_DIGIT;w_THREE]);
  (0x96a, [w_DEVANAGARI;w_DIGIT;w_FOUR]);
  (0x96b, [w_DEVANAGARI;w_DIGIT;w_FIVE]);
  (0x96c, [w_DEVANAGARI;w_DIGIT;w_SIX]);
  (0x96d, [w_DEVANAGARI;w_DIGIT;w_SEVEN]);
  (0x96e, [w_DEVANAGARI;w_DIGIT;w_EIGHT]);
  (0x96f, [w_DEVANAGARI;w_DIGIT;w_NINE]);
  (0x970, [w_DEVANAGARI;w_ABBREVIATION;w_SIGN]);
  (0x971, [w_DEVANAGARI;w_SIGN;w_HIGH;w_SPACING;w_DOT]);
  (0x972, [w_DEVANAGARI;w_LETTER;w_CANDRA;w_A]);
  (0x973, [w_DEVANAGARI;w_LETTER;w_OE]);
  (0x974, [w_DEVANAGARI;w_LETTER;w_OOE]);
  (0x975, [w_DEVANAGARI;w_LETTER;w_AW]);
  (0x976, [w_DEVANAGARI;w_LETTER;w_UE]);
  (0x977, [w_DEVANAGARI;w_LETTER;w_UUE]);
  (0x978, [w_DEVANAGARI;w_LETTER;w_MARWARI;w_DDA]);
  (0x979, [w_DEVANAGARI;w_LETTER;w_ZHA]);
  (0x97a, [w_DEVANAGARI;w_LETTER;w_HEAVY;w_YA]);
  (0x97b, [w_DEVANAGARI;w_LETTER;w_GGA]);
  (0x97c, [w_DEVANAGARI;w_LETTER;w_JJA]);
  (0x97d, [w_DEVANAGARI;w_LETTER;w_GLOTTAL;w_STOP]);
  (0x97e, [w_DEVANAGARI;w_LETTER;w_DDDA]);
  (0x97f, [w_DEVANAGARI;w_LETTER;w_BBA]);
  (0x980, [w_BENGALI;w_ANJI]);
  (0x981, [w_BENGALI;w_SIGN;w_CANDRABINDU]);
  (0x982, [w_BENGALI;w_SIGN;w_ANUSVARA]);
  (0x983, [w_BENGALI;w_SIGN;w_VISARGA]);
  (0x985, [w_BENGALI;w_LETTER;w_A]);
  (0x986, [w_BENGALI;w_LETTER;w_AA]);
  (0x987, [w_BENGALI;w_LETTER;w_I]);
  (0x988, [w_BENGALI;w_LETTER;w_II]);
  (0x989, [w_BENGALI;w_LETTER;w_U]);
  (0x98a, [w_BENGALI;w_LETTER;w_UU]);
  (0x98b, [w_BENGALI;w_LETTER;w_VOCALIC;w_R]);
  (0x98c, [w_BENGALI;w_LETTER;w_VOCALIC;w_L]);
  (0x98f, [w_BENGALI;w_LETTER;w_E]);
  (0x990, [w_BENGALI;w_LETTER;w_AI]);
  (0x993, [w_BENGALI;w_LETTER;w_O]);
  (0x994, [w_BENGALI;w_LETTER;w_AU]);
  (0x995, [w_BENGALI;w_LETTER;w_KA]);
  (0x996, [w_BENGALI;w_LETTER;w_KHA]);
  (0x997, [w_BENGALI;w_LETTER;w_GA]);
  (0x998, [w_BENGALI;w_LETTER;w_GHA]);
  (0x999, [w_BENGALI;w_LETTER;w_NGA]);
  (0x99a, [w_BENGALI;w_LETTER;w_CA]);
  (0x99b, [w_BENGALI;w_LETTER;w_CHA]);
  (0x99c, [w_BENGALI;w_LETTER;w_JA]);
  (0x99d, [w_BENGALI;w_LETTER;w_JHA]);
  (0x99e, [w_BENGALI;w_LETTER;w_NYA]);
  (0x99f, [w_BENGALI;w_LETTER;w_TTA]);
  (0x9a0, [w_BENGALI;w_LETTER;w_TTHA]);
  (0x9a1, [w_BENGALI;w_LETTER;w_DDA]);
  (0x9a2, [w_BENGALI;w_LETTER;w_DDHA]);
  (0x9a3, [w_BENGALI;w_LETTER;w_NNA]);
  (0x9a4, [w_BENGALI;w_LETTER;w_TA]);
  (0x9a5, [w_BENGALI;w_LETTER;w_THA]);
  (0x9a6, [w_BENGALI;w_LETTER;w_DA]);
  (0x9a7, [w_BENGALI;w_LETTER;w_DHA]);
  (0x9a8, [w_BENGALI;w_LETTER;w_NA]);
  (0x9aa, [w_BENGALI;w_LETTER;w_PA]);
  (0x9ab, [w_BENGALI;w_LETTER;w_PHA]);
  (0x9ac, [w_BENGALI;w_LETTER;w_BA]);
  (0x9ad, [w_BENGALI;w_LETTER;w_BHA]);
  (0x9ae, [w_BENGALI;w_LETTER;w_MA]);
  (0x9af, [w_BENGALI;w_LETTER;w_YA]);
  (0x9b0, [w_BENGALI;w_LETTER;w_RA]);
  (0x9b2, [w_BENGALI;w_LETTER;w_LA]);
  (0x9b6, [w_BENGALI;w_LETTER;w_SHA]);
  (0x9b7, [w_BENGALI;w_LETTER;w_SSA]);
  (0x9b8, [w_BENGALI;w_LETTER;w_SA]);
  (0x9b9, [w_BENGALI;w_LETTER;w_HA]);
  (0x9bc, [w_BENGALI;w_SIGN;w_NUKTA]);
  (0x9bd, [w_BENGALI;w_SIGN;w_AVAGRAHA]);
  (0x9be, [w_BENGALI;w_VOWEL;w_SIGN;w_AA]);
  (0x9bf, [w_BENGALI;w_VOWEL;w_SIGN;w_I]);
  (0x9c0, [w_BENGALI;w_VOWEL;w_SIGN;w_II]);
  (0x9c1, [w_BENGALI;w_VOWEL;w_SIGN;w_U]);
  (0x9c2, [w_BENGALI;w_VOWEL;w_SIGN;w_UU]);
  (0x9c3, [w_BENGALI;w_VOWEL;w_SIGN;w_VOCALIC;w_R]);
  (0x9c4, [w_BENGALI;w_VOWEL;w_SIGN;w_VOCALIC;w_RR]);
  (0x9c7, [w_BENGALI;w_VOWEL;w_SIGN;w_E]);
  (0x9c8, [w_BENGALI;w_VOWEL;w_SIGN;w_AI]);
  (0x9cb, [w_BENGALI;w_VOWEL;w_SIGN;w_O]);
  (0x9cc, [w_BENGALI;w_VOWEL;w_SIGN;w_AU]);
  (0x9cd, [w_BENGALI;w_SIGN;w_VIRAMA]);
  (0x9ce, [w_BENGALI;w_LETTER;w_KHANDA;w_TA]);
  (0x9d7, [w_BENGALI;w_AU;w_LENGTH;w_MARK]);
  (0x9dc, [w_BENGALI;w_LETTER;w_RRA]);
  (0x9dd, [w_BENGALI;w_LETTER;w_RHA]);
  (0x9df, [w_BENGALI;w_LETTER;w_YYA]);
  (0x9e0, [w_BENGALI;w_LETTER;w_VOCALIC;w_RR]);
  (0x9e1, [w_BENGALI;w_LETTER;w_VOCALIC;w_LL]);
  (0x9e2, [w_BENGALI;w_VOWEL;w_SIGN;w_VOCALIC;w_L]);
  (0x9e3, [w_BENGALI;w_VOWEL;w_SIGN;w_VOCALIC;w_LL]);
  (0x9e6, [w_BENGALI;w_DIGIT;w_ZERO]);
  (0x9e7, [w_BENGALI;w_DIGIT;w_ONE]);
  (0x9e8, [w_BENGALI;w_DIGIT;w_TWO]);
  (0x9e9, [w_BENGALI;w_DIGIT;w_THREE]);
  (0x9ea, [w_BENGALI;w_DIGIT;w_FOUR]);
  (0x9eb, [w_BENGALI;w_DIGIT;w_FIVE]);
  (0x9ec, [w_BENGALI;w_DIGIT;w_SIX]);
  (0x9ed, [w_BENGALI;w_DIGIT;w_SEVEN]);
  (0x9ee, [w_BENGALI;w_DIGIT;w_EIGHT]);
  (0x9ef, [w_BENGALI;w_DIGIT;w_NINE]);
  (0x9f0, [w_BENGALI;w_LETTER;w_RA;w_WITH;w_MIDDLE;w_DIAGONAL]);
  (0x9f1, [w_BENGALI;w_LETTER;w_RA;w_WITH;w_LOWER;w_DIAGONAL]);
  (0x9f2, [w_BENGALI;w_RUPEE;w_MARK]);
  (0x9f3, [w_BENGALI;w_RUPEE;w_SIGN]);
  (0x9f4, [w_BENGALI;w_CURRENCY;w_NUMERATOR;w_ONE]);
  (0x9f5, [w_BENGALI;w_CURRENCY;w_NUMERATOR;w_TWO]);
  (0x9f6, [w_BENGALI;w_CURRENCY;w_NUMERATOR;w_THREE]);
  (0x9f7, [w_BENGALI;w_CURRENCY;w_NUMERATOR;w_FOUR]);
  (0x9f8, [w_BENGALI;w_CURRENCY;w_NUMERATOR;w_ONE;w_LESS;w_THAN;w_THE;w_DENOMINATOR]);
  (0x9f9, [w_BENGALI;w_CURRENCY;w_DENOMINATOR;w_SIXTEEN]);
  (0x9fa, [w_BENGALI;w_ISSHAR]);
  (0x9fb, [w_BENGALI;w_GANDA;w_MARK]);
  (0x9fc, [w_BENGALI;w_LETTER;w_VEDIC;w_ANUSVARA]);
  (0x9fd, [w_BENGALI;w_ABBREVIATION;w_SIGN]);
  (0xa01, [w_GURMUKHI;w_SIGN;w_ADAK;w_BINDI]);
  (0xa02, [w_GURMUKHI;w_SIGN;w_BINDI]);
  (0xa03, [w_GURMUKHI;w_SIGN;w_VISARGA]);
  (0xa05, [w_GURMUKHI;w_LETTER;w_A]);
  (0xa06, [w_GURMUKHI;w_LETTER;w_AA]);
  (0xa07, [w_GURMUKHI;w_LETTER;w_I]);
  (0xa08, [w_GURMUKHI;w_LETTER;w_II]);
  (0xa09, [w_GURMUKHI;w_LETTER;w_U]);
  (0xa0a, [w_GURMUKHI;w_LETTER;w_UU]);
  (0xa0f, [w_GURMUKHI;w_LETTER;w_EE]);
  (0xa10, [w_GURMUKHI;w_LETTER;w_AI]);
  (0xa13, [w_GURMUKHI;w_LETTER;w_OO]);
  (0xa14, [w_GURMUKHI;w_LETTER;w_AU]);
  (0xa15, [w_GURMUKHI;w_LETTER;w_KA]);
  (0xa16, [w_GURMUKHI;w_LETTER;w_KHA]);
  (0xa17, [w_GURMUKHI;w_LETTER;w_GA]);
  (0xa18, [w_GURMUKHI;w_LETTER;w_GHA]);
  (0xa19, [w_GURMUKHI;w_LETTER;w_NGA]);
  (0xa1a, [w_GURMUKHI;w_LETTER;w_CA]);
  (0xa1b, [w_GURMUKHI;w_LETTER;w_CHA]);
  (0xa1c, [w_GURMUKHI;w_LETTER;w_JA]);
  (0xa1d, [w_GURMUKHI;w_LETTER;w_JHA]);
  (0xa1e, [w_GURMUKHI;w_LETTER;w_NYA]);
  (0xa1f, [w_GURMUKHI;w_LETTER;w_TTA]);
  (0xa20, [w_GURMUKHI;w_LETTER;w_TTHA]);
  (0xa21, [w_GURMUKHI;w_LETTER;w_DDA]);
  (0xa22, [w_GURMUKHI;w_LETTER;w_DDHA]);
  (0xa23, [w_GURMUKHI;w_LETTER;w_NNA]);
  (0xa24, [w_GURMUKHI;w_LETTER;w_TA]);
  (0xa25, [w_GURMUKHI;w_LETTER;w_THA]);
  (0xa26, [w_GURMUKHI;w_LETTER;w_DA]);
  (0xa27, [w_GURMUKHI;w_LETTER;w_DHA]);
  (0xa28, [w_GURMUKHI;w_LETTER;w_NA]);
  (0xa2a, [w_GURMUKHI;w_LETTER;w_PA]);
  (0xa2b, [w_GURMUKHI;w_LETTER;w_PHA]);
  (0xa2c, [w_GURMUKHI;w_LETTER;w_BA]);
  (0xa2d, [w_GURMUKHI;w_LETTER;w_BHA]);
  (0xa2e, [w_GURMUKHI;w_LETTER;w_MA]);
  (0xa2f, [w_GURMUKHI;w_LETTER;w_YA]);
  (0xa30, [w_GURMUKHI;w_LETTER;w_RA]);
  (0xa32, [w_GURMUKHI;w_LETTER;w_LA]);
  (0xa33, [w_GURMUKHI;w_LETTER;w_LLA]);
  (0xa35, [w_GURMUKHI;w_LETTER;w_VA]);
  (0xa36, [w_GURMUKHI;w_LETTER;w_SHA]);
  (0xa38, [w_GURMUKHI;w_LETTER;w_SA]);
  (0xa39, [w_GURMUKHI;w_LETTER;w_HA]);
  (0xa3c, [w_GURMUKHI;w_SIGN;w_NUKTA]);
  (0xa3e, [w_GURMUKHI;w_VOWEL;w_SIGN;w_AA]);
  (0xa3f, [w_GURMUKHI;w_VOWEL;w_SIGN;w_I]);
  (0xa40, [w_GURMUKHI;w_VOWEL;w_SIGN;w_II]);
  (0xa41, [w_GURMUKHI;w_VOWEL;w_SIGN;w_U]);
  (0xa42, [w_GURMUKHI;w_VOWEL;w_SIGN;w_UU]);
  (0xa47, [w_GURMUKHI;w_VOWEL;w_SIGN;w_EE]);
  (0xa48, [w_GURMUKHI;w_VOWEL;w_SIGN;w_AI]);
  (0xa4b, [w_GURMUKHI;w_VOWEL;w_SIGN;w_OO]);
  (0xa4c, [w_GURMUKHI;w_VOWEL;w_SIGN;w_AU]);
  (0xa4d, [w_GURMUKHI;w_SIGN;w_VIRAMA]);
  (0xa51, [w_GURMUKHI;w_SIGN;w_UDAAT]);
  (0xa59, [w_GURMUKHI;w_LETTER;w_KHHA]);
  (0xa5a, [w_GURMUKHI;w_LETTER;w_GHHA]);
  (0xa5b, [w_GURMUKHI;w_LETTER;w_ZA]);
  (0xa5c, [w_GURMUKHI;w_LETTER;w_RRA]);
  (0xa5e, [w_GURMUKHI;w_LETTER;w_FA]);
  (0xa66, [w_GURMUKHI;w_DIGIT;w_ZERO]);
  (0xa67, [w_GURMUKHI;w_DIGIT;w_ONE]);
  (0xa68, [w_GURMUKHI;w_DIGIT;w_TWO]);
  (0xa69, [w_GURMUKHI;w_DIGIT;w_THREE]);
  (0xa6a, [w_GURMUKHI;w_DIGIT;w_FOUR]);
  (0xa6b, [w_GURMUKHI;w_DIGIT;w_FIVE]);
  (0xa6c, [w_GURMUKHI;w_DIGIT;w_SIX]);
  (0xa6d, [w_GURMUKHI;w_DIGIT;w_SEVEN]);
  (0xa6e, [w_GURMUKHI;w_DIGIT;w_EIGHT]);
  (0xa6f, [w_GURMUKHI;w_DIGIT;w_NINE]);
  (0xa70, [w_GURMUKHI;w_TIPPI]);
  (0xa71, [w_GURMUKHI;w_ADDAK]);
  (0xa72, [w_GURMUKHI;w_IRI]);
  (0xa73, [w_GURMUKHI;w_URA]);
  (0xa74, [w_GURMUKHI;w_EK;w_ONKAR]);
  (0xa75, [w_GURMUKHI;w_SIGN;w_YAKASH]);
  (0xa81, [w_GUJARATI;w_SIGN;w_CANDRABINDU]);
  (0xa82, [w_GUJARATI;w_SIGN;w_ANUSVARA]);
  (0xa83, [w_GUJARATI;w_SIGN;w_VISARGA]);
  (0xa85, [w_GUJARATI;w_LETTER;w_A]);
  (0xa86, [w_GUJARATI;w_LETTER;w_AA])].

Definition NAMES_6 : list (N * (list str)) := [
  (0xa87, [w_GUJARATI;w_LETTER;w_I]);
  (0xa88, [w_GUJARATI;w_LETTER;w_II]);
  (0xa89, [w_GUJARATI;w_LETTER;w_U]);
  (0xa8a, [w_GUJARATI;w_LETTER;w_UU]);
  (0xa8b, [w_GUJARATI;w_LETTER;w_VOCALIC;w_R]);
  (0xa8c, [w_GUJARATI;w_LETTER;w_VOCALIC;w_L]);
  (0xa8d, [w_GUJARATI;w_VOWEL;w_CANDRA;w_E]);
  (0xa8f, [w_GUJARATI;w_LETTER;w_E]);
  (0xa90, [w_GUJARATI;w_LETTER;w_AI]);
  (0xa91, [w_GUJARATI;w_VOWEL;w_CANDRA;w_O]);
  (0xa93, [w_GUJARATI;w_LETTER;w_O]);
  (0xa94, [w_GUJARATI;w_LETTER;w_AU]);
  (0xa95, [w_GUJARATI;w_LETTER;w_KA]);
  (0xa96, [w_GUJARATI;w_LETTER;w_KHA]);
  (0xa97, [w_GUJARATI;w_LETTER;w_GA]);
  (0xa98, [w_GUJARATI;w_LETTER;w_GHA]);
  (0xa99, [w_GUJARATI;w_LETTER;w_NGA]);
  (0xa9a, [w_GUJARATI;w_LETTER;w_CA]);
  (0xa9b, [w_GUJARATI;w_LETTER;w_CHA]);
  (0xa9c, [w_GUJARATI;w_LETTER;w_JA]);
  (0xa9d, [w_GUJARATI;w_LETTER;w_JHA]);
  (0xa9e, [w_GUJARATI;w_LETTER;w_NYA]);
  (0xa9f, [w_GUJARATI;w_LETTER;w_TTA]);
  (0xaa0, [w_GUJARATI;w_LETTER;w_TTHA]);
  (0xaa1, [w_GUJARATI;w_LETTER;w_DDA]);
  (0xaa2, [w_GUJARATI;w_LETTER;w_DDHA]);
  (0xaa3, [w_GUJARATI;w_LETTER;w_NNA]);
  (0xaa4, [w_GUJARATI;w_LETTER;w_TA]);
  (0xaa5, [w_GUJARATI;w_LETTER;w_THA]);
  (0xaa6, [w_GUJARATI;w_LETTER;w_DA]);
  (0xaa7, [w_GUJARATI;w_LETTER;w_DHA]);
  (0xaa8, [w_GUJARATI;w_LETTER;w_NA]);
  (0xaaa, [w_GUJARATI;w_LETTER;w_PA]);
  (0xaab, [w_GUJARATI;w_LETTER;w_PHA]);
  (0xaac, [w_GUJARATI;w_LETTER;w_BA]);
  (0xaad, [w_GUJARATI;w_LETTER;w_BHA]);
  (0xaae, [w_GUJARATI;w_LETTER;w_MA]);
  (0xaaf, [w_GUJARATI;w_LETTER;w_YA]);
  (0xab0, [w_GUJARATI;w_LETTER;w_RA]);
  (0xab2, [w_GUJARATI;w_LETTER;w_LA]);
  (0xab3, [w_GUJARATI;w_LETTER;w_LLA]);
  (0xab5, [w_GUJARATI;w_LETTER;w_VA]);
  (0xab6, [w_GUJARATI;w_LETTER;w_SHA]);
  (0xab7, [w_GUJARATI;w_LETTER;w_SSA]);
  (0xab8, [w_GUJARATI;w_LETTER;w_SA]);
  (0xab9, [w_GUJARATI;w_LETTER;w_HA]);
  (0xabc, [w_GUJARATI;w_SIGN;w_NUKTA]);
  (0xabd, [w_GUJARATI;w_SIGN;w_AVAGRAHA]);
  (0xabe, [w_GUJARATI;w_VOWEL;w_SIGN;w_AA]);
  (0xabf, [w_GUJARATI;w_VOWEL;w_SIGN;w_I]);
  (0xac0, [w_GUJARATI;w_VOWEL;w_SIGN;w_II]);
  (0xac1, [w_GUJARATI;w_VOWEL;w_SIGN;w_U]);
  (0xac2, [w_GUJARATI;w_VOWEL;w_SIGN;w_UU]);
  (0xac3, [w_GUJARATI;w_VOWEL;w_SIGN;w_VOCALIC;w_R]);
  (0xac4, [w_GUJARATI;w_VOWEL;w_SIGN;w_VOCALIC;w_RR]);
  (0xac5, [w_GUJARATI;w_VOWEL;w_SIGN;w_CANDRA;w_E]);
  (0xac7, [w_GUJARATI;w_VOWEL;w_SIGN;w_E]);
  (0xac8, [w_GUJARATI;w_VOWEL;w_SIGN;w_AI]);
  (0xac9, [w_GUJARATI;w_VOWEL;w_SIGN;w_CANDRA;w_O]);
  (0xacb, [w_GUJARATI;w_VOWEL;w_SIGN;w_O]);
  (0xacc, [w_GUJARATI;w_VOWEL;w_SIGN;w_AU]);
  (0xacd, [w_GUJARATI;w_SIGN;w_VIRAMA]);
  (0xad0, [w_GUJARATI;w_OM]);
  (0xae0, [w_GUJARATI;w_LETTER;w_VOCALIC;w_RR]);
  (0xae1, [w_GUJARATI;w_LETTER;w_VOCALIC;w_LL]);
  (0xae2, [w_GUJARATI;w_VOWEL;w_SIGN;w_VOCALIC;w_L]);
  (0xae3, [w_GUJARATI;w_VOWEL;w_SIGN;w_VOCALIC;w_LL]);
  (0xae6, [w_GUJARATI;w_DIGIT;w_ZERO]);
  (0xae7, [w_GUJARATI;w_DIGIT;w_ONE]);
  (0xae8, [w_GUJARATI;w_DIGIT;w_TWO]);
  (0xae9, [w_GUJARATI;w_DIGIT;w_THREE]);
  (0xaea, [w_GUJARATI;w_DIGIT;w_FOUR]);
  (0xaeb, [w_GUJARATI;w_DIGIT;w_FIVE]);
  (0xaec, [w_GUJARATI;w_DIGIT;w_SIX]);
  (0xaed, [w_GUJARATI;w_DIGIT;w_SEVEN]);
  (0xaee, [w_GUJARATI;w_DIGIT;w_EIGHT]);
  (0xaef, [w_GUJARATI;w_DIGIT;w_NINE]);
  (0xaf0, [w_GUJARATI;w_ABBREVIATION;w_SIGN]);
  (0xaf1, [w_GUJARATI;w_RUPEE;w_SIGN]);
  (0xaf9, [w_GUJARATI;w_LETTER;w_ZHA]);
  (0xafa, [w_GUJARATI;w_SIGN;w_SUKUN]);
  (0xafb, [w_GUJARATI;w_SIGN;w_SHADDA]);
  (0xafc, [w_GUJARATI;w_SIGN;w_MADDAH]);
  (0xafd, [w_GUJARATI;w_SIGN;w_THREE_DOT;w_NUKTA;w_ABOVE]);
  (0xafe, [w_GUJARATI;w_SIGN;w_CIRCLE;w_NUKTA;w_ABOVE]);
  (0xaff, [w_GUJARATI;w_SIGN;w_TWO_CIRCLE;w_NUKTA;w_ABOVE]);
  (0xb01, [w_ORIYA;w_SIGN;w_CANDRABINDU]);
  (0xb02, [w_ORIYA;w_SIGN;w_ANUSVARA]);
  (0xb03, [w_ORIYA;w_SIGN;w_VISARGA]);
  (0xb05, [w_ORIYA;w_LETTER;w_A]);
  (0xb06, [w_ORIYA;w_LETTER;w_AA]);
  (0xb07, [w_ORIYA;w_LETTER;w_I]);
  (0xb08, [w_ORIYA;w_LETTER;w_II]);
  (0xb09, [w_ORIYA;w_LETTER;w_U]);
  (0xb0a, [w_ORIYA;w_LETTER;w_UU]);
  (0xb0b, [w_ORIYA;w_LETTER;w_VOCALIC;w_R]);
  (0xb0c, [w_ORIYA;w_LETTER;w_VOCALIC;w_L]);
  (0xb0f, [w_ORIYA;w_LETTER;w_E]);
  (0xb10, [w_ORIYA;w_LETTER;w_AI]);
  (0xb13, [w_ORIYA;w_LETTER;w_O]);
  (0xb14, [w_ORIYA;w_LETTER;w_AU]);
  (0xb15, [w_ORIYA;w_LETTER;w_KA]);
  (0xb16, [w_ORIYA;w_LETTER;w_KHA]);
  (0xb17, [w_ORIYA;w_LETTER;w_GA]);
  (0xb18, [w_ORIYA;w_LETTER;w_GHA]);
  (0xb19, [w_ORIYA;w_LETTER;w_NGA]);
  (0xb1a, [w_ORIYA;w_LETTER;w_CA]);
  (0xb1b, [w_ORIYA;w_LETTER;w_CHA]);
  (0xb1c, [w_ORIYA;w_LETTER;w_JA]);
  (0xb1d, [w_ORIYA;w_LETTER;w_JHA]);
  (0xb1e, [w_ORIYA;w_LETTER;w_NYA]);
  (0xb1f, [w_ORIYA;w_LETTER;w_TTA]);
  (0xb20, [w_ORIYA;w_LETTER;w_TTHA]);
  (0xb21, [w_ORIYA;w_LETTER;w_DDA]);
  (0xb22, [w_ORIYA;w_LETTER;w_DDHA]);
  (0xb23, [w_ORIYA;w_LETTER;w_NNA]);
  (0xb24, [w_ORIYA;w_LETTER;w_TA]);
  (0xb25, [w_ORIYA;w_LETTER;w_THA]);
  (0xb26, [w_ORIYA;w_LETTER;w_DA]);
  (0xb27, [w_ORIYA;w_LETTER;w_DHA]);
  (0xb28, [w_ORIYA;w_LETTER;w_NA]);
  (0xb2a, [w_ORIYA;w_LETTER;w_PA]);
  (0xb2b, [w_ORIYA;w_LETTER;w_PHA]);
  (0xb2c, [w_ORIYA;w_LETTER;w_BA]);
  (0xb2d, [w_ORIYA;w_LETTER;w_BHA]);
  (0xb2e, [w_ORIYA;w_LETTER;w_MA]);
  (0xb2f, [w_ORIYA;w_LETTER;w_YA]);
  (0xb30, [w_ORIYA;w_LETTER;w_RA]);
  (0xb32, [w_ORIYA;w_LETTER;w_LA]);
  (0xb33, [w_ORIYA;w_LETTER;w_LLA]);
  (0xb35, [w_ORIYA;w_LETTER;w_VA]);
  (0xb36, [w_ORIYA;w_LETTER;w_SHA]);
  (0xb37, [w_ORIYA;w_LETTER;w_SSA]);
  (0xb38, [w_ORIYA;w_LETTER;w_SA]);
  (0xb39, [w_ORIYA;w_LETTER;w_HA]);
  (0xb3c, [w_ORIYA;w_SIGN;w_NUKTA]);
  (0xb3d, [w_ORIYA;w_SIGN;w_AVAGRAHA]);
  (0xb3e, [w_ORIYA;w_VOWEL;w_SIGN;w_AA]);
  (0xb3f, [w_ORIYA;w_VOWEL;w_SIGN;w_I]);
  (0xb40, [w_ORIYA;w_VOWEL;w_SIGN;w_II]);
  (0xb41, [w_ORIYA;w_VOWEL;w_SIGN;w_U]);
  (0xb42, [w_ORIYA;w_VOWEL;w_SIGN;w_UU]);
  (0xb43, [w_ORIYA;w_VOWEL;w_SIGN;w_VOCALIC;w_R]);
  (0xb44, [w_ORIYA;w_VOWEL;w_SIGN;w_VOCALIC;w_RR]);
  (0xb47, [w_ORIYA;w_VOWEL;w_SIGN;w_E]);
  (0xb48, [w_ORIYA;w_VOWEL;w_SIGN;w_AI]);
  (0xb4b, [w_ORIYA;w_VOWEL;w_SIGN;w_O]);
  (0xb4c, [w_ORIYA;w_VOWEL;w_SIGN;w_AU]);
  (0xb4d, [w_ORIYA;w_SIGN;w_VIRAMA]);
  (0xb56, [w_ORIYA;w_AI;w_LENGTH;w_MARK]);
  (0xb57, [w_ORIYA;w_AU;w_LENGTH;w_MARK]);
  (0xb5c, [w_ORIYA;w_LETTER;w_RRA]);
  (0xb5d, [w_ORIYA;w_LETTER;w_RHA]);
  (0xb5f, [w_ORIYA;w_LETTER;w_YYA]);
  (0xb60, [w_ORIYA;w_LETTER;w_VOCALIC;w_RR]);
  (0xb61, [w_ORIYA;w_LETTER;w_VOCALIC;w_LL]);
  (0xb62, [w_ORIYA;w_VOWEL;w_SIGN;w_VOCALIC;w_L]);
  (0xb63, [w_ORIYA;w_VOWEL;w_SIGN;w_VOCALIC;w_LL]);
  (0xb66, [w_ORIYA;w_DIGIT;w_ZERO]);
  (0xb67, [w_ORIYA;w_DIGIT;w_ONE]);
  (0xb68, [w_ORIYA;w_DIGIT;w_TWO]);
  (0xb69, [w_ORIYA;w_DIGIT;w_THREE]);
  (0xb6a, [w_ORIYA;w_DIGIT;w_FOUR]);
  (0xb6b, [w_ORIYA;w_DIGIT;w_FIVE]);
  (0xb6c, [w_ORIYA;w_DIGIT;w_SIX]);
  (0xb6d, [w_ORIYA;w_DIGIT;w_SEVEN]);
  (0xb6e, [w_ORIYA;w_DIGIT;w_EIGHT]);
  (0xb6f, [w_ORIYA;w_DIGIT;w_NINE]);
  (0xb70, [w_ORIYA;w_ISSHAR]);
  (0xb71, [w_ORIYA;w_LETTER;w_WA]);
  (0xb72, [w_ORIYA;w_FRACTION;w_ONE;w_QUARTER]);
  (0xb73, [w_ORIYA;w_FRACTION;w_ONE;w_HALF]);
  (0xb74, [w_ORIYA;w_FRACTION;w_THREE;w_QUARTERS]);
  (0xb75, [w_ORIYA;w_FRACTION;w_ONE;w_SIXTEENTH]);
  (0xb76, [w_ORIYA;w_FRACTION;w_ONE;w_EIGHTH]);
  (0xb77, [w_ORIYA;w_FRACTION;w_THREE;w_SIXTEENTHS]);
  (0xb82, [w_TAMIL;w_SIGN;w_ANUSVARA]);
  (0xb83, [w_TAMIL;w_SIGN;w_VISARGA]);
  (0xb85, [w_TAMIL;w_LETTER;w_A]);
  (0xb86, [w_TAMIL;w_LETTER;w_AA]);
  (0xb87, [w_TAMIL;w_LETTER;w_I]);
  (0xb88, [w_TAMIL;w_LETTER;w_II]);
  (0xb89, [w_TAMIL;w_LETTER;w_U]);
  (0xb8a, [w_TAMIL;w_LETTER;w_UU]);
  (0xb8e, [w_TAMIL;w_LETTER;w_E]);
  (0xb8f, [w_TAMIL;w_LETTER;w_EE]);
  (0xb90, [w_TAMIL;w_LETTER;w_AI]);
  (0xb92, [w_TAMIL;w_LETTER;w_O]);
  (0xb93, [w_TAMIL;w_LETTER;w_OO]);
  (0xb94, [w_TAMIL;w_LETTER;w_AU]);
  (0xb95, [w_TAMIL;w_LETTER;w_KA]);
  (0xb99, [w_TAMIL;w_LETTER;w_NGA]);
  (0xb9a, [w_TAMIL;w_LETTER;w_CA]);
  (0xb9c, [w_TAMIL;w_LETTER;w_JA]);
  (0xb9e, [w_TAMIL;w_LETTER;w_NYA]);
  (0xb9f, [w_TAMIL;w_LETTER;w_TTA]);
  (0xba3, [w_TAMIL;w_LETTER;w_NNA]);
  (0xba4, [w_TAMIL;w_LETTER;w_TA]);
  (0xba8, [w_TAMIL;w_LETTER;w_NA]);
  (0xba9, [w_TAMIL;w_LETTER;w_NNNA]);
  (0xbaa, [w_TAMIL;w_LETTER;w_PA]);
  (0xbae, [w_TAMIL;w_LETTER;w_MA]);
  (0xbaf, [w_TAMIL;w_LETTER;w_YA]);
  (0xbb0, [w_TAMIL;w_LETTER;w_RA]);
  (0xbb1, [w_TAMIL;w_LETTER;w_RRA]);
  (0xbb2, [w_TAMIL;w_LETTER;w_LA]);
  (0xbb3, [w_TAMIL;w_LETTER;w_LLA]);
  (0xbb4, [w_TAMIL;w_LETTER;w_LLLA]);
  (0xbb5, [w_TAMIL;w_LETTER;w_VA]);
  (0xbb6, [w_TAMIL;w_LETTER;w_SHA]);
  (0xbb7, [w_TAMIL;w_LETTER;w_SSA]);
  (0xbb8, [w_TAMIL;w_LETTER;w_SA]);
  (0xbb9, [w_TAMIL;w_LETTER;w_HA]);
  (0xbbe, [w_TAMIL;w_VOWEL;w_SIGN;w_AA]);
  (0xbbf, [w_TAMIL;w_VOWEL;w_SIGN;w_I]);
  (0xbc0, [w_TAMIL;w_VOWEL;w_SIGN;w_II]);
  (0xbc1, [w_TAMIL;w_VOWEL;w_SIGN;w_U]);
  (0xbc2, [w_TAMIL;w_VOWEL;w_SIGN;w_UU]);
  (0xbc6, [w_TAMIL;w_VOWEL;w_SIGN;w_E]);
  (0xbc7, [w_TAMIL;w_VOWEL;w_SIGN;w_EE]);
  (0xbc8, [w_TAMIL;w_VOWEL;w_SIGN;w_AI]);
  (0xbca, [w_TAMIL;w_VOWEL;w_SIGN;w_O]);
  (0xbcb, [w_TAMIL;w_VOWEL;w_SIGN;w_OO]);
  (0xbcc, [w_TAMIL;w_VOWEL;w_SIGN;w_AU]);
  (0xbcd, [w_TAMIL;w_SIGN;w_VIRAMA]);
  (0xbd0, [w_TAMIL;w_OM]);
  (0xbd7, [w_TAMIL;w_AU;w_LENGTH;w_MARK]);
  (0xbe6, [w_TAMIL;w_DIGIT;w_ZERO]);
  (0xbe7, [w_TAMIL;w_DIGIT;w_ONE]);
  (0xbe8, [w_TAMIL;w_DIGIT;w_TWO]);
  (0xbe9, [w_TAMIL;w_DIGIT;w_THREE]);
  (0xbea, [w_TAMIL;w_DIGIT;w_FOUR]);
  (0xbeb, [w_TAMIL;w_DIGIT;w_FIVE]);
  (0xbec, [w_TAMIL;w_DIGIT;w_SIX]);
  (0xbed, [w_TAMIL;w_DIGIT;w_SEVEN]);
  (0xbee, [w_TAMIL;w_DIGIT;w_EIGHT]);
  (0xbef, [w_TAMIL;w_DIGIT;w_NINE]);
  (0xbf0, [w_TAMIL;w_NUMBER;w_TEN]);
  (0xbf1, [w_TAMIL;w_NUMBER;w_ONE;w_HUNDRED]);
  (0xbf2, [w_TAMIL;w_NUMBER;w_ONE;w_THOUSAND]);
  (0xbf3, [w_TAMIL;w_DAY;w_SIGN]);
  (0xbf4, [w_TAMIL;w_MONTH;w_SIGN]);
  (0xbf5, [w_TAMIL;w_YEAR;w_SIGN]);
  (0xbf6, [w_TAMIL;w_DEBIT;w_SIGN]);
  (0xbf7, [w_TAMIL;w_CREDIT;w_SIGN]);
  (0xbf8, [w_TAMIL;w_AS;w_ABOVE;w_SIGN]);
  (0xbf9, [w_TAMIL;w_RUPEE;w_SIGN]);
  (0xbfa, [w_TAMIL;w_NUMBER;w_SIGN]);
  (0xc00, [w_TELUGU;w_SIGN;w_COMBINING;w_CANDRABINDU;w_ABOVE]);
  (0xc01, [w_TELUGU;w_SIGN;w_CANDRABINDU]);
  (0xc02, [w_TELUGU;w_SIGN;w_ANUSVARA]);
  (0xc03, [w_TELUGU;w_SIGN;w_VISARGA]);
  (0xc05, [w_TELUGU;w_LETTER;w_A]);
  (0xc06, [w_TELUGU;w_LETTER;w_AA]);
  (0xc07, [w_TELUGU;w_LETTER;w_I]);
  (0xc08, [w_TELUGU;w_LETTER;w_II]);
  (0xc09, [w_TELUGU;w_LETTER;w_U]);
  (0xc0a, [w_TELUGU;w_LETTER;w_UU]);
  (0xc0b, [w_TELUGU;w_LETTER;w_VOCALIC;w_R]);
  (0xc0c, [w_TELUGU;w_LETTER;w_VOCALIC;w_L]);
  (0xc0e, [w_TELUGU;w_LETTER;w_E]);
  (0xc0f, [w_TELUGU;w_LETTER;w_EE]);
  (0xc10, [w_TELUGU;w_LETTER;w_AI]);
  (0xc12, [w_TELUGU;w_LETTER;w_O]);
  (0xc13, [w_TELUGU;w_LETTER;w_OO]);
  (0xc14, [w_TELUGU;w_LETTER;w_AU]);
  (0xc15, [w_TELUGU;w_LETTER;w_KA]);
  (0xc16, [w_TELUGU;w_LETTER;w_KHA]);
  (0xc17, [w_TELUGU;w_LETTER;w_GA]);
  (0xc18, [w_TELUGU;w_LETTER;w_GHA]);
  (0xc19, [w_TELUGU;w_LETTER;w_NGA]);
  (0xc1a, [w_TELUGU;w_LETTER;w_CA]);
  (0xc1b, [w_TELUGU;w_LETTER;w_CHA]);
  (0xc1c, [w_TELUGU;w_LETTER;w_JA]);
  (0xc1d, [w_TELUGU;w_LETTER;w_JHA]);
  (0xc1e, [w_TELUGU;w_LETTER;w_NYA]);
  (0xc1f, [w_TELUGU;w_LETTER;w_TTA]);
  (0xc20, [w_TELUGU;w_LETTER;w_TTHA]);
  (0xc21, [w_TELUGU;w_LETTER;w_DDA]);
  (0xc22, [w_TELUGU;w_LETTER;w_DDHA]);
  (0xc23, [w_TELUGU;w_LETTER;w_NNA]);
  (0xc24, [w_TELUGU;w_LETTER;w_TA]);
  (0xc25, [w_TELUGU;w_LETTER;w_THA]);
  (0xc26, [w_TELUGU;w_LETTER;w_DA]);
  (0xc27, [w_TELUGU;w_LETTER;w_DHA]);
  (0xc28, [w_TELUGU;w_LETTER;w_NA]);
  (0xc2a, [w_TELUGU;w_LETTER;w_PA]);
  (0xc2b, [w_TELUGU;w_LETTER;w_PHA]);
  (0xc2c, [w_TELUGU;w_LETTER;w_BA]);
  (0xc2d, [w_TELUGU;w_LETTER;w_BHA]);
  (0xc2e, [w_TELUGU;w_LETTER;w_MA]);
  (0xc2f, [w_TELUGU;w_LETTER;w_YA]);
  (0xc30, [w_TELUGU;w_LETTER;w_RA]);
  (0xc31, [w_TELUGU;w_LETTER;w_RRA]);
  (0xc32, [w_TELUGU;w_LETTER;w_LA]);
  (0xc33, [w_TELUGU;w_LETTER;w_LLA]);
  (0xc34, [w_TELUGU;w_LETTER;w_LLLA]);
  (0xc35, [w_TELUGU;w_LETTER;w_VA]);
  (0xc36, [w_TELUGU;w_LETTER;w_SHA]);
  (0xc37, [w_TELUGU;w_LETTER;w_SSA]);
  (0xc38, [w_TELUGU;w_LETTER;w_SA]);
  (0xc39, [w_TELUGU;w_LETTER;w_HA]);
  (0xc3d, [w_TELUGU;w_SIGN;w_AVAGRAHA]);
  (0xc3e, [w_TELUGU;w_VOWEL;w_SIGN;w_AA]);
  (0xc3f, [w_TELUGU;w_VOWEL;w_SIGN;w_I]);
  (0xc40, [w_TELUGU;w_VOWEL;w_SIGN;w_II]);
  (0xc41, [w_TELUGU;w_VOWEL;w_SIGN;w_U]);
  (0xc42, [w_TELUGU;w_VOWEL;w_SIGN;w_UU]);
  (0xc43, [w_TELUGU;w_VOWEL;w_SIGN;w_VOCALIC;w_R]);
  (0xc44, [w_TELUGU;w_VOWEL;w_SIGN;w_VOCALIC;w_RR]);
  (0xc46, [w_TELUGU;w_VOWEL;w_SIGN;w_E]);
  (0xc47, [w_TELUGU;w_VOWEL;w_SIGN;w_EE]);
  (0xc48, [w_TELUGU;w_VOWEL;w_SIGN;w_AI]);
  (0xc4a, [w_TELUGU;w_VOWEL;w_SIGN;w_O]);
  (0xc4b, [w_TELUGU;w_VOWEL;w_SIGN;w_OO]);
  (0xc4c, [w_TELUGU;w_VOWEL;w_SIGN;w_AU]);
  (0xc4d, [w_TELUGU;w_SIGN;w_VIRAMA]);
  (0xc55, [w_TELUGU;w_LENGTH;w_MARK]);
  (0xc56, [w_TELUGU;w_AI;w_LENGTH;w_MARK]);
  (0xc58, [w_TELUGU;w_LETTER;w_TSA]);
  (0xc59, [w_TELUGU;w_LETTER;w_DZA]);
  (0xc5a, [w_TELUGU;w_LETTER;w_RRRA]);
  (0xc60, [w_TELUGU;w_LETTER;w_VOCALIC;w_RR]);
  (0xc61, [w_TELUGU;w_LETTER;w_VOCALIC;w_LL]);
  (0xc62, [w_TELUGU;w_VOWEL;w_SIGN;w_VOCALIC;w_L]);
  (0xc63, [w_TELUGU;w_VOWEL;w_SIGN;w_VOCALIC;w_LL]);
  (0xc66, [w_TELUGU;w_DIGIT;w_ZERO]);
  (0xc67, [w_TELUGU;w_DIGIT;w_ONE]);
  (0xc68, [w_TELUGU;w_DIGIT;w_TWO]);
  (0xc69, [w_TELUGU;w_DIGIT;w_THREE]);
  (0xc6a, [w_TELUGU;w_DIGIT;w_FOUR]);
  (0xc6b, [w_TELUGU;w_DIGIT;w_FIVE]);
  (0xc6c, [w_TELUGU;w_DIGIT;w_SIX]);
  (0xc6d, [w_TELUGU;w_DIGIT;w_SEVEN]);
  (0xc6e, [w_TELUGU;w_DIGIT;w_EIGHT]);
  (0xc6f, [w_TELUGU;w_DIGIT;w_NINE]);
  (0xc78, [w_TELUGU;w_FRACTION;w_DIGIT;w_ZERO;w_FOR;w_ODD;w_POWERS;w_OF;w_FOUR]);
  (0xc79, [w_TELUGU;w_FRACTION;w_DIGIT;w_ONE;w_FOR;w_ODD;w_POWERS;w_OF;w_FOUR]);
  (0xc7a, [w_TELUGU;w_FRACTION;w_DIGIT;w_TWO;w_FOR;w_ODD;w_POWERS;w_OF;w_FOUR]);
  (0xc7b, [w_TELUGU;w_FRACTION;w_DIGIT;w_THREE;w_FOR;w_ODD;w_POWERS;w_OF;w_FOUR]);
  (0xc7c, [w_TELUGU;w_FRACTION;w_DIGIT;w_ONE;w_FOR;w_EVEN;w_POWERS;w_OF;w_FOUR]);
  (0xc7d, [w_TELUGU;w_FRACTION;w_DIGIT;w_TWO;w_FOR;w_EVEN;w_POWERS;w_OF;w_FOUR]);
  (0xc7e, [w_TELUGU;w_FRACTION;w_DIGIT;w_THREE;w_FOR;w_EVEN;w_POWERS;w_OF;w_FOUR]);
  (0xc7f, [w_TELUGU;w_SIGN;w_TUUMU]);
  (0xc80, [w_KANNADA;w_SIGN;w_SPACING;w_CANDRABINDU]);
  (0xc81, [w_KANNADA;w_SIGN;w_CANDRABINDU]);
  (0xc82, [w_KANNADA;w_SIGN;w_ANUSVARA]);
  (0xc83, [w_KANNADA;w_SIGN;w_VISARGA]);
  (0xc85, [w_KANNADA;w_LETTER;w_A]);
  (0xc86, [w_KANNADA;w_LETTER;w_AA]);
  (0xc87, [w_KANNADA;w_LETTER;w_I]);
  (0xc88, [w_KANNADA;w_LETTER;w_II]);
  (0xc89, [w_KANNADA;w_LETTER;w_U]);
  (0xc8a, [w_KANNADA;w_LETTER;w_UU]);
  (0xc8b, [w_KANNADA;w_LETTER;w_VOCALIC;w_R]);
  (0xc8c, [w_KANNADA;w_LETTER;w_VOCALIC;w_L]);
  (0xc8e, [w_KANNADA;w_LETTER;w_E]);
  (0xc8f, [w_KANNADA;w_LETTER;w_EE]);
  (0xc90, [w_KANNADA;w_LETTER;w_AI]);
  (0xc92, [w_KANNADA;w_LETTER;w_O]);
  (0xc93, [w_KANNADA;w_LETTER;w_OO]);
  (0xc94, [w_KANNADA;w_LETTER;w_AU]);
  (0xc95, [w_KANNADA;w_LETTER;w_KA]);
  (0xc96, [w_KANNADA;w_LETTER;w_KHA]);
  (0xc97, [w_KANNADA;w_LETTER;w_GA]);
  (0xc98, [w_KANNADA;w_LETTER;w_GHA]);
  (0xc99, [w_KANNADA;w_LETTER;w_NGA]);
  (0xc9a, [w_KANNADA;w_LETTER;w_CA]);
  (0xc9b, [w_KANNADA;w_LETTER;w_CHA]);
  (0xc9c, [w_KANNADA;w_LETTER;w_JA]);
  (0xc9d, [w_KANNADA;w_LETTER;w_JHA]);
  (0xc9e, [w_KANNADA;w_LETTER;w_NYA]);
  (0xc9f, [w_KANNADA;w_LETTER;w_TTA]);
  (0xca0, [w_KANNADA;w_LETTER;w_TTHA]);
  (0xca1, [w_KANNADA;w_LETTER;w_DDA]);
  (0xca2, [w_KANNADA;w_LETTER;w_DDHA]);
  (0xca3, [w_KANNADA;w_LETTER;w_NNA]);
  (0xca4, [w_KANNADA;w_LETTER;w_TA]);
  (0xca5, [w_KANNADA;w_LETTER;w_THA]);
  (0xca6, [w_KANNADA;w_LETTER;w_DA]);
  (0xca7, [w_KANNADA;w_LETTER;w_DHA]);
  (0xca8, [w_KANNADA;w_LETTER;w_NA]);
  (0xcaa, [w_KANNADA;w_LETTER;w_PA]);
  (0xcab, [w_KANNADA;w_LETTER;w_PHA]);
  (0xcac, [w_KANNADA;w_LETTER;w_BA]);
  (0xcad, [w_KANNADA;w_LETTER;w_BHA]);
  (0xcae, [w_KANNADA;w_LETTER;w_MA]);
  (0xcaf, [w_KANNADA;w_LETTER;w_YA]);
  (0xcb0, [w_KANNADA;w_LETTER;w_RA]);
  (0xcb1, [w_KANNADA;w_LETTER;w_RRA]);
  (0xcb2, [w_KANNADA;w_LETTER;w_LA]);
  (0xcb3, [w_KANNADA;w_LETTER;w_LLA]);
  (0xcb5, [w_KANNADA;w_LETTER;w_VA]);
  (0xcb6, [w_KANNADA;w_LETTER;w_SHA]);
  (0xcb7, [w_KANNADA;w_LETTER;w_SSA]);
  (0xcb8, [w_KANNADA;w_LETTER;w_SA]);
  (0xcb9, [w_KANNADA;w_LETTER;w_HA]);
  (0xcbc, [w_KANNADA;w_SIGN;w_NUKTA]);
  (0xcbd, [w_KANNADA;w_SIGN;w_AVAGRAHA]);
  (0xcbe, [w_KANNADA;w_VOWEL;w_SIGN;w_AA])].

Definition NAMES_7 : list (N * (list str)) := [
  (0xcbf, [w_KANNADA;w_VOWEL;w_SIGN;w_I]);
  (0xcc0, [w_KANNADA;w_VOWEL;w_SIGN;w_II]);
  (0xcc1, [w_KANNADA;w_VOWEL;w_SIGN;w_U]);
  (0xcc2, [w_KANNADA;w_VOWEL;w_SIGN;w_UU]);
  (0xcc3, [w_KANNADA;w_VOWEL;w_SIGN;w_VOCALIC;w_R]);
  (0xcc4, [w_KANNADA;w_VOWEL;w_SIGN;w_VOCALIC;w_RR]);
  (0xcc6, [w_KANNADA;w_VOWEL;w_SIGN;w_E]);
  (0xcc7, [w_KANNADA;w_VOWEL;w_SIGN;w_EE]);
  (0xcc8, [w_KANNADA;w_VOWEL;w_SIGN;w_AI]);
  (0xcca, [w_KANNADA;w_VOWEL;w_SIGN;w_O]);
  (0xccb, [w_KANNADA;w_VOWEL;w_SIGN;w_OO]);
  (0xccc, [w_KANNADA;w_VOWEL;w_SIGN;w_AU]);
  (0xccd, [w_KANNADA;w_SIGN;w_VIRAMA]);
  (0xcd5, [w_KANNADA;w_LENGTH;w_MARK]);
  (0xcd6, [w_KANNADA;w_AI;w_LENGTH;w_MARK]);
  (0xcde, [w_KANNADA;w_LETTER;w_FA]);
  (0xce0, [w_KANNADA;w_LETTER;w_VOCALIC;w_RR]);
  (0xce1, [w_KANNADA;w_LETTER;w_VOCALIC;w_LL]);
  (0xce2, [w_KANNADA;w_VOWEL;w_SIGN;w_VOCALIC;w_L]);
  (0xce3, [w_KANNADA;w_VOWEL;w_SIGN;w_VOCALIC;w_LL]);
  (0xce6, [w_KANNADA;w_DIGIT;w_ZERO]);
  (0xce7, [w_KANNADA;w_DIGIT;w_ONE]);
  (0xce8, [w_KANNADA;w_DIGIT;w_TWO]);
  (0xce9, [w_KANNADA;w_DIGIT;w_THREE]);
  (0xcea, [w_KANNADA;w_DIGIT;w_FOUR]);
  (0xceb, [w_KANNADA;w_DIGIT;w_FIVE]);
  (0xcec, [w_KANNADA;w_DIGIT;w_SIX]);
  (0xced, [w_KANNADA;w_DIGIT;w_SEVEN]);
  (0xcee, [w_KANNADA;w_DIGIT;w_EIGHT]);
  (0xcef, [w_KANNADA;w_DIGIT;w_NINE]);
  (0xcf1, [w_KANNADA;w_SIGN;w_JIHVAMULIYA]);
  (0xcf2, [w_KANNADA;w_SIGN;w_UPADHMANIYA]);
  (0xd00, [w_MALAYALAM;w_SIGN;w_COMBINING;w_ANUSVARA;w_ABOVE]);
  (0xd01, [w_MALAYALAM;w_SIGN;w_CANDRABINDU]);
  (0xd02, [w_MALAYALAM;w_SIGN;w_ANUSVARA]);
  (0xd03, [w_MALAYALAM;w_SIGN;w_VISARGA]);
  (0xd05, [w_MALAYALAM;w_LETTER;w_A]);
  (0xd06, [w_MALAYALAM;w_LETTER;w_AA]);
  (0xd07, [w_MALAYALAM;w_LETTER;w_I]);
  (0xd08, [w_MALAYALAM;w_LETTER;w_II]);
  (0xd09, [w_MALAYALAM;w_LETTER;w_U]);
  (0xd0a, [w_MALAYALAM;w_LETTER;w_UU]);
  (0xd0b, [w_MALAYALAM;w_LETTER;w_VOCALIC;w_R]);
  (0xd0c, [w_MALAYALAM;w_LETTER;w_VOCALIC;w_L]);
  (0xd0e, [w_MALAYALAM;w_LETTER;w_E]);
  (0xd0f, [w_MALAYALAM;w_LETTER;w_EE]);
  (0xd10, [w_MALAYALAM;w_LETTER;w_AI]);
  (0xd12, [w_MALAYALAM;w_LETTER;w_O]);
  (0xd13, [w_MALAYALAM;w_LETTER;w_OO]);
  (0xd14, [w_MALAYALAM;w_LETTER;w_AU]);
  (0xd15, [w_MALAYALAM;w_LETTER;w_KA]);
  (0xd16, [w_MALAYALAM;w_LETTER;w_KHA]);
  (0xd17, [w_MALAYALAM;w_LETTER;w_GA]);
  (0xd18, [w_MALAYALAM;w_LETTER;w_GHA]);
  (0xd19, [w_MALAYALAM;w_LETTER;w_NGA]);
  (0xd1a, [w_MALAYALAM;w_LETTER;w_CA]);
  (0xd1b, [w_MALAYALAM;w_LETTER;w_CHA]);
  (0xd1c, [w_MALAYALAM;w_LETTER;w_JA]);
  (0xd1d, [w_MALAYALAM;w_LETTER;w_JHA]);
  (0xd1e, [w_MALAYALAM;w_LETTER;w_NYA]);
  (0xd1f, [w_MALAYALAM;w_LETTER;w_TTA]);
  (0xd20, [w_MALAYALAM;w_LETTER;w_TTHA]);
  (0xd21, [w_MALAYALAM;w_LETTER;w_DDA]);
  (0xd22, [w_MALAYALAM;w_LETTER;w_DDHA]);
  (0xd23, [w_MALAYALAM;w_LETTER;w_NNA]);
  (0xd24, [w_MALAYALAM;w_LETTER;w_TA]);
  (0xd25, [w_MALAYALAM;w_LETTER;w_THA]);
  (0xd26, [w_MALAYALAM;w_LETTER;w_DA]);
  (0xd27, [w_MALAYALAM;w_LETTER;w_DHA]);
  (0xd28, [w_MALAYALAM;w_LETTER;w_NA]);
  (0xd29, [w_MALAYALAM;w_LETTER;w_NNNA]);
  (0xd2a, [w_MALAYALAM;w_LETTER;w_PA]);
  (0xd2b, [w_MALAYALAM;w_LETTER;w_PHA]);
  (0xd2c, [w_MALAYALAM;w_LETTER;w_BA]);
  (0xd2d, [w_MALAYALAM;w_LETTER;w_BHA]);
  (0xd2e, [w_MALAYALAM;w_LETTER;w_MA]);
  (0xd2f, [w_MALAYALAM;w_LETTER;w_YA]);
  (0xd30, [w_MALAYALAM;w_LETTER;w_RA]);
  (0xd31, [w_MALAYALAM;w_LETTER;w_RRA]);
  (0xd32, [w_MALAYALAM;w_LETTER;w_LA]);
  (0xd33, [w_MALAYALAM;w_LETTER;w_LLA]);
  (0xd34, [w_MALAYALAM;w_LETTER;w_LLLA]);
  (0xd35, [w_MALAYALAM;w_LETTER;w_VA]);
  (0xd36, [w_MALAYALAM;w_LETTER;w_SHA]);
  (0xd37, [w_MALAYALAM;w_LETTER;w_SSA]);
  (0xd38, [w_MALAYALAM;w_LETTER;w_SA]);
  (0xd39, [w_MALAYALAM;w_LETTER;w_HA]);
  (0xd3a, [w_MALAYALAM;w_LETTER;w_TTTA]);
  (0xd3b, [w_MALAYALAM;w_SIGN;w_VERTICAL;w_BAR;w_VIRAMA]);
  (0xd3c, [w_MALAYALAM;w_SIGN;w_CIRCULAR;w_VIRAMA]);
  (0xd3d, [w_MALAYALAM;w_SIGN;w_AVAGRAHA]);
  (0xd3e, [w_MALAYALAM;w_VOWEL;w_SIGN;w_AA]);
  (0xd3f, [w_MALAYALAM;w_VOWEL;w_SIGN;w_I]);
  (0xd40, [w_MALAYALAM;w_VOWEL;w_SIGN;w_II]);
  (0xd41, [w_MALAYALAM;w_VOWEL;w_SIGN;w_U]);
  (0xd42, [w_MALAYALAM;w_VOWEL;w_SIGN;w_UU]);
  (0xd43, [w_MALAYALAM;w_VOWEL;w_SIGN;w_VOCALIC;w_R]);
  (0xd44, [w_MALAYALAM;w_VOWEL;w_SIGN;w_VOCALIC;w_RR]);
  (0xd46, [w_MALAYALAM;w_VOWEL;w_SIGN;w_E]);
  (0xd47, [w_MALAYALAM;w_VOWEL;w_SIGN;w_EE]);
  (0xd48, [w_MALAYALAM;w_VOWEL;w_SIGN;w_AI]);
  (0xd4a, [w_MALAYALAM;w_VOWEL;w_SIGN;w_O]);
  (0xd4b, [w_MALAYALAM;w_VOWEL;w_SIGN;w_OO]);
  (0xd4c, [w_MALAYALAM;w_VOWEL;w_SIGN;w_AU]);
  (0xd4d, [w_MALAYALAM;w_SIGN;w_VIRAMA]);
  (0xd4e, [w_MALAYALAM;w_LETTER;w_DOT;w_REPH]);
  (0xd4f, [w_MALAYALAM;w_SIGN;w_PARA]);
  (0xd54, [w_MALAYALAM;w_LETTER;w_CHILLU;w_M]);
  (0xd55, [w_MALAYALAM;w_LETTER;w_CHILLU;w_Y]);
  (0xd56, [w_MALAYALAM;w_LETTER;w_CHILLU;w_LLL]);
  (0xd57, [w_MALAYALAM;w_AU;w_LENGTH;w_MARK]);
  (0xd58, [w_MALAYALAM;w_FRACTION;w_ONE;w_ONE_HUNDRED_AND_SIXTIETH]);
  (0xd59, [w_MALAYALAM;w_FRACTION;w_ONE;w_FORTIETH]);
  (0xd5a, [w_MALAYALAM;w_FRACTION;w_THREE;w_EIGHTIETHS]);
  (0xd5b, [w_MALAYALAM;w_FRACTION;w_ONE;w_TWENTIETH]);
  (0xd5c, [w_MALAYALAM;w_FRACTION;w_ONE;w_TENTH]);
  (0xd5d, [w_MALAYALAM;w_FRACTION;w_THREE;w_TWENTIETHS]);
  (0xd5e, [w_MALAYALAM;w_FRACTION;w_ONE;w_FIFTH]);
  (0xd5f, [w_MALAYALAM;w_LETTER;w_ARCHAIC;w_II]);
  (0xd60, [w_MALAYALAM;w_LETTER;w_VOCALIC;w_RR]);
  (0xd61, [w_MALAYALAM;w_LETTER;w_VOCALIC;w_LL]);
  (0xd62, [w_MALAYALAM;w_VOWEL;w_SIGN;w_VOCALIC;w_L]);
  (0xd63, [w_MALAYALAM;w_VOWEL;w_SIGN;w_VOCALIC;w_LL]);
  (0xd66, [w_MALAYALAM;w_DIGIT;w_ZERO]);
  (0xd67, [w_MALAYALAM;w_DIGIT;w_ONE]);
  (0xd68, [w_MALAYALAM;w_DIGIT;w_TWO]);
  (0xd69, [w_MALAYALAM;w_DIGIT;w_THREE]);
  (0xd6a, [w_MALAYALAM;w_DIGIT;w_FOUR]);
  (0xd6b, [w_MALAYALAM;w_DIGIT;w_FIVE]);
  (0xd6c, [w_MALAYALAM;w_DIGIT;w_SIX]);
  (0xd6d, [w_MALAYALAM;w_DIGIT;w_SEVEN]);
  (0xd6e, [w_MALAYALAM;w_DIGIT;w_EIGHT]);
  (0xd6f, [w_MALAYALAM;w_DIGIT;w_NINE]);
  (0xd70, [w_MALAYALAM;w_NUMBER;w_TEN]);
  (0xd71, [w_MALAYALAM;w_NUMBER;w_ONE;w_HUNDRED]);
  (0xd72, [w_MALAYALAM;w_NUMBER;w_ONE;w_THOUSAND]);
  (0xd73, [w_MALAYALAM;w_FRACTION;w_ONE;w_QUARTER]);
  (0xd74, [w_MALAYALAM;w_FRACTION;w_ONE;w_HALF]);
  (0xd75, [w_MALAYALAM;w_FRACTION;w_THREE;w_QUARTERS]);
  (0xd76, [w_MALAYALAM;w_FRACTION;w_ONE;w_SIXTEENTH]);
  (0xd77, [w_MALAYALAM;w_FRACTION;w_ONE;w_EIGHTH]);
  (0xd78, [w_MALAYALAM;w_FRACTION;w_THREE;w_SIXTEENTHS]);
  (0xd79, [w_MALAYALAM;w_DATE;w_MARK]);
  (0xd7a, [w_MALAYALAM;w_LETTER;w_CHILLU;w_NN]);
  (0xd7b, [w_MALAYALAM;w_LETTER;w_CHILLU;w_N]);
  (0xd7c, [w_MALAYALAM;w_LETTER;w_CHILLU;w_RR]);
  (0xd7d, [w_MALAYALAM;w_LETTER;w_CHILLU;w_L]);
  (0xd7e, [w_MALAYALAM;w_LETTER;w_CHILLU;w_LL]);
  (0xd7f, [w_MALAYALAM;w_LETTER;w_CHILLU;w_K]);
  (0xd82, [w_SINHALA;w_SIGN;w_ANUSVARAYA]);
  (0xd83, [w_SINHALA;w_SIGN;w_VISARGAYA]);
  (0xd85, [w_SINHALA;w_LETTER;w_AYANNA]);
  (0xd86, [w_SINHALA;w_LETTER;w_AAYANNA]);
  (0xd87, [w_SINHALA;w_LETTER;w_AEYANNA]);
  (0xd88, [w_SINHALA;w_LETTER;w_AEEYANNA]);
  (0xd89, [w_SINHALA;w_LETTER;w_IYANNA]);
  (0xd8a, [w_SINHALA;w_LETTER;w_IIYANNA]);
  (0xd8b, [w_SINHALA;w_LETTER;w_UYANNA]);
  (0xd8c, [w_SINHALA;w_LETTER;w_UUYANNA]);
  (0xd8d, [w_SINHALA;w_LETTER;w_IRUYANNA]);
  (0xd8e, [w_SINHALA;w_LETTER;w_IRUUYANNA]);
  (0xd8f, [w_SINHALA;w_LETTER;w_ILUYANNA]);
  (0xd90, [w_SINHALA;w_LETTER;w_ILUUYANNA]);
  (0xd91, [w_SINHALA;w_LETTER;w_EYANNA]);
  (0xd92, [w_SINHALA;w_LETTER;w_EEYANNA]);
  (0xd93, [w_SINHALA;w_LETTER;w_AIYANNA]);
  (0xd94, [w_SINHALA;w_LETTER;w_OYANNA]);
  (0xd95, [w_SINHALA;w_LETTER;w_OOYANNA]);
  (0xd96, [w_SINHALA;w_LETTER;w_AUYANNA]);
  (0xd9a, [w_SINHALA;w_LETTER;w_ALPAPRAANA;w_KAYANNA]);
  (0xd9b, [w_SINHALA;w_LETTER;w_MAHAAPRAANA;w_KAYANNA]);
  (0xd9c, [w_SINHALA;w_LETTER;w_ALPAPRAANA;w_GAYANNA]);
  (0xd9d, [w_SINHALA;w_LETTER;w_MAHAAPRAANA;w_GAYANNA]);
  (0xd9e, [w_SINHALA;w_LETTER;w_KANTAJA;w_NAASIKYAYA]);
  (0xd9f, [w_SINHALA;w_LETTER;w_SANYAKA;w_GAYANNA]);
  (0xda0, [w_SINHALA;w_LETTER;w_ALPAPRAANA;w_CAYANNA]);
  (0xda1, [w_SINHALA;w_LETTER;w_MAHAAPRAANA;w_CAYANNA]);
  (0xda2, [w_SINHALA;w_LETTER;w_ALPAPRAANA;w_JAYANNA]);
  (0xda3, [w_SINHALA;w_LETTER;w_MAHAAPRAANA;w_JAYANNA]);
  (0xda4, [w_SINHALA;w_LETTER;w_TAALUJA;w_NAASIKYAYA]);
  (0xda5, [w_SINHALA;w_LETTER;w_TAALUJA;w_SANYOOGA;w_NAAKSIKYAYA]);
  (0xda6, [w_SINHALA;w_LETTER;w_SANYAKA;w_JAYANNA]);
  (0xda7, [w_SINHALA;w_LETTER;w_ALPAPRAANA;w_TTAYANNA]);
  (0xda8, [w_SINHALA;w_LETTER;w_MAHAAPRAANA;w_TTAYANNA]);
  (0xda9, [w_SINHALA;w_LETTER;w_ALPAPRAANA;w_DDAYANNA]);
  (0xdaa, [w_SINHALA;w_LETTER;w_MAHAAPRAANA;w_DDAYANNA]);
  (0xdab, [w_SINHALA;w_LETTER;w_MUURDHAJA;w_NAYANNA]);
  (0xdac, [w_SINHALA;w_LETTER;w_SANYAKA;w_DDAYANNA]);
  (0xdad, [w_SINHALA;w_LETTER;w_ALPAPRAANA;w_TAYANNA]);
  (0xdae, [w_SINHALA;w_LETTER;w_MAHAAPRAANA;w_TAYANNA]);
  (0xdaf, [w_SINHALA;w_LETTER;w_ALPAPRAANA;w_DAYANNA]);
  (0xdb0, [w_SINHALA;w_LETTER;w_MAHAAPRAANA;w_DAYANNA]);
  (0xdb1, [w_SINHALA;w_LETTER;w_DANTAJA;w_NAYANNA]);
  (0xdb3, [w_SINHALA;w_LETTER;w_SANYAKA;w_DAYANNA]);
  (0xdb4, [w_SINHALA;w_LETTER;w_ALPAPRAANA;w_PAYANNA]);
  (0xdb5, [w_SINHALA;w_LETTER;w_MAHAAPRAANA;w_PAYANNA]);
  (0xdb6, [w_SINHALA;w_LETTER;w_ALPAPRAANA;w_BAYANNA]);
  (0xdb7, [w_SINHALA;w_LETTER;w_MAHAAPRAANA;w_BAYANNA]);
  (0xdb8, [w_SINHALA;w_LETTER;w_MAYANNA]);
  (0xdb9, [w_SINHALA;w_LETTER;w_AMBA;w_BAYANNA]);
  (0xdba, [w_SINHALA;w_LETTER;w_YAYANNA]);
  (0xdbb, [w_SINHALA;w_LETTER;w_RAYANNA]);
  (0xdbd, [w_SINHALA;w_LETTER;w_DANTAJA;w_LAYANNA]);
  (0xdc0, [w_SINHALA;w_LETTER;w_VAYANNA]);
  (0xdc1, [w_SINHALA;w_LETTER;w_TAALUJA;w_SAYANNA]);
  (0xdc2, [w_SINHALA;w_LETTER;w_MUURDHAJA;w_SAYANNA]);
  (0xdc3, [w_SINHALA;w_LETTER;w_DANTAJA;w_SAYANNA]);
  (0xdc4, [w_SINHALA;w_LETTER;w_HAYANNA]);
  (0xdc5, [w_SINHALA;w_LETTER;w_MUURDHAJA;w_LAYANNA]);
  (0xdc6, [w_SINHALA;w_LETTER;w_FAYANNA]);
  (0xdca, [w_SINHALA;w_SIGN;w_AL_LAKUNA]);
  (0xdcf, [w_SINHALA;w_VOWEL;w_SIGN;w_AELA_PILLA]);
  (0xdd0, [w_SINHALA;w_VOWEL;w_SIGN;w_KETTI;w_AEDA_PILLA]);
  (0xdd1, [w_SINHALA;w_VOWEL;w_SIGN;w_DIGA;w_AEDA_PILLA]);
  (0xdd2, [w_SINHALA;w_VOWEL;w_SIGN;w_KETTI;w_IS_PILLA]);
  (0xdd3, [w_SINHALA;w_VOWEL;w_SIGN;w_DIGA;w_IS_PILLA]);
  (0xdd4, [w_SINHALA;w_VOWEL;w_SIGN;w_KETTI;w_PAA_PILLA]);
  (0xdd6, [w_SINHALA;w_VOWEL;w_SIGN;w_DIGA;w_PAA_PILLA]);
  (0xdd8, [w_SINHALA;w_VOWEL;w_SIGN;w_GAETTA_PILLA]);
  (0xdd9, [w_SINHALA;w_VOWEL;w_SIGN;w_KOMBUVA]);
  (0xdda, [w_SINHALA;w_VOWEL;w_SIGN;w_DIGA;w_KOMBUVA]);
  (0xddb, [w_SINHALA;w_VOWEL;w_SIGN;w_KOMBU;w_DEKA]);
  (0xddc, [w_SINHALA;w_VOWEL;w_SIGN;w_KOMBUVA;w_HAA;w_AELA_PILLA]);
  (0xddd, [w_SINHALA;w_VOWEL;w_SIGN;w_KOMBUVA;w_HAA;w_DIGA;w_AELA_PILLA]);
  (0xdde, [w_SINHALA;w_VOWEL;w_SIGN;w_KOMBUVA;w_HAA;w_GAYANUKITTA]);
  (0xddf, [w_SINHALA;w_VOWEL;w_SIGN;w_GAYANUKITTA]);
  (0xde6, [w_SINHALA;w_LITH;w_DIGIT;w_ZERO]);
  (0xde7, [w_SINHALA;w_LITH;w_DIGIT;w_ONE]);
  (0xde8, [w_SINHALA;w_LITH;w_DIGIT;w_TWO]);
  (0xde9, [w_SINHALA;w_LITH;w_DIGIT;w_THREE]);
  (0xdea, [w_SINHALA;w_LITH;w_DIGIT;w_FOUR]);
  (0xdeb, [w_SINHALA;w_LITH;w_DIGIT;w_FIVE]);
  (0xdec, [w_SINHALA;w_LITH;w_DIGIT;w_SIX]);
  (0xded, [w_SINHALA;w_LITH;w_DIGIT;w_SEVEN]);
  (0xdee, [w_SINHALA;w_LITH;w_DIGIT;w_EIGHT]);
  (0xdef, [w_SINHALA;w_LITH;w_DIGIT;w_NINE]);
  (0xdf2, [w_SINHALA;w_VOWEL;w_SIGN;w_DIGA;w_GAETTA_PILLA]);
  (0xdf3, [w_SINHALA;w_VOWEL;w_SIGN;w_DIGA;w_GAYANUKITTA]);
  (0xdf4, [w_SINHALA;w_PUNCTUATION;w_KUNDDALIYA]);
  (0xe01, [w_THAI;w_CHARACTER;w_KO;w_KAI]);
  (0xe02, [w_THAI;w_CHARACTER;w_KHO;w_KHAI]);
  (0xe03, [w_THAI;w_CHARACTER;w_KHO;w_KHUAT]);
  (0xe04, [w_THAI;w_CHARACTER;w_KHO;w_KHWAI]);
  (0xe05, [w_THAI;w_CHARACTER;w_KHO;w_KHON]);
  (0xe06, [w_THAI;w_CHARACTER;w_KHO;w_RAKHANG]);
  (0xe07, [w_THAI;w_CHARACTER;w_NGO;w_NGU]);
  (0xe08, [w_THAI;w_CHARACTER;w_CHO;w_CHAN]);
  (0xe09, [w_THAI;w_CHARACTER;w_CHO;w_CHING]);
  (0xe0a, [w_THAI;w_CHARACTER;w_CHO;w_CHANG]);
  (0xe0b, [w_THAI;w_CHARACTER;w_SO;w_SO]);
  (0xe0c, [w_THAI;w_CHARACTER;w_CHO;w_CHOE]);
  (0xe0d, [w_THAI;w_CHARACTER;w_YO;w_YING]);
  (0xe0e, [w_THAI;w_CHARACTER;w_DO;w_CHADA]);
  (0xe0f, [w_THAI;w_CHARACTER;w_TO;w_PATAK]);
  (0xe10, [w_THAI;w_CHARACTER;w_THO;w_THAN]);
  (0xe11, [w_THAI;w_CHARACTER;w_THO;w_NANGMONTHO]);
  (0xe12, [w_THAI;w_CHARACTER;w_THO;w_PHUTHAO]);
  (0xe13, [w_THAI;w_CHARACTER;w_NO;w_NEN]);
  (0xe14, [w_THAI;w_CHARACTER;w_DO;w_DEK]);
  (0xe15, [w_THAI;w_CHARACTER;w_TO;w_TAO]);
  (0xe16, [w_THAI;w_CHARACTER;w_THO;w_THUNG]);
  (0xe17, [w_THAI;w_CHARACTER;w_THO;w_THAHAN]);
  (0xe18, [w_THAI;w_CHARACTER;w_THO;w_THONG]);
  (0xe19, [w_THAI;w_CHARACTER;w_NO;w_NU]);
  (0xe1a, [w_THAI;w_CHARACTER;w_BO;w_BAIMAI]);
  (0xe1b, [w_THAI;w_CHARACTER;w_PO;w_PLA]);
  (0xe1c, [w_THAI;w_CHARACTER;w_PHO;w_PHUNG]);
  (0xe1d, [w_THAI;w_CHARACTER;w_FO;w_FA]);
  (0xe1e, [w_THAI;w_CHARACTER;w_PHO;w_PHAN]);
  (0xe1f, [w_THAI;w_CHARACTER;w_FO;w_FAN]);
  (0xe20, [w_THAI;w_CHARACTER;w_PHO;w_SAMPHAO]);
  (0xe21, [w_THAI;w_CHARACTER;w_MO;w_MA]);
  (0xe22, [w_THAI;w_CHARACTER;w_YO;w_YAK]);
  (0xe23, [w_THAI;w_CHARACTER;w_RO;w_RUA]);
  (0xe24, [w_THAI;w_CHARACTER;w_RU]);
  (0xe25, [w_THAI;w_CHARACTER;w_LO;w_LING]);
  (0xe26, [w_THAI;w_CHARACTER;w_LU]);
  (0xe27, [w_THAI;w_CHARACTER;w_WO;w_WAEN]);
  (0xe28, [w_THAI;w_CHARACTER;w_SO;w_SALA]);
  (0xe29, [w_THAI;w_CHARACTER;w_SO;w_RUSI]);
  (0xe2a, [w_THAI;w_CHARACTER;w_SO;w_SUA]);
  (0xe2b, [w_THAI;w_CHARACTER;w_HO;w_HIP]);
  (0xe2c, [w_THAI;w_CHARACTER;w_LO;w_CHULA]);
  (0xe2d, [w_THAI;w_CHARACTER;w_O;w_ANG]);
  (0xe2e, [w_THAI;w_CHARACTER;w_HO;w_NOKHUK]);
  (0xe2f, [w_THAI;w_CHARACTER;w_PAIYANNOI]);
  (0xe30, [w_THAI;w_CHARACTER;w_SARA;w_A]);
  (0xe31, [w_THAI;w_CHARACTER;w_MAI;w_HAN_AKAT]);
  (0xe32, [w_THAI;w_CHARACTER;w_SARA;w_AA]);
  (0xe33, [w_THAI;w_CHARACTER;w_SARA;w_AM]);
  (0xe34, [w_THAI;w_CHARACTER;w_SARA;w_I]);
  (0xe35, [w_THAI;w_CHARACTER;w_SARA;w_II]);
  (0xe36, [w_THAI;w_CHARACTER;w_SARA;w_UE]);
  (0xe37, [w_THAI;w_CHARACTER;w_SARA;w_UEE]);
  (0xe38, [w_THAI;w_CHARACTER;w_SARA;w_U]);
  (0xe39, [w_THAI;w_CHARACTER;w_SARA;w_UU]);
  (0xe3a, [w_THAI;w_CHARACTER;w_PHINTHU]);
  (0xe3f, [w_THAI;w_CURRENCY;w_SYMBOL;w_BAHT]);
  (0xe40, [w_THAI;w_CHARACTER;w_SARA;w_E]);
  (0xe41, [w_THAI;w_CHARACTER;w_SARA;w_AE]);
  (0xe42, [w_THAI;w_CHARACTER;w_SARA;w_O]);
  (0xe43, [w_THAI;w_CHARACTER;w_SARA;w_AI;w_MAIMUAN]);
  (0xe44, [w_THAI;w_CHARACTER;w_SARA;w_AI;w_MAIMALAI]);
  (0xe45, [w_THAI;w_CHARACTER;w_LAKKHANGYAO]);
  (0xe46, [w_THAI;w_CHARACTER;w_MAIYAMOK]);
  (0xe47, [w_THAI;w_CHARACTER;w_MAITAIKHU]);
  (0xe48, [w_THAI;w_CHARACTER;w_MAI;w_EK]);
  (0xe49, [w_THAI;w_CHARACTER;w_MAI;w_THO]);
  (0xe4a, [w_THAI;w_CHARACTER;w_MAI;w_TRI]);
  (0xe4b, [w_THAI;w_CHARACTER;w_MAI;w_CHATTAWA]);
  (0xe4c, [w_THAI;w_CHARACTER;w_THANTHAKHAT]);
  (0xe4d, [w_THAI;w_CHARACTER;w_NIKHAHIT]);
  (0xe4e, [w_THAI;w_CHARACTER;w_YAMAKKAN]);
  (0xe4f, [w_THAI;w_CHARACTER;w_FONGMAN]);
  (0xe50, [w_THAI;w_DIGIT;w_ZERO]);
  (0xe51, [w_THAI;w_DIGIT;w_ONE]);
  (0xe52, [w_THAI;w_DIGIT;w_TWO]);
  (0xe53, [w_THAI;w_DIGIT;w_THREE]);
  (0xe54, [w_THAI;w_DIGIT;w_FOUR]);
  (0xe55, [w_THAI;w_DIGIT;w_FIVE]);
  (0xe56, [w_THAI;w_DIGIT;w_SIX]);
  (0xe57, [w_THAI;w_DIGIT;w_SEVEN]);
  (0xe58, [w_THAI;w_DIGIT;w_EIGHT]);
  (0xe59, [w_THAI;w_DIGIT;w_NINE]);
  (0xe5a, [w_THAI;w_CHARACTER;w_ANGKHANKHU]);
  (0xe5b, [w_THAI;w_CHARACTER;w_KHOMUT]);
  (0xe81, [w_LAO;w_LETTER;w_KO]);
  (0xe82, [w_LAO;w_LETTER;w_KHO;w_SUNG]);
  (0xe84, [w_LAO;w_LETTER;w_KHO;w_TAM]);
  (0xe87, [w_LAO;w_LETTER;w_NGO]);
  (0xe88, [w_LAO;w_LETTER;w_CO]);
  (0xe8a, [w_LAO;w_LETTER;w_SO;w_TAM]);
  (0xe8d, [w_LAO;w_LETTER;w_NYO]);
  (0xe94, [w_LAO;w_LETTER;w_DO]);
  (0xe95, [w_LAO;w_LETTER;w_TO]);
  (0xe96, [w_LAO;w_LETTER;w_THO;w_SUNG]);
  (0xe97, [w_LAO;w_LETTER;w_THO;w_TAM]);
  (0xe99, [w_LAO;w_LETTER;w_NO]);
  (0xe9a, [w_LAO;w_LETTER;w_BO]);
  (0xe9b, [w_LAO;w_LETTER;w_PO]);
  (0xe9c, [w_LAO;w_LETTER;w_PHO;w_SUNG]);
  (0xe9d, [w_LAO;w_LETTER;w_FO;w_TAM]);
  (0xe9e, [w_LAO;w_LETTER;w_PHO;w_TAM]);
  (0xe9f, [w_LAO;w_LETTER;w_FO;w_SUNG]);
  (0xea1, [w_LAO;w_LETTER;w_MO]);
  (0xea2, [w_LAO;w_LETTER;w_YO]);
  (0xea3, [w_LAO;w_LETTER;w_LO;w_LING]);
  (0xea5, [w_LAO;w_LETTER;w_LO;w_LOOT]);
  (0xea7, [w_LAO;w_LETTER;w_WO]);
  (0xeaa, [w_LAO;w_LETTER;w_SO;w_SUNG]);
  (0xeab, [w_LAO;w_LETTER;w_HO;w_SUNG]);
  (0xead, [w_LAO;w_LETTER;w_O]);
  (0xeae, [w_LAO;w_LETTER;w_HO;w_TAM]);
  (0xeaf, [w_LAO;w_ELLIPSIS]);
  (0xeb0, [w_LAO;w_VOWEL;w_SIGN;w_A]);
  (0xeb1, [w_LAO;w_VOWEL;w_SIGN;w_MAI;w_KAN]);
  (0xeb2, [w_LAO;w_VOWEL;w_SIGN;w_AA]);
  (0xeb3, [w_LAO;w_VOWEL;w_SIGN;w_AM]);
  (0xeb4, [w_LAO;w_VOWEL;w_SIGN;w_I]);
  (0xeb5, [w_LAO;w_VOWEL;w_SIGN;w_II]);
  (0xeb6, [w_LAO;w_VOWEL;w_SIGN;w_Y]);
  (0xeb7, [w_LAO;w_VOWEL;w_SIGN;w_YY]);
  (0xeb8, [w_LAO;w_VOWEL;w_SIGN;w_U]);
  (0xeb9, [w_LAO;w_VOWEL;w_SIGN;w_UU]);
  (0xebb, [w_LAO;w_VOWEL;w_SIGN;w_MAI;w_KON]);
  (0xebc, [w_LAO;w_SEMIVOWEL;w_SIGN;w_LO]);
  (0xebd, [w_LAO;w_SEMIVOWEL;w_SIGN;w_NYO]);
  (0xec0, [w_LAO;w_VOWEL;w_SIGN;w_E]);
  (0xec1, [w_LAO;w_VOWEL;w_SIGN;w_EI]);
  (0xec2, [w_LAO;w_VOWEL;w_SIGN;w_O]);
  (0xec3, [w_LAO;w_VOWEL;w_SIGN;w_AY]);
  (0xec4, [w_LAO;w_VOWEL;w_SIGN;w_AI]);
  (0xec6, [w_LAO;w_KO;w_LA]);
  (0xec8, [w_LAO;w_TONE;w_MAI;w_EK]);
  (0xec9, [w_LAO;w_TONE;w_MAI;w_THO]);
  (0xeca, [w_LAO;w_TONE;w_MAI;w_TI]);
  (0xecb, [w_LAO;w_TONE;w_MAI;w_CATAWA]);
  (0xecc, [w_LAO;w_CANCELLATION;w_MARK]);
  (0xecd, [w_LAO;w_NIGGAHITA]);
  (0xed0, [w_LAO;w_DIGIT;w_ZERO]);
  (0xed1, [w_LAO;w_DIGIT;w_ONE]);
  (0xed2, [w_LAO;w_DIGIT;w_TWO]);
  (0xed3, [w_LAO;w_DIGIT;w_THREE]);
  (0xed4, [w_LAO;w_DIGIT;w_FOUR]);
  (0xed5, [w_LAO;w_DIGIT;w_FIVE]);
  (0xed6, [w_LAO;w_DIGIT;w_SIX]);
  (0xed7, [w_LAO;w_DIGIT;w_SEVEN]);
  (0xed8, [w_LAO;w_DIGIT;w_EIGHT]);
  (0xed9, [w_LAO;w_DIGIT;w_NINE]);
  (0xedc, [w_LAO;w_HO;w_NO]);
  (0xedd, [w_LAO;w_HO;w_MO]);
  (0xede, [w_LAO;w_LETTER;w_KHMU;w_GO]);
  (0xedf, [w_LAO;w_LETTER;w_KHMU;w_NYO]);
  (0xf00, [w_TIBETAN;w_SYLLABLE;w_OM]);
  (0xf01, [w_TIBETAN;w_MARK;w_GTER;w_YIG;w_MGO;w_TRUNCATED;w_A]);
  (0xf02, [w_TIBETAN;w_MARK;w_GTER;w_YIG;w_MGO;w__UM;w_RNAM;w_BCAD;w_MA]);
  (0xf03, [w_TIBETAN;w_MARK;w_GTER;w_YIG;w_MGO;w__UM;w_GTER;w_TSHEG;w_MA]);
  (0xf04, [w_TIBETAN;w_MARK;w_INITIAL;w_YIG;w_MGO;w_MDUN;w_MA]);
  (0xf05, [w_TIBETAN;w_MARK;w_CLOSING;w_YIG;w_MGO;w_SGAB;w_MA]);
  (0xf06, [w_TIBETAN;w_MARK;w_CARET;w_YIG;w_MGO;w_PHUR;w_SHAD;w_MA])].

Definition NAMES_8 : list (N * (list str)) := [
  (0xf07, [w_TIBETAN;w_MARK;w_YIG;w_MGO;w_TSHEG;w_SHAD;w_MA]);
  (0xf08, [w_TIBETAN;w_MARK;w_SBRUL;w_SHAD]);
  (0xf09, [w_TIBETAN;w_MARK;w_BSKUR;w_YIG;w_MGO]);
  (0xf0a, [w_TIBETAN;w_MARK;w_BKA_;w_SHOG;w_YIG;w_MGO]);
  (0xf0b, [w_TIBETAN;w_MARK;w_INTERSYLLABIC;w_TSHEG]);
  (0xf0c, [w_TIBETAN;w_MARK;w_DELIMITER;w_TSHEG;w_BSTAR]);
  (0xf0d, [w_TIBETAN;w_MARK;w_SHAD]);
  (0xf0e, [w_TIBETAN;w_MARK;w_NYIS;w_SHAD]);
  (0xf0f, [w_TIBETAN;w_MARK;w_TSHEG;w_SHAD]);
  (0xf10, [w_TIBETAN;w_MARK;w_NYIS;w_TSHEG;w_SHAD]);
  (0xf11, [w_TIBETAN;w_MARK;w_RIN;w_CHEN;w_SPUNGS;w_SHAD]);
  (0xf12, [w_TIBETAN;w_MARK;w_RGYA;w_GRAM;w_SHAD]);
  (0xf13, [w_TIBETAN;w_MARK;w_CARET;w__DZUD;w_RTAGS;w_ME;w_LONG;w_CAN]);
  (0xf14, [w_TIBETAN;w_MARK;w_GTER;w_TSHEG]);
  (0xf15, [w_TIBETAN;w_LOGOTYPE;w_SIGN;w_CHAD;w_RTAGS]);
  (0xf16, [w_TIBETAN;w_LOGOTYPE;w_SIGN;w_LHAG;w_RTAGS]);
  (0xf17, [w_TIBETAN;w_ASTROLOGICAL;w_SIGN;w_SGRA;w_GCAN;w__CHAR;w_RTAGS]);
  (0xf18, [w_TIBETAN;w_ASTROLOGICAL;w_SIGN;w__KHYUD;w_PA]);
  (0xf19, [w_TIBETAN;w_ASTROLOGICAL;w_SIGN;w_SDONG;w_TSHUGS]);
  (0xf1a, [w_TIBETAN;w_SIGN;w_RDEL;w_DKAR;w_GCIG]);
  (0xf1b, [w_TIBETAN;w_SIGN;w_RDEL;w_DKAR;w_GNYIS]);
  (0xf1c, [w_TIBETAN;w_SIGN;w_RDEL;w_DKAR;w_GSUM]);
  (0xf1d, [w_TIBETAN;w_SIGN;w_RDEL;w_NAG;w_GCIG]);
  (0xf1e, [w_TIBETAN;w_SIGN;w_RDEL;w_NAG;w_GNYIS]);
  (0xf1f, [w_TIBETAN;w_SIGN;w_RDEL;w_DKAR;w_RDEL;w_NAG]);
  (0xf20, [w_TIBETAN;w_DIGIT;w_ZERO]);
  (0xf21, [w_TIBETAN;w_DIGIT;w_ONE]);
  (0xf22, [w_TIBETAN;w_DIGIT;w_TWO]);
  (0xf23, [w_TIBETAN;w_DIGIT;w_THREE]);
  (0xf24, [w_TIBETAN;w_DIGIT;w_FOUR]);
  (0xf25, [w_TIBETAN;w_DIGIT;w_FIVE]);
  (0xf26, [w_TIBETAN;w_DIGIT;w_SIX]);
  (0xf27, [w_TIBETAN;w_DIGIT;w_SEVEN]);
  (0xf28, [w_TIBETAN;w_DIGIT;w_EIGHT]);
  (0xf29, [w_TIBETAN;w_DIGIT;w_NINE]);
  (0xf2a, [w_TIBETAN;w_DIGIT;w_HALF;w_ONE]);
  (0xf2b, [w_TIBETAN;w_DIGIT;w_HALF;w_TWO]);
  (0xf2c, [w_TIBETAN;w_DIGIT;w_HALF;w_THREE]);
  (0xf2d, [w_TIBETAN;w_DIGIT;w_HALF;w_FOUR]);
  (0xf2e, [w_TIBETAN;w_DIGIT;w_HALF;w_FIVE]);
  (0xf2f, [w_TIBETAN;w_DIGIT;w_HALF;w_SIX]);
  (0xf30, [w_TIBETAN;w_DIGIT;w_HALF;w_SEVEN]);
  (0xf31, [w_TIBETAN;w_DIGIT;w_HALF;w_EIGHT]);
  (0xf32, [w_TIBETAN;w_DIGIT;w_HALF;w_NINE]);
  (0xf33, [w_TIBETAN;w_DIGIT;w_HALF;w_ZERO]);
  (0xf34, [w_TIBETAN;w_MARK;w_BSDUS;w_RTAGS]);
  (0xf35, [w_TIBETAN;w_MARK;w_NGAS;w_BZUNG;w_NYI;w_ZLA]);
  (0xf36, [w_TIBETAN;w_MARK;w_CARET;w__DZUD;w_RTAGS;w_BZHI;w_MIG;w_CAN]);
  (0xf37, [w_TIBETAN;w_MARK;w_NGAS;w_BZUNG;w_SGOR;w_RTAGS]);
  (0xf38, [w_TIBETAN;w_MARK;w_CHE;w_MGO]);
  (0xf39, [w_TIBETAN;w_MARK;w_TSA;w__PHRU]);
  (0xf3a, [w_TIBETAN;w_MARK;w_GUG;w_RTAGS;w_GYON]);
  (0xf3b, [w_TIBETAN;w_MARK;w_GUG;w_RTAGS;w_GYAS]);
  (0xf3c, [w_TIBETAN;w_MARK;w_ANG;w_KHANG;w_GYON]);
  (0xf3d, [w_TIBETAN;w_MARK;w_ANG;w_KHANG;w_GYAS]);
  (0xf3e, [w_TIBETAN;w_SIGN;w_YAR;w_TSHES]);
  (0xf3f, [w_TIBETAN;w_SIGN;w_MAR;w_TSHES]);
  (0xf40, [w_TIBETAN;w_LETTER;w_KA]);
  (0xf41, [w_TIBETAN;w_LETTER;w_KHA]);
  (0xf42, [w_TIBETAN;w_LETTER;w_GA]);
  (0xf43, [w_TIBETAN;w_LETTER;w_GHA]);
  (0xf44, [w_TIBETAN;w_LETTER;w_NGA]);
  (0xf45, [w_TIBETAN;w_LETTER;w_CA]);
  (0xf46, [w_TIBETAN;w_LETTER;w_CHA]);
  (0xf47, [w_TIBETAN;w_LETTER;w_JA]);
  (0xf49, [w_TIBETAN;w_LETTER;w_NYA]);
  (0xf4a, [w_TIBETAN;w_LETTER;w_TTA]);
  (0xf4b, [w_TIBETAN;w_LETTER;w_TTHA]);
  (0xf4c, [w_TIBETAN;w_LETTER;w_DDA]);
  (0xf4d, [w_TIBETAN;w_LETTER;w_DDHA]);
  (0xf4e, [w_TIBETAN;w_LETTER;w_NNA]);
  (0xf4f, [w_TIBETAN;w_LETTER;w_TA]);
  (0xf50, [w_TIBETAN;w_LETTER;w_THA]);
  (0xf51, [w_TIBETAN;w_LETTER;w_DA]);
  (0xf52, [w_TIBETAN;w_LETTER;w_DHA]);
  (0xf53, [w_TIBETAN;w_LETTER;w_NA]);
  (0xf54, [w_TIBETAN;w_LETTER;w_PA]);
  (0xf55, [w_TIBETAN;w_LETTER;w_PHA]);
  (0xf56, [w_TIBETAN;w_LETTER;w_BA]);
  (0xf57, [w_TIBETAN;w_LETTER;w_BHA]);
  (0xf58, [w_TIBETAN;w_LETTER;w_MA]);
  (0xf59, [w_TIBETAN;w_LETTER;w_TSA]);
  (0xf5a, [w_TIBETAN;w_LETTER;w_TSHA]);
  (0xf5b, [w_TIBETAN;w_LETTER;w_DZA]);
  (0xf5c, [w_TIBETAN;w_LETTER;w_DZHA]);
  (0xf5d, [w_TIBETAN;w_LETTER;w_WA]);
  (0xf5e, [w_TIBETAN;w_LETTER;w_ZHA]);
  (0xf5f, [w_TIBETAN;w_LETTER;w_ZA]);
  (0xf60, [w_TIBETAN;w_LETTER;w__A]);
  (0xf61, [w_TIBETAN;w_LETTER;w_YA]);
  (0xf62, [w_TIBETAN;w_LETTER;w_RA]);
  (0xf63, [w_TIBETAN;w_LETTER;w_LA]);
  (0xf64, [w_TIBETAN;w_LETTER;w_SHA]);
  (0xf65, [w_TIBETAN;w_LETTER;w_SSA]);
  (0xf66, [w_TIBETAN;w_LETTER;w_SA]);
  (0xf67, [w_TIBETAN;w_LETTER;w_HA]);
  (0xf68, [w_TIBETAN;w_LETTER;w_A]);
  (0xf69, [w_TIBETAN;w_LETTER;w_KSSA]);
  (0xf6a, [w_TIBETAN;w_LETTER;w_FIXED_FORM;w_RA]);
  (0xf6b, [w_TIBETAN;w_LETTER;w_KKA]);
  (0xf6c, [w_TIBETAN;w_LETTER;w_RRA]);
  (0xf71, [w_TIBETAN;w_VOWEL;w_SIGN;w_AA]);
  (0xf72, [w_TIBETAN;w_VOWEL;w_SIGN;w_I]);
  (0xf73, [w_TIBETAN;w_VOWEL;w_SIGN;w_II]);
  (0xf74, [w_TIBETAN;w_VOWEL;w_SIGN;w_U]);
  (0xf75, [w_TIBETAN;w_VOWEL;w_SIGN;w_UU]);
  (0xf76, [w_TIBETAN;w_VOWEL;w_SIGN;w_VOCALIC;w_R]);
  (0xf77, [w_TIBETAN;w_VOWEL;w_SIGN;w_VOCALIC;w_RR]);
  (0xf78, [w_TIBETAN;w_VOWEL;w_SIGN;w_VOCALIC;w_L]);
  (0xf79, [w_TIBETAN;w_VOWEL;w_SIGN;w_VOCALIC;w_LL]);
  (0xf7a, [w_TIBETAN;w_VOWEL;w_SIGN;w_E]);
  (0xf7b, [w_TIBETAN;w_VOWEL;w_SIGN;w_EE]);
  (0xf7c, [w_TIBETAN;w_VOWEL;w_SIGN;w_O]);
  (0xf7d, [w_TIBETAN;w_VOWEL;w_SIGN;w_OO]);
  (0xf7e, [w_TIBETAN;w_SIGN;w_RJES;w_SU;w_NGA;w_RO]);
  (0xf7f, [w_TIBETAN;w_SIGN;w_RNAM;w_BCAD]);
  (0xf80, [w_TIBETAN;w_VOWEL;w_SIGN;w_REVERSED;w_I]);
  (0xf81, [w_TIBETAN;w_VOWEL;w_SIGN;w_REVERSED;w_II]);
  (0xf82, [w_TIBETAN;w_SIGN;w_NYI;w_ZLA;w_NAA;w_DA]);
  (0xf83, [w_TIBETAN;w_SIGN;w_SNA;w_LDAN]);
  (0xf84, [w_TIBETAN;w_MARK;w_HALANTA]);
  (0xf85, [w_TIBETAN;w_MARK;w_PALUTA]);
  (0xf86, [w_TIBETAN;w_SIGN;w_LCI;w_RTAGS]);
  (0xf87, [w_TIBETAN;w_SIGN;w_YANG;w_RTAGS]);
  (0xf88, [w_TIBETAN;w_SIGN;w_LCE;w_TSA;w_CAN]);
  (0xf89, [w_TIBETAN;w_SIGN;w_MCHU;w_CAN]);
  (0xf8a, [w_TIBETAN;w_SIGN;w_GRU;w_CAN;w_RGYINGS]);
  (0xf8b, [w_TIBETAN;w_SIGN;w_GRU;w_MED;w_RGYINGS]);
  (0xf8c, [w_TIBETAN;w_SIGN;w_INVERTED;w_MCHU;w_CAN]);
  (0xf8d, [w_TIBETAN;w_SUBJOINED;w_SIGN;w_LCE;w_TSA;w_CAN]);
  (0xf8e, [w_TIBETAN;w_SUBJOINED;w_SIGN;w_MCHU;w_CAN]);
  (0xf8f, [w_TIBETAN;w_SUBJOINED;w_SIGN;w_INVERTED;w_MCHU;w_CAN]);
  (0xf90, [w_TIBETAN;w_SUBJOINED;w_LETTER;w_KA]);
  (0xf91, [w_TIBETAN;w_SUBJOINED;w_LETTER;w_KHA]);
  (0xf92, [w_TIBETAN;w_SUBJOINED;w_LETTER;w_GA]);
  (0xf93, [w_TIBETAN;w_SUBJOINED;w_LETTER;w_GHA]);
  (0xf94, [w_TIBETAN;w_SUBJOINED;w_LETTER;w_NGA]);
  (0xf95, [w_TIBETAN;w_SUBJOINED;w_LETTER;w_CA]);
  (0xf96, [w_TIBETAN;w_SUBJOINED;w_LETTER;w_CHA]);
  (0xf97, [w_TIBETAN;w_SUBJOINED;w_LETTER;w_JA]);
  (0xf99, [w_TIBETAN;w_SUBJOINED;w_LETTER;w_NYA]);
  (0xf9a, [w_TIBETAN;w_SUBJOINED;w_LETTER;w_TTA]);
  (0xf9b, [w_TIBETAN;w_SUBJOINED;w_LETTER;w_TTHA]);
  (0xf9c, [w_TIBETAN;w_SUBJOINED;w_LETTER;w_DDA]);
  (0xf9d, [w_TIBETAN;w_SUBJOINED;w_LETTER;w_DDHA]);
  (0xf9e, [w_TIBETAN;w_SUBJOINED;w_LETTER;w_NNA]);
  (0xf9f, [w_TIBETAN;w_SUBJOINED;w_LETTER;w_TA]);
  (0xfa0, [w_TIBETAN;w_SUBJOINED;w_LETTER;w_THA]);
  (0xfa1, [w_TIBETAN;w_SUBJOINED;w_LETTER;w_DA]);
  (0xfa2, [w_TIBETAN;w_SUBJOINED;w_LETTER;w_DHA]);
  (0xfa3, [w_TIBETAN;w_SUBJOINED;w_LETTER;w_NA]);
  (0xfa4, [w_TIBETAN;w_SUBJOINED;w_LETTER;w_PA]);
  (0xfa5, [w_TIBETAN;w_SUBJOINED;w_LETTER;w_PHA]);
  (0xfa6, [w_TIBETAN;w_SUBJOINED;w_LETTER;w_BA]);
  (0xfa7, [w_TIBETAN;w_SUBJOINED;w_LETTER;w_BHA]);
  (0xfa8, [w_TIBETAN;w_SUBJOINED;w_LETTER;w_MA]);
  (0xfa9, [w_TIBETAN;w_SUBJOINED;w_LETTER;w_TSA]);
  (0xfaa, [w_TIBETAN;w_SUBJOINED;w_LETTER;w_TSHA]);
  (0xfab, [w_TIBETAN;w_SUBJOINED;w_LETTER;w_DZA]);
  (0xfac, [w_TIBETAN;w_SUBJOINED;w_LETTER;w_DZHA]);
  (0xfad, [w_TIBETAN;w_SUBJOINED;w_LETTER;w_WA]);
  (0xfae, [w_TIBETAN;w_SUBJOINED;w_LETTER;w_ZHA]);
  (0xfaf, [w_TIBETAN;w_SUBJOINED;w_LETTER;w_ZA]);
  (0xfb0, [w_TIBETAN;w_SUBJOINED;w_LETTER;w__A]);
  (0xfb1, [w_TIBETAN;w_SUBJOINED;w_LETTER;w_YA]);
  (0xfb2, [w_TIBETAN;w_SUBJOINED;w_LETTER;w_RA]);
  (0xfb3, [w_TIBETAN;w_SUBJOINED;w_LETTER;w_LA]);
  (0xfb4, [w_TIBETAN;w_SUBJOINED;w_LETTER;w_SHA]);
  (0xfb5, [w_TIBETAN;w_SUBJOINED;w_LETTER;w_SSA]);
  (0xfb6, [w_TIBETAN;w_SUBJOINED;w_LETTER;w_SA]);
  (0xfb7, [w_TIBETAN;w_SUBJOINED;w_LETTER;w_HA]);
  (0xfb8, [w_TIBETAN;w_SUBJOINED;w_LETTER;w_A]);
  (0xfb9, [w_TIBETAN;w_SUBJOINED;w_LETTER;w_KSSA]);
  (0xfba, [w_TIBETAN;w_SUBJOINED;w_LETTER;w_FIXED_FORM;w_WA]);
  (0xfbb, [w_TIBETAN;w_SUBJOINED;w_LETTER;w_FIXED_FORM;w_YA]);
  (0xfbc, [w_TIBETAN;w_SUBJOINED;w_LETTER;w_FIXED_FORM;w_RA]);
  (0xfbe, [w_TIBETAN;w_KU;w_RU;w_KHA]);
  (0xfbf, [w_TIBETAN;w_KU;w_RU;w_KHA;w_BZHI;w_MIG;w_CAN]);
  (0xfc0, [w_TIBETAN;w_CANTILLATION;w_SIGN;w_HEAVY;w_BEAT]);
  (0xfc1, [w_TIBETAN;w_CANTILLATION;w_SIGN;w_LIGHT;w_BEAT]);
  (0xfc2, [w_TIBETAN;w_CANTILLATION;w_SIGN;w_CANG;w_TE_U]);
  (0xfc3, [w_TIBETAN;w_CANTILLATION;w_SIGN;w_SBUB;w__CHAL]);
  (0xfc4, [w_TIBETAN;w_SYMBOL;w_DRIL;w_BU]);
  (0xfc5, [w_TIBETAN;w_SYMBOL;w_RDO;w_RJE]);
  (0xfc6, [w_TIBETAN;w_SYMBOL;w_PADMA;w_GDAN]);
  (0xfc7, [w_TIBETAN;w_SYMBOL;w_RDO;w_RJE;w_RGYA;w_GRAM]);
  (0xfc8, [w_TIBETAN;w_SYMBOL;w_PHUR;w_PA]);
  (0xfc9, [w_TIBETAN;w_SYMBOL;w_NOR;w_BU]);
  (0xfca, [w_TIBETAN;w_SYMBOL;w_NOR;w_BU;w_NYIS;w__KHYIL]);
  (0xfcb, [w_TIBETAN;w_SYMBOL;w_NOR;w_BU;w_GSUM;w__KHYIL]);
  (0xfcc, [w_TIBETAN;w_SYMBOL;w_NOR;w_BU;w_BZHI;w__KHYIL]);
  (0xfce, [w_TIBETAN;w_SIGN;w_RDEL;w_NAG;w_RDEL;w_DKAR]);
  (0xfcf, [w_TIBETAN;w_SIGN;w_RDEL;w_NAG;w_GSUM]);
  (0xfd0, [w_TIBETAN;w_MARK;w_BSKA_;w_SHOG;w_GI;w_MGO;w_RGYAN]);
  (0xfd1, [w_TIBETAN;w_MARK;w_MNYAM;w_YIG;w_GI;w_MGO;w_RGYAN]);
  (0xfd2, [w_TIBETAN;w_MARK;w_NYIS;w_TSHEG]);
  (0xfd3, [w_TIBETAN;w_MARK;w_INITIAL;w_BRDA;w_RNYING;w_YIG;w_MGO;w_MDUN;w_MA]);
  (0xfd4, [w_TIBETAN;w_MARK;w_CLOSING;w_BRDA;w_RNYING;w_YIG;w_MGO;w_SGAB;w_MA]);
  (0xfd5, [w_RIGHT_FACING;w_SVASTI;w_SIGN]);
  (0xfd6, [w_LEFT_FACING;w_SVASTI;w_SIGN]);
  (0xfd7, [w_RIGHT_FACING;w_SVASTI;w_SIGN;w_WITH;w_DOTS]);
  (0xfd8, [w_LEFT_FACING;w_SVASTI;w_SIGN;w_WITH;w_DOTS]);
  (0xfd9, [w_TIBETAN;w_MARK;w_LEADING;w_MCHAN;w_RTAGS]);
  (0xfda, [w_TIBETAN;w_MARK;w_TRAILING;w_MCHAN;w_RTAGS]);
  (0x1000, [w_MYANMAR;w_LETTER;w_KA]);
  (0x1001, [w_MYANMAR;w_LETTER;w_KHA]);
  (0x1002, [w_MYANMAR;w_LETTER;w_GA]);
  (0x1003, [w_MYANMAR;w_LETTER;w_GHA]);
  (0x1004, [w_MYANMAR;w_LETTER;w_NGA]);
  (0x1005, [w_MYANMAR;w_LETTER;w_CA]);
  (0x1006, [w_MYANMAR;w_LETTER;w_CHA]);
  (0x1007, [w_MYANMAR;w_LETTER;w_JA]);
  (0x1008, [w_MYANMAR;w_LETTER;w_JHA]);
  (0x1009, [w_MYANMAR;w_LETTER;w_NYA]);
  (0x100a, [w_MYANMAR;w_LETTER;w_NNYA]);
  (0x100b, [w_MYANMAR;w_LETTER;w_TTA]);
  (0x100c, [w_MYANMAR;w_LETTER;w_TTHA]);
  (0x100d, [w_MYANMAR;w_LETTER;w_DDA]);
  (0x100e, [w_MYANMAR;w_LETTER;w_DDHA]);
  (0x100f, [w_MYANMAR;w_LETTER;w_NNA]);
  (0x1010, [w_MYANMAR;w_LETTER;w_TA]);
  (0x1011, [w_MYANMAR;w_LETTER;w_THA]);
  (0x1012, [w_MYANMAR;w_LETTER;w_DA]);
  (0x1013, [w_MYANMAR;w_LETTER;w_DHA]);
  (0x1014, [w_MYANMAR;w_LETTER;w_NA]);
  (0x1015, [w_MYANMAR;w_LETTER;w_PA]);
  (0x1016, [w_MYANMAR;w_LETTER;w_PHA]);
  (0x1017, [w_MYANMAR;w_LETTER;w_BA]);
  (0x1018, [w_MYANMAR;w_LETTER;w_BHA]);
  (0x1019, [w_MYANMAR;w_LETTER;w_MA]);
  (0x101a, [w_MYANMAR;w_LETTER;w_YA]);
  (0x101b, [w_MYANMAR;w_LETTER;w_RA]);
  (0x101c, [w_MYANMAR;w_LETTER;w_LA]);
  (0x101d, [w_MYANMAR;w_LETTER;w_WA]);
  (0x101e, [w_MYANMAR;w_LETTER;w_SA]);
  (0x101f, [w_MYANMAR;w_LETTER;w_HA]);
  (0x1020, [w_MYANMAR;w_LETTER;w_LLA]);
  (0x1021, [w_MYANMAR;w_LETTER;w_A]);
  (0x1022, [w_MYANMAR;w_LETTER;w_SHAN;w_A]);
  (0x1023, [w_MYANMAR;w_LETTER;w_I]);
  (0x1024, [w_MYANMAR;w_LETTER;w_II]);
  (0x1025, [w_MYANMAR;w_LETTER;w_U]);
  (0x1026, [w_MYANMAR;w_LETTER;w_UU]);
  (0x1027, [w_MYANMAR;w_LETTER;w_E]);
  (0x1028, [w_MYANMAR;w_LETTER;w_MON;w_E]);
  (0x1029, [w_MYANMAR;w_LETTER;w_O]);
  (0x102a, [w_MYANMAR;w_LETTER;w_AU]);
  (0x102b, [w_MYANMAR;w_VOWEL;w_SIGN;w_TALL;w_AA]);
  (0x102c, [w_MYANMAR;w_VOWEL;w_SIGN;w_AA]);
  (0x102d, [w_MYANMAR;w_VOWEL;w_SIGN;w_I]);
  (0x102e, [w_MYANMAR;w_VOWEL;w_SIGN;w_II]);
  (0x102f, [w_MYANMAR;w_VOWEL;w_SIGN;w_U]);
  (0x1030, [w_MYANMAR;w_VOWEL;w_SIGN;w_UU]);
  (0x1031, [w_MYANMAR;w_VOWEL;w_SIGN;w_E]);
  (0x1032, [w_MYANMAR;w_VOWEL;w_SIGN;w_AI]);
  (0x1033, [w_MYANMAR;w_VOWEL;w_SIGN;w_MON;w_II]);
  (0x1034, [w_MYANMAR;w_VOWEL;w_SIGN;w_MON;w_O]);
  (0x1035, [w_MYANMAR;w_VOWEL;w_SIGN;w_E;w_ABOVE]);
  (0x1036, [w_MYANMAR;w_SIGN;w_ANUSVARA]);
  (0x1037, [w_MYANMAR;w_SIGN;w_DOT;w_BELOW]);
  (0x1038, [w_MYANMAR;w_SIGN;w_VISARGA]);
  (0x1039, [w_MYANMAR;w_SIGN;w_VIRAMA]);
  (0x103a, [w_MYANMAR;w_SIGN;w_ASAT]);
  (0x103b, [w_MYANMAR;w_CONSONANT;w_SIGN;w_MEDIAL;w_YA]);
  (0x103c, [w_MYANMAR;w_CONSONANT;w_SIGN;w_MEDIAL;w_RA]);
  (0x103d, [w_MYANMAR;w_CONSONANT;w_SIGN;w_MEDIAL;w_WA]);
  (0x103e, [w_MYANMAR;w_CONSONANT;w_SIGN;w_MEDIAL;w_HA]);
  (0x103f, [w_MYANMAR;w_LETTER;w_GREAT;w_SA]);
  (0x1040, [w_MYANMAR;w_DIGIT;w_ZERO]);
  (0x1041, [w_MYANMAR;w_DIGIT;w_ONE]);
  (0x1042, [w_MYANMAR;w_DIGIT;w_TWO]);
  (0x1043, [w_MYANMAR;w_DIGIT;w_THREE]);
  (0x1044, [w_MYANMAR;w_DIGIT;w_FOUR]);
  (0x1045, [w_MYANMAR;w_DIGIT;w_FIVE]);
  (0x1046, [w_MYANMAR;w_DIGIT;w_SIX]);
  (0x1047, [w_MYANMAR;w_DIGIT;w_SEVEN]);
  (0x1048, [w_MYANMAR;w_DIGIT;w_EIGHT]);
  (0x1049, [w_MYANMAR;w_DIGIT;w_NINE]);
  (0x104a, [w_MYANMAR;w_SIGN;w_LITTLE;w_SECTION]);
  (0x104b, [w_MYANMAR;w_SIGN;w_SECTION]);
  (0x104c, [w_MYANMAR;w_SYMBOL;w_LOCATIVE]);
  (0x104d, [w_MYANMAR;w_SYMBOL;w_COMPLETED]);
  (0x104e, [w_MYANMAR;w_SYMBOL;w_AFOREMENTIONED]);
  (0x104f, [w_MYANMAR;w_SYMBOL;w_GENITIVE]);
  (0x1050, [w_MYANMAR;w_LETTER;w_SHA]);
  (0x1051, [w_MYANMAR;w_LETTER;w_SSA]);
  (0x1052, [w_MYANMAR;w_LETTER;w_VOCALIC;w_R]);
  (0x1053, [w_MYANMAR;w_LETTER;w_VOCALIC;w_RR]);
  (0x1054, [w_MYANMAR;w_LETTER;w_VOCALIC;w_L]);
  (0x1055, [w_MYANMAR;w_LETTER;w_VOCALIC;w_LL]);
  (0x1056, [w_MYANMAR;w_VOWEL;w_SIGN;w_VOCALIC;w_R]);
  (0x1057, [w_MYANMAR;w_VOWEL;w_SIGN;w_VOCALIC;w_RR]);
  (0x1058, [w_MYANMAR;w_VOWEL;w_SIGN;w_VOCALIC;w_L]);
  (0x1059, [w_MYANMAR;w_VOWEL;w_SIGN;w_VOCALIC;w_LL]);
  (0x105a, [w_MYANMAR;w_LETTER;w_MON;w_NGA]);
  (0x105b, [w_MYANMAR;w_LETTER;w_MON;w_JHA]);
  (0x105c, [w_MYANMAR;w_LETTER;w_MON;w_BBA]);
  (0x105d, [w_MYANMAR;w_LETTER;w_MON;w_BBE]);
  (0x105e, [w_MYANMAR;w_CONSONANT;w_SIGN;w_MON;w_MEDIAL;w_NA]);
  (0x105f, [w_MYANMAR;w_CONSONANT;w_SIGN;w_MON;w_MEDIAL;w_MA]);
  (0x1060, [w_MYANMAR;w_CONSONANT;w_SIGN;w_MON;w_MEDIAL;w_LA]);
  (0x1061, [w_MYANMAR;w_LETTER;w_SGAW;w_KAREN;w_SHA]);
  (0x1062, [w_MYANMAR;w_VOWEL;w_SIGN;w_SGAW;w_KAREN;w_EU]);
  (0x1063, [w_MYANMAR;w_TONE;w_MARK;w_SGAW;w_KAREN;w_HATHI]);
  (0x1064, [w_MYANMAR;w_TONE;w_MARK;w_SGAW;w_KAREN;w_KE;w_PHO]);
  (0x1065, [w_MYANMAR;w_LETTER;w_WESTERN;w_PWO;w_KAREN;w_THA]);
  (0x1066, [w_MYANMAR;w_LETTER;w_WESTERN;w_PWO;w_KAREN;w_PWA]);
  (0x1067, [w_MYANMAR;w_VOWEL;w_SIGN;w_WESTERN;w_PWO;w_KAREN;w_EU]);
  (0x1068, [w_MYANMAR;w_VOWEL;w_SIGN;w_WESTERN;w_PWO;w_KAREN;w_UE]);
  (0x1069, [w_MYANMAR;w_SIGN;w_WESTERN;w_PWO;w_KAREN;w_TONE_1]);
  (0x106a, [w_MYANMAR;w_SIGN;w_WESTERN;w_PWO;w_KAREN;w_TONE_2]);
  (0x106b, [w_MYANMAR;w_SIGN;w_WESTERN;w_PWO;w_KAREN;w_TONE_3]);
  (0x106c, [w_MYANMAR;w_SIGN;w_WESTERN;w_PWO;w_KAREN;w_TONE_4]);
  (0x106d, [w_MYANMAR;w_SIGN;w_WESTERN;w_PWO;w_KAREN;w_TONE_5]);
  (0x106e, [w_MYANMAR;w_LETTER;w_EASTERN;w_PWO;w_KAREN;w_NNA]);
  (0x106f, [w_MYANMAR;w_LETTER;w_EASTERN;w_PWO;w_KAREN;w_YWA]);
  (0x1070, [w_MYANMAR;w_LETTER;w_EASTERN;w_PWO;w_KAREN;w_GHWA]);
  (0x1071, [w_MYANMAR;w_VOWEL;w_SIGN;w_GEBA;w_KAREN;w_I]);
  (0x1072, [w_MYANMAR;w_VOWEL;w_SIGN;w_KAYAH;w_OE]);
  (0x1073, [w_MYANMAR;w_VOWEL;w_SIGN;w_KAYAH;w_U]);
  (0x1074, [w_MYANMAR;w_VOWEL;w_SIGN;w_KAYAH;w_EE]);
  (0x1075, [w_MYANMAR;w_LETTER;w_SHAN;w_KA]);
  (0x1076, [w_MYANMAR;w_LETTER;w_SHAN;w_KHA]);
  (0x1077, [w_MYANMAR;w_LETTER;w_SHAN;w_GA]);
  (0x1078, [w_MYANMAR;w_LETTER;w_SHAN;w_CA]);
  (0x1079, [w_MYANMAR;w_LETTER;w_SHAN;w_ZA]);
  (0x107a, [w_MYANMAR;w_LETTER;w_SHAN;w_NYA]);
  (0x107b, [w_MYANMAR;w_LETTER;w_SHAN;w_DA]);
  (0x107c, [w_MYANMAR;w_LETTER;w_SHAN;w_NA]);
  (0x107d, [w_MYANMAR;w_LETTER;w_SHAN;w_PHA]);
  (0x107e, [w_MYANMAR;w_LETTER;w_SHAN;w_FA]);
  (0x107f, [w_MYANMAR;w_LETTER;w_SHAN;w_BA]);
  (0x1080, [w_MYANMAR;w_LETTER;w_SHAN;w_THA]);
  (0x1081, [w_MYANMAR;w_LETTER;w_SHAN;w_HA]);
  (0x1082, [w_MYANMAR;w_CONSONANT;w_SIGN;w_SHAN;w_MEDIAL;w_WA]);
  (0x1083, [w_MYANMAR;w_VOWEL;w_SIGN;w_SHAN;w_AA]);
  (0x1084, [w_MYANMAR;w_VOWEL;w_SIGN;w_SHAN;w_E]);
  (0x1085, [w_MYANMAR;w_VOWEL;w_SIGN;w_SHAN;w_E;w_ABOVE]);
  (0x1086, [w_MYANMAR;w_VOWEL;w_SIGN;w_SHAN;w_FINAL;w_Y]);
  (0x1087, [w_MYANMAR;w_SIGN;w_SHAN;w_TONE_2]);
  (0x1088, [w_MYANMAR;w_SIGN;w_SHAN;w_TONE_3]);
  (0x1089, [w_MYANMAR;w_SIGN;w_SHAN;w_TONE_5]);
  (0x108a, [w_MYANMAR;w_SIGN;w_SHAN;w_TONE_6]);
  (0x108b, [w_MYANMAR;w_SIGN;w_SHAN;w_COUNCIL;w_TONE_2]);
  (0x108c, [w_MYANMAR;w_SIGN;w_SHAN;w_COUNCIL;w_TONE_3]);
  (0x108d, [w_MYANMAR;w_SIGN;w_SHAN;w_COUNCIL;w_EMPHATIC;w_TONE]);
  (0x108e, [w_MYANMAR;w_LETTER;w_RUMAI;w_PALAUNG;w_FA]);
  (0x108f, [w_MYANMAR;w_SIGN;w_RUMAI;w_PALAUNG;w_TONE_5]);
  (0x1090, [w_MYANMAR;w_SHAN;w_DIGIT;w_ZERO]);
  (0x1091, [w_MYANMAR;w_SHAN;w_DIGIT;w_ONE]);
  (0x1092, [w_MYANMAR;w_SHAN;w_DIGIT;w_TWO]);
  (0x1093, [w_MYANMAR;w_SHAN;w_DIGIT;w_THREE]);
  (0x1094, [w_MYANMAR;w_SHAN;w_DIGIT;w_FOUR]);
  (0x1095, [w_MYANMAR;w_SHAN;w_DIGIT;w_FIVE]);
  (0x1096, [w_MYANMAR;w_SHAN;w_DIGIT;w_SIX]);
  (0x1097, [w_MYANMAR;w_SHAN;w_DIGIT;w_SEVEN]);
  (0x1098, [w_MYANMAR;w_SHAN;w_DIGIT;w_EIGHT]);
  (0x1099, [w_MYANMAR;w_SHAN;w_DIGIT;w_NINE]);
  (0x109a, [w_MYANMAR;w_SIGN;w_KHAMTI;w_TONE_1]);
  (0x109b, [w_MYANMAR;w_SIGN;w_KHAMTI;w_TONE_3]);
  (0x109c, [w_MYANMAR;w_VOWEL;w_SIGN;w_AITON;w_A]);
  (0x109d, [w_MYANMAR;w_VOWEL;w_SIGN;w_AITON;w_AI]);
  (0x109e, [w_MYANMAR;w_SYMBOL;w_SHAN;w_ONE]);
  (0x109f, [w_MYANMAR;w_SYMBOL;w_SHAN;w_EXCLAMATION]);
  (0x10a0, [w_GEORGIAN;w_CAPITAL;w_LETTER;w_AN]);
  (0x10a1, [w_GEORGIAN;w_CAPITAL;w_LETTER;w_BAN]);
  (0x10a2, [w_GEORGIAN;w_CAPITAL;w_LETTER;w_GAN]);
  (0x10a3, [w_GEORGIAN;w_CAPITAL;w_LETTER;w_DON]);
  (0x10a4, [w_GEORGIAN;w_CAPITAL;w_LETTER;w_EN]);
  (0x10a5, [w_GEORGIAN;w_CAPITAL;w_LETTER;w_VIN]);
  (0x10a6, [w_GEORGIAN;w_CAPITAL;w_LETTER;w_ZEN]);
  (0x10a7, [w_GEORGIAN;w_CAPITAL;w_LETTER;w_TAN]);
  (0x10a8, [w_GEORGIAN;w_CAPITAL;w_LETTER;w_IN]);
  (0x10a9, [w_GEORGIAN;w_CAPITAL;w_LETTER;w_KAN]);
  (0x10aa, [w_GEORGIAN;w_CAPITAL;w_LETTER;w_LAS]);
  (0x10ab, [w_GEORGIAN;w_CAPITAL;w_LETTER;w_MAN]);
  (0x10ac, [w_GEORGIAN;w_CAPITAL;w_LETTER;w_NAR]);
  (0x10ad, [w_GEORGIAN;w_CAPITAL;w_LETTER;w_ON]);
  (0x10ae, [w_GEORGIAN;w_CAPITAL;w_LETTER;w_PAR]);
  (0x10af, [w_GEORGIAN;w_CAPITAL;w_LETTER;w_ZHAR]);
  (0x10b0, [w_GEORGIAN;w_CAPITAL;w_LETTER;w_RAE]);
  (0x10b1, [w_GEORGIAN;w_CAPITAL;w_LETTER;w_SAN]);
  (0x10b2, [w_GEORGIAN;w_CAPITAL;w_LETTER;w_TAR]);
  (0x10b3, [w_GEORGIAN;w_CAPITAL;w_LETTER;w_UN]);
  (0x10b4, [w_GEORGIAN;w_CAPITAL;w_LETTER;w_PHAR]);
  (0x10b5, [w_GEORGIAN;w_CAPITAL;w_LETTER;w_KHAR]);
  (0x10b6, [w_GEORGIAN;w_CAPITAL;w_LETTER;w_GHAN]);
  (0x10b7, [w_GEORGIAN;w_CAPITAL;w_LETTER;w_QAR]);
  (0x10b8, [w_GEORGIAN;w_CAPITAL;w_LETTER;w_SHIN]);
  (0x10b9, [w_GEORGIAN;w_CAPITAL;w_LETTER;w_CHIN]);
  (0x10ba, [w_GEORGIAN;w_CAPITAL;w_LETTER;w_CAN]);
  (0x10bb, [w_GEORGIAN;w_CAPITAL;w_LETTER;w_JIL]);
  (0x10bc, [w_GEORGIAN;w_CAPITAL;w_LETTER;w_CIL]);
  (0x10bd, [w_GEORGIAN;w_CAPITAL;w_LETTER;w_CHAR]);
  (0x10be, [w_GEORGIAN;w_CAPITAL;w_LETTER;w_XAN]);
  (0x10bf, [w_GEORGIAN;w_CAPITAL;w_LETTER;w_JHAN]);
  (0x10c0, [w_GEORGIAN;w_CAPITAL;w_LETTER;w_HAE]);
  (0x10c1, [w_GEORGIAN;w_CAPITAL;w_LETTER;w_HE]);
  (0x10c2, [w_GEORGIAN;w_CAPITAL;w_LETTER;w_HIE]);
  (0x10c3, [w_GEORGIAN;w_CAPITAL;w_LETTER;w_WE])].

Definition NAMES_9 : list (N * (list str)) := [
  (0x10c4, [w_GEORGIAN;w_CAPITAL;w_LETTER;w_HAR]);
  (0x10c5, [w_GEORGIAN;w_CAPITAL;w_LETTER;w_HOE]);
  (0x10c7, [w_GEORGIAN;w_CAPITAL;w_LETTER;w_YN]);
  (0x10cd, [w_GEORGIAN;w_CAPITAL;w_LETTER;w_AEN]);
  (0x10d0, [w_GEORGIAN;w_LETTER;w_AN]);
  (0x10d1, [w_GEORGIAN;w_LETTER;w_BAN]);
  (0x10d2, [w_GEORGIAN;w_LETTER;w_GAN]);
  (0x10d3, [w_GEORGIAN;w_LETTER;w_DON]);
  (0x10d4, [w_GEORGIAN;w_LETTER;w_EN]);
  (0x10d5, [w_GEORGIAN;w_LETTER;w_VIN]);
  (0x10d6, [w_GEORGIAN;w_LETTER;w_ZEN]);
  (0x10d7, [w_GEORGIAN;w_LETTER;w_TAN]);
  (0x10d8, [w_GEORGIAN;w_LETTER;w_IN]);
  (0x10d9, [w_GEORGIAN;w_LETTER;w_KAN]);
  (0x10da, [w_GEORGIAN;w_LETTER;w_LAS]);
  (0x10db, [w_GEORGIAN;w_LETTER;w_MAN]);
  (0x10dc, [w_GEORGIAN;w_LETTER;w_NAR]);
  (0x10dd, [w_GEORGIAN;w_LETTER;w_ON]);
  (0x10de, [w_GEORGIAN;w_LETTER;w_PAR]);
  (0x10df, [w_GEORGIAN;w_LETTER;w_ZHAR]);
  (0x10e0, [w_GEORGIAN;w_LETTER;w_RAE]);
  (0x10e1, [w_GEORGIAN;w_LETTER;w_SAN]);
  (0x10e2, [w_GEORGIAN;w_LETTER;w_TAR]);
  (0x10e3, [w_GEORGIAN;w_LETTER;w_UN]);
  (0x10e4, [w_GEORGIAN;w_LETTER;w_PHAR]);
  (0x10e5, [w_GEORGIAN;w_LETTER;w_KHAR]);
  (0x10e6, [w_GEORGIAN;w_LETTER;w_GHAN]);
  (0x10e7, [w_GEORGIAN;w_LETTER;w_QAR]);
  (0x10e8, [w_GEORGIAN;w_LETTER;w_SHIN]);
  (0x10e9, [w_GEORGIAN;w_LETTER;w_CHIN]);
  (0x10ea, [w_GEORGIAN;w_LETTER;w_CAN]);
  (0x10eb, [w_GEORGIAN;w_LETTER;w_JIL]);
  (0x10ec, [w_GEORGIAN;w_LETTER;w_CIL]);
  (0x10ed, [w_GEORGIAN;w_LETTER;w_CHAR]);
  (0x10ee, [w_GEORGIAN;w_LETTER;w_XAN]);
  (0x10ef, [w_GEORGIAN;w_LETTER;w_JHAN]);
  (0x10f0, [w_GEORGIAN;w_LETTER;w_HAE]);
  (0x10f1, [w_GEORGIAN;w_LETTER;w_HE]);
  (0x10f2, [w_GEORGIAN;w_LETTER;w_HIE]);
  (0x10f3, [w_GEORGIAN;w_LETTER;w_WE]);
  (0x10f4, [w_GEORGIAN;w_LETTER;w_HAR]);
  (0x10f5, [w_GEORGIAN;w_LETTER;w_HOE]);
  (0x10f6, [w_GEORGIAN;w_LETTER;w_FI]);
  (0x10f7, [w_GEORGIAN;w_LETTER;w_YN]);
  (0x10f8, [w_GEORGIAN;w_LETTER;w_ELIFI]);
  (0x10f9, [w_GEORGIAN;w_LETTER;w_TURNED;w_GAN]);
  (0x10fa, [w_GEORGIAN;w_LETTER;w_AIN]);
  (0x10fb, [w_GEORGIAN;w_PARAGRAPH;w_SEPARATOR]);
  (0x10fc, [w_MODIFIER;w_LETTER;w_GEORGIAN;w_NAR]);
  (0x10fd, [w_GEORGIAN;w_LETTER;w_AEN]);
  (0x10fe, [w_GEORGIAN;w_LETTER;w_HARD;w_SIGN]);
  (0x10ff, [w_GEORGIAN;w_LETTER;w_LABIAL;w_SIGN]);
  (0x1100, [w_HANGUL;w_CHOSEONG;w_KIYEOK]);
  (0x1101, [w_HANGUL;w_CHOSEONG;w_SSANGKIYEOK]);
  (0x1102, [w_HANGUL;w_CHOSEONG;w_NIEUN]);
  (0x1103, [w_HANGUL;w_CHOSEONG;w_TIKEUT]);
  (0x1104, [w_HANGUL;w_CHOSEONG;w_SSANGTIKEUT]);
  (0x1105, [w_HANGUL;w_CHOSEONG;w_RIEUL]);
  (0x1106, [w_HANGUL;w_CHOSEONG;w_MIEUM]);
  (0x1107, [w_HANGUL;w_CHOSEONG;w_PIEUP]);
  (0x1108, [w_HANGUL;w_CHOSEONG;w_SSANGPIEUP]);
  (0x1109, [w_HANGUL;w_CHOSEONG;w_SIOS]);
  (0x110a, [w_HANGUL;w_CHOSEONG;w_SSANGSIOS]);
  (0x110b, [w_HANGUL;w_CHOSEONG;w_IEUNG]);
  (0x110c, [w_HANGUL;w_CHOSEONG;w_CIEUC]);
  (0x110d, [w_HANGUL;w_CHOSEONG;w_SSANGCIEUC]);
  (0x110e, [w_HANGUL;w_CHOSEONG;w_CHIEUCH]);
  (0x110f, [w_HANGUL;w_CHOSEONG;w_KHIEUKH]);
  (0x1110, [w_HANGUL;w_CHOSEONG;w_THIEUTH]);
  (0x1111, [w_HANGUL;w_CHOSEONG;w_PHIEUPH]);
  (0x1112, [w_HANGUL;w_CHOSEONG;w_HIEUH]);
  (0x1113, [w_HANGUL;w_CHOSEONG;w_NIEUN_KIYEOK]);
  (0x1114, [w_HANGUL;w_CHOSEONG;w_SSANGNIEUN]);
  (0x1115, [w_HANGUL;w_CHOSEONG;w_NIEUN_TIKEUT]);
  (0x1116, [w_HANGUL;w_CHOSEONG;w_NIEUN_PIEUP]);
  (0x1117, [w_HANGUL;w_CHOSEONG;w_TIKEUT_KIYEOK]);
  (0x1118, [w_HANGUL;w_CHOSEONG;w_RIEUL_NIEUN]);
  (0x1119, [w_HANGUL;w_CHOSEONG;w_SSANGRIEUL]);
  (0x111a, [w_HANGUL;w_CHOSEONG;w_RIEUL_HIEUH]);
  (0x111b, [w_HANGUL;w_CHOSEONG;w_KAPYEOUNRIEUL]);
  (0x111c, [w_HANGUL;w_CHOSEONG;w_MIEUM_PIEUP]);
  (0x111d, [w_HANGUL;w_CHOSEONG;w_KAPYEOUNMIEUM]);
  (0x111e, [w_HANGUL;w_CHOSEONG;w_PIEUP_KIYEOK]);
  (0x111f, [w_HANGUL;w_CHOSEONG;w_PIEUP_NIEUN]);
  (0x1120, [w_HANGUL;w_CHOSEONG;w_PIEUP_TIKEUT]);
  (0x1121, [w_HANGUL;w_CHOSEONG;w_PIEUP_SIOS]);
  (0x1122, [w_HANGUL;w_CHOSEONG;w_PIEUP_SIOS_KIYEOK]);
  (0x1123, [w_HANGUL;w_CHOSEONG;w_PIEUP_SIOS_TIKEUT]);
  (0x1124, [w_HANGUL;w_CHOSEONG;w_PIEUP_SIOS_PIEUP]);
  (0x1125, [w_HANGUL;w_CHOSEONG;w_PIEUP_SSANGSIOS]);
  (0x1126, [w_HANGUL;w_CHOSEONG;w_PIEUP_SIOS_CIEUC]);
  (0x1127, [w_HANGUL;w_CHOSEONG;w_PIEUP_CIEUC]);
  (0x1128, [w_HANGUL;w_CHOSEONG;w_PIEUP_CHIEUCH]);
  (0x1129, [w_HANGUL;w_CHOSEONG;w_PIEUP_THIEUTH]);
  (0x112a, [w_HANGUL;w_CHOSEONG;w_PIEUP_PHIEUPH]);
  (0x112b, [w_HANGUL;w_CHOSEONG;w_KAPYEOUNPIEUP]);
  (0x112c, [w_HANGUL;w_CHOSEONG;w_KAPYEOUNSSANGPIEUP]);
  (0x112d, [w_HANGUL;w_CHOSEONG;w_SIOS_KIYEOK]);
  (0x112e, [w_HANGUL;w_CHOSEONG;w_SIOS_NIEUN]);
  (0x112f, [w_HANGUL;w_CHOSEONG;w_SIOS_TIKEUT]);
  (0x1130, [w_HANGUL;w_CHOSEONG;w_SIOS_RIEUL]);
  (0x1131, [w_HANGUL;w_CHOSEONG;w_SIOS_MIEUM]);
  (0x1132, [w_HANGUL;w_CHOSEONG;w_SIOS_PIEUP]);
  (0x1133, [w_HANGUL;w_CHOSEONG;w_SIOS_PIEUP_KIYEOK]);
  (0x1134, [w_HANGUL;w_CHOSEONG;w_SIOS_SSANGSIOS]);
  (0x1135, [w_HANGUL;w_CHOSEONG;w_SIOS_IEUNG]);
  (0x1136, [w_HANGUL;w_CHOSEONG;w_SIOS_CIEUC]);
  (0x1137, [w_HANGUL;w_CHOSEONG;w_SIOS_CHIEUCH]);
  (0x1138, [w_HANGUL;w_CHOSEONG;w_SIOS_KHIEUKH]);
  (0x1139, [w_HANGUL;w_CHOSEONG;w_SIOS_THIEUTH]);
  (0x113a, [w_HANGUL;w_CHOSEONG;w_SIOS_PHIEUPH]);
  (0x113b, [w_HANGUL;w_CHOSEONG;w_SIOS_HIEUH]);
  (0x113c, [w_HANGUL;w_CHOSEONG;w_CHITUEUMSIOS]);
  (0x113d, [w_HANGUL;w_CHOSEONG;w_CHITUEUMSSANGSIOS]);
  (0x113e, [w_HANGUL;w_CHOSEONG;w_CEONGCHIEUMSIOS]);
  (0x113f, [w_HANGUL;w_CHOSEONG;w_CEONGCHIEUMSSANGSIOS]);
  (0x1140, [w_HANGUL;w_CHOSEONG;w_PANSIOS]);
  (0x1141, [w_HANGUL;w_CHOSEONG;w_IEUNG_KIYEOK]);
  (0x1142, [w_HANGUL;w_CHOSEONG;w_IEUNG_TIKEUT]);
  (0x1143, [w_HANGUL;w_CHOSEONG;w_IEUNG_MIEUM]);
  (0x1144, [w_HANGUL;w_CHOSEONG;w_IEUNG_PIEUP]);
  (0x1145, [w_HANGUL;w_CHOSEONG;w_IEUNG_SIOS]);
  (0x1146, [w_HANGUL;w_CHOSEONG;w_IEUNG_PANSIOS]);
  (0x1147, [w_HANGUL;w_CHOSEONG;w_SSANGIEUNG]);
  (0x1148, [w_HANGUL;w_CHOSEONG;w_IEUNG_CIEUC]);
  (0x1149, [w_HANGUL;w_CHOSEONG;w_IEUNG_CHIEUCH]);
  (0x114a, [w_HANGUL;w_CHOSEONG;w_IEUNG_THIEUTH]);
  (0x114b, [w_HANGUL;w_CHOSEONG;w_IEUNG_PHIEUPH]);
  (0x114c, [w_HANGUL;w_CHOSEONG;w_YESIEUNG]);
  (0x114d, [w_HANGUL;w_CHOSEONG;w_CIEUC_IEUNG]);
  (0x114e, [w_HANGUL;w_CHOSEONG;w_CHITUEUMCIEUC]);
  (0x114f, [w_HANGUL;w_CHOSEONG;w_CHITUEUMSSANGCIEUC]);
  (0x1150, [w_HANGUL;w_CHOSEONG;w_CEONGCHIEUMCIEUC]);
  (0x1151, [w_HANGUL;w_CHOSEONG;w_CEONGCHIEUMSSANGCIEUC]);
  (0x1152, [w_HANGUL;w_CHOSEONG;w_CHIEUCH_KHIEUKH]);
  (0x1153, [w_HANGUL;w_CHOSEONG;w_CHIEUCH_HIEUH]);
  (0x1154, [w_HANGUL;w_CHOSEONG;w_CHITUEUMCHIEUCH]);
  (0x1155, [w_HANGUL;w_CHOSEONG;w_CEONGCHIEUMCHIEUCH]);
  (0x1156, [w_HANGUL;w_CHOSEONG;w_PHIEUPH_PIEUP]);
  (0x1157, [w_HANGUL;w_CHOSEONG;w_KAPYEOUNPHIEUPH]);
  (0x1158, [w_HANGUL;w_CHOSEONG;w_SSANGHIEUH]);
  (0x1159, [w_HANGUL;w_CHOSEONG;w_YEORINHIEUH]);
  (0x115a, [w_HANGUL;w_CHOSEONG;w_KIYEOK_TIKEUT]);
  (0x115b, [w_HANGUL;w_CHOSEONG;w_NIEUN_SIOS]);
  (0x115c, [w_HANGUL;w_CHOSEONG;w_NIEUN_CIEUC]);
  (0x115d, [w_HANGUL;w_CHOSEONG;w_NIEUN_HIEUH]);
  (0x115e, [w_HANGUL;w_CHOSEONG;w_TIKEUT_RIEUL]);
  (0x115f, [w_HANGUL;w_CHOSEONG;w_FILLER]);
  (0x1160, [w_HANGUL;w_JUNGSEONG;w_FILLER]);
  (0x1161, [w_HANGUL;w_JUNGSEONG;w_A]);
  (0x1162, [w_HANGUL;w_JUNGSEONG;w_AE]);
  (0x1163, [w_HANGUL;w_JUNGSEONG;w_YA]);
  (0x1164, [w_HANGUL;w_JUNGSEONG;w_YAE]);
  (0x1165, [w_HANGUL;w_JUNGSEONG;w_EO]);
  (0x1166, [w_HANGUL;w_JUNGSEONG;w_E]);
  (0x1167, [w_HANGUL;w_JUNGSEONG;w_YEO]);
  (0x1168, [w_HANGUL;w_JUNGSEONG;w_YE]);
  (0x1169, [w_HANGUL;w_JUNGSEONG;w_O]);
  (0x116a, [w_HANGUL;w_JUNGSEONG;w_WA]);
  (0x116b, [w_HANGUL;w_JUNGSEONG;w_WAE]);
  (0x116c, [w_HANGUL;w_JUNGSEONG;w_OE]);
  (0x116d, [w_HANGUL;w_JUNGSEONG;w_YO]);
  (0x116e, [w_HANGUL;w_JUNGSEONG;w_U]);
  (0x116f, [w_HANGUL;w_JUNGSEONG;w_WEO]);
  (0x1170, [w_HANGUL;w_JUNGSEONG;w_WE]);
  (0x1171, [w_HANGUL;w_JUNGSEONG;w_WI]);
  (0x1172, [w_HANGUL;w_JUNGSEONG;w_YU]);
  (0x1173, [w_HANGUL;w_JUNGSEONG;w_EU]);
  (0x1174, [w_HANGUL;w_JUNGSEONG;w_YI]);
  (0x1175, [w_HANGUL;w_JUNGSEONG;w_I]);
  (0x1176, [w_HANGUL;w_JUNGSEONG;w_A_O]);
  (0x1177, [w_HANGUL;w_JUNGSEONG;w_A_U]);
  (0x1178, [w_HANGUL;w_JUNGSEONG;w_YA_O]);
  (0x1179, [w_HANGUL;w_JUNGSEONG;w_YA_YO]);
  (0x117a, [w_HANGUL;w_JUNGSEONG;w_EO_O]);
  (0x117b, [w_HANGUL;w_JUNGSEONG;w_EO_U]);
  (0x117c, [w_HANGUL;w_JUNGSEONG;w_EO_EU]);
  (0x117d, [w_HANGUL;w_JUNGSEONG;w_YEO_O]);
  (0x117e, [w_HANGUL;w_JUNGSEONG;w_YEO_U]);
  (0x117f, [w_HANGUL;w_JUNGSEONG;w_O_EO]);
  (0x1180, [w_HANGUL;w_JUNGSEONG;w_O_E]);
  (0x1181, [w_HANGUL;w_JUNGSEONG;w_O_YE]);
  (0x1182, [w_HANGUL;w_JUNGSEONG;w_O_O]);
  (0x1183, [w_HANGUL;w_JUNGSEONG;w_O_U]);
  (0x1184, [w_HANGUL;w_JUNGSEONG;w_YO_YA]);
  (0x1185, [w_HANGUL;w_JUNGSEONG;w_YO_YAE]);
  (0x1186, [w_HANGUL;w_JUNGSEONG;w_YO_YEO]);
  (0x1187, [w_HANGUL;w_JUNGSEONG;w_YO_O]);
  (0x1188, [w_HANGUL;w_JUNGSEONG;w_YO_I]);
  (0x1189, [w_HANGUL;w_JUNGSEONG;w_U_A]);
  (0x118a, [w_HANGUL;w_JUNGSEONG;w_U_AE]);
  (0x118b, [w_HANGUL;w_JUNGSEONG;w_U_EO_EU]);
  (0x118c, [w_HANGUL;w_JUNGSEONG;w_U_YE]);
  (0x118d, [w_HANGUL;w_JUNGSEONG;w_U_U]);
  (0x118e, [w_HANGUL;w_JUNGSEONG;w_YU_A]);
  (0x118f, [w_HANGUL;w_JUNGSEONG;w_YU_EO]);
  (0x1190, [w_HANGUL;w_JUNGSEONG;w_YU_E]);
  (0x1191, [w_HANGUL;w_JUNGSEONG;w_YU_YEO]);
  (0x1192, [w_HANGUL;w_JUNGSEONG;w_YU_YE]);
  (0x1193, [w_HANGUL;w_JUNGSEONG;w_YU_U]);
  (0x1194, [w_HANGUL;w_JUNGSEONG;w_YU_I]);
  (0x1195, [w_HANGUL;w_JUNGSEONG;w_EU_U]);
  (0x1196, [w_HANGUL;w_JUNGSEONG;w_EU_EU]);
  (0x1197, [w_HANGUL;w_JUNGSEONG;w_YI_U]);
  (0x1198, [w_HANGUL;w_JUNGSEONG;w_I_A]);
  (0x1199, [w_HANGUL;w_JUNGSEONG;w_I_YA]);
  (0x119a, [w_HANGUL;w_JUNGSEONG;w_I_O]);
  (0x119b, [w_HANGUL;w_JUNGSEONG;w_I_U]);
  (0x119c, [w_HANGUL;w_JUNGSEONG;w_I_EU]);
  (0x119d, [w_HANGUL;w_JUNGSEONG;w_I_ARAEA]);
  (0x119e, [w_HANGUL;w_JUNGSEONG;w_ARAEA]);
  (0x119f, [w_HANGUL;w_JUNGSEONG;w_ARAEA_EO]);
  (0x11a0, [w_HANGUL;w_JUNGSEONG;w_ARAEA_U]);
  (0x11a1, [w_HANGUL;w_JUNGSEONG;w_ARAEA_I]);
  (0x11a2, [w_HANGUL;w_JUNGSEONG;w_SSANGARAEA]);
  (0x11a3, [w_HANGUL;w_JUNGSEONG;w_A_EU]);
  (0x11a4, [w_HANGUL;w_JUNGSEONG;w_YA_U]);
  (0x11a5, [w_HANGUL;w_JUNGSEONG;w_YEO_YA]);
  (0x11a6, [w_HANGUL;w_JUNGSEONG;w_O_YA]);
  (0x11a7, [w_HANGUL;w_JUNGSEONG;w_O_YAE]);
  (0x11a8, [w_HANGUL;w_JONGSEONG;w_KIYEOK]);
  (0x11a9, [w_HANGUL;w_JONGSEONG;w_SSANGKIYEOK]);
  (0x11aa, [w_HANGUL;w_JONGSEONG;w_KIYEOK_SIOS]);
  (0x11ab, [w_HANGUL;w_JONGSEONG;w_NIEUN]);
  (0x11ac, [w_HANGUL;w_JONGSEONG;w_NIEUN_CIEUC]);
  (0x11ad, [w_HANGUL;w_JONGSEONG;w_NIEUN_HIEUH]);
  (0x11ae, [w_HANGUL;w_JONGSEONG;w_TIKEUT]);
  (0x11af, [w_HANGUL;w_JONGSEONG;w_RIEUL]);
  (0x11b0, [w_HANGUL;w_JONGSEONG;w_RIEUL_KIYEOK]);
  (0x11b1, [w_HANGUL;w_JONGSEONG;w_RIEUL_MIEUM]);
  (0x11b2, [w_HANGUL;w_JONGSEONG;w_RIEUL_PIEUP]);
  (0x11b3, [w_HANGUL;w_JONGSEONG;w_RIEUL_SIOS]);
  (0x11b4, [w_HANGUL;w_JONGSEONG;w_RIEUL_THIEUTH]);
  (0x11b5, [w_HANGUL;w_JONGSEONG;w_RIEUL_PHIEUPH]);
  (0x11b6, [w_HANGUL;w_JONGSEONG;w_RIEUL_HIEUH]);
  (0x11b7, [w_HANGUL;w_JONGSEONG;w_MIEUM]);
  (0x11b8, [w_HANGUL;w_JONGSEONG;w_PIEUP]);
  (0x11b9, [w_HANGUL;w_JONGSEONG;w_PIEUP_SIOS]);
  (0x11ba, [w_HANGUL;w_JONGSEONG;w_SIOS]);
  (0x11bb, [w_HANGUL;w_JONGSEONG;w_SSANGSIOS]);
  (0x11bc, [w_HANGUL;w_JONGSEONG;w_IEUNG]);
  (0x11bd, [w_HANGUL;w_JONGSEONG;w_CIEUC]);
  (0x11be, [w_HANGUL;w_JONGSEONG;w_CHIEUCH]);
  (0x11bf, [w_HANGUL;w_JONGSEONG;w_KHIEUKH]);
  (0x11c0, [w_HANGUL;w_JONGSEONG;w_THIEUTH]);
  (0x11c1, [w_HANGUL;w_JONGSEONG;w_PHIEUPH]);
  (0x11c2, [w_HANGUL;w_JONGSEONG;w_HIEUH]);
  (0x11c3, [w_HANGUL;w_JONGSEONG;w_KIYEOK_RIEUL]);
  (0x11c4, [w_HANGUL;w_JONGSEONG;w_KIYEOK_SIOS_KIYEOK]);
  (0x11c5, [w_HANGUL;w_JONGSEONG;w_NIEUN_KIYEOK]);
  (0x11c6, [w_HANGUL;w_JONGSEONG;w_NIEUN_TIKEUT]);
  (0x11c7, [w_HANGUL;w_JONGSEONG;w_NIEUN_SIOS]);
  (0x11c8, [w_HANGUL;w_JONGSEONG;w_NIEUN_PANSIOS]);
  (0x11c9, [w_HANGUL;w_JONGSEONG;w_NIEUN_THIEUTH]);
  (0x11ca, [w_HANGUL;w_JONGSEONG;w_TIKEUT_KIYEOK]);
  (0x11cb, [w_HANGUL;w_JONGSEONG;w_TIKEUT_RIEUL]);
  (0x11cc, [w_HANGUL;w_JONGSEONG;w_RIEUL_KIYEOK_SIOS]);
  (0x11cd, [w_HANGUL;w_JONGSEONG;w_RIEUL_NIEUN]);
  (0x11ce, [w_HANGUL;w_JONGSEONG;w_RIEUL_TIKEUT]);
  (0x11cf, [w_HANGUL;w_JONGSEONG;w_RIEUL_TIKEUT_HIEUH]);
  (0x11d0, [w_HANGUL;w_JONGSEONG;w_SSANGRIEUL]);
  (0x11d1, [w_HANGUL;w_JONGSEONG;w_RIEUL_MIEUM_KIYEOK]);
  (0x11d2, [w_HANGUL;w_JONGSEONG;w_RIEUL_MIEUM_SIOS]);
  (0x11d3, [w_HANGUL;w_JONGSEONG;w_RIEUL_PIEUP_SIOS]);
  (0x11d4, [w_HANGUL;w_JONGSEONG;w_RIEUL_PIEUP_HIEUH]);
  (0x11d5, [w_HANGUL;w_JONGSEONG;w_RIEUL_KAPYEOUNPIEUP]);
  (0x11d6, [w_HANGUL;w_JONGSEONG;w_RIEUL_SSANGSIOS]);
  (0x11d7, [w_HANGUL;w_JONGSEONG;w_RIEUL_PANSIOS]);
  (0x11d8, [w_HANGUL;w_JONGSEONG;w_RIEUL_KHIEUKH]);
  (0x11d9, [w_HANGUL;w_JONGSEONG;w_RIEUL_YEORINHIEUH]);
  (0x11da, [w_HANGUL;w_JONGSEONG;w_MIEUM_KIYEOK]);
  (0x11db, [w_HANGUL;w_JONGSEONG;w_MIEUM_RIEUL]);
  (0x11dc, [w_HANGUL;w_JONGSEONG;w_MIEUM_PIEUP]);
  (0x11dd, [w_HANGUL;w_JONGSEONG;w_MIEUM_SIOS]);
  (0x11de, [w_HANGUL;w_JONGSEONG;w_MIEUM_SSANGSIOS]);
  (0x11df, [w_HANGUL;w_JONGSEONG;w_MIEUM_PANSIOS]);
  (0x11e0, [w_HANGUL;w_JONGSEONG;w_MIEUM_CHIEUCH]);
  (0x11e1, [w_HANGUL;w_JONGSEONG;w_MIEUM_HIEUH]);
  (0x11e2, [w_HANGUL;w_JONGSEONG;w_KAPYEOUNMIEUM]);
  (0x11e3, [w_HANGUL;w_JONGSEONG;w_PIEUP_RIEUL]);
  (0x11e4, [w_HANGUL;w_JONGSEONG;w_PIEUP_PHIEUPH]);
  (0x11e5, [w_HANGUL;w_JONGSEONG;w_PIEUP_HIEUH]);
  (0x11e6, [w_HANGUL;w_JONGSEONG;w_KAPYEOUNPIEUP]);
  (0x11e7, [w_HANGUL;w_JONGSEONG;w_SIOS_KIYEOK]);
  (0x11e8, [w_HANGUL;w_JONGSEONG;w_SIOS_TIKEUT]);
  (0x11e9, [w_HANGUL;w_JONGSEONG;w_SIOS_RIEUL]);
  (0x11ea, [w_HANGUL;w_JONGSEONG;w_SIOS_PIEUP]);
  (0x11eb, [w_HANGUL;w_JONGSEONG;w_PANSIOS]);
  (0x11ec, [w_HANGUL;w_JONGSEONG;w_IEUNG_KIYEOK]);
  (0x11ed, [w_HANGUL;w_JONGSEONG;w_IEUNG_SSANGKIYEOK]);
  (0x11ee, [w_HANGUL;w_JONGSEONG;w_SSANGIEUNG]);
  (0x11ef, [w_HANGUL;w_JONGSEONG;w_IEUNG_KHIEUKH]);
  (0x11f0, [w_HANGUL;w_JONGSEONG;w_YESIEUNG]);
  (0x11f1, [w_HANGUL;w_JONGSEONG;w_YESIEUNG_SIOS]);
  (0x11f2, [w_HANGUL;w_JONGSEONG;w_YESIEUNG_PANSIOS]);
  (0x11f3, [w_HANGUL;w_JONGSEONG;w_PHIEUPH_PIEUP]);
  (0x11f4, [w_HANGUL;w_JONGSEONG;w_KAPYEOUNPHIEUPH]);
  (0x11f5, [w_HANGUL;w_JONGSEONG;w_HIEUH_NIEUN]);
  (0x11f6, [w_HANGUL;w_JONGSEONG;w_HIEUH_RIEUL]);
  (0x11f7, [w_HANGUL;w_JONGSEONG;w_HIEUH_MIEUM]);
  (0x11f8, [w_HANGUL;w_JONGSEONG;w_HIEUH_PIEUP]);
  (0x11f9, [w_HANGUL;w_JONGSEONG;w_YEORINHIEUH]);
  (0x11fa, [w_HANGUL;w_JONGSEONG;w_KIYEOK_NIEUN]);
  (0x11fb, [w_HANGUL;w_JONGSEONG;w_KIYEOK_PIEUP]);
  (0x11fc, [w_HANGUL;w_JONGSEONG;w_KIYEOK_CHIEUCH]);
  (0x11fd, [w_HANGUL;w_JONGSEONG;w_KIYEOK_KHIEUKH]);
  (0x11fe, [w_HANGUL;w_JONGSEONG;w_KIYEOK_HIEUH]);
  (0x11ff, [w_HANGUL;w_JONGSEONG;w_SSANGNIEUN]);
  (0x1200, [w_ETHIOPIC;w_SYLLABLE;w_HA]);
  (0x1201, [w_ETHIOPIC;w_SYLLABLE;w_HU]);
  (0x1202, [w_ETHIOPIC;w_SYLLABLE;w_HI]);
  (0x1203, [w_ETHIOPIC;w_SYLLABLE;w_HAA]);
  (0x1204, [w_ETHIOPIC;w_SYLLABLE;w_HEE]);
  (0x1205, [w_ETHIOPIC;w_SYLLABLE;w_HE]);
  (0x1206, [w_ETHIOPIC;w_SYLLABLE;w_HO]);
  (0x1207, [w_ETHIOPIC;w_SYLLABLE;w_HOA]);
  (0x1208, [w_ETHIOPIC;w_SYLLABLE;w_LA]);
  (0x1209, [w_ETHIOPIC;w_SYLLABLE;w_LU]);
  (0x120a, [w_ETHIOPIC;w_SYLLABLE;w_LI]);
  (0x120b, [w_ETHIOPIC;w_SYLLABLE;w_LAA]);
  (0x120c, [w_ETHIOPIC;w_SYLLABLE;w_LEE]);
  (0x120d, [w_ETHIOPIC;w_SYLLABLE;w_LE]);
  (0x120e, [w_ETHIOPIC;w_SYLLABLE;w_LO]);
  (0x120f, [w_ETHIOPIC;w_SYLLABLE;w_LWA]);
  (0x1210, [w_ETHIOPIC;w_SYLLABLE;w_HHA]);
  (0x1211, [w_ETHIOPIC;w_SYLLABLE;w_HHU]);
  (0x1212, [w_ETHIOPIC;w_SYLLABLE;w_HHI]);
  (0x1213, [w_ETHIOPIC;w_SYLLABLE;w_HHAA]);
  (0x1214, [w_ETHIOPIC;w_SYLLABLE;w_HHEE]);
  (0x1215, [w_ETHIOPIC;w_SYLLABLE;w_HHE]);
  (0x1216, [w_ETHIOPIC;w_SYLLABLE;w_HHO]);
  (0x1217, [w_ETHIOPIC;w_SYLLABLE;w_HHWA]);
  (0x1218, [w_ETHIOPIC;w_SYLLABLE;w_MA]);
  (0x1219, [w_ETHIOPIC;w_SYLLABLE;w_MU]);
  (0x121a, [w_ETHIOPIC;w_SYLLABLE;w_MI]);
  (0x121b, [w_ETHIOPIC;w_SYLLABLE;w_MAA]);
  (0x121c, [w_ETHIOPIC;w_SYLLABLE;w_MEE]);
  (0x121d, [w_ETHIOPIC;w_SYLLABLE;w_ME]);
  (0x121e, [w_ETHIOPIC;w_SYLLABLE;w_MO]);
  (0x121f, [w_ETHIOPIC;w_SYLLABLE;w_MWA]);
  (0x1220, [w_ETHIOPIC;w_SYLLABLE;w_SZA]);
  (0x1221, [w_ETHIOPIC;w_SYLLABLE;w_SZU]);
  (0x1222, [w_ETHIOPIC;w_SYLLABLE;w_SZI]);
  (0x1223, [w_ETHIOPIC;w_SYLLABLE;w_SZAA]);
  (0x1224, [w_ETHIOPIC;w_SYLLABLE;w_SZEE]);
  (0x1225, [w_ETHIOPIC;w_SYLLABLE;w_SZE]);
  (0x1226, [w_ETHIOPIC;w_SYLLABLE;w_SZO]);
  (0x1227, [w_ETHIOPIC;w_SYLLABLE;w_SZWA]);
  (0x1228, [w_ETHIOPIC;w_SYLLABLE;w_RA]);
  (0x1229, [w_ETHIOPIC;w_SYLLABLE;w_RU]);
  (0x122a, [w_ETHIOPIC;w_SYLLABLE;w_RI]);
  (0x122b, [w_ETHIOPIC;w_SYLLABLE;w_RAA]);
  (0x122c, [w_ETHIOPIC;w_SYLLABLE;w_REE]);
  (0x122d, [w_ETHIOPIC;w_SYLLABLE;w_RE]);
  (0x122e, [w_ETHIOPIC;w_SYLLABLE;w_RO]);
  (0x122f, [w_ETHIOPIC;w_SYLLABLE;w_RWA]);
  (0x1230, [w_ETHIOPIC;w_SYLLABLE;w_SA]);
  (0x1231, [w_ETHIOPIC;w_SYLLABLE;w_SU]);
  (0x1232, [w_ETHIOPIC;w_SYLLABLE;w_SI]);
  (0x1233, [w_ETHIOPIC;w_SYLLABLE;w_SAA]);
  (0x1234, [w_ETHIOPIC;w_SYLLABLE;w_SEE]);
  (0x1235, [w_ETHIOPIC;w_SYLLABLE;w_SE]);
  (0x1236, [w_ETHIOPIC;w_SYLLABLE;w_SO]);
  (0x1237, [w_ETHIOPIC;w_SYLLABLE;w_SWA]);
  (0x1238, [w_ETHIOPIC;w_SYLLABLE;w_SHA]);
  (0x1239, [w_ETHIOPIC;w_SYLLABLE;w_SHU]);
  (0x123a, [w_ETHIOPIC;w_SYLLABLE;w_SHI]);
  (0x123b, [w_ETHIOPIC;w_SYLLABLE;w_SHAA]);
  (0x123c, [w_ETHIOPIC;w_SYLLABLE;w_SHEE]);
  (0x123d, [w_ETHIOPIC;w_SYLLABLE;w_SHE]);
  (0x123e, [w_ETHIOPIC;w_SYLLABLE;w_SHO]);
  (0x123f, [w_ETHIOPIC;w_SYLLABLE;w_SHWA]);
  (0x1240, [w_ETHIOPIC;w_SYLLABLE;w_QA]);
  (0x1241, [w_ETHIOPIC;w_SYLLABLE;w_QU]);
  (0x1242, [w_ETHIOPIC;w_SYLLABLE;w_QI]);
  (0x1243, [w_ETHIOPIC;w_SYLLABLE;w_QAA]);
  (0x1244, [w_ETHIOPIC;w_SYLLABLE;w_QEE]);
  (0x1245, [w_ETHIOPIC;w_SYLLABLE;w_QE]);
  (0x1246, [w_ETHIOPIC;w_SYLLABLE;w_QO]);
  (0x1247, [w_ETHIOPIC;w_SYLLABLE;w_QOA]);
  (0x1248, [w_ETHIOPIC;w_SYLLABLE;w_QWA]);
  (0x124a, [w_ETHIOPIC;w_SYLLABLE;w_QWI]);
  (0x124b, [w_ETHIOPIC;w_SYLLABLE;w_QWAA]);
  (0x124c, [w_ETHIOPIC;w_SYLLABLE;w_QWEE]);
  (0x124d, [w_ETHIOPIC;w_SYLLABLE;w_QWE]);
  (0x1250, [w_ETHIOPIC;w_SYLLABLE;w_QHA]);
  (0x1251, [w_ETHIOPIC;w_SYLLABLE;w_QHU]);
  (0x1252, [w_ETHIOPIC;w_SYLLABLE;w_QHI]);
  (0x1253, [w_ETHIOPIC;w_SYLLABLE;w_QHAA]);
  (0x1254, [w_ETHIOPIC;w_SYLLABLE;w_QHEE]);
  (0x1255, [w_ETHIOPIC;w_SYLLABLE;w_QHE]);
  (0x1256, [w_ETHIOPIC;w_SYLLABLE;w_QHO]);
  (0x1258, [w_ETHIOPIC;w_SYLLABLE;w_QHWA]);
  (0x125a, [w_ETHIOPIC;w_SYLLABLE;w_QHWI]);
  (0x125b, [w_ETHIOPIC;w_SYLLABLE;w_QHWAA]);
  (0x125c, [w_ETHIOPIC;w_SYLLABLE;w_QHWEE]);
  (0x125d, [w_ETHIOPIC;w_SYLLABLE;w_QHWE]);
  (0x1260, [w_ETHIOPIC;w_SYLLABLE;w_BA]);
  (0x1261, [w_ETHIOPIC;w_SYLLABLE;w_BU]);
  (0x1262, [w_ETHIOPIC;w_SYLLABLE;w_BI])].

Definition NAMES_10 : list (N * (list str)) := [
  (0x1263, [w_ETHIOPIC;w_SYLLABLE;w_BAA]);
  (0x1264, [w_ETHIOPIC;w_SYLLABLE;w_BEE]);
  (0x1265, [w_ETHIOPIC;w_SYLLABLE;w_BE]);
  (0x1266, [w_ETHIOPIC;w_SYLLABLE;w_BO]);
  (0x1267, [w_ETHIOPIC;w_SYLLABLE;w_BWA]);
  (0x1268, [w_ETHIOPIC;w_SYLLABLE;w_VA]);
  (0x1269, [w_ETHIOPIC;w_SYLLABLE;w_VU]);
  (0x126a, [w_ETHIOPIC;w_SYLLABLE;w_VI]);
  (0x126b, [w_ETHIOPIC;w_SYLLABLE;w_VAA]);
  (0x126c, [w_ETHIOPIC;w_SYLLABLE;w_VEE]);
  (0x126d, [w_ETHIOPIC;w_SYLLABLE;w_VE]);
  (0x126e, [w_ETHIOPIC;w_SYLLABLE;w_VO]);
  (0x126f, [w_ETHIOPIC;w_SYLLABLE;w_VWA]);
  (0x1270, [w_ETHIOPIC;w_SYLLABLE;w_TA]);
  (0x1271, [w_ETHIOPIC;w_SYLLABLE;w_TU]);
  (0x1272, [w_ETHIOPIC;w_SYLLABLE;w_TI]);
  (0x1273, [w_ETHIOPIC;w_SYLLABLE;w_TAA]);
  (0x1274, [w_ETHIOPIC;w_SYLLABLE;w_TEE]);
  (0x1275, [w_ETHIOPIC;w_SYLLABLE;w_TE]);
  (0x1276, [w_ETHIOPIC;w_SYLLABLE;w_TO]);
  (0x1277, [w_ETHIOPIC;w_SYLLABLE;w_TWA]);
  (0x1278, [w_ETHIOPIC;w_SYLLABLE;w_CA]);
  (0x1279, [w_ETHIOPIC;w_SYLLABLE;w_CU]);
  (0x127a, [w_ETHIOPIC;w_SYLLABLE;w_CI]);
  (0x127b, [w_ETHIOPIC;w_SYLLABLE;w_CAA]);
  (0x127c, [w_ETHIOPIC;w_SYLLABLE;w_CEE]);
  (0x127d, [w_ETHIOPIC;w_SYLLABLE;w_CE]);
  (0x127e, [w_ETHIOPIC;w_SYLLABLE;w_CO]);
  (0x127f, [w_ETHIOPIC;w_SYLLABLE;w_CWA]);
  (0x1280, [w_ETHIOPIC;w_SYLLABLE;w_XA]);
  (0x1281, [w_ETHIOPIC;w_SYLLABLE;w_XU]);
  (0x1282, [w_ETHIOPIC;w_SYLLABLE;w_XI]);
  (0x1283, [w_ETHIOPIC;w_SYLLABLE;w_XAA]);
  (0x1284, [w_ETHIOPIC;w_SYLLABLE;w_XEE]);
  (0x1285, [w_ETHIOPIC;w_SYLLABLE;w_XE]);
  (0x1286, [w_ETHIOPIC;w_SYLLABLE;w_XO]);
  (0x1287, [w_ETHIOPIC;w_SYLLABLE;w_XOA]);
  (0x1288, [w_ETHIOPIC;w_SYLLABLE;w_XWA]);
  (0x128a, [w_ETHIOPIC;w_SYLLABLE;w_XWI]);
  (0x128b, [w_ETHIOPIC;w_SYLLABLE;w_XWAA]);
  (0x128c, [w_ETHIOPIC;w_SYLLABLE;w_XWEE]);
  (0x128d, [w_ETHIOPIC;w_SYLLABLE;w_XWE]);
  (0x1290, [w_ETHIOPIC;w_SYLLABLE;w_NA]);
  (0x1291, [w_ETHIOPIC;w_SYLLABLE;w_NU]);
  (0x1292, [w_ETHIOPIC;w_SYLLABLE;w_NI]);
  (0x1293, [w_ETHIOPIC;w_SYLLABLE;w_NAA]);
  (0x1294, [w_ETHIOPIC;w_SYLLABLE;w_NEE]);
  (0x1295, [w_ETHIOPIC;w_SYLLABLE;w_NE]);
  (0x1296, [w_ETHIOPIC;w_SYLLABLE;w_NO]);
  (0x1297, [w_ETHIOPIC;w_SYLLABLE;w_NWA]);
  (0x1298, [w_ETHIOPIC;w_SYLLABLE;w_NYA]);
  (0x1299, [w_ETHIOPIC;w_SYLLABLE;w_NYU]);
  (0x129a, [w_ETHIOPIC;w_SYLLABLE;w_NYI]);
  (0x129b, [w_ETHIOPIC;w_SYLLABLE;w_NYAA]);
  (0x129c, [w_ETHIOPIC;w_SYLLABLE;w_NYEE]);
  (0x129d, [w_ETHIOPIC;w_SYLLABLE;w_NYE]);
  (0x129e, [w_ETHIOPIC;w_SYLLABLE;w_NYO]);
  (0x129f, [w_ETHIOPIC;w_SYLLABLE;w_NYWA]);
  (0x12a0, [w_ETHIOPIC;w_SYLLABLE;w_GLOTTAL;w_A]);
  (0x12a1, [w_ETHIOPIC;w_SYLLABLE;w_GLOTTAL;w_U]);
  (0x12a2, [w_ETHIOPIC;w_SYLLABLE;w_GLOTTAL;w_I]);
  (0x12a3, [w_ETHIOPIC;w_SYLLABLE;w_GLOTTAL;w_AA]);
  (0x12a4, [w_ETHIOPIC;w_SYLLABLE;w_GLOTTAL;w_EE]);
  (0x12a5, [w_ETHIOPIC;w_SYLLABLE;w_GLOTTAL;w_E]);
  (0x12a6, [w_ETHIOPIC;w_SYLLABLE;w_GLOTTAL;w_O]);
  (0x12a7, [w_ETHIOPIC;w_SYLLABLE;w_GLOTTAL;w_WA]);
  (0x12a8, [w_ETHIOPIC;w_SYLLABLE;w_KA]);
  (0x12a9, [w_ETHIOPIC;w_SYLLABLE;w_KU]);
  (0x12aa, [w_ETHIOPIC;w_SYLLABLE;w_KI]);
  (0x12ab, [w_ETHIOPIC;w_SYLLABLE;w_KAA]);
  (0x12ac, [w_ETHIOPIC;w_SYLLABLE;w_KEE]);
  (0x12ad, [w_ETHIOPIC;w_SYLLABLE;w_KE]);
  (0x12ae, [w_ETHIOPIC;w_SYLLABLE;w_KO]);
  (0x12af, [w_ETHIOPIC;w_SYLLABLE;w_KOA]);
  (0x12b0, [w_ETHIOPIC;w_SYLLABLE;w_KWA]);
  (0x12b2, [w_ETHIOPIC;w_SYLLABLE;w_KWI]);
  (0x12b3, [w_ETHIOPIC;w_SYLLABLE;w_KWAA]);
  (0x12b4, [w_ETHIOPIC;w_SYLLABLE;w_KWEE]);
  (0x12b5, [w_ETHIOPIC;w_SYLLABLE;w_KWE]);
  (0x12b8, [w_ETHIOPIC;w_SYLLABLE;w_KXA]);
  (0x12b9, [w_ETHIOPIC;w_SYLLABLE;w_KXU]);
  (0x12ba, [w_ETHIOPIC;w_SYLLABLE;w_KXI]);
  (0x12bb, [w_ETHIOPIC;w_SYLLABLE;w_KXAA]);
  (0x12bc, [w_ETHIOPIC;w_SYLLABLE;w_KXEE]);
  (0x12bd, [w_ETHIOPIC;w_SYLLABLE;w_KXE]);
  (0x12be, [w_ETHIOPIC;w_SYLLABLE;w_KXO]);
  (0x12c0, [w_ETHIOPIC;w_SYLLABLE;w_KXWA]);
  (0x12c2, [w_ETHIOPIC;w_SYLLABLE;w_KXWI]);
  (0x12c3, [w_ETHIOPIC;w_SYLLABLE;w_KXWAA]);
  (0x12c4, [w_ETHIOPIC;w_SYLLABLE;w_KXWEE]);
  (0x12c5, [w_ETHIOPIC;w_SYLLABLE;w_KXWE]);
  (0x12c8, [w_ETHIOPIC;w_SYLLABLE;w_WA]);
  (0x12c9, [w_ETHIOPIC;w_SYLLABLE;w_WU]);
  (0x12ca, [w_ETHIOPIC;w_SYLLABLE;w_WI]);
  (0x12cb, [w_ETHIOPIC;w_SYLLABLE;w_WAA]);
  (0x12cc, [w_ETHIOPIC;w_SYLLABLE;w_WEE]);
  (0x12cd, [w_ETHIOPIC;w_SYLLABLE;w_WE]);
  (0x12ce, [w_ETHIOPIC;w_SYLLABLE;w_WO]);
  (0x12cf, [w_ETHIOPIC;w_SYLLABLE;w_WOA]);
  (0x12d0, [w_ETHIOPIC;w_SYLLABLE;w_PHARYNGEAL;w_A]);
  (0x12d1, [w_ETHIOPIC;w_SYLLABLE;w_PHARYNGEAL;w_U]);
  (0x12d2, [w_ETHIOPIC;w_SYLLABLE;w_PHARYNGEAL;w_I]);
  (0x12d3, [w_ETHIOPIC;w_SYLLABLE;w_PHARYNGEAL;w_AA]);
  (0x12d4, [w_ETHIOPIC;w_SYLLABLE;w_PHARYNGEAL;w_EE]);
  (0x12d5, [w_ETHIOPIC;w_SYLLABLE;w_PHARYNGEAL;w_E]);
  (0x12d6, [w_ETHIOPIC;w_SYLLABLE;w_PHARYNGEAL;w_O]);
  (0x12d8, [w_ETHIOPIC;w_SYLLABLE;w_ZA]);
  (0x12d9, [w_ETHIOPIC;w_SYLLABLE;w_ZU]);
  (0x12da, [w_ETHIOPIC;w_SYLLABLE;w_ZI]);
  (0x12db, [w_ETHIOPIC;w_SYLLABLE;w_ZAA]);
  (0x12dc, [w_ETHIOPIC;w_SYLLABLE;w_ZEE]);
  (0x12dd, [w_ETHIOPIC;w_SYLLABLE;w_ZE]);
  (0x12de, [w_ETHIOPIC;w_SYLLABLE;w_ZO]);
  (0x12df, [w_ETHIOPIC;w_SYLLABLE;w_ZWA]);
  (0x12e0, [w_ETHIOPIC;w_SYLLABLE;w_ZHA]);
  (0x12e1, [w_ETHIOPIC;w_SYLLABLE;w_ZHU]);
  (0x12e2, [w_ETHIOPIC;w_SYLLABLE;w_ZHI]);
  (0x12e3, [w_ETHIOPIC;w_SYLLABLE;w_ZHAA]);
  (0x12e4, [w_ETHIOPIC;w_SYLLABLE;w_ZHEE]);
  (0x12e5, [w_ETHIOPIC;w_SYLLABLE;w_ZHE]);
  (0x12e6, [w_ETHIOPIC;w_SYLLABLE;w_ZHO]);
  (0x12e7, [w_ETHIOPIC;w_SYLLABLE;w_ZHWA]);
  (0x12e8, [w_ETHIOPIC;w_SYLLABLE;w_YA]);
  (0x12e9, [w_ETHIOPIC;w_SYLLABLE;w_YU]);
  (0x12ea, [w_ETHIOPIC;w_SYLLABLE;w_YI]);
  (0x12eb, [w_ETHIOPIC;w_SYLLABLE;w_YAA]);
  (0x12ec, [w_ETHIOPIC;w_SYLLABLE;w_YEE]);
  (0x12ed, [w_ETHIOPIC;w_SYLLABLE;w_YE]);
  (0x12ee, [w_ETHIOPIC;w_SYLLABLE;w_YO]);
  (0x12ef, [w_ETHIOPIC;w_SYLLABLE;w_YOA]);
  (0x12f0, [w_ETHIOPIC;w_SYLLABLE;w_DA]);
  (0x12f1, [w_ETHIOPIC;w_SYLLABLE;w_DU]);
  (0x12f2, [w_ETHIOPIC;w_SYLLABLE;w_DI]);
  (0x12f3, [w_ETHIOPIC;w_SYLLABLE;w_DAA]);
  (0x12f4, [w_ETHIOPIC;w_SYLLABLE;w_DEE]);
  (0x12f5, [w_ETHIOPIC;w_SYLLABLE;w_DE]);
  (0x12f6, [w_ETHIOPIC;w_SYLLABLE;w_DO]);
  (0x12f7, [w_ETHIOPIC;w_SYLLABLE;w_DWA]);
  (0x12f8, [w_ETHIOPIC;w_SYLLABLE;w_DDA]);
  (0x12f9, [w_ETHIOPIC;w_SYLLABLE;w_DDU]);
  (0x12fa, [w_ETHIOPIC;w_SYLLABLE;w_DDI]);
  (0x12fb, [w_ETHIOPIC;w_SYLLABLE;w_DDAA]);
  (0x12fc, [w_ETHIOPIC;w_SYLLABLE;w_DDEE]);
  (0x12fd, [w_ETHIOPIC;w_SYLLABLE;w_DDE]);
  (0x12fe, [w_ETHIOPIC;w_SYLLABLE;w_DDO]);
  (0x12ff, [w_ETHIOPIC;w_SYLLABLE;w_DDWA]);
  (0x1300, [w_ETHIOPIC;w_SYLLABLE;w_JA]);
  (0x1301, [w_ETHIOPIC;w_SYLLABLE;w_JU]);
  (0x1302, [w_ETHIOPIC;w_SYLLABLE;w_JI]);
  (0x1303, [w_ETHIOPIC;w_SYLLABLE;w_JAA]);
  (0x1304, [w_ETHIOPIC;w_SYLLABLE;w_JEE]);
  (0x1305, [w_ETHIOPIC;w_SYLLABLE;w_JE]);
  (0x1306, [w_ETHIOPIC;w_SYLLABLE;w_JO]);
  (0x1307, [w_ETHIOPIC;w_SYLLABLE;w_JWA]);
  (0x1308, [w_ETHIOPIC;w_SYLLABLE;w_GA]);
  (0x1309, [w_ETHIOPIC;w_SYLLABLE;w_GU]);
  (0x130a, [w_ETHIOPIC;w_SYLLABLE;w_GI]);
  (0x130b, [w_ETHIOPIC;w_SYLLABLE;w_GAA]);
  (0x130c, [w_ETHIOPIC;w_SYLLABLE;w_GEE]);
  (0x130d, [w_ETHIOPIC;w_SYLLABLE;w_GE]);
  (0x130e, [w_ETHIOPIC;w_SYLLABLE;w_GO]);
  (0x130f, [w_ETHIOPIC;w_SYLLABLE;w_GOA]);
  (0x1310, [w_ETHIOPIC;w_SYLLABLE;w_GWA]);
  (0x1312, [w_ETHIOPIC;w_SYLLABLE;w_GWI]);
  (0x1313, [w_ETHIOPIC;w_SYLLABLE;w_GWAA]);
  (0x1314, [w_ETHIOPIC;w_SYLLABLE;w_GWEE]);
  (0x1315, [w_ETHIOPIC;w_SYLLABLE;w_GWE]);
  (0x1318, [w_ETHIOPIC;w_SYLLABLE;w_GGA]);
  (0x1319, [w_ETHIOPIC;w_SYLLABLE;w_GGU]);
  (0x131a, [w_ETHIOPIC;w_SYLLABLE;w_GGI]);
  (0x131b, [w_ETHIOPIC;w_SYLLABLE;w_GGAA]);
  (0x131c, [w_ETHIOPIC;w_SYLLABLE;w_GGEE]);
  (0x131d, [w_ETHIOPIC;w_SYLLABLE;w_GGE]);
  (0x131e, [w_ETHIOPIC;w_SYLLABLE;w_GGO]);
  (0x131f, [w_ETHIOPIC;w_SYLLABLE;w_GGWAA]);
  (0x1320, [w_ETHIOPIC;w_SYLLABLE;w_THA]);
  (0x1321, [w_ETHIOPIC;w_SYLLABLE;w_THU]);
  (0x1322, [w_ETHIOPIC;w_SYLLABLE;w_THI]);
  (0x1323, [w_ETHIOPIC;w_SYLLABLE;w_THAA]);
  (0x1324, [w_ETHIOPIC;w_SYLLABLE;w_THEE]);
  (0x1325, [w_ETHIOPIC;w_SYLLABLE;w_THE]);
  (0x1326, [w_ETHIOPIC;w_SYLLABLE;w_THO]);
  (0x1327, [w_ETHIOPIC;w_SYLLABLE;w_THWA]);
  (0x1328, [w_ETHIOPIC;w_SYLLABLE;w_CHA]);
  (0x1329, [w_ETHIOPIC;w_SYLLABLE;w_CHU]);
  (0x132a, [w_ETHIOPIC;w_SYLLABLE;w_CHI]);
  (0x132b, [w_ETHIOPIC;w_SYLLABLE;w_CHAA]);
  (0x132c, [w_ETHIOPIC;w_SYLLABLE;w_CHEE]);
  (0x132d, [w_ETHIOPIC;w_SYLLABLE;w_CHE]);
  (0x132e, [w_ETHIOPIC;w_SYLLABLE;w_CHO]);
  (0x132f, [w_ETHIOPIC;w_SYLLABLE;w_CHWA]);
  (0x1330, [w_ETHIOPIC;w_SYLLABLE;w_PHA]);
  (0x1331, [w_ETHIOPIC;w_SYLLABLE;w_PHU]);
  (0x1332, [w_ETHIOPIC;w_SYLLABLE;w_PHI]);
  (0x1333, [w_ETHIOPIC;w_SYLLABLE;w_PHAA]);
  (0x1334, [w_ETHIOPIC;w_SYLLABLE;w_PHEE]);
  (0x1335, [w_ETHIOPIC;w_SYLLABLE;w_PHE]);
  (0x1336, [w_ETHIOPIC;w_SYLLABLE;w_PHO]);
  (0x1337, [w_ETHIOPIC;w_SYLLABLE;w_PHWA]);
  (0x1338, [w_ETHIOPIC;w_SYLLABLE;w_TSA]);
  (0x1339, [w_ETHIOPIC;w_SYLLABLE;w_TSU]);
  (0x133a, [w_ETHIOPIC;w_SYLLABLE;w_TSI]);
  (0x133b, [w_ETHIOPIC;w_SYLLABLE;w_TSAA]);
  (0x133c, [w_ETHIOPIC;w_SYLLABLE;w_TSEE]);
  (0x133d, [w_ETHIOPIC;w_SYLLABLE;w_TSE]);
  (0x133e, [w_ETHIOPIC;w_SYLLABLE;w_TSO]);
  (0x133f, [w_ETHIOPIC;w_SYLLABLE;w_TSWA]);
  (0x1340, [w_ETHIOPIC;w_SYLLABLE;w_TZA]);
  (0x1341, [w_ETHIOPIC;w_SYLLABLE;w_TZU]);
  (0x1342, [w_ETHIOPIC;w_SYLLABLE;w_TZI]);
  (0x1343, [w_ETHIOPIC;w_SYLLABLE;w_TZAA]);
  (0x1344, [w_ETHIOPIC;w_SYLLABLE;w_TZEE]);
  (0x1345, [w_ETHIOPIC;w_SYLLABLE;w_TZE]);
  (0x1346, [w_ETHIOPIC;w_SYLLABLE;w_TZO]);
  (0x1347, [w_ETHIOPIC;w_SYLLABLE;w_TZOA]);
  (0x1348, [w_ETHIOPIC;w_SYLLABLE;w_FA]);
  (0x1349, [w_ETHIOPIC;w_SYLLABLE;w_FU]);
  (0x134a, [w_ETHIOPIC;w_SYLLABLE;w_FI]);
  (0x134b, [w_ETHIOPIC;w_SYLLABLE;w_FAA]);
  (0x134c, [w_ETHIOPIC;w_SYLLABLE;w_FEE]);
  (0x134d, [w_ETHIOPIC;w_SYLLABLE;w_FE]);
  (0x134e, [w_ETHIOPIC;w_SYLLABLE;w_FO]);
  (0x134f, [w_ETHIOPIC;w_SYLLABLE;w_FWA]);
  (0x1350, [w_ETHIOPIC;w_SYLLABLE;w_PA]);
  (0x1351, [w_ETHIOPIC;w_SYLLABLE;w_PU]);
  (0x1352, [w_ETHIOPIC;w_SYLLABLE;w_PI]);
  (0x1353, [w_ETHIOPIC;w_SYLLABLE;w_PAA]);
  (0x1354, [w_ETHIOPIC;w_SYLLABLE;w_PEE]);
  (0x1355, [w_ETHIOPIC;w_SYLLABLE;w_PE]);
  (0x1356, [w_ETHIOPIC;w_SYLLABLE;w_PO]);
  (0x1357, [w_ETHIOPIC;w_SYLLABLE;w_PWA]);
  (0x1358, [w_ETHIOPIC;w_SYLLABLE;w_RYA]);
  (0x1359, [w_ETHIOPIC;w_SYLLABLE;w_MYA]);
  (0x135a, [w_ETHIOPIC;w_SYLLABLE;w_FYA]);
  (0x135d, [w_ETHIOPIC;w_COMBINING;w_GEMINATION;w_AND;w_VOWEL;w_LENGTH;w_MARK]);
  (0x135e, [w_ETHIOPIC;w_COMBINING;w_VOWEL;w_LENGTH;w_MARK]);
  (0x135f, [w_ETHIOPIC;w_COMBINING;w_GEMINATION;w_MARK]);
  (0x1360, [w_ETHIOPIC;w_SECTION;w_MARK]);
  (0x1361, [w_ETHIOPIC;w_WORDSPACE]);
  (0x1362, [w_ETHIOPIC;w_FULL;w_STOP]);
  (0x1363, [w_ETHIOPIC;w_COMMA]);
  (0x1364, [w_ETHIOPIC;w_SEMICOLON]);
  (0x1365, [w_ETHIOPIC;w_COLON]);
  (0x1366, [w_ETHIOPIC;w_PREFACE;w_COLON]);
  (0x1367, [w_ETHIOPIC;w_QUESTION;w_MARK]);
  (0x1368, [w_ETHIOPIC;w_PARAGRAPH;w_SEPARATOR]);
  (0x1369, [w_ETHIOPIC;w_DIGIT;w_ONE]);
  (0x136a, [w_ETHIOPIC;w_DIGIT;w_TWO]);
  (0x136b, [w_ETHIOPIC;w_DIGIT;w_THREE]);
  (0x136c, [w_ETHIOPIC;w_DIGIT;w_FOUR]);
  (0x136d, [w_ETHIOPIC;w_DIGIT;w_FIVE]);
  (0x136e, [w_ETHIOPIC;w_DIGIT;w_SIX]);
  (0x136f, [w_ETHIOPIC;w_DIGIT;w_SEVEN]);
  (0x1370, [w_ETHIOPIC;w_DIGIT;w_EIGHT]);
  (0x1371, [w_ETHIOPIC;w_DIGIT;w_NINE]);
  (0x1372, [w_ETHIOPIC;w_NUMBER;w_TEN]);
  (0x1373, [w_ETHIOPIC;w_NUMBER;w_TWENTY]);
  (0x1374, [w_ETHIOPIC;w_NUMBER;w_THIRTY]);
  (0x1375, [w_ETHIOPIC;w_NUMBER;w_FORTY]);
  (0x1376, [w_ETHIOPIC;w_NUMBER;w_FIFTY]);
  (0x1377, [w_ETHIOPIC;w_NUMBER;w_SIXTY]);
  (0x1378, [w_ETHIOPIC;w_NUMBER;w_SEVENTY]);
  (0x1379, [w_ETHIOPIC;w_NUMBER;w_EIGHTY]);
  (0x137a, [w_ETHIOPIC;w_NUMBER;w_NINETY]);
  (0x137b, [w_ETHIOPIC;w_NUMBER;w_HUNDRED]);
  (0x137c, [w_ETHIOPIC;w_NUMBER;w_TEN;w_THOUSAND]);
  (0x1380, [w_ETHIOPIC;w_SYLLABLE;w_SEBATBEIT;w_MWA]);
  (0x1381, [w_ETHIOPIC;w_SYLLABLE;w_MWI]);
  (0x1382, [w_ETHIOPIC;w_SYLLABLE;w_MWEE]);
  (0x1383, [w_ETHIOPIC;w_SYLLABLE;w_MWE]);
  (0x1384, [w_ETHIOPIC;w_SYLLABLE;w_SEBATBEIT;w_BWA]);
  (0x1385, [w_ETHIOPIC;w_SYLLABLE;w_BWI]);
  (0x1386, [w_ETHIOPIC;w_SYLLABLE;w_BWEE]);
  (0x1387, [w_ETHIOPIC;w_SYLLABLE;w_BWE]);
  (0x1388, [w_ETHIOPIC;w_SYLLABLE;w_SEBATBEIT;w_FWA]);
  (0x1389, [w_ETHIOPIC;w_SYLLABLE;w_FWI]);
  (0x138a, [w_ETHIOPIC;w_SYLLABLE;w_FWEE]);
  (0x138b, [w_ETHIOPIC;w_SYLLABLE;w_FWE]);
  (0x138c, [w_ETHIOPIC;w_SYLLABLE;w_SEBATBEIT;w_PWA]);
  (0x138d, [w_ETHIOPIC;w_SYLLABLE;w_PWI]);
  (0x138e, [w_ETHIOPIC;w_SYLLABLE;w_PWEE]);
  (0x138f, [w_ETHIOPIC;w_SYLLABLE;w_PWE]);
  (0x1390, [w_ETHIOPIC;w_TONAL;w_MARK;w_YIZET]);
  (0x1391, [w_ETHIOPIC;w_TONAL;w_MARK;w_DERET]);
  (0x1392, [w_ETHIOPIC;w_TONAL;w_MARK;w_RIKRIK]);
  (0x1393, [w_ETHIOPIC;w_TONAL;w_MARK;w_SHORT;w_RIKRIK]);
  (0x1394, [w_ETHIOPIC;w_TONAL;w_MARK;w_DIFAT]);
  (0x1395, [w_ETHIOPIC;w_TONAL;w_MARK;w_KENAT]);
  (0x1396, [w_ETHIOPIC;w_TONAL;w_MARK;w_CHIRET]);
  (0x1397, [w_ETHIOPIC;w_TONAL;w_MARK;w_HIDET]);
  (0x1398, [w_ETHIOPIC;w_TONAL;w_MARK;w_DERET_HIDET]);
  (0x1399, [w_ETHIOPIC;w_TONAL;w_MARK;w_KURT]);
  (0x13a0, [w_CHEROKEE;w_LETTER;w_A]);
  (0x13a1, [w_CHEROKEE;w_LETTER;w_E]);
  (0x13a2, [w_CHEROKEE;w_LETTER;w_I]);
  (0x13a3, [w_CHEROKEE;w_LETTER;w_O]);
  (0x13a4, [w_CHEROKEE;w_LETTER;w_U]);
  (0x13a5, [w_CHEROKEE;w_LETTER;w_V]);
  (0x13a6, [w_CHEROKEE;w_LETTER;w_GA]);
  (0x13a7, [w_CHEROKEE;w_LETTER;w_KA]);
  (0x13a8, [w_CHEROKEE;w_LETTER;w_GE]);
  (0x13a9, [w_CHEROKEE;w_LETTER;w_GI]);
  (0x13aa, [w_CHEROKEE;w_LETTER;w_GO]);
  (0x13ab, [w_CHEROKEE;w_LETTER;w_GU]);
  (0x13ac, [w_CHEROKEE;w_LETTER;w_GV]);
  (0x13ad, [w_CHEROKEE;w_LETTER;w_HA]);
  (0x13ae, [w_CHEROKEE;w_LETTER;w_HE]);
  (0x13af, [w_CHEROKEE;w_LETTER;w_HI]);
  (0x13b0, [w_CHEROKEE;w_LETTER;w_HO]);
  (0x13b1, [w_CHEROKEE;w_LETTER;w_HU]);
  (0x13b2, [w_CHEROKEE;w_LETTER;w_HV]);
  (0x13b3, [w_CHEROKEE;w_LETTER;w_LA]);
  (0x13b4, [w_CHEROKEE;w_LETTER;w_LE]);
  (0x13b5, [w_CHEROKEE;w_LETTER;w_LI]);
  (0x13b6, [w_CHEROKEE;w_LETTER;w_LO]);
  (0x13b7, [w_CHEROKEE;w_LETTER;w_LU]);
  (0x13b8, [w_CHEROKEE;w_LETTER;w_LV]);
  (0x13b9, [w_CHEROKEE;w_LETTER;w_MA]);
  (0x13ba, [w_CHEROKEE;w_LETTER;w_ME]);
  (0x13bb, [w_CHEROKEE;w_LETTER;w_MI]);
  (0x13bc, [w_CHEROKEE;w_LETTER;w_MO]);
  (0x13bd, [w_CHEROKEE;w_LETTER;w_MU]);
  (0x13be, [w_CHEROKEE;w_LETTER;w_NA]);
  (0x13bf, [w_CHEROKEE;w_LETTER;w_HNA]);
  (0x13c0, [w_CHEROKEE;w_LETTER;w_NAH]);
  (0x13c1, [w_CHEROKEE;w_LETTER;w_NE]);
  (0x13c2, [w_CHEROKEE;w_LETTER;w_NI]);
  (0x13c3, [w_CHEROKEE;w_LETTER;w_NO]);
  (0x13c4, [w_CHEROKEE;w_LETTER;w_NU]);
  (0x13c5, [w_CHEROKEE;w_LETTER;w_NV]);
  (0x13c6, [w_CHEROKEE;w_LETTER;w_QUA]);
  (0x13c7, [w_CHEROKEE;w_LETTER;w_QUE]);
  (0x13c8, [w_CHEROKEE;w_LETTER;w_QUI]);
  (0x13c9, [w_CHEROKEE;w_LETTER;w_QUO]);
  (0x13ca, [w_CHEROKEE;w_LETTER;w_QUU]);
  (0x13cb, [w_CHEROKEE;w_LETTER;w_QUV]);
  (0x13cc, [w_CHEROKEE;w_LETTER;w_SA]);
  (0x13cd, [w_CHEROKEE;w_LETTER;w_S]);
  (0x13ce, [w_CHEROKEE;w_LETTER;w_SE]);
  (0x13cf, [w_CHEROKEE;w_LETTER;w_SI]);
  (0x13d0, [w_CHEROKEE;w_LETTER;w_SO]);
  (0x13d1, [w_CHEROKEE;w_LETTER;w_SU]);
  (0x13d2, [w_CHEROKEE;w_LETTER;w_SV]);
  (0x13d3, [w_CHEROKEE;w_LETTER;w_DA]);
  (0x13d4, [w_CHEROKEE;w_LETTER;w_TA]);
  (0x13d5, [w_CHEROKEE;w_LETTER;w_DE]);
  (0x13d6, [w_CHEROKEE;w_LETTER;w_TE]);
  (0x13d7, [w_CHEROKEE;w_LETTER;w_DI]);
  (0x13d8, [w_CHEROKEE;w_LETTER;w_TI]);
  (0x13d9, [w_CHEROKEE;w_LETTER;w_DO]);
  (0x13da, [w_CHEROKEE;w_LETTER;w_DU]);
  (0x13db, [w_CHEROKEE;w_LETTER;w_DV]);
  (0x13dc, [w_CHEROKEE;w_LETTER;w_DLA]);
  (0x13dd, [w_CHEROKEE;w_LETTER;w_TLA]);
  (0x13de, [w_CHEROKEE;w_LETTER;w_TLE]);
  (0x13df, [w_CHEROKEE;w_LETTER;w_TLI]);
  (0x13e0, [w_CHEROKEE;w_LETTER;w_TLO]);
  (0x13e1, [w_CHEROKEE;w_LETTER;w_TLU]);
  (0x13e2, [w_CHEROKEE;w_LETTER;w_TLV]);
  (0x13e3, [w_CHEROKEE;w_LETTER;w_TSA]);
  (0x13e4, [w_CHEROKEE;w_LETTER;w_TSE]);
  (0x13e5, [w_CHEROKEE;w_LETTER;w_TSI]);
  (0x13e6, [w_CHEROKEE;w_LETTER;w_TSO]);
  (0x13e7, [w_CHEROKEE;w_LETTER;w_TSU]);
  (0x13e8, [w_CHEROKEE;w_LETTER;w_TSV]);
  (0x13e9, [w_CHEROKEE;w_LETTER;w_WA]);
  (0x13ea, [w_CHEROKEE;w_LETTER;w_WE]);
  (0x13eb, [w_CHEROKEE;w_LETTER;w_WI]);
  (0x13ec, [w_CHEROKEE;w_LETTER;w_WO]);
  (0x13ed, [w_CHEROKEE;w_LETTER;w_WU]);
  (0x13ee, [w_CHEROKEE;w_LETTER;w_WV]);
  (0x13ef, [w_CHEROKEE;w_LETTER;w_YA]);
  (0x13f0, [w_CHEROKEE;w_LETTER;w_YE]);
  (0x13f1, [w_CHEROKEE;w_LETTER;w_YI]);
  (0x13f2, [w_CHEROKEE;w_LETTER;w_YO]);
  (0x13f3, [w_CHEROKEE;w_LETTER;w_YU]);
  (0x13f4, [w_CHEROKEE;w_LETTER;w_YV]);
  (0x13f5, [w_CHEROKEE;w_LETTER;w_MV]);
  (0x13f8, [w_CHEROKEE;w_SMALL;w_LETTER;w_YE]);
  (0x13f9, [w_CHEROKEE;w_SMALL;w_LETTER;w_YI]);
  (0x13fa, [w_CHEROKEE;w_SMALL;w_LETTER;w_YO]);
  (0x13fb, [w_CHEROKEE;w_SMALL;w_LETTER;w_YU]);
  (0x13fc, [w_CHEROKEE;w_SMALL;w_LETTER;w_YV]);
  (0x13fd, [w_CHEROKEE;w_SMALL;w_LETTER;w_MV]);
  (0x1400, [w_CANADIAN;w_SYLLABICS;w_HYPHEN]);
  (0x1401, [w_CANADIAN;w_SYLLABICS;w_E]);
  (0x1402, [w_CANADIAN;w_SYLLABICS;w_AAI]);
  (0x1403, [w_CANADIAN;w_SYLLABICS;w_I]);
  (0x1404, [w_CANADIAN;w_SYLLABICS;w_II]);
  (0x1405, [w_CANADIAN;w_SYLLABICS;w_O]);
  (0x1406, [w_CANADIAN;w_SYLLABICS;w_OO]);
  (0x1407, [w_CANADIAN;w_SYLLABICS;w_Y_CREE;w_OO]);
  (0x1408, [w_CANADIAN;w_SYLLABICS;w_CARRIER;w_EE]);
  (0x1409, [w_CANADIAN;w_SYLLABICS;w_CARRIER;w_I]);
  (0x140a, [w_CANADIAN;w_SYLLABICS;w_A]);
  (0x140b, [w_CANADIAN;w_SYLLABICS;w_AA]);
  (0x140c, [w_CANADIAN;w_SYLLABICS;w_WE]);
  (0x140d, [w_CANADIAN;w_SYLLABICS;w_WEST_CREE;w_WE]);
  (0x140e, [w_CANADIAN;w_SYLLABICS;w_WI]);
  (0x140f, [w_CANADIAN;w_SYLLABICS;w_WEST_CREE;w_WI])].

Definition NAMES_11 : list (N * (list str)) := [
  (0x1410, [w_CANADIAN;w_SYLLABICS;w_WII]);
  (0x1411, [w_CANADIAN;w_SYLLABICS;w_WEST_CREE;w_WII]);
  (0x1412, [w_CANADIAN;w_SYLLABICS;w_WO]);
  (0x1413, [w_CANADIAN;w_SYLLABICS;w_WEST_CREE;w_WO]);
  (0x1414, [w_CANADIAN;w_SYLLABICS;w_WOO]);
  (0x1415, [w_CANADIAN;w_SYLLABICS;w_WEST_CREE;w_WOO]);
  (0x1416, [w_CANADIAN;w_SYLLABICS;w_NASKAPI;w_WOO]);
  (0x1417, [w_CANADIAN;w_SYLLABICS;w_WA]);
  (0x1418, [w_CANADIAN;w_SYLLABICS;w_WEST_CREE;w_WA]);
  (0x1419, [w_CANADIAN;w_SYLLABICS;w_WAA]);
  (0x141a, [w_CANADIAN;w_SYLLABICS;w_WEST_CREE;w_WAA]);
  (0x141b, [w_CANADIAN;w_SYLLABICS;w_NASKAPI;w_WAA]);
  (0x141c, [w_CANADIAN;w_SYLLABICS;w_AI]);
  (0x141d, [w_CANADIAN;w_SYLLABICS;w_Y_CREE;w_W]);
  (0x141e, [w_CANADIAN;w_SYLLABICS;w_GLOTTAL;w_STOP]);
  (0x141f, [w_CANADIAN;w_SYLLABICS;w_FINAL;w_ACUTE]);
  (0x1420, [w_CANADIAN;w_SYLLABICS;w_FINAL;w_GRAVE]);
  (0x1421, [w_CANADIAN;w_SYLLABICS;w_FINAL;w_BOTTOM;w_HALF;w_RING]);
  (0x1422, [w_CANADIAN;w_SYLLABICS;w_FINAL;w_TOP;w_HALF;w_RING]);
  (0x1423, [w_CANADIAN;w_SYLLABICS;w_FINAL;w_RIGHT;w_HALF;w_RING]);
  (0x1424, [w_CANADIAN;w_SYLLABICS;w_FINAL;w_RING]);
  (0x1425, [w_CANADIAN;w_SYLLABICS;w_FINAL;w_DOUBLE;w_ACUTE]);
  (0x1426, [w_CANADIAN;w_SYLLABICS;w_FINAL;w_DOUBLE;w_SHORT;w_VERTICAL;w_STROKES]);
  (0x1427, [w_CANADIAN;w_SYLLABICS;w_FINAL;w_MIDDLE;w_DOT]);
  (0x1428, [w_CANADIAN;w_SYLLABICS;w_FINAL;w_SHORT;w_HORIZONTAL;w_STROKE]);
  (0x1429, [w_CANADIAN;w_SYLLABICS;w_FINAL;w_PLUS]);
  (0x142a, [w_CANADIAN;w_SYLLABICS;w_FINAL;w_DOWN;w_TACK]);
  (0x142b, [w_CANADIAN;w_SYLLABICS;w_EN]);
  (0x142c, [w_CANADIAN;w_SYLLABICS;w_IN]);
  (0x142d, [w_CANADIAN;w_SYLLABICS;w_ON]);
  (0x142e, [w_CANADIAN;w_SYLLABICS;w_AN]);
  (0x142f, [w_CANADIAN;w_SYLLABICS;w_PE]);
  (0x1430, [w_CANADIAN;w_SYLLABICS;w_PAAI]);
  (0x1431, [w_CANADIAN;w_SYLLABICS;w_PI]);
  (0x1432, [w_CANADIAN;w_SYLLABICS;w_PII]);
  (0x1433, [w_CANADIAN;w_SYLLABICS;w_PO]);
  (0x1434, [w_CANADIAN;w_SYLLABICS;w_POO]);
  (0x1435, [w_CANADIAN;w_SYLLABICS;w_Y_CREE;w_POO]);
  (0x1436, [w_CANADIAN;w_SYLLABICS;w_CARRIER;w_HEE]);
  (0x1437, [w_CANADIAN;w_SYLLABICS;w_CARRIER;w_HI]);
  (0x1438, [w_CANADIAN;w_SYLLABICS;w_PA]);
  (0x1439, [w_CANADIAN;w_SYLLABICS;w_PAA]);
  (0x143a, [w_CANADIAN;w_SYLLABICS;w_PWE]);
  (0x143b, [w_CANADIAN;w_SYLLABICS;w_WEST_CREE;w_PWE]);
  (0x143c, [w_CANADIAN;w_SYLLABICS;w_PWI]);
  (0x143d, [w_CANADIAN;w_SYLLABICS;w_WEST_CREE;w_PWI]);
  (0x143e, [w_CANADIAN;w_SYLLABICS;w_PWII]);
  (0x143f, [w_CANADIAN;w_SYLLABICS;w_WEST_CREE;w_PWII]);
  (0x1440, [w_CANADIAN;w_SYLLABICS;w_PWO]);
  (0x1441, [w_CANADIAN;w_SYLLABICS;w_WEST_CREE;w_PWO]);
  (0x1442, [w_CANADIAN;w_SYLLABICS;w_PWOO]);
  (0x1443, [w_CANADIAN;w_SYLLABICS;w_WEST_CREE;w_PWOO]);
  (0x1444, [w_CANADIAN;w_SYLLABICS;w_PWA]);
  (0x1445, [w_CANADIAN;w_SYLLABICS;w_WEST_CREE;w_PWA]);
  (0x1446, [w_CANADIAN;w_SYLLABICS;w_PWAA]);
  (0x1447, [w_CANADIAN;w_SYLLABICS;w_WEST_CREE;w_PWAA]);
  (0x1448, [w_CANADIAN;w_SYLLABICS;w_Y_CREE;w_PWAA]);
  (0x1449, [w_CANADIAN;w_SYLLABICS;w_P]);
  (0x144a, [w_CANADIAN;w_SYLLABICS;w_WEST_CREE;w_P]);
  (0x144b, [w_CANADIAN;w_SYLLABICS;w_CARRIER;w_H]);
  (0x144c, [w_CANADIAN;w_SYLLABICS;w_TE]);
  (0x144d, [w_CANADIAN;w_SYLLABICS;w_TAAI]);
  (0x144e, [w_CANADIAN;w_SYLLABICS;w_TI]);
  (0x144f, [w_CANADIAN;w_SYLLABICS;w_TII]);
  (0x1450, [w_CANADIAN;w_SYLLABICS;w_TO]);
  (0x1451, [w_CANADIAN;w_SYLLABICS;w_TOO]);
  (0x1452, [w_CANADIAN;w_SYLLABICS;w_Y_CREE;w_TOO]);
  (0x1453, [w_CANADIAN;w_SYLLABICS;w_CARRIER;w_DEE]);
  (0x1454, [w_CANADIAN;w_SYLLABICS;w_CARRIER;w_DI]);
  (0x1455, [w_CANADIAN;w_SYLLABICS;w_TA]);
  (0x1456, [w_CANADIAN;w_SYLLABICS;w_TAA]);
  (0x1457, [w_CANADIAN;w_SYLLABICS;w_TWE]);
  (0x1458, [w_CANADIAN;w_SYLLABICS;w_WEST_CREE;w_TWE]);
  (0x1459, [w_CANADIAN;w_SYLLABICS;w_TWI]);
  (0x145a, [w_CANADIAN;w_SYLLABICS;w_WEST_CREE;w_TWI]);
  (0x145b, [w_CANADIAN;w_SYLLABICS;w_TWII]);
  (0x145c, [w_CANADIAN;w_SYLLABICS;w_WEST_CREE;w_TWII]);
  (0x145d, [w_CANADIAN;w_SYLLABICS;w_TWO]);
  (0x145e, [w_CANADIAN;w_SYLLABICS;w_WEST_CREE;w_TWO]);
  (0x145f, [w_CANADIAN;w_SYLLABICS;w_TWOO]);
  (0x1460, [w_CANADIAN;w_SYLLABICS;w_WEST_CREE;w_TWOO]);
  (0x1461, [w_CANADIAN;w_SYLLABICS;w_TWA]);
  (0x1462, [w_CANADIAN;w_SYLLABICS;w_WEST_CREE;w_TWA]);
  (0x1463, [w_CANADIAN;w_SYLLABICS;w_TWAA]);
  (0x1464, [w_CANADIAN;w_SYLLABICS;w_WEST_CREE;w_TWAA]);
  (0x1465, [w_CANADIAN;w_SYLLABICS;w_NASKAPI;w_TWAA]);
  (0x1466, [w_CANADIAN;w_SYLLABICS;w_T]);
  (0x1467, [w_CANADIAN;w_SYLLABICS;w_TTE]);
  (0x1468, [w_CANADIAN;w_SYLLABICS;w_TTI]);
  (0x1469, [w_CANADIAN;w_SYLLABICS;w_TTO]);
  (0x146a, [w_CANADIAN;w_SYLLABICS;w_TTA]);
  (0x146b, [w_CANADIAN;w_SYLLABICS;w_KE]);
  (0x146c, [w_CANADIAN;w_SYLLABICS;w_KAAI]);
  (0x146d, [w_CANADIAN;w_SYLLABICS;w_KI]);
  (0x146e, [w_CANADIAN;w_SYLLABICS;w_KII]);
  (0x146f, [w_CANADIAN;w_SYLLABICS;w_KO]);
  (0x1470, [w_CANADIAN;w_SYLLABICS;w_KOO]);
  (0x1471, [w_CANADIAN;w_SYLLABICS;w_Y_CREE;w_KOO]);
  (0x1472, [w_CANADIAN;w_SYLLABICS;w_KA]);
  (0x1473, [w_CANADIAN;w_SYLLABICS;w_KAA]);
  (0x1474, [w_CANADIAN;w_SYLLABICS;w_KWE]);
  (0x1475, [w_CANADIAN;w_SYLLABICS;w_WEST_CREE;w_KWE]);
  (0x1476, [w_CANADIAN;w_SYLLABICS;w_KWI]);
  (0x1477, [w_CANADIAN;w_SYLLABICS;w_WEST_CREE;w_KWI]);
  (0x1478, [w_CANADIAN;w_SYLLABICS;w_KWII]);
  (0x1479, [w_CANADIAN;w_SYLLABICS;w_WEST_CREE;w_KWII]);
  (0x147a, [w_CANADIAN;w_SYLLABICS;w_KWO]);
  (0x147b, [w_CANADIAN;w_SYLLABICS;w_WEST_CREE;w_KWO]);
  (0x147c, [w_CANADIAN;w_SYLLABICS;w_KWOO]);
  (0x147d, [w_CANADIAN;w_SYLLABICS;w_WEST_CREE;w_KWOO]);
  (0x147e, [w_CANADIAN;w_SYLLABICS;w_KWA]);
  (0x147f, [w_CANADIAN;w_SYLLABICS;w_WEST_CREE;w_KWA]);
  (0x1480, [w_CANADIAN;w_SYLLABICS;w_KWAA]);
  (0x1481, [w_CANADIAN;w_SYLLABICS;w_WEST_CREE;w_KWAA]);
  (0x1482, [w_CANADIAN;w_SYLLABICS;w_NASKAPI;w_KWAA]);
  (0x1483, [w_CANADIAN;w_SYLLABICS;w_K]);
  (0x1484, [w_CANADIAN;w_SYLLABICS;w_KW]);
  (0x1485, [w_CANADIAN;w_SYLLABICS;w_SOUTH_SLAVEY;w_KEH]);
  (0x1486, [w_CANADIAN;w_SYLLABICS;w_SOUTH_SLAVEY;w_KIH]);
  (0x1487, [w_CANADIAN;w_SYLLABICS;w_SOUTH_SLAVEY;w_KOH]);
  (0x1488, [w_CANADIAN;w_SYLLABICS;w_SOUTH_SLAVEY;w_KAH]);
  (0x1489, [w_CANADIAN;w_SYLLABICS;w_CE]);
  (0x148a, [w_CANADIAN;w_SYLLABICS;w_CAAI]);
  (0x148b, [w_CANADIAN;w_SYLLABICS;w_CI]);
  (0x148c, [w_CANADIAN;w_SYLLABICS;w_CII]);
  (0x148d, [w_CANADIAN;w_SYLLABICS;w_CO]);
  (0x148e, [w_CANADIAN;w_SYLLABICS;w_COO]);
  (0x148f, [w_CANADIAN;w_SYLLABICS;w_Y_CREE;w_COO]);
  (0x1490, [w_CANADIAN;w_SYLLABICS;w_CA]);
  (0x1491, [w_CANADIAN;w_SYLLABICS;w_CAA]);
  (0x1492, [w_CANADIAN;w_SYLLABICS;w_CWE]);
  (0x1493, [w_CANADIAN;w_SYLLABICS;w_WEST_CREE;w_CWE]);
  (0x1494, [w_CANADIAN;w_SYLLABICS;w_CWI]);
  (0x1495, [w_CANADIAN;w_SYLLABICS;w_WEST_CREE;w_CWI]);
  (0x1496, [w_CANADIAN;w_SYLLABICS;w_CWII]);
  (0x1497, [w_CANADIAN;w_SYLLABICS;w_WEST_CREE;w_CWII]);
  (0x1498, [w_CANADIAN;w_SYLLABICS;w_CWO]);
  (0x1499, [w_CANADIAN;w_SYLLABICS;w_WEST_CREE;w_CWO]);
  (0x149a, [w_CANADIAN;w_SYLLABICS;w_CWOO]);
  (0x149b, [w_CANADIAN;w_SYLLABICS;w_WEST_CREE;w_CWOO]);
  (0x149c, [w_CANADIAN;w_SYLLABICS;w_CWA]);
  (0x149d, [w_CANADIAN;w_SYLLABICS;w_WEST_CREE;w_CWA]);
  (0x149e, [w_CANADIAN;w_SYLLABICS;w_CWAA]);
  (0x149f, [w_CANADIAN;w_SYLLABICS;w_WEST_CREE;w_CWAA]);
  (0x14a0, [w_CANADIAN;w_SYLLABICS;w_NASKAPI;w_CWAA]);
  (0x14a1, [w_CANADIAN;w_SYLLABICS;w_C]);
  (0x14a2, [w_CANADIAN;w_SYLLABICS;w_SAYISI;w_TH]);
  (0x14a3, [w_CANADIAN;w_SYLLABICS;w_ME]);
  (0x14a4, [w_CANADIAN;w_SYLLABICS;w_MAAI]);
  (0x14a5, [w_CANADIAN;w_SYLLABICS;w_MI]);
  (0x14a6, [w_CANADIAN;w_SYLLABICS;w_MII]);
  (0x14a7, [w_CANADIAN;w_SYLLABICS;w_MO]);
  (0x14a8, [w_CANADIAN;w_SYLLABICS;w_MOO]);
  (0x14a9, [w_CANADIAN;w_SYLLABICS;w_Y_CREE;w_MOO]);
  (0x14aa, [w_CANADIAN;w_SYLLABICS;w_MA]);
  (0x14ab, [w_CANADIAN;w_SYLLABICS;w_MAA]);
  (0x14ac, [w_CANADIAN;w_SYLLABICS;w_MWE]);
  (0x14ad, [w_CANADIAN;w_SYLLABICS;w_WEST_CREE;w_MWE]);
  (0x14ae, [w_CANADIAN;w_SYLLABICS;w_MWI]);
  (0x14af, [w_CANADIAN;w_SYLLABICS;w_WEST_CREE;w_MWI]);
  (0x14b0, [w_CANADIAN;w_SYLLABICS;w_MWII]);
  (0x14b1, [w_CANADIAN;w_SYLLABICS;w_WEST_CREE;w_MWII]);
  (0x14b2, [w_CANADIAN;w_SYLLABICS;w_MWO]);
  (0x14b3, [w_CANADIAN;w_SYLLABICS;w_WEST_CREE;w_MWO]);
  (0x14b4, [w_CANADIAN;w_SYLLABICS;w_MWOO]);
  (0x14b5, [w_CANADIAN;w_SYLLABICS;w_WEST_CREE;w_MWOO]);
  (0x14b6, [w_CANADIAN;w_SYLLABICS;w_MWA]);
  (0x14b7, [w_CANADIAN;w_SYLLABICS;w_WEST_CREE;w_MWA]);
  (0x14b8, [w_CANADIAN;w_SYLLABICS;w_MWAA]);
  (0x14b9, [w_CANADIAN;w_SYLLABICS;w_WEST_CREE;w_MWAA]);
  (0x14ba, [w_CANADIAN;w_SYLLABICS;w_NASKAPI;w_MWAA]);
  (0x14bb, [w_CANADIAN;w_SYLLABICS;w_M]);
  (0x14bc, [w_CANADIAN;w_SYLLABICS;w_WEST_CREE;w_M]);
  (0x14bd, [w_CANADIAN;w_SYLLABICS;w_MH]);
  (0x14be, [w_CANADIAN;w_SYLLABICS;w_ATHAPASCAN;w_M]);
  (0x14bf, [w_CANADIAN;w_SYLLABICS;w_SAYISI;w_M]);
  (0x14c0, [w_CANADIAN;w_SYLLABICS;w_NE]);
  (0x14c1, [w_CANADIAN;w_SYLLABICS;w_NAAI]);
  (0x14c2, [w_CANADIAN;w_SYLLABICS;w_NI]);
  (0x14c3, [w_CANADIAN;w_SYLLABICS;w_NII]);
  (0x14c4, [w_CANADIAN;w_SYLLABICS;w_NO]);
  (0x14c5, [w_CANADIAN;w_SYLLABICS;w_NOO]);
  (0x14c6, [w_CANADIAN;w_SYLLABICS;w_Y_CREE;w_NOO]);
  (0x14c7, [w_CANADIAN;w_SYLLABICS;w_NA]);
  (0x14c8, [w_CANADIAN;w_SYLLABICS;w_NAA]);
  (0x14c9, [w_CANADIAN;w_SYLLABICS;w_NWE]);
  (0x14ca, [w_CANADIAN;w_SYLLABICS;w_WEST_CREE;w_NWE]);
  (0x14cb, [w_CANADIAN;w_SYLLABICS;w_NWA]);
  (0x14cc, [w_CANADIAN;w_SYLLABICS;w_WEST_CREE;w_NWA]);
  (0x14cd, [w_CANADIAN;w_SYLLABICS;w_NWAA]);
  (0x14ce, [w_CANADIAN;w_SYLLABICS;w_WEST_CREE;w_NWAA]);
  (0x14cf, [w_CANADIAN;w_SYLLABICS;w_NASKAPI;w_NWAA]);
  (0x14d0, [w_CANADIAN;w_SYLLABICS;w_N]);
  (0x14d1, [w_CANADIAN;w_SYLLABICS;w_CARRIER;w_NG]);
  (0x14d2, [w_CANADIAN;w_SYLLABICS;w_NH]);
  (0x14d3, [w_CANADIAN;w_SYLLABICS;w_LE]);
  (0x14d4, [w_CANADIAN;w_SYLLABICS;w_LAAI]);
  (0x14d5, [w_CANADIAN;w_SYLLABICS;w_LI]);
  (0x14d6, [w_CANADIAN;w_SYLLABICS;w_LII]);
  (0x14d7, [w_CANADIAN;w_SYLLABICS;w_LO]);
  (0x14d8, [w_CANADIAN;w_SYLLABICS;w_LOO]);
  (0x14d9, [w_CANADIAN;w_SYLLABICS;w_Y_CREE;w_LOO]);
  (0x14da, [w_CANADIAN;w_SYLLABICS;w_LA]);
  (0x14db, [w_CANADIAN;w_SYLLABICS;w_LAA]);
  (0x14dc, [w_CANADIAN;w_SYLLABICS;w_LWE]);
  (0x14dd, [w_CANADIAN;w_SYLLABICS;w_WEST_CREE;w_LWE]);
  (0x14de, [w_CANADIAN;w_SYLLABICS;w_LWI]);
  (0x14df, [w_CANADIAN;w_SYLLABICS;w_WEST_CREE;w_LWI]);
  (0x14e0, [w_CANADIAN;w_SYLLABICS;w_LWII]);
  (0x14e1, [w_CANADIAN;w_SYLLABICS;w_WEST_CREE;w_LWII]);
  (0x14e2, [w_CANADIAN;w_SYLLABICS;w_LWO]);
  (0x14e3, [w_CANADIAN;w_SYLLABICS;w_WEST_CREE;w_LWO]);
  (0x14e4, [w_CANADIAN;w_SYLLABICS;w_LWOO]);
  (0x14e5, [w_CANADIAN;w_SYLLABICS;w_WEST_CREE;w_LWOO]);
  (0x14e6, [w_CANADIAN;w_SYLLABICS;w_LWA]);
  (0x14e7, [w_CANADIAN;w_SYLLABICS;w_WEST_CREE;w_LWA]);
  (0x14e8, [w_CANADIAN;w_SYLLABICS;w_LWAA]);
  (0x14e9, [w_CANADIAN;w_SYLLABICS;w_WEST_CREE;w_LWAA]);
  (0x14ea, [w_CANADIAN;w_SYLLABICS;w_L]);
  (0x14eb, [w_CANADIAN;w_SYLLABICS;w_WEST_CREE;w_L]);
  (0x14ec, [w_CANADIAN;w_SYLLABICS;w_MEDIAL;w_L]);
  (0x14ed, [w_CANADIAN;w_SYLLABICS;w_SE]);
  (0x14ee, [w_CANADIAN;w_SYLLABICS;w_SAAI]);
  (0x14ef, [w_CANADIAN;w_SYLLABICS;w_SI]);
  (0x14f0, [w_CANADIAN;w_SYLLABICS;w_SII]);
  (0x14f1, [w_CANADIAN;w_SYLLABICS;w_SO]);
  (0x14f2, [w_CANADIAN;w_SYLLABICS;w_SOO]);
  (0x14f3, [w_CANADIAN;w_SYLLABICS;w_Y_CREE;w_SOO]);
  (0x14f4, [w_CANADIAN;w_SYLLABICS;w_SA]);
  (0x14f5, [w_CANADIAN;w_SYLLABICS;w_SAA]);
  (0x14f6, [w_CANADIAN;w_SYLLABICS;w_SWE]);
  (0x14f7, [w_CANADIAN;w_SYLLABICS;w_WEST_CREE;w_SWE]);
  (0x14f8, [w_CANADIAN;w_SYLLABICS;w_SWI]);
  (0x14f9, [w_CANADIAN;w_SYLLABICS;w_WEST_CREE;w_SWI]);
  (0x14fa, [w_CANADIAN;w_SYLLABICS;w_SWII]);
  (0x14fb, [w_CANADIAN;w_SYLLABICS;w_WEST_CREE;w_SWII]);
  (0x14fc, [w_CANADIAN;w_SYLLABICS;w_SWO]);
  (0x14fd, [w_CANADIAN;w_SYLLABICS;w_WEST_CREE;w_SWO]);
  (0x14fe, [w_CANADIAN;w_SYLLABICS;w_SWOO]);
  (0x14ff, [w_CANADIAN;w_SYLLABICS;w_WEST_CREE;w_SWOO]);
  (0x1500, [w_CANADIAN;w_SYLLABICS;w_SWA]);
  (0x1501, [w_CANADIAN;w_SYLLABICS;w_WEST_CREE;w_SWA]);
  (0x1502, [w_CANADIAN;w_SYLLABICS;w_SWAA]);
  (0x1503, [w_CANADIAN;w_SYLLABICS;w_WEST_CREE;w_SWAA]);
  (0x1504, [w_CANADIAN;w_SYLLABICS;w_NASKAPI;w_SWAA]);
  (0x1505, [w_CANADIAN;w_SYLLABICS;w_S]);
  (0x1506, [w_CANADIAN;w_SYLLABICS;w_ATHAPASCAN;w_S]);
  (0x1507, [w_CANADIAN;w_SYLLABICS;w_SW]);
  (0x1508, [w_CANADIAN;w_SYLLABICS;w_BLACKFOOT;w_S]);
  (0x1509, [w_CANADIAN;w_SYLLABICS;w_MOOSE_CREE;w_SK]);
  (0x150a, [w_CANADIAN;w_SYLLABICS;w_NASKAPI;w_SKW]);
  (0x150b, [w_CANADIAN;w_SYLLABICS;w_NASKAPI;w_S_W]);
  (0x150c, [w_CANADIAN;w_SYLLABICS;w_NASKAPI;w_SPWA]);
  (0x150d, [w_CANADIAN;w_SYLLABICS;w_NASKAPI;w_STWA]);
  (0x150e, [w_CANADIAN;w_SYLLABICS;w_NASKAPI;w_SKWA]);
  (0x150f, [w_CANADIAN;w_SYLLABICS;w_NASKAPI;w_SCWA]);
  (0x1510, [w_CANADIAN;w_SYLLABICS;w_SHE]);
  (0x1511, [w_CANADIAN;w_SYLLABICS;w_SHI]);
  (0x1512, [w_CANADIAN;w_SYLLABICS;w_SHII]);
  (0x1513, [w_CANADIAN;w_SYLLABICS;w_SHO]);
  (0x1514, [w_CANADIAN;w_SYLLABICS;w_SHOO]);
  (0x1515, [w_CANADIAN;w_SYLLABICS;w_SHA]);
  (0x1516, [w_CANADIAN;w_SYLLABICS;w_SHAA]);
  (0x1517, [w_CANADIAN;w_SYLLABICS;w_SHWE]);
  (0x1518, [w_CANADIAN;w_SYLLABICS;w_WEST_CREE;w_SHWE]);
  (0x1519, [w_CANADIAN;w_SYLLABICS;w_SHWI]);
  (0x151a, [w_CANADIAN;w_SYLLABICS;w_WEST_CREE;w_SHWI]);
  (0x151b, [w_CANADIAN;w_SYLLABICS;w_SHWII]);
  (0x151c, [w_CANADIAN;w_SYLLABICS;w_WEST_CREE;w_SHWII]);
  (0x151d, [w_CANADIAN;w_SYLLABICS;w_SHWO]);
  (0x151e, [w_CANADIAN;w_SYLLABICS;w_WEST_CREE;w_SHWO]);
  (0x151f, [w_CANADIAN;w_SYLLABICS;w_SHWOO]);
  (0x1520, [w_CANADIAN;w_SYLLABICS;w_WEST_CREE;w_SHWOO]);
  (0x1521, [w_CANADIAN;w_SYLLABICS;w_SHWA]);
  (0x1522, [w_CANADIAN;w_SYLLABICS;w_WEST_CREE;w_SHWA]);
  (0x1523, [w_CANADIAN;w_SYLLABICS;w_SHWAA]);
  (0x1524, [w_CANADIAN;w_SYLLABICS;w_WEST_CREE;w_SHWAA]);
  (0x1525, [w_CANADIAN;w_SYLLABICS;w_SH]);
  (0x1526, [w_CANADIAN;w_SYLLABICS;w_YE]);
  (0x1527, [w_CANADIAN;w_SYLLABICS;w_YAAI]);
  (0x1528, [w_CANADIAN;w_SYLLABICS;w_YI]);
  (0x1529, [w_CANADIAN;w_SYLLABICS;w_YII]);
  (0x152a, [w_CANADIAN;w_SYLLABICS;w_YO]);
  (0x152b, [w_CANADIAN;w_SYLLABICS;w_YOO]);
  (0x152c, [w_CANADIAN;w_SYLLABICS;w_Y_CREE;w_YOO]);
  (0x152d, [w_CANADIAN;w_SYLLABICS;w_YA]);
  (0x152e, [w_CANADIAN;w_SYLLABICS;w_YAA]);
  (0x152f, [w_CANADIAN;w_SYLLABICS;w_YWE]);
  (0x1530, [w_CANADIAN;w_SYLLABICS;w_WEST_CREE;w_YWE]);
  (0x1531, [w_CANADIAN;w_SYLLABICS;w_YWI]);
  (0x1532, [w_CANADIAN;w_SYLLABICS;w_WEST_CREE;w_YWI]);
  (0x1533, [w_CANADIAN;w_SYLLABICS;w_YWII]);
  (0x1534, [w_CANADIAN;w_SYLLABICS;w_WEST_CREE;w_YWII]);
  (0x1535, [w_CANADIAN;w_SYLLABICS;w_YWO]);
  (0x1536, [w_CANADIAN;w_SYLLABICS;w_WEST_CREE;w_YWO]);
  (0x1537, [w_CANADIAN;w_SYLLABICS;w_YWOO]);
  (0x1538, [w_CANADIAN;w_SYLLABICS;w_WEST_CREE;w_YWOO]);
  (0x1539, [w_CANADIAN;w_SYLLABICS;w_YWA]);
  (0x153a, [w_CANADIAN;w_SYLLABICS;w_WEST_CREE;w_YWA]);
  (0x153b, [w_CANADIAN;w_SYLLABICS;w_YWAA]);
  (0x153c, [w_CANADIAN;w_SYLLABICS;w_WEST_CREE;w_YWAA]);
  (0x153d, [w_CANADIAN;w_SYLLABICS;w_NASKAPI;w_YWAA]);
  (0x153e, [w_CANADIAN;w_SYLLABICS;w_Y]);
  (0x153f, [w_CANADIAN;w_SYLLABICS;w_BIBLE_CREE;w_Y]);
  (0x1540, [w_CANADIAN;w_SYLLABICS;w_WEST_CREE;w_Y]);
  (0x1541, [w_CANADIAN;w_SYLLABICS;w_SAYISI;w_YI]);
  (0x1542, [w_CANADIAN;w_SYLLABICS;w_RE]);
  (0x1543, [w_CANADIAN;w_SYLLABICS;w_R_CREE;w_RE]);
  (0x1544, [w_CANADIAN;w_SYLLABICS;w_WEST_CREE;w_LE]);
  (0x1545, [w_CANADIAN;w_SYLLABICS;w_RAAI]);
  (0x1546, [w_CANADIAN;w_SYLLABICS;w_RI]);
  (0x1547, [w_CANADIAN;w_SYLLABICS;w_RII]);
  (0x1548, [w_CANADIAN;w_SYLLABICS;w_RO]);
  (0x1549, [w_CANADIAN;w_SYLLABICS;w_ROO]);
  (0x154a, [w_CANADIAN;w_SYLLABICS;w_WEST_CREE;w_LO]);
  (0x154b, [w_CANADIAN;w_SYLLABICS;w_RA]);
  (0x154c, [w_CANADIAN;w_SYLLABICS;w_RAA]);
  (0x154d, [w_CANADIAN;w_SYLLABICS;w_WEST_CREE;w_LA]);
  (0x154e, [w_CANADIAN;w_SYLLABICS;w_RWAA]);
  (0x154f, [w_CANADIAN;w_SYLLABICS;w_WEST_CREE;w_RWAA]);
  (0x1550, [w_CANADIAN;w_SYLLABICS;w_R]);
  (0x1551, [w_CANADIAN;w_SYLLABICS;w_WEST_CREE;w_R]);
  (0x1552, [w_CANADIAN;w_SYLLABICS;w_MEDIAL;w_R]);
  (0x1553, [w_CANADIAN;w_SYLLABICS;w_FE]);
  (0x1554, [w_CANADIAN;w_SYLLABICS;w_FAAI]);
  (0x1555, [w_CANADIAN;w_SYLLABICS;w_FI]);
  (0x1556, [w_CANADIAN;w_SYLLABICS;w_FII]);
  (0x1557, [w_CANADIAN;w_SYLLABICS;w_FO]);
  (0x1558, [w_CANADIAN;w_SYLLABICS;w_FOO]);
  (0x1559, [w_CANADIAN;w_SYLLABICS;w_FA]);
  (0x155a, [w_CANADIAN;w_SYLLABICS;w_FAA]);
  (0x155b, [w_CANADIAN;w_SYLLABICS;w_FWAA]);
  (0x155c, [w_CANADIAN;w_SYLLABICS;w_WEST_CREE;w_FWAA]);
  (0x155d, [w_CANADIAN;w_SYLLABICS;w_F]);
  (0x155e, [w_CANADIAN;w_SYLLABICS;w_THE]);
  (0x155f, [w_CANADIAN;w_SYLLABICS;w_N_CREE;w_THE]);
  (0x1560, [w_CANADIAN;w_SYLLABICS;w_THI]);
  (0x1561, [w_CANADIAN;w_SYLLABICS;w_N_CREE;w_THI]);
  (0x1562, [w_CANADIAN;w_SYLLABICS;w_THII]);
  (0x1563, [w_CANADIAN;w_SYLLABICS;w_N_CREE;w_THII]);
  (0x1564, [w_CANADIAN;w_SYLLABICS;w_THO]);
  (0x1565, [w_CANADIAN;w_SYLLABICS;w_THOO]);
  (0x1566, [w_CANADIAN;w_SYLLABICS;w_THA]);
  (0x1567, [w_CANADIAN;w_SYLLABICS;w_THAA]);
  (0x1568, [w_CANADIAN;w_SYLLABICS;w_THWAA]);
  (0x1569, [w_CANADIAN;w_SYLLABICS;w_WEST_CREE;w_THWAA]);
  (0x156a, [w_CANADIAN;w_SYLLABICS;w_TH]);
  (0x156b, [w_CANADIAN;w_SYLLABICS;w_TTHE]);
  (0x156c, [w_CANADIAN;w_SYLLABICS;w_TTHI]);
  (0x156d, [w_CANADIAN;w_SYLLABICS;w_TTHO]);
  (0x156e, [w_CANADIAN;w_SYLLABICS;w_TTHA]);
  (0x156f, [w_CANADIAN;w_SYLLABICS;w_TTH]);
  (0x1570, [w_CANADIAN;w_SYLLABICS;w_TYE]);
  (0x1571, [w_CANADIAN;w_SYLLABICS;w_TYI]);
  (0x1572, [w_CANADIAN;w_SYLLABICS;w_TYO]);
  (0x1573, [w_CANADIAN;w_SYLLABICS;w_TYA]);
  (0x1574, [w_CANADIAN;w_SYLLABICS;w_NUNAVIK;w_HE]);
  (0x1575, [w_CANADIAN;w_SYLLABICS;w_NUNAVIK;w_HI]);
  (0x1576, [w_CANADIAN;w_SYLLABICS;w_NUNAVIK;w_HII]);
  (0x1577, [w_CANADIAN;w_SYLLABICS;w_NUNAVIK;w_HO]);
  (0x1578, [w_CANADIAN;w_SYLLABICS;w_NUNAVIK;w_HOO]);
  (0x1579, [w_CANADIAN;w_SYLLABICS;w_NUNAVIK;w_HA]);
  (0x157a, [w_CANADIAN;w_SYLLABICS;w_NUNAVIK;w_HAA]);
  (0x157b, [w_CANADIAN;w_SYLLABICS;w_NUNAVIK;w_H]);
  (0x157c, [w_CANADIAN;w_SYLLABICS;w_NUNAVUT;w_H]);
  (0x157d, [w_CANADIAN;w_SYLLABICS;w_HK]);
  (0x157e, [w_CANADIAN;w_SYLLABICS;w_QAAI]);
  (0x157f, [w_CANADIAN;w_SYLLABICS;w_QI]);
  (0x1580, [w_CANADIAN;w_SYLLABICS;w_QII]);
  (0x1581, [w_CANADIAN;w_SYLLABICS;w_QO]);
  (0x1582, [w_CANADIAN;w_SYLLABICS;w_QOO]);
  (0x1583, [w_CANADIAN;w_SYLLABICS;w_QA]);
  (0x1584, [w_CANADIAN;w_SYLLABICS;w_QAA]);
  (0x1585, [w_CANADIAN;w_SYLLABICS;w_Q]);
  (0x1586, [w_CANADIAN;w_SYLLABICS;w_TLHE]);
  (0x1587, [w_CANADIAN;w_SYLLABICS;w_TLHI]);
  (0x1588, [w_CANADIAN;w_SYLLABICS;w_TLHO]);
  (0x1589, [w_CANADIAN;w_SYLLABICS;w_TLHA]);
  (0x158a, [w_CANADIAN;w_SYLLABICS;w_WEST_CREE;w_RE]);
  (0x158b, [w_CANADIAN;w_SYLLABICS;w_WEST_CREE;w_RI]);
  (0x158c, [w_CANADIAN;w_SYLLABICS;w_WEST_CREE;w_RO]);
  (0x158d, [w_CANADIAN;w_SYLLABICS;w_WEST_CREE;w_RA]);
  (0x158e, [w_CANADIAN;w_SYLLABICS;w_NGAAI]);
  (0x158f, [w_CANADIAN;w_SYLLABICS;w_NGI]);
  (0x1590, [w_CANADIAN;w_SYLLABICS;w_NGII]);
  (0x1591, [w_CANADIAN;w_SYLLABICS;w_NGO]);
  (0x1592, [w_CANADIAN;w_SYLLABICS;w_NGOO]);
  (0x1593, [w_CANADIAN;w_SYLLABICS;w_NGA]);
  (0x1594, [w_CANADIAN;w_SYLLABICS;w_NGAA]);
  (0x1595, [w_CANADIAN;w_SYLLABICS;w_NG]);
  (0x1596, [w_CANADIAN;w_SYLLABICS;w_NNG]);
  (0x1597, [w_CANADIAN;w_SYLLABICS;w_SAYISI;w_SHE]);
  (0x1598, [w_CANADIAN;w_SYLLABICS;w_SAYISI;w_SHI]);
  (0x1599, [w_CANADIAN;w_SYLLABICS;w_SAYISI;w_SHO]);
  (0x159a, [w_CANADIAN;w_SYLLABICS;w_SAYISI;w_SHA]);
  (0x159b, [w_CANADIAN;w_SYLLABICS;w_WOODS_CREE;w_THE]);
  (0x159c, [w_CANADIAN;w_SYLLABICS;w_WOODS_CREE;w_THI]);
  (0x159d, [w_CANADIAN;w_SYLLABICS;w_WOODS_CREE;w_THO]);
  (0x159e, [w_CANADIAN;w_SYLLABICS;w_WOODS_CREE;w_THA]);
  (0x159f, [w_CANADIAN;w_SYLLABICS;w_WOODS_CREE;w_TH])].

Definition NAMES_12 : list (N * (list str)) := [
  (0x15a0, [w_CANADIAN;w_SYLLABICS;w_LHI]);
  (0x15a1, [w_CANADIAN;w_SYLLABICS;w_LHII]);
  (0x15a2, [w_CANADIAN;w_SYLLABICS;w_LHO]);
  (0x15a3, [w_CANADIAN;w_SYLLABICS;w_LHOO]);
  (0x15a4, [w_CANADIAN;w_SYLLABICS;w_LHA]);
  (0x15a5, [w_CANADIAN;w_SYLLABICS;w_LHAA]);
  (0x15a6, [w_CANADIAN;w_SYLLABICS;w_LH]);
  (0x15a7, [w_CANADIAN;w_SYLLABICS;w_TH_CREE;w_THE]);
  (0x15a8, [w_CANADIAN;w_SYLLABICS;w_TH_CREE;w_THI]);
  (0x15a9, [w_CANADIAN;w_SYLLABICS;w_TH_CREE;w_THII]);
  (0x15aa, [w_CANADIAN;w_SYLLABICS;w_TH_CREE;w_THO]);
  (0x15ab, [w_CANADIAN;w_SYLLABICS;w_TH_CREE;w_THOO]);
  (0x15ac, [w_CANADIAN;w_SYLLABICS;w_TH_CREE;w_THA]);
  (0x15ad, [w_CANADIAN;w_SYLLABICS;w_TH_CREE;w_THAA]);
  (0x15ae, [w_CANADIAN;w_SYLLABICS;w_TH_CREE;w_TH]);
  (0x15af, [w_CANADIAN;w_SYLLABICS;w_AIVILIK;w_B]);
  (0x15b0, [w_CANADIAN;w_SYLLABICS;w_BLACKFOOT;w_E]);
  (0x15b1, [w_CANADIAN;w_SYLLABICS;w_BLACKFOOT;w_I]);
  (0x15b2, [w_CANADIAN;w_SYLLABICS;w_BLACKFOOT;w_O]);
  (0x15b3, [w_CANADIAN;w_SYLLABICS;w_BLACKFOOT;w_A]);
  (0x15b4, [w_CANADIAN;w_SYLLABICS;w_BLACKFOOT;w_WE]);
  (0x15b5, [w_CANADIAN;w_SYLLABICS;w_BLACKFOOT;w_WI]);
  (0x15b6, [w_CANADIAN;w_SYLLABICS;w_BLACKFOOT;w_WO]);
  (0x15b7, [w_CANADIAN;w_SYLLABICS;w_BLACKFOOT;w_WA]);
  (0x15b8, [w_CANADIAN;w_SYLLABICS;w_BLACKFOOT;w_NE]);
  (0x15b9, [w_CANADIAN;w_SYLLABICS;w_BLACKFOOT;w_NI]);
  (0x15ba, [w_CANADIAN;w_SYLLABICS;w_BLACKFOOT;w_NO]);
  (0x15bb, [w_CANADIAN;w_SYLLABICS;w_BLACKFOOT;w_NA]);
  (0x15bc, [w_CANADIAN;w_SYLLABICS;w_BLACKFOOT;w_KE]);
  (0x15bd, [w_CANADIAN;w_SYLLABICS;w_BLACKFOOT;w_KI]);
  (0x15be, [w_CANADIAN;w_SYLLABICS;w_BLACKFOOT;w_KO]);
  (0x15bf, [w_CANADIAN;w_SYLLABICS;w_BLACKFOOT;w_KA]);
  (0x15c0, [w_CANADIAN;w_SYLLABICS;w_SAYISI;w_HE]);
  (0x15c1, [w_CANADIAN;w_SYLLABICS;w_SAYISI;w_HI]);
  (0x15c2, [w_CANADIAN;w_SYLLABICS;w_SAYISI;w_HO]);
  (0x15c3, [w_CANADIAN;w_SYLLABICS;w_SAYISI;w_HA]);
  (0x15c4, [w_CANADIAN;w_SYLLABICS;w_CARRIER;w_GHU]);
  (0x15c5, [w_CANADIAN;w_SYLLABICS;w_CARRIER;w_GHO]);
  (0x15c6, [w_CANADIAN;w_SYLLABICS;w_CARRIER;w_GHE]);
  (0x15c7, [w_CANADIAN;w_SYLLABICS;w_CARRIER;w_GHEE]);
  (0x15c8, [w_CANADIAN;w_SYLLABICS;w_CARRIER;w_GHI]);
  (0x15c9, [w_CANADIAN;w_SYLLABICS;w_CARRIER;w_GHA]);
  (0x15ca, [w_CANADIAN;w_SYLLABICS;w_CARRIER;w_RU]);
  (0x15cb, [w_CANADIAN;w_SYLLABICS;w_CARRIER;w_RO]);
  (0x15cc, [w_CANADIAN;w_SYLLABICS;w_CARRIER;w_RE]);
  (0x15cd, [w_CANADIAN;w_SYLLABICS;w_CARRIER;w_REE]);
  (0x15ce, [w_CANADIAN;w_SYLLABICS;w_CARRIER;w_RI]);
  (0x15cf, [w_CANADIAN;w_SYLLABICS;w_CARRIER;w_RA]);
  (0x15d0, [w_CANADIAN;w_SYLLABICS;w_CARRIER;w_WU]);
  (0x15d1, [w_CANADIAN;w_SYLLABICS;w_CARRIER;w_WO]);
  (0x15d2, [w_CANADIAN;w_SYLLABICS;w_CARRIER;w_WE]);
  (0x15d3, [w_CANADIAN;w_SYLLABICS;w_CARRIER;w_WEE]);
  (0x15d4, [w_CANADIAN;w_SYLLABICS;w_CARRIER;w_WI]);
  (0x15d5, [w_CANADIAN;w_SYLLABICS;w_CARRIER;w_WA]);
  (0x15d6, [w_CANADIAN;w_SYLLABICS;w_CARRIER;w_HWU]);
  (0x15d7, [w_CANADIAN;w_SYLLABICS;w_CARRIER;w_HWO]);
  (0x15d8, [w_CANADIAN;w_SYLLABICS;w_CARRIER;w_HWE]);
  (0x15d9, [w_CANADIAN;w_SYLLABICS;w_CARRIER;w_HWEE]);
  (0x15da, [w_CANADIAN;w_SYLLABICS;w_CARRIER;w_HWI]);
  (0x15db, [w_CANADIAN;w_SYLLABICS;w_CARRIER;w_HWA]);
  (0x15dc, [w_CANADIAN;w_SYLLABICS;w_CARRIER;w_THU]);
  (0x15dd, [w_CANADIAN;w_SYLLABICS;w_CARRIER;w_THO]);
  (0x15de, [w_CANADIAN;w_SYLLABICS;w_CARRIER;w_THE]);
  (0x15df, [w_CANADIAN;w_SYLLABICS;w_CARRIER;w_THEE]);
  (0x15e0, [w_CANADIAN;w_SYLLABICS;w_CARRIER;w_THI]);
  (0x15e1, [w_CANADIAN;w_SYLLABICS;w_CARRIER;w_THA]);
  (0x15e2, [w_CANADIAN;w_SYLLABICS;w_CARRIER;w_TTU]);
  (0x15e3, [w_CANADIAN;w_SYLLABICS;w_CARRIER;w_TTO]);
  (0x15e4, [w_CANADIAN;w_SYLLABICS;w_CARRIER;w_TTE]);
  (0x15e5, [w_CANADIAN;w_SYLLABICS;w_CARRIER;w_TTEE]);
  (0x15e6, [w_CANADIAN;w_SYLLABICS;w_CARRIER;w_TTI]);
  (0x15e7, [w_CANADIAN;w_SYLLABICS;w_CARRIER;w_TTA]);
  (0x15e8, [w_CANADIAN;w_SYLLABICS;w_CARRIER;w_PU]);
  (0x15e9, [w_CANADIAN;w_SYLLABICS;w_CARRIER;w_PO]);
  (0x15ea, [w_CANADIAN;w_SYLLABICS;w_CARRIER;w_PE]);
  (0x15eb, [w_CANADIAN;w_SYLLABICS;w_CARRIER;w_PEE]);
  (0x15ec, [w_CANADIAN;w_SYLLABICS;w_CARRIER;w_PI]);
  (0x15ed, [w_CANADIAN;w_SYLLABICS;w_CARRIER;w_PA]);
  (0x15ee, [w_CANADIAN;w_SYLLABICS;w_CARRIER;w_P]);
  (0x15ef, [w_CANADIAN;w_SYLLABICS;w_CARRIER;w_GU]);
  (0x15f0, [w_CANADIAN;w_SYLLABICS;w_CARRIER;w_GO]);
  (0x15f1, [w_CANADIAN;w_SYLLABICS;w_CARRIER;w_GE]);
  (0x15f2, [w_CANADIAN;w_SYLLABICS;w_CARRIER;w_GEE]);
  (0x15f3, [w_CANADIAN;w_SYLLABICS;w_CARRIER;w_GI]);
  (0x15f4, [w_CANADIAN;w_SYLLABICS;w_CARRIER;w_GA]);
  (0x15f5, [w_CANADIAN;w_SYLLABICS;w_CARRIER;w_KHU]);
  (0x15f6, [w_CANADIAN;w_SYLLABICS;w_CARRIER;w_KHO]);
  (0x15f7, [w_CANADIAN;w_SYLLABICS;w_CARRIER;w_KHE]);
  (0x15f8, [w_CANADIAN;w_SYLLABICS;w_CARRIER;w_KHEE]);
  (0x15f9, [w_CANADIAN;w_SYLLABICS;w_CARRIER;w_KHI]);
  (0x15fa, [w_CANADIAN;w_SYLLABICS;w_CARRIER;w_KHA]);
  (0x15fb, [w_CANADIAN;w_SYLLABICS;w_CARRIER;w_KKU]);
  (0x15fc, [w_CANADIAN;w_SYLLABICS;w_CARRIER;w_KKO]);
  (0x15fd, [w_CANADIAN;w_SYLLABICS;w_CARRIER;w_KKE]);
  (0x15fe, [w_CANADIAN;w_SYLLABICS;w_CARRIER;w_KKEE]);
  (0x15ff, [w_CANADIAN;w_SYLLABICS;w_CARRIER;w_KKI]);
  (0x1600, [w_CANADIAN;w_SYLLABICS;w_CARRIER;w_KKA]);
  (0x1601, [w_CANADIAN;w_SYLLABICS;w_CARRIER;w_KK]);
  (0x1602, [w_CANADIAN;w_SYLLABICS;w_CARRIER;w_NU]);
  (0x1603, [w_CANADIAN;w_SYLLABICS;w_CARRIER;w_NO]);
  (0x1604, [w_CANADIAN;w_SYLLABICS;w_CARRIER;w_NE]);
  (0x1605, [w_CANADIAN;w_SYLLABICS;w_CARRIER;w_NEE]);
  (0x1606, [w_CANADIAN;w_SYLLABICS;w_CARRIER;w_NI]);
  (0x1607, [w_CANADIAN;w_SYLLABICS;w_CARRIER;w_NA]);
  (0x1608, [w_CANADIAN;w_SYLLABICS;w_CARRIER;w_MU]);
  (0x1609, [w_CANADIAN;w_SYLLABICS;w_CARRIER;w_MO]);
  (0x160a, [w_CANADIAN;w_SYLLABICS;w_CARRIER;w_ME]);
  (0x160b, [w_CANADIAN;w_SYLLABICS;w_CARRIER;w_MEE]);
  (0x160c, [w_CANADIAN;w_SYLLABICS;w_CARRIER;w_MI]);
  (0x160d, [w_CANADIAN;w_SYLLABICS;w_CARRIER;w_MA]);
  (0x160e, [w_CANADIAN;w_SYLLABICS;w_CARRIER;w_YU]);
  (0x160f, [w_CANADIAN;w_SYLLABICS;w_CARRIER;w_YO]);
  (0x1610, [w_CANADIAN;w_SYLLABICS;w_CARRIER;w_YE]);
  (0x1611, [w_CANADIAN;w_SYLLABICS;w_CARRIER;w_YEE]);
  (0x1612, [w_CANADIAN;w_SYLLABICS;w_CARRIER;w_YI]);
  (0x1613, [w_CANADIAN;w_SYLLABICS;w_CARRIER;w_YA]);
  (0x1614, [w_CANADIAN;w_SYLLABICS;w_CARRIER;w_JU]);
  (0x1615, [w_CANADIAN;w_SYLLABICS;w_SAYISI;w_JU]);
  (0x1616, [w_CANADIAN;w_SYLLABICS;w_CARRIER;w_JO]);
  (0x1617, [w_CANADIAN;w_SYLLABICS;w_CARRIER;w_JE]);
  (0x1618, [w_CANADIAN;w_SYLLABICS;w_CARRIER;w_JEE]);
  (0x1619, [w_CANADIAN;w_SYLLABICS;w_CARRIER;w_JI]);
  (0x161a, [w_CANADIAN;w_SYLLABICS;w_SAYISI;w_JI]);
  (0x161b, [w_CANADIAN;w_SYLLABICS;w_CARRIER;w_JA]);
  (0x161c, [w_CANADIAN;w_SYLLABICS;w_CARRIER;w_JJU]);
  (0x161d, [w_CANADIAN;w_SYLLABICS;w_CARRIER;w_JJO]);
  (0x161e, [w_CANADIAN;w_SYLLABICS;w_CARRIER;w_JJE]);
  (0x161f, [w_CANADIAN;w_SYLLABICS;w_CARRIER;w_JJEE]);
  (0x1620, [w_CANADIAN;w_SYLLABICS;w_CARRIER;w_JJI]);
  (0x1621, [w_CANADIAN;w_SYLLABICS;w_CARRIER;w_JJA]);
  (0x1622, [w_CANADIAN;w_SYLLABICS;w_CARRIER;w_LU]);
  (0x1623, [w_CANADIAN;w_SYLLABICS;w_CARRIER;w_LO]);
  (0x1624, [w_CANADIAN;w_SYLLABICS;w_CARRIER;w_LE]);
  (0x1625, [w_CANADIAN;w_SYLLABICS;w_CARRIER;w_LEE]);
  (0x1626, [w_CANADIAN;w_SYLLABICS;w_CARRIER;w_LI]);
  (0x1627, [w_CANADIAN;w_SYLLABICS;w_CARRIER;w_LA]);
  (0x1628, [w_CANADIAN;w_SYLLABICS;w_CARRIER;w_DLU]);
  (0x1629, [w_CANADIAN;w_SYLLABICS;w_CARRIER;w_DLO]);
  (0x162a, [w_CANADIAN;w_SYLLABICS;w_CARRIER;w_DLE]);
  (0x162b, [w_CANADIAN;w_SYLLABICS;w_CARRIER;w_DLEE]);
  (0x162c, [w_CANADIAN;w_SYLLABICS;w_CARRIER;w_DLI]);
  (0x162d, [w_CANADIAN;w_SYLLABICS;w_CARRIER;w_DLA]);
  (0x162e, [w_CANADIAN;w_SYLLABICS;w_CARRIER;w_LHU]);
  (0x162f, [w_CANADIAN;w_SYLLABICS;w_CARRIER;w_LHO]);
  (0x1630, [w_CANADIAN;w_SYLLABICS;w_CARRIER;w_LHE]);
  (0x1631, [w_CANADIAN;w_SYLLABICS;w_CARRIER;w_LHEE]);
  (0x1632, [w_CANADIAN;w_SYLLABICS;w_CARRIER;w_LHI]);
  (0x1633, [w_CANADIAN;w_SYLLABICS;w_CARRIER;w_LHA]);
  (0x1634, [w_CANADIAN;w_SYLLABICS;w_CARRIER;w_TLHU]);
  (0x1635, [w_CANADIAN;w_SYLLABICS;w_CARRIER;w_TLHO]);
  (0x1636, [w_CANADIAN;w_SYLLABICS;w_CARRIER;w_TLHE]);
  (0x1637, [w_CANADIAN;w_SYLLABICS;w_CARRIER;w_TLHEE]);
  (0x1638, [w_CANADIAN;w_SYLLABICS;w_CARRIER;w_TLHI]);
  (0x1639, [w_CANADIAN;w_SYLLABICS;w_CARRIER;w_TLHA]);
  (0x163a, [w_CANADIAN;w_SYLLABICS;w_CARRIER;w_TLU]);
  (0x163b, [w_CANADIAN;w_SYLLABICS;w_CARRIER;w_TLO]);
  (0x163c, [w_CANADIAN;w_SYLLABICS;w_CARRIER;w_TLE]);
  (0x163d, [w_CANADIAN;w_SYLLABICS;w_CARRIER;w_TLEE]);
  (0x163e, [w_CANADIAN;w_SYLLABICS;w_CARRIER;w_TLI]);
  (0x163f, [w_CANADIAN;w_SYLLABICS;w_CARRIER;w_TLA]);
  (0x1640, [w_CANADIAN;w_SYLLABICS;w_CARRIER;w_ZU]);
  (0x1641, [w_CANADIAN;w_SYLLABICS;w_CARRIER;w_ZO]);
  (0x1642, [w_CANADIAN;w_SYLLABICS;w_CARRIER;w_ZE]);
  (0x1643, [w_CANADIAN;w_SYLLABICS;w_CARRIER;w_ZEE]);
  (0x1644, [w_CANADIAN;w_SYLLABICS;w_CARRIER;w_ZI]);
  (0x1645, [w_CANADIAN;w_SYLLABICS;w_CARRIER;w_ZA]);
  (0x1646, [w_CANADIAN;w_SYLLABICS;w_CARRIER;w_Z]);
  (0x1647, [w_CANADIAN;w_SYLLABICS;w_CARRIER;w_INITIAL;w_Z]);
  (0x1648, [w_CANADIAN;w_SYLLABICS;w_CARRIER;w_DZU]);
  (0x1649, [w_CANADIAN;w_SYLLABICS;w_CARRIER;w_DZO]);
  (0x164a, [w_CANADIAN;w_SYLLABICS;w_CARRIER;w_DZE]);
  (0x164b, [w_CANADIAN;w_SYLLABICS;w_CARRIER;w_DZEE]);
  (0x164c, [w_CANADIAN;w_SYLLABICS;w_CARRIER;w_DZI]);
  (0x164d, [w_CANADIAN;w_SYLLABICS;w_CARRIER;w_DZA]);
  (0x164e, [w_CANADIAN;w_SYLLABICS;w_CARRIER;w_SU]);
  (0x164f, [w_CANADIAN;w_SYLLABICS;w_CARRIER;w_SO]);
  (0x1650, [w_CANADIAN;w_SYLLABICS;w_CARRIER;w_SE]);
  (0x1651, [w_CANADIAN;w_SYLLABICS;w_CARRIER;w_SEE]);
  (0x1652, [w_CANADIAN;w_SYLLABICS;w_CARRIER;w_SI]);
  (0x1653, [w_CANADIAN;w_SYLLABICS;w_CARRIER;w_SA]);
  (0x1654, [w_CANADIAN;w_SYLLABICS;w_CARRIER;w_SHU]);
  (0x1655, [w_CANADIAN;w_SYLLABICS;w_CARRIER;w_SHO]);
  (0x1656, [w_CANADIAN;w_SYLLABICS;w_CARRIER;w_SHE]);
  (0x1657, [w_CANADIAN;w_SYLLABICS;w_CARRIER;w_SHEE]);
  (0x1658, [w_CANADIAN;w_SYLLABICS;w_CARRIER;w_SHI]);
  (0x1659, [w_CANADIAN;w_SYLLABICS;w_CARRIER;w_SHA]);
  (0x165a, [w_CANADIAN;w_SYLLABICS;w_CARRIER;w_SH]);
  (0x165b, [w_CANADIAN;w_SYLLABICS;w_CARRIER;w_TSU]);
  (0x165c, [w_CANADIAN;w_SYLLABICS;w_CARRIER;w_TSO]);
  (0x165d, [w_CANADIAN;w_SYLLABICS;w_CARRIER;w_TSE]);
  (0x165e, [w_CANADIAN;w_SYLLABICS;w_CARRIER;w_TSEE]);
  (0x165f, [w_CANADIAN;w_SYLLABICS;w_CARRIER;w_TSI]);
  (0x1660, [w_CANADIAN;w_SYLLABICS;w_CARRIER;w_TSA]);
  (0x1661, [w_CANADIAN;w_SYLLABICS;w_CARRIER;w_CHU]);
  (0x1662, [w_CANADIAN;w_SYLLABICS;w_CARRIER;w_CHO]);
  (0x1663, [w_CANADIAN;w_SYLLABICS;w_CARRIER;w_CHE]);
  (0x1664, [w_CANADIAN;w_SYLLABICS;w_CARRIER;w_CHEE]);
  (0x1665, [w_CANADIAN;w_SYLLABICS;w_CARRIER;w_CHI]);
  (0x1666, [w_CANADIAN;w_SYLLABICS;w_CARRIER;w_CHA]);
  (0x1667, [w_CANADIAN;w_SYLLABICS;w_CARRIER;w_TTSU]);
  (0x1668, [w_CANADIAN;w_SYLLABICS;w_CARRIER;w_TTSO]);
  (0x1669, [w_CANADIAN;w_SYLLABICS;w_CARRIER;w_TTSE]);
  (0x166a, [w_CANADIAN;w_SYLLABICS;w_CARRIER;w_TTSEE]);
  (0x166b, [w_CANADIAN;w_SYLLABICS;w_CARRIER;w_TTSI]);
  (0x166c, [w_CANADIAN;w_SYLLABICS;w_CARRIER;w_TTSA]);
  (0x166d, [w_CANADIAN;w_SYLLABICS;w_CHI;w_SIGN]);
  (0x166e, [w_CANADIAN;w_SYLLABICS;w_FULL;w_STOP]);
  (0x166f, [w_CANADIAN;w_SYLLABICS;w_QAI]);
  (0x1670, [w_CANADIAN;w_SYLLABICS;w_NGAI]);
  (0x1671, [w_CANADIAN;w_SYLLABICS;w_NNGI]);
  (0x1672, [w_CANADIAN;w_SYLLABICS;w_NNGII]);
  (0x1673, [w_CANADIAN;w_SYLLABICS;w_NNGO]);
  (0x1674, [w_CANADIAN;w_SYLLABICS;w_NNGOO]);
  (0x1675, [w_CANADIAN;w_SYLLABICS;w_NNGA]);
  (0x1676, [w_CANADIAN;w_SYLLABICS;w_NNGAA]);
  (0x1677, [w_CANADIAN;w_SYLLABICS;w_WOODS_CREE;w_THWEE]);
  (0x1678, [w_CANADIAN;w_SYLLABICS;w_WOODS_CREE;w_THWI]);
  (0x1679, [w_CANADIAN;w_SYLLABICS;w_WOODS_CREE;w_THWII]);
  (0x167a, [w_CANADIAN;w_SYLLABICS;w_WOODS_CREE;w_THWO]);
  (0x167b, [w_CANADIAN;w_SYLLABICS;w_WOODS_CREE;w_THWOO]);
  (0x167c, [w_CANADIAN;w_SYLLABICS;w_WOODS_CREE;w_THWA]);
  (0x167d, [w_CANADIAN;w_SYLLABICS;w_WOODS_CREE;w_THWAA]);
  (0x167e, [w_CANADIAN;w_SYLLABICS;w_WOODS_CREE;w_FINAL;w_TH]);
  (0x167f, [w_CANADIAN;w_SYLLABICS;w_BLACKFOOT;w_W]);
  (0x1680, [w_OGHAM;w_SPACE;w_MARK]);
  (0x1681, [w_OGHAM;w_LETTER;w_BEITH]);
  (0x1682, [w_OGHAM;w_LETTER;w_LUIS]);
  (0x1683, [w_OGHAM;w_LETTER;w_FEARN]);
  (0x1684, [w_OGHAM;w_LETTER;w_SAIL]);
  (0x1685, [w_OGHAM;w_LETTER;w_NION]);
  (0x1686, [w_OGHAM;w_LETTER;w_UATH]);
  (0x1687, [w_OGHAM;w_LETTER;w_DAIR]);
  (0x1688, [w_OGHAM;w_LETTER;w_TINNE]);
  (0x1689, [w_OGHAM;w_LETTER;w_COLL]);
  (0x168a, [w_OGHAM;w_LETTER;w_CEIRT]);
  (0x168b, [w_OGHAM;w_LETTER;w_MUIN]);
  (0x168c, [w_OGHAM;w_LETTER;w_GORT]);
  (0x168d, [w_OGHAM;w_LETTER;w_NGEADAL]);
  (0x168e, [w_OGHAM;w_LETTER;w_STRAIF]);
  (0x168f, [w_OGHAM;w_LETTER;w_RUIS]);
  (0x1690, [w_OGHAM;w_LETTER;w_AILM]);
  (0x1691, [w_OGHAM;w_LETTER;w_ONN]);
  (0x1692, [w_OGHAM;w_LETTER;w_UR]);
  (0x1693, [w_OGHAM;w_LETTER;w_EADHADH]);
  (0x1694, [w_OGHAM;w_LETTER;w_IODHADH]);
  (0x1695, [w_OGHAM;w_LETTER;w_EABHADH]);
  (0x1696, [w_OGHAM;w_LETTER;w_OR]);
  (0x1697, [w_OGHAM;w_LETTER;w_UILLEANN]);
  (0x1698, [w_OGHAM;w_LETTER;w_IFIN]);
  (0x1699, [w_OGHAM;w_LETTER;w_EAMHANCHOLL]);
  (0x169a, [w_OGHAM;w_LETTER;w_PEITH]);
  (0x169b, [w_OGHAM;w_FEATHER;w_MARK]);
  (0x169c, [w_OGHAM;w_REVERSED;w_FEATHER;w_MARK]);
  (0x16a0, [w_RUNIC;w_LETTER;w_FEHU;w_FEOH;w_FE;w_F]);
  (0x16a1, [w_RUNIC;w_LETTER;w_V]);
  (0x16a2, [w_RUNIC;w_LETTER;w_URUZ;w_UR;w_U]);
  (0x16a3, [w_RUNIC;w_LETTER;w_YR]);
  (0x16a4, [w_RUNIC;w_LETTER;w_Y]);
  (0x16a5, [w_RUNIC;w_LETTER;w_W]);
  (0x16a6, [w_RUNIC;w_LETTER;w_THURISAZ;w_THURS;w_THORN]);
  (0x16a7, [w_RUNIC;w_LETTER;w_ETH]);
  (0x16a8, [w_RUNIC;w_LETTER;w_ANSUZ;w_A]);
  (0x16a9, [w_RUNIC;w_LETTER;w_OS;w_O]);
  (0x16aa, [w_RUNIC;w_LETTER;w_AC;w_A]);
  (0x16ab, [w_RUNIC;w_LETTER;w_AESC]);
  (0x16ac, [w_RUNIC;w_LETTER;w_LONG_BRANCH_OSS;w_O]);
  (0x16ad, [w_RUNIC;w_LETTER;w_SHORT_TWIG_OSS;w_O]);
  (0x16ae, [w_RUNIC;w_LETTER;w_O]);
  (0x16af, [w_RUNIC;w_LETTER;w_OE]);
  (0x16b0, [w_RUNIC;w_LETTER;w_ON]);
  (0x16b1, [w_RUNIC;w_LETTER;w_RAIDO;w_RAD;w_REID;w_R]);
  (0x16b2, [w_RUNIC;w_LETTER;w_KAUNA]);
  (0x16b3, [w_RUNIC;w_LETTER;w_CEN]);
  (0x16b4, [w_RUNIC;w_LETTER;w_KAUN;w_K]);
  (0x16b5, [w_RUNIC;w_LETTER;w_G]);
  (0x16b6, [w_RUNIC;w_LETTER;w_ENG]);
  (0x16b7, [w_RUNIC;w_LETTER;w_GEBO;w_GYFU;w_G]);
  (0x16b8, [w_RUNIC;w_LETTER;w_GAR]);
  (0x16b9, [w_RUNIC;w_LETTER;w_WUNJO;w_WYNN;w_W]);
  (0x16ba, [w_RUNIC;w_LETTER;w_HAGLAZ;w_H]);
  (0x16bb, [w_RUNIC;w_LETTER;w_HAEGL;w_H]);
  (0x16bc, [w_RUNIC;w_LETTER;w_LONG_BRANCH_HAGALL;w_H]);
  (0x16bd, [w_RUNIC;w_LETTER;w_SHORT_TWIG_HAGALL;w_H]);
  (0x16be, [w_RUNIC;w_LETTER;w_NAUDIZ;w_NYD;w_NAUD;w_N]);
  (0x16bf, [w_RUNIC;w_LETTER;w_SHORT_TWIG_NAUD;w_N]);
  (0x16c0, [w_RUNIC;w_LETTER;w_DOTTED_N]);
  (0x16c1, [w_RUNIC;w_LETTER;w_ISAZ;w_IS;w_ISS;w_I]);
  (0x16c2, [w_RUNIC;w_LETTER;w_E]);
  (0x16c3, [w_RUNIC;w_LETTER;w_JERAN;w_J]);
  (0x16c4, [w_RUNIC;w_LETTER;w_GER]);
  (0x16c5, [w_RUNIC;w_LETTER;w_LONG_BRANCH_AR;w_AE]);
  (0x16c6, [w_RUNIC;w_LETTER;w_SHORT_TWIG_AR;w_A]);
  (0x16c7, [w_RUNIC;w_LETTER;w_IWAZ;w_EOH]);
  (0x16c8, [w_RUNIC;w_LETTER;w_PERTHO;w_PEORTH;w_P]);
  (0x16c9, [w_RUNIC;w_LETTER;w_ALGIZ;w_EOLHX]);
  (0x16ca, [w_RUNIC;w_LETTER;w_SOWILO;w_S]);
  (0x16cb, [w_RUNIC;w_LETTER;w_SIGEL;w_LONG_BRANCH_SOL;w_S]);
  (0x16cc, [w_RUNIC;w_LETTER;w_SHORT_TWIG_SOL;w_S]);
  (0x16cd, [w_RUNIC;w_LETTER;w_C]);
  (0x16ce, [w_RUNIC;w_LETTER;w_Z]);
  (0x16cf, [w_RUNIC;w_LETTER;w_TIWAZ;w_TIR;w_TYR;w_T]);
  (0x16d0, [w_RUNIC;w_LETTER;w_SHORT_TWIG_TYR;w_T]);
  (0x16d1, [w_RUNIC;w_LETTER;w_D]);
  (0x16d2, [w_RUNIC;w_LETTER;w_BERKANAN;w_BEORC;w_BJARKAN;w_B]);
  (0x16d3, [w_RUNIC;w_LETTER;w_SHORT_TWIG_BJARKAN;w_B]);
  (0x16d4, [w_RUNIC;w_LETTER;w_DOTTED_P]);
  (0x16d5, [w_RUNIC;w_LETTER;w_OPEN_P]);
  (0x16d6, [w_RUNIC;w_LETTER;w_EHWAZ;w_EH;w_E]);
  (0x16d7, [w_RUNIC;w_LETTER;w_MANNAZ;w_MAN;w_M]);
  (0x16d8, [w_RUNIC;w_LETTER;w_LONG_BRANCH_MADR;w_M]);
  (0x16d9, [w_RUNIC;w_LETTER;w_SHORT_TWIG_MADR;w_M]);
  (0x16da, [w_RUNIC;w_LETTER;w_LAUKAZ;w_LAGU;w_LOGR;w_L]);
  (0x16db, [w_RUNIC;w_LETTER;w_DOTTED_L]);
  (0x16dc, [w_RUNIC;w_LETTER;w_INGWAZ]);
  (0x16dd, [w_RUNIC;w_LETTER;w_ING]);
  (0x16de, [w_RUNIC;w_LETTER;w_DAGAZ;w_DAEG;w_D]);
  (0x16df, [w_RUNIC;w_LETTER;w_OTHALAN;w_ETHEL;w_O]);
  (0x16e0, [w_RUNIC;w_LETTER;w_EAR]);
  (0x16e1, [w_RUNIC;w_LETTER;w_IOR]);
  (0x16e2, [w_RUNIC;w_LETTER;w_CWEORTH]);
  (0x16e3, [w_RUNIC;w_LETTER;w_CALC]);
  (0x16e4, [w_RUNIC;w_LETTER;w_CEALC]);
  (0x16e5, [w_RUNIC;w_LETTER;w_STAN]);
  (0x16e6, [w_RUNIC;w_LETTER;w_LONG_BRANCH_YR]);
  (0x16e7, [w_RUNIC;w_LETTER;w_SHORT_TWIG_YR]);
  (0x16e8, [w_RUNIC;w_LETTER;w_ICELANDIC_YR]);
  (0x16e9, [w_RUNIC;w_LETTER;w_Q]);
  (0x16ea, [w_RUNIC;w_LETTER;w_X]);
  (0x16eb, [w_RUNIC;w_SINGLE;w_PUNCTUATION]);
  (0x16ec, [w_RUNIC;w_MULTIPLE;w_PUNCTUATION]);
  (0x16ed, [w_RUNIC;w_CROSS;w_PUNCTUATION]);
  (0x16ee, [w_RUNIC;w_ARLAUG;w_SYMBOL]);
  (0x16ef, [w_RUNIC;w_TVIMADUR;w_SYMBOL]);
  (0x16f0, [w_RUNIC;w_BELGTHOR;w_SYMBOL]);
  (0x16f1, [w_RUNIC;w_LETTER;w_K]);
  (0x16f2, [w_RUNIC;w_LETTER;w_SH]);
  (0x16f3, [w_RUNIC;w_LETTER;w_OO]);
  (0x16f4, [w_RUNIC;w_LETTER;w_FRANKS;w_CASKET;w_OS]);
  (0x16f5, [w_RUNIC;w_LETTER;w_FRANKS;w_CASKET;w_IS]);
  (0x16f6, [w_RUNIC;w_LETTER;w_FRANKS;w_CASKET;w_EH]);
  (0x16f7, [w_RUNIC;w_LETTER;w_FRANKS;w_CASKET;w_AC]);
  (0x16f8, [w_RUNIC;w_LETTER;w_FRANKS;w_CASKET;w_AESC]);
  (0x1700, [w_TAGALOG;w_LETTER;w_A]);
  (0x1701, [w_TAGALOG;w_LETTER;w_I]);
  (0x1702, [w_TAGALOG;w_LETTER;w_U]);
  (0x1703, [w_TAGALOG;w_LETTER;w_KA]);
  (0x1704, [w_TAGALOG;w_LETTER;w_GA]);
  (0x1705, [w_TAGALOG;w_LETTER;w_NGA]);
  (0x1706, [w_TAGALOG;w_LETTER;w_TA]);
  (0x1707, [w_TAGALOG;w_LETTER;w_DA]);
  (0x1708, [w_TAGALOG;w_LETTER;w_NA]);
  (0x1709, [w_TAGALOG;w_LETTER;w_PA]);
  (0x170a, [w_TAGALOG;w_LETTER;w_BA]);
  (0x170b, [w_TAGALOG;w_LETTER;w_MA]);
  (0x170c, [w_TAGALOG;w_LETTER;w_YA]);
  (0x170e, [w_TAGALOG;w_LETTER;w_LA]);
  (0x170f, [w_TAGALOG;w_LETTER;w_WA]);
  (0x1710, [w_TAGALOG;w_LETTER;w_SA]);
  (0x1711, [w_TAGALOG;w_LETTER;w_HA]);
  (0x1712, [w_TAGALOG;w_VOWEL;w_SIGN;w_I]);
  (0x1713, [w_TAGALOG;w_VOWEL;w_SIGN;w_U]);
  (0x1714, [w_TAGALOG;w_SIGN;w_VIRAMA]);
  (0x1720, [w_HANUNOO;w_LETTER;w_A]);
  (0x1721, [w_HANUNOO;w_LETTER;w_I]);
  (0x1722, [w_HANUNOO;w_LETTER;w_U]);
  (0x1723, [w_HANUNOO;w_LETTER;w_KA]);
  (0x1724, [w_HANUNOO;w_LETTER;w_GA]);
  (0x1725, [w_HANUNOO;w_LETTER;w_NGA]);
  (0x1726, [w_HANUNOO;w_LETTER;w_TA]);
  (0x1727, [w_HANUNOO;w_LETTER;w_DA]);
  (0x1728, [w_HANUNOO;w_LETTER;w_NA]);
  (0x1729, [w_HANUNOO;w_LETTER;w_PA]);
  (0x172a, [w_HANUNOO;w_LETTER;w_BA]);
  (0x172b, [w_HANUNOO;w_LETTER;w_MA]);
  (0x172c, [w_HANUNOO;w_LETTER;w_YA]);
  (0x172d, [w_HANUNOO;w_LETTER;w_RA]);
  (0x172e, [w_HANUNOO;w_LETTER;w_LA]);
  (0x172f, [w_HANUNOO;w_LETTER;w_WA]);
  (0x1730, [w_HANUNOO;w_LETTER;w_SA]);
  (0x1731, [w_HANUNOO;w_LETTER;w_HA]);
  (0x1732, [w_HANUNOO;w_VOWEL;w_SIGN;w_I]);
  (0x1733, [w_HANUNOO;w_VOWEL;w_SIGN;w_U]);
  (0x1734, [w_HANUNOO;w_SIGN;w_PAMUDPOD]);
  (0x1735, [w_PHILIPPINE;w_SINGLE;w_PUNCTUATION]);
  (0x1736, [w_PHILIPPINE;w_DOUBLE;w_PUNCTUATION]);
  (0x1740, [w_BUHID;w_LETTER;w_A]);
  (0x1741, [w_BUHID;w_LETTER;w_I]);
  (0x1742, [w_BUHID;w_LETTER;w_U]);
  (0x1743, [w_BUHID;w_LETTER;w_KA]);
  (0x1744, [w_BUHID;w_LETTER;w_GA]);
  (0x1745, [w_BUHID;w_LETTER;w_NGA]);
  (0x1746, [w_BUHID;w_LETTER;w_TA]);
  (0x1747, [w_BUHID;w_LETTER;w_DA]);
  (0x1748, [w_BUHID;w_LETTER;w_NA]);
  (0x1749, [w_BUHID;w_LETTER;w_PA]);
  (0x174a, [w_BUHID;w_LETTER;w_BA]);
  (0x174b, [w_BUHID;w_LETTER;w_MA]);
  (0x174c, [w_BUHID;w_LETTER;w_YA]);
  (0x174d, [w_BUHID;w_LETTER;w_RA]);
  (0x174e, [w_BUHID;w_LETTER;w_LA])].

Definition NAMES_13 : list (N * (list str)) := [
  (0x174f, [w_BUHID;w_LETTER;w_WA]);
  (0x1750, [w_BUHID;w_LETTER;w_SA]);
  (0x1751, [w_BUHID;w_LETTER;w_HA]);
  (0x1752, [w_BUHID;w_VOWEL;w_SIGN;w_I]);
  (0x1753, [w_BUHID;w_VOWEL;w_SIGN;w_U]);
  (0x1760, [w_TAGBANWA;w_LETTER;w_A]);
  (0x1761, [w_TAGBANWA;w_LETTER;w_I]);
  (0x1762, [w_TAGBANWA;w_LETTER;w_U]);
  (0x1763, [w_TAGBANWA;w_LETTER;w_KA]);
  (0x1764, [w_TAGBANWA;w_LETTER;w_GA]);
  (0x1765, [w_TAGBANWA;w_LETTER;w_NGA]);
  (0x1766, [w_TAGBANWA;w_LETTER;w_TA]);
  (0x1767, [w_TAGBANWA;w_LETTER;w_DA]);
  (0x1768, [w_TAGBANWA;w_LETTER;w_NA]);
  (0x1769, [w_TAGBANWA;w_LETTER;w_PA]);
  (0x176a, [w_TAGBANWA;w_LETTER;w_BA]);
  (0x176b, [w_TAGBANWA;w_LETTER;w_MA]);
  (0x176c, [w_TAGBANWA;w_LETTER;w_YA]);
  (0x176e, [w_TAGBANWA;w_LETTER;w_LA]);
  (0x176f, [w_TAGBANWA;w_LETTER;w_WA]);
  (0x1770, [w_TAGBANWA;w_LETTER;w_SA]);
  (0x1772, [w_TAGBANWA;w_VOWEL;w_SIGN;w_I]);
  (0x1773, [w_TAGBANWA;w_VOWEL;w_SIGN;w_U]);
  (0x1780, [w_KHMER;w_LETTER;w_KA]);
  (0x1781, [w_KHMER;w_LETTER;w_KHA]);
  (0x1782, [w_KHMER;w_LETTER;w_KO]);
  (0x1783, [w_KHMER;w_LETTER;w_KHO]);
  (0x1784, [w_KHMER;w_LETTER;w_NGO]);
  (0x1785, [w_KHMER;w_LETTER;w_CA]);
  (0x1786, [w_KHMER;w_LETTER;w_CHA]);
  (0x1787, [w_KHMER;w_LETTER;w_CO]);
  (0x1788, [w_KHMER;w_LETTER;w_CHO]);
  (0x1789, [w_KHMER;w_LETTER;w_NYO]);
  (0x178a, [w_KHMER;w_LETTER;w_DA]);
  (0x178b, [w_KHMER;w_LETTER;w_TTHA]);
  (0x178c, [w_KHMER;w_LETTER;w_DO]);
  (0x178d, [w_KHMER;w_LETTER;w_TTHO]);
  (0x178e, [w_KHMER;w_LETTER;w_NNO]);
  (0x178f, [w_KHMER;w_LETTER;w_TA]);
  (0x1790, [w_KHMER;w_LETTER;w_THA]);
  (0x1791, [w_KHMER;w_LETTER;w_TO]);
  (0x1792, [w_KHMER;w_LETTER;w_THO]);
  (0x1793, [w_KHMER;w_LETTER;w_NO]);
  (0x1794, [w_KHMER;w_LETTER;w_BA]);
  (0x1795, [w_KHMER;w_LETTER;w_PHA]);
  (0x1796, [w_KHMER;w_LETTER;w_PO]);
  (0x1797, [w_KHMER;w_LETTER;w_PHO]);
  (0x1798, [w_KHMER;w_LETTER;w_MO]);
  (0x1799, [w_KHMER;w_LETTER;w_YO]);
  (0x179a, [w_KHMER;w_LETTER;w_RO]);
  (0x179b, [w_KHMER;w_LETTER;w_LO]);
  (0x179c, [w_KHMER;w_LETTER;w_VO]);
  (0x179d, [w_KHMER;w_LETTER;w_SHA]);
  (0x179e, [w_KHMER;w_LETTER;w_SSO]);
  (0x179f, [w_KHMER;w_LETTER;w_SA]);
  (0x17a0, [w_KHMER;w_LETTER;w_HA]);
  (0x17a1, [w_KHMER;w_LETTER;w_LA]);
  (0x17a2, [w_KHMER;w_LETTER;w_QA]);
  (0x17a3, [w_KHMER;w_INDEPENDENT;w_VOWEL;w_QAQ]);
  (0x17a4, [w_KHMER;w_INDEPENDENT;w_VOWEL;w_QAA]);
  (0x17a5, [w_KHMER;w_INDEPENDENT;w_VOWEL;w_QI]);
  (0x17a6, [w_KHMER;w_INDEPENDENT;w_VOWEL;w_QII]);
  (0x17a7, [w_KHMER;w_INDEPENDENT;w_VOWEL;w_QU]);
  (0x17a8, [w_KHMER;w_INDEPENDENT;w_VOWEL;w_QUK]);
  (0x17a9, [w_KHMER;w_INDEPENDENT;w_VOWEL;w_QUU]);
  (0x17aa, [w_KHMER;w_INDEPENDENT;w_VOWEL;w_QUUV]);
  (0x17ab, [w_KHMER;w_INDEPENDENT;w_VOWEL;w_RY]);
  (0x17ac, [w_KHMER;w_INDEPENDENT;w_VOWEL;w_RYY]);
  (0x17ad, [w_KHMER;w_INDEPENDENT;w_VOWEL;w_LY]);
  (0x17ae, [w_KHMER;w_INDEPENDENT;w_VOWEL;w_LYY]);
  (0x17af, [w_KHMER;w_INDEPENDENT;w_VOWEL;w_QE]);
  (0x17b0, [w_KHMER;w_INDEPENDENT;w_VOWEL;w_QAI]);
  (0x17b1, [w_KHMER;w_INDEPENDENT;w_VOWEL;w_QOO;w_TYPE;w_ONE]);
  (0x17b2, [w_KHMER;w_INDEPENDENT;w_VOWEL;w_QOO;w_TYPE;w_TWO]);
  (0x17b3, [w_KHMER;w_INDEPENDENT;w_VOWEL;w_QAU]);
  (0x17b4, [w_KHMER;w_VOWEL;w_INHERENT;w_AQ]);
  (0x17b5, [w_KHMER;w_VOWEL;w_INHERENT;w_AA]);
  (0x17b6, [w_KHMER;w_VOWEL;w_SIGN;w_AA]);
  (0x17b7, [w_KHMER;w_VOWEL;w_SIGN;w_I]);
  (0x17b8, [w_KHMER;w_VOWEL;w_SIGN;w_II]);
  (0x17b9, [w_KHMER;w_VOWEL;w_SIGN;w_Y]);
  (0x17ba, [w_KHMER;w_VOWEL;w_SIGN;w_YY]);
  (0x17bb, [w_KHMER;w_VOWEL;w_SIGN;w_U]);
  (0x17bc, [w_KHMER;w_VOWEL;w_SIGN;w_UU]);
  (0x17bd, [w_KHMER;w_VOWEL;w_SIGN;w_UA]);
  (0x17be, [w_KHMER;w_VOWEL;w_SIGN;w_OE]);
  (0x17bf, [w_KHMER;w_VOWEL;w_SIGN;w_YA]);
  (0x17c0, [w_KHMER;w_VOWEL;w_SIGN;w_IE]);
  (0x17c1, [w_KHMER;w_VOWEL;w_SIGN;w_E]);
  (0x17c2, [w_KHMER;w_VOWEL;w_SIGN;w_AE]);
  (0x17c3, [w_KHMER;w_VOWEL;w_SIGN;w_AI]);
  (0x17c4, [w_KHMER;w_VOWEL;w_SIGN;w_OO]);
  (0x17c5, [w_KHMER;w_VOWEL;w_SIGN;w_AU]);
  (0x17c6, [w_KHMER;w_SIGN;w_NIKAHIT]);
  (0x17c7, [w_KHMER;w_SIGN;w_REAHMUK]);
  (0x17c8, [w_KHMER;w_SIGN;w_YUUKALEAPINTU]);
  (0x17c9, [w_KHMER;w_SIGN;w_MUUSIKATOAN]);
  (0x17ca, [w_KHMER;w_SIGN;w_TRIISAP]);
  (0x17cb, [w_KHMER;w_SIGN;w_BANTOC]);
  (0x17cc, [w_KHMER;w_SIGN;w_ROBAT]);
  (0x17cd, [w_KHMER;w_SIGN;w_TOANDAKHIAT]);
  (0x17ce, [w_KHMER;w_SIGN;w_KAKABAT]);
  (0x17cf, [w_KHMER;w_SIGN;w_AHSDA]);
  (0x17d0, [w_KHMER;w_SIGN;w_SAMYOK;w_SANNYA]);
  (0x17d1, [w_KHMER;w_SIGN;w_VIRIAM]);
  (0x17d2, [w_KHMER;w_SIGN;w_COENG]);
  (0x17d3, [w_KHMER;w_SIGN;w_BATHAMASAT]);
  (0x17d4, [w_KHMER;w_SIGN;w_KHAN]);
  (0x17d5, [w_KHMER;w_SIGN;w_BARIYOOSAN]);
  (0x17d6, [w_KHMER;w_SIGN;w_CAMNUC;w_PII;w_KUUH]);
  (0x17d7, [w_KHMER;w_SIGN;w_LEK;w_TOO]);
  (0x17d8, [w_KHMER;w_SIGN;w_BEYYAL]);
  (0x17d9, [w_KHMER;w_SIGN;w_PHNAEK;w_MUAN]);
  (0x17da, [w_KHMER;w_SIGN;w_KOOMUUT]);
  (0x17db, [w_KHMER;w_CURRENCY;w_SYMBOL;w_RIEL]);
  (0x17dc, [w_KHMER;w_SIGN;w_AVAKRAHASANYA]);
  (0x17dd, [w_KHMER;w_SIGN;w_ATTHACAN]);
  (0x17e0, [w_KHMER;w_DIGIT;w_ZERO]);
  (0x17e1, [w_KHMER;w_DIGIT;w_ONE]);
  (0x17e2, [w_KHMER;w_DIGIT;w_TWO]);
  (0x17e3, [w_KHMER;w_DIGIT;w_THREE]);
  (0x17e4, [w_KHMER;w_DIGIT;w_FOUR]);
  (0x17e5, [w_KHMER;w_DIGIT;w_FIVE]);
  (0x17e6, [w_KHMER;w_DIGIT;w_SIX]);
  (0x17e7, [w_KHMER;w_DIGIT;w_SEVEN]);
  (0x17e8, [w_KHMER;w_DIGIT;w_EIGHT]);
  (0x17e9, [w_KHMER;w_DIGIT;w_NINE]);
  (0x17f0, [w_KHMER;w_SYMBOL;w_LEK;w_ATTAK;w_SON]);
  (0x17f1, [w_KHMER;w_SYMBOL;w_LEK;w_ATTAK;w_MUOY]);
  (0x17f2, [w_KHMER;w_SYMBOL;w_LEK;w_ATTAK;w_PII]);
  (0x17f3, [w_KHMER;w_SYMBOL;w_LEK;w_ATTAK;w_BEI]);
  (0x17f4, [w_KHMER;w_SYMBOL;w_LEK;w_ATTAK;w_BUON]);
  (0x17f5, [w_KHMER;w_SYMBOL;w_LEK;w_ATTAK;w_PRAM]);
  (0x17f6, [w_KHMER;w_SYMBOL;w_LEK;w_ATTAK;w_PRAM_MUOY]);
  (0x17f7, [w_KHMER;w_SYMBOL;w_LEK;w_ATTAK;w_PRAM_PII]);
  (0x17f8, [w_KHMER;w_SYMBOL;w_LEK;w_ATTAK;w_PRAM_BEI]);
  (0x17f9, [w_KHMER;w_SYMBOL;w_LEK;w_ATTAK;w_PRAM_BUON]);
  (0x1800, [w_MONGOLIAN;w_BIRGA]);
  (0x1801, [w_MONGOLIAN;w_ELLIPSIS]);
  (0x1802, [w_MONGOLIAN;w_COMMA]);
  (0x1803, [w_MONGOLIAN;w_FULL;w_STOP]);
  (0x1804, [w_MONGOLIAN;w_COLON]);
  (0x1805, [w_MONGOLIAN;w_FOUR;w_DOTS]);
  (0x1806, [w_MONGOLIAN;w_TODO;w_SOFT;w_HYPHEN]);
  (0x1807, [w_MONGOLIAN;w_SIBE;w_SYLLABLE;w_BOUNDARY;w_MARKER]);
  (0x1808, [w_MONGOLIAN;w_MANCHU;w_COMMA]);
  (0x1809, [w_MONGOLIAN;w_MANCHU;w_FULL;w_STOP]);
  (0x180a, [w_MONGOLIAN;w_NIRUGU]);
  (0x180b, [w_MONGOLIAN;w_FREE;w_VARIATION;w_SELECTOR;w_ONE]);
  (0x180c, [w_MONGOLIAN;w_FREE;w_VARIATION;w_SELECTOR;w_TWO]);
  (0x180d, [w_MONGOLIAN;w_FREE;w_VARIATION;w_SELECTOR;w_THREE]);
  (0x180e, [w_MONGOLIAN;w_VOWEL;w_SEPARATOR]);
  (0x1810, [w_MONGOLIAN;w_DIGIT;w_ZERO]);
  (0x1811, [w_MONGOLIAN;w_DIGIT;w_ONE]);
  (0x1812, [w_MONGOLIAN;w_DIGIT;w_TWO]);
  (0x1813, [w_MONGOLIAN;w_DIGIT;w_THREE]);
  (0x1814, [w_MONGOLIAN;w_DIGIT;w_FOUR]);
  (0x1815, [w_MONGOLIAN;w_DIGIT;w_FIVE]);
  (0x1816, [w_MONGOLIAN;w_DIGIT;w_SIX]);
  (0x1817, [w_MONGOLIAN;w_DIGIT;w_SEVEN]);
  (0x1818, [w_MONGOLIAN;w_DIGIT;w_EIGHT]);
  (0x1819, [w_MONGOLIAN;w_DIGIT;w_NINE]);
  (0x1820, [w_MONGOLIAN;w_LETTER;w_A]);
  (0x1821, [w_MONGOLIAN;w_LETTER;w_E]);
  (0x1822, [w_MONGOLIAN;w_LETTER;w_I]);
  (0x1823, [w_MONGOLIAN;w_LETTER;w_O]);
  (0x1824, [w_MONGOLIAN;w_LETTER;w_U]);
  (0x1825, [w_MONGOLIAN;w_LETTER;w_OE]);
  (0x1826, [w_MONGOLIAN;w_LETTER;w_UE]);
  (0x1827, [w_MONGOLIAN;w_LETTER;w_EE]);
  (0x1828, [w_MONGOLIAN;w_LETTER;w_NA]);
  (0x1829, [w_MONGOLIAN;w_LETTER;w_ANG]);
  (0x182a, [w_MONGOLIAN;w_LETTER;w_BA]);
  (0x182b, [w_MONGOLIAN;w_LETTER;w_PA]);
  (0x182c, [w_MONGOLIAN;w_LETTER;w_QA]);
  (0x182d, [w_MONGOLIAN;w_LETTER;w_GA]);
  (0x182e, [w_MONGOLIAN;w_LETTER;w_MA]);
  (0x182f, [w_MONGOLIAN;w_LETTER;w_LA]);
  (0x1830, [w_MONGOLIAN;w_LETTER;w_SA]);
  (0x1831, [w_MONGOLIAN;w_LETTER;w_SHA]);
  (0x1832, [w_MONGOLIAN;w_LETTER;w_TA]);
  (0x1833, [w_MONGOLIAN;w_LETTER;w_DA]);
  (0x1834, [w_MONGOLIAN;w_LETTER;w_CHA]);
  (0x1835, [w_MONGOLIAN;w_LETTER;w_JA]);
  (0x1836, [w_MONGOLIAN;w_LETTER;w_YA]);
  (0x1837, [w_MONGOLIAN;w_LETTER;w_RA]);
  (0x1838, [w_MONGOLIAN;w_LETTER;w_WA]);
  (0x1839, [w_MONGOLIAN;w_LETTER;w_FA]);
  (0x183a, [w_MONGOLIAN;w_LETTER;w_KA]);
  (0x183b, [w_MONGOLIAN;w_LETTER;w_KHA]);
  (0x183c, [w_MONGOLIAN;w_LETTER;w_TSA]);
  (0x183d, [w_MONGOLIAN;w_LETTER;w_ZA]);
  (0x183e, [w_MONGOLIAN;w_LETTER;w_HAA]);
  (0x183f, [w_MONGOLIAN;w_LETTER;w_ZRA]);
  (0x1840, [w_MONGOLIAN;w_LETTER;w_LHA]);
  (0x1841, [w_MONGOLIAN;w_LETTER;w_ZHI]);
  (0x1842, [w_MONGOLIAN;w_LETTER;w_CHI]);
  (0x1843, [w_MONGOLIAN;w_LETTER;w_TODO;w_LONG;w_VOWEL;w_SIGN]);
  (0x1844, [w_MONGOLIAN;w_LETTER;w_TODO;w_E]);
  (0x1845, [w_MONGOLIAN;w_LETTER;w_TODO;w_I]);
  (0x1846, [w_MONGOLIAN;w_LETTER;w_TODO;w_O]);
  (0x1847, [w_MONGOLIAN;w_LETTER;w_TODO;w_U]);
  (0x1848, [w_MONGOLIAN;w_LETTER;w_TODO;w_OE]);
  (0x1849, [w_MONGOLIAN;w_LETTER;w_TODO;w_UE]);
  (0x184a, [w_MONGOLIAN;w_LETTER;w_TODO;w_ANG]);
  (0x184b, [w_MONGOLIAN;w_LETTER;w_TODO;w_BA]);
  (0x184c, [w_MONGOLIAN;w_LETTER;w_TODO;w_PA]);
  (0x184d, [w_MONGOLIAN;w_LETTER;w_TODO;w_QA]);
  (0x184e, [w_MONGOLIAN;w_LETTER;w_TODO;w_GA]);
  (0x184f, [w_MONGOLIAN;w_LETTER;w_TODO;w_MA]);
  (0x1850, [w_MONGOLIAN;w_LETTER;w_TODO;w_TA]);
  (0x1851, [w_MONGOLIAN;w_LETTER;w_TODO;w_DA]);
  (0x1852, [w_MONGOLIAN;w_LETTER;w_TODO;w_CHA]);
  (0x1853, [w_MONGOLIAN;w_LETTER;w_TODO;w_JA]);
  (0x1854, [w_MONGOLIAN;w_LETTER;w_TODO;w_TSA]);
  (0x1855, [w_MONGOLIAN;w_LETTER;w_TODO;w_YA]);
  (0x1856, [w_MONGOLIAN;w_LETTER;w_TODO;w_WA]);
  (0x1857, [w_MONGOLIAN;w_LETTER;w_TODO;w_KA]);
  (0x1858, [w_MONGOLIAN;w_LETTER;w_TODO;w_GAA]);
  (0x1859, [w_MONGOLIAN;w_LETTER;w_TODO;w_HAA]);
  (0x185a, [w_MONGOLIAN;w_LETTER;w_TODO;w_JIA]);
  (0x185b, [w_MONGOLIAN;w_LETTER;w_TODO;w_NIA]);
  (0x185c, [w_MONGOLIAN;w_LETTER;w_TODO;w_DZA]);
  (0x185d, [w_MONGOLIAN;w_LETTER;w_SIBE;w_E]);
  (0x185e, [w_MONGOLIAN;w_LETTER;w_SIBE;w_I]);
  (0x185f, [w_MONGOLIAN;w_LETTER;w_SIBE;w_IY]);
  (0x1860, [w_MONGOLIAN;w_LETTER;w_SIBE;w_UE]);
  (0x1861, [w_MONGOLIAN;w_LETTER;w_SIBE;w_U]);
  (0x1862, [w_MONGOLIAN;w_LETTER;w_SIBE;w_ANG]);
  (0x1863, [w_MONGOLIAN;w_LETTER;w_SIBE;w_KA]);
  (0x1864, [w_MONGOLIAN;w_LETTER;w_SIBE;w_GA]);
  (0x1865, [w_MONGOLIAN;w_LETTER;w_SIBE;w_HA]);
  (0x1866, [w_MONGOLIAN;w_LETTER;w_SIBE;w_PA]);
  (0x1867, [w_MONGOLIAN;w_LETTER;w_SIBE;w_SHA]);
  (0x1868, [w_MONGOLIAN;w_LETTER;w_SIBE;w_TA]);
  (0x1869, [w_MONGOLIAN;w_LETTER;w_SIBE;w_DA]);
  (0x186a, [w_MONGOLIAN;w_LETTER;w_SIBE;w_JA]);
  (0x186b, [w_MONGOLIAN;w_LETTER;w_SIBE;w_FA]);
  (0x186c, [w_MONGOLIAN;w_LETTER;w_SIBE;w_GAA]);
  (0x186d, [w_MONGOLIAN;w_LETTER;w_SIBE;w_HAA]);
  (0x186e, [w_MONGOLIAN;w_LETTER;w_SIBE;w_TSA]);
  (0x186f, [w_MONGOLIAN;w_LETTER;w_SIBE;w_ZA]);
  (0x1870, [w_MONGOLIAN;w_LETTER;w_SIBE;w_RAA]);
  (0x1871, [w_MONGOLIAN;w_LETTER;w_SIBE;w_CHA]);
  (0x1872, [w_MONGOLIAN;w_LETTER;w_SIBE;w_ZHA]);
  (0x1873, [w_MONGOLIAN;w_LETTER;w_MANCHU;w_I]);
  (0x1874, [w_MONGOLIAN;w_LETTER;w_MANCHU;w_KA]);
  (0x1875, [w_MONGOLIAN;w_LETTER;w_MANCHU;w_RA]);
  (0x1876, [w_MONGOLIAN;w_LETTER;w_MANCHU;w_FA]);
  (0x1877, [w_MONGOLIAN;w_LETTER;w_MANCHU;w_ZHA]);
  (0x1880, [w_MONGOLIAN;w_LETTER;w_ALI;w_GALI;w_ANUSVARA;w_ONE]);
  (0x1881, [w_MONGOLIAN;w_LETTER;w_ALI;w_GALI;w_VISARGA;w_ONE]);
  (0x1882, [w_MONGOLIAN;w_LETTER;w_ALI;w_GALI;w_DAMARU]);
  (0x1883, [w_MONGOLIAN;w_LETTER;w_ALI;w_GALI;w_UBADAMA]);
  (0x1884, [w_MONGOLIAN;w_LETTER;w_ALI;w_GALI;w_INVERTED;w_UBADAMA]);
  (0x1885, [w_MONGOLIAN;w_LETTER;w_ALI;w_GALI;w_BALUDA]);
  (0x1886, [w_MONGOLIAN;w_LETTER;w_ALI;w_GALI;w_THREE;w_BALUDA]);
  (0x1887, [w_MONGOLIAN;w_LETTER;w_ALI;w_GALI;w_A]);
  (0x1888, [w_MONGOLIAN;w_LETTER;w_ALI;w_GALI;w_I]);
  (0x1889, [w_MONGOLIAN;w_LETTER;w_ALI;w_GALI;w_KA]);
  (0x188a, [w_MONGOLIAN;w_LETTER;w_ALI;w_GALI;w_NGA]);
  (0x188b, [w_MONGOLIAN;w_LETTER;w_ALI;w_GALI;w_CA]);
  (0x188c, [w_MONGOLIAN;w_LETTER;w_ALI;w_GALI;w_TTA]);
  (0x188d, [w_MONGOLIAN;w_LETTER;w_ALI;w_GALI;w_TTHA]);
  (0x188e, [w_MONGOLIAN;w_LETTER;w_ALI;w_GALI;w_DDA]);
  (0x188f, [w_MONGOLIAN;w_LETTER;w_ALI;w_GALI;w_NNA]);
  (0x1890, [w_MONGOLIAN;w_LETTER;w_ALI;w_GALI;w_TA]);
  (0x1891, [w_MONGOLIAN;w_LETTER;w_ALI;w_GALI;w_DA]);
  (0x1892, [w_MONGOLIAN;w_LETTER;w_ALI;w_GALI;w_PA]);
  (0x1893, [w_MONGOLIAN;w_LETTER;w_ALI;w_GALI;w_PHA]);
  (0x1894, [w_MONGOLIAN;w_LETTER;w_ALI;w_GALI;w_SSA]);
  (0x1895, [w_MONGOLIAN;w_LETTER;w_ALI;w_GALI;w_ZHA]);
  (0x1896, [w_MONGOLIAN;w_LETTER;w_ALI;w_GALI;w_ZA]);
  (0x1897, [w_MONGOLIAN;w_LETTER;w_ALI;w_GALI;w_AH]);
  (0x1898, [w_MONGOLIAN;w_LETTER;w_TODO;w_ALI;w_GALI;w_TA]);
  (0x1899, [w_MONGOLIAN;w_LETTER;w_TODO;w_ALI;w_GALI;w_ZHA]);
  (0x189a, [w_MONGOLIAN;w_LETTER;w_MANCHU;w_ALI;w_GALI;w_GHA]);
  (0x189b, [w_MONGOLIAN;w_LETTER;w_MANCHU;w_ALI;w_GALI;w_NGA]);
  (0x189c, [w_MONGOLIAN;w_LETTER;w_MANCHU;w_ALI;w_GALI;w_CA]);
  (0x189d, [w_MONGOLIAN;w_LETTER;w_MANCHU;w_ALI;w_GALI;w_JHA]);
  (0x189e, [w_MONGOLIAN;w_LETTER;w_MANCHU;w_ALI;w_GALI;w_TTA]);
  (0x189f, [w_MONGOLIAN;w_LETTER;w_MANCHU;w_ALI;w_GALI;w_DDHA]);
  (0x18a0, [w_MONGOLIAN;w_LETTER;w_MANCHU;w_ALI;w_GALI;w_TA]);
  (0x18a1, [w_MONGOLIAN;w_LETTER;w_MANCHU;w_ALI;w_GALI;w_DHA]);
  (0x18a2, [w_MONGOLIAN;w_LETTER;w_MANCHU;w_ALI;w_GALI;w_SSA]);
  (0x18a3, [w_MONGOLIAN;w_LETTER;w_MANCHU;w_ALI;w_GALI;w_CYA]);
  (0x18a4, [w_MONGOLIAN;w_LETTER;w_MANCHU;w_ALI;w_GALI;w_ZHA]);
  (0x18a5, [w_MONGOLIAN;w_LETTER;w_MANCHU;w_ALI;w_GALI;w_ZA]);
  (0x18a6, [w_MONGOLIAN;w_LETTER;w_ALI;w_GALI;w_HALF;w_U]);
  (0x18a7, [w_MONGOLIAN;w_LETTER;w_ALI;w_GALI;w_HALF;w_YA]);
  (0x18a8, [w_MONGOLIAN;w_LETTER;w_MANCHU;w_ALI;w_GALI;w_BHA]);
  (0x18a9, [w_MONGOLIAN;w_LETTER;w_ALI;w_GALI;w_DAGALGA]);
  (0x18aa, [w_MONGOLIAN;w_LETTER;w_MANCHU;w_ALI;w_GALI;w_LHA]);
  (0x18b0, [w_CANADIAN;w_SYLLABICS;w_OY]);
  (0x18b1, [w_CANADIAN;w_SYLLABICS;w_AY]);
  (0x18b2, [w_CANADIAN;w_SYLLABICS;w_AAY]);
  (0x18b3, [w_CANADIAN;w_SYLLABICS;w_WAY]);
  (0x18b4, [w_CANADIAN;w_SYLLABICS;w_POY]);
  (0x18b5, [w_CANADIAN;w_SYLLABICS;w_PAY]);
  (0x18b6, [w_CANADIAN;w_SYLLABICS;w_PWOY]);
  (0x18b7, [w_CANADIAN;w_SYLLABICS;w_TAY]);
  (0x18b8, [w_CANADIAN;w_SYLLABICS;w_KAY]);
  (0x18b9, [w_CANADIAN;w_SYLLABICS;w_KWAY]);
  (0x18ba, [w_CANADIAN;w_SYLLABICS;w_MAY]);
  (0x18bb, [w_CANADIAN;w_SYLLABICS;w_NOY]);
  (0x18bc, [w_CANADIAN;w_SYLLABICS;w_NAY]);
  (0x18bd, [w_CANADIAN;w_SYLLABICS;w_LAY]);
  (0x18be, [w_CANADIAN;w_SYLLABICS;w_SOY]);
  (0x18bf, [w_CANADIAN;w_SYLLABICS;w_SAY]);
  (0x18c0, [w_CANADIAN;w_SYLLABICS;w_SHOY]);
  (0x18c1, [w_CANADIAN;w_SYLLABICS;w_SHAY]);
  (0x18c2, [w_CANADIAN;w_SYLLABICS;w_SHWOY]);
  (0x18c3, [w_CANADIAN;w_SYLLABICS;w_YOY]);
  (0x18c4, [w_CANADIAN;w_SYLLABICS;w_YAY]);
  (0x18c5, [w_CANADIAN;w_SYLLABICS;w_RAY]);
  (0x18c6, [w_CANADIAN;w_SYLLABICS;w_NWI]);
  (0x18c7, [w_CANADIAN;w_SYLLABICS;w_OJIBWAY;w_NWI]);
  (0x18c8, [w_CANADIAN;w_SYLLABICS;w_NWII]);
  (0x18c9, [w_CANADIAN;w_SYLLABICS;w_OJIBWAY;w_NWII]);
  (0x18ca, [w_CANADIAN;w_SYLLABICS;w_NWO]);
  (0x18cb, [w_CANADIAN;w_SYLLABICS;w_OJIBWAY;w_NWO]);
  (0x18cc, [w_CANADIAN;w_SYLLABICS;w_NWOO]);
  (0x18cd, [w_CANADIAN;w_SYLLABICS;w_OJIBWAY;w_NWOO]);
  (0x18ce, [w_CANADIAN;w_SYLLABICS;w_RWEE]);
  (0x18cf, [w_CANADIAN;w_SYLLABICS;w_RWI]);
  (0x18d0, [w_CANADIAN;w_SYLLABICS;w_RWII]);
  (0x18d1, [w_CANADIAN;w_SYLLABICS;w_RWO]);
  (0x18d2, [w_CANADIAN;w_SYLLABICS;w_RWOO]);
  (0x18d3, [w_CANADIAN;w_SYLLABICS;w_RWA]);
  (0x18d4, [w_CANADIAN;w_SYLLABICS;w_OJIBWAY;w_P]);
  (0x18d5, [w_CANADIAN;w_SYLLABICS;w_OJIBWAY;w_T]);
  (0x18d6, [w_CANADIAN;w_SYLLABICS;w_OJIBWAY;w_K]);
  (0x18d7, [w_CANADIAN;w_SYLLABICS;w_OJIBWAY;w_C]);
  (0x18d8, [w_CANADIAN;w_SYLLABICS;w_OJIBWAY;w_M]);
  (0x18d9, [w_CANADIAN;w_SYLLABICS;w_OJIBWAY;w_N]);
  (0x18da, [w_CANADIAN;w_SYLLABICS;w_OJIBWAY;w_S]);
  (0x18db, [w_CANADIAN;w_SYLLABICS;w_OJIBWAY;w_SH]);
  (0x18dc, [w_CANADIAN;w_SYLLABICS;w_EASTERN;w_W]);
  (0x18dd, [w_CANADIAN;w_SYLLABICS;w_WESTERN;w_W]);
  (0x18de, [w_CANADIAN;w_SYLLABICS;w_FINAL;w_SMALL;w_RING]);
  (0x18df, [w_CANADIAN;w_SYLLABICS;w_FINAL;w_RAISED;w_DOT]);
  (0x18e0, [w_CANADIAN;w_SYLLABICS;w_R_CREE;w_RWE]);
  (0x18e1, [w_CANADIAN;w_SYLLABICS;w_WEST_CREE;w_LOO]);
  (0x18e2, [w_CANADIAN;w_SYLLABICS;w_WEST_CREE;w_LAA]);
  (0x18e3, [w_CANADIAN;w_SYLLABICS;w_THWE]);
  (0x18e4, [w_CANADIAN;w_SYLLABICS;w_THWA]);
  (0x18e5, [w_CANADIAN;w_SYLLABICS;w_TTHWE]);
  (0x18e6, [w_CANADIAN;w_SYLLABICS;w_TTHOO]);
  (0x18e7, [w_CANADIAN;w_SYLLABICS;w_TTHAA]);
  (0x18e8, [w_CANADIAN;w_SYLLABICS;w_TLHWE]);
  (0x18e9, [w_CANADIAN;w_SYLLABICS;w_TLHOO]);
  (0x18ea, [w_CANADIAN;w_SYLLABICS;w_SAYISI;w_SHWE]);
  (0x18eb, [w_CANADIAN;w_SYLLABICS;w_SAYISI;w_SHOO]);
  (0x18ec, [w_CANADIAN;w_SYLLABICS;w_SAYISI;w_HOO]);
  (0x18ed, [w_CANADIAN;w_SYLLABICS;w_CARRIER;w_GWU]);
  (0x18ee, [w_CANADIAN;w_SYLLABICS;w_CARRIER;w_DENE;w_GEE]);
  (0x18ef, [w_CANADIAN;w_SYLLABICS;w_CARRIER;w_GAA]);
  (0x18f0, [w_CANADIAN;w_SYLLABICS;w_CARRIER;w_GWA]);
  (0x18f1, [w_CANADIAN;w_SYLLABICS;w_SAYISI;w_JUU]);
  (0x18f2, [w_CANADIAN;w_SYLLABICS;w_CARRIER;w_JWA]);
  (0x18f3, [w_CANADIAN;w_SYLLABICS;w_BEAVER;w_DENE;w_L]);
  (0x18f4, [w_CANADIAN;w_SYLLABICS;w_BEAVER;w_DENE;w_R]);
  (0x18f5, [w_CANADIAN;w_SYLLABICS;w_CARRIER;w_DENTAL;w_S]);
  (0x1900, [w_LIMBU;w_VOWEL_CARRIER;w_LETTER]);
  (0x1901, [w_LIMBU;w_LETTER;w_KA]);
  (0x1902, [w_LIMBU;w_LETTER;w_KHA]);
  (0x1903, [w_LIMBU;w_LETTER;w_GA]);
  (0x1904, [w_LIMBU;w_LETTER;w_GHA]);
  (0x1905, [w_LIMBU;w_LETTER;w_NGA]);
  (0x1906, [w_LIMBU;w_LETTER;w_CA]);
  (0x1907, [w_LIMBU;w_LETTER;w_CHA]);
  (0x1908, [w_LIMBU;w_LETTER;w_JA]);
  (0x1909, [w_LIMBU;w_LETTER;w_JHA]);
  (0x190a, [w_LIMBU;w_LETTER;w_YAN]);
  (0x190b, [w_LIMBU;w_LETTER;w_TA]);
  (0x190c, [w_LIMBU;w_LETTER;w_THA]);
  (0x190d, [w_LIMBU;w_LETTER;w_DA]);
  (0x190e, [w_LIMBU;w_LETTER;w_DHA]);
  (0x190f, [w_LIMBU;w_LETTER;w_NA]);
  (0x1910, [w_LIMBU;w_LETTER;w_PA]);
  (0x1911, [w_LIMBU;w_LETTER;w_PHA]);
  (0x1912, [w_LIMBU;w_LETTER;w_BA]);
  (0x1913, [w_LIMBU;w_LETTER;w_BHA]);
  (0x1914, [w_LIMBU;w_LETTER;w_MA]);
  (0x1915, [w_LIMBU;w_LETTER;w_YA]);
  (0x1916, [w_LIMBU;w_LETTER;w_RA]);
  (0x1917, [w_LIMBU;w_LETTER;w_LA]);
  (0x1918, [w_LIMBU;w_LETTER;w_WA]);
  (0x1919, [w_LIMBU;w_LETTER;w_SHA]);
  (0x191a, [w_LIMBU;w_LETTER;w_SSA]);
  (0x191b, [w_LIMBU;w_LETTER;w_SA]);
  (0x191c, [w_LIMBU;w_LETTER;w_HA]);
  (0x191d, [w_LIMBU;w_LETTER;w_GYAN]);
  (0x191e, [w_LIMBU;w_LETTER;w_TRA]);
  (0x1920, [w_LIMBU;w_VOWEL;w_SIGN;w_A]);
  (0x1921, [w_LIMBU;w_VOWEL;w_SIGN;w_I]);
  (0x1922, [w_LIMBU;w_VOWEL;w_SIGN;w_U]);
  (0x1923, [w_LIMBU;w_VOWEL;w_SIGN;w_EE]);
  (0x1924, [w_LIMBU;w_VOWEL;w_SIGN;w_AI]);
  (0x1925, [w_LIMBU;w_VOWEL;w_SIGN;w_OO])].

Definition NAMES_14 : list (N * (list str)) := [
  (0x1926, [w_LIMBU;w_VOWEL;w_SIGN;w_AU]);
  (0x1927, [w_LIMBU;w_VOWEL;w_SIGN;w_E]);
  (0x1928, [w_LIMBU;w_VOWEL;w_SIGN;w_O]);
  (0x1929, [w_LIMBU;w_SUBJOINED;w_LETTER;w_YA]);
  (0x192a, [w_LIMBU;w_SUBJOINED;w_LETTER;w_RA]);
  (0x192b, [w_LIMBU;w_SUBJOINED;w_LETTER;w_WA]);
  (0x1930, [w_LIMBU;w_SMALL;w_LETTER;w_KA]);
  (0x1931, [w_LIMBU;w_SMALL;w_LETTER;w_NGA]);
  (0x1932, [w_LIMBU;w_SMALL;w_LETTER;w_ANUSVARA]);
  (0x1933, [w_LIMBU;w_SMALL;w_LETTER;w_TA]);
  (0x1934, [w_LIMBU;w_SMALL;w_LETTER;w_NA]);
  (0x1935, [w_LIMBU;w_SMALL;w_LETTER;w_PA]);
  (0x1936, [w_LIMBU;w_SMALL;w_LETTER;w_MA]);
  (0x1937, [w_LIMBU;w_SMALL;w_LETTER;w_RA]);
  (0x1938, [w_LIMBU;w_SMALL;w_LETTER;w_LA]);
  (0x1939, [w_LIMBU;w_SIGN;w_MUKPHRENG]);
  (0x193a, [w_LIMBU;w_SIGN;w_KEMPHRENG]);
  (0x193b, [w_LIMBU;w_SIGN;w_SA_I]);
  (0x1940, [w_LIMBU;w_SIGN;w_LOO]);
  (0x1944, [w_LIMBU;w_EXCLAMATION;w_MARK]);
  (0x1945, [w_LIMBU;w_QUESTION;w_MARK]);
  (0x1946, [w_LIMBU;w_DIGIT;w_ZERO]);
  (0x1947, [w_LIMBU;w_DIGIT;w_ONE]);
  (0x1948, [w_LIMBU;w_DIGIT;w_TWO]);
  (0x1949, [w_LIMBU;w_DIGIT;w_THREE]);
  (0x194a, [w_LIMBU;w_DIGIT;w_FOUR]);
  (0x194b, [w_LIMBU;w_DIGIT;w_FIVE]);
  (0x194c, [w_LIMBU;w_DIGIT;w_SIX]);
  (0x194d, [w_LIMBU;w_DIGIT;w_SEVEN]);
  (0x194e, [w_LIMBU;w_DIGIT;w_EIGHT]);
  (0x194f, [w_LIMBU;w_DIGIT;w_NINE]);
  (0x1950, [w_TAI;w_LE;w_LETTER;w_KA]);
  (0x1951, [w_TAI;w_LE;w_LETTER;w_XA]);
  (0x1952, [w_TAI;w_LE;w_LETTER;w_NGA]);
  (0x1953, [w_TAI;w_LE;w_LETTER;w_TSA]);
  (0x1954, [w_TAI;w_LE;w_LETTER;w_SA]);
  (0x1955, [w_TAI;w_LE;w_LETTER;w_YA]);
  (0x1956, [w_TAI;w_LE;w_LETTER;w_TA]);
  (0x1957, [w_TAI;w_LE;w_LETTER;w_THA]);
  (0x1958, [w_TAI;w_LE;w_LETTER;w_LA]);
  (0x1959, [w_TAI;w_LE;w_LETTER;w_PA]);
  (0x195a, [w_TAI;w_LE;w_LETTER;w_PHA]);
  (0x195b, [w_TAI;w_LE;w_LETTER;w_MA]);
  (0x195c, [w_TAI;w_LE;w_LETTER;w_FA]);
  (0x195d, [w_TAI;w_LE;w_LETTER;w_VA]);
  (0x195e, [w_TAI;w_LE;w_LETTER;w_HA]);
  (0x195f, [w_TAI;w_LE;w_LETTER;w_QA]);
  (0x1960, [w_TAI;w_LE;w_LETTER;w_KHA]);
  (0x1961, [w_TAI;w_LE;w_LETTER;w_TSHA]);
  (0x1962, [w_TAI;w_LE;w_LETTER;w_NA]);
  (0x1963, [w_TAI;w_LE;w_LETTER;w_A]);
  (0x1964, [w_TAI;w_LE;w_LETTER;w_I]);
  (0x1965, [w_TAI;w_LE;w_LETTER;w_EE]);
  (0x1966, [w_TAI;w_LE;w_LETTER;w_EH]);
  (0x1967, [w_TAI;w_LE;w_LETTER;w_U]);
  (0x1968, [w_TAI;w_LE;w_LETTER;w_OO]);
  (0x1969, [w_TAI;w_LE;w_LETTER;w_O]);
  (0x196a, [w_TAI;w_LE;w_LETTER;w_UE]);
  (0x196b, [w_TAI;w_LE;w_LETTER;w_E]);
  (0x196c, [w_TAI;w_LE;w_LETTER;w_AUE]);
  (0x196d, [w_TAI;w_LE;w_LETTER;w_AI]);
  (0x1970, [w_TAI;w_LE;w_LETTER;w_TONE_2]);
  (0x1971, [w_TAI;w_LE;w_LETTER;w_TONE_3]);
  (0x1972, [w_TAI;w_LE;w_LETTER;w_TONE_4]);
  (0x1973, [w_TAI;w_LE;w_LETTER;w_TONE_5]);
  (0x1974, [w_TAI;w_LE;w_LETTER;w_TONE_6]);
  (0x1980, [w_NEW;w_TAI;w_LUE;w_LETTER;w_HIGH;w_QA]);
  (0x1981, [w_NEW;w_TAI;w_LUE;w_LETTER;w_LOW;w_QA]);
  (0x1982, [w_NEW;w_TAI;w_LUE;w_LETTER;w_HIGH;w_KA]);
  (0x1983, [w_NEW;w_TAI;w_LUE;w_LETTER;w_HIGH;w_XA]);
  (0x1984, [w_NEW;w_TAI;w_LUE;w_LETTER;w_HIGH;w_NGA]);
  (0x1985, [w_NEW;w_TAI;w_LUE;w_LETTER;w_LOW;w_KA]);
  (0x1986, [w_NEW;w_TAI;w_LUE;w_LETTER;w_LOW;w_XA]);
  (0x1987, [w_NEW;w_TAI;w_LUE;w_LETTER;w_LOW;w_NGA]);
  (0x1988, [w_NEW;w_TAI;w_LUE;w_LETTER;w_HIGH;w_TSA]);
  (0x1989, [w_NEW;w_TAI;w_LUE;w_LETTER;w_HIGH;w_SA]);
  (0x198a, [w_NEW;w_TAI;w_LUE;w_LETTER;w_HIGH;w_YA]);
  (0x198b, [w_NEW;w_TAI;w_LUE;w_LETTER;w_LOW;w_TSA]);
  (0x198c, [w_NEW;w_TAI;w_LUE;w_LETTER;w_LOW;w_SA]);
  (0x198d, [w_NEW;w_TAI;w_LUE;w_LETTER;w_LOW;w_YA]);
  (0x198e, [w_NEW;w_TAI;w_LUE;w_LETTER;w_HIGH;w_TA]);
  (0x198f, [w_NEW;w_TAI;w_LUE;w_LETTER;w_HIGH;w_THA]);
  (0x1990, [w_NEW;w_TAI;w_LUE;w_LETTER;w_HIGH;w_NA]);
  (0x1991, [w_NEW;w_TAI;w_LUE;w_LETTER;w_LOW;w_TA]);
  (0x1992, [w_NEW;w_TAI;w_LUE;w_LETTER;w_LOW;w_THA]);
  (0x1993, [w_NEW;w_TAI;w_LUE;w_LETTER;w_LOW;w_NA]);
  (0x1994, [w_NEW;w_TAI;w_LUE;w_LETTER;w_HIGH;w_PA]);
  (0x1995, [w_NEW;w_TAI;w_LUE;w_LETTER;w_HIGH;w_PHA]);
  (0x1996, [w_NEW;w_TAI;w_LUE;w_LETTER;w_HIGH;w_MA]);
  (0x1997, [w_NEW;w_TAI;w_LUE;w_LETTER;w_LOW;w_PA]);
  (0x1998, [w_NEW;w_TAI;w_LUE;w_LETTER;w_LOW;w_PHA]);
  (0x1999, [w_NEW;w_TAI;w_LUE;w_LETTER;w_LOW;w_MA]);
  (0x199a, [w_NEW;w_TAI;w_LUE;w_LETTER;w_HIGH;w_FA]);
  (0x199b, [w_NEW;w_TAI;w_LUE;w_LETTER;w_HIGH;w_VA]);
  (0x199c, [w_NEW;w_TAI;w_LUE;w_LETTER;w_HIGH;w_LA]);
  (0x199d, [w_NEW;w_TAI;w_LUE;w_LETTER;w_LOW;w_FA]);
  (0x199e, [w_NEW;w_TAI;w_LUE;w_LETTER;w_LOW;w_VA]);
  (0x199f, [w_NEW;w_TAI;w_LUE;w_LETTER;w_LOW;w_LA]);
  (0x19a0, [w_NEW;w_TAI;w_LUE;w_LETTER;w_HIGH;w_HA]);
  (0x19a1, [w_NEW;w_TAI;w_LUE;w_LETTER;w_HIGH;w_DA]);
  (0x19a2, [w_NEW;w_TAI;w_LUE;w_LETTER;w_HIGH;w_BA]);
  (0x19a3, [w_NEW;w_TAI;w_LUE;w_LETTER;w_LOW;w_HA]);
  (0x19a4, [w_NEW;w_TAI;w_LUE;w_LETTER;w_LOW;w_DA]);
  (0x19a5, [w_NEW;w_TAI;w_LUE;w_LETTER;w_LOW;w_BA]);
  (0x19a6, [w_NEW;w_TAI;w_LUE;w_LETTER;w_HIGH;w_KVA]);
  (0x19a7, [w_NEW;w_TAI;w_LUE;w_LETTER;w_HIGH;w_XVA]);
  (0x19a8, [w_NEW;w_TAI;w_LUE;w_LETTER;w_LOW;w_KVA]);
  (0x19a9, [w_NEW;w_TAI;w_LUE;w_LETTER;w_LOW;w_XVA]);
  (0x19aa, [w_NEW;w_TAI;w_LUE;w_LETTER;w_HIGH;w_SUA]);
  (0x19ab, [w_NEW;w_TAI;w_LUE;w_LETTER;w_LOW;w_SUA]);
  (0x19b0, [w_NEW;w_TAI;w_LUE;w_VOWEL;w_SIGN;w_VOWEL;w_SHORTENER]);
  (0x19b1, [w_NEW;w_TAI;w_LUE;w_VOWEL;w_SIGN;w_AA]);
  (0x19b2, [w_NEW;w_TAI;w_LUE;w_VOWEL;w_SIGN;w_II]);
  (0x19b3, [w_NEW;w_TAI;w_LUE;w_VOWEL;w_SIGN;w_U]);
  (0x19b4, [w_NEW;w_TAI;w_LUE;w_VOWEL;w_SIGN;w_UU]);
  (0x19b5, [w_NEW;w_TAI;w_LUE;w_VOWEL;w_SIGN;w_E]);
  (0x19b6, [w_NEW;w_TAI;w_LUE;w_VOWEL;w_SIGN;w_AE]);
  (0x19b7, [w_NEW;w_TAI;w_LUE;w_VOWEL;w_SIGN;w_O]);
  (0x19b8, [w_NEW;w_TAI;w_LUE;w_VOWEL;w_SIGN;w_OA]);
  (0x19b9, [w_NEW;w_TAI;w_LUE;w_VOWEL;w_SIGN;w_UE]);
  (0x19ba, [w_NEW;w_TAI;w_LUE;w_VOWEL;w_SIGN;w_AY]);
  (0x19bb, [w_NEW;w_TAI;w_LUE;w_VOWEL;w_SIGN;w_AAY]);
  (0x19bc, [w_NEW;w_TAI;w_LUE;w_VOWEL;w_SIGN;w_UY]);
  (0x19bd, [w_NEW;w_TAI;w_LUE;w_VOWEL;w_SIGN;w_OY]);
  (0x19be, [w_NEW;w_TAI;w_LUE;w_VOWEL;w_SIGN;w_OAY]);
  (0x19bf, [w_NEW;w_TAI;w_LUE;w_VOWEL;w_SIGN;w_UEY]);
  (0x19c0, [w_NEW;w_TAI;w_LUE;w_VOWEL;w_SIGN;w_IY]);
  (0x19c1, [w_NEW;w_TAI;w_LUE;w_LETTER;w_FINAL;w_V]);
  (0x19c2, [w_NEW;w_TAI;w_LUE;w_LETTER;w_FINAL;w_NG]);
  (0x19c3, [w_NEW;w_TAI;w_LUE;w_LETTER;w_FINAL;w_N]);
  (0x19c4, [w_NEW;w_TAI;w_LUE;w_LETTER;w_FINAL;w_M]);
  (0x19c5, [w_NEW;w_TAI;w_LUE;w_LETTER;w_FINAL;w_K]);
  (0x19c6, [w_NEW;w_TAI;w_LUE;w_LETTER;w_FINAL;w_D]);
  (0x19c7, [w_NEW;w_TAI;w_LUE;w_LETTER;w_FINAL;w_B]);
  (0x19c8, [w_NEW;w_TAI;w_LUE;w_TONE;w_MARK_1]);
  (0x19c9, [w_NEW;w_TAI;w_LUE;w_TONE;w_MARK_2]);
  (0x19d0, [w_NEW;w_TAI;w_LUE;w_DIGIT;w_ZERO]);
  (0x19d1, [w_NEW;w_TAI;w_LUE;w_DIGIT;w_ONE]);
  (0x19d2, [w_NEW;w_TAI;w_LUE;w_DIGIT;w_TWO]);
  (0x19d3, [w_NEW;w_TAI;w_LUE;w_DIGIT;w_THREE]);
  (0x19d4, [w_NEW;w_TAI;w_LUE;w_DIGIT;w_FOUR]);
  (0x19d5, [w_NEW;w_TAI;w_LUE;w_DIGIT;w_FIVE]);
  (0x19d6, [w_NEW;w_TAI;w_LUE;w_DIGIT;w_SIX]);
  (0x19d7, [w_NEW;w_TAI;w_LUE;w_DIGIT;w_SEVEN]);
  (0x19d8, [w_NEW;w_TAI;w_LUE;w_DIGIT;w_EIGHT]);
  (0x19d9, [w_NEW;w_TAI;w_LUE;w_DIGIT;w_NINE]);
  (0x19da, [w_NEW;w_TAI;w_LUE;w_THAM;w_DIGIT;w_ONE]);
  (0x19de, [w_NEW;w_TAI;w_LUE;w_SIGN;w_LAE]);
  (0x19df, [w_NEW;w_TAI;w_LUE;w_SIGN;w_LAEV]);
  (0x19e0, [w_KHMER;w_SYMBOL;w_PATHAMASAT]);
  (0x19e1, [w_KHMER;w_SYMBOL;w_MUOY;w_KOET]);
  (0x19e2, [w_KHMER;w_SYMBOL;w_PII;w_KOET]);
  (0x19e3, [w_KHMER;w_SYMBOL;w_BEI;w_KOET]);
  (0x19e4, [w_KHMER;w_SYMBOL;w_BUON;w_KOET]);
  (0x19e5, [w_KHMER;w_SYMBOL;w_PRAM;w_KOET]);
  (0x19e6, [w_KHMER;w_SYMBOL;w_PRAM_MUOY;w_KOET]);
  (0x19e7, [w_KHMER;w_SYMBOL;w_PRAM_PII;w_KOET]);
  (0x19e8, [w_KHMER;w_SYMBOL;w_PRAM_BEI;w_KOET]);
  (0x19e9, [w_KHMER;w_SYMBOL;w_PRAM_BUON;w_KOET]);
  (0x19ea, [w_KHMER;w_SYMBOL;w_DAP;w_KOET]);
  (0x19eb, [w_KHMER;w_SYMBOL;w_DAP_MUOY;w_KOET]);
  (0x19ec, [w_KHMER;w_SYMBOL;w_DAP_PII;w_KOET]);
  (0x19ed, [w_KHMER;w_SYMBOL;w_DAP_BEI;w_KOET]);
  (0x19ee, [w_KHMER;w_SYMBOL;w_DAP_BUON;w_KOET]);
  (0x19ef, [w_KHMER;w_SYMBOL;w_DAP_PRAM;w_KOET]);
  (0x19f0, [w_KHMER;w_SYMBOL;w_TUTEYASAT]);
  (0x19f1, [w_KHMER;w_SYMBOL;w_MUOY;w_ROC]);
  (0x19f2, [w_KHMER;w_SYMBOL;w_PII;w_ROC]);
  (0x19f3, [w_KHMER;w_SYMBOL;w_BEI;w_ROC]);
  (0x19f4, [w_KHMER;w_SYMBOL;w_BUON;w_ROC]);
  (0x19f5, [w_KHMER;w_SYMBOL;w_PRAM;w_ROC]);
  (0x19f6, [w_KHMER;w_SYMBOL;w_PRAM_MUOY;w_ROC]);
  (0x19f7, [w_KHMER;w_SYMBOL;w_PRAM_PII;w_ROC]);
  (0x19f8, [w_KHMER;w_SYMBOL;w_PRAM_BEI;w_ROC]);
  (0x19f9, [w_KHMER;w_SYMBOL;w_PRAM_BUON;w_ROC]);
  (0x19fa, [w_KHMER;w_SYMBOL;w_DAP;w_ROC]);
  (0x19fb, [w_KHMER;w_SYMBOL;w_DAP_MUOY;w_ROC]);
  (0x19fc, [w_KHMER;w_SYMBOL;w_DAP_PII;w_ROC]);
  (0x19fd, [w_KHMER;w_SYMBOL;w_DAP_BEI;w_ROC]);
  (0x19fe, [w_KHMER;w_SYMBOL;w_DAP_BUON;w_ROC]);
  (0x19ff, [w_KHMER;w_SYMBOL;w_DAP_PRAM;w_ROC]);
  (0x1a00, [w_BUGINESE;w_LETTER;w_KA]);
  (0x1a01, [w_BUGINESE;w_LETTER;w_GA]);
  (0x1a02, [w_BUGINESE;w_LETTER;w_NGA]);
  (0x1a03, [w_BUGINESE;w_LETTER;w_NGKA]);
  (0x1a04, [w_BUGINESE;w_LETTER;w_PA]);
  (0x1a05, [w_BUGINESE;w_LETTER;w_BA]);
  (0x1a06, [w_BUGINESE;w_LETTER;w_MA]);
  (0x1a07, [w_BUGINESE;w_LETTER;w_MPA]);
  (0x1a08, [w_BUGINESE;w_LETTER;w_TA]);
  (0x1a09, [w_BUGINESE;w_LETTER;w_DA]);
  (0x1a0a, [w_BUGINESE;w_LETTER;w_NA]);
  (0x1a0b, [w_BUGINESE;w_LETTER;w_NRA]);
  (0x1a0c, [w_BUGINESE;w_LETTER;w_CA]);
  (0x1a0d, [w_BUGINESE;w_LETTER;w_JA]);
  (0x1a0e, [w_BUGINESE;w_LETTER;w_NYA]);
  (0x1a0f, [w_BUGINESE;w_LETTER;w_NYCA]);
  (0x1a10, [w_BUGINESE;w_LETTER;w_YA]);
  (0x1a11, [w_BUGINESE;w_LETTER;w_RA]);
  (0x1a12, [w_BUGINESE;w_LETTER;w_LA]);
  (0x1a13, [w_BUGINESE;w_LETTER;w_VA]);
  (0x1a14, [w_BUGINESE;w_LETTER;w_SA]);
  (0x1a15, [w_BUGINESE;w_LETTER;w_A]);
  (0x1a16, [w_BUGINESE;w_LETTER;w_HA]);
  (0x1a17, [w_BUGINESE;w_VOWEL;w_SIGN;w_I]);
  (0x1a18, [w_BUGINESE;w_VOWEL;w_SIGN;w_U]);
  (0x1a19, [w_BUGINESE;w_VOWEL;w_SIGN;w_E]);
  (0x1a1a, [w_BUGINESE;w_VOWEL;w_SIGN;w_O]);
  (0x1a1b, [w_BUGINESE;w_VOWEL;w_SIGN;w_AE]);
  (0x1a1e, [w_BUGINESE;w_PALLAWA]);
  (0x1a1f, [w_BUGINESE;w_END;w_OF;w_SECTION]);
  (0x1a20, [w_TAI;w_THAM;w_LETTER;w_HIGH;w_KA]);
  (0x1a21, [w_TAI;w_THAM;w_LETTER;w_HIGH;w_KHA]);
  (0x1a22, [w_TAI;w_THAM;w_LETTER;w_HIGH;w_KXA]);
  (0x1a23, [w_TAI;w_THAM;w_LETTER;w_LOW;w_KA]);
  (0x1a24, [w_TAI;w_THAM;w_LETTER;w_LOW;w_KXA]);
  (0x1a25, [w_TAI;w_THAM;w_LETTER;w_LOW;w_KHA]);
  (0x1a26, [w_TAI;w_THAM;w_LETTER;w_NGA]);
  (0x1a27, [w_TAI;w_THAM;w_LETTER;w_HIGH;w_CA]);
  (0x1a28, [w_TAI;w_THAM;w_LETTER;w_HIGH;w_CHA]);
  (0x1a29, [w_TAI;w_THAM;w_LETTER;w_LOW;w_CA]);
  (0x1a2a, [w_TAI;w_THAM;w_LETTER;w_LOW;w_SA]);
  (0x1a2b, [w_TAI;w_THAM;w_LETTER;w_LOW;w_CHA]);
  (0x1a2c, [w_TAI;w_THAM;w_LETTER;w_NYA]);
  (0x1a2d, [w_TAI;w_THAM;w_LETTER;w_RATA]);
  (0x1a2e, [w_TAI;w_THAM;w_LETTER;w_HIGH;w_RATHA]);
  (0x1a2f, [w_TAI;w_THAM;w_LETTER;w_DA]);
  (0x1a30, [w_TAI;w_THAM;w_LETTER;w_LOW;w_RATHA]);
  (0x1a31, [w_TAI;w_THAM;w_LETTER;w_RANA]);
  (0x1a32, [w_TAI;w_THAM;w_LETTER;w_HIGH;w_TA]);
  (0x1a33, [w_TAI;w_THAM;w_LETTER;w_HIGH;w_THA]);
  (0x1a34, [w_TAI;w_THAM;w_LETTER;w_LOW;w_TA]);
  (0x1a35, [w_TAI;w_THAM;w_LETTER;w_LOW;w_THA]);
  (0x1a36, [w_TAI;w_THAM;w_LETTER;w_NA]);
  (0x1a37, [w_TAI;w_THAM;w_LETTER;w_BA]);
  (0x1a38, [w_TAI;w_THAM;w_LETTER;w_HIGH;w_PA]);
  (0x1a39, [w_TAI;w_THAM;w_LETTER;w_HIGH;w_PHA]);
  (0x1a3a, [w_TAI;w_THAM;w_LETTER;w_HIGH;w_FA]);
  (0x1a3b, [w_TAI;w_THAM;w_LETTER;w_LOW;w_PA]);
  (0x1a3c, [w_TAI;w_THAM;w_LETTER;w_LOW;w_FA]);
  (0x1a3d, [w_TAI;w_THAM;w_LETTER;w_LOW;w_PHA]);
  (0x1a3e, [w_TAI;w_THAM;w_LETTER;w_MA]);
  (0x1a3f, [w_TAI;w_THAM;w_LETTER;w_LOW;w_YA]);
  (0x1a40, [w_TAI;w_THAM;w_LETTER;w_HIGH;w_YA]);
  (0x1a41, [w_TAI;w_THAM;w_LETTER;w_RA]);
  (0x1a42, [w_TAI;w_THAM;w_LETTER;w_RUE]);
  (0x1a43, [w_TAI;w_THAM;w_LETTER;w_LA]);
  (0x1a44, [w_TAI;w_THAM;w_LETTER;w_LUE]);
  (0x1a45, [w_TAI;w_THAM;w_LETTER;w_WA]);
  (0x1a46, [w_TAI;w_THAM;w_LETTER;w_HIGH;w_SHA]);
  (0x1a47, [w_TAI;w_THAM;w_LETTER;w_HIGH;w_SSA]);
  (0x1a48, [w_TAI;w_THAM;w_LETTER;w_HIGH;w_SA]);
  (0x1a49, [w_TAI;w_THAM;w_LETTER;w_HIGH;w_HA]);
  (0x1a4a, [w_TAI;w_THAM;w_LETTER;w_LLA]);
  (0x1a4b, [w_TAI;w_THAM;w_LETTER;w_A]);
  (0x1a4c, [w_TAI;w_THAM;w_LETTER;w_LOW;w_HA]);
  (0x1a4d, [w_TAI;w_THAM;w_LETTER;w_I]);
  (0x1a4e, [w_TAI;w_THAM;w_LETTER;w_II]);
  (0x1a4f, [w_TAI;w_THAM;w_LETTER;w_U]);
  (0x1a50, [w_TAI;w_THAM;w_LETTER;w_UU]);
  (0x1a51, [w_TAI;w_THAM;w_LETTER;w_EE]);
  (0x1a52, [w_TAI;w_THAM;w_LETTER;w_OO]);
  (0x1a53, [w_TAI;w_THAM;w_LETTER;w_LAE]);
  (0x1a54, [w_TAI;w_THAM;w_LETTER;w_GREAT;w_SA]);
  (0x1a55, [w_TAI;w_THAM;w_CONSONANT;w_SIGN;w_MEDIAL;w_RA]);
  (0x1a56, [w_TAI;w_THAM;w_CONSONANT;w_SIGN;w_MEDIAL;w_LA]);
  (0x1a57, [w_TAI;w_THAM;w_CONSONANT;w_SIGN;w_LA;w_TANG;w_LAI]);
  (0x1a58, [w_TAI;w_THAM;w_SIGN;w_MAI;w_KANG;w_LAI]);
  (0x1a59, [w_TAI;w_THAM;w_CONSONANT;w_SIGN;w_FINAL;w_NGA]);
  (0x1a5a, [w_TAI;w_THAM;w_CONSONANT;w_SIGN;w_LOW;w_PA]);
  (0x1a5b, [w_TAI;w_THAM;w_CONSONANT;w_SIGN;w_HIGH;w_RATHA;w_OR;w_LOW;w_PA]);
  (0x1a5c, [w_TAI;w_THAM;w_CONSONANT;w_SIGN;w_MA]);
  (0x1a5d, [w_TAI;w_THAM;w_CONSONANT;w_SIGN;w_BA]);
  (0x1a5e, [w_TAI;w_THAM;w_CONSONANT;w_SIGN;w_SA]);
  (0x1a60, [w_TAI;w_THAM;w_SIGN;w_SAKOT]);
  (0x1a61, [w_TAI;w_THAM;w_VOWEL;w_SIGN;w_A]);
  (0x1a62, [w_TAI;w_THAM;w_VOWEL;w_SIGN;w_MAI;w_SAT]);
  (0x1a63, [w_TAI;w_THAM;w_VOWEL;w_SIGN;w_AA]);
  (0x1a64, [w_TAI;w_THAM;w_VOWEL;w_SIGN;w_TALL;w_AA]);
  (0x1a65, [w_TAI;w_THAM;w_VOWEL;w_SIGN;w_I]);
  (0x1a66, [w_TAI;w_THAM;w_VOWEL;w_SIGN;w_II]);
  (0x1a67, [w_TAI;w_THAM;w_VOWEL;w_SIGN;w_UE]);
  (0x1a68, [w_TAI;w_THAM;w_VOWEL;w_SIGN;w_UUE]);
  (0x1a69, [w_TAI;w_THAM;w_VOWEL;w_SIGN;w_U]);
  (0x1a6a, [w_TAI;w_THAM;w_VOWEL;w_SIGN;w_UU]);
  (0x1a6b, [w_TAI;w_THAM;w_VOWEL;w_SIGN;w_O]);
  (0x1a6c, [w_TAI;w_THAM;w_VOWEL;w_SIGN;w_OA;w_BELOW]);
  (0x1a6d, [w_TAI;w_THAM;w_VOWEL;w_SIGN;w_OY]);
  (0x1a6e, [w_TAI;w_THAM;w_VOWEL;w_SIGN;w_E]);
  (0x1a6f, [w_TAI;w_THAM;w_VOWEL;w_SIGN;w_AE]);
  (0x1a70, [w_TAI;w_THAM;w_VOWEL;w_SIGN;w_OO]);
  (0x1a71, [w_TAI;w_THAM;w_VOWEL;w_SIGN;w_AI]);
  (0x1a72, [w_TAI;w_THAM;w_VOWEL;w_SIGN;w_THAM;w_AI]);
  (0x1a73, [w_TAI;w_THAM;w_VOWEL;w_SIGN;w_OA;w_ABOVE]);
  (0x1a74, [w_TAI;w_THAM;w_SIGN;w_MAI;w_KANG]);
  (0x1a75, [w_TAI;w_THAM;w_SIGN;w_TONE_1]);
  (0x1a76, [w_TAI;w_THAM;w_SIGN;w_TONE_2]);
  (0x1a77, [w_TAI;w_THAM;w_SIGN;w_KHUEN;w_TONE_3]);
  (0x1a78, [w_TAI;w_THAM;w_SIGN;w_KHUEN;w_TONE_4]);
  (0x1a79, [w_TAI;w_THAM;w_SIGN;w_KHUEN;w_TONE_5]);
  (0x1a7a, [w_TAI;w_THAM;w_SIGN;w_RA;w_HAAM]);
  (0x1a7b, [w_TAI;w_THAM;w_SIGN;w_MAI;w_SAM]);
  (0x1a7c, [w_TAI;w_THAM;w_SIGN;w_KHUEN_LUE;w_KARAN]);
  (0x1a7f, [w_TAI;w_THAM;w_COMBINING;w_CRYPTOGRAMMIC;w_DOT]);
  (0x1a80, [w_TAI;w_THAM;w_HORA;w_DIGIT;w_ZERO]);
  (0x1a81, [w_TAI;w_THAM;w_HORA;w_DIGIT;w_ONE]);
  (0x1a82, [w_TAI;w_THAM;w_HORA;w_DIGIT;w_TWO]);
  (0x1a83, [w_TAI;w_THAM;w_HORA;w_DIGIT;w_THREE]);
  (0x1a84, [w_TAI;w_THAM;w_HORA;w_DIGIT;w_FOUR]);
  (0x1a85, [w_TAI;w_THAM;w_HORA;w_DIGIT;w_FIVE]);
  (0x1a86, [w_TAI;w_THAM;w_HORA;w_DIGIT;w_SIX]);
  (0x1a87, [w_TAI;w_THAM;w_HORA;w_DIGIT;w_SEVEN]);
  (0x1a88, [w_TAI;w_THAM;w_HORA;w_DIGIT;w_EIGHT]);
  (0x1a89, [w_TAI;w_THAM;w_HORA;w_DIGIT;w_NINE]);
  (0x1a90, [w_TAI;w_THAM;w_THAM;w_DIGIT;w_ZERO]);
  (0x1a91, [w_TAI;w_THAM;w_THAM;w_DIGIT;w_ONE]);
  (0x1a92, [w_TAI;w_THAM;w_THAM;w_DIGIT;w_TWO]);
  (0x1a93, [w_TAI;w_THAM;w_THAM;w_DIGIT;w_THREE]);
  (0x1a94, [w_TAI;w_THAM;w_THAM;w_DIGIT;w_FOUR]);
  (0x1a95, [w_TAI;w_THAM;w_THAM;w_DIGIT;w_FIVE]);
  (0x1a96, [w_TAI;w_THAM;w_THAM;w_DIGIT;w_SIX]);
  (0x1a97, [w_TAI;w_THAM;w_THAM;w_DIGIT;w_SEVEN]);
  (0x1a98, [w_TAI;w_THAM;w_THAM;w_DIGIT;w_EIGHT]);
  (0x1a99, [w_TAI;w_THAM;w_THAM;w_DIGIT;w_NINE]);
  (0x1aa0, [w_TAI;w_THAM;w_SIGN;w_WIANG]);
  (0x1aa1, [w_TAI;w_THAM;w_SIGN;w_WIANGWAAK]);
  (0x1aa2, [w_TAI;w_THAM;w_SIGN;w_SAWAN]);
  (0x1aa3, [w_TAI;w_THAM;w_SIGN;w_KEOW]);
  (0x1aa4, [w_TAI;w_THAM;w_SIGN;w_HOY]);
  (0x1aa5, [w_TAI;w_THAM;w_SIGN;w_DOKMAI]);
  (0x1aa6, [w_TAI;w_THAM;w_SIGN;w_REVERSED;w_ROTATED;w_RANA]);
  (0x1aa7, [w_TAI;w_THAM;w_SIGN;w_MAI;w_YAMOK]);
  (0x1aa8, [w_TAI;w_THAM;w_SIGN;w_KAAN]);
  (0x1aa9, [w_TAI;w_THAM;w_SIGN;w_KAANKUU]);
  (0x1aaa, [w_TAI;w_THAM;w_SIGN;w_SATKAAN]);
  (0x1aab, [w_TAI;w_THAM;w_SIGN;w_SATKAANKUU]);
  (0x1aac, [w_TAI;w_THAM;w_SIGN;w_HANG]);
  (0x1aad, [w_TAI;w_THAM;w_SIGN;w_CAANG]);
  (0x1ab0, [w_COMBINING;w_DOUBLED;w_CIRCUMFLEX;w_ACCENT]);
  (0x1ab1, [w_COMBINING;w_DIAERESIS_RING]);
  (0x1ab2, [w_COMBINING;w_INFINITY]);
  (0x1ab3, [w_COMBINING;w_DOWNWARDS;w_ARROW]);
  (0x1ab4, [w_COMBINING;w_TRIPLE;w_DOT]);
  (0x1ab5, [w_COMBINING;w_X_X;w_BELOW]);
  (0x1ab6, [w_COMBINING;w_WIGGLY;w_LINE;w_BELOW]);
  (0x1ab7, [w_COMBINING;w_OPEN;w_MARK;w_BELOW]);
  (0x1ab8, [w_COMBINING;w_DOUBLE;w_OPEN;w_MARK;w_BELOW]);
  (0x1ab9, [w_COMBINING;w_LIGHT;w_CENTRALIZATION;w_STROKE;w_BELOW]);
  (0x1aba, [w_COMBINING;w_STRONG;w_CENTRALIZATION;w_STROKE;w_BELOW]);
  (0x1abb, [w_COMBINING;w_PARENTHESES;w_ABOVE]);
  (0x1abc, [w_COMBINING;w_DOUBLE;w_PARENTHESES;w_ABOVE]);
  (0x1abd, [w_COMBINING;w_PARENTHESES;w_BELOW]);
  (0x1abe, [w_COMBINING;w_PARENTHESES;w_OVERLAY]);
  (0x1b00, [w_BALINESE;w_SIGN;w_ULU;w_RICEM]);
  (0x1b01, [w_BALINESE;w_SIGN;w_ULU;w_CANDRA]);
  (0x1b02, [w_BALINESE;w_SIGN;w_CECEK]);
  (0x1b03, [w_BALINESE;w_SIGN;w_SURANG]);
  (0x1b04, [w_BALINESE;w_SIGN;w_BISAH]);
  (0x1b05, [w_BALINESE;w_LETTER;w_AKARA]);
  (0x1b06, [w_BALINESE;w_LETTER;w_AKARA;w_TEDUNG]);
  (0x1b07, [w_BALINESE;w_LETTER;w_IKARA]);
  (0x1b08, [w_BALINESE;w_LETTER;w_IKARA;w_TEDUNG]);
  (0x1b09, [w_BALINESE;w_LETTER;w_UKARA]);
  (0x1b0a, [w_BALINESE;w_LETTER;w_UKARA;w_TEDUNG]);
  (0x1b0b, [w_BALINESE;w_LETTER;w_RA;w_REPA]);
  (0x1b0c, [w_BALINESE;w_LETTER;w_RA;w_REPA;w_TEDUNG]);
  (0x1b0d, [w_BALINESE;w_LETTER;w_LA;w_LENGA]);
  (0x1b0e, [w_BALINESE;w_LETTER;w_LA;w_LENGA;w_TEDUNG]);
  (0x1b0f, [w_BALINESE;w_LETTER;w_EKARA]);
  (0x1b10, [w_BALINESE;w_LETTER;w_AIKARA]);
  (0x1b11, [w_BALINESE;w_LETTER;w_OKARA]);
  (0x1b12, [w_BALINESE;w_LETTER;w_OKARA;w_TEDUNG]);
  (0x1b13, [w_BALINESE;w_LETTER;w_KA]);
  (0x1b14, [w_BALINESE;w_LETTER;w_KA;w_MAHAPRANA]);
  (0x1b15, [w_BALINESE;w_LETTER;w_GA]);
  (0x1b16, [w_BALINESE;w_LETTER;w_GA;w_GORA]);
  (0x1b17, [w_BALINESE;w_LETTER;w_NGA]);
  (0x1b18, [w_BALINESE;w_LETTER;w_CA]);
  (0x1b19, [w_BALINESE;w_LETTER;w_CA;w_LACA]);
  (0x1b1a, [w_BALINESE;w_LETTER;w_JA]);
  (0x1b1b, [w_BALINESE;w_LETTER;w_JA;w_JERA]);
  (0x1b1c, [w_BALINESE;w_LETTER;w_NYA]);
  (0x1b1d, [w_BALINESE;w_LETTER;w_TA;w_LATIK]);
  (0x1b1e, [w_BALINESE;w_LETTER;w_TA;w_MURDA;w_MAHAPRANA]);
  (0x1b1f, [w_BALINESE;w_LETTER;w_DA;w_MURDA;w_ALPAPRANA]);
  (0x1b20, [w_BALINESE;w_LETTER;w_DA;w_MURDA;w_MAHAPRANA]);
  (0x1b21, [w_BALINESE;w_LETTER;w_NA;w_RAMBAT]);
  (0x1b22, [w_BALINESE;w_LETTER;w_TA]);
  (0x1b23, [w_BALINESE;w_LETTER;w_TA;w_TAWA]);
  (0x1b24, [w_BALINESE;w_LETTER;w_DA]);
  (0x1b25, [w_BALINESE;w_LETTER;w_DA;w_MADU]);
  (0x1b26, [w_BALINESE;w_LETTER;w_NA]);
  (0x1b27, [w_BALINESE;w_LETTER;w_PA]);
  (0x1b28, [w_BALINESE;w_LETTER;w_PA;w_KAPAL]);
  (0x1b29, [w_BALINESE;w_LETTER;w_BA]);
  (0x1b2a, [w_BALINESE;w_LETTER;w_BA;w_KEMBANG]);
  (0x1b2b, [w_BALINESE;w_LETTER;w_MA]);
  (0x1b2c, [w_BALINESE;w_LETTER;w_YA]);
  (0x1b2d, [w_BALINESE;w_LETTER;w_RA]);
  (0x1b2e, [w_BALINESE;w_LETTER;w_LA])].

Definition NAMES_15 : list (N * (list str)) := [
  (0x1b2f, [w_BALINESE;w_LETTER;w_WA]);
  (0x1b30, [w_BALINESE;w_LETTER;w_SA;w_SAGA]);
  (0x1b31, [w_BALINESE;w_LETTER;w_SA;w_SAPA]);
  (0x1b32, [w_BALINESE;w_LETTER;w_SA]);
  (0x1b33, [w_BALINESE;w_LETTER;w_HA]);
  (0x1b34, [w_BALINESE;w_SIGN;w_REREKAN]);
  (0x1b35, [w_BALINESE;w_VOWEL;w_SIGN;w_TEDUNG]);
  (0x1b36, [w_BALINESE;w_VOWEL;w_SIGN;w_ULU]);
  (0x1b37, [w_BALINESE;w_VOWEL;w_SIGN;w_ULU;w_SARI]);
  (0x1b38, [w_BALINESE;w_VOWEL;w_SIGN;w_SUKU]);
  (0x1b39, [w_BALINESE;w_VOWEL;w_SIGN;w_SUKU;w_ILUT]);
  (0x1b3a, [w_BALINESE;w_VOWEL;w_SIGN;w_RA;w_REPA]);
  (0x1b3b, [w_BALINESE;w_VOWEL;w_SIGN;w_RA;w_REPA;w_TEDUNG]);
  (0x1b3c, [w_BALINESE;w_VOWEL;w_SIGN;w_LA;w_LENGA]);
  (0x1b3d, [w_BALINESE;w_VOWEL;w_SIGN;w_LA;w_LENGA;w_TEDUNG]);
  (0x1b3e, [w_BALINESE;w_VOWEL;w_SIGN;w_TALING]);
  (0x1b3f, [w_BALINESE;w_VOWEL;w_SIGN;w_TALING;w_REPA]);
  (0x1b40, [w_BALINESE;w_VOWEL;w_SIGN;w_TALING;w_TEDUNG]);
  (0x1b41, [w_BALINESE;w_VOWEL;w_SIGN;w_TALING;w_REPA;w_TEDUNG]);
  (0x1b42, [w_BALINESE;w_VOWEL;w_SIGN;w_PEPET]);
  (0x1b43, [w_BALINESE;w_VOWEL;w_SIGN;w_PEPET;w_TEDUNG]);
  (0x1b44, [w_BALINESE;w_ADEG;w_ADEG]);
  (0x1b45, [w_BALINESE;w_LETTER;w_KAF;w_SASAK]);
  (0x1b46, [w_BALINESE;w_LETTER;w_KHOT;w_SASAK]);
  (0x1b47, [w_BALINESE;w_LETTER;w_TZIR;w_SASAK]);
  (0x1b48, [w_BALINESE;w_LETTER;w_EF;w_SASAK]);
  (0x1b49, [w_BALINESE;w_LETTER;w_VE;w_SASAK]);
  (0x1b4a, [w_BALINESE;w_LETTER;w_ZAL;w_SASAK]);
  (0x1b4b, [w_BALINESE;w_LETTER;w_ASYURA;w_SASAK]);
  (0x1b50, [w_BALINESE;w_DIGIT;w_ZERO]);
  (0x1b51, [w_BALINESE;w_DIGIT;w_ONE]);
  (0x1b52, [w_BALINESE;w_DIGIT;w_TWO]);
  (0x1b53, [w_BALINESE;w_DIGIT;w_THREE]);
  (0x1b54, [w_BALINESE;w_DIGIT;w_FOUR]);
  (0x1b55, [w_BALINESE;w_DIGIT;w_FIVE]);
  (0x1b56, [w_BALINESE;w_DIGIT;w_SIX]);
  (0x1b57, [w_BALINESE;w_DIGIT;w_SEVEN]);
  (0x1b58, [w_BALINESE;w_DIGIT;w_EIGHT]);
  (0x1b59, [w_BALINESE;w_DIGIT;w_NINE]);
  (0x1b5a, [w_BALINESE;w_PANTI]);
  (0x1b5b, [w_BALINESE;w_PAMADA]);
  (0x1b5c, [w_BALINESE;w_WINDU]);
  (0x1b5d, [w_BALINESE;w_CARIK;w_PAMUNGKAH]);
  (0x1b5e, [w_BALINESE;w_CARIK;w_SIKI]);
  (0x1b5f, [w_BALINESE;w_CARIK;w_PAREREN]);
  (0x1b60, [w_BALINESE;w_PAMENENG]);
  (0x1b61, [w_BALINESE;w_MUSICAL;w_SYMBOL;w_DONG]);
  (0x1b62, [w_BALINESE;w_MUSICAL;w_SYMBOL;w_DENG]);
  (0x1b63, [w_BALINESE;w_MUSICAL;w_SYMBOL;w_DUNG]);
  (0x1b64, [w_BALINESE;w_MUSICAL;w_SYMBOL;w_DANG]);
  (0x1b65, [w_BALINESE;w_MUSICAL;w_SYMBOL;w_DANG;w_SURANG]);
  (0x1b66, [w_BALINESE;w_MUSICAL;w_SYMBOL;w_DING]);
  (0x1b67, [w_BALINESE;w_MUSICAL;w_SYMBOL;w_DAENG]);
  (0x1b68, [w_BALINESE;w_MUSICAL;w_SYMBOL;w_DEUNG]);
  (0x1b69, [w_BALINESE;w_MUSICAL;w_SYMBOL;w_DAING]);
  (0x1b6a, [w_BALINESE;w_MUSICAL;w_SYMBOL;w_DANG;w_GEDE]);
  (0x1b6b, [w_BALINESE;w_MUSICAL;w_SYMBOL;w_COMBINING;w_TEGEH]);
  (0x1b6c, [w_BALINESE;w_MUSICAL;w_SYMBOL;w_COMBINING;w_ENDEP]);
  (0x1b6d, [w_BALINESE;w_MUSICAL;w_SYMBOL;w_COMBINING;w_KEMPUL]);
  (0x1b6e, [w_BALINESE;w_MUSICAL;w_SYMBOL;w_COMBINING;w_KEMPLI]);
  (0x1b6f, [w_BALINESE;w_MUSICAL;w_SYMBOL;w_COMBINING;w_JEGOGAN]);
  (0x1b70, [w_BALINESE;w_MUSICAL;w_SYMBOL;w_COMBINING;w_KEMPUL;w_WITH;w_JEGOGAN]);
  (0x1b71, [w_BALINESE;w_MUSICAL;w_SYMBOL;w_COMBINING;w_KEMPLI;w_WITH;w_JEGOGAN]);
  (0x1b72, [w_BALINESE;w_MUSICAL;w_SYMBOL;w_COMBINING;w_BENDE]);
  (0x1b73, [w_BALINESE;w_MUSICAL;w_SYMBOL;w_COMBINING;w_GONG]);
  (0x1b74, [w_BALINESE;w_MUSICAL;w_SYMBOL;w_RIGHT_HAND;w_OPEN;w_DUG]);
  (0x1b75, [w_BALINESE;w_MUSICAL;w_SYMBOL;w_RIGHT_HAND;w_OPEN;w_DAG]);
  (0x1b76, [w_BALINESE;w_MUSICAL;w_SYMBOL;w_RIGHT_HAND;w_CLOSED;w_TUK]);
  (0x1b77, [w_BALINESE;w_MUSICAL;w_SYMBOL;w_RIGHT_HAND;w_CLOSED;w_TAK]);
  (0x1b78, [w_BALINESE;w_MUSICAL;w_SYMBOL;w_LEFT_HAND;w_OPEN;w_PANG]);
  (0x1b79, [w_BALINESE;w_MUSICAL;w_SYMBOL;w_LEFT_HAND;w_OPEN;w_PUNG]);
  (0x1b7a, [w_BALINESE;w_MUSICAL;w_SYMBOL;w_LEFT_HAND;w_CLOSED;w_PLAK]);
  (0x1b7b, [w_BALINESE;w_MUSICAL;w_SYMBOL;w_LEFT_HAND;w_CLOSED;w_PLUK]);
  (0x1b7c, [w_BALINESE;w_MUSICAL;w_SYMBOL;w_LEFT_HAND;w_OPEN;w_PING]);
  (0x1b80, [w_SUNDANESE;w_SIGN;w_PANYECEK]);
  (0x1b81, [w_SUNDANESE;w_SIGN;w_PANGLAYAR]);
  (0x1b82, [w_SUNDANESE;w_SIGN;w_PANGWISAD]);
  (0x1b83, [w_SUNDANESE;w_LETTER;w_A]);
  (0x1b84, [w_SUNDANESE;w_LETTER;w_I]);
  (0x1b85, [w_SUNDANESE;w_LETTER;w_U]);
  (0x1b86, [w_SUNDANESE;w_LETTER;w_AE]);
  (0x1b87, [w_SUNDANESE;w_LETTER;w_O]);
  (0x1b88, [w_SUNDANESE;w_LETTER;w_E]);
  (0x1b89, [w_SUNDANESE;w_LETTER;w_EU]);
  (0x1b8a, [w_SUNDANESE;w_LETTER;w_KA]);
  (0x1b8b, [w_SUNDANESE;w_LETTER;w_QA]);
  (0x1b8c, [w_SUNDANESE;w_LETTER;w_GA]);
  (0x1b8d, [w_SUNDANESE;w_LETTER;w_NGA]);
  (0x1b8e, [w_SUNDANESE;w_LETTER;w_CA]);
  (0x1b8f, [w_SUNDANESE;w_LETTER;w_JA]);
  (0x1b90, [w_SUNDANESE;w_LETTER;w_ZA]);
  (0x1b91, [w_SUNDANESE;w_LETTER;w_NYA]);
  (0x1b92, [w_SUNDANESE;w_LETTER;w_TA]);
  (0x1b93, [w_SUNDANESE;w_LETTER;w_DA]);
  (0x1b94, [w_SUNDANESE;w_LETTER;w_NA]);
  (0x1b95, [w_SUNDANESE;w_LETTER;w_PA]);
  (0x1b96, [w_SUNDANESE;w_LETTER;w_FA]);
  (0x1b97, [w_SUNDANESE;w_LETTER;w_VA]);
  (0x1b98, [w_SUNDANESE;w_LETTER;w_BA]);
  (0x1b99, [w_SUNDANESE;w_LETTER;w_MA]);
  (0x1b9a, [w_SUNDANESE;w_LETTER;w_YA]);
  (0x1b9b, [w_SUNDANESE;w_LETTER;w_RA]);
  (0x1b9c, [w_SUNDANESE;w_LETTER;w_LA]);
  (0x1b9d, [w_SUNDANESE;w_LETTER;w_WA]);
  (0x1b9e, [w_SUNDANESE;w_LETTER;w_SA]);
  (0x1b9f, [w_SUNDANESE;w_LETTER;w_XA]);
  (0x1ba0, [w_SUNDANESE;w_LETTER;w_HA]);
  (0x1ba1, [w_SUNDANESE;w_CONSONANT;w_SIGN;w_PAMINGKAL]);
  (0x1ba2, [w_SUNDANESE;w_CONSONANT;w_SIGN;w_PANYAKRA]);
  (0x1ba3, [w_SUNDANESE;w_CONSONANT;w_SIGN;w_PANYIKU]);
  (0x1ba4, [w_SUNDANESE;w_VOWEL;w_SIGN;w_PANGHULU]);
  (0x1ba5, [w_SUNDANESE;w_VOWEL;w_SIGN;w_PANYUKU]);
  (0x1ba6, [w_SUNDANESE;w_VOWEL;w_SIGN;w_PANAELAENG]);
  (0x1ba7, [w_SUNDANESE;w_VOWEL;w_SIGN;w_PANOLONG]);
  (0x1ba8, [w_SUNDANESE;w_VOWEL;w_SIGN;w_PAMEPET]);
  (0x1ba9, [w_SUNDANESE;w_VOWEL;w_SIGN;w_PANEULEUNG]);
  (0x1baa, [w_SUNDANESE;w_SIGN;w_PAMAAEH]);
  (0x1bab, [w_SUNDANESE;w_SIGN;w_VIRAMA]);
  (0x1bac, [w_SUNDANESE;w_CONSONANT;w_SIGN;w_PASANGAN;w_MA]);
  (0x1bad, [w_SUNDANESE;w_CONSONANT;w_SIGN;w_PASANGAN;w_WA]);
  (0x1bae, [w_SUNDANESE;w_LETTER;w_KHA]);
  (0x1baf, [w_SUNDANESE;w_LETTER;w_SYA]);
  (0x1bb0, [w_SUNDANESE;w_DIGIT;w_ZERO]);
  (0x1bb1, [w_SUNDANESE;w_DIGIT;w_ONE]);
  (0x1bb2, [w_SUNDANESE;w_DIGIT;w_TWO]);
  (0x1bb3, [w_SUNDANESE;w_DIGIT;w_THREE]);
  (0x1bb4, [w_SUNDANESE;w_DIGIT;w_FOUR]);
  (0x1bb5, [w_SUNDANESE;w_DIGIT;w_FIVE]);
  (0x1bb6, [w_SUNDANESE;w_DIGIT;w_SIX]);
  (0x1bb7, [w_SUNDANESE;w_DIGIT;w_SEVEN]);
  (0x1bb8, [w_SUNDANESE;w_DIGIT;w_EIGHT]);
  (0x1bb9, [w_SUNDANESE;w_DIGIT;w_NINE]);
  (0x1bba, [w_SUNDANESE;w_AVAGRAHA]);
  (0x1bbb, [w_SUNDANESE;w_LETTER;w_REU]);
  (0x1bbc, [w_SUNDANESE;w_LETTER;w_LEU]);
  (0x1bbd, [w_SUNDANESE;w_LETTER;w_BHA]);
  (0x1bbe, [w_SUNDANESE;w_LETTER;w_FINAL;w_K]);
  (0x1bbf, [w_SUNDANESE;w_LETTER;w_FINAL;w_M]);
  (0x1bc0, [w_BATAK;w_LETTER;w_A]);
  (0x1bc1, [w_BATAK;w_LETTER;w_SIMALUNGUN;w_A]);
  (0x1bc2, [w_BATAK;w_LETTER;w_HA]);
  (0x1bc3, [w_BATAK;w_LETTER;w_SIMALUNGUN;w_HA]);
  (0x1bc4, [w_BATAK;w_LETTER;w_MANDAILING;w_HA]);
  (0x1bc5, [w_BATAK;w_LETTER;w_BA]);
  (0x1bc6, [w_BATAK;w_LETTER;w_KARO;w_BA]);
  (0x1bc7, [w_BATAK;w_LETTER;w_PA]);
  (0x1bc8, [w_BATAK;w_LETTER;w_SIMALUNGUN;w_PA]);
  (0x1bc9, [w_BATAK;w_LETTER;w_NA]);
  (0x1bca, [w_BATAK;w_LETTER;w_MANDAILING;w_NA]);
  (0x1bcb, [w_BATAK;w_LETTER;w_WA]);
  (0x1bcc, [w_BATAK;w_LETTER;w_SIMALUNGUN;w_WA]);
  (0x1bcd, [w_BATAK;w_LETTER;w_PAKPAK;w_WA]);
  (0x1bce, [w_BATAK;w_LETTER;w_GA]);
  (0x1bcf, [w_BATAK;w_LETTER;w_SIMALUNGUN;w_GA]);
  (0x1bd0, [w_BATAK;w_LETTER;w_JA]);
  (0x1bd1, [w_BATAK;w_LETTER;w_DA]);
  (0x1bd2, [w_BATAK;w_LETTER;w_RA]);
  (0x1bd3, [w_BATAK;w_LETTER;w_SIMALUNGUN;w_RA]);
  (0x1bd4, [w_BATAK;w_LETTER;w_MA]);
  (0x1bd5, [w_BATAK;w_LETTER;w_SIMALUNGUN;w_MA]);
  (0x1bd6, [w_BATAK;w_LETTER;w_SOUTHERN;w_TA]);
  (0x1bd7, [w_BATAK;w_LETTER;w_NORTHERN;w_TA]);
  (0x1bd8, [w_BATAK;w_LETTER;w_SA]);
  (0x1bd9, [w_BATAK;w_LETTER;w_SIMALUNGUN;w_SA]);
  (0x1bda, [w_BATAK;w_LETTER;w_MANDAILING;w_SA]);
  (0x1bdb, [w_BATAK;w_LETTER;w_YA]);
  (0x1bdc, [w_BATAK;w_LETTER;w_SIMALUNGUN;w_YA]);
  (0x1bdd, [w_BATAK;w_LETTER;w_NGA]);
  (0x1bde, [w_BATAK;w_LETTER;w_LA]);
  (0x1bdf, [w_BATAK;w_LETTER;w_SIMALUNGUN;w_LA]);
  (0x1be0, [w_BATAK;w_LETTER;w_NYA]);
  (0x1be1, [w_BATAK;w_LETTER;w_CA]);
  (0x1be2, [w_BATAK;w_LETTER;w_NDA]);
  (0x1be3, [w_BATAK;w_LETTER;w_MBA]);
  (0x1be4, [w_BATAK;w_LETTER;w_I]);
  (0x1be5, [w_BATAK;w_LETTER;w_U]);
  (0x1be6, [w_BATAK;w_SIGN;w_TOMPI]);
  (0x1be7, [w_BATAK;w_VOWEL;w_SIGN;w_E]);
  (0x1be8, [w_BATAK;w_VOWEL;w_SIGN;w_PAKPAK;w_E]);
  (0x1be9, [w_BATAK;w_VOWEL;w_SIGN;w_EE]);
  (0x1bea, [w_BATAK;w_VOWEL;w_SIGN;w_I]);
  (0x1beb, [w_BATAK;w_VOWEL;w_SIGN;w_KARO;w_I]);
  (0x1bec, [w_BATAK;w_VOWEL;w_SIGN;w_O]);
  (0x1bed, [w_BATAK;w_VOWEL;w_SIGN;w_KARO;w_O]);
  (0x1bee, [w_BATAK;w_VOWEL;w_SIGN;w_U]);
  (0x1bef, [w_BATAK;w_VOWEL;w_SIGN;w_U;w_FOR;w_SIMALUNGUN;w_SA]);
  (0x1bf0, [w_BATAK;w_CONSONANT;w_SIGN;w_NG]);
  (0x1bf1, [w_BATAK;w_CONSONANT;w_SIGN;w_H]);
  (0x1bf2, [w_BATAK;w_PANGOLAT]);
  (0x1bf3, [w_BATAK;w_PANONGONAN]);
  (0x1bfc, [w_BATAK;w_SYMBOL;w_BINDU;w_NA;w_METEK]);
  (0x1bfd, [w_BATAK;w_SYMBOL;w_BINDU;w_PINARBORAS]);
  (0x1bfe, [w_BATAK;w_SYMBOL;w_BINDU;w_JUDUL]);
  (0x1bff, [w_BATAK;w_SYMBOL;w_BINDU;w_PANGOLAT]);
  (0x1c00, [w_LEPCHA;w_LETTER;w_KA]);
  (0x1c01, [w_LEPCHA;w_LETTER;w_KLA]);
  (0x1c02, [w_LEPCHA;w_LETTER;w_KHA]);
  (0x1c03, [w_LEPCHA;w_LETTER;w_GA]);
  (0x1c04, [w_LEPCHA;w_LETTER;w_GLA]);
  (0x1c05, [w_LEPCHA;w_LETTER;w_NGA]);
  (0x1c06, [w_LEPCHA;w_LETTER;w_CA]);
  (0x1c07, [w_LEPCHA;w_LETTER;w_CHA]);
  (0x1c08, [w_LEPCHA;w_LETTER;w_JA]);
  (0x1c09, [w_LEPCHA;w_LETTER;w_NYA]);
  (0x1c0a, [w_LEPCHA;w_LETTER;w_TA]);
  (0x1c0b, [w_LEPCHA;w_LETTER;w_THA]);
  (0x1c0c, [w_LEPCHA;w_LETTER;w_DA]);
  (0x1c0d, [w_LEPCHA;w_LETTER;w_NA]);
  (0x1c0e, [w_LEPCHA;w_LETTER;w_PA]);
  (0x1c0f, [w_LEPCHA;w_LETTER;w_PLA]);
  (0x1c10, [w_LEPCHA;w_LETTER;w_PHA]);
  (0x1c11, [w_LEPCHA;w_LETTER;w_FA]);
  (0x1c12, [w_LEPCHA;w_LETTER;w_FLA]);
  (0x1c13, [w_LEPCHA;w_LETTER;w_BA]);
  (0x1c14, [w_LEPCHA;w_LETTER;w_BLA]);
  (0x1c15, [w_LEPCHA;w_LETTER;w_MA]);
  (0x1c16, [w_LEPCHA;w_LETTER;w_MLA]);
  (0x1c17, [w_LEPCHA;w_LETTER;w_TSA]);
  (0x1c18, [w_LEPCHA;w_LETTER;w_TSHA]);
  (0x1c19, [w_LEPCHA;w_LETTER;w_DZA]);
  (0x1c1a, [w_LEPCHA;w_LETTER;w_YA]);
  (0x1c1b, [w_LEPCHA;w_LETTER;w_RA]);
  (0x1c1c, [w_LEPCHA;w_LETTER;w_LA]);
  (0x1c1d, [w_LEPCHA;w_LETTER;w_HA]);
  (0x1c1e, [w_LEPCHA;w_LETTER;w_HLA]);
  (0x1c1f, [w_LEPCHA;w_LETTER;w_VA]);
  (0x1c20, [w_LEPCHA;w_LETTER;w_SA]);
  (0x1c21, [w_LEPCHA;w_LETTER;w_SHA]);
  (0x1c22, [w_LEPCHA;w_LETTER;w_WA]);
  (0x1c23, [w_LEPCHA;w_LETTER;w_A]);
  (0x1c24, [w_LEPCHA;w_SUBJOINED;w_LETTER;w_YA]);
  (0x1c25, [w_LEPCHA;w_SUBJOINED;w_LETTER;w_RA]);
  (0x1c26, [w_LEPCHA;w_VOWEL;w_SIGN;w_AA]);
  (0x1c27, [w_LEPCHA;w_VOWEL;w_SIGN;w_I]);
  (0x1c28, [w_LEPCHA;w_VOWEL;w_SIGN;w_O]);
  (0x1c29, [w_LEPCHA;w_VOWEL;w_SIGN;w_OO]);
  (0x1c2a, [w_LEPCHA;w_VOWEL;w_SIGN;w_U]);
  (0x1c2b, [w_LEPCHA;w_VOWEL;w_SIGN;w_UU]);
  (0x1c2c, [w_LEPCHA;w_VOWEL;w_SIGN;w_E]);
  (0x1c2d, [w_LEPCHA;w_CONSONANT;w_SIGN;w_K]);
  (0x1c2e, [w_LEPCHA;w_CONSONANT;w_SIGN;w_M]);
  (0x1c2f, [w_LEPCHA;w_CONSONANT;w_SIGN;w_L]);
  (0x1c30, [w_LEPCHA;w_CONSONANT;w_SIGN;w_N]);
  (0x1c31, [w_LEPCHA;w_CONSONANT;w_SIGN;w_P]);
  (0x1c32, [w_LEPCHA;w_CONSONANT;w_SIGN;w_R]);
  (0x1c33, [w_LEPCHA;w_CONSONANT;w_SIGN;w_T]);
  (0x1c34, [w_LEPCHA;w_CONSONANT;w_SIGN;w_NYIN_DO]);
  (0x1c35, [w_LEPCHA;w_CONSONANT;w_SIGN;w_KANG]);
  (0x1c36, [w_LEPCHA;w_SIGN;w_RAN]);
  (0x1c37, [w_LEPCHA;w_SIGN;w_NUKTA]);
  (0x1c3b, [w_LEPCHA;w_PUNCTUATION;w_TA_ROL]);
  (0x1c3c, [w_LEPCHA;w_PUNCTUATION;w_NYET;w_THYOOM;w_TA_ROL]);
  (0x1c3d, [w_LEPCHA;w_PUNCTUATION;w_CER_WA]);
  (0x1c3e, [w_LEPCHA;w_PUNCTUATION;w_TSHOOK;w_CER_WA]);
  (0x1c3f, [w_LEPCHA;w_PUNCTUATION;w_TSHOOK]);
  (0x1c40, [w_LEPCHA;w_DIGIT;w_ZERO]);
  (0x1c41, [w_LEPCHA;w_DIGIT;w_ONE]);
  (0x1c42, [w_LEPCHA;w_DIGIT;w_TWO]);
  (0x1c43, [w_LEPCHA;w_DIGIT;w_THREE]);
  (0x1c44, [w_LEPCHA;w_DIGIT;w_FOUR]);
  (0x1c45, [w_LEPCHA;w_DIGIT;w_FIVE]);
  (0x1c46, [w_LEPCHA;w_DIGIT;w_SIX]);
  (0x1c47, [w_LEPCHA;w_DIGIT;w_SEVEN]);
  (0x1c48, [w_LEPCHA;w_DIGIT;w_EIGHT]);
  (0x1c49, [w_LEPCHA;w_DIGIT;w_NINE]);
  (0x1c4d, [w_LEPCHA;w_LETTER;w_TTA]);
  (0x1c4e, [w_LEPCHA;w_LETTER;w_TTHA]);
  (0x1c4f, [w_LEPCHA;w_LETTER;w_DDA]);
  (0x1c50, [w_OL;w_CHIKI;w_DIGIT;w_ZERO]);
  (0x1c51, [w_OL;w_CHIKI;w_DIGIT;w_ONE]);
  (0x1c52, [w_OL;w_CHIKI;w_DIGIT;w_TWO]);
  (0x1c53, [w_OL;w_CHIKI;w_DIGIT;w_THREE]);
  (0x1c54, [w_OL;w_CHIKI;w_DIGIT;w_FOUR]);
  (0x1c55, [w_OL;w_CHIKI;w_DIGIT;w_FIVE]);
  (0x1c56, [w_OL;w_CHIKI;w_DIGIT;w_SIX]);
  (0x1c57, [w_OL;w_CHIKI;w_DIGIT;w_SEVEN]);
  (0x1c58, [w_OL;w_CHIKI;w_DIGIT;w_EIGHT]);
  (0x1c59, [w_OL;w_CHIKI;w_DIGIT;w_NINE]);
  (0x1c5a, [w_OL;w_CHIKI;w_LETTER;w_LA]);
  (0x1c5b, [w_OL;w_CHIKI;w_LETTER;w_AT]);
  (0x1c5c, [w_OL;w_CHIKI;w_LETTER;w_AG]);
  (0x1c5d, [w_OL;w_CHIKI;w_LETTER;w_ANG]);
  (0x1c5e, [w_OL;w_CHIKI;w_LETTER;w_AL]);
  (0x1c5f, [w_OL;w_CHIKI;w_LETTER;w_LAA]);
  (0x1c60, [w_OL;w_CHIKI;w_LETTER;w_AAK]);
  (0x1c61, [w_OL;w_CHIKI;w_LETTER;w_AAJ]);
  (0x1c62, [w_OL;w_CHIKI;w_LETTER;w_AAM]);
  (0x1c63, [w_OL;w_CHIKI;w_LETTER;w_AAW]);
  (0x1c64, [w_OL;w_CHIKI;w_LETTER;w_LI]);
  (0x1c65, [w_OL;w_CHIKI;w_LETTER;w_IS]);
  (0x1c66, [w_OL;w_CHIKI;w_LETTER;w_IH]);
  (0x1c67, [w_OL;w_CHIKI;w_LETTER;w_INY]);
  (0x1c68, [w_OL;w_CHIKI;w_LETTER;w_IR]);
  (0x1c69, [w_OL;w_CHIKI;w_LETTER;w_LU]);
  (0x1c6a, [w_OL;w_CHIKI;w_LETTER;w_UC]);
  (0x1c6b, [w_OL;w_CHIKI;w_LETTER;w_UD]);
  (0x1c6c, [w_OL;w_CHIKI;w_LETTER;w_UNN]);
  (0x1c6d, [w_OL;w_CHIKI;w_LETTER;w_UY]);
  (0x1c6e, [w_OL;w_CHIKI;w_LETTER;w_LE]);
  (0x1c6f, [w_OL;w_CHIKI;w_LETTER;w_EP]);
  (0x1c70, [w_OL;w_CHIKI;w_LETTER;w_EDD]);
  (0x1c71, [w_OL;w_CHIKI;w_LETTER;w_EN]);
  (0x1c72, [w_OL;w_CHIKI;w_LETTER;w_ERR]);
  (0x1c73, [w_OL;w_CHIKI;w_LETTER;w_LO]);
  (0x1c74, [w_OL;w_CHIKI;w_LETTER;w_OTT]);
  (0x1c75, [w_OL;w_CHIKI;w_LETTER;w_OB]);
  (0x1c76, [w_OL;w_CHIKI;w_LETTER;w_OV]);
  (0x1c77, [w_OL;w_CHIKI;w_LETTER;w_OH]);
  (0x1c78, [w_OL;w_CHIKI;w_MU;w_TTUDDAG]);
  (0x1c79, [w_OL;w_CHIKI;w_GAAHLAA;w_TTUDDAAG]);
  (0x1c7a, [w_OL;w_CHIKI;w_MU_GAAHLAA;w_TTUDDAAG]);
  (0x1c7b, [w_OL;w_CHIKI;w_RELAA]);
  (0x1c7c, [w_OL;w_CHIKI;w_PHAARKAA]);
  (0x1c7d, [w_OL;w_CHIKI;w_AHAD]);
  (0x1c7e, [w_OL;w_CHIKI;w_PUNCTUATION;w_MUCAAD]);
  (0x1c7f, [w_OL;w_CHIKI;w_PUNCTUATION;w_DOUBLE;w_MUCAAD]);
  (0x1c80, [w_CYRILLIC;w_SMALL;w_LETTER;w_ROUNDED;w_VE]);
  (0x1c81, [w_CYRILLIC;w_SMALL;w_LETTER;w_LONG_LEGGED;w_DE]);
  (0x1c82, [w_CYRILLIC;w_SMALL;w_LETTER;w_NARROW;w_O]);
  (0x1c83, [w_CYRILLIC;w_SMALL;w_LETTER;w_WIDE;w_ES]);
  (0x1c84, [w_CYRILLIC;w_SMALL;w_LETTER;w_TALL;w_TE]);
  (0x1c85, [w_CYRILLIC;w_SMALL;w_LETTER;w_THREE_LEGGED;w_TE]);
  (0x1c86, [w_CYRILLIC;w_SMALL;w_LETTER;w_TALL;w_HARD;w_SIGN]);
  (0x1c87, [w_CYRILLIC;w_SMALL;w_LETTER;w_TALL;w_YAT]);
  (0x1c88, [w_CYRILLIC;w_SMALL;w_LETTER;w_UNBLENDED;w_UK]);
  (0x1cc0, [w_SUNDANESE;w_PUNCTUATION;w_BINDU;w_SURYA]);
  (0x1cc1, [w_SUNDANESE;w_PUNCTUATION;w_BINDU;w_PANGLONG]);
  (0x1cc2, [w_SUNDANESE;w_PUNCTUATION;w_BINDU;w_PURNAMA]);
  (0x1cc3, [w_SUNDANESE;w_PUNCTUATION;w_BINDU;w_CAKRA]);
  (0x1cc4, [w_SUNDANESE;w_PUNCTUATION;w_BINDU;w_LEU;w_SATANGA]);
  (0x1cc5, [w_SUNDANESE;w_PUNCTUATION;w_BINDU;w_KA;w_SATANGA]);
  (0x1cc6, [w_SUNDANESE;w_PUNCTUATION;w_BINDU;w_DA;w_SATANGA]);
  (0x1cc7, [w_SUNDANESE;w_PUNCTUATION;w_BINDU;w_BA;w_SATANGA]);
  (0x1cd0, [w_VEDIC;w_TONE;w_KARSHANA]);
  (0x1cd1, [w_VEDIC;w_TONE;w_SHARA]);
  (0x1cd2, [w_VEDIC;w_TONE;w_PRENKHA]);
  (0x1cd3, [w_VEDIC;w_SIGN;w_NIHSHVASA]);
  (0x1cd4, [w_VEDIC;w_SIGN;w_YAJURVEDIC;w_MIDLINE;w_SVARITA]);
  (0x1cd5, [w_VEDIC;w_TONE;w_YAJURVEDIC;w_AGGRAVATED;w_INDEPENDENT;w_SVARITA]);
  (0x1cd6, [w_VEDIC;w_TONE;w_YAJURVEDIC;w_INDEPENDENT;w_SVARITA]);
  (0x1cd7, [w_VEDIC;w_TONE;w_YAJURVEDIC;w_KATHAKA;w_INDEPENDENT;w_SVARITA]);
  (0x1cd8, [w_VEDIC;w_TONE;w_CANDRA;w_BELOW]);
  (0x1cd9, [w_VEDIC;w_TONE;w_YAJURVEDIC;w_KATHAKA;w_INDEPENDENT;w_SVARITA;w_SCHROEDER]);
  (0x1cda, [w_VEDIC;w_TONE;w_DOUBLE;w_SVARITA]);
  (0x1cdb, [w_VEDIC;w_TONE;w_TRIPLE;w_SVARITA]);
  (0x1cdc, [w_VEDIC;w_TONE;w_KATHAKA;w_ANUDATTA]);
  (0x1cdd, [w_VEDIC;w_TONE;w_DOT;w_BELOW]);
  (0x1cde, [w_VEDIC;w_TONE;w_TWO;w_DOTS;w_BELOW]);
  (0x1cdf, [w_VEDIC;w_TONE;w_THREE;w_DOTS;w_BELOW]);
  (0x1ce0, [w_VEDIC;w_TONE;w_RIGVEDIC;w_KASHMIRI;w_INDEPENDENT;w_SVARITA]);
  (0x1ce1, [w_VEDIC;w_TONE;w_ATHARVAVEDIC;w_INDEPENDENT;w_SVARITA]);
  (0x1ce2, [w_VEDIC;w_SIGN;w_VISARGA;w_SVARITA]);
  (0x1ce3, [w_VEDIC;w_SIGN;w_VISARGA;w_UDATTA]);
  (0x1ce4, [w_VEDIC;w_SIGN;w_REVERSED;w_VISARGA;w_UDATTA]);
  (0x1ce5, [w_VEDIC;w_SIGN;w_VISARGA;w_ANUDATTA]);
  (0x1ce6, [w_VEDIC;w_SIGN;w_REVERSED;w_VISARGA;w_ANUDATTA]);
  (0x1ce7, [w_VEDIC;w_SIGN;w_VISARGA;w_UDATTA;w_WITH;w_TAIL]);
  (0x1ce8, [w_VEDIC;w_SIGN;w_VISARGA;w_ANUDATTA;w_WITH;w_TAIL]);
  (0x1ce9, [w_VEDIC;w_SIGN;w_ANUSVARA;w_ANTARGOMUKHA]);
  (0x1cea, [w_VEDIC;w_SIGN;w_ANUSVARA;w_BAHIRGOMUKHA]);
  (0x1ceb, [w_VEDIC;w_SIGN;w_ANUSVARA;w_VAMAGOMUKHA]);
  (0x1cec, [w_VEDIC;w_SIGN;w_ANUSVARA;w_VAMAGOMUKHA;w_WITH;w_TAIL]);
  (0x1ced, [w_VEDIC;w_SIGN;w_TIRYAK]);
  (0x1cee, [w_VEDIC;w_SIGN;w_HEXIFORM;w_LONG;w_ANUSVARA]);
  (0x1cef, [w_VEDIC;w_SIGN;w_LONG;w_ANUSVARA]);
  (0x1cf0, [w_VEDIC;w_SIGN;w_RTHANG;w_LONG;w_ANUSVARA]);
  (0x1cf1, [w_VEDIC;w_SIGN;w_ANUSVARA;w_UBHAYATO;w_MUKHA]);
  (0x1cf2, [w_VEDIC;w_SIGN;w_ARDHAVISARGA]);
  (0x1cf3, [w_VEDIC;w_SIGN;w_ROTATED;w_ARDHAVISARGA]);
  (0x1cf4, [w_VEDIC;w_TONE;w_CANDRA;w_ABOVE]);
  (0x1cf5, [w_VEDIC;w_SIGN;w_JIHVAMULIYA]);
  (0x1cf6, [w_VEDIC;w_SIGN;w_UPADHMANIYA]);
  (0x1cf7, [w_VEDIC;w_SIGN;w_ATIKRAMA]);
  (0x1cf8, [w_VEDIC;w_TONE;w_RING;w_ABOVE]);
  (0x1cf9, [w_VEDIC;w_TONE;w_DOUBLE;w_RING;w_ABOVE]);
  (0x1d00, [w_LATIN;w_LETTER;w_SMALL;w_CAPITAL;w_A]);
  (0x1d01, [w_LATIN;w_LETTER;w_SMALL;w_CAPITAL;w_AE]);
  (0x1d02, [w_LATIN;w_SMALL;w_LETTER;w_TURNED;w_AE]);
  (0x1d03, [w_LATIN;w_LETTER;w_SMALL;w_CAPITAL;w_BARRED;w_B]);
  (0x1d04, [w_LATIN;w_LETTER;w_SMALL;w_CAPITAL;w_C]);
  (0x1d05, [w_LATIN;w_LETTER;w_SMALL;w_CAPITAL;w_D]);
  (0x1d06, [w_LATIN;w_LETTER;w_SMALL;w_CAPITAL;w_ETH]);
  (0x1d07, [w_LATIN;w_LETTER;w_SMALL;w_CAPITAL;w_E]);
  (0x1d08, [w_LATIN;w_SMALL;w_LETTER;w_TURNED;w_OPEN;w_E]);
  (0x1d09, [w_LATIN;w_SMALL;w_LETTER;w_TURNED;w_I]);
  (0x1d0a, [w_LATIN;w_LETTER;w_SMALL;w_CAPITAL;w_J]);
  (0x1d0b, [w_LATIN;w_LETTER;w_SMALL;w_CAPITAL;w_K]);
  (0x1d0c, [w_LATIN;w_LETTER;w_SMALL;w_CAPITAL;w_L;w_WITH;w_STROKE]);
  (0x1d0d, [w_LATIN;w_LETTER;w_SMALL;w_CAPITAL;w_M]);
  (0x1d0e, [w_LATIN;w_LETTER;w_SMALL;w_CAPITAL;w_REVERSED;w_N]);
  (0x1d0f, [w_LATIN;w_LETTER;w_SMALL;w_CAPITAL;w_O]);
  (0x1d10, [w_LATIN;w_LETTER;w_SMALL;w_CAPITAL;w_OPEN;w_O]);
  (0x1d11, [w_LATIN;w_SMALL;w_LETTER;w_SIDEWAYS;w_O]);
  (0x1d12, [w_LATIN;w_SMALL;w_LETTER;w_SIDEWAYS;w_OPEN;w_O]);
  (0x1d13, [w_LATIN;w_SMALL;w_LETTER;w_SIDEWAYS;w_O;w_WITH;w_STROKE]);
  (0x1d14, [w_LATIN;w_SMALL;w_LETTER;w_TURNED;w_OE]);
  (0x1d15, [w_LATIN;w_LETTER;w_SMALL;w_CAPITAL;w_OU]);
  (0x1d16, [w_LATIN;w_SMALL;w_LETTER;w_TOP;w_HALF;w_O]);
  (0x1d17, [w_LATIN;w_SMALL;w_LETTER;w_BOTTOM;w_HALF;w_O]);
  (0x1d18, [w_LATIN;w_LETTER;w_SMALL;w_CAPITAL;w_P])].

Definition NAMES_16 : list (N * (list str)) := [
  (0x1d19, [w_LATIN;w_LETTER;w_SMALL;w_CAPITAL;w_REVERSED;w_R]);
  (0x1d1a, [w_LATIN;w_LETTER;w_SMALL;w_CAPITAL;w_TURNED;w_R]);
  (0x1d1b, [w_LATIN;w_LETTER;w_SMALL;w_CAPITAL;w_T]);
  (0x1d1c, [w_LATIN;w_LETTER;w_SMALL;w_CAPITAL;w_U]);
  (0x1d1d, [w_LATIN;w_SMALL;w_LETTER;w_SIDEWAYS;w_U]);
  (0x1d1e, [w_LATIN;w_SMALL;w_LETTER;w_SIDEWAYS;w_DIAERESIZED;w_U]);
  (0x1d1f, [w_LATIN;w_SMALL;w_LETTER;w_SIDEWAYS;w_TURNED;w_M]);
  (0x1d20, [w_LATIN;w_LETTER;w_SMALL;w_CAPITAL;w_V]);
  (0x1d21, [w_LATIN;w_LETTER;w_SMALL;w_CAPITAL;w_W]);
  (0x1d22, [w_LATIN;w_LETTER;w_SMALL;w_CAPITAL;w_Z]);
  (0x1d23, [w_LATIN;w_LETTER;w_SMALL;w_CAPITAL;w_EZH]);
  (0x1d24, [w_LATIN;w_LETTER;w_VOICED;w_LARYNGEAL;w_SPIRANT]);
  (0x1d25, [w_LATIN;w_LETTER;w_AIN]);
  (0x1d26, [w_GREEK;w_LETTER;w_SMALL;w_CAPITAL;w_GAMMA]);
  (0x1d27, [w_GREEK;w_LETTER;w_SMALL;w_CAPITAL;w_LAMDA]);
  (0x1d28, [w_GREEK;w_LETTER;w_SMALL;w_CAPITAL;w_PI]);
  (0x1d29, [w_GREEK;w_LETTER;w_SMALL;w_CAPITAL;w_RHO]);
  (0x1d2a, [w_GREEK;w_LETTER;w_SMALL;w_CAPITAL;w_PSI]);
  (0x1d2b, [w_CYRILLIC;w_LETTER;w_SMALL;w_CAPITAL;w_EL]);
  (0x1d2c, [w_MODIFIER;w_LETTER;w_CAPITAL;w_A]);
  (0x1d2d, [w_MODIFIER;w_LETTER;w_CAPITAL;w_AE]);
  (0x1d2e, [w_MODIFIER;w_LETTER;w_CAPITAL;w_B]);
  (0x1d2f, [w_MODIFIER;w_LETTER;w_CAPITAL;w_BARRED;w_B]);
  (0x1d30, [w_MODIFIER;w_LETTER;w_CAPITAL;w_D]);
  (0x1d31, [w_MODIFIER;w_LETTER;w_CAPITAL;w_E]);
  (0x1d32, [w_MODIFIER;w_LETTER;w_CAPITAL;w_REVERSED;w_E]);
  (0x1d33, [w_MODIFIER;w_LETTER;w_CAPITAL;w_G]);
  (0x1d34, [w_MODIFIER;w_LETTER;w_CAPITAL;w_H]);
  (0x1d35, [w_MODIFIER;w_LETTER;w_CAPITAL;w_I]);
  (0x1d36, [w_MODIFIER;w_LETTER;w_CAPITAL;w_J]);
  (0x1d37, [w_MODIFIER;w_LETTER;w_CAPITAL;w_K]);
  (0x1d38, [w_MODIFIER;w_LETTER;w_CAPITAL;w_L]);
  (0x1d39, [w_MODIFIER;w_LETTER;w_CAPITAL;w_M]);
  (0x1d3a, [w_MODIFIER;w_LETTER;w_CAPITAL;w_N]);
  (0x1d3b, [w_MODIFIER;w_LETTER;w_CAPITAL;w_REVERSED;w_N]);
  (0x1d3c, [w_MODIFIER;w_LETTER;w_CAPITAL;w_O]);
  (0x1d3d, [w_MODIFIER;w_LETTER;w_CAPITAL;w_OU]);
  (0x1d3e, [w_MODIFIER;w_LETTER;w_CAPITAL;w_P]);
  (0x1d3f, [w_MODIFIER;w_LETTER;w_CAPITAL;w_R]);
  (0x1d40, [w_MODIFIER;w_LETTER;w_CAPITAL;w_T]);
  (0x1d41, [w_MODIFIER;w_LETTER;w_CAPITAL;w_U]);
  (0x1d42, [w_MODIFIER;w_LETTER;w_CAPITAL;w_W]);
  (0x1d43, [w_MODIFIER;w_LETTER;w_SMALL;w_A]);
  (0x1d44, [w_MODIFIER;w_LETTER;w_SMALL;w_TURNED;w_A]);
  (0x1d45, [w_MODIFIER;w_LETTER;w_SMALL;w_ALPHA]);
  (0x1d46, [w_MODIFIER;w_LETTER;w_SMALL;w_TURNED;w_AE]);
  (0x1d47, [w_MODIFIER;w_LETTER;w_SMALL;w_B]);
  (0x1d48, [w_MODIFIER;w_LETTER;w_SMALL;w_D]);
  (0x1d49, [w_MODIFIER;w_LETTER;w_SMALL;w_E]);
  (0x1d4a, [w_MODIFIER;w_LETTER;w_SMALL;w_SCHWA]);
  (0x1d4b, [w_MODIFIER;w_LETTER;w_SMALL;w_OPEN;w_E]);
  (0x1d4c, [w_MODIFIER;w_LETTER;w_SMALL;w_TURNED;w_OPEN;w_E]);
  (0x1d4d, [w_MODIFIER;w_LETTER;w_SMALL;w_G]);
  (0x1d4e, [w_MODIFIER;w_LETTER;w_SMALL;w_TURNED;w_I]);
  (0x1d4f, [w_MODIFIER;w_LETTER;w_SMALL;w_K]);
  (0x1d50, [w_MODIFIER;w_LETTER;w_SMALL;w_M]);
  (0x1d51, [w_MODIFIER;w_LETTER;w_SMALL;w_ENG]);
  (0x1d52, [w_MODIFIER;w_LETTER;w_SMALL;w_O]);
  (0x1d53, [w_MODIFIER;w_LETTER;w_SMALL;w_OPEN;w_O]);
  (0x1d54, [w_MODIFIER;w_LETTER;w_SMALL;w_TOP;w_HALF;w_O]);
  (0x1d55, [w_MODIFIER;w_LETTER;w_SMALL;w_BOTTOM;w_HALF;w_O]);
  (0x1d56, [w_MODIFIER;w_LETTER;w_SMALL;w_P]);
  (0x1d57, [w_MODIFIER;w_LETTER;w_SMALL;w_T]);
  (0x1d58, [w_MODIFIER;w_LETTER;w_SMALL;w_U]);
  (0x1d59, [w_MODIFIER;w_LETTER;w_SMALL;w_SIDEWAYS;w_U]);
  (0x1d5a, [w_MODIFIER;w_LETTER;w_SMALL;w_TURNED;w_M]);
  (0x1d5b, [w_MODIFIER;w_LETTER;w_SMALL;w_V]);
  (0x1d5c, [w_MODIFIER;w_LETTER;w_SMALL;w_AIN]);
  (0x1d5d, [w_MODIFIER;w_LETTER;w_SMALL;w_BETA]);
  (0x1d5e, [w_MODIFIER;w_LETTER;w_SMALL;w_GREEK;w_GAMMA]);
  (0x1d5f, [w_MODIFIER;w_LETTER;w_SMALL;w_DELTA]);
  (0x1d60, [w_MODIFIER;w_LETTER;w_SMALL;w_GREEK;w_PHI]);
  (0x1d61, [w_MODIFIER;w_LETTER;w_SMALL;w_CHI]);
  (0x1d62, [w_LATIN;w_SUBSCRIPT;w_SMALL;w_LETTER;w_I]);
  (0x1d63, [w_LATIN;w_SUBSCRIPT;w_SMALL;w_LETTER;w_R]);
  (0x1d64, [w_LATIN;w_SUBSCRIPT;w_SMALL;w_LETTER;w_U]);
  (0x1d65, [w_LATIN;w_SUBSCRIPT;w_SMALL;w_LETTER;w_V]);
  (0x1d66, [w_GREEK;w_SUBSCRIPT;w_SMALL;w_LETTER;w_BETA]);
  (0x1d67, [w_GREEK;w_SUBSCRIPT;w_SMALL;w_LETTER;w_GAMMA]);
  (0x1d68, [w_GREEK;w_SUBSCRIPT;w_SMALL;w_LETTER;w_RHO]);
  (0x1d69, [w_GREEK;w_SUBSCRIPT;w_SMALL;w_LETTER;w_PHI]);
  (0x1d6a, [w_GREEK;w_SUBSCRIPT;w_SMALL;w_LETTER;w_CHI]);
  (0x1d6b, [w_LATIN;w_SMALL;w_LETTER;w_UE]);
  (0x1d6c, [w_LATIN;w_SMALL;w_LETTER;w_B;w_WITH;w_MIDDLE;w_TILDE]);
  (0x1d6d, [w_LATIN;w_SMALL;w_LETTER;w_D;w_WITH;w_MIDDLE;w_TILDE]);
  (0x1d6e, [w_LATIN;w_SMALL;w_LETTER;w_F;w_WITH;w_MIDDLE;w_TILDE]);
  (0x1d6f, [w_LATIN;w_SMALL;w_LETTER;w_M;w_WITH;w_MIDDLE;w_TILDE]);
  (0x1d70, [w_LATIN;w_SMALL;w_LETTER;w_N;w_WITH;w_MIDDLE;w_TILDE]);
  (0x1d71, [w_LATIN;w_SMALL;w_LETTER;w_P;w_WITH;w_MIDDLE;w_TILDE]);
  (0x1d72, [w_LATIN;w_SMALL;w_LETTER;w_R;w_WITH;w_MIDDLE;w_TILDE]);
  (0x1d73, [w_LATIN;w_SMALL;w_LETTER;w_R;w_WITH;w_FISHHOOK;w_AND;w_MIDDLE;w_TILDE]);
  (0x1d74, [w_LATIN;w_SMALL;w_LETTER;w_S;w_WITH;w_MIDDLE;w_TILDE]);
  (0x1d75, [w_LATIN;w_SMALL;w_LETTER;w_T;w_WITH;w_MIDDLE;w_TILDE]);
  (0x1d76, [w_LATIN;w_SMALL;w_LETTER;w_Z;w_WITH;w_MIDDLE;w_TILDE]);
  (0x1d77, [w_LATIN;w_SMALL;w_LETTER;w_TURNED;w_G]);
  (0x1d78, [w_MODIFIER;w_LETTER;w_CYRILLIC;w_EN]);
  (0x1d79, [w_LATIN;w_SMALL;w_LETTER;w_INSULAR;w_G]);
  (0x1d7a, [w_LATIN;w_SMALL;w_LETTER;w_TH;w_WITH;w_STRIKETHROUGH]);
  (0x1d7b, [w_LATIN;w_SMALL;w_CAPITAL;w_LETTER;w_I;w_WITH;w_STROKE]);
  (0x1d7c, [w_LATIN;w_SMALL;w_LETTER;w_IOTA;w_WITH;w_STROKE]);
  (0x1d7d, [w_LATIN;w_SMALL;w_LETTER;w_P;w_WITH;w_STROKE]);
  (0x1d7e, [w_LATIN;w_SMALL;w_CAPITAL;w_LETTER;w_U;w_WITH;w_STROKE]);
  (0x1d7f, [w_LATIN;w_SMALL;w_LETTER;w_UPSILON;w_WITH;w_STROKE]);
  (0x1d80, [w_LATIN;w_SMALL;w_LETTER;w_B;w_WITH;w_PALATAL;w_HOOK]);
  (0x1d81, [w_LATIN;w_SMALL;w_LETTER;w_D;w_WITH;w_PALATAL;w_HOOK]);
  (0x1d82, [w_LATIN;w_SMALL;w_LETTER;w_F;w_WITH;w_PALATAL;w_HOOK]);
  (0x1d83, [w_LATIN;w_SMALL;w_LETTER;w_G;w_WITH;w_PALATAL;w_HOOK]);
  (0x1d84, [w_LATIN;w_SMALL;w_LETTER;w_K;w_WITH;w_PALATAL;w_HOOK]);
  (0x1d85, [w_LATIN;w_SMALL;w_LETTER;w_L;w_WITH;w_PALATAL;w_HOOK]);
  (0x1d86, [w_LATIN;w_SMALL;w_LETTER;w_M;w_WITH;w_PALATAL;w_HOOK]);
  (0x1d87, [w_LATIN;w_SMALL;w_LETTER;w_N;w_WITH;w_PALATAL;w_HOOK]);
  (0x1d88, [w_LATIN;w_SMALL;w_LETTER;w_P;w_WITH;w_PALATAL;w_HOOK]);
  (0x1d89, [w_LATIN;w_SMALL;w_LETTER;w_R;w_WITH;w_PALATAL;w_HOOK]);
  (0x1d8a, [w_LATIN;w_SMALL;w_LETTER;w_S;w_WITH;w_PALATAL;w_HOOK]);
  (0x1d8b, [w_LATIN;w_SMALL;w_LETTER;w_ESH;w_WITH;w_PALATAL;w_HOOK]);
  (0x1d8c, [w_LATIN;w_SMALL;w_LETTER;w_V;w_WITH;w_PALATAL;w_HOOK]);
  (0x1d8d, [w_LATIN;w_SMALL;w_LETTER;w_X;w_WITH;w_PALATAL;w_HOOK]);
  (0x1d8e, [w_LATIN;w_SMALL;w_LETTER;w_Z;w_WITH;w_PALATAL;w_HOOK]);
  (0x1d8f, [w_LATIN;w_SMALL;w_LETTER;w_A;w_WITH;w_RETROFLEX;w_HOOK]);
  (0x1d90, [w_LATIN;w_SMALL;w_LETTER;w_ALPHA;w_WITH;w_RETROFLEX;w_HOOK]);
  (0x1d91, [w_LATIN;w_SMALL;w_LETTER;w_D;w_WITH;w_HOOK;w_AND;w_TAIL]);
  (0x1d92, [w_LATIN;w_SMALL;w_LETTER;w_E;w_WITH;w_RETROFLEX;w_HOOK]);
  (0x1d93, [w_LATIN;w_SMALL;w_LETTER;w_OPEN;w_E;w_WITH;w_RETROFLEX;w_HOOK]);
  (0x1d94, [w_LATIN;w_SMALL;w_LETTER;w_REVERSED;w_OPEN;w_E;w_WITH;w_RETROFLEX;w_HOOK]);
  (0x1d95, [w_LATIN;w_SMALL;w_LETTER;w_SCHWA;w_WITH;w_RETROFLEX;w_HOOK]);
  (0x1d96, [w_LATIN;w_SMALL;w_LETTER;w_I;w_WITH;w_RETROFLEX;w_HOOK]);
  (0x1d97, [w_LATIN;w_SMALL;w_LETTER;w_OPEN;w_O;w_WITH;w_RETROFLEX;w_HOOK]);
  (0x1d98, [w_LATIN;w_SMALL;w_LETTER;w_ESH;w_WITH;w_RETROFLEX;w_HOOK]);
  (0x1d99, [w_LATIN;w_SMALL;w_LETTER;w_U;w_WITH;w_RETROFLEX;w_HOOK]);
  (0x1d9a, [w_LATIN;w_SMALL;w_LETTER;w_EZH;w_WITH;w_RETROFLEX;w_HOOK]);
  (0x1d9b, [w_MODIFIER;w_LETTER;w_SMALL;w_TURNED;w_ALPHA]);
  (0x1d9c, [w_MODIFIER;w_LETTER;w_SMALL;w_C]);
  (0x1d9d, [w_MODIFIER;w_LETTER;w_SMALL;w_C;w_WITH;w_CURL]);
  (0x1d9e, [w_MODIFIER;w_LETTER;w_SMALL;w_ETH]);
  (0x1d9f, [w_MODIFIER;w_LETTER;w_SMALL;w_REVERSED;w_OPEN;w_E]);
  (0x1da0, [w_MODIFIER;w_LETTER;w_SMALL;w_F]);
  (0x1da1, [w_MODIFIER;w_LETTER;w_SMALL;w_DOTLESS;w_J;w_WITH;w_STROKE]);
  (0x1da2, [w_MODIFIER;w_LETTER;w_SMALL;w_SCRIPT;w_G]);
  (0x1da3, [w_MODIFIER;w_LETTER;w_SMALL;w_TURNED;w_H]);
  (0x1da4, [w_MODIFIER;w_LETTER;w_SMALL;w_I;w_WITH;w_STROKE]);
  (0x1da5, [w_MODIFIER;w_LETTER;w_SMALL;w_IOTA]);
  (0x1da6, [w_MODIFIER;w_LETTER;w_SMALL;w_CAPITAL;w_I]);
  (0x1da7, [w_MODIFIER;w_LETTER;w_SMALL;w_CAPITAL;w_I;w_WITH;w_STROKE]);
  (0x1da8, [w_MODIFIER;w_LETTER;w_SMALL;w_J;w_WITH;w_CROSSED_TAIL]);
  (0x1da9, [w_MODIFIER;w_LETTER;w_SMALL;w_L;w_WITH;w_RETROFLEX;w_HOOK]);
  (0x1daa, [w_MODIFIER;w_LETTER;w_SMALL;w_L;w_WITH;w_PALATAL;w_HOOK]);
  (0x1dab, [w_MODIFIER;w_LETTER;w_SMALL;w_CAPITAL;w_L]);
  (0x1dac, [w_MODIFIER;w_LETTER;w_SMALL;w_M;w_WITH;w_HOOK]);
  (0x1dad, [w_MODIFIER;w_LETTER;w_SMALL;w_TURNED;w_M;w_WITH;w_LONG;w_LEG]);
  (0x1dae, [w_MODIFIER;w_LETTER;w_SMALL;w_N;w_WITH;w_LEFT;w_HOOK]);
  (0x1daf, [w_MODIFIER;w_LETTER;w_SMALL;w_N;w_WITH;w_RETROFLEX;w_HOOK]);
  (0x1db0, [w_MODIFIER;w_LETTER;w_SMALL;w_CAPITAL;w_N]);
  (0x1db1, [w_MODIFIER;w_LETTER;w_SMALL;w_BARRED;w_O]);
  (0x1db2, [w_MODIFIER;w_LETTER;w_SMALL;w_PHI]);
  (0x1db3, [w_MODIFIER;w_LETTER;w_SMALL;w_S;w_WITH;w_HOOK]);
  (0x1db4, [w_MODIFIER;w_LETTER;w_SMALL;w_ESH]);
  (0x1db5, [w_MODIFIER;w_LETTER;w_SMALL;w_T;w_WITH;w_PALATAL;w_HOOK]);
  (0x1db6, [w_MODIFIER;w_LETTER;w_SMALL;w_U;w_BAR]);
  (0x1db7, [w_MODIFIER;w_LETTER;w_SMALL;w_UPSILON]);
  (0x1db8, [w_MODIFIER;w_LETTER;w_SMALL;w_CAPITAL;w_U]);
  (0x1db9, [w_MODIFIER;w_LETTER;w_SMALL;w_V;w_WITH;w_HOOK]);
  (0x1dba, [w_MODIFIER;w_LETTER;w_SMALL;w_TURNED;w_V]);
  (0x1dbb, [w_MODIFIER;w_LETTER;w_SMALL;w_Z]);
  (0x1dbc, [w_MODIFIER;w_LETTER;w_SMALL;w_Z;w_WITH;w_RETROFLEX;w_HOOK]);
  (0x1dbd, [w_MODIFIER;w_LETTER;w_SMALL;w_Z;w_WITH;w_CURL]);
  (0x1dbe, [w_MODIFIER;w_LETTER;w_SMALL;w_EZH]);
  (0x1dbf, [w_MODIFIER;w_LETTER;w_SMALL;w_THETA]);
  (0x1dc0, [w_COMBINING;w_DOTTED;w_GRAVE;w_ACCENT]);
  (0x1dc1, [w_COMBINING;w_DOTTED;w_ACUTE;w_ACCENT]);
  (0x1dc2, [w_COMBINING;w_SNAKE;w_BELOW]);
  (0x1dc3, [w_COMBINING;w_SUSPENSION;w_MARK]);
  (0x1dc4, [w_COMBINING;w_MACRON_ACUTE]);
  (0x1dc5, [w_COMBINING;w_GRAVE_MACRON]);
  (0x1dc6, [w_COMBINING;w_MACRON_GRAVE]);
  (0x1dc7, [w_COMBINING;w_ACUTE_MACRON]);
  (0x1dc8, [w_COMBINING;w_GRAVE_ACUTE_GRAVE]);
  (0x1dc9, [w_COMBINING;w_ACUTE_GRAVE_ACUTE]);
  (0x1dca, [w_COMBINING;w_LATIN;w_SMALL;w_LETTER;w_R;w_BELOW]);
  (0x1dcb, [w_COMBINING;w_BREVE_MACRON]);
  (0x1dcc, [w_COMBINING;w_MACRON_BREVE]);
  (0x1dcd, [w_COMBINING;w_DOUBLE;w_CIRCUMFLEX;w_ABOVE]);
  (0x1dce, [w_COMBINING;w_OGONEK;w_ABOVE]);
  (0x1dcf, [w_COMBINING;w_ZIGZAG;w_BELOW]);
  (0x1dd0, [w_COMBINING;w_IS;w_BELOW]);
  (0x1dd1, [w_COMBINING;w_UR;w_ABOVE]);
  (0x1dd2, [w_COMBINING;w_US;w_ABOVE]);
  (0x1dd3, [w_COMBINING;w_LATIN;w_SMALL;w_LETTER;w_FLATTENED;w_OPEN;w_A;w_ABOVE]);
  (0x1dd4, [w_COMBINING;w_LATIN;w_SMALL;w_LETTER;w_AE]);
  (0x1dd5, [w_COMBINING;w_LATIN;w_SMALL;w_LETTER;w_AO]);
  (0x1dd6, [w_COMBINING;w_LATIN;w_SMALL;w_LETTER;w_AV]);
  (0x1dd7, [w_COMBINING;w_LATIN;w_SMALL;w_LETTER;w_C;w_CEDILLA]);
  (0x1dd8, [w_COMBINING;w_LATIN;w_SMALL;w_LETTER;w_INSULAR;w_D]);
  (0x1dd9, [w_COMBINING;w_LATIN;w_SMALL;w_LETTER;w_ETH]);
  (0x1dda, [w_COMBINING;w_LATIN;w_SMALL;w_LETTER;w_G]);
  (0x1ddb, [w_COMBINING;w_LATIN;w_LETTER;w_SMALL;w_CAPITAL;w_G]);
  (0x1ddc, [w_COMBINING;w_LATIN;w_SMALL;w_LETTER;w_K]);
  (0x1ddd, [w_COMBINING;w_LATIN;w_SMALL;w_LETTER;w_L]);
  (0x1dde, [w_COMBINING;w_LATIN;w_LETTER;w_SMALL;w_CAPITAL;w_L]);
  (0x1ddf, [w_COMBINING;w_LATIN;w_LETTER;w_SMALL;w_CAPITAL;w_M]);
  (0x1de0, [w_COMBINING;w_LATIN;w_SMALL;w_LETTER;w_N]);
  (0x1de1, [w_COMBINING;w_LATIN;w_LETTER;w_SMALL;w_CAPITAL;w_N]);
  (0x1de2, [w_COMBINING;w_LATIN;w_LETTER;w_SMALL;w_CAPITAL;w_R]);
  (0x1de3, [w_COMBINING;w_LATIN;w_SMALL;w_LETTER;w_R;w_ROTUNDA]);
  (0x1de4, [w_COMBINING;w_LATIN;w_SMALL;w_LETTER;w_S]);
  (0x1de5, [w_COMBINING;w_LATIN;w_SMALL;w_LETTER;w_LONG;w_S]);
  (0x1de6, [w_COMBINING;w_LATIN;w_SMALL;w_LETTER;w_Z]);
  (0x1de7, [w_COMBINING;w_LATIN;w_SMALL;w_LETTER;w_ALPHA]);
  (0x1de8, [w_COMBINING;w_LATIN;w_SMALL;w_LETTER;w_B]);
  (0x1de9, [w_COMBINING;w_LATIN;w_SMALL;w_LETTER;w_BETA]);
  (0x1dea, [w_COMBINING;w_LATIN;w_SMALL;w_LETTER;w_SCHWA]);
  (0x1deb, [w_COMBINING;w_LATIN;w_SMALL;w_LETTER;w_F]);
  (0x1dec, [w_COMBINING;w_LATIN;w_SMALL;w_LETTER;w_L;w_WITH;w_DOUBLE;w_MIDDLE;w_TILDE]);
  (0x1ded, [w_COMBINING;w_LATIN;w_SMALL;w_LETTER;w_O;w_WITH;w_LIGHT;w_CENTRALIZATION;w_STROKE]);
  (0x1dee, [w_COMBINING;w_LATIN;w_SMALL;w_LETTER;w_P]);
  (0x1def, [w_COMBINING;w_LATIN;w_SMALL;w_LETTER;w_ESH]);
  (0x1df0, [w_COMBINING;w_LATIN;w_SMALL;w_LETTER;w_U;w_WITH;w_LIGHT;w_CENTRALIZATION;w_STROKE]);
  (0x1df1, [w_COMBINING;w_LATIN;w_SMALL;w_LETTER;w_W]);
  (0x1df2, [w_COMBINING;w_LATIN;w_SMALL;w_LETTER;w_A;w_WITH;w_DIAERESIS]);
  (0x1df3, [w_COMBINING;w_LATIN;w_SMALL;w_LETTER;w_O;w_WITH;w_DIAERESIS]);
  (0x1df4, [w_COMBINING;w_LATIN;w_SMALL;w_LETTER;w_U;w_WITH;w_DIAERESIS]);
  (0x1df5, [w_COMBINING;w_UP;w_TACK;w_ABOVE]);
  (0x1df6, [w_COMBINING;w_KAVYKA;w_ABOVE;w_RIGHT]);
  (0x1df7, [w_COMBINING;w_KAVYKA;w_ABOVE;w_LEFT]);
  (0x1df8, [w_COMBINING;w_DOT;w_ABOVE;w_LEFT]);
  (0x1df9, [w_COMBINING;w_WIDE;w_INVERTED;w_BRIDGE;w_BELOW]);
  (0x1dfb, [w_COMBINING;w_DELETION;w_MARK]);
  (0x1dfc, [w_COMBINING;w_DOUBLE;w_INVERTED;w_BREVE;w_BELOW]);
  (0x1dfd, [w_COMBINING;w_ALMOST;w_EQUAL;w_TO;w_BELOW]);
  (0x1dfe, [w_COMBINING;w_LEFT;w_ARROWHEAD;w_ABOVE]);
  (0x1dff, [w_COMBINING;w_RIGHT;w_ARROWHEAD;w_AND;w_DOWN;w_ARROWHEAD;w_BELOW]);
  (0x1e00, [w_LATIN;w_CAPITAL;w_LETTER;w_A;w_WITH;w_RING;w_BELOW]);
  (0x1e01, [w_LATIN;w_SMALL;w_LETTER;w_A;w_WITH;w_RING;w_BELOW]);
  (0x1e02, [w_LATIN;w_CAPITAL;w_LETTER;w_B;w_WITH;w_DOT;w_ABOVE]);
  (0x1e03, [w_LATIN;w_SMALL;w_LETTER;w_B;w_WITH;w_DOT;w_ABOVE]);
  (0x1e04, [w_LATIN;w_CAPITAL;w_LETTER;w_B;w_WITH;w_DOT;w_BELOW]);
  (0x1e05, [w_LATIN;w_SMALL;w_LETTER;w_B;w_WITH;w_DOT;w_BELOW]);
  (0x1e06, [w_LATIN;w_CAPITAL;w_LETTER;w_B;w_WITH;w_LINE;w_BELOW]);
  (0x1e07, [w_LATIN;w_SMALL;w_LETTER;w_B;w_WITH;w_LINE;w_BELOW]);
  (0x1e08, [w_LATIN;w_CAPITAL;w_LETTER;w_C;w_WITH;w_CEDILLA;w_AND;w_ACUTE]);
  (0x1e09, [w_LATIN;w_SMALL;w_LETTER;w_C;w_WITH;w_CEDILLA;w_AND;w_ACUTE]);
  (0x1e0a, [w_LATIN;w_CAPITAL;w_LETTER;w_D;w_WITH;w_DOT;w_ABOVE]);
  (0x1e0b, [w_LATIN;w_SMALL;w_LETTER;w_D;w_WITH;w_DOT;w_ABOVE]);
  (0x1e0c, [w_LATIN;w_CAPITAL;w_LETTER;w_D;w_WITH;w_DOT;w_BELOW]);
  (0x1e0d, [w_LATIN;w_SMALL;w_LETTER;w_D;w_WITH;w_DOT;w_BELOW]);
  (0x1e0e, [w_LATIN;w_CAPITAL;w_LETTER;w_D;w_WITH;w_LINE;w_BELOW]);
  (0x1e0f, [w_LATIN;w_SMALL;w_LETTER;w_D;w_WITH;w_LINE;w_BELOW]);
  (0x1e10, [w_LATIN;w_CAPITAL;w_LETTER;w_D;w_WITH;w_CEDILLA]);
  (0x1e11, [w_LATIN;w_SMALL;w_LETTER;w_D;w_WITH;w_CEDILLA]);
  (0x1e12, [w_LATIN;w_CAPITAL;w_LETTER;w_D;w_WITH;w_CIRCUMFLEX;w_BELOW]);
  (0x1e13, [w_LATIN;w_SMALL;w_LETTER;w_D;w_WITH;w_CIRCUMFLEX;w_BELOW]);
  (0x1e14, [w_LATIN;w_CAPITAL;w_LETTER;w_E;w_WITH;w_MACRON;w_AND;w_GRAVE]);
  (0x1e15, [w_LATIN;w_SMALL;w_LETTER;w_E;w_WITH;w_MACRON;w_AND;w_GRAVE]);
  (0x1e16, [w_LATIN;w_CAPITAL;w_LETTER;w_E;w_WITH;w_MACRON;w_AND;w_ACUTE]);
  (0x1e17, [w_LATIN;w_SMALL;w_LETTER;w_E;w_WITH;w_MACRON;w_AND;w_ACUTE]);
  (0x1e18, [w_LATIN;w_CAPITAL;w_LETTER;w_E;w_WITH;w_CIRCUMFLEX;w_BELOW]);
  (0x1e19, [w_LATIN;w_SMALL;w_LETTER;w_E;w_WITH;w_CIRCUMFLEX;w_BELOW]);
  (0x1e1a, [w_LATIN;w_CAPITAL;w_LETTER;w_E;w_WITH;w_TILDE;w_BELOW]);
  (0x1e1b, [w_LATIN;w_SMALL;w_LETTER;w_E;w_WITH;w_TILDE;w_BELOW]);
  (0x1e1c, [w_LATIN;w_CAPITAL;w_LETTER;w_E;w_WITH;w_CEDILLA;w_AND;w_BREVE]);
  (0x1e1d, [w_LATIN;w_SMALL;w_LETTER;w_E;w_WITH;w_CEDILLA;w_AND;w_BREVE]);
  (0x1e1e, [w_LATIN;w_CAPITAL;w_LETTER;w_F;w_WITH;w_DOT;w_ABOVE]);
  (0x1e1f, [w_LATIN;w_SMALL;w_LETTER;w_F;w_WITH;w_DOT;w_ABOVE]);
  (0x1e20, [w_LATIN;w_CAPITAL;w_LETTER;w_G;w_WITH;w_MACRON]);
  (0x1e21, [w_LATIN;w_SMALL;w_LETTER;w_G;w_WITH;w_MACRON]);
  (0x1e22, [w_LATIN;w_CAPITAL;w_LETTER;w_H;w_WITH;w_DOT;w_ABOVE]);
  (0x1e23, [w_LATIN;w_SMALL;w_LETTER;w_H;w_WITH;w_DOT;w_ABOVE]);
  (0x1e24, [w_LATIN;w_CAPITAL;w_LETTER;w_H;w_WITH;w_DOT;w_BELOW]);
  (0x1e25, [w_LATIN;w_SMALL;w_LETTER;w_H;w_WITH;w_DOT;w_BELOW]);
  (0x1e26, [w_LATIN;w_CAPITAL;w_LETTER;w_H;w_WITH;w_DIAERESIS]);
  (0x1e27, [w_LATIN;w_SMALL;w_LETTER;w_H;w_WITH;w_DIAERESIS]);
  (0x1e28, [w_LATIN;w_CAPITAL;w_LETTER;w_H;w_WITH;w_CEDILLA]);
  (0x1e29, [w_LATIN;w_SMALL;w_LETTER;w_H;w_WITH;w_CEDILLA]);
  (0x1e2a, [w_LATIN;w_CAPITAL;w_LETTER;w_H;w_WITH;w_BREVE;w_BELOW]);
  (0x1e2b, [w_LATIN;w_SMALL;w_LETTER;w_H;w_WITH;w_BREVE;w_BELOW]);
  (0x1e2c, [w_LATIN;w_CAPITAL;w_LETTER;w_I;w_WITH;w_TILDE;w_BELOW]);
  (0x1e2d, [w_LATIN;w_SMALL;w_LETTER;w_I;w_WITH;w_TILDE;w_BELOW]);
  (0x1e2e, [w_LATIN;w_CAPITAL;w_LETTER;w_I;w_WITH;w_DIAERESIS;w_AND;w_ACUTE]);
  (0x1e2f, [w_LATIN;w_SMALL;w_LETTER;w_I;w_WITH;w_DIAERESIS;w_AND;w_ACUTE]);
  (0x1e30, [w_LATIN;w_CAPITAL;w_LETTER;w_K;w_WITH;w_ACUTE]);
  (0x1e31, [w_LATIN;w_SMALL;w_LETTER;w_K;w_WITH;w_ACUTE]);
  (0x1e32, [w_LATIN;w_CAPITAL;w_LETTER;w_K;w_WITH;w_DOT;w_BELOW]);
  (0x1e33, [w_LATIN;w_SMALL;w_LETTER;w_K;w_WITH;w_DOT;w_BELOW]);
  (0x1e34, [w_LATIN;w_CAPITAL;w_LETTER;w_K;w_WITH;w_LINE;w_BELOW]);
  (0x1e35, [w_LATIN;w_SMALL;w_LETTER;w_K;w_WITH;w_LINE;w_BELOW]);
  (0x1e36, [w_LATIN;w_CAPITAL;w_LETTER;w_L;w_WITH;w_DOT;w_BELOW]);
  (0x1e37, [w_LATIN;w_SMALL;w_LETTER;w_L;w_WITH;w_DOT;w_BELOW]);
  (0x1e38, [w_LATIN;w_CAPITAL;w_LETTER;w_L;w_WITH;w_DOT;w_BELOW;w_AND;w_MACRON]);
  (0x1e39, [w_LATIN;w_SMALL;w_LETTER;w_L;w_WITH;w_DOT;w_BELOW;w_AND;w_MACRON]);
  (0x1e3a, [w_LATIN;w_CAPITAL;w_LETTER;w_L;w_WITH;w_LINE;w_BELOW]);
  (0x1e3b, [w_LATIN;w_SMALL;w_LETTER;w_L;w_WITH;w_LINE;w_BELOW]);
  (0x1e3c, [w_LATIN;w_CAPITAL;w_LETTER;w_L;w_WITH;w_CIRCUMFLEX;w_BELOW]);
  (0x1e3d, [w_LATIN;w_SMALL;w_LETTER;w_L;w_WITH;w_CIRCUMFLEX;w_BELOW]);
  (0x1e3e, [w_LATIN;w_CAPITAL;w_LETTER;w_M;w_WITH;w_ACUTE]);
  (0x1e3f, [w_LATIN;w_SMALL;w_LETTER;w_M;w_WITH;w_ACUTE]);
  (0x1e40, [w_LATIN;w_CAPITAL;w_LETTER;w_M;w_WITH;w_DOT;w_ABOVE]);
  (0x1e41, [w_LATIN;w_SMALL;w_LETTER;w_M;w_WITH;w_DOT;w_ABOVE]);
  (0x1e42, [w_LATIN;w_CAPITAL;w_LETTER;w_M;w_WITH;w_DOT;w_BELOW]);
  (0x1e43, [w_LATIN;w_SMALL;w_LETTER;w_M;w_WITH;w_DOT;w_BELOW]);
  (0x1e44, [w_LATIN;w_CAPITAL;w_LETTER;w_N;w_WITH;w_DOT;w_ABOVE]);
  (0x1e45, [w_LATIN;w_SMALL;w_LETTER;w_N;w_WITH;w_DOT;w_ABOVE]);
  (0x1e46, [w_LATIN;w_CAPITAL;w_LETTER;w_N;w_WITH;w_DOT;w_BELOW]);
  (0x1e47, [w_LATIN;w_SMALL;w_LETTER;w_N;w_WITH;w_DOT;w_BELOW]);
  (0x1e48, [w_LATIN;w_CAPITAL;w_LETTER;w_N;w_WITH;w_LINE;w_BELOW]);
  (0x1e49, [w_LATIN;w_SMALL;w_LETTER;w_N;w_WITH;w_LINE;w_BELOW]);
  (0x1e4a, [w_LATIN;w_CAPITAL;w_LETTER;w_N;w_WITH;w_CIRCUMFLEX;w_BELOW]);
  (0x1e4b, [w_LATIN;w_SMALL;w_LETTER;w_N;w_WITH;w_CIRCUMFLEX;w_BELOW]);
  (0x1e4c, [w_LATIN;w_CAPITAL;w_LETTER;w_O;w_WITH;w_TILDE;w_AND;w_ACUTE]);
  (0x1e4d, [w_LATIN;w_SMALL;w_LETTER;w_O;w_WITH;w_TILDE;w_AND;w_ACUTE]);
  (0x1e4e, [w_LATIN;w_CAPITAL;w_LETTER;w_O;w_WITH;w_TILDE;w_AND;w_DIAERESIS]);
  (0x1e4f, [w_LATIN;w_SMALL;w_LETTER;w_O;w_WITH;w_TILDE;w_AND;w_DIAERESIS]);
  (0x1e50, [w_LATIN;w_CAPITAL;w_LETTER;w_O;w_WITH;w_MACRON;w_AND;w_GRAVE]);
  (0x1e51, [w_LATIN;w_SMALL;w_LETTER;w_O;w_WITH;w_MACRON;w_AND;w_GRAVE]);
  (0x1e52, [w_LATIN;w_CAPITAL;w_LETTER;w_O;w_WITH;w_MACRON;w_AND;w_ACUTE]);
  (0x1e53, [w_LATIN;w_SMALL;w_LETTER;w_O;w_WITH;w_MACRON;w_AND;w_ACUTE]);
  (0x1e54, [w_LATIN;w_CAPITAL;w_LETTER;w_P;w_WITH;w_ACUTE]);
  (0x1e55, [w_LATIN;w_SMALL;w_LETTER;w_P;w_WITH;w_ACUTE]);
  (0x1e56, [w_LATIN;w_CAPITAL;w_LETTER;w_P;w_WITH;w_DOT;w_ABOVE]);
  (0x1e57, [w_LATIN;w_SMALL;w_LETTER;w_P;w_WITH;w_DOT;w_ABOVE]);
  (0x1e58, [w_LATIN;w_CAPITAL;w_LETTER;w_R;w_WITH;w_DOT;w_ABOVE]);
  (0x1e59, [w_LATIN;w_SMALL;w_LETTER;w_R;w_WITH;w_DOT;w_ABOVE]);
  (0x1e5a, [w_LATIN;w_CAPITAL;w_LETTER;w_R;w_WITH;w_DOT;w_BELOW]);
  (0x1e5b, [w_LATIN;w_SMALL;w_LETTER;w_R;w_WITH;w_DOT;w_BELOW]);
  (0x1e5c, [w_LATIN;w_CAPITAL;w_LETTER;w_R;w_WITH;w_DOT;w_BELOW;w_AND;w_MACRON]);
  (0x1e5d, [w_LATIN;w_SMALL;w_LETTER;w_R;w_WITH;w_DOT;w_BELOW;w_AND;w_MACRON]);
  (0x1e5e, [w_LATIN;w_CAPITAL;w_LETTER;w_R;w_WITH;w_LINE;w_BELOW]);
  (0x1e5f, [w_LATIN;w_SMALL;w_LETTER;w_R;w_WITH;w_LINE;w_BELOW]);
  (0x1e60, [w_LATIN;w_CAPITAL;w_LETTER;w_S;w_WITH;w_DOT;w_ABOVE]);
  (0x1e61, [w_LATIN;w_SMALL;w_LETTER;w_S;w_WITH;w_DOT;w_ABOVE]);
  (0x1e62, [w_LATIN;w_CAPITAL;w_LETTER;w_S;w_WITH;w_DOT;w_BELOW]);
  (0x1e63, [w_LATIN;w_SMALL;w_LETTER;w_S;w_WITH;w_DOT;w_BELOW]);
  (0x1e64, [w_LATIN;w_CAPITAL;w_LETTER;w_S;w_WITH;w_ACUTE;w_AND;w_DOT;w_ABOVE]);
  (0x1e65, [w_LATIN;w_SMALL;w_LETTER;w_S;w_WITH;w_ACUTE;w_AND;w_DOT;w_ABOVE]);
  (0x1e66, [w_LATIN;w_CAPITAL;w_LETTER;w_S;w_WITH;w_CARON;w_AND;w_DOT;w_ABOVE]);
  (0x1e67, [w_LATIN;w_SMALL;w_LETTER;w_S;w_WITH;w_CARON;w_AND;w_DOT;w_ABOVE]);
  (0x1e68, [w_LATIN;w_CAPITAL;w_LETTER;w_S;w_WITH;w_DOT;w_BELOW;w_AND;w_DOT;w_ABOVE]);
  (0x1e69, [w_LATIN;w_SMALL;w_LETTER;w_S;w_WITH;w_DOT;w_BELOW;w_AND;w_DOT;w_ABOVE]);
  (0x1e6a, [w_LATIN;w_CAPITAL;w_LETTER;w_T;w_WITH;w_DOT;w_ABOVE]);
  (0x1e6b, [w_LATIN;w_SMALL;w_LETTER;w_T;w_WITH;w_DOT;w_ABOVE]);
  (0x1e6c, [w_LATIN;w_CAPITAL;w_LETTER;w_T;w_WITH;w_DOT;w_BELOW]);
  (0x1e6d, [w_LATIN;w_SMALL;w_LETTER;w_T;w_WITH;w_DOT;w_BELOW]);
  (0x1e6e, [w_LATIN;w_CAPITAL;w_LETTER;w_T;w_WITH;w_LINE;w_BELOW]);
  (0x1e6f, [w_LATIN;w_SMALL;w_LETTER;w_T;w_WITH;w_LINE;w_BELOW]);
  (0x1e70, [w_LATIN;w_CAPITAL;w_LETTER;w_T;w_WITH;w_CIRCUMFLEX;w_BELOW]);
  (0x1e71, [w_LATIN;w_SMALL;w_LETTER;w_T;w_WITH;w_CIRCUMFLEX;w_BELOW]);
  (0x1e72, [w_LATIN;w_CAPITAL;w_LETTER;w_U;w_WITH;w_DIAERESIS;w_BELOW]);
  (0x1e73, [w_LATIN;w_SMALL;w_LETTER;w_U;w_WITH;w_DIAERESIS;w_BELOW]);
  (0x1e74, [w_LATIN;w_CAPITAL;w_LETTER;w_U;w_WITH;w_TILDE;w_BELOW]);
  (0x1e75, [w_LATIN;w_SMALL;w_LETTER;w_U;w_WITH;w_TILDE;w_BELOW]);
  (0x1e76, [w_LATIN;w_CAPITAL;w_LETTER;w_U;w_WITH;w_CIRCUMFLEX;w_BELOW]);
  (0x1e77, [w_LATIN;w_SMALL;w_LETTER;w_U;w_WITH;w_CIRCUMFLEX;w_BELOW]);
  (0x1e78, [w_LATIN;w_CAPITAL;w_LETTER;w_U;w_WITH;w_TILDE;w_AND;w_ACUTE]);
  (0x1e79, [w_LATIN;w_SMALL;w_LETTER;w_U;w_WITH;w_TILDE;w_AND;w_ACUTE]);
  (0x1e7a, [w_LATIN;w_CAPITAL;w_LETTER;w_U;w_WITH;w_MACRON;w_AND;w_DIAERESIS]);
  (0x1e7b, [w_LATIN;w_SMALL;w_LETTER;w_U;w_WITH;w_MACRON;w_AND;w_DIAERESIS]);
  (0x1e7c, [w_LATIN;w_CAPITAL;w_LETTER;w_V;w_WITH;w_TILDE]);
  (0x1e7d, [w_LATIN;w_SMALL;w_LETTER;w_V;w_WITH;w_TILDE]);
  (0x1e7e, [w_LATIN;w_CAPITAL;w_LETTER;w_V;w_WITH;w_DOT;w_BELOW]);
  (0x1e7f, [w_LATIN;w_SMALL;w_LETTER;w_V;w_WITH;w_DOT;w_BELOW]);
  (0x1e80, [w_LATIN;w_CAPITAL;w_LETTER;w_W;w_WITH;w_GRAVE]);
  (0x1e81, [w_LATIN;w_SMALL;w_LETTER;w_W;w_WITH;w_GRAVE]);
  (0x1e82, [w_LATIN;w_CAPITAL;w_LETTER;w_W;w_WITH;w_ACUTE]);
  (0x1e83, [w_LATIN;w_SMALL;w_LETTER;w_W;w_WITH;w_ACUTE]);
  (0x1e84, [w_LATIN;w_CAPITAL;w_LETTER;w_W;w_WITH;w_DIAERESIS]);
  (0x1e85, [w_LATIN;w_SMALL;w_LETTER;w_W;w_WITH;w_DIAERESIS]);
  (0x1e86, [w_LATIN;w_CAPITAL;w_LETTER;w_W;w_WITH;w_DOT;w_ABOVE]);
  (0x1e87, [w_LATIN;w_SMALL;w_LETTER;w_W;w_WITH;w_DOT;w_ABOVE]);
  (0x1e88, [w_LATIN;w_CAPITAL;w_LETTER;w_W;w_WITH;w_DOT;w_BELOW]);
  (0x1e89, [w_LATIN;w_SMALL;w_LETTER;w_W;w_WITH;w_DOT;w_BELOW]);
  (0x1e8a, [w_LATIN;w_CAPITAL;w_LETTER;w_X;w_WITH;w_DOT;w_ABOVE]);
  (0x1e8b, [w_LATIN;w_SMALL;w_LETTER;w_X;w_WITH;w_DOT;w_ABOVE]);
  (0x1e8c, [w_LATIN;w_CAPITAL;w_LETTER;w_X;w_WITH;w_DIAERESIS]);
  (0x1e8d, [w_LATIN;w_SMALL;w_LETTER;w_X;w_WITH;w_DIAERESIS]);
  (0x1e8e, [w_LATIN;w_CAPITAL;w_LETTER;w_Y;w_WITH;w_DOT;w_ABOVE]);
  (0x1e8f, [w_LATIN;w_SMALL;w_LETTER;w_Y;w_WITH;w_DOT;w_ABOVE]);
  (0x1e90, [w_LATIN;w_CAPITAL;w_LETTER;w_Z;w_WITH;w_CIRCUMFLEX]);
  (0x1e91, [w_LATIN;w_SMALL;w_LETTER;w_Z;w_WITH;w_CIRCUMFLEX]);
  (0x1e92, [w_LATIN;w_CAPITAL;w_LETTER;w_Z;w_WITH;w_DOT;w_BELOW]);
  (0x1e93, [w_LATIN;w_SMALL;w_LETTER;w_Z;w_WITH;w_DOT;w_BELOW]);
  (0x1e94, [w_LATIN;w_CAPITAL;w_LETTER;w_Z;w_WITH;w_LINE;w_BELOW]);
  (0x1e95, [w_LATIN;w_SMALL;w_LETTER;w_Z;w_WITH;w_LINE;w_BELOW]);
  (0x1e96, [w_LATIN;w_SMALL;w_LETTER;w_H;w_WITH;w_LINE;w_BELOW]);
  (0x1e97, [w_LATIN;w_SMALL;w_LETTER;w_T;w_WITH;w_DIAERESIS]);
  (0x1e98, [w_LATIN;w_SMALL;w_LETTER;w_W;w_WITH;w_RING;w_ABOVE]);
  (0x1e99, [w_LATIN;w_SMALL;w_LETTER;w_Y;w_WITH;w_RING;w_ABOVE]);
  (0x1e9a, [w_LATIN;w_SMALL;w_LETTER;w_A;w_WITH;w_RIGHT;w_HALF;w_RING]);
  (0x1e9b, [w_LATIN;w_SMALL;w_LETTER;w_LONG;w_S;w_WITH;w_DOT;w_ABOVE]);
  (0x1e9c, [w_LATIN;w_SMALL;w_LETTER;w_LONG;w_S;w_WITH;w_DIAGONAL;w_STROKE]);
  (0x1e9d, [w_LATIN;w_SMALL;w_LETTER;w_LONG;w_S;w_WITH;w_HIGH;w_STROKE]);
  (0x1e9e, [w_LATIN;w_CAPITAL;w_LETTER;w_SHARP;w_S]);
  (0x1e9f, [w_LATIN;w_SMALL;w_LETTER;w_DELTA]);
  (0x1ea0, [w_LATIN;w_CAPITAL;w_LETTER;w_A;w_WITH;w_DOT;w_BELOW]);
  (0x1ea1, [w_LATIN;w_SMALL;w_LETTER;w_A;w_WITH;w_DOT;w_BELOW]);
  (0x1ea2, [w_LATIN;w_CAPITAL;w_LETTER;w_A;w_WITH;w_HOOK;w_ABOVE]);
  (0x1ea3, [w_LATIN;w_SMALL;w_LETTER;w_A;w_WITH;w_HOOK;w_ABOVE]);
  (0x1ea4, [w_LATIN;w_CAPITAL;w_LETTER;w_A;w_WITH;w_CIRCUMFLEX;w_AND;w_ACUTE]);
  (0x1ea5, [w_LATIN;w_SMALL;w_LETTER;w_A;w_WITH;w_CIRCUMFLEX;w_AND;w_ACUTE]);
  (0x1ea6, [w_LATIN;w_CAPITAL;w_LETTER;w_A;w_WITH;w_CIRCUMFLEX;w_AND;w_GRAVE]);
  (0x1ea7, [w_LATIN;w_SMALL;w_LETTER;w_A;w_WITH;w_CIRCUMFLEX;w_AND;w_GRAVE]);
  (0x1ea8, [w_LATIN;w_CAPITAL;w_LETTER;w_A;w_WITH;w_CIRCUMFLEX;w_AND;w_HOOK;w_ABOVE]);
  (0x1ea9, [w_LATIN;w_SMALL;w_LETTER;w_A;w_WITH;w_CIRCUMFLEX;w_AND;w_HOOK;w_ABOVE])].

Definition NAMES_17 : list (N * (list str)) := [
  (0x1eaa, [w_LATIN;w_CAPITAL;w_LETTER;w_A;w_WITH;w_CIRCUMFLEX;w_AND;w_TILDE]);
  (0x1eab, [w_LATIN;w_SMALL;w_LETTER;w_A;w_WITH;w_CIRCUMFLEX;w_AND;w_TILDE]);
  (0x1eac, [w_LATIN;w_CAPITAL;w_LETTER;w_A;w_WITH;w_CIRCUMFLEX;w_AND;w_DOT;w_BELOW]);
  (0x1ead, [w_LATIN;w_SMALL;w_LETTER;w_A;w_WITH;w_CIRCUMFLEX;w_AND;w_DOT;w_BELOW]);
  (0x1eae, [w_LATIN;w_CAPITAL;w_LETTER;w_A;w_WITH;w_BREVE;w_AND;w_ACUTE]);
  (0x1eaf, [w_LATIN;w_SMALL;w_LETTER;w_A;w_WITH;w_BREVE;w_AND;w_ACUTE]);
  (0x1eb0, [w_LATIN;w_CAPITAL;w_LETTER;w_A;w_WITH;w_BREVE;w_AND;w_GRAVE]);
  (0x1eb1, [w_LATIN;w_SMALL;w_LETTER;w_A;w_WITH;w_BREVE;w_AND;w_GRAVE]);
  (0x1eb2, [w_LATIN;w_CAPITAL;w_LETTER;w_A;w_WITH;w_BREVE;w_AND;w_HOOK;w_ABOVE]);
  (0x1eb3, [w_LATIN;w_SMALL;w_LETTER;w_A;w_WITH;w_BREVE;w_AND;w_HOOK;w_ABOVE]);
  (0x1eb4, [w_LATIN;w_CAPITAL;w_LETTER;w_A;w_WITH;w_BREVE;w_AND;w_TILDE]);
  (0x1eb5, [w_LATIN;w_SMALL;w_LETTER;w_A;w_WITH;w_BREVE;w_AND;w_TILDE]);
  (0x1eb6, [w_LATIN;w_CAPITAL;w_LETTER;w_A;w_WITH;w_BREVE;w_AND;w_DOT;w_BELOW]);
  (0x1eb7, [w_LATIN;w_SMALL;w_LETTER;w_A;w_WITH;w_BREVE;w_AND;w_DOT;w_BELOW]);
  (0x1eb8, [w_LATIN;w_CAPITAL;w_LETTER;w_E;w_WITH;w_DOT;w_BELOW]);
  (0x1eb9, [w_LATIN;w_SMALL;w_LETTER;w_E;w_WITH;w_DOT;w_BELOW]);
  (0x1eba, [w_LATIN;w_CAPITAL;w_LETTER;w_E;w_WITH;w_HOOK;w_ABOVE]);
  (0x1ebb, [w_LATIN;w_SMALL;w_LETTER;w_E;w_WITH;w_HOOK;w_ABOVE]);
  (0x1ebc, [w_LATIN;w_CAPITAL;w_LETTER;w_E;w_WITH;w_TILDE]);
  (0x1ebd, [w_LATIN;w_SMALL;w_LETTER;w_E;w_WITH;w_TILDE]);
  (0x1ebe, [w_LATIN;w_CAPITAL;w_LETTER;w_E;w_WITH;w_CIRCUMFLEX;w_AND;w_ACUTE]);
  (0x1ebf, [w_LATIN;w_SMALL;w_LETTER;w_E;w_WITH;w_CIRCUMFLEX;w_AND;w_ACUTE]);
  (0x1ec0, [w_LATIN;w_CAPITAL;w_LETTER;w_E;w_WITH;w_CIRCUMFLEX;w_AND;w_GRAVE]);
  (0x1ec1, [w_LATIN;w_SMALL;w_LETTER;w_E;w_WITH;w_CIRCUMFLEX;w_AND;w_GRAVE]);
  (0x1ec2, [w_LATIN;w_CAPITAL;w_LETTER;w_E;w_WITH;w_CIRCUMFLEX;w_AND;w_HOOK;w_ABOVE]);
  (0x1ec3, [w_LATIN;w_SMALL;w_LETTER;w_E;w_WITH;w_CIRCUMFLEX;w_AND;w_HOOK;w_ABOVE]);
  (0x1ec4, [w_LATIN;w_CAPITAL;w_LETTER;w_E;w_WITH;w_CIRCUMFLEX;w_AND;w_TILDE]);
  (0x1ec5, [w_LATIN;w_SMALL;w_LETTER;w_E;w_WITH;w_CIRCUMFLEX;w_AND;w_TILDE]);
  (0x1ec6, [w_LATIN;w_CAPITAL;w_LETTER;w_E;w_WITH;w_CIRCUMFLEX;w_AND;w_DOT;w_BELOW]);
  (0x1ec7, [w_LATIN;w_SMALL;w_LETTER;w_E;w_WITH;w_CIRCUMFLEX;w_AND;w_DOT;w_BELOW]);
  (0x1ec8, [w_LATIN;w_CAPITAL;w_LETTER;w_I;w_WITH;w_HOOK;w_ABOVE]);
  (0x1ec9, [w_LATIN;w_SMALL;w_LETTER;w_I;w_WITH;w_HOOK;w_ABOVE]);
  (0x1eca, [w_LATIN;w_CAPITAL;w_LETTER;w_I;w_WITH;w_DOT;w_BELOW]);
  (0x1ecb, [w_LATIN;w_SMALL;w_LETTER;w_I;w_WITH;w_DOT;w_BELOW]);
  (0x1ecc, [w_LATIN;w_CAPITAL;w_LETTER;w_O;w_WITH;w_DOT;w_BELOW]);
  (0x1ecd, [w_LATIN;w_SMALL;w_LETTER;w_O;w_WITH;w_DOT;w_BELOW]);
  (0x1ece, [w_LATIN;w_CAPITAL;w_LETTER;w_O;w_WITH;w_HOOK;w_ABOVE]);
  (0x1ecf, [w_LATIN;w_SMALL;w_LETTER;w_O;w_WITH;w_HOOK;w_ABOVE]);
  (0x1ed0, [w_LATIN;w_CAPITAL;w_LETTER;w_O;w_WITH;w_CIRCUMFLEX;w_AND;w_ACUTE]);
  (0x1ed1, [w_LATIN;w_SMALL;w_LETTER;w_O;w_WITH;w_CIRCUMFLEX;w_AND;w_ACUTE]);
  (0x1ed2, [w_LATIN;w_CAPITAL;w_LETTER;w_O;w_WITH;w_CIRCUMFLEX;w_AND;w_GRAVE]);
  (0x1ed3, [w_LATIN;w_SMALL;w_LETTER;w_O;w_WITH;w_CIRCUMFLEX;w_AND;w_GRAVE]);
  (0x1ed4, [w_LATIN;w_CAPITAL;w_LETTER;w_O;w_WITH;w_CIRCUMFLEX;w_AND;w_HOOK;w_ABOVE]);
  (0x1ed5, [w_LATIN;w_SMALL;w_LETTER;w_O;w_WITH;w_CIRCUMFLEX;w_AND;w_HOOK;w_ABOVE]);
  (0x1ed6, [w_LATIN;w_CAPITAL;w_LETTER;w_O;w_WITH;w_CIRCUMFLEX;w_AND;w_TILDE]);
  (0x1ed7, [w_LATIN;w_SMALL;w_LETTER;w_O;w_WITH;w_CIRCUMFLEX;w_AND;w_TILDE]);
  (0x1ed8, [w_LATIN;w_CAPITAL;w_LETTER;w_O;w_WITH;w_CIRCUMFLEX;w_AND;w_DOT;w_BELOW]);
  (0x1ed9, [w_LATIN;w_SMALL;w_LETTER;w_O;w_WITH;w_CIRCUMFLEX;w_AND;w_DOT;w_BELOW]);
  (0x1eda, [w_LATIN;w_CAPITAL;w_LETTER;w_O;w_WITH;w_HORN;w_AND;w_ACUTE]);
  (0x1edb, [w_LATIN;w_SMALL;w_LETTER;w_O;w_WITH;w_HORN;w_AND;w_ACUTE]);
  (0x1edc, [w_LATIN;w_CAPITAL;w_LETTER;w_O;w_WITH;w_HORN;w_AND;w_GRAVE]);
  (0x1edd, [w_LATIN;w_SMALL;w_LETTER;w_O;w_WITH;w_HORN;w_AND;w_GRAVE]);
  (0x1ede, [w_LATIN;w_CAPITAL;w_LETTER;w_O;w_WITH;w_HORN;w_AND;w_HOOK;w_ABOVE]);
  (0x1edf, [w_LATIN;w_SMALL;w_LETTER;w_O;w_WITH;w_HORN;w_AND;w_HOOK;w_ABOVE]);
  (0x1ee0, [w_LATIN;w_CAPITAL;w_LETTER;w_O;w_WITH;w_HORN;w_AND;w_TILDE]);
  (0x1ee1, [w_LATIN;w_SMALL;w_LETTER;w_O;w_WITH;w_HORN;w_AND;w_TILDE]);
  (0x1ee2, [w_LATIN;w_CAPITAL;w_LETTER;w_O;w_WITH;w_HORN;w_AND;w_DOT;w_BELOW]);
  (0x1ee3, [w_LATIN;w_SMALL;w_LETTER;w_O;w_WITH;w_HORN;w_AND;w_DOT;w_BELOW]);
  (0x1ee4, [w_LATIN;w_CAPITAL;w_LETTER;w_U;w_WITH;w_DOT;w_BELOW]);
  (0x1ee5, [w_LATIN;w_SMALL;w_LETTER;w_U;w_WITH;w_DOT;w_BELOW]);
  (0x1ee6, [w_LATIN;w_CAPITAL;w_LETTER;w_U;w_WITH;w_HOOK;w_ABOVE]);
  (0x1ee7, [w_LATIN;w_SMALL;w_LETTER;w_U;w_WITH;w_HOOK;w_ABOVE]);
  (0x1ee8, [w_LATIN;w_CAPITAL;w_LETTER;w_U;w_WITH;w_HORN;w_AND;w_ACUTE]);
  (0x1ee9, [w_LATIN;w_SMALL;w_LETTER;w_U;w_WITH;w_HORN;w_AND;w_ACUTE]);
  (0x1eea, [w_LATIN;w_CAPITAL;w_LETTER;w_U;w_WITH;w_HORN;w_AND;w_GRAVE]);
  (0x1eeb, [w_LATIN;w_SMALL;w_LETTER;w_U;w_WITH;w_HORN;w_AND;w_GRAVE]);
  (0x1eec, [w_LATIN;w_CAPITAL;w_LETTER;w_U;w_WITH;w_HORN;w_AND;w_HOOK;w_ABOVE]);
  (0x1eed, [w_LATIN;w_SMALL;w_LETTER;w_U;w_WITH;w_HORN;w_AND;w_HOOK;w_ABOVE]);
  (0x1eee, [w_LATIN;w_CAPITAL;w_LETTER;w_U;w_WITH;w_HORN;w_AND;w_TILDE]);
  (0x1eef, [w_LATIN;w_SMALL;w_LETTER;w_U;w_WITH;w_HORN;w_AND;w_TILDE]);
  (0x1ef0, [w_LATIN;w_CAPITAL;w_LETTER;w_U;w_WITH;w_HORN;w_AND;w_DOT;w_BELOW]);
  (0x1ef1, [w_LATIN;w_SMALL;w_LETTER;w_U;w_WITH;w_HORN;w_AND;w_DOT;w_BELOW]);
  (0x1ef2, [w_LATIN;w_CAPITAL;w_LETTER;w_Y;w_WITH;w_GRAVE]);
  (0x1ef3, [w_LATIN;w_SMALL;w_LETTER;w_Y;w_WITH;w_GRAVE]);
  (0x1ef4, [w_LATIN;w_CAPITAL;w_LETTER;w_Y;w_WITH;w_DOT;w_BELOW]);
  (0x1ef5, [w_LATIN;w_SMALL;w_LETTER;w_Y;w_WITH;w_DOT;w_BELOW]);
  (0x1ef6, [w_LATIN;w_CAPITAL;w_LETTER;w_Y;w_WITH;w_HOOK;w_ABOVE]);
  (0x1ef7, [w_LATIN;w_SMALL;w_LETTER;w_Y;w_WITH;w_HOOK;w_ABOVE]);
  (0x1ef8, [w_LATIN;w_CAPITAL;w_LETTER;w_Y;w_WITH;w_TILDE]);
  (0x1ef9, [w_LATIN;w_SMALL;w_LETTER;w_Y;w_WITH;w_TILDE]);
  (0x1efa, [w_LATIN;w_CAPITAL;w_LETTER;w_MIDDLE_WELSH;w_LL]);
  (0x1efb, [w_LATIN;w_SMALL;w_LETTER;w_MIDDLE_WELSH;w_LL]);
  (0x1efc, [w_LATIN;w_CAPITAL;w_LETTER;w_MIDDLE_WELSH;w_V]);
  (0x1efd, [w_LATIN;w_SMALL;w_LETTER;w_MIDDLE_WELSH;w_V]);
  (0x1efe, [w_LATIN;w_CAPITAL;w_LETTER;w_Y;w_WITH;w_LOOP]);
  (0x1eff, [w_LATIN;w_SMALL;w_LETTER;w_Y;w_WITH;w_LOOP]);
  (0x1f00, [w_GREEK;w_SMALL;w_LETTER;w_ALPHA;w_WITH;w_PSILI]);
  (0x1f01, [w_GREEK;w_SMALL;w_LETTER;w_ALPHA;w_WITH;w_DASIA]);
  (0x1f02, [w_GREEK;w_SMALL;w_LETTER;w_ALPHA;w_WITH;w_PSILI;w_AND;w_VARIA]);
  (0x1f03, [w_GREEK;w_SMALL;w_LETTER;w_ALPHA;w_WITH;w_DASIA;w_AND;w_VARIA]);
  (0x1f04, [w_GREEK;w_SMALL;w_LETTER;w_ALPHA;w_WITH;w_PSILI;w_AND;w_OXIA]);
  (0x1f05, [w_GREEK;w_SMALL;w_LETTER;w_ALPHA;w_WITH;w_DASIA;w_AND;w_OXIA]);
  (0x1f06, [w_GREEK;w_SMALL;w_LETTER;w_ALPHA;w_WITH;w_PSILI;w_AND;w_PERISPOMENI]);
  (0x1f07, [w_GREEK;w_SMALL;w_LETTER;w_ALPHA;w_WITH;w_DASIA;w_AND;w_PERISPOMENI]);
  (0x1f08, [w_GREEK;w_CAPITAL;w_LETTER;w_ALPHA;w_WITH;w_PSILI]);
  (0x1f09, [w_GREEK;w_CAPITAL;w_LETTER;w_ALPHA;w_WITH;w_DASIA]);
  (0x1f0a, [w_GREEK;w_CAPITAL;w_LETTER;w_ALPHA;w_WITH;w_PSILI;w_AND;w_VARIA]);
  (0x1f0b, [w_GREEK;w_CAPITAL;w_LETTER;w_ALPHA;w_WITH;w_DASIA;w_AND;w_VARIA]);
  (0x1f0c, [w_GREEK;w_CAPITAL;w_LETTER;w_ALPHA;w_WITH;w_PSILI;w_AND;w_OXIA]);
  (0x1f0d, [w_GREEK;w_CAPITAL;w_LETTER;w_ALPHA;w_WITH;w_DASIA;w_AND;w_OXIA]);
  (0x1f0e, [w_GREEK;w_CAPITAL;w_LETTER;w_ALPHA;w_WITH;w_PSILI;w_AND;w_PERISPOMENI]);
  (0x1f0f, [w_GREEK;w_CAPITAL;w_LETTER;w_ALPHA;w_WITH;w_DASIA;w_AND;w_PERISPOMENI]);
  (0x1f10, [w_GREEK;w_SMALL;w_LETTER;w_EPSILON;w_WITH;w_PSILI]);
  (0x1f11, [w_GREEK;w_SMALL;w_LETTER;w_EPSILON;w_WITH;w_DASIA]);
  (0x1f12, [w_GREEK;w_SMALL;w_LETTER;w_EPSILON;w_WITH;w_PSILI;w_AND;w_VARIA]);
  (0x1f13, [w_GREEK;w_SMALL;w_LETTER;w_EPSILON;w_WITH;w_DASIA;w_AND;w_VARIA]);
  (0x1f14, [w_GREEK;w_SMALL;w_LETTER;w_EPSILON;w_WITH;w_PSILI;w_AND;w_OXIA]);
  (0x1f15, [w_GREEK;w_SMALL;w_LETTER;w_EPSILON;w_WITH;w_DASIA;w_AND;w_OXIA]);
  (0x1f18, [w_GREEK;w_CAPITAL;w_LETTER;w_EPSILON;w_WITH;w_PSILI]);
  (0x1f19, [w_GREEK;w_CAPITAL;w_LETTER;w_EPSILON;w_WITH;w_DASIA]);
  (0x1f1a, [w_GREEK;w_CAPITAL;w_LETTER;w_EPSILON;w_WITH;w_PSILI;w_AND;w_VARIA]);
  (0x1f1b, [w_GREEK;w_CAPITAL;w_LETTER;w_EPSILON;w_WITH;w_DASIA;w_AND;w_VARIA]);
  (0x1f1c, [w_GREEK;w_CAPITAL;w_LETTER;w_EPSILON;w_WITH;w_PSILI;w_AND;w_OXIA]);
  (0x1f1d, [w_GREEK;w_CAPITAL;w_LETTER;w_EPSILON;w_WITH;w_DASIA;w_AND;w_OXIA]);
  (0x1f20, [w_GREEK;w_SMALL;w_LETTER;w_ETA;w_WITH;w_PSILI]);
  (0x1f21, [w_GREEK;w_SMALL;w_LETTER;w_ETA;w_WITH;w_DASIA]);
  (0x1f22, [w_GREEK;w_SMALL;w_LETTER;w_ETA;w_WITH;w_PSILI;w_AND;w_VARIA]);
  (0x1f23, [w_GREEK;w_SMALL;w_LETTER;w_ETA;w_WITH;w_DASIA;w_AND;w_VARIA]);
  (0x1f24, [w_GREEK;w_SMALL;w_LETTER;w_ETA;w_WITH;w_PSILI;w_AND;w_OXIA]);
  (0x1f25, [w_GREEK;w_SMALL;w_LETTER;w_ETA;w_WITH;w_DASIA;w_AND;w_OXIA]);
  (0x1f26, [w_GREEK;w_SMALL;w_LETTER;w_ETA;w_WITH;w_PSILI;w_AND;w_PERISPOMENI]);
  (0x1f27, [w_GREEK;w_SMALL;w_LETTER;w_ETA;w_WITH;w_DASIA;w_AND;w_PERISPOMENI]);
  (0x1f28, [w_GREEK;w_CAPITAL;w_LETTER;w_ETA;w_WITH;w_PSILI]);
  (0x1f29, [w_GREEK;w_CAPITAL;w_LETTER;w_ETA;w_WITH;w_DASIA]);
  (0x1f2a, [w_GREEK;w_CAPITAL;w_LETTER;w_ETA;w_WITH;w_PSILI;w_AND;w_VARIA]);
  (0x1f2b, [w_GREEK;w_CAPITAL;w_LETTER;w_ETA;w_WITH;w_DASIA;w_AND;w_VARIA]);
  (0x1f2c, [w_GREEK;w_CAPITAL;w_LETTER;w_ETA;w_WITH;w_PSILI;w_AND;w_OXIA]);
  (0x1f2d, [w_GREEK;w_CAPITAL;w_LETTER;w_ETA;w_WITH;w_DASIA;w_AND;w_OXIA]);
  (0x1f2e, [w_GREEK;w_CAPITAL;w_LETTER;w_ETA;w_WITH;w_PSILI;w_AND;w_PERISPOMENI]);
  (0x1f2f, [w_GREEK;w_CAPITAL;w_LETTER;w_ETA;w_WITH;w_DASIA;w_AND;w_PERISPOMENI]);
  (0x1f30, [w_GREEK;w_SMALL;w_LETTER;w_IOTA;w_WITH;w_PSILI]);
  (0x1f31, [w_GREEK;w_SMALL;w_LETTER;w_IOTA;w_WITH;w_DASIA]);
  (0x1f32, [w_GREEK;w_SMALL;w_LETTER;w_IOTA;w_WITH;w_PSILI;w_AND;w_VARIA]);
  (0x1f33, [w_GREEK;w_SMALL;w_LETTER;w_IOTA;w_WITH;w_DASIA;w_AND;w_VARIA]);
  (0x1f34, [w_GREEK;w_SMALL;w_LETTER;w_IOTA;w_WITH;w_PSILI;w_AND;w_OXIA]);
  (0x1f35, [w_GREEK;w_SMALL;w_LETTER;w_IOTA;w_WITH;w_DASIA;w_AND;w_OXIA]);
  (0x1f36, [w_GREEK;w_SMALL;w_LETTER;w_IOTA;w_WITH;w_PSILI;w_AND;w_PERISPOMENI]);
  (0x1f37, [w_GREEK;w_SMALL;w_LETTER;w_IOTA;w_WITH;w_DASIA;w_AND;w_PERISPOMENI]);
  (0x1f38, [w_GREEK;w_CAPITAL;w_LETTER;w_IOTA;w_WITH;w_PSILI]);
  (0x1f39, [w_GREEK;w_CAPITAL;w_LETTER;w_IOTA;w_WITH;w_DASIA]);
  (0x1f3a, [w_GREEK;w_CAPITAL;w_LETTER;w_IOTA;w_WITH;w_PSILI;w_AND;w_VARIA]);
  (0x1f3b, [w_GREEK;w_CAPITAL;w_LETTER;w_IOTA;w_WITH;w_DASIA;w_AND;w_VARIA]);
  (0x1f3c, [w_GREEK;w_CAPITAL;w_LETTER;w_IOTA;w_WITH;w_PSILI;w_AND;w_OXIA]);
  (0x1f3d, [w_GREEK;w_CAPITAL;w_LETTER;w_IOTA;w_WITH;w_DASIA;w_AND;w_OXIA]);
  (0x1f3e, [w_GREEK;w_CAPITAL;w_LETTER;w_IOTA;w_WITH;w_PSILI;w_AND;w_PERISPOMENI]);
  (0x1f3f, [w_GREEK;w_CAPITAL;w_LETTER;w_IOTA;w_WITH;w_DASIA;w_AND;w_PERISPOMENI]);
  (0x1f40, [w_GREEK;w_SMALL;w_LETTER;w_OMICRON;w_WITH;w_PSILI]);
  (0x1f41, [w_GREEK;w_SMALL;w_LETTER;w_OMICRON;w_WITH;w_DASIA]);
  (0x1f42, [w_GREEK;w_SMALL;w_LETTER;w_OMICRON;w_WITH;w_PSILI;w_AND;w_VARIA]);
  (0x1f43, [w_GREEK;w_SMALL;w_LETTER;w_OMICRON;w_WITH;w_DASIA;w_AND;w_VARIA]);
  (0x1f44, [w_GREEK;w_SMALL;w_LETTER;w_OMICRON;w_WITH;w_PSILI;w_AND;w_OXIA]);
  (0x1f45, [w_GREEK;w_SMALL;w_LETTER;w_OMICRON;w_WITH;w_DASIA;w_AND;w_OXIA]);
  (0x1f48, [w_GREEK;w_CAPITAL;w_LETTER;w_OMICRON;w_WITH;w_PSILI]);
  (0x1f49, [w_GREEK;w_CAPITAL;w_LETTER;w_OMICRON;w_WITH;w_DASIA]);
  (0x1f4a, [w_GREEK;w_CAPITAL;w_LETTER;w_OMICRON;w_WITH;w_PSILI;w_AND;w_VARIA]);
  (0x1f4b, [w_GREEK;w_CAPITAL;w_LETTER;w_OMICRON;w_WITH;w_DASIA;w_AND;w_VARIA]);
  (0x1f4c, [w_GREEK;w_CAPITAL;w_LETTER;w_OMICRON;w_WITH;w_PSILI;w_AND;w_OXIA]);
  (0x1f4d, [w_GREEK;w_CAPITAL;w_LETTER;w_OMICRON;w_WITH;w_DASIA;w_AND;w_OXIA]);
  (0x1f50, [w_GREEK;w_SMALL;w_LETTER;w_UPSILON;w_WITH;w_PSILI]);
  (0x1f51, [w_GREEK;w_SMALL;w_LETTER;w_UPSILON;w_WITH;w_DASIA]);
  (0x1f52, [w_GREEK;w_SMALL;w_LETTER;w_UPSILON;w_WITH;w_PSILI;w_AND;w_VARIA]);
  (0x1f53, [w_GREEK;w_SMALL;w_LETTER;w_UPSILON;w_WITH;w_DASIA;w_AND;w_VARIA]);
  (0x1f54, [w_GREEK;w_SMALL;w_LETTER;w_UPSILON;w_WITH;w_PSILI;w_AND;w_OXIA]);
  (0x1f55, [w_GREEK;w_SMALL;w_LETTER;w_UPSILON;w_WITH;w_DASIA;w_AND;w_OXIA]);
  (0x1f56, [w_GREEK;w_SMALL;w_LETTER;w_UPSILON;w_WITH;w_PSILI;w_AND;w_PERISPOMENI]);
  (0x1f57, [w_GREEK;w_SMALL;w_LETTER;w_UPSILON;w_WITH;w_DASIA;w_AND;w_PERISPOMENI]);
  (0x1f59, [w_GREEK;w_CAPITAL;w_LETTER;w_UPSILON;w_WITH;w_DASIA]);
  (0x1f5b, [w_GREEK;w_CAPITAL;w_LETTER;w_UPSILON;w_WITH;w_DASIA;w_AND;w_VARIA]);
  (0x1f5d, [w_GREEK;w_CAPITAL;w_LETTER;w_UPSILON;w_WITH;w_DASIA;w_AND;w_OXIA]);
  (0x1f5f, [w_GREEK;w_CAPITAL;w_LETTER;w_UPSILON;w_WITH;w_DASIA;w_AND;w_PERISPOMENI]);
  (0x1f60, [w_GREEK;w_SMALL;w_LETTER;w_OMEGA;w_WITH;w_PSILI]);
  (0x1f61, [w_GREEK;w_SMALL;w_LETTER;w_OMEGA;w_WITH;w_DASIA]);
  (0x1f62, [w_GREEK;w_SMALL;w_LETTER;w_OMEGA;w_WITH;w_PSILI;w_AND;w_VARIA]);
  (0x1f63, [w_GREEK;w_SMALL;w_LETTER;w_OMEGA;w_WITH;w_DASIA;w_AND;w_VARIA]);
  (0x1f64, [w_GREEK;w_SMALL;w_LETTER;w_OMEGA;w_WITH;w_PSILI;w_AND;w_OXIA]);
  (0x1f65, [w_GREEK;w_SMALL;w_LETTER;w_OMEGA;w_WITH;w_DASIA;w_AND;w_OXIA]);
  (0x1f66, [w_GREEK;w_SMALL;w_LETTER;w_OMEGA;w_WITH;w_PSILI;w_AND;w_PERISPOMENI]);
  (0x1f67, [w_GREEK;w_SMALL;w_LETTER;w_OMEGA;w_WITH;w_DASIA;w_AND;w_PERISPOMENI]);
  (0x1f68, [w_GREEK;w_CAPITAL;w_LETTER;w_OMEGA;w_WITH;w_PSILI]);
  (0x1f69, [w_GREEK;w_CAPITAL;w_LETTER;w_OMEGA;w_WITH;w_DASIA]);
  (0x1f6a, [w_GREEK;w_CAPITAL;w_LETTER;w_OMEGA;w_WITH;w_PSILI;w_AND;w_VARIA]);
  (0x1f6b, [w_GREEK;w_CAPITAL;w_LETTER;w_OMEGA;w_WITH;w_DASIA;w_AND;w_VARIA]);
  (0x1f6c, [w_GREEK;w_CAPITAL;w_LETTER;w_OMEGA;w_WITH;w_PSILI;w_AND;w_OXIA]);
  (0x1f6d, [w_GREEK;w_CAPITAL;w_LETTER;w_OMEGA;w_WITH;w_DASIA;w_AND;w_OXIA]);
  (0x1f6e, [w_GREEK;w_CAPITAL;w_LETTER;w_OMEGA;w_WITH;w_PSILI;w_AND;w_PERISPOMENI]);
  (0x1f6f, [w_GREEK;w_CAPITAL;w_LETTER;w_OMEGA;w_WITH;w_DASIA;w_AND;w_PERISPOMENI]);
  (0x1f70, [w_GREEK;w_SMALL;w_LETTER;w_ALPHA;w_WITH;w_VARIA]);
  (0x1f71, [w_GREEK;w_SMALL;w_LETTER;w_ALPHA;w_WITH;w_OXIA]);
  (0x1f72, [w_GREEK;w_SMALL;w_LETTER;w_EPSILON;w_WITH;w_VARIA]);
  (0x1f73, [w_GREEK;w_SMALL;w_LETTER;w_EPSILON;w_WITH;w_OXIA]);
  (0x1f74, [w_GREEK;w_SMALL;w_LETTER;w_ETA;w_WITH;w_VARIA]);
  (0x1f75, [w_GREEK;w_SMALL;w_LETTER;w_ETA;w_WITH;w_OXIA]);
  (0x1f76, [w_GREEK;w_SMALL;w_LETTER;w_IOTA;w_WITH;w_VARIA]);
  (0x1f77, [w_GREEK;w_SMALL;w_LETTER;w_IOTA;w_WITH;w_OXIA]);
  (0x1f78, [w_GREEK;w_SMALL;w_LETTER;w_OMICRON;w_WITH;w_VARIA]);
  (0x1f79, [w_GREEK;w_SMALL;w_LETTER;w_OMICRON;w_WITH;w_OXIA]);
  (0x1f7a, [w_GREEK;w_SMALL;w_LETTER;w_UPSILON;w_WITH;w_VARIA]);
  (0x1f7b, [w_GREEK;w_SMALL;w_LETTER;w_UPSILON;w_WITH;w_OXIA]);
  (0x1f7c, [w_GREEK;w_SMALL;w_LETTER;w_OMEGA;w_WITH;w_VARIA]);
  (0x1f7d, [w_GREEK;w_SMALL;w_LETTER;w_OMEGA;w_WITH;w_OXIA]);
  (0x1f80, [w_GREEK;w_SMALL;w_LETTER;w_ALPHA;w_WITH;w_PSILI;w_AND;w_YPOGEGRAMMENI]);
  (0x1f81, [w_GREEK;w_SMALL;w_LETTER;w_ALPHA;w_WITH;w_DASIA;w_AND;w_YPOGEGRAMMENI]);
  (0x1f82, [w_GREEK;w_SMALL;w_LETTER;w_ALPHA;w_WITH;w_PSILI;w_AND;w_VARIA;w_AND;w_YPOGEGRAMMENI]);
  (0x1f83, [w_GREEK;w_SMALL;w_LETTER;w_ALPHA;w_WITH;w_DASIA;w_AND;w_VARIA;w_AND;w_YPOGEGRAMMENI]);
  (0x1f84, [w_GREEK;w_SMALL;w_LETTER;w_ALPHA;w_WITH;w_PSILI;w_AND;w_OXIA;w_AND;w_YPOGEGRAMMENI]);
  (0x1f85, [w_GREEK;w_SMALL;w_LETTER;w_ALPHA;w_WITH;w_DASIA;w_AND;w_OXIA;w_AND;w_YPOGEGRAMMENI]);
  (0x1f86, [w_GREEK;w_SMALL;w_LETTER;w_ALPHA;w_WITH;w_PSILI;w_AND;w_PERISPOMENI;w_AND;w_YPOGEGRAMMENI]);
  (0x1f87, [w_GREEK;w_SMALL;w_LETTER;w_ALPHA;w_WITH;w_DASIA;w_AND;w_PERISPOMENI;w_AND;w_YPOGEGRAMMENI]);
  (0x1f88, [w_GREEK;w_CAPITAL;w_LETTER;w_ALPHA;w_WITH;w_PSILI;w_AND;w_PROSGEGRAMMENI]);
  (0x1f89, [w_GREEK;w_CAPITAL;w_LETTER;w_ALPHA;w_WITH;w_DASIA;w_AND;w_PROSGEGRAMMENI]);
  (0x1f8a, [w_GREEK;w_CAPITAL;w_LETTER;w_ALPHA;w_WITH;w_PSILI;w_AND;w_VARIA;w_AND;w_PROSGEGRAMMENI]);
  (0x1f8b, [w_GREEK;w_CAPITAL;w_LETTER;w_ALPHA;w_WITH;w_DASIA;w_AND;w_VARIA;w_AND;w_PROSGEGRAMMENI]);
  (0x1f8c, [w_GREEK;w_CAPITAL;w_LETTER;w_ALPHA;w_WITH;w_PSILI;w_AND;w_OXIA;w_AND;w_PROSGEGRAMMENI]);
  (0x1f8d, [w_GREEK;w_CAPITAL;w_LETTER;w_ALPHA;w_WITH;w_DASIA;w_AND;w_OXIA;w_AND;w_PROSGEGRAMMENI]);
  (0x1f8e, [w_GREEK;w_CAPITAL;w_LETTER;w_ALPHA;w_WITH;w_PSILI;w_AND;w_PERISPOMENI;w_AND;w_PROSGEGRAMMENI]);
  (0x1f8f, [w_GREEK;w_CAPITAL;w_LETTER;w_ALPHA;w_WITH;w_DASIA;w_AND;w_PERISPOMENI;w_AND;w_PROSGEGRAMMENI]);
  (0x1f90, [w_GREEK;w_SMALL;w_LETTER;w_ETA;w_WITH;w_PSILI;w_AND;w_YPOGEGRAMMENI]);
  (0x1f91, [w_GREEK;w_SMALL;w_LETTER;w_ETA;w_WITH;w_DASIA;w_AND;w_YPOGEGRAMMENI]);
  (0x1f92, [w_GREEK;w_SMALL;w_LETTER;w_ETA;w_WITH;w_PSILI;w_AND;w_VARIA;w_AND;w_YPOGEGRAMMENI]);
  (0x1f93, [w_GREEK;w_SMALL;w_LETTER;w_ETA;w_WITH;w_DASIA;w_AND;w_VARIA;w_AND;w_YPOGEGRAMMENI]);
  (0x1f94, [w_GREEK;w_SMALL;w_LETTER;w_ETA;w_WITH;w_PSILI;w_AND;w_OXIA;w_AND;w_YPOGEGRAMMENI]);
  (0x1f95, [w_GREEK;w_SMALL;w_LETTER;w_ETA;w_WITH;w_DASIA;w_AND;w_OXIA;w_AND;w_YPOGEGRAMMENI]);
  (0x1f96, [w_GREEK;w_SMALL;w_LETTER;w_ETA;w_WITH;w_PSILI;w_AND;w_PERISPOMENI;w_AND;w_YPOGEGRAMMENI]);
  (0x1f97, [w_GREEK;w_SMALL;w_LETTER;w_ETA;w_WITH;w_DASIA;w_AND;w_PERISPOMENI;w_AND;w_YPOGEGRAMMENI]);
  (0x1f98, [w_GREEK;w_CAPITAL;w_LETTER;w_ETA;w_WITH;w_PSILI;w_AND;w_PROSGEGRAMMENI]);
  (0x1f99, [w_GREEK;w_CAPITAL;w_LETTER;w_ETA;w_WITH;w_DASIA;w_AND;w_PROSGEGRAMMENI]);
  (0x1f9a, [w_GREEK;w_CAPITAL;w_LETTER;w_ETA;w_WITH;w_PSILI;w_AND;w_VARIA;w_AND;w_PROSGEGRAMMENI]);
  (0x1f9b, [w_GREEK;w_CAPITAL;w_LETTER;w_ETA;w_WITH;w_DASIA;w_AND;w_VARIA;w_AND;w_PROSGEGRAMMENI]);
  (0x1f9c, [w_GREEK;w_CAPITAL;w_LETTER;w_ETA;w_WITH;w_PSILI;w_AND;w_OXIA;w_AND;w_PROSGEGRAMMENI]);
  (0x1f9d, [w_GREEK;w_CAPITAL;w_LETTER;w_ETA;w_WITH;w_DASIA;w_AND;w_OXIA;w_AND;w_PROSGEGRAMMENI]);
  (0x1f9e, [w_GREEK;w_CAPITAL;w_LETTER;w_ETA;w_WITH;w_PSILI;w_AND;w_PERISPOMENI;w_AND;w_PROSGEGRAMMENI]);
  (0x1f9f, [w_GREEK;w_CAPITAL;w_LETTER;w_ETA;w_WITH;w_DASIA;w_AND;w_PERISPOMENI;w_AND;w_PROSGEGRAMMENI]);
  (0x1fa0, [w_GREEK;w_SMALL;w_LETTER;w_OMEGA;w_WITH;w_PSILI;w_AND;w_YPOGEGRAMMENI]);
  (0x1fa1, [w_GREEK;w_SMALL;w_LETTER;w_OMEGA;w_WITH;w_DASIA;w_AND;w_YPOGEGRAMMENI]);
  (0x1fa2, [w_GREEK;w_SMALL;w_LETTER;w_OMEGA;w_WITH;w_PSILI;w_AND;w_VARIA;w_AND;w_YPOGEGRAMMENI]);
  (0x1fa3, [w_GREEK;w_SMALL;w_LETTER;w_OMEGA;w_WITH;w_DASIA;w_AND;w_VARIA;w_AND;w_YPOGEGRAMMENI]);
  (0x1fa4, [w_GREEK;w_SMALL;w_LETTER;w_OMEGA;w_WITH;w_PSILI;w_AND;w_OXIA;w_AND;w_YPOGEGRAMMENI]);
  (0x1fa5, [w_GREEK;w_SMALL;w_LETTER;w_OMEGA;w_WITH;w_DASIA;w_AND;w_OXIA;w_AND;w_YPOGEGRAMMENI]);
  (0x1fa6, [w_GREEK;w_SMALL;w_LETTER;w_OMEGA;w_WITH;w_PSILI;w_AND;w_PERISPOMENI;w_AND;w_YPOGEGRAMMENI]);
  (0x1fa7, [w_GREEK;w_SMALL;w_LETTER;w_OMEGA;w_WITH;w_DASIA;w_AND;w_PERISPOMENI;w_AND;w_YPOGEGRAMMENI]);
  (0x1fa8, [w_GREEK;w_CAPITAL;w_LETTER;w_OMEGA;w_WITH;w_PSILI;w_AND;w_PROSGEGRAMMENI]);
  (0x1fa9, [w_GREEK;w_CAPITAL;w_LETTER;w_OMEGA;w_WITH;w_DASIA;w_AND;w_PROSGEGRAMMENI]);
  (0x1faa, [w_GREEK;w_CAPITAL;w_LETTER;w_OMEGA;w_WITH;w_PSILI;w_AND;w_VARIA;w_AND;w_PROSGEGRAMMENI]);
  (0x1fab, [w_GREEK;w_CAPITAL;w_LETTER;w_OMEGA;w_WITH;w_DASIA;w_AND;w_VARIA;w_AND;w_PROSGEGRAMMENI]);
  (0x1fac, [w_GREEK;w_CAPITAL;w_LETTER;w_OMEGA;w_WITH;w_PSILI;w_AND;w_OXIA;w_AND;w_PROSGEGRAMMENI]);
  (0x1fad, [w_GREEK;w_CAPITAL;w_LETTER;w_OMEGA;w_WITH;w_DASIA;w_AND;w_OXIA;w_AND;w_PROSGEGRAMMENI]);
  (0x1fae, [w_GREEK;w_CAPITAL;w_LETTER;w_OMEGA;w_WITH;w_PSILI;w_AND;w_PERISPOMENI;w_AND;w_PROSGEGRAMMENI]);
  (0x1faf, [w_GREEK;w_CAPITAL;w_LETTER;w_OMEGA;w_WITH;w_DASIA;w_AND;w_PERISPOMENI;w_AND;w_PROSGEGRAMMENI]);
  (0x1fb0, [w_GREEK;w_SMALL;w_LETTER;w_ALPHA;w_WITH;w_VRACHY]);
  (0x1fb1, [w_GREEK;w_SMALL;w_LETTER;w_ALPHA;w_WITH;w_MACRON]);
  (0x1fb2, [w_GREEK;w_SMALL;w_LETTER;w_ALPHA;w_WITH;w_VARIA;w_AND;w_YPOGEGRAMMENI]);
  (0x1fb3, [w_GREEK;w_SMALL;w_LETTER;w_ALPHA;w_WITH;w_YPOGEGRAMMENI]);
  (0x1fb4, [w_GREEK;w_SMALL;w_LETTER;w_ALPHA;w_WITH;w_OXIA;w_AND;w_YPOGEGRAMMENI]);
  (0x1fb6, [w_GREEK;w_SMALL;w_LETTER;w_ALPHA;w_WITH;w_PERISPOMENI]);
  (0x1fb7, [w_GREEK;w_SMALL;w_LETTER;w_ALPHA;w_WITH;w_PERISPOMENI;w_AND;w_YPOGEGRAMMENI]);
  (0x1fb8, [w_GREEK;w_CAPITAL;w_LETTER;w_ALPHA;w_WITH;w_VRACHY]);
  (0x1fb9, [w_GREEK;w_CAPITAL;w_LETTER;w_ALPHA;w_WITH;w_MACRON]);
  (0x1fba, [w_GREEK;w_CAPITAL;w_LETTER;w_ALPHA;w_WITH;w_VARIA]);
  (0x1fbb, [w_GREEK;w_CAPITAL;w_LETTER;w_ALPHA;w_WITH;w_OXIA]);
  (0x1fbc, [w_GREEK;w_CAPITAL;w_LETTER;w_ALPHA;w_WITH;w_PROSGEGRAMMENI]);
  (0x1fbd, [w_GREEK;w_KORONIS]);
  (0x1fbe, [w_GREEK;w_PROSGEGRAMMENI]);
  (0x1fbf, [w_GREEK;w_PSILI]);
  (0x1fc0, [w_GREEK;w_PERISPOMENI]);
  (0x1fc1, [w_GREEK;w_DIALYTIKA;w_AND;w_PERISPOMENI]);
  (0x1fc2, [w_GREEK;w_SMALL;w_LETTER;w_ETA;w_WITH;w_VARIA;w_AND;w_YPOGEGRAMMENI]);
  (0x1fc3, [w_GREEK;w_SMALL;w_LETTER;w_ETA;w_WITH;w_YPOGEGRAMMENI]);
  (0x1fc4, [w_GREEK;w_SMALL;w_LETTER;w_ETA;w_WITH;w_OXIA;w_AND;w_YPOGEGRAMMENI]);
  (0x1fc6, [w_GREEK;w_SMALL;w_LETTER;w_ETA;w_WITH;w_PERISPOMENI]);
  (0x1fc7, [w_GREEK;w_SMALL;w_LETTER;w_ETA;w_WITH;w_PERISPOMENI;w_AND;w_YPOGEGRAMMENI]);
  (0x1fc8, [w_GREEK;w_CAPITAL;w_LETTER;w_EPSILON;w_WITH;w_VARIA]);
  (0x1fc9, [w_GREEK;w_CAPITAL;w_LETTER;w_EPSILON;w_WITH;w_OXIA]);
  (0x1fca, [w_GREEK;w_CAPITAL;w_LETTER;w_ETA;w_WITH;w_VARIA]);
  (0x1fcb, [w_GREEK;w_CAPITAL;w_LETTER;w_ETA;w_WITH;w_OXIA]);
  (0x1fcc, [w_GREEK;w_CAPITAL;w_LETTER;w_ETA;w_WITH;w_PROSGEGRAMMENI]);
  (0x1fcd, [w_GREEK;w_PSILI;w_AND;w_VARIA]);
  (0x1fce, [w_GREEK;w_PSILI;w_AND;w_OXIA]);
  (0x1fcf, [w_GREEK;w_PSILI;w_AND;w_PERISPOMENI]);
  (0x1fd0, [w_GREEK;w_SMALL;w_LETTER;w_IOTA;w_WITH;w_VRACHY]);
  (0x1fd1, [w_GREEK;w_SMALL;w_LETTER;w_IOTA;w_WITH;w_MACRON]);
  (0x1fd2, [w_GREEK;w_SMALL;w_LETTER;w_IOTA;w_WITH;w_DIALYTIKA;w_AND;w_VARIA]);
  (0x1fd3, [w_GREEK;w_SMALL;w_LETTER;w_IOTA;w_WITH;w_DIALYTIKA;w_AND;w_OXIA]);
  (0x1fd6, [w_GREEK;w_SMALL;w_LETTER;w_IOTA;w_WITH;w_PERISPOMENI]);
  (0x1fd7, [w_GREEK;w_SMALL;w_LETTER;w_IOTA;w_WITH;w_DIALYTIKA;w_AND;w_PERISPOMENI]);
  (0x1fd8, [w_GREEK;w_CAPITAL;w_LETTER;w_IOTA;w_WITH;w_VRACHY]);
  (0x1fd9, [w_GREEK;w_CAPITAL;w_LETTER;w_IOTA;w_WITH;w_MACRON]);
  (0x1fda, [w_GREEK;w_CAPITAL;w_LETTER;w_IOTA;w_WITH;w_VARIA]);
  (0x1fdb, [w_GREEK;w_CAPITAL;w_LETTER;w_IOTA;w_WITH;w_OXIA]);
  (0x1fdd, [w_GREEK;w_DASIA;w_AND;w_VARIA]);
  (0x1fde, [w_GREEK;w_DASIA;w_AND;w_OXIA]);
  (0x1fdf, [w_GREEK;w_DASIA;w_AND;w_PERISPOMENI]);
  (0x1fe0, [w_GREEK;w_SMALL;w_LETTER;w_UPSILON;w_WITH;w_VRACHY]);
  (0x1fe1, [w_GREEK;w_SMALL;w_LETTER;w_UPSILON;w_WITH;w_MACRON]);
  (0x1fe2, [w_GREEK;w_SMALL;w_LETTER;w_UPSILON;w_WITH;w_DIALYTIKA;w_AND;w_VARIA]);
  (0x1fe3, [w_GREEK;w_SMALL;w_LETTER;w_UPSILON;w_WITH;w_DIALYTIKA;w_AND;w_OXIA]);
  (0x1fe4, [w_GREEK;w_SMALL;w_LETTER;w_RHO;w_WITH;w_PSILI]);
  (0x1fe5, [w_GREEK;w_SMALL;w_LETTER;w_RHO;w_WITH;w_DASIA]);
  (0x1fe6, [w_GREEK;w_SMALL;w_LETTER;w_UPSILON;w_WITH;w_PERISPOMENI]);
  (0x1fe7, [w_GREEK;w_SMALL;w_LETTER;w_UPSILON;w_WITH;w_DIALYTIKA;w_AND;w_PERISPOMENI]);
  (0x1fe8, [w_GREEK;w_CAPITAL;w_LETTER;w_UPSILON;w_WITH;w_VRACHY]);
  (0x1fe9, [w_GREEK;w_CAPITAL;w_LETTER;w_UPSILON;w_WITH;w_MACRON]);
  (0x1fea, [w_GREEK;w_CAPITAL;w_LETTER;w_UPSILON;w_WITH;w_VARIA]);
  (0x1feb, [w_GREEK;w_CAPITAL;w_LETTER;w_UPSILON;w_WITH;w_OXIA]);
  (0x1fec, [w_GREEK;w_CAPITAL;w_LETTER;w_RHO;w_WITH;w_DASIA]);
  (0x1fed, [w_GREEK;w_DIALYTIKA;w_AND;w_VARIA]);
  (0x1fee, [w_GREEK;w_DIALYTIKA;w_AND;w_OXIA]);
  (0x1fef, [w_GREEK;w_VARIA]);
  (0x1ff2, [w_GREEK;w_SMALL;w_LETTER;w_OMEGA;w_WITH;w_VARIA;w_AND;w_YPOGEGRAMMENI]);
  (0x1ff3, [w_GREEK;w_SMALL;w_LETTER;w_OMEGA;w_WITH;w_YPOGEGRAMMENI]);
  (0x1ff4, [w_GREEK;w_SMALL;w_LETTER;w_OMEGA;w_WITH;w_OXIA;w_AND;w_YPOGEGRAMMENI]);
  (0x1ff6, [w_GREEK;w_SMALL;w_LETTER;w_OMEGA;w_WITH;w_PERISPOMENI]);
  (0x1ff7, [w_GREEK;w_SMALL;w_LETTER;w_OMEGA;w_WITH;w_PERISPOMENI;w_AND;w_YPOGEGRAMMENI]);
  (0x1ff8, [w_GREEK;w_CAPITAL;w_LETTER;w_OMICRON;w_WITH;w_VARIA]);
  (0x1ff9, [w_GREEK;w_CAPITAL;w_LETTER;w_OMICRON;w_WITH;w_OXIA]);
  (0x1ffa, [w_GREEK;w_CAPITAL;w_LETTER;w_OMEGA;w_WITH;w_VARIA]);
  (0x1ffb, [w_GREEK;w_CAPITAL;w_LETTER;w_OMEGA;w_WITH;w_OXIA]);
  (0x1ffc, [w_GREEK;w_CAPITAL;w_LETTER;w_OMEGA;w_WITH;w_PROSGEGRAMMENI]);
  (0x1ffd, [w_GREEK;w_OXIA]);
  (0x1ffe, [w_GREEK;w_DASIA]);
  (0x2000, [w_EN;w_QUAD]);
  (0x2001, [w_EM;w_QUAD]);
  (0x2002, [w_EN;w_SPACE]);
  (0x2003, [w_EM;w_SPACE]);
  (0x2004, [w_THREE_PER_EM;w_SPACE]);
  (0x2005, [w_FOUR_PER_EM;w_SPACE]);
  (0x2006, [w_SIX_PER_EM;w_SPACE]);
  (0x2007, [w_FIGURE;w_SPACE]);
  (0x2008, [w_PUNCTUATION;w_SPACE]);
  (0x2009, [w_THIN;w_SPACE]);
  (0x200a, [w_HAIR;w_SPACE]);
  (0x200b, [w_ZERO;w_WIDTH;w_SPACE]);
  (0x200c, [w_ZERO;w_WIDTH;w_NON_JOINER]);
  (0x200d, [w_ZERO;w_WIDTH;w_JOINER]);
  (0x200e, [w_LEFT_TO_RIGHT;w_MARK]);
  (0x200f, [w_RIGHT_TO_LEFT;w_MARK]);
  (0x2010, [w_HYPHEN]);
  (0x2011, [w_NON_BREAKING;w_HYPHEN]);
  (0x2012, [w_FIGURE;w_DASH]);
  (0x2013, [w_EN;w_DASH]);
  (0x2014, [w_EM;w_DASH]);
  (0x2015, [w_HORIZONTAL;w_BAR]);
  (0x2016, [w_DOUBLE;w_VERTICAL;w_LINE]);
  (0x2017, [w_DOUBLE;w_LOW;w_LINE]);
  (0x2018, [w_LEFT;w_SINGLE;w_QUOTATION;w_MARK]);
  (0x2019, [w_RIGHT;w_SINGLE;w_QUOTATION;w_MARK]);
  (0x201a, [w_SINGLE;w_LOW_9;w_QUOTATION;w_MARK]);
  (0x201b, [w_SINGLE;w_HIGH_REVERSED_9;w_QUOTATION;w_MARK]);
  (0x201c, [w_LEFT;w_DOUBLE;w_QUOTATION;w_MARK]);
  (0x201d, [w_RIGHT;w_DOUBLE;w_QUOTATION;w_MARK]);
  (0x201e, [w_DOUBLE;w_LOW_9;w_QUOTATION;w_MARK]);
  (0x201f, [w_DOUBLE;w_HIGH_REVERSED_9;w_QUOTATION;w_MARK]);
  (0x2020, [w_DAGGER]);
  (0x2021, [w_DOUBLE;w_DAGGER]);
  (0x2022, [w_BULLET]);
  (0x2023, [w_TRIANGULAR;w_BULLET]);
  (0x2024, [w_ONE;w_DOT;w_LEADER]);
  (0x2025, [w_TWO;w_DOT;w_LEADER]);
  (0x2026, [w_HORIZONTAL;w_ELLIPSIS]);
  (0x2027, [w_HYPHENATION;w_POINT]);
  (0x2028, [w_LINE;w_SEPARATOR]);
  (0x2029, [w_PARAGRAPH;w_SEPARATOR]);
  (0x202a, [w_LEFT_TO_RIGHT;w_EMBEDDING]);
  (0x202b, [w_RIGHT_TO_LEFT;w_EMBEDDING]);
  (0x202c, [w_POP;w_DIRECTIONAL;w_FORMATTING]);
  (0x202d, [w_LEFT_TO_RIGHT;w_OVERRIDE]);
  (0x202e, [w_RIGHT_TO_LEFT;w_OVERRIDE]);
  (0x202f, [w_NARROW;w_NO_BREAK;w_SPACE]);
  (0x2030, [w_PER;w_MILLE;w_SIGN]);
  (0x2031, [w_PER;w_TEN;w_THOUSAND;w_SIGN]);
  (0x2032, [w_PRIME]);
  (0x2033, [w_DOUBLE;w_PRIME]);
  (0x2034, [w_TRIPLE;w_PRIME]);
  (0x2035, [w_REVERSED;w_PRIME]);
  (0x2036, [w_REVERSED;w_DOUBLE;w_PRIME]);
  (0x2037, [w_REVERSED;w_TRIPLE;w_PRIME]);
  (0x2038, [w_CARET]);
  (0x2039, [w_SINGLE;w_LEFT_POINTING;w_ANGLE;w_QUOTATION;w_MARK]);
  (0x203a, [w_SINGLE;w_RIGHT_POINTING;w_ANGLE;w_QUOTATION;w_MARK]);
  (0x203b, [w_REFERENCE;w_MARK]);
  (0x203c, [w_DOUBLE;w_EXCLAMATION;w_MARK]);
  (0x203d, [w_INTERROBANG]);
  (0x203e, [w_OVERLINE]);
  (0x203f, [w_UNDERTIE]);
  (0x2040, [w_CHARACTER;w_TIE]);
  (0x2041, [w_CARET;w_INSERTION;w_POINT]);
  (0x2042, [w_ASTERISM]);
  (0x2043, [w_HYPHEN;w_BULLET]);
  (0x2044, [w_FRACTION;w_SLASH]);
  (0x2045, [w_LEFT;w_SQUARE;w_BRACKET;w_WITH;w_QUILL]);
  (0x2046, [w_RIGHT;w_SQUARE;w_BRACKET;w_WITH;w_QUILL]);
  (0x2047, [w_DOUBLE;w_QUESTION;w_MARK]);
  (0x2048, [w_QUESTION;w_EXCLAMATION;w_MARK]);
  (0x2049, [w_EXCLAMATION;w_QUESTION;w_MARK]);
  (0x204a, [w_TIRONIAN;w_SIGN;w_ET]);
  (0x204b, [w_REVERSED;w_PILCROW;w_SIGN]);
  (0x204c, [w_BLACK;w_LEFTWARDS;w_BULLET]);
  (0x204d, [w_BLACK;w_RIGHTWARDS;w_BULLET]);
  (0x204e, [w_LOW;w_ASTERISK]);
  (0x204f, [w_REVERSED;w_SEMICOLON]);
  (0x2050, [w_CLOSE;w_UP])].

Definition NAMES_18 : list (N * (list str)) := [
  (0x2051, [w_TWO;w_ASTERISKS;w_ALIGNED;w_VERTICALLY]);
  (0x2052, [w_COMMERCIAL;w_MINUS;w_SIGN]);
  (0x2053, [w_SWUNG;w_DASH]);
  (0x2054, [w_INVERTED;w_UNDERTIE]);
  (0x2055, [w_FLOWER;w_PUNCTUATION;w_MARK]);
  (0x2056, [w_THREE;w_DOT;w_PUNCTUATION]);
  (0x2057, [w_QUADRUPLE;w_PRIME]);
  (0x2058, [w_FOUR;w_DOT;w_PUNCTUATION]);
  (0x2059, [w_FIVE;w_DOT;w_PUNCTUATION]);
  (0x205a, [w_TWO;w_DOT;w_PUNCTUATION]);
  (0x205b, [w_FOUR;w_DOT;w_MARK]);
  (0x205c, [w_DOTTED;w_CROSS]);
  (0x205d, [w_TRICOLON]);
  (0x205e, [w_VERTICAL;w_FOUR;w_DOTS]);
  (0x205f, [w_MEDIUM;w_MATHEMATICAL;w_SPACE]);
  (0x2060, [w_WORD;w_JOINER]);
  (0x2061, [w_FUNCTION;w_APPLICATION]);
  (0x2062, [w_INVISIBLE;w_TIMES]);
  (0x2063, [w_INVISIBLE;w_SEPARATOR]);
  (0x2064, [w_INVISIBLE;w_PLUS]);
  (0x2066, [w_LEFT_TO_RIGHT;w_ISOLATE]);
  (0x2067, [w_RIGHT_TO_LEFT;w_ISOLATE]);
  (0x2068, [w_FIRST;w_STRONG;w_ISOLATE]);
  (0x2069, [w_POP;w_DIRECTIONAL;w_ISOLATE]);
  (0x206a, [w_INHIBIT;w_SYMMETRIC;w_SWAPPING]);
  (0x206b, [w_ACTIVATE;w_SYMMETRIC;w_SWAPPING]);
  (0x206c, [w_INHIBIT;w_ARABIC;w_FORM;w_SHAPING]);
  (0x206d, [w_ACTIVATE;w_ARABIC;w_FORM;w_SHAPING]);
  (0x206e, [w_NATIONAL;w_DIGIT;w_SHAPES]);
  (0x206f, [w_NOMINAL;w_DIGIT;w_SHAPES]);
  (0x2070, [w_SUPERSCRIPT;w_ZERO]);
  (0x2071, [w_SUPERSCRIPT;w_LATIN;w_SMALL;w_LETTER;w_I]);
  (0x2074, [w_SUPERSCRIPT;w_FOUR]);
  (0x2075, [w_SUPERSCRIPT;w_FIVE]);
  (0x2076, [w_SUPERSCRIPT;w_SIX]);
  (0x2077, [w_SUPERSCRIPT;w_SEVEN]);
  (0x2078, [w_SUPERSCRIPT;w_EIGHT]);
  (0x2079, [w_SUPERSCRIPT;w_NINE]);
  (0x207a, [w_SUPERSCRIPT;w_PLUS;w_SIGN]);
  (0x207b, [w_SUPERSCRIPT;w_MINUS]);
  (0x207c, [w_SUPERSCRIPT;w_EQUALS;w_SIGN]);
  (0x207d, [w_SUPERSCRIPT;w_LEFT;w_PARENTHESIS]);
  (0x207e, [w_SUPERSCRIPT;w_RIGHT;w_PARENTHESIS]);
  (0x207f, [w_SUPERSCRIPT;w_LATIN;w_SMALL;w_LETTER;w_N]);
  (0x2080, [w_SUBSCRIPT;w_ZERO]);
  (0x2081, [w_SUBSCRIPT;w_ONE]);
  (0x2082, [w_SUBSCRIPT;w_TWO]);
  (0x2083, [w_SUBSCRIPT;w_THREE]);
  (0x2084, [w_SUBSCRIPT;w_FOUR]);
  (0x2085, [w_SUBSCRIPT;w_FIVE]);
  (0x2086, [w_SUBSCRIPT;w_SIX]);
  (0x2087, [w_SUBSCRIPT;w_SEVEN]);
  (0x2088, [w_SUBSCRIPT;w_EIGHT]);
  (0x2089, [w_SUBSCRIPT;w_NINE]);
  (0x208a, [w_SUBSCRIPT;w_PLUS;w_SIGN]);
  (0x208b, [w_SUBSCRIPT;w_MINUS]);
  (0x208c, [w_SUBSCRIPT;w_EQUALS;w_SIGN]);
  (0x208d, [w_SUBSCRIPT;w_LEFT;w_PARENTHESIS]);
  (0x208e, [w_SUBSCRIPT;w_RIGHT;w_PARENTHESIS]);
  (0x2090, [w_LATIN;w_SUBSCRIPT;w_SMALL;w_LETTER;w_A]);
  (0x2091, [w_LATIN;w_SUBSCRIPT;w_SMALL;w_LETTER;w_E]);
  (0x2092, [w_LATIN;w_SUBSCRIPT;w_SMALL;w_LETTER;w_O]);
  (0x2093, [w_LATIN;w_SUBSCRIPT;w_SMALL;w_LETTER;w_X]);
  (0x2094, [w_LATIN;w_SUBSCRIPT;w_SMALL;w_LETTER;w_SCHWA]);
  (0x2095, [w_LATIN;w_SUBSCRIPT;w_SMALL;w_LETTER;w_H]);
  (0x2096, [w_LATIN;w_SUBSCRIPT;w_SMALL;w_LETTER;w_K]);
  (0x2097, [w_LATIN;w_SUBSCRIPT;w_SMALL;w_LETTER;w_L]);
  (0x2098, [w_LATIN;w_SUBSCRIPT;w_SMALL;w_LETTER;w_M]);
  (0x2099, [w_LATIN;w_SUBSCRIPT;w_SMALL;w_LETTER;w_N]);
  (0x209a, [w_LATIN;w_SUBSCRIPT;w_SMALL;w_LETTER;w_P]);
  (0x209b, [w_LATIN;w_SUBSCRIPT;w_SMALL;w_LETTER;w_S]);
  (0x209c, [w_LATIN;w_SUBSCRIPT;w_SMALL;w_LETTER;w_T]);
  (0x20a0, [w_EURO_CURRENCY;w_SIGN]);
  (0x20a1, [w_COLON;w_SIGN]);
  (0x20a2, [w_CRUZEIRO;w_SIGN]);
  (0x20a3, [w_FRENCH;w_FRANC;w_SIGN]);
  (0x20a4, [w_LIRA;w_SIGN]);
  (0x20a5, [w_MILL;w_SIGN]);
  (0x20a6, [w_NAIRA;w_SIGN]);
  (0x20a7, [w_PESETA;w_SIGN]);
  (0x20a8, [w_RUPEE;w_SIGN]);
  (0x20a9, [w_WON;w_SIGN]);
  (0x20aa, [w_NEW;w_SHEQEL;w_SIGN]);
  (0x20ab, [w_DONG;w_SIGN]);
  (0x20ac, [w_EURO;w_SIGN]);
  (0x20ad, [w_KIP;w_SIGN]);
  (0x20ae, [w_TUGRIK;w_SIGN]);
  (0x20af, [w_DRACHMA;w_SIGN]);
  (0x20b0, [w_GERMAN;w_PENNY;w_SIGN]);
  (0x20b1, [w_PESO;w_SIGN]);
  (0x20b2, [w_GUARANI;w_SIGN]);
  (0x20b3, [w_AUSTRAL;w_SIGN]);
  (0x20b4, [w_HRYVNIA;w_SIGN]);
  (0x20b5, [w_CEDI;w_SIGN]);
  (0x20b6, [w_LIVRE;w_TOURNOIS;w_SIGN]);
  (0x20b7, [w_SPESMILO;w_SIGN]);
  (0x20b8, [w_TENGE;w_SIGN]);
  (0x20b9, [w_INDIAN;w_RUPEE;w_SIGN]);
  (0x20ba, [w_TURKISH;w_LIRA;w_SIGN]);
  (0x20bb, [w_NORDIC;w_MARK;w_SIGN]);
  (0x20bc, [w_MANAT;w_SIGN]);
  (0x20bd, [w_RUBLE;w_SIGN]);
  (0x20be, [w_LARI;w_SIGN]);
  (0x20bf, [w_BITCOIN;w_SIGN]);
  (0x20d0, [w_COMBINING;w_LEFT;w_HARPOON;w_ABOVE]);
  (0x20d1, [w_COMBINING;w_RIGHT;w_HARPOON;w_ABOVE]);
  (0x20d2, [w_COMBINING;w_LONG;w_VERTICAL;w_LINE;w_OVERLAY]);
  (0x20d3, [w_COMBINING;w_SHORT;w_VERTICAL;w_LINE;w_OVERLAY]);
  (0x20d4, [w_COMBINING;w_ANTICLOCKWISE;w_ARROW;w_ABOVE]);
  (0x20d5, [w_COMBINING;w_CLOCKWISE;w_ARROW;w_ABOVE]);
  (0x20d6, [w_COMBINING;w_LEFT;w_ARROW;w_ABOVE]);
  (0x20d7, [w_COMBINING;w_RIGHT;w_ARROW;w_ABOVE]);
  (0x20d8, [w_COMBINING;w_RING;w_OVERLAY]);
  (0x20d9, [w_COMBINING;w_CLOCKWISE;w_RING;w_OVERLAY]);
  (0x20da, [w_COMBINING;w_ANTICLOCKWISE;w_RING;w_OVERLAY]);
  (0x20db, [w_COMBINING;w_THREE;w_DOTS;w_ABOVE]);
  (0x20dc, [w_COMBINING;w_FOUR;w_DOTS;w_ABOVE]);
  (0x20dd, [w_COMBINING;w_ENCLOSING;w_CIRCLE]);
  (0x20de, [w_COMBINING;w_ENCLOSING;w_SQUARE]);
  (0x20df, [w_COMBINING;w_ENCLOSING;w_DIAMOND]);
  (0x20e0, [w_COMBINING;w_ENCLOSING;w_CIRCLE;w_BACKSLASH]);
  (0x20e1, [w_COMBINING;w_LEFT;w_RIGHT;w_ARROW;w_ABOVE]);
  (0x20e2, [w_COMBINING;w_ENCLOSING;w_SCREEN]);
  (0x20e3, [w_COMBINING;w_ENCLOSING;w_KEYCAP]);
  (0x20e4, [w_COMBINING;w_ENCLOSING;w_UPWARD;w_POINTING;w_TRIANGLE]);
  (0x20e5, [w_COMBINING;w_REVERSE;w_SOLIDUS;w_OVERLAY]);
  (0x20e6, [w_COMBINING;w_DOUBLE;w_VERTICAL;w_STROKE;w_OVERLAY]);
  (0x20e7, [w_COMBINING;w_ANNUITY;w_SYMBOL]);
  (0x20e8, [w_COMBINING;w_TRIPLE;w_UNDERDOT]);
  (0x20e9, [w_COMBINING;w_WIDE;w_BRIDGE;w_ABOVE]);
  (0x20ea, [w_COMBINING;w_LEFTWARDS;w_ARROW;w_OVERLAY]);
  (0x20eb, [w_COMBINING;w_LONG;w_DOUBLE;w_SOLIDUS;w_OVERLAY]);
  (0x20ec, [w_COMBINING;w_RIGHTWARDS;w_HARPOON;w_WITH;w_BARB;w_DOWNWARDS]);
  (0x20ed, [w_COMBINING;w_LEFTWARDS;w_HARPOON;w_WITH;w_BARB;w_DOWNWARDS]);
  (0x20ee, [w_COMBINING;w_LEFT;w_ARROW;w_BELOW]);
  (0x20ef, [w_COMBINING;w_RIGHT;w_ARROW;w_BELOW]);
  (0x20f0, [w_COMBINING;w_ASTERISK;w_ABOVE]);
  (0x2100, [w_ACCOUNT;w_OF]);
  (0x2101, [w_ADDRESSED;w_TO;w_THE;w_SUBJECT]);
  (0x2102, [w_DOUBLE_STRUCK;w_CAPITAL;w_C]);
  (0x2103, [w_DEGREE;w_CELSIUS]);
  (0x2104, [w_CENTRE;w_LINE;w_SYMBOL]);
  (0x2105, [w_CARE;w_OF]);
  (0x2106, [w_CADA;w_UNA]);
  (0x2107, [w_EULER;w_CONSTANT]);
  (0x2108, [w_SCRUPLE]);
  (0x2109, [w_DEGREE;w_FAHRENHEIT]);
  (0x210a, [w_SCRIPT;w_SMALL;w_G]);
  (0x210b, [w_SCRIPT;w_CAPITAL;w_H]);
  (0x210c, [w_BLACK_LETTER;w_CAPITAL;w_H]);
  (0x210d, [w_DOUBLE_STRUCK;w_CAPITAL;w_H]);
  (0x210e, [w_PLANCK;w_CONSTANT]);
  (0x210f, [w_PLANCK;w_CONSTANT;w_OVER;w_TWO;w_PI]);
  (0x2110, [w_SCRIPT;w_CAPITAL;w_I]);
  (0x2111, [w_BLACK_LETTER;w_CAPITAL;w_I]);
  (0x2112, [w_SCRIPT;w_CAPITAL;w_L]);
  (0x2113, [w_SCRIPT;w_SMALL;w_L]);
  (0x2114, [w_L;w_B;w_BAR;w_SYMBOL]);
  (0x2115, [w_DOUBLE_STRUCK;w_CAPITAL;w_N]);
  (0x2116, [w_NUMERO;w_SIGN]);
  (0x2117, [w_SOUND;w_RECORDING;w_COPYRIGHT]);
  (0x2118, [w_SCRIPT;w_CAPITAL;w_P]);
  (0x2119, [w_DOUBLE_STRUCK;w_CAPITAL;w_P]);
  (0x211a, [w_DOUBLE_STRUCK;w_CAPITAL;w_Q]);
  (0x211b, [w_SCRIPT;w_CAPITAL;w_R]);
  (0x211c, [w_BLACK_LETTER;w_CAPITAL;w_R]);
  (0x211d, [w_DOUBLE_STRUCK;w_CAPITAL;w_R]);
  (0x211e, [w_PRESCRIPTION;w_TAKE]);
  (0x211f, [w_RESPONSE]);
  (0x2120, [w_SERVICE;w_MARK]);
  (0x2121, [w_TELEPHONE;w_SIGN]);
  (0x2122, [w_TRADE;w_MARK;w_SIGN]);
  (0x2123, [w_VERSICLE]);
  (0x2124, [w_DOUBLE_STRUCK;w_CAPITAL;w_Z]);
  (0x2125, [w_OUNCE;w_SIGN]);
  (0x2126, [w_OHM;w_SIGN]);
  (0x2127, [w_INVERTED;w_OHM;w_SIGN]);
  (0x2128, [w_BLACK_LETTER;w_CAPITAL;w_Z]);
  (0x2129, [w_TURNED;w_GREEK;w_SMALL;w_LETTER;w_IOTA]);
  (0x212a, [w_KELVIN;w_SIGN]);
  (0x212b, [w_ANGSTROM;w_SIGN]);
  (0x212c, [w_SCRIPT;w_CAPITAL;w_B]);
  (0x212d, [w_BLACK_LETTER;w_CAPITAL;w_C]);
  (0x212e, [w_ESTIMATED;w_SYMBOL]);
  (0x212f, [w_SCRIPT;w_SMALL;w_E]);
  (0x2130, [w_SCRIPT;w_CAPITAL;w_E]);
  (0x2131, [w_SCRIPT;w_CAPITAL;w_F]);
  (0x2132, [w_TURNED;w_CAPITAL;w_F]);
  (0x2133, [w_SCRIPT;w_CAPITAL;w_M]);
  (0x2134, [w_SCRIPT;w_SMALL;w_O]);
  (0x2135, [w_ALEF;w_SYMBOL]);
  (0x2136, [w_BET;w_SYMBOL]);
  (0x2137, [w_GIMEL;w_SYMBOL]);
  (0x2138, [w_DALET;w_SYMBOL]);
  (0x2139, [w_INFORMATION;w_SOURCE]);
  (0x213a, [w_ROTATED;w_CAPITAL;w_Q]);
  (0x213b, [w_FACSIMILE;w_SIGN]);
  (0x213c, [w_DOUBLE_STRUCK;w_SMALL;w_PI]);
  (0x213d, [w_DOUBLE_STRUCK;w_SMALL;w_GAMMA]);
  (0x213e, [w_DOUBLE_STRUCK;w_CAPITAL;w_GAMMA]);
  (0x213f, [w_DOUBLE_STRUCK;w_CAPITAL;w_PI]);
  (0x2140, [w_DOUBLE_STRUCK;w_N_ARY;w_SUMMATION]);
  (0x2141, [w_TURNED;w_SANS_SERIF;w_CAPITAL;w_G]);
  (0x2142, [w_TURNED;w_SANS_SERIF;w_CAPITAL;w_L]);
  (0x2143, [w_REVERSED;w_SANS_SERIF;w_CAPITAL;w_L]);
  (0x2144, [w_TURNED;w_SANS_SERIF;w_CAPITAL;w_Y]);
  (0x2145, [w_DOUBLE_STRUCK;w_ITALIC;w_CAPITAL;w_D]);
  (0x2146, [w_DOUBLE_STRUCK;w_ITALIC;w_SMALL;w_D]);
  (0x2147, [w_DOUBLE_STRUCK;w_ITALIC;w_SMALL;w_E]);
  (0x2148, [w_DOUBLE_STRUCK;w_ITALIC;w_SMALL;w_I]);
  (0x2149, [w_DOUBLE_STRUCK;w_ITALIC;w_SMALL;w_J]);
  (0x214a, [w_PROPERTY;w_LINE]);
  (0x214b, [w_TURNED;w_AMPERSAND]);
  (0x214c, [w_PER;w_SIGN]);
  (0x214d, [w_AKTIESELSKAB]);
  (0x214e, [w_TURNED;w_SMALL;w_F]);
  (0x214f, [w_SYMBOL;w_FOR;w_SAMARITAN;w_SOURCE]);
  (0x2150, [w_VULGAR;w_FRACTION;w_ONE;w_SEVENTH]);
  (0x2151, [w_VULGAR;w_FRACTION;w_ONE;w_NINTH]);
  (0x2152, [w_VULGAR;w_FRACTION;w_ONE;w_TENTH]);
  (0x2153, [w_VULGAR;w_FRACTION;w_ONE;w_THIRD]);
  (0x2154, [w_VULGAR;w_FRACTION;w_TWO;w_THIRDS]);
  (0x2155, [w_VULGAR;w_FRACTION;w_ONE;w_FIFTH]);
  (0x2156, [w_VULGAR;w_FRACTION;w_TWO;w_FIFTHS]);
  (0x2157, [w_VULGAR;w_FRACTION;w_THREE;w_FIFTHS]);
  (0x2158, [w_VULGAR;w_FRACTION;w_FOUR;w_FIFTHS]);
  (0x2159, [w_VULGAR;w_FRACTION;w_ONE;w_SIXTH]);
  (0x215a, [w_VULGAR;w_FRACTION;w_FIVE;w_SIXTHS]);
  (0x215b, [w_VULGAR;w_FRACTION;w_ONE;w_EIGHTH]);
  (0x215c, [w_VULGAR;w_FRACTION;w_THREE;w_EIGHTHS]);
  (0x215d, [w_VULGAR;w_FRACTION;w_FIVE;w_EIGHTHS]);
  (0x215e, [w_VULGAR;w_FRACTION;w_SEVEN;w_EIGHTHS]);
  (0x215f, [w_FRACTION;w_NUMERATOR;w_ONE]);
  (0x2160, [w_ROMAN;w_NUMERAL;w_ONE]);
  (0x2161, [w_ROMAN;w_NUMERAL;w_TWO]);
  (0x2162, [w_ROMAN;w_NUMERAL;w_THREE]);
  (0x2163, [w_ROMAN;w_NUMERAL;w_FOUR]);
  (0x2164, [w_ROMAN;w_NUMERAL;w_FIVE]);
  (0x2165, [w_ROMAN;w_NUMERAL;w_SIX]);
  (0x2166, [w_ROMAN;w_NUMERAL;w_SEVEN]);
  (0x2167, [w_ROMAN;w_NUMERAL;w_EIGHT]);
  (0x2168, [w_ROMAN;w_NUMERAL;w_NINE]);
  (0x2169, [w_ROMAN;w_NUMERAL;w_TEN]);
  (0x216a, [w_ROMAN;w_NUMERAL;w_ELEVEN]);
  (0x216b, [w_ROMAN;w_NUMERAL;w_TWELVE]);
  (0x216c, [w_ROMAN;w_NUMERAL;w_FIFTY]);
  (0x216d, [w_ROMAN;w_NUMERAL;w_ONE;w_HUNDRED]);
  (0x216e, [w_ROMAN;w_NUMERAL;w_FIVE;w_HUNDRED]);
  (0x216f, [w_ROMAN;w_NUMERAL;w_ONE;w_THOUSAND]);
  (0x2170, [w_SMALL;w_ROMAN;w_NUMERAL;w_ONE]);
  (0x2171, [w_SMALL;w_ROMAN;w_NUMERAL;w_TWO]);
  (0x2172, [w_SMALL;w_ROMAN;w_NUMERAL;w_THREE]);
  (0x2173, [w_SMALL;w_ROMAN;w_NUMERAL;w_FOUR]);
  (0x2174, [w_SMALL;w_ROMAN;w_NUMERAL;w_FIVE]);
  (0x2175, [w_SMALL;w_ROMAN;w_NUMERAL;w_SIX]);
  (0x2176, [w_SMALL;w_ROMAN;w_NUMERAL;w_SEVEN]);
  (0x2177, [w_SMALL;w_ROMAN;w_NUMERAL;w_EIGHT]);
  (0x2178, [w_SMALL;w_ROMAN;w_NUMERAL;w_NINE]);
  (0x2179, [w_SMALL;w_ROMAN;w_NUMERAL;w_TEN]);
  (0x217a, [w_SMALL;w_ROMAN;w_NUMERAL;w_ELEVEN]);
  (0x217b, [w_SMALL;w_ROMAN;w_NUMERAL;w_TWELVE]);
  (0x217c, [w_SMALL;w_ROMAN;w_NUMERAL;w_FIFTY]);
  (0x217d, [w_SMALL;w_ROMAN;w_NUMERAL;w_ONE;w_HUNDRED]);
  (0x217e, [w_SMALL;w_ROMAN;w_NUMERAL;w_FIVE;w_HUNDRED]);
  (0x217f, [w_SMALL;w_ROMAN;w_NUMERAL;w_ONE;w_THOUSAND]);
  (0x2180, [w_ROMAN;w_NUMERAL;w_ONE;w_THOUSAND;w_C;w_D]);
  (0x2181, [w_ROMAN;w_NUMERAL;w_FIVE;w_THOUSAND]);
  (0x2182, [w_ROMAN;w_NUMERAL;w_TEN;w_THOUSAND]);
  (0x2183, [w_ROMAN;w_NUMERAL;w_REVERSED;w_ONE;w_HUNDRED]);
  (0x2184, [w_LATIN;w_SMALL;w_LETTER;w_REVERSED;w_C]);
  (0x2185, [w_ROMAN;w_NUMERAL;w_SIX;w_LATE;w_FORM]);
  (0x2186, [w_ROMAN;w_NUMERAL;w_FIFTY;w_EARLY;w_FORM]);
  (0x2187, [w_ROMAN;w_NUMERAL;w_FIFTY;w_THOUSAND]);
  (0x2188, [w_ROMAN;w_NUMERAL;w_ONE;w_HUNDRED;w_THOUSAND]);
  (0x2189, [w_VULGAR;w_FRACTION;w_ZERO;w_THIRDS]);
  (0x218a, [w_TURNED;w_DIGIT;w_TWO]);
  (0x218b, [w_TURNED;w_DIGIT;w_THREE]);
  (0x2190, [w_LEFTWARDS;w_ARROW]);
  (0x2191, [w_UPWARDS;w_ARROW]);
  (0x2192, [w_RIGHTWARDS;w_ARROW]);
  (0x2193, [w_DOWNWARDS;w_ARROW]);
  (0x2194, [w_LEFT;w_RIGHT;w_ARROW]);
  (0x2195, [w_UP;w_DOWN;w_ARROW]);
  (0x2196, [w_NORTH;w_WEST;w_ARROW]);
  (0x2197, [w_NORTH;w_EAST;w_ARROW]);
  (0x2198, [w_SOUTH;w_EAST;w_ARROW]);
  (0x2199, [w_SOUTH;w_WEST;w_ARROW]);
  (0x219a, [w_LEFTWARDS;w_ARROW;w_WITH;w_STROKE]);
  (0x219b, [w_RIGHTWARDS;w_ARROW;w_WITH;w_STROKE]);
  (0x219c, [w_LEFTWARDS;w_WAVE;w_ARROW]);
  (0x219d, [w_RIGHTWARDS;w_WAVE;w_ARROW]);
  (0x219e, [w_LEFTWARDS;w_TWO;w_HEADED;w_ARROW]);
  (0x219f, [w_UPWARDS;w_TWO;w_HEADED;w_ARROW]);
  (0x21a0, [w_RIGHTWARDS;w_TWO;w_HEADED;w_ARROW]);
  (0x21a1, [w_DOWNWARDS;w_TWO;w_HEADED;w_ARROW]);
  (0x21a2, [w_LEFTWARDS;w_ARROW;w_WITH;w_TAIL]);
  (0x21a3, [w_RIGHTWARDS;w_ARROW;w_WITH;w_TAIL]);
  (0x21a4, [w_LEFTWARDS;w_ARROW;w_FROM;w_BAR]);
  (0x21a5, [w_UPWARDS;w_ARROW;w_FROM;w_BAR]);
  (0x21a6, [w_RIGHTWARDS;w_ARROW;w_FROM;w_BAR]);
  (0x21a7, [w_DOWNWARDS;w_ARROW;w_FROM;w_BAR]);
  (0x21a8, [w_UP;w_DOWN;w_ARROW;w_WITH;w_BASE]);
  (0x21a9, [w_LEFTWARDS;w_ARROW;w_WITH;w_HOOK]);
  (0x21aa, [w_RIGHTWARDS;w_ARROW;w_WITH;w_HOOK]);
  (0x21ab, [w_LEFTWARDS;w_ARROW;w_WITH;w_LOOP]);
  (0x21ac, [w_RIGHTWARDS;w_ARROW;w_WITH;w_LOOP]);
  (0x21ad, [w_LEFT;w_RIGHT;w_WAVE;w_ARROW]);
  (0x21ae, [w_LEFT;w_RIGHT;w_ARROW;w_WITH;w_STROKE]);
  (0x21af, [w_DOWNWARDS;w_ZIGZAG;w_ARROW]);
  (0x21b0, [w_UPWARDS;w_ARROW;w_WITH;w_TIP;w_LEFTWARDS]);
  (0x21b1, [w_UPWARDS;w_ARROW;w_WITH;w_TIP;w_RIGHTWARDS]);
  (0x21b2, [w_DOWNWARDS;w_ARROW;w_WITH;w_TIP;w_LEFTWARDS]);
  (0x21b3, [w_DOWNWARDS;w_ARROW;w_WITH;w_TIP;w_RIGHTWARDS]);
  (0x21b4, [w_RIGHTWARDS;w_ARROW;w_WITH;w_CORNER;w_DOWNWARDS]);
  (0x21b5, [w_DOWNWARDS;w_ARROW;w_WITH;w_CORNER;w_LEFTWARDS]);
  (0x21b6, [w_ANTICLOCKWISE;w_TOP;w_SEMICIRCLE;w_ARROW]);
  (0x21b7, [w_CLOCKWISE;w_TOP;w_SEMICIRCLE;w_ARROW]);
  (0x21b8, [w_NORTH;w_WEST;w_ARROW;w_TO;w_LONG;w_BAR]);
  (0x21b9, [w_LEFTWARDS;w_ARROW;w_TO;w_BAR;w_OVER;w_RIGHTWARDS;w_ARROW;w_TO;w_BAR]);
  (0x21ba, [w_ANTICLOCKWISE;w_OPEN;w_CIRCLE;w_ARROW]);
  (0x21bb, [w_CLOCKWISE;w_OPEN;w_CIRCLE;w_ARROW]);
  (0x21bc, [w_LEFTWARDS;w_HARPOON;w_WITH;w_BARB;w_UPWARDS]);
  (0x21bd, [w_LEFTWARDS;w_HARPOON;w_WITH;w_BARB;w_DOWNWARDS]);
  (0x21be, [w_UPWARDS;w_HARPOON;w_WITH;w_BARB;w_RIGHTWARDS]);
  (0x21bf, [w_UPWARDS;w_HARPOON;w_WITH;w_BARB;w_LEFTWARDS]);
  (0x21c0, [w_RIGHTWARDS;w_HARPOON;w_WITH;w_BARB;w_UPWARDS]);
  (0x21c1, [w_RIGHTWARDS;w_HARPOON;w_WITH;w_BARB;w_DOWNWARDS]);
  (0x21c2, [w_DOWNWARDS;w_HARPOON;w_WITH;w_BARB;w_RIGHTWARDS]);
  (0x21c3, [w_DOWNWARDS;w_HARPOON;w_WITH;w_BARB;w_LEFTWARDS]);
  (0x21c4, [w_RIGHTWARDS;w_ARROW;w_OVER;w_LEFTWARDS;w_ARROW]);
  (0x21c5, [w_UPWARDS;w_ARROW;w_LEFTWARDS;w_OF;w_DOWNWARDS;w_ARROW]);
  (0x21c6, [w_LEFTWARDS;w_ARROW;w_OVER;w_RIGHTWARDS;w_ARROW]);
  (0x21c7, [w_LEFTWARDS;w_PAIRED;w_ARROWS]);
  (0x21c8, [w_UPWARDS;w_PAIRED;w_ARROWS]);
  (0x21c9, [w_RIGHTWARDS;w_PAIRED;w_ARROWS]);
  (0x21ca, [w_DOWNWARDS;w_PAIRED;w_ARROWS]);
  (0x21cb, [w_LEFTWARDS;w_HARPOON;w_OVER;w_RIGHTWARDS;w_HARPOON]);
  (0x21cc, [w_RIGHTWARDS;w_HARPOON;w_OVER;w_LEFTWARDS;w_HARPOON]);
  (0x21cd, [w_LEFTWARDS;w_DOUBLE;w_ARROW;w_WITH;w_STROKE]);
  (0x21ce, [w_LEFT;w_RIGHT;w_DOUBLE;w_ARROW;w_WITH;w_STROKE]);
  (0x21cf, [w_RIGHTWARDS;w_DOUBLE;w_ARROW;w_WITH;w_STROKE]);
  (0x21d0, [w_LEFTWARDS;w_DOUBLE;w_ARROW]);
  (0x21d1, [w_UPWARDS;w_DOUBLE;w_ARROW]);
  (0x21d2, [w_RIGHTWARDS;w_DOUBLE;w_ARROW]);
  (0x21d3, [w_DOWNWARDS;w_DOUBLE;w_ARROW]);
  (0x21d4, [w_LEFT;w_RIGHT;w_DOUBLE;w_ARROW]);
  (0x21d5, [w_UP;w_DOWN;w_DOUBLE;w_ARROW]);
  (0x21d6, [w_NORTH;w_WEST;w_DOUBLE;w_ARROW]);
  (0x21d7, [w_NORTH;w_EAST;w_DOUBLE;w_ARROW]);
  (0x21d8, [w_SOUTH;w_EAST;w_DOUBLE;w_ARROW]);
  (0x21d9, [w_SOUTH;w_WEST;w_DOUBLE;w_ARROW]);
  (0x21da, [w_LEFTWARDS;w_TRIPLE;w_ARROW]);
  (0x21db, [w_RIGHTWARDS;w_TRIPLE;w_ARROW]);
  (0x21dc, [w_LEFTWARDS;w_SQUIGGLE;w_ARROW]);
  (0x21dd, [w_RIGHTWARDS;w_SQUIGGLE;w_ARROW]);
  (0x21de, [w_UPWARDS;w_ARROW;w_WITH;w_DOUBLE;w_STROKE]);
  (0x21df, [w_DOWNWARDS;w_ARROW;w_WITH;w_DOUBLE;w_STROKE]);
  (0x21e0, [w_LEFTWARDS;w_DASHED;w_ARROW]);
  (0x21e1, [w_UPWARDS;w_DASHED;w_ARROW]);
  (0x21e2, [w_RIGHTWARDS;w_DASHED;w_ARROW]);
  (0x21e3, [w_DOWNWARDS;w_DASHED;w_ARROW]);
  (0x21e4, [w_LEFTWARDS;w_ARROW;w_TO;w_BAR]);
  (0x21e5, [w_RIGHTWARDS;w_ARROW;w_TO;w_BAR]);
  (0x21e6, [w_LEFTWARDS;w_WHITE;w_ARROW]);
  (0x21e7, [w_UPWARDS;w_WHITE;w_ARROW]);
  (0x21e8, [w_RIGHTWARDS;w_WHITE;w_ARROW]);
  (0x21e9, [w_DOWNWARDS;w_WHITE;w_ARROW]);
  (0x21ea, [w_UPWARDS;w_WHITE;w_ARROW;w_FROM;w_BAR]);
  (0x21eb, [w_UPWARDS;w_WHITE;w_ARROW;w_ON;w_PEDESTAL]);
  (0x21ec, [w_UPWARDS;w_WHITE;w_ARROW;w_ON;w_PEDESTAL;w_WITH;w_HORIZONTAL;w_BAR]);
  (0x21ed, [w_UPWARDS;w_WHITE;w_ARROW;w_ON;w_PEDESTAL;w_WITH;w_VERTICAL;w_BAR]);
  (0x21ee, [w_UPWARDS;w_WHITE;w_DOUBLE;w_ARROW]);
  (0x21ef, [w_UPWARDS;w_WHITE;w_DOUBLE;w_ARROW;w_ON;w_PEDESTAL]);
  (0x21f0, [w_RIGHTWARDS;w_WHITE;w_ARROW;w_FROM;w_WALL]);
  (0x21f1, [w_NORTH;w_WEST;w_ARROW;w_TO;w_CORNER]);
  (0x21f2, [w_SOUTH;w_EAST;w_ARROW;w_TO;w_CORNER]);
  (0x21f3, [w_UP;w_DOWN;w_WHITE;w_ARROW]);
  (0x21f4, [w_RIGHT;w_ARROW;w_WITH;w_SMALL;w_CIRCLE]);
  (0x21f5, [w_DOWNWARDS;w_ARROW;w_LEFTWARDS;w_OF;w_UPWARDS;w_ARROW]);
  (0x21f6, [w_THREE;w_RIGHTWARDS;w_ARROWS]);
  (0x21f7, [w_LEFTWARDS;w_ARROW;w_WITH;w_VERTICAL;w_STROKE]);
  (0x21f8, [w_RIGHTWARDS;w_ARROW;w_WITH;w_VERTICAL;w_STROKE]);
  (0x21f9, [w_LEFT;w_RIGHT;w_ARROW;w_WITH;w_VERTICAL;w_STROKE]);
  (0x21fa, [w_LEFTWARDS;w_ARROW;w_WITH;w_DOUBLE;w_VERTICAL;w_STROKE]);
  (0x21fb, [w_RIGHTWARDS;w_ARROW;w_WITH;w_DOUBLE;w_VERTICAL;w_STROKE]);
  (0x21fc, [w_LEFT;w_RIGHT;w_ARROW;w_WITH;w_DOUBLE;w_VERTICAL;w_STROKE]);
  (0x21fd, [w_LEFTWARDS;w_OPEN_HEADED;w_ARROW]);
  (0x21fe, [w_RIGHTWARDS;w_OPEN_HEADED;w_ARROW]);
  (0x21ff, [w_LEFT;w_RIGHT;w_OPEN_HEADED;w_ARROW]);
  (0x2200, [w_FOR;w_ALL]);
  (0x2201, [w_COMPLEMENT]);
  (0x2202, [w_PARTIAL;w_DIFFERENTIAL]);
  (0x2203, [w_THERE;w_EXISTS]);
  (0x2204, [w_THERE;w_DOES;w_NOT;w_EXIST]);
  (0x2205, [w_EMPTY;w_SET]);
  (0x2206, [w_INCREMENT]);
  (0x2207, [w_NABLA]);
  (0x2208, [w_ELEMENT;w_OF]);
  (0x2209, [w_NOT;w_AN;w_ELEMENT;w_OF]);
  (0x220a, [w_SMALL;w_ELEMENT;w_OF])].

Definition NAMES_19 : list (N * (list str)) := [
  (0x220b, [w_CONTAINS;w_AS;w_MEMBER]);
  (0x220c, [w_DOES;w_NOT;w_CONTAIN;w_AS;w_MEMBER]);
  (0x220d, [w_SMALL;w_CONTAINS;w_AS;w_MEMBER]);
  (0x220e, [w_END;w_OF;w_PROOF]);
  (0x220f, [w_N_ARY;w_PRODUCT]);
  (0x2210, [w_N_ARY;w_COPRODUCT]);
  (0x2211, [w_N_ARY;w_SUMMATION]);
  (0x2212, [w_MINUS;w_SIGN]);
  (0x2213, [w_MINUS_OR_PLUS;w_SIGN]);
  (0x2214, [w_DOT;w_PLUS]);
  (0x2215, [w_DIVISION;w_SLASH]);
  (0x2216, [w_SET;w_MINUS]);
  (0x2217, [w_ASTERISK;w_OPERATOR]);
  (0x2218, [w_RING;w_OPERATOR]);
  (0x2219, [w_BULLET;w_OPERATOR]);
  (0x221a, [w_SQUARE;w_ROOT]);
  (0x221b, [w_CUBE;w_ROOT]);
  (0x221c, [w_FOURTH;w_ROOT]);
  (0x221d, [w_PROPORTIONAL;w_TO]);
  (0x221e, [w_INFINITY]);
  (0x221f, [w_RIGHT;w_ANGLE]);
  (0x2220, [w_ANGLE]);
  (0x2221, [w_MEASURED;w_ANGLE]);
  (0x2222, [w_SPHERICAL;w_ANGLE]);
  (0x2223, [w_DIVIDES]);
  (0x2224, [w_DOES;w_NOT;w_DIVIDE]);
  (0x2225, [w_PARALLEL;w_TO]);
  (0x2226, [w_NOT;w_PARALLEL;w_TO]);
  (0x2227, [w_LOGICAL;w_AND]);
  (0x2228, [w_LOGICAL;w_OR]);
  (0x2229, [w_INTERSECTION]);
  (0x222a, [w_UNION]);
  (0x222b, [w_INTEGRAL]);
  (0x222c, [w_DOUBLE;w_INTEGRAL]);
  (0x222d, [w_TRIPLE;w_INTEGRAL]);
  (0x222e, [w_CONTOUR;w_INTEGRAL]);
  (0x222f, [w_SURFACE;w_INTEGRAL]);
  (0x2230, [w_VOLUME;w_INTEGRAL]);
  (0x2231, [w_CLOCKWISE;w_INTEGRAL]);
  (0x2232, [w_CLOCKWISE;w_CONTOUR;w_INTEGRAL]);
  (0x2233, [w_ANTICLOCKWISE;w_CONTOUR;w_INTEGRAL]);
  (0x2234, [w_THEREFORE]);
  (0x2235, [w_BECAUSE]);
  (0x2236, [w_RATIO]);
  (0x2237, [w_PROPORTION]);
  (0x2238, [w_DOT;w_MINUS]);
  (0x2239, [w_EXCESS]);
  (0x223a, [w_GEOMETRIC;w_PROPORTION]);
  (0x223b, [w_HOMOTHETIC]);
  (0x223c, [w_TILDE;w_OPERATOR]);
  (0x223d, [w_REVERSED;w_TILDE]);
  (0x223e, [w_INVERTED;w_LAZY;w_S]);
  (0x223f, [w_SINE;w_WAVE]);
  (0x2240, [w_WREATH;w_PRODUCT]);
  (0x2241, [w_NOT;w_TILDE]);
  (0x2242, [w_MINUS;w_TILDE]);
  (0x2243, [w_ASYMPTOTICALLY;w_EQUAL;w_TO]);
  (0x2244, [w_NOT;w_ASYMPTOTICALLY;w_EQUAL;w_TO]);
  (0x2245, [w_APPROXIMATELY;w_EQUAL;w_TO]);
  (0x2246, [w_APPROXIMATELY;w_BUT;w_NOT;w_ACTUALLY;w_EQUAL;w_TO]);
  (0x2247, [w_NEITHER;w_APPROXIMATELY;w_NOR;w_ACTUALLY;w_EQUAL;w_TO]);
  (0x2248, [w_ALMOST;w_EQUAL;w_TO]);
  (0x2249, [w_NOT;w_ALMOST;w_EQUAL;w_TO]);
  (0x224a, [w_ALMOST;w_EQUAL;w_OR;w_EQUAL;w_TO]);
  (0x224b, [w_TRIPLE;w_TILDE]);
  (0x224c, [w_ALL;w_EQUAL;w_TO]);
  (0x224d, [w_EQUIVALENT;w_TO]);
  (0x224e, [w_GEOMETRICALLY;w_EQUIVALENT;w_TO]);
  (0x224f, [w_DIFFERENCE;w_BETWEEN]);
  (0x2250, [w_APPROACHES;w_THE;w_LIMIT]);
  (0x2251, [w_GEOMETRICALLY;w_EQUAL;w_TO]);
  (0x2252, [w_APPROXIMATELY;w_EQUAL;w_TO;w_OR;w_THE;w_IMAGE;w_OF]);
  (0x2253, [w_IMAGE;w_OF;w_OR;w_APPROXIMATELY;w_EQUAL;w_TO]);
  (0x2254, [w_COLON;w_EQUALS]);
  (0x2255, [w_EQUALS;w_COLON]);
  (0x2256, [w_RING;w_IN;w_EQUAL;w_TO]);
  (0x2257, [w_RING;w_EQUAL;w_TO]);
  (0x2258, [w_CORRESPONDS;w_TO]);
  (0x2259, [w_ESTIMATES]);
  (0x225a, [w_EQUIANGULAR;w_TO]);
  (0x225b, [w_STAR;w_EQUALS]);
  (0x225c, [w_DELTA;w_EQUAL;w_TO]);
  (0x225d, [w_EQUAL;w_TO;w_BY;w_DEFINITION]);
  (0x225e, [w_MEASURED;w_BY]);
  (0x225f, [w_QUESTIONED;w_EQUAL;w_TO]);
  (0x2260, [w_NOT;w_EQUAL;w_TO]);
  (0x2261, [w_IDENTICAL;w_TO]);
  (0x2262, [w_NOT;w_IDENTICAL;w_TO]);
  (0x2263, [w_STRICTLY;w_EQUIVALENT;w_TO]);
  (0x2264, [w_LESS_THAN;w_OR;w_EQUAL;w_TO]);
  (0x2265, [w_GREATER_THAN;w_OR;w_EQUAL;w_TO]);
  (0x2266, [w_LESS_THAN;w_OVER;w_EQUAL;w_TO]);
  (0x2267, [w_GREATER_THAN;w_OVER;w_EQUAL;w_TO]);
  (0x2268, [w_LESS_THAN;w_BUT;w_NOT;w_EQUAL;w_TO]);
  (0x2269, [w_GREATER_THAN;w_BUT;w_NOT;w_EQUAL;w_TO]);
  (0x226a, [w_MUCH;w_LESS_THAN]);
  (0x226b, [w_MUCH;w_GREATER_THAN]);
  (0x226c, [w_BETWEEN]);
  (0x226d, [w_NOT;w_EQUIVALENT;w_TO]);
  (0x226e, [w_NOT;w_LESS_THAN]);
  (0x226f, [w_NOT;w_GREATER_THAN]);
  (0x2270, [w_NEITHER;w_LESS_THAN;w_NOR;w_EQUAL;w_TO]);
  (0x2271, [w_NEITHER;w_GREATER_THAN;w_NOR;w_EQUAL;w_TO]);
  (0x2272, [w_LESS_THAN;w_OR;w_EQUIVALENT;w_TO]);
  (0x2273, [w_GREATER_THAN;w_OR;w_EQUIVALENT;w_TO]);
  (0x2274, [w_NEITHER;w_LESS_THAN;w_NOR;w_EQUIVALENT;w_TO]);
  (0x2275, [w_NEITHER;w_GREATER_THAN;w_NOR;w_EQUIVALENT;w_TO]);
  (0x2276, [w_LESS_THAN;w_OR;w_GREATER_THAN]);
  (0x2277, [w_GREATER_THAN;w_OR;w_LESS_THAN]);
  (0x2278, [w_NEITHER;w_LESS_THAN;w_NOR;w_GREATER_THAN]);
  (0x2279, [w_NEITHER;w_GREATER_THAN;w_NOR;w_LESS_THAN]);
  (0x227a, [w_PRECEDES]);
  (0x227b, [w_SUCCEEDS]);
  (0x227c, [w_PRECEDES;w_OR;w_EQUAL;w_TO]);
  (0x227d, [w_SUCCEEDS;w_OR;w_EQUAL;w_TO]);
  (0x227e, [w_PRECEDES;w_OR;w_EQUIVALENT;w_TO]);
  (0x227f, [w_SUCCEEDS;w_OR;w_EQUIVALENT;w_TO]);
  (0x2280, [w_DOES;w_NOT;w_PRECEDE]);
  (0x2281, [w_DOES;w_NOT;w_SUCCEED]);
  (0x2282, [w_SUBSET;w_OF]);
  (0x2283, [w_SUPERSET;w_OF]);
  (0x2284, [w_NOT;w_A;w_SUBSET;w_OF]);
  (0x2285, [w_NOT;w_A;w_SUPERSET;w_OF]);
  (0x2286, [w_SUBSET;w_OF;w_OR;w_EQUAL;w_TO]);
  (0x2287, [w_SUPERSET;w_OF;w_OR;w_EQUAL;w_TO]);
  (0x2288, [w_NEITHER;w_A;w_SUBSET;w_OF;w_NOR;w_EQUAL;w_TO]);
  (0x2289, [w_NEITHER;w_A;w_SUPERSET;w_OF;w_NOR;w_EQUAL;w_TO]);
  (0x228a, [w_SUBSET;w_OF;w_WITH;w_NOT;w_EQUAL;w_TO]);
  (0x228b, [w_SUPERSET;w_OF;w_WITH;w_NOT;w_EQUAL;w_TO]);
  (0x228c, [w_MULTISET]);
  (0x228d, [w_MULTISET;w_MULTIPLICATION]);
  (0x228e, [w_MULTISET;w_UNION]);
  (0x228f, [w_SQUARE;w_IMAGE;w_OF]);
  (0x2290, [w_SQUARE;w_ORIGINAL;w_OF]);
  (0x2291, [w_SQUARE;w_IMAGE;w_OF;w_OR;w_EQUAL;w_TO]);
  (0x2292, [w_SQUARE;w_ORIGINAL;w_OF;w_OR;w_EQUAL;w_TO]);
  (0x2293, [w_SQUARE;w_CAP]);
  (0x2294, [w_SQUARE;w_CUP]);
  (0x2295, [w_CIRCLED;w_PLUS]);
  (0x2296, [w_CIRCLED;w_MINUS]);
  (0x2297, [w_CIRCLED;w_TIMES]);
  (0x2298, [w_CIRCLED;w_DIVISION;w_SLASH]);
  (0x2299, [w_CIRCLED;w_DOT;w_OPERATOR]);
  (0x229a, [w_CIRCLED;w_RING;w_OPERATOR]);
  (0x229b, [w_CIRCLED;w_ASTERISK;w_OPERATOR]);
  (0x229c, [w_CIRCLED;w_EQUALS]);
  (0x229d, [w_CIRCLED;w_DASH]);
  (0x229e, [w_SQUARED;w_PLUS]);
  (0x229f, [w_SQUARED;w_MINUS]);
  (0x22a0, [w_SQUARED;w_TIMES]);
  (0x22a1, [w_SQUARED;w_DOT;w_OPERATOR]);
  (0x22a2, [w_RIGHT;w_TACK]);
  (0x22a3, [w_LEFT;w_TACK]);
  (0x22a4, [w_DOWN;w_TACK]);
  (0x22a5, [w_UP;w_TACK]);
  (0x22a6, [w_ASSERTION]);
  (0x22a7, [w_MODELS]);
  (0x22a8, [w_TRUE]);
  (0x22a9, [w_FORCES]);
  (0x22aa, [w_TRIPLE;w_VERTICAL;w_BAR;w_RIGHT;w_TURNSTILE]);
  (0x22ab, [w_DOUBLE;w_VERTICAL;w_BAR;w_DOUBLE;w_RIGHT;w_TURNSTILE]);
  (0x22ac, [w_DOES;w_NOT;w_PROVE]);
  (0x22ad, [w_NOT;w_TRUE]);
  (0x22ae, [w_DOES;w_NOT;w_FORCE]);
  (0x22af, [w_NEGATED;w_DOUBLE;w_VERTICAL;w_BAR;w_DOUBLE;w_RIGHT;w_TURNSTILE]);
  (0x22b0, [w_PRECEDES;w_UNDER;w_RELATION]);
  (0x22b1, [w_SUCCEEDS;w_UNDER;w_RELATION]);
  (0x22b2, [w_NORMAL;w_SUBGROUP;w_OF]);
  (0x22b3, [w_CONTAINS;w_AS;w_NORMAL;w_SUBGROUP]);
  (0x22b4, [w_NORMAL;w_SUBGROUP;w_OF;w_OR;w_EQUAL;w_TO]);
  (0x22b5, [w_CONTAINS;w_AS;w_NORMAL;w_SUBGROUP;w_OR;w_EQUAL;w_TO]);
  (0x22b6, [w_ORIGINAL;w_OF]);
  (0x22b7, [w_IMAGE;w_OF]);
  (0x22b8, [w_MULTIMAP]);
  (0x22b9, [w_HERMITIAN;w_CONJUGATE;w_MATRIX]);
  (0x22ba, [w_INTERCALATE]);
  (0x22bb, [w_XOR]);
  (0x22bc, [w_NAND]);
  (0x22bd, [w_NOR]);
  (0x22be, [w_RIGHT;w_ANGLE;w_WITH;w_ARC]);
  (0x22bf, [w_RIGHT;w_TRIANGLE]);
  (0x22c0, [w_N_ARY;w_LOGICAL;w_AND]);
  (0x22c1, [w_N_ARY;w_LOGICAL;w_OR]);
  (0x22c2, [w_N_ARY;w_INTERSECTION]);
  (0x22c3, [w_N_ARY;w_UNION]);
  (0x22c4, [w_DIAMOND;w_OPERATOR]);
  (0x22c5, [w_DOT;w_OPERATOR]);
  (0x22c6, [w_STAR;w_OPERATOR]);
  (0x22c7, [w_DIVISION;w_TIMES]);
  (0x22c8, [w_BOWTIE]);
  (0x22c9, [w_LEFT;w_NORMAL;w_FACTOR;w_SEMIDIRECT;w_PRODUCT]);
  (0x22ca, [w_RIGHT;w_NORMAL;w_FACTOR;w_SEMIDIRECT;w_PRODUCT]);
  (0x22cb, [w_LEFT;w_SEMIDIRECT;w_PRODUCT]);
  (0x22cc, [w_RIGHT;w_SEMIDIRECT;w_PRODUCT]);
  (0x22cd, [w_REVERSED;w_TILDE;w_EQUALS]);
  (0x22ce, [w_CURLY;w_LOGICAL;w_OR]);
  (0x22cf, [w_CURLY;w_LOGICAL;w_AND]);
  (0x22d0, [w_DOUBLE;w_SUBSET]);
  (0x22d1, [w_DOUBLE;w_SUPERSET]);
  (0x22d2, [w_DOUBLE;w_INTERSECTION]);
  (0x22d3, [w_DOUBLE;w_UNION]);
  (0x22d4, [w_PITCHFORK]);
  (0x22d5, [w_EQUAL;w_AND;w_PARALLEL;w_TO]);
  (0x22d6, [w_LESS_THAN;w_WITH;w_DOT]);
  (0x22d7, [w_GREATER_THAN;w_WITH;w_DOT]);
  (0x22d8, [w_VERY;w_MUCH;w_LESS_THAN]);
  (0x22d9, [w_VERY;w_MUCH;w_GREATER_THAN]);
  (0x22da, [w_LESS_THAN;w_EQUAL;w_TO;w_OR;w_GREATER_THAN]);
  (0x22db, [w_GREATER_THAN;w_EQUAL;w_TO;w_OR;w_LESS_THAN]);
  (0x22dc, [w_EQUAL;w_TO;w_OR;w_LESS_THAN]);
  (0x22dd, [w_EQUAL;w_TO;w_OR;w_GREATER_THAN]);
  (0x22de, [w_EQUAL;w_TO;w_OR;w_PRECEDES]);
  (0x22df, [w_EQUAL;w_TO;w_OR;w_SUCCEEDS]);
  (0x22e0, [w_DOES;w_NOT;w_PRECEDE;w_OR;w_EQUAL]);
  (0x22e1, [w_DOES;w_NOT;w_SUCCEED;w_OR;w_EQUAL]);
  (0x22e2, [w_NOT;w_SQUARE;w_IMAGE;w_OF;w_OR;w_EQUAL;w_TO]);
  (0x22e3, [w_NOT;w_SQUARE;w_ORIGINAL;w_OF;w_OR;w_EQUAL;w_TO]);
  (0x22e4, [w_SQUARE;w_IMAGE;w_OF;w_OR;w_NOT;w_EQUAL;w_TO]);
  (0x22e5, [w_SQUARE;w_ORIGINAL;w_OF;w_OR;w_NOT;w_EQUAL;w_TO]);
  (0x22e6, [w_LESS_THAN;w_BUT;w_NOT;w_EQUIVALENT;w_TO]);
  (0x22e7, [w_GREATER_THAN;w_BUT;w_NOT;w_EQUIVALENT;w_TO]);
  (0x22e8, [w_PRECEDES;w_BUT;w_NOT;w_EQUIVALENT;w_TO]);
  (0x22e9, [w_SUCCEEDS;w_BUT;w_NOT;w_EQUIVALENT;w_TO]);
  (0x22ea, [w_NOT;w_NORMAL;w_SUBGROUP;w_OF]);
  (0x22eb, [w_DOES;w_NOT;w_CONTAIN;w_AS;w_NORMAL;w_SUBGROUP]);
  (0x22ec, [w_NOT;w_NORMAL;w_SUBGROUP;w_OF;w_OR;w_EQUAL;w_TO]);
  (0x22ed, [w_DOES;w_NOT;w_CONTAIN;w_AS;w_NORMAL;w_SUBGROUP;w_OR;w_EQUAL]);
  (0x22ee, [w_VERTICAL;w_ELLIPSIS]);
  (0x22ef, [w_MIDLINE;w_HORIZONTAL;w_ELLIPSIS]);
  (0x22f0, [w_UP;w_RIGHT;w_DIAGONAL;w_ELLIPSIS]);
  (0x22f1, [w_DOWN;w_RIGHT;w_DIAGONAL;w_ELLIPSIS]);
  (0x22f2, [w_ELEMENT;w_OF;w_WITH;w_LONG;w_HORIZONTAL;w_STROKE]);
  (0x22f3, [w_ELEMENT;w_OF;w_WITH;w_VERTICAL;w_BAR;w_AT;w_END;w_OF;w_HORIZONTAL;w_STROKE]);
  (0x22f4, [w_SMALL;w_ELEMENT;w_OF;w_WITH;w_VERTICAL;w_BAR;w_AT;w_END;w_OF;w_HORIZONTAL;w_STROKE]);
  (0x22f5, [w_ELEMENT;w_OF;w_WITH;w_DOT;w_ABOVE]);
  (0x22f6, [w_ELEMENT;w_OF;w_WITH;w_OVERBAR]);
  (0x22f7, [w_SMALL;w_ELEMENT;w_OF;w_WITH;w_OVERBAR]);
  (0x22f8, [w_ELEMENT;w_OF;w_WITH;w_UNDERBAR]);
  (0x22f9, [w_ELEMENT;w_OF;w_WITH;w_TWO;w_HORIZONTAL;w_STROKES]);
  (0x22fa, [w_CONTAINS;w_WITH;w_LONG;w_HORIZONTAL;w_STROKE]);
  (0x22fb, [w_CONTAINS;w_WITH;w_VERTICAL;w_BAR;w_AT;w_END;w_OF;w_HORIZONTAL;w_STROKE]);
  (0x22fc, [w_SMALL;w_CONTAINS;w_WITH;w_VERTICAL;w_BAR;w_AT;w_END;w_OF;w_HORIZONTAL;w_STROKE]);
  (0x22fd, [w_CONTAINS;w_WITH;w_OVERBAR]);
  (0x22fe, [w_SMALL;w_CONTAINS;w_WITH;w_OVERBAR]);
  (0x22ff, [w_Z;w_NOTATION;w_BAG;w_MEMBERSHIP]);
  (0x2300, [w_DIAMETER;w_SIGN]);
  (0x2301, [w_ELECTRIC;w_ARROW]);
  (0x2302, [w_HOUSE]);
  (0x2303, [w_UP;w_ARROWHEAD]);
  (0x2304, [w_DOWN;w_ARROWHEAD]);
  (0x2305, [w_PROJECTIVE]);
  (0x2306, [w_PERSPECTIVE]);
  (0x2307, [w_WAVY;w_LINE]);
  (0x2308, [w_LEFT;w_CEILING]);
  (0x2309, [w_RIGHT;w_CEILING]);
  (0x230a, [w_LEFT;w_FLOOR]);
  (0x230b, [w_RIGHT;w_FLOOR]);
  (0x230c, [w_BOTTOM;w_RIGHT;w_CROP]);
  (0x230d, [w_BOTTOM;w_LEFT;w_CROP]);
  (0x230e, [w_TOP;w_RIGHT;w_CROP]);
  (0x230f, [w_TOP;w_LEFT;w_CROP]);
  (0x2310, [w_REVERSED;w_NOT;w_SIGN]);
  (0x2311, [w_SQUARE;w_LOZENGE]);
  (0x2312, [w_ARC]);
  (0x2313, [w_SEGMENT]);
  (0x2314, [w_SECTOR]);
  (0x2315, [w_TELEPHONE;w_RECORDER]);
  (0x2316, [w_POSITION;w_INDICATOR]);
  (0x2317, [w_VIEWDATA;w_SQUARE]);
  (0x2318, [w_PLACE;w_OF;w_INTEREST;w_SIGN]);
  (0x2319, [w_TURNED;w_NOT;w_SIGN]);
  (0x231a, [w_WATCH]);
  (0x231b, [w_HOURGLASS]);
  (0x231c, [w_TOP;w_LEFT;w_CORNER]);
  (0x231d, [w_TOP;w_RIGHT;w_CORNER]);
  (0x231e, [w_BOTTOM;w_LEFT;w_CORNER]);
  (0x231f, [w_BOTTOM;w_RIGHT;w_CORNER]);
  (0x2320, [w_TOP;w_HALF;w_INTEGRAL]);
  (0x2321, [w_BOTTOM;w_HALF;w_INTEGRAL]);
  (0x2322, [w_FROWN]);
  (0x2323, [w_SMILE]);
  (0x2324, [w_UP;w_ARROWHEAD;w_BETWEEN;w_TWO;w_HORIZONTAL;w_BARS]);
  (0x2325, [w_OPTION;w_KEY]);
  (0x2326, [w_ERASE;w_TO;w_THE;w_RIGHT]);
  (0x2327, [w_X;w_IN;w_A;w_RECTANGLE;w_BOX]);
  (0x2328, [w_KEYBOARD]);
  (0x2329, [w_LEFT_POINTING;w_ANGLE;w_BRACKET]);
  (0x232a, [w_RIGHT_POINTING;w_ANGLE;w_BRACKET]);
  (0x232b, [w_ERASE;w_TO;w_THE;w_LEFT]);
  (0x232c, [w_BENZENE;w_RING]);
  (0x232d, [w_CYLINDRICITY]);
  (0x232e, [w_ALL;w_AROUND_PROFILE]);
  (0x232f, [w_SYMMETRY]);
  (0x2330, [w_TOTAL;w_RUNOUT]);
  (0x2331, [w_DIMENSION;w_ORIGIN]);
  (0x2332, [w_CONICAL;w_TAPER]);
  (0x2333, [w_SLOPE]);
  (0x2334, [w_COUNTERBORE]);
  (0x2335, [w_COUNTERSINK]);
  (0x2336, [w_APL;w_FUNCTIONAL;w_SYMBOL;w_I_BEAM]);
  (0x2337, [w_APL;w_FUNCTIONAL;w_SYMBOL;w_SQUISH;w_QUAD]);
  (0x2338, [w_APL;w_FUNCTIONAL;w_SYMBOL;w_QUAD;w_EQUAL]);
  (0x2339, [w_APL;w_FUNCTIONAL;w_SYMBOL;w_QUAD;w_DIVIDE]);
  (0x233a, [w_APL;w_FUNCTIONAL;w_SYMBOL;w_QUAD;w_DIAMOND]);
  (0x233b, [w_APL;w_FUNCTIONAL;w_SYMBOL;w_QUAD;w_JOT]);
  (0x233c, [w_APL;w_FUNCTIONAL;w_SYMBOL;w_QUAD;w_CIRCLE]);
  (0x233d, [w_APL;w_FUNCTIONAL;w_SYMBOL;w_CIRCLE;w_STILE]);
  (0x233e, [w_APL;w_FUNCTIONAL;w_SYMBOL;w_CIRCLE;w_JOT]);
  (0x233f, [w_APL;w_FUNCTIONAL;w_SYMBOL;w_SLASH;w_BAR]);
  (0x2340, [w_APL;w_FUNCTIONAL;w_SYMBOL;w_BACKSLASH;w_BAR]);
  (0x2341, [w_APL;w_FUNCTIONAL;w_SYMBOL;w_QUAD;w_SLASH]);
  (0x2342, [w_APL;w_FUNCTIONAL;w_SYMBOL;w_QUAD;w_BACKSLASH]);
  (0x2343, [w_APL;w_FUNCTIONAL;w_SYMBOL;w_QUAD;w_LESS_THAN]);
  (0x2344, [w_APL;w_FUNCTIONAL;w_SYMBOL;w_QUAD;w_GREATER_THAN]);
  (0x2345, [w_APL;w_FUNCTIONAL;w_SYMBOL;w_LEFTWARDS;w_VANE]);
  (0x2346, [w_APL;w_FUNCTIONAL;w_SYMBOL;w_RIGHTWARDS;w_VANE]);
  (0x2347, [w_APL;w_FUNCTIONAL;w_SYMBOL;w_QUAD;w_LEFTWARDS;w_ARROW]);
  (0x2348, [w_APL;w_FUNCTIONAL;w_SYMBOL;w_QUAD;w_RIGHTWARDS;w_ARROW]);
  (0x2349, [w_APL;w_FUNCTIONAL;w_SYMBOL;w_CIRCLE;w_BACKSLASH]);
  (0x234a, [w_APL;w_FUNCTIONAL;w_SYMBOL;w_DOWN;w_TACK;w_UNDERBAR]);
  (0x234b, [w_APL;w_FUNCTIONAL;w_SYMBOL;w_DELTA;w_STILE]);
  (0x234c, [w_APL;w_FUNCTIONAL;w_SYMBOL;w_QUAD;w_DOWN;w_CARET]);
  (0x234d, [w_APL;w_FUNCTIONAL;w_SYMBOL;w_QUAD;w_DELTA]);
  (0x234e, [w_APL;w_FUNCTIONAL;w_SYMBOL;w_DOWN;w_TACK;w_JOT]);
  (0x234f, [w_APL;w_FUNCTIONAL;w_SYMBOL;w_UPWARDS;w_VANE]);
  (0x2350, [w_APL;w_FUNCTIONAL;w_SYMBOL;w_QUAD;w_UPWARDS;w_ARROW]);
  (0x2351, [w_APL;w_FUNCTIONAL;w_SYMBOL;w_UP;w_TACK;w_OVERBAR]);
  (0x2352, [w_APL;w_FUNCTIONAL;w_SYMBOL;w_DEL;w_STILE]);
  (0x2353, [w_APL;w_FUNCTIONAL;w_SYMBOL;w_QUAD;w_UP;w_CARET]);
  (0x2354, [w_APL;w_FUNCTIONAL;w_SYMBOL;w_QUAD;w_DEL]);
  (0x2355, [w_APL;w_FUNCTIONAL;w_SYMBOL;w_UP;w_TACK;w_JOT]);
  (0x2356, [w_APL;w_FUNCTIONAL;w_SYMBOL;w_DOWNWARDS;w_VANE]);
  (0x2357, [w_APL;w_FUNCTIONAL;w_SYMBOL;w_QUAD;w_DOWNWARDS;w_ARROW]);
  (0x2358, [w_APL;w_FUNCTIONAL;w_SYMBOL;w_QUOTE;w_UNDERBAR]);
  (0x2359, [w_APL;w_FUNCTIONAL;w_SYMBOL;w_DELTA;w_UNDERBAR]);
  (0x235a, [w_APL;w_FUNCTIONAL;w_SYMBOL;w_DIAMOND;w_UNDERBAR]);
  (0x235b, [w_APL;w_FUNCTIONAL;w_SYMBOL;w_JOT;w_UNDERBAR]);
  (0x235c, [w_APL;w_FUNCTIONAL;w_SYMBOL;w_CIRCLE;w_UNDERBAR]);
  (0x235d, [w_APL;w_FUNCTIONAL;w_SYMBOL;w_UP;w_SHOE;w_JOT]);
  (0x235e, [w_APL;w_FUNCTIONAL;w_SYMBOL;w_QUOTE;w_QUAD]);
  (0x235f, [w_APL;w_FUNCTIONAL;w_SYMBOL;w_CIRCLE;w_STAR]);
  (0x2360, [w_APL;w_FUNCTIONAL;w_SYMBOL;w_QUAD;w_COLON]);
  (0x2361, [w_APL;w_FUNCTIONAL;w_SYMBOL;w_UP;w_TACK;w_DIAERESIS]);
  (0x2362, [w_APL;w_FUNCTIONAL;w_SYMBOL;w_DEL;w_DIAERESIS]);
  (0x2363, [w_APL;w_FUNCTIONAL;w_SYMBOL;w_STAR;w_DIAERESIS]);
  (0x2364, [w_APL;w_FUNCTIONAL;w_SYMBOL;w_JOT;w_DIAERESIS]);
  (0x2365, [w_APL;w_FUNCTIONAL;w_SYMBOL;w_CIRCLE;w_DIAERESIS]);
  (0x2366, [w_APL;w_FUNCTIONAL;w_SYMBOL;w_DOWN;w_SHOE;w_STILE]);
  (0x2367, [w_APL;w_FUNCTIONAL;w_SYMBOL;w_LEFT;w_SHOE;w_STILE]);
  (0x2368, [w_APL;w_FUNCTIONAL;w_SYMBOL;w_TILDE;w_DIAERESIS]);
  (0x2369, [w_APL;w_FUNCTIONAL;w_SYMBOL;w_GREATER_THAN;w_DIAERESIS]);
  (0x236a, [w_APL;w_FUNCTIONAL;w_SYMBOL;w_COMMA;w_BAR]);
  (0x236b, [w_APL;w_FUNCTIONAL;w_SYMBOL;w_DEL;w_TILDE]);
  (0x236c, [w_APL;w_FUNCTIONAL;w_SYMBOL;w_ZILDE]);
  (0x236d, [w_APL;w_FUNCTIONAL;w_SYMBOL;w_STILE;w_TILDE]);
  (0x236e, [w_APL;w_FUNCTIONAL;w_SYMBOL;w_SEMICOLON;w_UNDERBAR]);
  (0x236f, [w_APL;w_FUNCTIONAL;w_SYMBOL;w_QUAD;w_NOT;w_EQUAL]);
  (0x2370, [w_APL;w_FUNCTIONAL;w_SYMBOL;w_QUAD;w_QUESTION]);
  (0x2371, [w_APL;w_FUNCTIONAL;w_SYMBOL;w_DOWN;w_CARET;w_TILDE]);
  (0x2372, [w_APL;w_FUNCTIONAL;w_SYMBOL;w_UP;w_CARET;w_TILDE]);
  (0x2373, [w_APL;w_FUNCTIONAL;w_SYMBOL;w_IOTA]);
  (0x2374, [w_APL;w_FUNCTIONAL;w_SYMBOL;w_RHO]);
  (0x2375, [w_APL;w_FUNCTIONAL;w_SYMBOL;w_OMEGA]);
  (0x2376, [w_APL;w_FUNCTIONAL;w_SYMBOL;w_ALPHA;w_UNDERBAR]);
  (0x2377, [w_APL;w_FUNCTIONAL;w_SYMBOL;w_EPSILON;w_UNDERBAR]);
  (0x2378, [w_APL;w_FUNCTIONAL;w_SYMBOL;w_IOTA;w_UNDERBAR]);
  (0x2379, [w_APL;w_FUNCTIONAL;w_SYMBOL;w_OMEGA;w_UNDERBAR]);
  (0x237a, [w_APL;w_FUNCTIONAL;w_SYMBOL;w_ALPHA]);
  (0x237b, [w_NOT;w_CHECK;w_MARK]);
  (0x237c, [w_RIGHT;w_ANGLE;w_WITH;w_DOWNWARDS;w_ZIGZAG;w_ARROW]);
  (0x237d, [w_SHOULDERED;w_OPEN;w_BOX]);
  (0x237e, [w_BELL;w_SYMBOL]);
  (0x237f, [w_VERTICAL;w_LINE;w_WITH;w_MIDDLE;w_DOT]);
  (0x2380, [w_INSERTION;w_SYMBOL]);
  (0x2381, [w_CONTINUOUS;w_UNDERLINE;w_SYMBOL]);
  (0x2382, [w_DISCONTINUOUS;w_UNDERLINE;w_SYMBOL]);
  (0x2383, [w_EMPHASIS;w_SYMBOL]);
  (0x2384, [w_COMPOSITION;w_SYMBOL]);
  (0x2385, [w_WHITE;w_SQUARE;w_WITH;w_CENTRE;w_VERTICAL;w_LINE]);
  (0x2386, [w_ENTER;w_SYMBOL]);
  (0x2387, [w_ALTERNATIVE;w_KEY;w_SYMBOL]);
  (0x2388, [w_HELM;w_SYMBOL]);
  (0x2389, [w_CIRCLED;w_HORIZONTAL;w_BAR;w_WITH;w_NOTCH]);
  (0x238a, [w_CIRCLED;w_TRIANGLE;w_DOWN]);
  (0x238b, [w_BROKEN;w_CIRCLE;w_WITH;w_NORTHWEST;w_ARROW]);
  (0x238c, [w_UNDO;w_SYMBOL]);
  (0x238d, [w_MONOSTABLE;w_SYMBOL]);
  (0x238e, [w_HYSTERESIS;w_SYMBOL]);
  (0x238f, [w_OPEN_CIRCUIT_OUTPUT;w_H_TYPE;w_SYMBOL]);
  (0x2390, [w_OPEN_CIRCUIT_OUTPUT;w_L_TYPE;w_SYMBOL]);
  (0x2391, [w_PASSIVE_PULL_DOWN_OUTPUT;w_SYMBOL]);
  (0x2392, [w_PASSIVE_PULL_UP_OUTPUT;w_SYMBOL]);
  (0x2393, [w_DIRECT;w_CURRENT;w_SYMBOL;w_FORM;w_TWO]);
  (0x2394, [w_SOFTWARE_FUNCTION;w_SYMBOL]);
  (0x2395, [w_APL;w_FUNCTIONAL;w_SYMBOL;w_QUAD]);
  (0x2396, [w_DECIMAL;w_SEPARATOR;w_KEY;w_SYMBOL]);
  (0x2397, [w_PREVIOUS;w_PAGE]);
  (0x2398, [w_NEXT;w_PAGE]);
  (0x2399, [w_PRINT;w_SCREEN;w_SYMBOL]);
  (0x239a, [w_CLEAR;w_SCREEN;w_SYMBOL])].

Definition NAMES_20 : list (N * (list str)) := [
  (0x239b, [w_LEFT;w_PARENTHESIS;w_UPPER;w_HOOK]);
  (0x239c, [w_LEFT;w_PARENTHESIS;w_EXTENSION]);
  (0x239d, [w_LEFT;w_PARENTHESIS;w_LOWER;w_HOOK]);
  (0x239e, [w_RIGHT;w_PARENTHESIS;w_UPPER;w_HOOK]);
  (0x239f, [w_RIGHT;w_PARENTHESIS;w_EXTENSION]);
  (0x23a0, [w_RIGHT;w_PARENTHESIS;w_LOWER;w_HOOK]);
  (0x23a1, [w_LEFT;w_SQUARE;w_BRACKET;w_UPPER;w_CORNER]);
  (0x23a2, [w_LEFT;w_SQUARE;w_BRACKET;w_EXTENSION]);
  (0x23a3, [w_LEFT;w_SQUARE;w_BRACKET;w_LOWER;w_CORNER]);
  (0x23a4, [w_RIGHT;w_SQUARE;w_BRACKET;w_UPPER;w_CORNER]);
  (0x23a5, [w_RIGHT;w_SQUARE;w_BRACKET;w_EXTENSION]);
  (0x23a6, [w_RIGHT;w_SQUARE;w_BRACKET;w_LOWER;w_CORNER]);
  (0x23a7, [w_LEFT;w_CURLY;w_BRACKET;w_UPPER;w_HOOK]);
  (0x23a8, [w_LEFT;w_CURLY;w_BRACKET;w_MIDDLE;w_PIECE]);
  (0x23a9, [w_LEFT;w_CURLY;w_BRACKET;w_LOWER;w_HOOK]);
  (0x23aa, [w_CURLY;w_BRACKET;w_EXTENSION]);
  (0x23ab, [w_RIGHT;w_CURLY;w_BRACKET;w_UPPER;w_HOOK]);
  (0x23ac, [w_RIGHT;w_CURLY;w_BRACKET;w_MIDDLE;w_PIECE]);
  (0x23ad, [w_RIGHT;w_CURLY;w_BRACKET;w_LOWER;w_HOOK]);
  (0x23ae, [w_INTEGRAL;w_EXTENSION]);
  (0x23af, [w_HORIZONTAL;w_LINE;w_EXTENSION]);
  (0x23b0, [w_UPPER;w_LEFT;w_OR;w_LOWER;w_RIGHT;w_CURLY;w_BRACKET;w_SECTION]);
  (0x23b1, [w_UPPER;w_RIGHT;w_OR;w_LOWER;w_LEFT;w_CURLY;w_BRACKET;w_SECTION]);
  (0x23b2, [w_SUMMATION;w_TOP]);
  (0x23b3, [w_SUMMATION;w_BOTTOM]);
  (0x23b4, [w_TOP;w_SQUARE;w_BRACKET]);
  (0x23b5, [w_BOTTOM;w_SQUARE;w_BRACKET]);
  (0x23b6, [w_BOTTOM;w_SQUARE;w_BRACKET;w_OVER;w_TOP;w_SQUARE;w_BRACKET]);
  (0x23b7, [w_RADICAL;w_SYMBOL;w_BOTTOM]);
  (0x23b8, [w_LEFT;w_VERTICAL;w_BOX;w_LINE]);
  (0x23b9, [w_RIGHT;w_VERTICAL;w_BOX;w_LINE]);
  (0x23ba, [w_HORIZONTAL;w_SCAN;w_LINE_1]);
  (0x23bb, [w_HORIZONTAL;w_SCAN;w_LINE_3]);
  (0x23bc, [w_HORIZONTAL;w_SCAN;w_LINE_7]);
  (0x23bd, [w_HORIZONTAL;w_SCAN;w_LINE_9]);
  (0x23be, [w_DENTISTRY;w_SYMBOL;w_LIGHT;w_VERTICAL;w_AND;w_TOP;w_RIGHT]);
  (0x23bf, [w_DENTISTRY;w_SYMBOL;w_LIGHT;w_VERTICAL;w_AND;w_BOTTOM;w_RIGHT]);
  (0x23c0, [w_DENTISTRY;w_SYMBOL;w_LIGHT;w_VERTICAL;w_WITH;w_CIRCLE]);
  (0x23c1, [w_DENTISTRY;w_SYMBOL;w_LIGHT;w_DOWN;w_AND;w_HORIZONTAL;w_WITH;w_CIRCLE]);
  (0x23c2, [w_DENTISTRY;w_SYMBOL;w_LIGHT;w_UP;w_AND;w_HORIZONTAL;w_WITH;w_CIRCLE]);
  (0x23c3, [w_DENTISTRY;w_SYMBOL;w_LIGHT;w_VERTICAL;w_WITH;w_TRIANGLE]);
  (0x23c4, [w_DENTISTRY;w_SYMBOL;w_LIGHT;w_DOWN;w_AND;w_HORIZONTAL;w_WITH;w_TRIANGLE]);
  (0x23c5, [w_DENTISTRY;w_SYMBOL;w_LIGHT;w_UP;w_AND;w_HORIZONTAL;w_WITH;w_TRIANGLE]);
  (0x23c6, [w_DENTISTRY;w_SYMBOL;w_LIGHT;w_VERTICAL;w_AND;w_WAVE]);
  (0x23c7, [w_DENTISTRY;w_SYMBOL;w_LIGHT;w_DOWN;w_AND;w_HORIZONTAL;w_WITH;w_WAVE]);
  (0x23c8, [w_DENTISTRY;w_SYMBOL;w_LIGHT;w_UP;w_AND;w_HORIZONTAL;w_WITH;w_WAVE]);
  (0x23c9, [w_DENTISTRY;w_SYMBOL;w_LIGHT;w_DOWN;w_AND;w_HORIZONTAL]);
  (0x23ca, [w_DENTISTRY;w_SYMBOL;w_LIGHT;w_UP;w_AND;w_HORIZONTAL]);
  (0x23cb, [w_DENTISTRY;w_SYMBOL;w_LIGHT;w_VERTICAL;w_AND;w_TOP;w_LEFT]);
  (0x23cc, [w_DENTISTRY;w_SYMBOL;w_LIGHT;w_VERTICAL;w_AND;w_BOTTOM;w_LEFT]);
  (0x23cd, [w_SQUARE;w_FOOT]);
  (0x23ce, [w_RETURN;w_SYMBOL]);
  (0x23cf, [w_EJECT;w_SYMBOL]);
  (0x23d0, [w_VERTICAL;w_LINE;w_EXTENSION]);
  (0x23d1, [w_METRICAL;w_BREVE]);
  (0x23d2, [w_METRICAL;w_LONG;w_OVER;w_SHORT]);
  (0x23d3, [w_METRICAL;w_SHORT;w_OVER;w_LONG]);
  (0x23d4, [w_METRICAL;w_LONG;w_OVER;w_TWO;w_SHORTS]);
  (0x23d5, [w_METRICAL;w_TWO;w_SHORTS;w_OVER;w_LONG]);
  (0x23d6, [w_METRICAL;w_TWO;w_SHORTS;w_JOINED]);
  (0x23d7, [w_METRICAL;w_TRISEME]);
  (0x23d8, [w_METRICAL;w_TETRASEME]);
  (0x23d9, [w_METRICAL;w_PENTASEME]);
  (0x23da, [w_EARTH;w_GROUND]);
  (0x23db, [w_FUSE]);
  (0x23dc, [w_TOP;w_PARENTHESIS]);
  (0x23dd, [w_BOTTOM;w_PARENTHESIS]);
  (0x23de, [w_TOP;w_CURLY;w_BRACKET]);
  (0x23df, [w_BOTTOM;w_CURLY;w_BRACKET]);
  (0x23e0, [w_TOP;w_TORTOISE;w_SHELL;w_BRACKET]);
  (0x23e1, [w_BOTTOM;w_TORTOISE;w_SHELL;w_BRACKET]);
  (0x23e2, [w_WHITE;w_TRAPEZIUM]);
  (0x23e3, [w_BENZENE;w_RING;w_WITH;w_CIRCLE]);
  (0x23e4, [w_STRAIGHTNESS]);
  (0x23e5, [w_FLATNESS]);
  (0x23e6, [w_AC;w_CURRENT]);
  (0x23e7, [w_ELECTRICAL;w_INTERSECTION]);
  (0x23e8, [w_DECIMAL;w_EXPONENT;w_SYMBOL]);
  (0x23e9, [w_BLACK;w_RIGHT_POINTING;w_DOUBLE;w_TRIANGLE]);
  (0x23ea, [w_BLACK;w_LEFT_POINTING;w_DOUBLE;w_TRIANGLE]);
  (0x23eb, [w_BLACK;w_UP_POINTING;w_DOUBLE;w_TRIANGLE]);
  (0x23ec, [w_BLACK;w_DOWN_POINTING;w_DOUBLE;w_TRIANGLE]);
  (0x23ed, [w_BLACK;w_RIGHT_POINTING;w_DOUBLE;w_TRIANGLE;w_WITH;w_VERTICAL;w_BAR]);
  (0x23ee, [w_BLACK;w_LEFT_POINTING;w_DOUBLE;w_TRIANGLE;w_WITH;w_VERTICAL;w_BAR]);
  (0x23ef, [w_BLACK;w_RIGHT_POINTING;w_TRIANGLE;w_WITH;w_DOUBLE;w_VERTICAL;w_BAR]);
  (0x23f0, [w_ALARM;w_CLOCK]);
  (0x23f1, [w_STOPWATCH]);
  (0x23f2, [w_TIMER;w_CLOCK]);
  (0x23f3, [w_HOURGLASS;w_WITH;w_FLOWING;w_SAND]);
  (0x23f4, [w_BLACK;w_MEDIUM;w_LEFT_POINTING;w_TRIANGLE]);
  (0x23f5, [w_BLACK;w_MEDIUM;w_RIGHT_POINTING;w_TRIANGLE]);
  (0x23f6, [w_BLACK;w_MEDIUM;w_UP_POINTING;w_TRIANGLE]);
  (0x23f7, [w_BLACK;w_MEDIUM;w_DOWN_POINTING;w_TRIANGLE]);
  (0x23f8, [w_DOUBLE;w_VERTICAL;w_BAR]);
  (0x23f9, [w_BLACK;w_SQUARE;w_FOR;w_STOP]);
  (0x23fa, [w_BLACK;w_CIRCLE;w_FOR;w_RECORD]);
  (0x23fb, [w_POWER;w_SYMBOL]);
  (0x23fc, [w_POWER;w_ON_OFF;w_SYMBOL]);
  (0x23fd, [w_POWER;w_ON;w_SYMBOL]);
  (0x23fe, [w_POWER;w_SLEEP;w_SYMBOL]);
  (0x23ff, [w_OBSERVER;w_EYE;w_SYMBOL]);
  (0x2400, [w_SYMBOL;w_FOR;w_NULL]);
  (0x2401, [w_SYMBOL;w_FOR;w_START;w_OF;w_HEADING]);
  (0x2402, [w_SYMBOL;w_FOR;w_START;w_OF;w_TEXT]);
  (0x2403, [w_SYMBOL;w_FOR;w_END;w_OF;w_TEXT]);
  (0x2404, [w_SYMBOL;w_FOR;w_END;w_OF;w_TRANSMISSION]);
  (0x2405, [w_SYMBOL;w_FOR;w_ENQUIRY]);
  (0x2406, [w_SYMBOL;w_FOR;w_ACKNOWLEDGE]);
  (0x2407, [w_SYMBOL;w_FOR;w_BELL]);
  (0x2408, [w_SYMBOL;w_FOR;w_BACKSPACE]);
  (0x2409, [w_SYMBOL;w_FOR;w_HORIZONTAL;w_TABULATION]);
  (0x240a, [w_SYMBOL;w_FOR;w_LINE;w_FEED]);
  (0x240b, [w_SYMBOL;w_FOR;w_VERTICAL;w_TABULATION]);
  (0x240c, [w_SYMBOL;w_FOR;w_FORM;w_FEED]);
  (0x240d, [w_SYMBOL;w_FOR;w_CARRIAGE;w_RETURN]);
  (0x240e, [w_SYMBOL;w_FOR;w_SHIFT;w_OUT]);
  (0x240f, [w_SYMBOL;w_FOR;w_SHIFT;w_IN]);
  (0x2410, [w_SYMBOL;w_FOR;w_DATA;w_LINK;w_ESCAPE]);
  (0x2411, [w_SYMBOL;w_FOR;w_DEVICE;w_CONTROL;w_ONE]);
  (0x2412, [w_SYMBOL;w_FOR;w_DEVICE;w_CONTROL;w_TWO]);
  (0x2413, [w_SYMBOL;w_FOR;w_DEVICE;w_CONTROL;w_THREE]);
  (0x2414, [w_SYMBOL;w_FOR;w_DEVICE;w_CONTROL;w_FOUR]);
  (0x2415, [w_SYMBOL;w_FOR;w_NEGATIVE;w_ACKNOWLEDGE]);
  (0x2416, [w_SYMBOL;w_FOR;w_SYNCHRONOUS;w_IDLE]);
  (0x2417, [w_SYMBOL;w_FOR;w_END;w_OF;w_TRANSMISSION;w_BLOCK]);
  (0x2418, [w_SYMBOL;w_FOR;w_CANCEL]);
  (0x2419, [w_SYMBOL;w_FOR;w_END;w_OF;w_MEDIUM]);
  (0x241a, [w_SYMBOL;w_FOR;w_SUBSTITUTE]);
  (0x241b, [w_SYMBOL;w_FOR;w_ESCAPE]);
  (0x241c, [w_SYMBOL;w_FOR;w_FILE;w_SEPARATOR]);
  (0x241d, [w_SYMBOL;w_FOR;w_GROUP;w_SEPARATOR]);
  (0x241e, [w_SYMBOL;w_FOR;w_RECORD;w_SEPARATOR]);
  (0x241f, [w_SYMBOL;w_FOR;w_UNIT;w_SEPARATOR]);
  (0x2420, [w_SYMBOL;w_FOR;w_SPACE]);
  (0x2421, [w_SYMBOL;w_FOR;w_DELETE]);
  (0x2422, [w_BLANK;w_SYMBOL]);
  (0x2423, [w_OPEN;w_BOX]);
  (0x2424, [w_SYMBOL;w_FOR;w_NEWLINE]);
  (0x2425, [w_SYMBOL;w_FOR;w_DELETE;w_FORM;w_TWO]);
  (0x2426, [w_SYMBOL;w_FOR;w_SUBSTITUTE;w_FORM;w_TWO]);
  (0x2440, [w_OCR;w_HOOK]);
  (0x2441, [w_OCR;w_CHAIR]);
  (0x2442, [w_OCR;w_FORK]);
  (0x2443, [w_OCR;w_INVERTED;w_FORK]);
  (0x2444, [w_OCR;w_BELT;w_BUCKLE]);
  (0x2445, [w_OCR;w_BOW;w_TIE]);
  (0x2446, [w_OCR;w_BRANCH;w_BANK;w_IDENTIFICATION]);
  (0x2447, [w_OCR;w_AMOUNT;w_OF;w_CHECK]);
  (0x2448, [w_OCR;w_DASH]);
  (0x2449, [w_OCR;w_CUSTOMER;w_ACCOUNT;w_NUMBER]);
  (0x244a, [w_OCR;w_DOUBLE;w_BACKSLASH]);
  (0x2460, [w_CIRCLED;w_DIGIT;w_ONE]);
  (0x2461, [w_CIRCLED;w_DIGIT;w_TWO]);
  (0x2462, [w_CIRCLED;w_DIGIT;w_THREE]);
  (0x2463, [w_CIRCLED;w_DIGIT;w_FOUR]);
  (0x2464, [w_CIRCLED;w_DIGIT;w_FIVE]);
  (0x2465, [w_CIRCLED;w_DIGIT;w_SIX]);
  (0x2466, [w_CIRCLED;w_DIGIT;w_SEVEN]);
  (0x2467, [w_CIRCLED;w_DIGIT;w_EIGHT]);
  (0x2468, [w_CIRCLED;w_DIGIT;w_NINE]);
  (0x2469, [w_CIRCLED;w_NUMBER;w_TEN]);
  (0x246a, [w_CIRCLED;w_NUMBER;w_ELEVEN]);
  (0x246b, [w_CIRCLED;w_NUMBER;w_TWELVE]);
  (0x246c, [w_CIRCLED;w_NUMBER;w_THIRTEEN]);
  (0x246d, [w_CIRCLED;w_NUMBER;w_FOURTEEN]);
  (0x246e, [w_CIRCLED;w_NUMBER;w_FIFTEEN]);
  (0x246f, [w_CIRCLED;w_NUMBER;w_SIXTEEN]);
  (0x2470, [w_CIRCLED;w_NUMBER;w_SEVENTEEN]);
  (0x2471, [w_CIRCLED;w_NUMBER;w_EIGHTEEN]);
  (0x2472, [w_CIRCLED;w_NUMBER;w_NINETEEN]);
  (0x2473, [w_CIRCLED;w_NUMBER;w_TWENTY]);
  (0x2474, [w_PARENTHESIZED;w_DIGIT;w_ONE]);
  (0x2475, [w_PARENTHESIZED;w_DIGIT;w_TWO]);
  (0x2476, [w_PARENTHESIZED;w_DIGIT;w_THREE]);
  (0x2477, [w_PARENTHESIZED;w_DIGIT;w_FOUR]);
  (0x2478, [w_PARENTHESIZED;w_DIGIT;w_FIVE]);
  (0x2479, [w_PARENTHESIZED;w_DIGIT;w_SIX]);
  (0x247a, [w_PARENTHESIZED;w_DIGIT;w_SEVEN]);
  (0x247b, [w_PARENTHESIZED;w_DIGIT;w_EIGHT]);
  (0x247c, [w_PARENTHESIZED;w_DIGIT;w_NINE]);
  (0x247d, [w_PARENTHESIZED;w_NUMBER;w_TEN]);
  (0x247e, [w_PARENTHESIZED;w_NUMBER;w_ELEVEN]);
  (0x247f, [w_PARENTHESIZED;w_NUMBER;w_TWELVE]);
  (0x2480, [w_PARENTHESIZED;w_NUMBER;w_THIRTEEN]);
  (0x2481, [w_PARENTHESIZED;w_NUMBER;w_FOURTEEN]);
  (0x2482, [w_PARENTHESIZED;w_NUMBER;w_FIFTEEN]);
  (0x2483, [w_PARENTHESIZED;w_NUMBER;w_SIXTEEN]);
  (0x2484, [w_PARENTHESIZED;w_NUMBER;w_SEVENTEEN]);
  (0x2485, [w_PARENTHESIZED;w_NUMBER;w_EIGHTEEN]);
  (0x2486, [w_PARENTHESIZED;w_NUMBER;w_NINETEEN]);
  (0x2487, [w_PARENTHESIZED;w_NUMBER;w_TWENTY]);
  (0x2488, [w_DIGIT;w_ONE;w_FULL;w_STOP]);
  (0x2489, [w_DIGIT;w_TWO;w_FULL;w_STOP]);
  (0x248a, [w_DIGIT;w_THREE;w_FULL;w_STOP]);
  (0x248b, [w_DIGIT;w_FOUR;w_FULL;w_STOP]);
  (0x248c, [w_DIGIT;w_FIVE;w_FULL;w_STOP]);
  (0x248d, [w_DIGIT;w_SIX;w_FULL;w_STOP]);
  (0x248e, [w_DIGIT;w_SEVEN;w_FULL;w_STOP]);
  (0x248f, [w_DIGIT;w_EIGHT;w_FULL;w_STOP]);
  (0x2490, [w_DIGIT;w_NINE;w_FULL;w_STOP]);
  (0x2491, [w_NUMBER;w_TEN;w_FULL;w_STOP]);
  (0x2492, [w_NUMBER;w_ELEVEN;w_FULL;w_STOP]);
  (0x2493, [w_NUMBER;w_TWELVE;w_FULL;w_STOP]);
  (0x2494, [w_NUMBER;w_THIRTEEN;w_FULL;w_STOP]);
  (0x2495, [w_NUMBER;w_FOURTEEN;w_FULL;w_STOP]);
  (0x2496, [w_NUMBER;w_FIFTEEN;w_FULL;w_STOP]);
  (0x2497, [w_NUMBER;w_SIXTEEN;w_FULL;w_STOP]);
  (0x2498, [w_NUMBER;w_SEVENTEEN;w_FULL;w_STOP]);
  (0x2499, [w_NUMBER;w_EIGHTEEN;w_FULL;w_STOP]);
  (0x249a, [w_NUMBER;w_NINETEEN;w_FULL;w_STOP]);
  (0x249b, [w_NUMBER;w_TWENTY;w_FULL;w_STOP]);
  (0x249c, [w_PARENTHESIZED;w_LATIN;w_SMALL;w_LETTER;w_A]);
  (0x249d, [w_PARENTHESIZED;w_LATIN;w_SMALL;w_LETTER;w_B]);
  (0x249e, [w_PARENTHESIZED;w_LATIN;w_SMALL;w_LETTER;w_C]);
  (0x249f, [w_PARENTHESIZED;w_LATIN;w_SMALL;w_LETTER;w_D]);
  (0x24a0, [w_PARENTHESIZED;w_LATIN;w_SMALL;w_LETTER;w_E]);
  (0x24a1, [w_PARENTHESIZED;w_LATIN;w_SMALL;w_LETTER;w_F]);
  (0x24a2, [w_PARENTHESIZED;w_LATIN;w_SMALL;w_LETTER;w_G]);
  (0x24a3, [w_PARENTHESIZED;w_LATIN;w_SMALL;w_LETTER;w_H]);
  (0x24a4, [w_PARENTHESIZED;w_LATIN;w_SMALL;w_LETTER;w_I]);
  (0x24a5, [w_PARENTHESIZED;w_LATIN;w_SMALL;w_LETTER;w_J]);
  (0x24a6, [w_PARENTHESIZED;w_LATIN;w_SMALL;w_LETTER;w_K]);
  (0x24a7, [w_PARENTHESIZED;w_LATIN;w_SMALL;w_LETTER;w_L]);
  (0x24a8, [w_PARENTHESIZED;w_LATIN;w_SMALL;w_LETTER;w_M]);
  (0x24a9, [w_PARENTHESIZED;w_LATIN;w_SMALL;w_LETTER;w_N]);
  (0x24aa, [w_PARENTHESIZED;w_LATIN;w_SMALL;w_LETTER;w_O]);
  (0x24ab, [w_PARENTHESIZED;w_LATIN;w_SMALL;w_LETTER;w_P]);
  (0x24ac, [w_PARENTHESIZED;w_LATIN;w_SMALL;w_LETTER;w_Q]);
  (0x24ad, [w_PARENTHESIZED;w_LATIN;w_SMALL;w_LETTER;w_R]);
  (0x24ae, [w_PARENTHESIZED;w_LATIN;w_SMALL;w_LETTER;w_S]);
  (0x24af, [w_PARENTHESIZED;w_LATIN;w_SMALL;w_LETTER;w_T]);
  (0x24b0, [w_PARENTHESIZED;w_LATIN;w_SMALL;w_LETTER;w_U]);
  (0x24b1, [w_PARENTHESIZED;w_LATIN;w_SMALL;w_LETTER;w_V]);
  (0x24b2, [w_PARENTHESIZED;w_LATIN;w_SMALL;w_LETTER;w_W]);
  (0x24b3, [w_PARENTHESIZED;w_LATIN;w_SMALL;w_LETTER;w_X]);
  (0x24b4, [w_PARENTHESIZED;w_LATIN;w_SMALL;w_LETTER;w_Y]);
  (0x24b5, [w_PARENTHESIZED;w_LATIN;w_SMALL;w_LETTER;w_Z]);
  (0x24b6, [w_CIRCLED;w_LATIN;w_CAPITAL;w_LETTER;w_A]);
  (0x24b7, [w_CIRCLED;w_LATIN;w_CAPITAL;w_LETTER;w_B]);
  (0x24b8, [w_CIRCLED;w_LATIN;w_CAPITAL;w_LETTER;w_C]);
  (0x24b9, [w_CIRCLED;w_LATIN;w_CAPITAL;w_LETTER;w_D]);
  (0x24ba, [w_CIRCLED;w_LATIN;w_CAPITAL;w_LETTER;w_E]);
  (0x24bb, [w_CIRCLED;w_LATIN;w_CAPITAL;w_LETTER;w_F]);
  (0x24bc, [w_CIRCLED;w_LATIN;w_CAPITAL;w_LETTER;w_G]);
  (0x24bd, [w_CIRCLED;w_LATIN;w_CAPITAL;w_LETTER;w_H]);
  (0x24be, [w_CIRCLED;w_LATIN;w_CAPITAL;w_LETTER;w_I]);
  (0x24bf, [w_CIRCLED;w_LATIN;w_CAPITAL;w_LETTER;w_J]);
  (0x24c0, [w_CIRCLED;w_LATIN;w_CAPITAL;w_LETTER;w_K]);
  (0x24c1, [w_CIRCLED;w_LATIN;w_CAPITAL;w_LETTER;w_L]);
  (0x24c2, [w_CIRCLED;w_LATIN;w_CAPITAL;w_LETTER;w_M]);
  (0x24c3, [w_CIRCLED;w_LATIN;w_CAPITAL;w_LETTER;w_N]);
  (0x24c4, [w_CIRCLED;w_LATIN;w_CAPITAL;w_LETTER;w_O]);
  (0x24c5, [w_CIRCLED;w_LATIN;w_CAPITAL;w_LETTER;w_P]);
  (0x24c6, [w_CIRCLED;w_LATIN;w_CAPITAL;w_LETTER;w_Q]);
  (0x24c7, [w_CIRCLED;w_LATIN;w_CAPITAL;w_LETTER;w_R]);
  (0x24c8, [w_CIRCLED;w_LATIN;w_CAPITAL;w_LETTER;w_S]);
  (0x24c9, [w_CIRCLED;w_LATIN;w_CAPITAL;w_LETTER;w_T]);
  (0x24ca, [w_CIRCLED;w_LATIN;w_CAPITAL;w_LETTER;w_U]);
  (0x24cb, [w_CIRCLED;w_LATIN;w_CAPITAL;w_LETTER;w_V]);
  (0x24cc, [w_CIRCLED;w_LATIN;w_CAPITAL;w_LETTER;w_W]);
  (0x24cd, [w_CIRCLED;w_LATIN;w_CAPITAL;w_LETTER;w_X]);
  (0x24ce, [w_CIRCLED;w_LATIN;w_CAPITAL;w_LETTER;w_Y]);
  (0x24cf, [w_CIRCLED;w_LATIN;w_CAPITAL;w_LETTER;w_Z]);
  (0x24d0, [w_CIRCLED;w_LATIN;w_SMALL;w_LETTER;w_A]);
  (0x24d1, [w_CIRCLED;w_LATIN;w_SMALL;w_LETTER;w_B]);
  (0x24d2, [w_CIRCLED;w_LATIN;w_SMALL;w_LETTER;w_C]);
  (0x24d3, [w_CIRCLED;w_LATIN;w_SMALL;w_LETTER;w_D]);
  (0x24d4, [w_CIRCLED;w_LATIN;w_SMALL;w_LETTER;w_E]);
  (0x24d5, [w_CIRCLED;w_LATIN;w_SMALL;w_LETTER;w_F]);
  (0x24d6, [w_CIRCLED;w_LATIN;w_SMALL;w_LETTER;w_G]);
  (0x24d7, [w_CIRCLED;w_LATIN;w_SMALL;w_LETTER;w_H]);
  (0x24d8, [w_CIRCLED;w_LATIN;w_SMALL;w_LETTER;w_I]);
  (0x24d9, [w_CIRCLED;w_LATIN;w_SMALL;w_LETTER;w_J]);
  (0x24da, [w_CIRCLED;w_LATIN;w_SMALL;w_LETTER;w_K]);
  (0x24db, [w_CIRCLED;w_LATIN;w_SMALL;w_LETTER;w_L]);
  (0x24dc, [w_CIRCLED;w_LATIN;w_SMALL;w_LETTER;w_M]);
  (0x24dd, [w_CIRCLED;w_LATIN;w_SMALL;w_LETTER;w_N]);
  (0x24de, [w_CIRCLED;w_LATIN;w_SMALL;w_LETTER;w_O]);
  (0x24df, [w_CIRCLED;w_LATIN;w_SMALL;w_LETTER;w_P]);
  (0x24e0, [w_CIRCLED;w_LATIN;w_SMALL;w_LETTER;w_Q]);
  (0x24e1, [w_CIRCLED;w_LATIN;w_SMALL;w_LETTER;w_R]);
  (0x24e2, [w_CIRCLED;w_LATIN;w_SMALL;w_LETTER;w_S]);
  (0x24e3, [w_CIRCLED;w_LATIN;w_SMALL;w_LETTER;w_T]);
  (0x24e4, [w_CIRCLED;w_LATIN;w_SMALL;w_LETTER;w_U]);
  (0x24e5, [w_CIRCLED;w_LATIN;w_SMALL;w_LETTER;w_V]);
  (0x24e6, [w_CIRCLED;w_LATIN;w_SMALL;w_LETTER;w_W]);
  (0x24e7, [w_CIRCLED;w_LATIN;w_SMALL;w_LETTER;w_X]);
  (0x24e8, [w_CIRCLED;w_LATIN;w_SMALL;w_LETTER;w_Y]);
  (0x24e9, [w_CIRCLED;w_LATIN;w_SMALL;w_LETTER;w_Z]);
  (0x24ea, [w_CIRCLED;w_DIGIT;w_ZERO]);
  (0x24eb, [w_NEGATIVE;w_CIRCLED;w_NUMBER;w_ELEVEN]);
  (0x24ec, [w_NEGATIVE;w_CIRCLED;w_NUMBER;w_TWELVE]);
  (0x24ed, [w_NEGATIVE;w_CIRCLED;w_NUMBER;w_THIRTEEN]);
  (0x24ee, [w_NEGATIVE;w_CIRCLED;w_NUMBER;w_FOURTEEN]);
  (0x24ef, [w_NEGATIVE;w_CIRCLED;w_NUMBER;w_FIFTEEN]);
  (0x24f0, [w_NEGATIVE;w_CIRCLED;w_NUMBER;w_SIXTEEN]);
  (0x24f1, [w_NEGATIVE;w_CIRCLED;w_NUMBER;w_SEVENTEEN]);
  (0x24f2, [w_NEGATIVE;w_CIRCLED;w_NUMBER;w_EIGHTEEN]);
  (0x24f3, [w_NEGATIVE;w_CIRCLED;w_NUMBER;w_NINETEEN]);
  (0x24f4, [w_NEGATIVE;w_CIRCLED;w_NUMBER;w_TWENTY]);
  (0x24f5, [w_DOUBLE;w_CIRCLED;w_DIGIT;w_ONE]);
  (0x24f6, [w_DOUBLE;w_CIRCLED;w_DIGIT;w_TWO]);
  (0x24f7, [w_DOUBLE;w_CIRCLED;w_DIGIT;w_THREE]);
  (0x24f8, [w_DOUBLE;w_CIRCLED;w_DIGIT;w_FOUR]);
  (0x24f9, [w_DOUBLE;w_CIRCLED;w_DIGIT;w_FIVE]);
  (0x24fa, [w_DOUBLE;w_CIRCLED;w_DIGIT;w_SIX]);
  (0x24fb, [w_DOUBLE;w_CIRCLED;w_DIGIT;w_SEVEN]);
  (0x24fc, [w_DOUBLE;w_CIRCLED;w_DIGIT;w_EIGHT]);
  (0x24fd, [w_DOUBLE;w_CIRCLED;w_DIGIT;w_NINE]);
  (0x24fe, [w_DOUBLE;w_CIRCLED;w_NUMBER;w_TEN]);
  (0x24ff, [w_NEGATIVE;w_CIRCLED;w_DIGIT;w_ZERO]);
  (0x2500, [w_BOX;w_DRAWINGS;w_LIGHT;w_HORIZONTAL]);
  (0x2501, [w_BOX;w_DRAWINGS;w_HEAVY;w_HORIZONTAL]);
  (0x2502, [w_BOX;w_DRAWINGS;w_LIGHT;w_VERTICAL]);
  (0x2503, [w_BOX;w_DRAWINGS;w_HEAVY;w_VERTICAL]);
  (0x2504, [w_BOX;w_DRAWINGS;w_LIGHT;w_TRIPLE;w_DASH;w_HORIZONTAL]);
  (0x2505, [w_BOX;w_DRAWINGS;w_HEAVY;w_TRIPLE;w_DASH;w_HORIZONTAL]);
  (0x2506, [w_BOX;w_DRAWINGS;w_LIGHT;w_TRIPLE;w_DASH;w_VERTICAL]);
  (0x2507, [w_BOX;w_DRAWINGS;w_HEAVY;w_TRIPLE;w_DASH;w_VERTICAL]);
  (0x2508, [w_BOX;w_DRAWINGS;w_LIGHT;w_QUADRUPLE;w_DASH;w_HORIZONTAL]);
  (0x2509, [w_BOX;w_DRAWINGS;w_HEAVY;w_QUADRUPLE;w_DASH;w_HORIZONTAL]);
  (0x250a, [w_BOX;w_DRAWINGS;w_LIGHT;w_QUADRUPLE;w_DASH;w_VERTICAL]);
  (0x250b, [w_BOX;w_DRAWINGS;w_HEAVY;w_QUADRUPLE;w_DASH;w_VERTICAL]);
  (0x250c, [w_BOX;w_DRAWINGS;w_LIGHT;w_DOWN;w_AND;w_RIGHT]);
  (0x250d, [w_BOX;w_DRAWINGS;w_DOWN;w_LIGHT;w_AND;w_RIGHT;w_HEAVY]);
  (0x250e, [w_BOX;w_DRAWINGS;w_DOWN;w_HEAVY;w_AND;w_RIGHT;w_LIGHT]);
  (0x250f, [w_BOX;w_DRAWINGS;w_HEAVY;w_DOWN;w_AND;w_RIGHT]);
  (0x2510, [w_BOX;w_DRAWINGS;w_LIGHT;w_DOWN;w_AND;w_LEFT]);
  (0x2511, [w_BOX;w_DRAWINGS;w_DOWN;w_LIGHT;w_AND;w_LEFT;w_HEAVY]);
  (0x2512, [w_BOX;w_DRAWINGS;w_DOWN;w_HEAVY;w_AND;w_LEFT;w_LIGHT]);
  (0x2513, [w_BOX;w_DRAWINGS;w_HEAVY;w_DOWN;w_AND;w_LEFT]);
  (0x2514, [w_BOX;w_DRAWINGS;w_LIGHT;w_UP;w_AND;w_RIGHT]);
  (0x2515, [w_BOX;w_DRAWINGS;w_UP;w_LIGHT;w_AND;w_RIGHT;w_HEAVY]);
  (0x2516, [w_BOX;w_DRAWINGS;w_UP;w_HEAVY;w_AND;w_RIGHT;w_LIGHT]);
  (0x2517, [w_BOX;w_DRAWINGS;w_HEAVY;w_UP;w_AND;w_RIGHT]);
  (0x2518, [w_BOX;w_DRAWINGS;w_LIGHT;w_UP;w_AND;w_LEFT]);
  (0x2519, [w_BOX;w_DRAWINGS;w_UP;w_LIGHT;w_AND;w_LEFT;w_HEAVY]);
  (0x251a, [w_BOX;w_DRAWINGS;w_UP;w_HEAVY;w_AND;w_LEFT;w_LIGHT]);
  (0x251b, [w_BOX;w_DRAWINGS;w_HEAVY;w_UP;w_AND;w_LEFT]);
  (0x251c, [w_BOX;w_DRAWINGS;w_LIGHT;w_VERTICAL;w_AND;w_RIGHT]);
  (0x251d, [w_BOX;w_DRAWINGS;w_VERTICAL;w_LIGHT;w_AND;w_RIGHT;w_HEAVY]);
  (0x251e, [w_BOX;w_DRAWINGS;w_UP;w_HEAVY;w_AND;w_RIGHT;w_DOWN;w_LIGHT]);
  (0x251f, [w_BOX;w_DRAWINGS;w_DOWN;w_HEAVY;w_AND;w_RIGHT;w_UP;w_LIGHT]);
  (0x2520, [w_BOX;w_DRAWINGS;w_VERTICAL;w_HEAVY;w_AND;w_RIGHT;w_LIGHT]);
  (0x2521, [w_BOX;w_DRAWINGS;w_DOWN;w_LIGHT;w_AND;w_RIGHT;w_UP;w_HEAVY]);
  (0x2522, [w_BOX;w_DRAWINGS;w_UP;w_LIGHT;w_AND;w_RIGHT;w_DOWN;w_HEAVY]);
  (0x2523, [w_BOX;w_DRAWINGS;w_HEAVY;w_VERTICAL;w_AND;w_RIGHT]);
  (0x2524, [w_BOX;w_DRAWINGS;w_LIGHT;w_VERTICAL;w_AND;w_LEFT]);
  (0x2525, [w_BOX;w_DRAWINGS;w_VERTICAL;w_LIGHT;w_AND;w_LEFT;w_HEAVY]);
  (0x2526, [w_BOX;w_DRAWINGS;w_UP;w_HEAVY;w_AND;w_LEFT;w_DOWN;w_LIGHT]);
  (0x2527, [w_BOX;w_DRAWINGS;w_DOWN;w_HEAVY;w_AND;w_LEFT;w_UP;w_LIGHT]);
  (0x2528, [w_BOX;w_DRAWINGS;w_VERTICAL;w_HEAVY;w_AND;w_LEFT;w_LIGHT]);
  (0x2529, [w_BOX;w_DRAWINGS;w_DOWN;w_LIGHT;w_AND;w_LEFT;w_UP;w_HEAVY]);
  (0x252a, [w_BOX;w_DRAWINGS;w_UP;w_LIGHT;w_AND;w_LEFT;w_DOWN;w_HEAVY]);
  (0x252b, [w_BOX;w_DRAWINGS;w_HEAVY;w_VERTICAL;w_AND;w_LEFT]);
  (0x252c, [w_BOX;w_DRAWINGS;w_LIGHT;w_DOWN;w_AND;w_HORIZONTAL]);
  (0x252d, [w_BOX;w_DRAWINGS;w_LEFT;w_HEAVY;w_AND;w_RIGHT;w_DOWN;w_LIGHT]);
  (0x252e, [w_BOX;w_DRAWINGS;w_RIGHT;w_HEAVY;w_AND;w_LEFT;w_DOWN;w_LIGHT]);
  (0x252f, [w_BOX;w_DRAWINGS;w_DOWN;w_LIGHT;w_AND;w_HORIZONTAL;w_HEAVY]);
  (0x2530, [w_BOX;w_DRAWINGS;w_DOWN;w_HEAVY;w_AND;w_HORIZONTAL;w_LIGHT]);
  (0x2531, [w_BOX;w_DRAWINGS;w_RIGHT;w_LIGHT;w_AND;w_LEFT;w_DOWN;w_HEAVY]);
  (0x2532, [w_BOX;w_DRAWINGS;w_LEFT;w_LIGHT;w_AND;w_RIGHT;w_DOWN;w_HEAVY]);
  (0x2533, [w_BOX;w_DRAWINGS;w_HEAVY;w_DOWN;w_AND;w_HORIZONTAL]);
  (0x2534, [w_BOX;w_DRAWINGS;w_LIGHT;w_UP;w_AND;w_HORIZONTAL]);
  (0x2535, [w_BOX;w_DRAWINGS;w_LEFT;w_HEAVY;w_AND;w_RIGHT;w_UP;w_LIGHT]);
  (0x2536, [w_BOX;w_DRAWINGS;w_RIGHT;w_HEAVY;w_AND;w_LEFT;w_UP;w_LIGHT]);
  (0x2537, [w_BOX;w_DRAWINGS;w_UP;w_LIGHT;w_AND;w_HORIZONTAL;w_HEAVY]);
  (0x2538, [w_BOX;w_DRAWINGS;w_UP;w_HEAVY;w_AND;w_HORIZONTAL;w_LIGHT]);
  (0x2539, [w_BOX;w_DRAWINGS;w_RIGHT;w_LIGHT;w_AND;w_LEFT;w_UP;w_HEAVY]);
  (0x253a, [w_BOX;w_DRAWINGS;w_LEFT;w_LIGHT;w_AND;w_RIGHT;w_UP;w_HEAVY]);
  (0x253b, [w_BOX;w_DRAWINGS;w_HEAVY;w_UP;w_AND;w_HORIZONTAL]);
  (0x253c, [w_BOX;w_DRAWINGS;w_LIGHT;w_VERTICAL;w_AND;w_HORIZONTAL]);
  (0x253d, [w_BOX;w_DRAWINGS;w_LEFT;w_HEAVY;w_AND;w_RIGHT;w_VERTICAL;w_LIGHT]);
  (0x253e, [w_BOX;w_DRAWINGS;w_RIGHT;w_HEAVY;w_AND;w_LEFT;w_VERTICAL;w_LIGHT]);
  (0x253f, [w_BOX;w_DRAWINGS;w_VERTICAL;w_LIGHT;w_AND;w_HORIZONTAL;w_HEAVY]);
  (0x2540, [w_BOX;w_DRAWINGS;w_UP;w_HEAVY;w_AND;w_DOWN;w_HORIZONTAL;w_LIGHT]);
  (0x2541, [w_BOX;w_DRAWINGS;w_DOWN;w_HEAVY;w_AND;w_UP;w_HORIZONTAL;w_LIGHT]);
  (0x2542, [w_BOX;w_DRAWINGS;w_VERTICAL;w_HEAVY;w_AND;w_HORIZONTAL;w_LIGHT]);
  (0x2543, [w_BOX;w_DRAWINGS;w_LEFT;w_UP;w_HEAVY;w_AND;w_RIGHT;w_DOWN;w_LIGHT]);
  (0x2544, [w_BOX;w_DRAWINGS;w_RIGHT;w_UP;w_HEAVY;w_AND;w_LEFT;w_DOWN;w_LIGHT]);
  (0x2545, [w_BOX;w_DRAWINGS;w_LEFT;w_DOWN;w_HEAVY;w_AND;w_RIGHT;w_UP;w_LIGHT]);
  (0x2546, [w_BOX;w_DRAWINGS;w_RIGHT;w_DOWN;w_HEAVY;w_AND;w_LEFT;w_UP;w_LIGHT]);
  (0x2547, [w_BOX;w_DRAWINGS;w_DOWN;w_LIGHT;w_AND;w_UP;w_HORIZONTAL;w_HEAVY]);
  (0x2548, [w_BOX;w_DRAWINGS;w_UP;w_LIGHT;w_AND;w_DOWN;w_HORIZONTAL;w_HEAVY]);
  (0x2549, [w_BOX;w_DRAWINGS;w_RIGHT;w_LIGHT;w_AND;w_LEFT;w_VERTICAL;w_HEAVY]);
  (0x254a, [w_BOX;w_DRAWINGS;w_LEFT;w_LIGHT;w_AND;w_RIGHT;w_VERTICAL;w_HEAVY]);
  (0x254b, [w_BOX;w_DRAWINGS;w_HEAVY;w_VERTICAL;w_AND;w_HORIZONTAL]);
  (0x254c, [w_BOX;w_DRAWINGS;w_LIGHT;w_DOUBLE;w_DASH;w_HORIZONTAL]);
  (0x254d, [w_BOX;w_DRAWINGS;w_HEAVY;w_DOUBLE;w_DASH;w_HORIZONTAL]);
  (0x254e, [w_BOX;w_DRAWINGS;w_LIGHT;w_DOUBLE;w_DASH;w_VERTICAL]);
  (0x254f, [w_BOX;w_DRAWINGS;w_HEAVY;w_DOUBLE;w_DASH;w_VERTICAL]);
  (0x2550, [w_BOX;w_DRAWINGS;w_DOUBLE;w_HORIZONTAL]);
  (0x2551, [w_BOX;w_DRAWINGS;w_DOUBLE;w_VERTICAL]);
  (0x2552, [w_BOX;w_DRAWINGS;w_DOWN;w_SINGLE;w_AND;w_RIGHT;w_DOUBLE]);
  (0x2553, [w_BOX;w_DRAWINGS;w_DOWN;w_DOUBLE;w_AND;w_RIGHT;w_SINGLE]);
  (0x2554, [w_BOX;w_DRAWINGS;w_DOUBLE;w_DOWN;w_AND;w_RIGHT]);
  (0x2555, [w_BOX;w_DRAWINGS;w_DOWN;w_SINGLE;w_AND;w_LEFT;w_DOUBLE]);
  (0x2556, [w_BOX;w_DRAWINGS;w_DOWN;w_DOUBLE;w_AND;w_LEFT;w_SINGLE]);
  (0x2557, [w_BOX;w_DRAWINGS;w_DOUBLE;w_DOWN;w_AND;w_LEFT]);
  (0x2558, [w_BOX;w_DRAWINGS;w_UP;w_SINGLE;w_AND;w_RIGHT;w_DOUBLE])].

Definition NAMES_21 : list (N * (list str)) := [
  (0x2559, [w_BOX;w_DRAWINGS;w_UP;w_DOUBLE;w_AND;w_RIGHT;w_SINGLE]);
  (0x255a, [w_BOX;w_DRAWINGS;w_DOUBLE;w_UP;w_AND;w_RIGHT]);
  (0x255b, [w_BOX;w_DRAWINGS;w_UP;w_SINGLE;w_AND;w_LEFT;w_DOUBLE]);
  (0x255c, [w_BOX;w_DRAWINGS;w_UP;w_DOUBLE;w_AND;w_LEFT;w_SINGLE]);
  (0x255d, [w_BOX;w_DRAWINGS;w_DOUBLE;w_UP;w_AND;w_LEFT]);
  (0x255e, [w_BOX;w_DRAWINGS;w_VERTICAL;w_SINGLE;w_AND;w_RIGHT;w_DOUBLE]);
  (0x255f, [w_BOX;w_DRAWINGS;w_VERTICAL;w_DOUBLE;w_AND;w_RIGHT;w_SINGLE]);
  (0x2560, [w_BOX;w_DRAWINGS;w_DOUBLE;w_VERTICAL;w_AND;w_RIGHT]);
  (0x2561, [w_BOX;w_DRAWINGS;w_VERTICAL;w_SINGLE;w_AND;w_LEFT;w_DOUBLE]);
  (0x2562, [w_BOX;w_DRAWINGS;w_VERTICAL;w_DOUBLE;w_AND;w_LEFT;w_SINGLE]);
  (0x2563, [w_BOX;w_DRAWINGS;w_DOUBLE;w_VERTICAL;w_AND;w_LEFT]);
  (0x2564, [w_BOX;w_DRAWINGS;w_DOWN;w_SINGLE;w_AND;w_HORIZONTAL;w_DOUBLE]);
  (0x2565, [w_BOX;w_DRAWINGS;w_DOWN;w_DOUBLE;w_AND;w_HORIZONTAL;w_SINGLE]);
  (0x2566, [w_BOX;w_DRAWINGS;w_DOUBLE;w_DOWN;w_AND;w_HORIZONTAL]);
  (0x2567, [w_BOX;w_DRAWINGS;w_UP;w_SINGLE;w_AND;w_HORIZONTAL;w_DOUBLE]);
  (0x2568, [w_BOX;w_DRAWINGS;w_UP;w_DOUBLE;w_AND;w_HORIZONTAL;w_SINGLE]);
  (0x2569, [w_BOX;w_DRAWINGS;w_DOUBLE;w_UP;w_AND;w_HORIZONTAL]);
  (0x256a, [w_BOX;w_DRAWINGS;w_VERTICAL;w_SINGLE;w_AND;w_HORIZONTAL;w_DOUBLE]);
  (0x256b, [w_BOX;w_DRAWINGS;w_VERTICAL;w_DOUBLE;w_AND;w_HORIZONTAL;w_SINGLE]);
  (0x256c, [w_BOX;w_DRAWINGS;w_DOUBLE;w_VERTICAL;w_AND;w_HORIZONTAL]);
  (0x256d, [w_BOX;w_DRAWINGS;w_LIGHT;w_ARC;w_DOWN;w_AND;w_RIGHT]);
  (0x256e, [w_BOX;w_DRAWINGS;w_LIGHT;w_ARC;w_DOWN;w_AND;w_LEFT]);
  (0x256f, [w_BOX;w_DRAWINGS;w_LIGHT;w_ARC;w_UP;w_AND;w_LEFT]);
  (0x2570, [w_BOX;w_DRAWINGS;w_LIGHT;w_ARC;w_UP;w_AND;w_RIGHT]);
  (0x2571, [w_BOX;w_DRAWINGS;w_LIGHT;w_DIAGONAL;w_UPPER;w_RIGHT;w_TO;w_LOWER;w_LEFT]);
  (0x2572, [w_BOX;w_DRAWINGS;w_LIGHT;w_DIAGONAL;w_UPPER;w_LEFT;w_TO;w_LOWER;w_RIGHT]);
  (0x2573, [w_BOX;w_DRAWINGS;w_LIGHT;w_DIAGONAL;w_CROSS]);
  (0x2574, [w_BOX;w_DRAWINGS;w_LIGHT;w_LEFT]);
  (0x2575, [w_BOX;w_DRAWINGS;w_LIGHT;w_UP]);
  (0x2576, [w_BOX;w_DRAWINGS;w_LIGHT;w_RIGHT]);
  (0x2577, [w_BOX;w_DRAWINGS;w_LIGHT;w_DOWN]);
  (0x2578, [w_BOX;w_DRAWINGS;w_HEAVY;w_LEFT]);
  (0x2579, [w_BOX;w_DRAWINGS;w_HEAVY;w_UP]);
  (0x257a, [w_BOX;w_DRAWINGS;w_HEAVY;w_RIGHT]);
  (0x257b, [w_BOX;w_DRAWINGS;w_HEAVY;w_DOWN]);
  (0x257c, [w_BOX;w_DRAWINGS;w_LIGHT;w_LEFT;w_AND;w_HEAVY;w_RIGHT]);
  (0x257d, [w_BOX;w_DRAWINGS;w_LIGHT;w_UP;w_AND;w_HEAVY;w_DOWN]);
  (0x257e, [w_BOX;w_DRAWINGS;w_HEAVY;w_LEFT;w_AND;w_LIGHT;w_RIGHT]);
  (0x257f, [w_BOX;w_DRAWINGS;w_HEAVY;w_UP;w_AND;w_LIGHT;w_DOWN]);
  (0x2580, [w_UPPER;w_HALF;w_BLOCK]);
  (0x2581, [w_LOWER;w_ONE;w_EIGHTH;w_BLOCK]);
  (0x2582, [w_LOWER;w_ONE;w_QUARTER;w_BLOCK]);
  (0x2583, [w_LOWER;w_THREE;w_EIGHTHS;w_BLOCK]);
  (0x2584, [w_LOWER;w_HALF;w_BLOCK]);
  (0x2585, [w_LOWER;w_FIVE;w_EIGHTHS;w_BLOCK]);
  (0x2586, [w_LOWER;w_THREE;w_QUARTERS;w_BLOCK]);
  (0x2587, [w_LOWER;w_SEVEN;w_EIGHTHS;w_BLOCK]);
  (0x2588, [w_FULL;w_BLOCK]);
  (0x2589, [w_LEFT;w_SEVEN;w_EIGHTHS;w_BLOCK]);
  (0x258a, [w_LEFT;w_THREE;w_QUARTERS;w_BLOCK]);
  (0x258b, [w_LEFT;w_FIVE;w_EIGHTHS;w_BLOCK]);
  (0x258c, [w_LEFT;w_HALF;w_BLOCK]);
  (0x258d, [w_LEFT;w_THREE;w_EIGHTHS;w_BLOCK]);
  (0x258e, [w_LEFT;w_ONE;w_QUARTER;w_BLOCK]);
  (0x258f, [w_LEFT;w_ONE;w_EIGHTH;w_BLOCK]);
  (0x2590, [w_RIGHT;w_HALF;w_BLOCK]);
  (0x2591, [w_LIGHT;w_SHADE]);
  (0x2592, [w_MEDIUM;w_SHADE]);
  (0x2593, [w_DARK;w_SHADE]);
  (0x2594, [w_UPPER;w_ONE;w_EIGHTH;w_BLOCK]);
  (0x2595, [w_RIGHT;w_ONE;w_EIGHTH;w_BLOCK]);
  (0x2596, [w_QUADRANT;w_LOWER;w_LEFT]);
  (0x2597, [w_QUADRANT;w_LOWER;w_RIGHT]);
  (0x2598, [w_QUADRANT;w_UPPER;w_LEFT]);
  (0x2599, [w_QUADRANT;w_UPPER;w_LEFT;w_AND;w_LOWER;w_LEFT;w_AND;w_LOWER;w_RIGHT]);
  (0x259a, [w_QUADRANT;w_UPPER;w_LEFT;w_AND;w_LOWER;w_RIGHT]);
  (0x259b, [w_QUADRANT;w_UPPER;w_LEFT;w_AND;w_UPPER;w_RIGHT;w_AND;w_LOWER;w_LEFT]);
  (0x259c, [w_QUADRANT;w_UPPER;w_LEFT;w_AND;w_UPPER;w_RIGHT;w_AND;w_LOWER;w_RIGHT]);
  (0x259d, [w_QUADRANT;w_UPPER;w_RIGHT]);
  (0x259e, [w_QUADRANT;w_UPPER;w_RIGHT;w_AND;w_LOWER;w_LEFT]);
  (0x259f, [w_QUADRANT;w_UPPER;w_RIGHT;w_AND;w_LOWER;w_LEFT;w_AND;w_LOWER;w_RIGHT]);
  (0x25a0, [w_BLACK;w_SQUARE]);
  (0x25a1, [w_WHITE;w_SQUARE]);
  (0x25a2, [w_WHITE;w_SQUARE;w_WITH;w_ROUNDED;w_CORNERS]);
  (0x25a3, [w_WHITE;w_SQUARE;w_CONTAINING;w_BLACK;w_SMALL;w_SQUARE]);
  (0x25a4, [w_SQUARE;w_WITH;w_HORIZONTAL;w_FILL]);
  (0x25a5, [w_SQUARE;w_WITH;w_VERTICAL;w_FILL]);
  (0x25a6, [w_SQUARE;w_WITH;w_ORTHOGONAL;w_CROSSHATCH;w_FILL]);
  (0x25a7, [w_SQUARE;w_WITH;w_UPPER;w_LEFT;w_TO;w_LOWER;w_RIGHT;w_FILL]);
  (0x25a8, [w_SQUARE;w_WITH;w_UPPER;w_RIGHT;w_TO;w_LOWER;w_LEFT;w_FILL]);
  (0x25a9, [w_SQUARE;w_WITH;w_DIAGONAL;w_CROSSHATCH;w_FILL]);
  (0x25aa, [w_BLACK;w_SMALL;w_SQUARE]);
  (0x25ab, [w_WHITE;w_SMALL;w_SQUARE]);
  (0x25ac, [w_BLACK;w_RECTANGLE]);
  (0x25ad, [w_WHITE;w_RECTANGLE]);
  (0x25ae, [w_BLACK;w_VERTICAL;w_RECTANGLE]);
  (0x25af, [w_WHITE;w_VERTICAL;w_RECTANGLE]);
  (0x25b0, [w_BLACK;w_PARALLELOGRAM]);
  (0x25b1, [w_WHITE;w_PARALLELOGRAM]);
  (0x25b2, [w_BLACK;w_UP_POINTING;w_TRIANGLE]);
  (0x25b3, [w_WHITE;w_UP_POINTING;w_TRIANGLE]);
  (0x25b4, [w_BLACK;w_UP_POINTING;w_SMALL;w_TRIANGLE]);
  (0x25b5, [w_WHITE;w_UP_POINTING;w_SMALL;w_TRIANGLE]);
  (0x25b6, [w_BLACK;w_RIGHT_POINTING;w_TRIANGLE]);
  (0x25b7, [w_WHITE;w_RIGHT_POINTING;w_TRIANGLE]);
  (0x25b8, [w_BLACK;w_RIGHT_POINTING;w_SMALL;w_TRIANGLE]);
  (0x25b9, [w_WHITE;w_RIGHT_POINTING;w_SMALL;w_TRIANGLE]);
  (0x25ba, [w_BLACK;w_RIGHT_POINTING;w_POINTER]);
  (0x25bb, [w_WHITE;w_RIGHT_POINTING;w_POINTER]);
  (0x25bc, [w_BLACK;w_DOWN_POINTING;w_TRIANGLE]);
  (0x25bd, [w_WHITE;w_DOWN_POINTING;w_TRIANGLE]);
  (0x25be, [w_BLACK;w_DOWN_POINTING;w_SMALL;w_TRIANGLE]);
  (0x25bf, [w_WHITE;w_DOWN_POINTING;w_SMALL;w_TRIANGLE]);
  (0x25c0, [w_BLACK;w_LEFT_POINTING;w_TRIANGLE]);
  (0x25c1, [w_WHITE;w_LEFT_POINTING;w_TRIANGLE]);
  (0x25c2, [w_BLACK;w_LEFT_POINTING;w_SMALL;w_TRIANGLE]);
  (0x25c3, [w_WHITE;w_LEFT_POINTING;w_SMALL;w_TRIANGLE]);
  (0x25c4, [w_BLACK;w_LEFT_POINTING;w_POINTER]);
  (0x25c5, [w_WHITE;w_LEFT_POINTING;w_POINTER]);
  (0x25c6, [w_BLACK;w_DIAMOND]);
  (0x25c7, [w_WHITE;w_DIAMOND]);
  (0x25c8, [w_WHITE;w_DIAMOND;w_CONTAINING;w_BLACK;w_SMALL;w_DIAMOND]);
  (0x25c9, [w_FISHEYE]);
  (0x25ca, [w_LOZENGE]);
  (0x25cb, [w_WHITE;w_CIRCLE]);
  (0x25cc, [w_DOTTED;w_CIRCLE]);
  (0x25cd, [w_CIRCLE;w_WITH;w_VERTICAL;w_FILL]);
  (0x25ce, [w_BULLSEYE]);
  (0x25cf, [w_BLACK;w_CIRCLE]);
  (0x25d0, [w_CIRCLE;w_WITH;w_LEFT;w_HALF;w_BLACK]);
  (0x25d1, [w_CIRCLE;w_WITH;w_RIGHT;w_HALF;w_BLACK]);
  (0x25d2, [w_CIRCLE;w_WITH;w_LOWER;w_HALF;w_BLACK]);
  (0x25d3, [w_CIRCLE;w_WITH;w_UPPER;w_HALF;w_BLACK]);
  (0x25d4, [w_CIRCLE;w_WITH;w_UPPER;w_RIGHT;w_QUADRANT;w_BLACK]);
  (0x25d5, [w_CIRCLE;w_WITH;w_ALL;w_BUT;w_UPPER;w_LEFT;w_QUADRANT;w_BLACK]);
  (0x25d6, [w_LEFT;w_HALF;w_BLACK;w_CIRCLE]);
  (0x25d7, [w_RIGHT;w_HALF;w_BLACK;w_CIRCLE]);
  (0x25d8, [w_INVERSE;w_BULLET]);
  (0x25d9, [w_INVERSE;w_WHITE;w_CIRCLE]);
  (0x25da, [w_UPPER;w_HALF;w_INVERSE;w_WHITE;w_CIRCLE]);
  (0x25db, [w_LOWER;w_HALF;w_INVERSE;w_WHITE;w_CIRCLE]);
  (0x25dc, [w_UPPER;w_LEFT;w_QUADRANT;w_CIRCULAR;w_ARC]);
  (0x25dd, [w_UPPER;w_RIGHT;w_QUADRANT;w_CIRCULAR;w_ARC]);
  (0x25de, [w_LOWER;w_RIGHT;w_QUADRANT;w_CIRCULAR;w_ARC]);
  (0x25df, [w_LOWER;w_LEFT;w_QUADRANT;w_CIRCULAR;w_ARC]);
  (0x25e0, [w_UPPER;w_HALF;w_CIRCLE]);
  (0x25e1, [w_LOWER;w_HALF;w_CIRCLE]);
  (0x25e2, [w_BLACK;w_LOWER;w_RIGHT;w_TRIANGLE]);
  (0x25e3, [w_BLACK;w_LOWER;w_LEFT;w_TRIANGLE]);
  (0x25e4, [w_BLACK;w_UPPER;w_LEFT;w_TRIANGLE]);
  (0x25e5, [w_BLACK;w_UPPER;w_RIGHT;w_TRIANGLE]);
  (0x25e6, [w_WHITE;w_BULLET]);
  (0x25e7, [w_SQUARE;w_WITH;w_LEFT;w_HALF;w_BLACK]);
  (0x25e8, [w_SQUARE;w_WITH;w_RIGHT;w_HALF;w_BLACK]);
  (0x25e9, [w_SQUARE;w_WITH;w_UPPER;w_LEFT;w_DIAGONAL;w_HALF;w_BLACK]);
  (0x25ea, [w_SQUARE;w_WITH;w_LOWER;w_RIGHT;w_DIAGONAL;w_HALF;w_BLACK]);
  (0x25eb, [w_WHITE;w_SQUARE;w_WITH;w_VERTICAL;w_BISECTING;w_LINE]);
  (0x25ec, [w_WHITE;w_UP_POINTING;w_TRIANGLE;w_WITH;w_DOT]);
  (0x25ed, [w_UP_POINTING;w_TRIANGLE;w_WITH;w_LEFT;w_HALF;w_BLACK]);
  (0x25ee, [w_UP_POINTING;w_TRIANGLE;w_WITH;w_RIGHT;w_HALF;w_BLACK]);
  (0x25ef, [w_LARGE;w_CIRCLE]);
  (0x25f0, [w_WHITE;w_SQUARE;w_WITH;w_UPPER;w_LEFT;w_QUADRANT]);
  (0x25f1, [w_WHITE;w_SQUARE;w_WITH;w_LOWER;w_LEFT;w_QUADRANT]);
  (0x25f2, [w_WHITE;w_SQUARE;w_WITH;w_LOWER;w_RIGHT;w_QUADRANT]);
  (0x25f3, [w_WHITE;w_SQUARE;w_WITH;w_UPPER;w_RIGHT;w_QUADRANT]);
  (0x25f4, [w_WHITE;w_CIRCLE;w_WITH;w_UPPER;w_LEFT;w_QUADRANT]);
  (0x25f5, [w_WHITE;w_CIRCLE;w_WITH;w_LOWER;w_LEFT;w_QUADRANT]);
  (0x25f6, [w_WHITE;w_CIRCLE;w_WITH;w_LOWER;w_RIGHT;w_QUADRANT]);
  (0x25f7, [w_WHITE;w_CIRCLE;w_WITH;w_UPPER;w_RIGHT;w_QUADRANT]);
  (0x25f8, [w_UPPER;w_LEFT;w_TRIANGLE]);
  (0x25f9, [w_UPPER;w_RIGHT;w_TRIANGLE]);
  (0x25fa, [w_LOWER;w_LEFT;w_TRIANGLE]);
  (0x25fb, [w_WHITE;w_MEDIUM;w_SQUARE]);
  (0x25fc, [w_BLACK;w_MEDIUM;w_SQUARE]);
  (0x25fd, [w_WHITE;w_MEDIUM;w_SMALL;w_SQUARE]);
  (0x25fe, [w_BLACK;w_MEDIUM;w_SMALL;w_SQUARE]);
  (0x25ff, [w_LOWER;w_RIGHT;w_TRIANGLE]);
  (0x2600, [w_BLACK;w_SUN;w_WITH;w_RAYS]);
  (0x2601, [w_CLOUD]);
  (0x2602, [w_UMBRELLA]);
  (0x2603, [w_SNOWMAN]);
  (0x2604, [w_COMET]);
  (0x2605, [w_BLACK;w_STAR]);
  (0x2606, [w_WHITE;w_STAR]);
  (0x2607, [w_LIGHTNING]);
  (0x2608, [w_THUNDERSTORM]);
  (0x2609, [w_SUN]);
  (0x260a, [w_ASCENDING;w_NODE]);
  (0x260b, [w_DESCENDING;w_NODE]);
  (0x260c, [w_CONJUNCTION]);
  (0x260d, [w_OPPOSITION]);
  (0x260e, [w_BLACK;w_TELEPHONE]);
  (0x260f, [w_WHITE;w_TELEPHONE]);
  (0x2610, [w_BALLOT;w_BOX]);
  (0x2611, [w_BALLOT;w_BOX;w_WITH;w_CHECK]);
  (0x2612, [w_BALLOT;w_BOX;w_WITH;w_X]);
  (0x2613, [w_SALTIRE]);
  (0x2614, [w_UMBRELLA;w_WITH;w_RAIN;w_DROPS]);
  (0x2615, [w_HOT;w_BEVERAGE]);
  (0x2616, [w_WHITE;w_SHOGI;w_PIECE]);
  (0x2617, [w_BLACK;w_SHOGI;w_PIECE]);
  (0x2618, [w_SHAMROCK]);
  (0x2619, [w_REVERSED;w_ROTATED;w_FLORAL;w_HEART;w_BULLET]);
  (0x261a, [w_BLACK;w_LEFT;w_POINTING;w_INDEX]);
  (0x261b, [w_BLACK;w_RIGHT;w_POINTING;w_INDEX]);
  (0x261c, [w_WHITE;w_LEFT;w_POINTING;w_INDEX]);
  (0x261d, [w_WHITE;w_UP;w_POINTING;w_INDEX]);
  (0x261e, [w_WHITE;w_RIGHT;w_POINTING;w_INDEX]);
  (0x261f, [w_WHITE;w_DOWN;w_POINTING;w_INDEX]);
  (0x2620, [w_SKULL;w_AND;w_CROSSBONES]);
  (0x2621, [w_CAUTION;w_SIGN]);
  (0x2622, [w_RADIOACTIVE;w_SIGN]);
  (0x2623, [w_BIOHAZARD;w_SIGN]);
  (0x2624, [w_CADUCEUS]);
  (0x2625, [w_ANKH]);
  (0x2626, [w_ORTHODOX;w_CROSS]);
  (0x2627, [w_CHI;w_RHO]);
  (0x2628, [w_CROSS;w_OF;w_LORRAINE]);
  (0x2629, [w_CROSS;w_OF;w_JERUSALEM]);
  (0x262a, [w_STAR;w_AND;w_CRESCENT]);
  (0x262b, [w_FARSI;w_SYMBOL]);
  (0x262c, [w_ADI;w_SHAKTI]);
  (0x262d, [w_HAMMER;w_AND;w_SICKLE]);
  (0x262e, [w_PEACE;w_SYMBOL]);
  (0x262f, [w_YIN;w_YANG]);
  (0x2630, [w_TRIGRAM;w_FOR;w_HEAVEN]);
  (0x2631, [w_TRIGRAM;w_FOR;w_LAKE]);
  (0x2632, [w_TRIGRAM;w_FOR;w_FIRE]);
  (0x2633, [w_TRIGRAM;w_FOR;w_THUNDER]);
  (0x2634, [w_TRIGRAM;w_FOR;w_WIND]);
  (0x2635, [w_TRIGRAM;w_FOR;w_WATER]);
  (0x2636, [w_TRIGRAM;w_FOR;w_MOUNTAIN]);
  (0x2637, [w_TRIGRAM;w_FOR;w_EARTH]);
  (0x2638, [w_WHEEL;w_OF;w_DHARMA]);
  (0x2639, [w_WHITE;w_FROWNING;w_FACE]);
  (0x263a, [w_WHITE;w_SMILING;w_FACE]);
  (0x263b, [w_BLACK;w_SMILING;w_FACE]);
  (0x263c, [w_WHITE;w_SUN;w_WITH;w_RAYS]);
  (0x263d, [w_FIRST;w_QUARTER;w_MOON]);
  (0x263e, [w_LAST;w_QUARTER;w_MOON]);
  (0x263f, [w_MERCURY]);
  (0x2640, [w_FEMALE;w_SIGN]);
  (0x2641, [w_EARTH]);
  (0x2642, [w_MALE;w_SIGN]);
  (0x2643, [w_JUPITER]);
  (0x2644, [w_SATURN]);
  (0x2645, [w_URANUS]);
  (0x2646, [w_NEPTUNE]);
  (0x2647, [w_PLUTO]);
  (0x2648, [w_ARIES]);
  (0x2649, [w_TAURUS]);
  (0x264a, [w_GEMINI]);
  (0x264b, [w_CANCER]);
  (0x264c, [w_LEO]);
  (0x264d, [w_VIRGO]);
  (0x264e, [w_LIBRA]);
  (0x264f, [w_SCORPIUS]);
  (0x2650, [w_SAGITTARIUS]);
  (0x2651, [w_CAPRICORN]);
  (0x2652, [w_AQUARIUS]);
  (0x2653, [w_PISCES]);
  (0x2654, [w_WHITE;w_CHESS;w_KING]);
  (0x2655, [w_WHITE;w_CHESS;w_QUEEN]);
  (0x2656, [w_WHITE;w_CHESS;w_ROOK]);
  (0x2657, [w_WHITE;w_CHESS;w_BISHOP]);
  (0x2658, [w_WHITE;w_CHESS;w_KNIGHT]);
  (0x2659, [w_WHITE;w_CHESS;w_PAWN]);
  (0x265a, [w_BLACK;w_CHESS;w_KING]);
  (0x265b, [w_BLACK;w_CHESS;w_QUEEN]);
  (0x265c, [w_BLACK;w_CHESS;w_ROOK]);
  (0x265d, [w_BLACK;w_CHESS;w_BISHOP]);
  (0x265e, [w_BLACK;w_CHESS;w_KNIGHT]);
  (0x265f, [w_BLACK;w_CHESS;w_PAWN]);
  (0x2660, [w_BLACK;w_SPADE;w_SUIT]);
  (0x2661, [w_WHITE;w_HEART;w_SUIT]);
  (0x2662, [w_WHITE;w_DIAMOND;w_SUIT]);
  (0x2663, [w_BLACK;w_CLUB;w_SUIT]);
  (0x2664, [w_WHITE;w_SPADE;w_SUIT]);
  (0x2665, [w_BLACK;w_HEART;w_SUIT]);
  (0x2666, [w_BLACK;w_DIAMOND;w_SUIT]);
  (0x2667, [w_WHITE;w_CLUB;w_SUIT]);
  (0x2668, [w_HOT;w_SPRINGS]);
  (0x2669, [w_QUARTER;w_NOTE]);
  (0x266a, [w_EIGHTH;w_NOTE]);
  (0x266b, [w_BEAMED;w_EIGHTH;w_NOTES]);
  (0x266c, [w_BEAMED;w_SIXTEENTH;w_NOTES]);
  (0x266d, [w_MUSIC;w_FLAT;w_SIGN]);
  (0x266e, [w_MUSIC;w_NATURAL;w_SIGN]);
  (0x266f, [w_MUSIC;w_SHARP;w_SIGN]);
  (0x2670, [w_WEST;w_SYRIAC;w_CROSS]);
  (0x2671, [w_EAST;w_SYRIAC;w_CROSS]);
  (0x2672, [w_UNIVERSAL;w_RECYCLING;w_SYMBOL]);
  (0x2673, [w_RECYCLING;w_SYMBOL;w_FOR;w_TYPE_1;w_PLASTICS]);
  (0x2674, [w_RECYCLING;w_SYMBOL;w_FOR;w_TYPE_2;w_PLASTICS]);
  (0x2675, [w_RECYCLING;w_SYMBOL;w_FOR;w_TYPE_3;w_PLASTICS]);
  (0x2676, [w_RECYCLING;w_SYMBOL;w_FOR;w_TYPE_4;w_PLASTICS]);
  (0x2677, [w_RECYCLING;w_SYMBOL;w_FOR;w_TYPE_5;w_PLASTICS]);
  (0x2678, [w_RECYCLING;w_SYMBOL;w_FOR;w_TYPE_6;w_PLASTICS]);
  (0x2679, [w_RECYCLING;w_SYMBOL;w_FOR;w_TYPE_7;w_PLASTICS]);
  (0x267a, [w_RECYCLING;w_SYMBOL;w_FOR;w_GENERIC;w_MATERIALS]);
  (0x267b, [w_BLACK;w_UNIVERSAL;w_RECYCLING;w_SYMBOL]);
  (0x267c, [w_RECYCLED;w_PAPER;w_SYMBOL]);
  (0x267d, [w_PARTIALLY_RECYCLED;w_PAPER;w_SYMBOL]);
  (0x267e, [w_PERMANENT;w_PAPER;w_SIGN]);
  (0x267f, [w_WHEELCHAIR;w_SYMBOL]);
  (0x2680, [w_DIE;w_FACE_1]);
  (0x2681, [w_DIE;w_FACE_2]);
  (0x2682, [w_DIE;w_FACE_3]);
  (0x2683, [w_DIE;w_FACE_4]);
  (0x2684, [w_DIE;w_FACE_5]);
  (0x2685, [w_DIE;w_FACE_6]);
  (0x2686, [w_WHITE;w_CIRCLE;w_WITH;w_DOT;w_RIGHT]);
  (0x2687, [w_WHITE;w_CIRCLE;w_WITH;w_TWO;w_DOTS]);
  (0x2688, [w_BLACK;w_CIRCLE;w_WITH;w_WHITE;w_DOT;w_RIGHT]);
  (0x2689, [w_BLACK;w_CIRCLE;w_WITH;w_TWO;w_WHITE;w_DOTS]);
  (0x268a, [w_MONOGRAM;w_FOR;w_YANG]);
  (0x268b, [w_MONOGRAM;w_FOR;w_YIN]);
  (0x268c, [w_DIGRAM;w_FOR;w_GREATER;w_YANG]);
  (0x268d, [w_DIGRAM;w_FOR;w_LESSER;w_YIN]);
  (0x268e, [w_DIGRAM;w_FOR;w_LESSER;w_YANG]);
  (0x268f, [w_DIGRAM;w_FOR;w_GREATER;w_YIN]);
  (0x2690, [w_WHITE;w_FLAG]);
  (0x2691, [w_BLACK;w_FLAG]);
  (0x2692, [w_HAMMER;w_AND;w_PICK]);
  (0x2693, [w_ANCHOR]);
  (0x2694, [w_CROSSED;w_SWORDS]);
  (0x2695, [w_STAFF;w_OF;w_AESCULAPIUS]);
  (0x2696, [w_SCALES]);
  (0x2697, [w_ALEMBIC]);
  (0x2698, [w_FLOWER]);
  (0x2699, [w_GEAR]);
  (0x269a, [w_STAFF;w_OF;w_HERMES]);
  (0x269b, [w_ATOM;w_SYMBOL]);
  (0x269c, [w_FLEUR_DE_LIS]);
  (0x269d, [w_OUTLINED;w_WHITE;w_STAR]);
  (0x269e, [w_THREE;w_LINES;w_CONVERGING;w_RIGHT]);
  (0x269f, [w_THREE;w_LINES;w_CONVERGING;w_LEFT]);
  (0x26a0, [w_WARNING;w_SIGN]);
  (0x26a1, [w_HIGH;w_VOLTAGE;w_SIGN]);
  (0x26a2, [w_DOUBLED;w_FEMALE;w_SIGN]);
  (0x26a3, [w_DOUBLED;w_MALE;w_SIGN]);
  (0x26a4, [w_INTERLOCKED;w_FEMALE;w_AND;w_MALE;w_SIGN]);
  (0x26a5, [w_MALE;w_AND;w_FEMALE;w_SIGN]);
  (0x26a6, [w_MALE;w_WITH;w_STROKE;w_SIGN]);
  (0x26a7, [w_MALE;w_WITH;w_STROKE;w_AND;w_MALE;w_AND;w_FEMALE;w_SIGN]);
  (0x26a8, [w_VERTICAL;w_MALE;w_WITH;w_STROKE;w_SIGN]);
  (0x26a9, [w_HORIZONTAL;w_MALE;w_WITH;w_STROKE;w_SIGN]);
  (0x26aa, [w_MEDIUM;w_WHITE;w_CIRCLE]);
  (0x26ab, [w_MEDIUM;w_BLACK;w_CIRCLE]);
  (0x26ac, [w_MEDIUM;w_SMALL;w_WHITE;w_CIRCLE]);
  (0x26ad, [w_MARRIAGE;w_SYMBOL]);
  (0x26ae, [w_DIVORCE;w_SYMBOL]);
  (0x26af, [w_UNMARRIED;w_PARTNERSHIP;w_SYMBOL]);
  (0x26b0, [w_COFFIN]);
  (0x26b1, [w_FUNERAL;w_URN]);
  (0x26b2, [w_NEUTER]);
  (0x26b3, [w_CERES]);
  (0x26b4, [w_PALLAS]);
  (0x26b5, [w_JUNO]);
  (0x26b6, [w_VESTA]);
  (0x26b7, [w_CHIRON]);
  (0x26b8, [w_BLACK;w_MOON;w_LILITH]);
  (0x26b9, [w_SEXTILE]);
  (0x26ba, [w_SEMISEXTILE]);
  (0x26bb, [w_QUINCUNX]);
  (0x26bc, [w_SESQUIQUADRATE]);
  (0x26bd, [w_SOCCER;w_BALL]);
  (0x26be, [w_BASEBALL]);
  (0x26bf, [w_SQUARED;w_KEY]);
  (0x26c0, [w_WHITE;w_DRAUGHTS;w_MAN]);
  (0x26c1, [w_WHITE;w_DRAUGHTS;w_KING]);
  (0x26c2, [w_BLACK;w_DRAUGHTS;w_MAN]);
  (0x26c3, [w_BLACK;w_DRAUGHTS;w_KING]);
  (0x26c4, [w_SNOWMAN;w_WITHOUT;w_SNOW]);
  (0x26c5, [w_SUN;w_BEHIND;w_CLOUD]);
  (0x26c6, [w_RAIN]);
  (0x26c7, [w_BLACK;w_SNOWMAN]);
  (0x26c8, [w_THUNDER;w_CLOUD;w_AND;w_RAIN]);
  (0x26c9, [w_TURNED;w_WHITE;w_SHOGI;w_PIECE]);
  (0x26ca, [w_TURNED;w_BLACK;w_SHOGI;w_PIECE]);
  (0x26cb, [w_WHITE;w_DIAMOND;w_IN;w_SQUARE]);
  (0x26cc, [w_CROSSING;w_LANES]);
  (0x26cd, [w_DISABLED;w_CAR]);
  (0x26ce, [w_OPHIUCHUS]);
  (0x26cf, [w_PICK]);
  (0x26d0, [w_CAR;w_SLIDING]);
  (0x26d1, [w_HELMET;w_WITH;w_WHITE;w_CROSS]);
  (0x26d2, [w_CIRCLED;w_CROSSING;w_LANES]);
  (0x26d3, [w_CHAINS]);
  (0x26d4, [w_NO;w_ENTRY]);
  (0x26d5, [w_ALTERNATE;w_ONE_WAY;w_LEFT;w_WAY;w_TRAFFIC]);
  (0x26d6, [w_BLACK;w_TWO_WAY;w_LEFT;w_WAY;w_TRAFFIC]);
  (0x26d7, [w_WHITE;w_TWO_WAY;w_LEFT;w_WAY;w_TRAFFIC]);
  (0x26d8, [w_BLACK;w_LEFT;w_LANE;w_MERGE]);
  (0x26d9, [w_WHITE;w_LEFT;w_LANE;w_MERGE]);
  (0x26da, [w_DRIVE;w_SLOW;w_SIGN]);
  (0x26db, [w_HEAVY;w_WHITE;w_DOWN_POINTING;w_TRIANGLE]);
  (0x26dc, [w_LEFT;w_CLOSED;w_ENTRY]);
  (0x26dd, [w_SQUARED;w_SALTIRE]);
  (0x26de, [w_FALLING;w_DIAGONAL;w_IN;w_WHITE;w_CIRCLE;w_IN;w_BLACK;w_SQUARE]);
  (0x26df, [w_BLACK;w_TRUCK]);
  (0x26e0, [w_RESTRICTED;w_LEFT;w_ENTRY_1]);
  (0x26e1, [w_RESTRICTED;w_LEFT;w_ENTRY_2]);
  (0x26e2, [w_ASTRONOMICAL;w_SYMBOL;w_FOR;w_URANUS]);
  (0x26e3, [w_HEAVY;w_CIRCLE;w_WITH;w_STROKE;w_AND;w_TWO;w_DOTS;w_ABOVE]);
  (0x26e4, [w_PENTAGRAM]);
  (0x26e5, [w_RIGHT_HANDED;w_INTERLACED;w_PENTAGRAM]);
  (0x26e6, [w_LEFT_HANDED;w_INTERLACED;w_PENTAGRAM]);
  (0x26e7, [w_INVERTED;w_PENTAGRAM]);
  (0x26e8, [w_BLACK;w_CROSS;w_ON;w_SHIELD])].

Definition NAMES_22 : list (N * (list str)) := [
  (0x26e9, [w_SHINTO;w_SHRINE]);
  (0x26ea, [w_CHURCH]);
  (0x26eb, [w_CASTLE]);
  (0x26ec, [w_HISTORIC;w_SITE]);
  (0x26ed, [w_GEAR;w_WITHOUT;w_HUB]);
  (0x26ee, [w_GEAR;w_WITH;w_HANDLES]);
  (0x26ef, [w_MAP;w_SYMBOL;w_FOR;w_LIGHTHOUSE]);
  (0x26f0, [w_MOUNTAIN]);
  (0x26f1, [w_UMBRELLA;w_ON;w_GROUND]);
  (0x26f2, [w_FOUNTAIN]);
  (0x26f3, [w_FLAG;w_IN;w_HOLE]);
  (0x26f4, [w_FERRY]);
  (0x26f5, [w_SAILBOAT]);
  (0x26f6, [w_SQUARE;w_FOUR;w_CORNERS]);
  (0x26f7, [w_SKIER]);
  (0x26f8, [w_ICE;w_SKATE]);
  (0x26f9, [w_PERSON;w_WITH;w_BALL]);
  (0x26fa, [w_TENT]);
  (0x26fb, [w_JAPANESE;w_BANK;w_SYMBOL]);
  (0x26fc, [w_HEADSTONE;w_GRAVEYARD;w_SYMBOL]);
  (0x26fd, [w_FUEL;w_PUMP]);
  (0x26fe, [w_CUP;w_ON;w_BLACK;w_SQUARE]);
  (0x26ff, [w_WHITE;w_FLAG;w_WITH;w_HORIZONTAL;w_MIDDLE;w_BLACK;w_STRIPE]);
  (0x2700, [w_BLACK;w_SAFETY;w_SCISSORS]);
  (0x2701, [w_UPPER;w_BLADE;w_SCISSORS]);
  (0x2702, [w_BLACK;w_SCISSORS]);
  (0x2703, [w_LOWER;w_BLADE;w_SCISSORS]);
  (0x2704, [w_WHITE;w_SCISSORS]);
  (0x2705, [w_WHITE;w_HEAVY;w_CHECK;w_MARK]);
  (0x2706, [w_TELEPHONE;w_LOCATION;w_SIGN]);
  (0x2707, [w_TAPE;w_DRIVE]);
  (0x2708, [w_AIRPLANE]);
  (0x2709, [w_ENVELOPE]);
  (0x270a, [w_RAISED;w_FIST]);
  (0x270b, [w_RAISED;w_HAND]);
  (0x270c, [w_VICTORY;w_HAND]);
  (0x270d, [w_WRITING;w_HAND]);
  (0x270e, [w_LOWER;w_RIGHT;w_PENCIL]);
  (0x270f, [w_PENCIL]);
  (0x2710, [w_UPPER;w_RIGHT;w_PENCIL]);
  (0x2711, [w_WHITE;w_NIB]);
  (0x2712, [w_BLACK;w_NIB]);
  (0x2713, [w_CHECK;w_MARK]);
  (0x2714, [w_HEAVY;w_CHECK;w_MARK]);
  (0x2715, [w_MULTIPLICATION;w_X]);
  (0x2716, [w_HEAVY;w_MULTIPLICATION;w_X]);
  (0x2717, [w_BALLOT;w_X]);
  (0x2718, [w_HEAVY;w_BALLOT;w_X]);
  (0x2719, [w_OUTLINED;w_GREEK;w_CROSS]);
  (0x271a, [w_HEAVY;w_GREEK;w_CROSS]);
  (0x271b, [w_OPEN;w_CENTRE;w_CROSS]);
  (0x271c, [w_HEAVY;w_OPEN;w_CENTRE;w_CROSS]);
  (0x271d, [w_LATIN;w_CROSS]);
  (0x271e, [w_SHADOWED;w_WHITE;w_LATIN;w_CROSS]);
  (0x271f, [w_OUTLINED;w_LATIN;w_CROSS]);
  (0x2720, [w_MALTESE;w_CROSS]);
  (0x2721, [w_STAR;w_OF;w_DAVID]);
  (0x2722, [w_FOUR;w_TEARDROP_SPOKED;w_ASTERISK]);
  (0x2723, [w_FOUR;w_BALLOON_SPOKED;w_ASTERISK]);
  (0x2724, [w_HEAVY;w_FOUR;w_BALLOON_SPOKED;w_ASTERISK]);
  (0x2725, [w_FOUR;w_CLUB_SPOKED;w_ASTERISK]);
  (0x2726, [w_BLACK;w_FOUR;w_POINTED;w_STAR]);
  (0x2727, [w_WHITE;w_FOUR;w_POINTED;w_STAR]);
  (0x2728, [w_SPARKLES]);
  (0x2729, [w_STRESS;w_OUTLINED;w_WHITE;w_STAR]);
  (0x272a, [w_CIRCLED;w_WHITE;w_STAR]);
  (0x272b, [w_OPEN;w_CENTRE;w_BLACK;w_STAR]);
  (0x272c, [w_BLACK;w_CENTRE;w_WHITE;w_STAR]);
  (0x272d, [w_OUTLINED;w_BLACK;w_STAR]);
  (0x272e, [w_HEAVY;w_OUTLINED;w_BLACK;w_STAR]);
  (0x272f, [w_PINWHEEL;w_STAR]);
  (0x2730, [w_SHADOWED;w_WHITE;w_STAR]);
  (0x2731, [w_HEAVY;w_ASTERISK]);
  (0x2732, [w_OPEN;w_CENTRE;w_ASTERISK]);
  (0x2733, [w_EIGHT;w_SPOKED;w_ASTERISK]);
  (0x2734, [w_EIGHT;w_POINTED;w_BLACK;w_STAR]);
  (0x2735, [w_EIGHT;w_POINTED;w_PINWHEEL;w_STAR]);
  (0x2736, [w_SIX;w_POINTED;w_BLACK;w_STAR]);
  (0x2737, [w_EIGHT;w_POINTED;w_RECTILINEAR;w_BLACK;w_STAR]);
  (0x2738, [w_HEAVY;w_EIGHT;w_POINTED;w_RECTILINEAR;w_BLACK;w_STAR]);
  (0x2739, [w_TWELVE;w_POINTED;w_BLACK;w_STAR]);
  (0x273a, [w_SIXTEEN;w_POINTED;w_ASTERISK]);
  (0x273b, [w_TEARDROP_SPOKED;w_ASTERISK]);
  (0x273c, [w_OPEN;w_CENTRE;w_TEARDROP_SPOKED;w_ASTERISK]);
  (0x273d, [w_HEAVY;w_TEARDROP_SPOKED;w_ASTERISK]);
  (0x273e, [w_SIX;w_PETALLED;w_BLACK;w_AND;w_WHITE;w_FLORETTE]);
  (0x273f, [w_BLACK;w_FLORETTE]);
  (0x2740, [w_WHITE;w_FLORETTE]);
  (0x2741, [w_EIGHT;w_PETALLED;w_OUTLINED;w_BLACK;w_FLORETTE]);
  (0x2742, [w_CIRCLED;w_OPEN;w_CENTRE;w_EIGHT;w_POINTED;w_STAR]);
  (0x2743, [w_HEAVY;w_TEARDROP_SPOKED;w_PINWHEEL;w_ASTERISK]);
  (0x2744, [w_SNOWFLAKE]);
  (0x2745, [w_TIGHT;w_TRIFOLIATE;w_SNOWFLAKE]);
  (0x2746, [w_HEAVY;w_CHEVRON;w_SNOWFLAKE]);
  (0x2747, [w_SPARKLE]);
  (0x2748, [w_HEAVY;w_SPARKLE]);
  (0x2749, [w_BALLOON_SPOKED;w_ASTERISK]);
  (0x274a, [w_EIGHT;w_TEARDROP_SPOKED;w_PROPELLER;w_ASTERISK]);
  (0x274b, [w_HEAVY;w_EIGHT;w_TEARDROP_SPOKED;w_PROPELLER;w_ASTERISK]);
  (0x274c, [w_CROSS;w_MARK]);
  (0x274d, [w_SHADOWED;w_WHITE;w_CIRCLE]);
  (0x274e, [w_NEGATIVE;w_SQUARED;w_CROSS;w_MARK]);
  (0x274f, [w_LOWER;w_RIGHT;w_DROP_SHADOWED;w_WHITE;w_SQUARE]);
  (0x2750, [w_UPPER;w_RIGHT;w_DROP_SHADOWED;w_WHITE;w_SQUARE]);
  (0x2751, [w_LOWER;w_RIGHT;w_SHADOWED;w_WHITE;w_SQUARE]);
  (0x2752, [w_UPPER;w_RIGHT;w_SHADOWED;w_WHITE;w_SQUARE]);
  (0x2753, [w_BLACK;w_QUESTION;w_MARK;w_ORNAMENT]);
  (0x2754, [w_WHITE;w_QUESTION;w_MARK;w_ORNAMENT]);
  (0x2755, [w_WHITE;w_EXCLAMATION;w_MARK;w_ORNAMENT]);
  (0x2756, [w_BLACK;w_DIAMOND;w_MINUS;w_WHITE;w_X]);
  (0x2757, [w_HEAVY;w_EXCLAMATION;w_MARK;w_SYMBOL]);
  (0x2758, [w_LIGHT;w_VERTICAL;w_BAR]);
  (0x2759, [w_MEDIUM;w_VERTICAL;w_BAR]);
  (0x275a, [w_HEAVY;w_VERTICAL;w_BAR]);
  (0x275b, [w_HEAVY;w_SINGLE;w_TURNED;w_COMMA;w_QUOTATION;w_MARK;w_ORNAMENT]);
  (0x275c, [w_HEAVY;w_SINGLE;w_COMMA;w_QUOTATION;w_MARK;w_ORNAMENT]);
  (0x275d, [w_HEAVY;w_DOUBLE;w_TURNED;w_COMMA;w_QUOTATION;w_MARK;w_ORNAMENT]);
  (0x275e, [w_HEAVY;w_DOUBLE;w_COMMA;w_QUOTATION;w_MARK;w_ORNAMENT]);
  (0x275f, [w_HEAVY;w_LOW;w_SINGLE;w_COMMA;w_QUOTATION;w_MARK;w_ORNAMENT]);
  (0x2760, [w_HEAVY;w_LOW;w_DOUBLE;w_COMMA;w_QUOTATION;w_MARK;w_ORNAMENT]);
  (0x2761, [w_CURVED;w_STEM;w_PARAGRAPH;w_SIGN;w_ORNAMENT]);
  (0x2762, [w_HEAVY;w_EXCLAMATION;w_MARK;w_ORNAMENT]);
  (0x2763, [w_HEAVY;w_HEART;w_EXCLAMATION;w_MARK;w_ORNAMENT]);
  (0x2764, [w_HEAVY;w_BLACK;w_HEART]);
  (0x2765, [w_ROTATED;w_HEAVY;w_BLACK;w_HEART;w_BULLET]);
  (0x2766, [w_FLORAL;w_HEART]);
  (0x2767, [w_ROTATED;w_FLORAL;w_HEART;w_BULLET]);
  (0x2768, [w_MEDIUM;w_LEFT;w_PARENTHESIS;w_ORNAMENT]);
  (0x2769, [w_MEDIUM;w_RIGHT;w_PARENTHESIS;w_ORNAMENT]);
  (0x276a, [w_MEDIUM;w_FLATTENED;w_LEFT;w_PARENTHESIS;w_ORNAMENT]);
  (0x276b, [w_MEDIUM;w_FLATTENED;w_RIGHT;w_PARENTHESIS;w_ORNAMENT]);
  (0x276c, [w_MEDIUM;w_LEFT_POINTING;w_ANGLE;w_BRACKET;w_ORNAMENT]);
  (0x276d, [w_MEDIUM;w_RIGHT_POINTING;w_ANGLE;w_BRACKET;w_ORNAMENT]);
  (0x276e, [w_HEAVY;w_LEFT_POINTING;w_ANGLE;w_QUOTATION;w_MARK;w_ORNAMENT]);
  (0x276f, [w_HEAVY;w_RIGHT_POINTING;w_ANGLE;w_QUOTATION;w_MARK;w_ORNAMENT]);
  (0x2770, [w_HEAVY;w_LEFT_POINTING;w_ANGLE;w_BRACKET;w_ORNAMENT]);
  (0x2771, [w_HEAVY;w_RIGHT_POINTING;w_ANGLE;w_BRACKET;w_ORNAMENT]);
  (0x2772, [w_LIGHT;w_LEFT;w_TORTOISE;w_SHELL;w_BRACKET;w_ORNAMENT]);
  (0x2773, [w_LIGHT;w_RIGHT;w_TORTOISE;w_SHELL;w_BRACKET;w_ORNAMENT]);
  (0x2774, [w_MEDIUM;w_LEFT;w_CURLY;w_BRACKET;w_ORNAMENT]);
  (0x2775, [w_MEDIUM;w_RIGHT;w_CURLY;w_BRACKET;w_ORNAMENT]);
  (0x2776, [w_DINGBAT;w_NEGATIVE;w_CIRCLED;w_DIGIT;w_ONE]);
  (0x2777, [w_DINGBAT;w_NEGATIVE;w_CIRCLED;w_DIGIT;w_TWO]);
  (0x2778, [w_DINGBAT;w_NEGATIVE;w_CIRCLED;w_DIGIT;w_THREE]);
  (0x2779, [w_DINGBAT;w_NEGATIVE;w_CIRCLED;w_DIGIT;w_FOUR]);
  (0x277a, [w_DINGBAT;w_NEGATIVE;w_CIRCLED;w_DIGIT;w_FIVE]);
  (0x277b, [w_DINGBAT;w_NEGATIVE;w_CIRCLED;w_DIGIT;w_SIX]);
  (0x277c, [w_DINGBAT;w_NEGATIVE;w_CIRCLED;w_DIGIT;w_SEVEN]);
  (0x277d, [w_DINGBAT;w_NEGATIVE;w_CIRCLED;w_DIGIT;w_EIGHT]);
  (0x277e, [w_DINGBAT;w_NEGATIVE;w_CIRCLED;w_DIGIT;w_NINE]);
  (0x277f, [w_DINGBAT;w_NEGATIVE;w_CIRCLED;w_NUMBER;w_TEN]);
  (0x2780, [w_DINGBAT;w_CIRCLED;w_SANS_SERIF;w_DIGIT;w_ONE]);
  (0x2781, [w_DINGBAT;w_CIRCLED;w_SANS_SERIF;w_DIGIT;w_TWO]);
  (0x2782, [w_DINGBAT;w_CIRCLED;w_SANS_SERIF;w_DIGIT;w_THREE]);
  (0x2783, [w_DINGBAT;w_CIRCLED;w_SANS_SERIF;w_DIGIT;w_FOUR]);
  (0x2784, [w_DINGBAT;w_CIRCLED;w_SANS_SERIF;w_DIGIT;w_FIVE]);
  (0x2785, [w_DINGBAT;w_CIRCLED;w_SANS_SERIF;w_DIGIT;w_SIX]);
  (0x2786, [w_DINGBAT;w_CIRCLED;w_SANS_SERIF;w_DIGIT;w_SEVEN]);
  (0x2787, [w_DINGBAT;w_CIRCLED;w_SANS_SERIF;w_DIGIT;w_EIGHT]);
  (0x2788, [w_DINGBAT;w_CIRCLED;w_SANS_SERIF;w_DIGIT;w_NINE]);
  (0x2789, [w_DINGBAT;w_CIRCLED;w_SANS_SERIF;w_NUMBER;w_TEN]);
  (0x278a, [w_DINGBAT;w_NEGATIVE;w_CIRCLED;w_SANS_SERIF;w_DIGIT;w_ONE]);
  (0x278b, [w_DINGBAT;w_NEGATIVE;w_CIRCLED;w_SANS_SERIF;w_DIGIT;w_TWO]);
  (0x278c, [w_DINGBAT;w_NEGATIVE;w_CIRCLED;w_SANS_SERIF;w_DIGIT;w_THREE]);
  (0x278d, [w_DINGBAT;w_NEGATIVE;w_CIRCLED;w_SANS_SERIF;w_DIGIT;w_FOUR]);
  (0x278e, [w_DINGBAT;w_NEGATIVE;w_CIRCLED;w_SANS_SERIF;w_DIGIT;w_FIVE]);
  (0x278f, [w_DINGBAT;w_NEGATIVE;w_CIRCLED;w_SANS_SERIF;w_DIGIT;w_SIX]);
  (0x2790, [w_DINGBAT;w_NEGATIVE;w_CIRCLED;w_SANS_SERIF;w_DIGIT;w_SEVEN]);
  (0x2791, [w_DINGBAT;w_NEGATIVE;w_CIRCLED;w_SANS_SERIF;w_DIGIT;w_EIGHT]);
  (0x2792, [w_DINGBAT;w_NEGATIVE;w_CIRCLED;w_SANS_SERIF;w_DIGIT;w_NINE]);
  (0x2793, [w_DINGBAT;w_NEGATIVE;w_CIRCLED;w_SANS_SERIF;w_NUMBER;w_TEN]);
  (0x2794, [w_HEAVY;w_WIDE_HEADED;w_RIGHTWARDS;w_ARROW]);
  (0x2795, [w_HEAVY;w_PLUS;w_SIGN]);
  (0x2796, [w_HEAVY;w_MINUS;w_SIGN]);
  (0x2797, [w_HEAVY;w_DIVISION;w_SIGN]);
  (0x2798, [w_HEAVY;w_SOUTH;w_EAST;w_ARROW]);
  (0x2799, [w_HEAVY;w_RIGHTWARDS;w_ARROW]);
  (0x279a, [w_HEAVY;w_NORTH;w_EAST;w_ARROW]);
  (0x279b, [w_DRAFTING;w_POINT;w_RIGHTWARDS;w_ARROW]);
  (0x279c, [w_HEAVY;w_ROUND_TIPPED;w_RIGHTWARDS;w_ARROW]);
  (0x279d, [w_TRIANGLE_HEADED;w_RIGHTWARDS;w_ARROW]);
  (0x279e, [w_HEAVY;w_TRIANGLE_HEADED;w_RIGHTWARDS;w_ARROW]);
  (0x279f, [w_DASHED;w_TRIANGLE_HEADED;w_RIGHTWARDS;w_ARROW]);
  (0x27a0, [w_HEAVY;w_DASHED;w_TRIANGLE_HEADED;w_RIGHTWARDS;w_ARROW]);
  (0x27a1, [w_BLACK;w_RIGHTWARDS;w_ARROW]);
  (0x27a2, [w_THREE_D;w_TOP_LIGHTED;w_RIGHTWARDS;w_ARROWHEAD]);
  (0x27a3, [w_THREE_D;w_BOTTOM_LIGHTED;w_RIGHTWARDS;w_ARROWHEAD]);
  (0x27a4, [w_BLACK;w_RIGHTWARDS;w_ARROWHEAD]);
  (0x27a5, [w_HEAVY;w_BLACK;w_CURVED;w_DOWNWARDS;w_AND;w_RIGHTWARDS;w_ARROW]);
  (0x27a6, [w_HEAVY;w_BLACK;w_CURVED;w_UPWARDS;w_AND;w_RIGHTWARDS;w_ARROW]);
  (0x27a7, [w_SQUAT;w_BLACK;w_RIGHTWARDS;w_ARROW]);
  (0x27a8, [w_HEAVY;w_CONCAVE_POINTED;w_BLACK;w_RIGHTWARDS;w_ARROW]);
  (0x27a9, [w_RIGHT_SHADED;w_WHITE;w_RIGHTWARDS;w_ARROW]);
  (0x27aa, [w_LEFT_SHADED;w_WHITE;w_RIGHTWARDS;w_ARROW]);
  (0x27ab, [w_BACK_TILTED;w_SHADOWED;w_WHITE;w_RIGHTWARDS;w_ARROW]);
  (0x27ac, [w_FRONT_TILTED;w_SHADOWED;w_WHITE;w_RIGHTWARDS;w_ARROW]);
  (0x27ad, [w_HEAVY;w_LOWER;w_RIGHT_SHADOWED;w_WHITE;w_RIGHTWARDS;w_ARROW]);
  (0x27ae, [w_HEAVY;w_UPPER;w_RIGHT_SHADOWED;w_WHITE;w_RIGHTWARDS;w_ARROW]);
  (0x27af, [w_NOTCHED;w_LOWER;w_RIGHT_SHADOWED;w_WHITE;w_RIGHTWARDS;w_ARROW]);
  (0x27b0, [w_CURLY;w_LOOP]);
  (0x27b1, [w_NOTCHED;w_UPPER;w_RIGHT_SHADOWED;w_WHITE;w_RIGHTWARDS;w_ARROW]);
  (0x27b2, [w_CIRCLED;w_HEAVY;w_WHITE;w_RIGHTWARDS;w_ARROW]);
  (0x27b3, [w_WHITE_FEATHERED;w_RIGHTWARDS;w_ARROW]);
  (0x27b4, [w_BLACK_FEATHERED;w_SOUTH;w_EAST;w_ARROW]);
  (0x27b5, [w_BLACK_FEATHERED;w_RIGHTWARDS;w_ARROW]);
  (0x27b6, [w_BLACK_FEATHERED;w_NORTH;w_EAST;w_ARROW]);
  (0x27b7, [w_HEAVY;w_BLACK_FEATHERED;w_SOUTH;w_EAST;w_ARROW]);
  (0x27b8, [w_HEAVY;w_BLACK_FEATHERED;w_RIGHTWARDS;w_ARROW]);
  (0x27b9, [w_HEAVY;w_BLACK_FEATHERED;w_NORTH;w_EAST;w_ARROW]);
  (0x27ba, [w_TEARDROP_BARBED;w_RIGHTWARDS;w_ARROW]);
  (0x27bb, [w_HEAVY;w_TEARDROP_SHANKED;w_RIGHTWARDS;w_ARROW]);
  (0x27bc, [w_WEDGE_TAILED;w_RIGHTWARDS;w_ARROW]);
  (0x27bd, [w_HEAVY;w_WEDGE_TAILED;w_RIGHTWARDS;w_ARROW]);
  (0x27be, [w_OPEN_OUTLINED;w_RIGHTWARDS;w_ARROW]);
  (0x27bf, [w_DOUBLE;w_CURLY;w_LOOP]);
  (0x27c0, [w_THREE;w_DIMENSIONAL;w_ANGLE]);
  (0x27c1, [w_WHITE;w_TRIANGLE;w_CONTAINING;w_SMALL;w_WHITE;w_TRIANGLE]);
  (0x27c2, [w_PERPENDICULAR]);
  (0x27c3, [w_OPEN;w_SUBSET]);
  (0x27c4, [w_OPEN;w_SUPERSET]);
  (0x27c5, [w_LEFT;w_S_SHAPED;w_BAG;w_DELIMITER]);
  (0x27c6, [w_RIGHT;w_S_SHAPED;w_BAG;w_DELIMITER]);
  (0x27c7, [w_OR;w_WITH;w_DOT;w_INSIDE]);
  (0x27c8, [w_REVERSE;w_SOLIDUS;w_PRECEDING;w_SUBSET]);
  (0x27c9, [w_SUPERSET;w_PRECEDING;w_SOLIDUS]);
  (0x27ca, [w_VERTICAL;w_BAR;w_WITH;w_HORIZONTAL;w_STROKE]);
  (0x27cb, [w_MATHEMATICAL;w_RISING;w_DIAGONAL]);
  (0x27cc, [w_LONG;w_DIVISION]);
  (0x27cd, [w_MATHEMATICAL;w_FALLING;w_DIAGONAL]);
  (0x27ce, [w_SQUARED;w_LOGICAL;w_AND]);
  (0x27cf, [w_SQUARED;w_LOGICAL;w_OR]);
  (0x27d0, [w_WHITE;w_DIAMOND;w_WITH;w_CENTRED;w_DOT]);
  (0x27d1, [w_AND;w_WITH;w_DOT]);
  (0x27d2, [w_ELEMENT;w_OF;w_OPENING;w_UPWARDS]);
  (0x27d3, [w_LOWER;w_RIGHT;w_CORNER;w_WITH;w_DOT]);
  (0x27d4, [w_UPPER;w_LEFT;w_CORNER;w_WITH;w_DOT]);
  (0x27d5, [w_LEFT;w_OUTER;w_JOIN]);
  (0x27d6, [w_RIGHT;w_OUTER;w_JOIN]);
  (0x27d7, [w_FULL;w_OUTER;w_JOIN]);
  (0x27d8, [w_LARGE;w_UP;w_TACK]);
  (0x27d9, [w_LARGE;w_DOWN;w_TACK]);
  (0x27da, [w_LEFT;w_AND;w_RIGHT;w_DOUBLE;w_TURNSTILE]);
  (0x27db, [w_LEFT;w_AND;w_RIGHT;w_TACK]);
  (0x27dc, [w_LEFT;w_MULTIMAP]);
  (0x27dd, [w_LONG;w_RIGHT;w_TACK]);
  (0x27de, [w_LONG;w_LEFT;w_TACK]);
  (0x27df, [w_UP;w_TACK;w_WITH;w_CIRCLE;w_ABOVE]);
  (0x27e0, [w_LOZENGE;w_DIVIDED;w_BY;w_HORIZONTAL;w_RULE]);
  (0x27e1, [w_WHITE;w_CONCAVE_SIDED;w_DIAMOND]);
  (0x27e2, [w_WHITE;w_CONCAVE_SIDED;w_DIAMOND;w_WITH;w_LEFTWARDS;w_TICK]);
  (0x27e3, [w_WHITE;w_CONCAVE_SIDED;w_DIAMOND;w_WITH;w_RIGHTWARDS;w_TICK]);
  (0x27e4, [w_WHITE;w_SQUARE;w_WITH;w_LEFTWARDS;w_TICK]);
  (0x27e5, [w_WHITE;w_SQUARE;w_WITH;w_RIGHTWARDS;w_TICK]);
  (0x27e6, [w_MATHEMATICAL;w_LEFT;w_WHITE;w_SQUARE;w_BRACKET]);
  (0x27e7, [w_MATHEMATICAL;w_RIGHT;w_WHITE;w_SQUARE;w_BRACKET]);
  (0x27e8, [w_MATHEMATICAL;w_LEFT;w_ANGLE;w_BRACKET]);
  (0x27e9, [w_MATHEMATICAL;w_RIGHT;w_ANGLE;w_BRACKET]);
  (0x27ea, [w_MATHEMATICAL;w_LEFT;w_DOUBLE;w_ANGLE;w_BRACKET]);
  (0x27eb, [w_MATHEMATICAL;w_RIGHT;w_DOUBLE;w_ANGLE;w_BRACKET]);
  (0x27ec, [w_MATHEMATICAL;w_LEFT;w_WHITE;w_TORTOISE;w_SHELL;w_BRACKET]);
  (0x27ed, [w_MATHEMATICAL;w_RIGHT;w_WHITE;w_TORTOISE;w_SHELL;w_BRACKET]);
  (0x27ee, [w_MATHEMATICAL;w_LEFT;w_FLATTENED;w_PARENTHESIS]);
  (0x27ef, [w_MATHEMATICAL;w_RIGHT;w_FLATTENED;w_PARENTHESIS]);
  (0x27f0, [w_UPWARDS;w_QUADRUPLE;w_ARROW]);
  (0x27f1, [w_DOWNWARDS;w_QUADRUPLE;w_ARROW]);
  (0x27f2, [w_ANTICLOCKWISE;w_GAPPED;w_CIRCLE;w_ARROW]);
  (0x27f3, [w_CLOCKWISE;w_GAPPED;w_CIRCLE;w_ARROW]);
  (0x27f4, [w_RIGHT;w_ARROW;w_WITH;w_CIRCLED;w_PLUS]);
  (0x27f5, [w_LONG;w_LEFTWARDS;w_ARROW]);
  (0x27f6, [w_LONG;w_RIGHTWARDS;w_ARROW]);
  (0x27f7, [w_LONG;w_LEFT;w_RIGHT;w_ARROW]);
  (0x27f8, [w_LONG;w_LEFTWARDS;w_DOUBLE;w_ARROW]);
  (0x27f9, [w_LONG;w_RIGHTWARDS;w_DOUBLE;w_ARROW]);
  (0x27fa, [w_LONG;w_LEFT;w_RIGHT;w_DOUBLE;w_ARROW]);
  (0x27fb, [w_LONG;w_LEFTWARDS;w_ARROW;w_FROM;w_BAR]);
  (0x27fc, [w_LONG;w_RIGHTWARDS;w_ARROW;w_FROM;w_BAR]);
  (0x27fd, [w_LONG;w_LEFTWARDS;w_DOUBLE;w_ARROW;w_FROM;w_BAR]);
  (0x27fe, [w_LONG;w_RIGHTWARDS;w_DOUBLE;w_ARROW;w_FROM;w_BAR]);
  (0x27ff, [w_LONG;w_RIGHTWARDS;w_SQUIGGLE;w_ARROW]);
  (0x2800, [w_BRAILLE;w_PATTERN;w_BLANK]);
  (0x2801, [w_BRAILLE;w_PATTERN;w_DOTS_1]);
  (0x2802, [w_BRAILLE;w_PATTERN;w_DOTS_2]);
  (0x2803, [w_BRAILLE;w_PATTERN;w_DOTS_12]);
  (0x2804, [w_BRAILLE;w_PATTERN;w_DOTS_3]);
  (0x2805, [w_BRAILLE;w_PATTERN;w_DOTS_13]);
  (0x2806, [w_BRAILLE;w_PATTERN;w_DOTS_23]);
  (0x2807, [w_BRAILLE;w_PATTERN;w_DOTS_123]);
  (0x2808, [w_BRAILLE;w_PATTERN;w_DOTS_4]);
  (0x2809, [w_BRAILLE;w_PATTERN;w_DOTS_14]);
  (0x280a, [w_BRAILLE;w_PATTERN;w_DOTS_24]);
  (0x280b, [w_BRAILLE;w_PATTERN;w_DOTS_124]);
  (0x280c, [w_BRAILLE;w_PATTERN;w_DOTS_34]);
  (0x280d, [w_BRAILLE;w_PATTERN;w_DOTS_134]);
  (0x280e, [w_BRAILLE;w_PATTERN;w_DOTS_234]);
  (0x280f, [w_BRAILLE;w_PATTERN;w_DOTS_1234]);
  (0x2810, [w_BRAILLE;w_PATTERN;w_DOTS_5]);
  (0x2811, [w_BRAILLE;w_PATTERN;w_DOTS_15]);
  (0x2812, [w_BRAILLE;w_PATTERN;w_DOTS_25]);
  (0x2813, [w_BRAILLE;w_PATTERN;w_DOTS_125]);
  (0x2814, [w_BRAILLE;w_PATTERN;w_DOTS_35]);
  (0x2815, [w_BRAILLE;w_PATTERN;w_DOTS_135]);
  (0x2816, [w_BRAILLE;w_PATTERN;w_DOTS_235]);
  (0x2817, [w_BRAILLE;w_PATTERN;w_DOTS_1235]);
  (0x2818, [w_BRAILLE;w_PATTERN;w_DOTS_45]);
  (0x2819, [w_BRAILLE;w_PATTERN;w_DOTS_145]);
  (0x281a, [w_BRAILLE;w_PATTERN;w_DOTS_245]);
  (0x281b, [w_BRAILLE;w_PATTERN;w_DOTS_1245]);
  (0x281c, [w_BRAILLE;w_PATTERN;w_DOTS_345]);
  (0x281d, [w_BRAILLE;w_PATTERN;w_DOTS_1345]);
  (0x281e, [w_BRAILLE;w_PATTERN;w_DOTS_2345]);
  (0x281f, [w_BRAILLE;w_PATTERN;w_DOTS_12345]);
  (0x2820, [w_BRAILLE;w_PATTERN;w_DOTS_6]);
  (0x2821, [w_BRAILLE;w_PATTERN;w_DOTS_16]);
  (0x2822, [w_BRAILLE;w_PATTERN;w_DOTS_26]);
  (0x2823, [w_BRAILLE;w_PATTERN;w_DOTS_126]);
  (0x2824, [w_BRAILLE;w_PATTERN;w_DOTS_36]);
  (0x2825, [w_BRAILLE;w_PATTERN;w_DOTS_136]);
  (0x2826, [w_BRAILLE;w_PATTERN;w_DOTS_236]);
  (0x2827, [w_BRAILLE;w_PATTERN;w_DOTS_1236]);
  (0x2828, [w_BRAILLE;w_PATTERN;w_DOTS_46]);
  (0x2829, [w_BRAILLE;w_PATTERN;w_DOTS_146]);
  (0x282a, [w_BRAILLE;w_PATTERN;w_DOTS_246]);
  (0x282b, [w_BRAILLE;w_PATTERN;w_DOTS_1246]);
  (0x282c, [w_BRAILLE;w_PATTERN;w_DOTS_346]);
  (0x282d, [w_BRAILLE;w_PATTERN;w_DOTS_1346]);
  (0x282e, [w_BRAILLE;w_PATTERN;w_DOTS_2346]);
  (0x282f, [w_BRAILLE;w_PATTERN;w_DOTS_12346]);
  (0x2830, [w_BRAILLE;w_PATTERN;w_DOTS_56]);
  (0x2831, [w_BRAILLE;w_PATTERN;w_DOTS_156]);
  (0x2832, [w_BRAILLE;w_PATTERN;w_DOTS_256]);
  (0x2833, [w_BRAILLE;w_PATTERN;w_DOTS_1256]);
  (0x2834, [w_BRAILLE;w_PATTERN;w_DOTS_356]);
  (0x2835, [w_BRAILLE;w_PATTERN;w_DOTS_1356]);
  (0x2836, [w_BRAILLE;w_PATTERN;w_DOTS_2356]);
  (0x2837, [w_BRAILLE;w_PATTERN;w_DOTS_12356]);
  (0x2838, [w_BRAILLE;w_PATTERN;w_DOTS_456]);
  (0x2839, [w_BRAILLE;w_PATTERN;w_DOTS_1456]);
  (0x283a, [w_BRAILLE;w_PATTERN;w_DOTS_2456]);
  (0x283b, [w_BRAILLE;w_PATTERN;w_DOTS_12456]);
  (0x283c, [w_BRAILLE;w_PATTERN;w_DOTS_3456]);
  (0x283d, [w_BRAILLE;w_PATTERN;w_DOTS_13456]);
  (0x283e, [w_BRAILLE;w_PATTERN;w_DOTS_23456]);
  (0x283f, [w_BRAILLE;w_PATTERN;w_DOTS_123456]);
  (0x2840, [w_BRAILLE;w_PATTERN;w_DOTS_7]);
  (0x2841, [w_BRAILLE;w_PATTERN;w_DOTS_17]);
  (0x2842, [w_BRAILLE;w_PATTERN;w_DOTS_27]);
  (0x2843, [w_BRAILLE;w_PATTERN;w_DOTS_127]);
  (0x2844, [w_BRAILLE;w_PATTERN;w_DOTS_37]);
  (0x2845, [w_BRAILLE;w_PATTERN;w_DOTS_137]);
  (0x2846, [w_BRAILLE;w_PATTERN;w_DOTS_237]);
  (0x2847, [w_BRAILLE;w_PATTERN;w_DOTS_1237]);
  (0x2848, [w_BRAILLE;w_PATTERN;w_DOTS_47]);
  (0x2849, [w_BRAILLE;w_PATTERN;w_DOTS_147]);
  (0x284a, [w_BRAILLE;w_PATTERN;w_DOTS_247]);
  (0x284b, [w_BRAILLE;w_PATTERN;w_DOTS_1247]);
  (0x284c, [w_BRAILLE;w_PATTERN;w_DOTS_347]);
  (0x284d, [w_BRAILLE;w_PATTERN;w_DOTS_1347]);
  (0x284e, [w_BRAILLE;w_PATTERN;w_DOTS_2347]);
  (0x284f, [w_BRAILLE;w_PATTERN;w_DOTS_12347]);
  (0x2850, [w_BRAILLE;w_PATTERN;w_DOTS_57]);
  (0x2851, [w_BRAILLE;w_PATTERN;w_DOTS_157]);
  (0x2852, [w_BRAILLE;w_PATTERN;w_DOTS_257]);
  (0x2853, [w_BRAILLE;w_PATTERN;w_DOTS_1257]);
  (0x2854, [w_BRAILLE;w_PATTERN;w_DOTS_357]);
  (0x2855, [w_BRAILLE;w_PATTERN;w_DOTS_1357]);
  (0x2856, [w_BRAILLE;w_PATTERN;w_DOTS_2357]);
  (0x2857, [w_BRAILLE;w_PATTERN;w_DOTS_12357]);
  (0x2858, [w_BRAILLE;w_PATTERN;w_DOTS_457]);
  (0x2859, [w_BRAILLE;w_PATTERN;w_DOTS_1457]);
  (0x285a, [w_BRAILLE;w_PATTERN;w_DOTS_2457]);
  (0x285b, [w_BRAILLE;w_PATTERN;w_DOTS_12457]);
  (0x285c, [w_BRAILLE;w_PATTERN;w_DOTS_3457]);
  (0x285d, [w_BRAILLE;w_PATTERN;w_DOTS_13457]);
  (0x285e, [w_BRAILLE;w_PATTERN;w_DOTS_23457]);
  (0x285f, [w_BRAILLE;w_PATTERN;w_DOTS_123457]);
  (0x2860, [w_BRAILLE;w_PATTERN;w_DOTS_67]);
  (0x2861, [w_BRAILLE;w_PATTERN;w_DOTS_167]);
  (0x2862, [w_BRAILLE;w_PATTERN;w_DOTS_267]);
  (0x2863, [w_BRAILLE;w_PATTERN;w_DOTS_1267]);
  (0x2864, [w_BRAILLE;w_PATTERN;w_DOTS_367]);
  (0x2865, [w_BRAILLE;w_PATTERN;w_DOTS_1367]);
  (0x2866, [w_BRAILLE;w_PATTERN;w_DOTS_2367]);
  (0x2867, [w_BRAILLE;w_PATTERN;w_DOTS_12367]);
  (0x2868, [w_BRAILLE;w_PATTERN;w_DOTS_467]);
  (0x2869, [w_BRAILLE;w_PATTERN;w_DOTS_1467]);
  (0x286a, [w_BRAILLE;w_PATTERN;w_DOTS_2467]);
  (0x286b, [w_BRAILLE;w_PATTERN;w_DOTS_12467]);
  (0x286c, [w_BRAILLE;w_PATTERN;w_DOTS_3467]);
  (0x286d, [w_BRAILLE;w_PATTERN;w_DOTS_13467]);
  (0x286e, [w_BRAILLE;w_PATTERN;w_DOTS_23467]);
  (0x286f, [w_BRAILLE;w_PATTERN;w_DOTS_123467]);
  (0x2870, [w_BRAILLE;w_PATTERN;w_DOTS_567]);
  (0x2871, [w_BRAILLE;w_PATTERN;w_DOTS_1567]);
  (0x2872, [w_BRAILLE;w_PATTERN;w_DOTS_2567]);
  (0x2873, [w_BRAILLE;w_PATTERN;w_DOTS_12567]);
  (0x2874, [w_BRAILLE;w_PATTERN;w_DOTS_3567]);
  (0x2875, [w_BRAILLE;w_PATTERN;w_DOTS_13567]);
  (0x2876, [w_BRAILLE;w_PATTERN;w_DOTS_23567]);
  (0x2877, [w_BRAILLE;w_PATTERN;w_DOTS_123567]);
  (0x2878, [w_BRAILLE;w_PATTERN;w_DOTS_4567])].

Definition NAMES_23 : list (N * (list str)) := [
  (0x2879, [w_BRAILLE;w_PATTERN;w_DOTS_14567]);
  (0x287a, [w_BRAILLE;w_PATTERN;w_DOTS_24567]);
  (0x287b, [w_BRAILLE;w_PATTERN;w_DOTS_124567]);
  (0x287c, [w_BRAILLE;w_PATTERN;w_DOTS_34567]);
  (0x287d, [w_BRAILLE;w_PATTERN;w_DOTS_134567]);
  (0x287e, [w_BRAILLE;w_PATTERN;w_DOTS_234567]);
  (0x287f, [w_BRAILLE;w_PATTERN;w_DOTS_1234567]);
  (0x2880, [w_BRAILLE;w_PATTERN;w_DOTS_8]);
  (0x2881, [w_BRAILLE;w_PATTERN;w_DOTS_18]);
  (0x2882, [w_BRAILLE;w_PATTERN;w_DOTS_28]);
  (0x2883, [w_BRAILLE;w_PATTERN;w_DOTS_128]);
  (0x2884, [w_BRAILLE;w_PATTERN;w_DOTS_38]);
  (0x2885, [w_BRAILLE;w_PATTERN;w_DOTS_138]);
  (0x2886, [w_BRAILLE;w_PATTERN;w_DOTS_238]);
  (0x2887, [w_BRAILLE;w_PATTERN;w_DOTS_1238]);
  (0x2888, [w_BRAILLE;w_PATTERN;w_DOTS_48]);
  (0x2889, [w_BRAILLE;w_PATTERN;w_DOTS_148]);
  (0x288a, [w_BRAILLE;w_PATTERN;w_DOTS_248]);
  (0x288b, [w_BRAILLE;w_PATTERN;w_DOTS_1248]);
  (0x288c, [w_BRAILLE;w_PATTERN;w_DOTS_348]);
  (0x288d, [w_BRAILLE;w_PATTERN;w_DOTS_1348]);
  (0x288e, [w_BRAILLE;w_PATTERN;w_DOTS_2348]);
  (0x288f, [w_BRAILLE;w_PATTERN;w_DOTS_12348]);
  (0x2890, [w_BRAILLE;w_PATTERN;w_DOTS_58]);
  (0x2891, [w_BRAILLE;w_PATTERN;w_DOTS_158]);
  (0x2892, [w_BRAILLE;w_PATTERN;w_DOTS_258]);
  (0x2893, [w_BRAILLE;w_PATTERN;w_DOTS_1258]);
  (0x2894, [w_BRAILLE;w_PATTERN;w_DOTS_358]);
  (0x2895, [w_BRAILLE;w_PATTERN;w_DOTS_1358]);
  (0x2896, [w_BRAILLE;w_PATTERN;w_DOTS_2358]);
  (0x2897, [w_BRAILLE;w_PATTERN;w_DOTS_12358]);
  (0x2898, [w_BRAILLE;w_PATTERN;w_DOTS_458]);
  (0x2899, [w_BRAILLE;w_PATTERN;w_DOTS_1458]);
  (0x289a, [w_BRAILLE;w_PATTERN;w_DOTS_2458]);
  (0x289b, [w_BRAILLE;w_PATTERN;w_DOTS_12458]);
  (0x289c, [w_BRAILLE;w_PATTERN;w_DOTS_3458]);
  (0x289d, [w_BRAILLE;w_PATTERN;w_DOTS_13458]);
  (0x289e, [w_BRAILLE;w_PATTERN;w_DOTS_23458]);
  (0x289f, [w_BRAILLE;w_PATTERN;w_DOTS_123458]);
  (0x28a0, [w_BRAILLE;w_PATTERN;w_DOTS_68]);
  (0x28a1, [w_BRAILLE;w_PATTERN;w_DOTS_168]);
  (0x28a2, [w_BRAILLE;w_PATTERN;w_DOTS_268]);
  (0x28a3, [w_BRAILLE;w_PATTERN;w_DOTS_1268]);
  (0x28a4, [w_BRAILLE;w_PATTERN;w_DOTS_368]);
  (0x28a5, [w_BRAILLE;w_PATTERN;w_DOTS_1368]);
  (0x28a6, [w_BRAILLE;w_PATTERN;w_DOTS_2368]);
  (0x28a7, [w_BRAILLE;w_PATTERN;w_DOTS_12368]);
  (0x28a8, [w_BRAILLE;w_PATTERN;w_DOTS_468]);
  (0x28a9, [w_BRAILLE;w_PATTERN;w_DOTS_1468]);
  (0x28aa, [w_BRAILLE;w_PATTERN;w_DOTS_2468]);
  (0x28ab, [w_BRAILLE;w_PATTERN;w_DOTS_12468]);
  (0x28ac, [w_BRAILLE;w_PATTERN;w_DOTS_3468]);
  (0x28ad, [w_BRAILLE;w_PATTERN;w_DOTS_13468]);
  (0x28ae, [w_BRAILLE;w_PATTERN;w_DOTS_23468]);
  (0x28af, [w_BRAILLE;w_PATTERN;w_DOTS_123468]);
  (0x28b0, [w_BRAILLE;w_PATTERN;w_DOTS_568]);
  (0x28b1, [w_BRAILLE;w_PATTERN;w_DOTS_1568]);
  (0x28b2, [w_BRAILLE;w_PATTERN;w_DOTS_2568]);
  (0x28b3, [w_BRAILLE;w_PATTERN;w_DOTS_12568]);
  (0x28b4, [w_BRAILLE;w_PATTERN;w_DOTS_3568]);
  (0x28b5, [w_BRAILLE;w_PATTERN;w_DOTS_13568]);
  (0x28b6, [w_BRAILLE;w_PATTERN;w_DOTS_23568]);
  (0x28b7, [w_BRAILLE;w_PATTERN;w_DOTS_123568]);
  (0x28b8, [w_BRAILLE;w_PATTERN;w_DOTS_4568]);
  (0x28b9, [w_BRAILLE;w_PATTERN;w_DOTS_14568]);
  (0x28ba, [w_BRAILLE;w_PATTERN;w_DOTS_24568]);
  (0x28bb, [w_BRAILLE;w_PATTERN;w_DOTS_124568]);
  (0x28bc, [w_BRAILLE;w_PATTERN;w_DOTS_34568]);
  (0x28bd, [w_BRAILLE;w_PATTERN;w_DOTS_134568]);
  (0x28be, [w_BRAILLE;w_PATTERN;w_DOTS_234568]);
  (0x28bf, [w_BRAILLE;w_PATTERN;w_DOTS_1234568]);
  (0x28c0, [w_BRAILLE;w_PATTERN;w_DOTS_78]);
  (0x28c1, [w_BRAILLE;w_PATTERN;w_DOTS_178]);
  (0x28c2, [w_BRAILLE;w_PATTERN;w_DOTS_278]);
  (0x28c3, [w_BRAILLE;w_PATTERN;w_DOTS_1278]);
  (0x28c4, [w_BRAILLE;w_PATTERN;w_DOTS_378]);
  (0x28c5, [w_BRAILLE;w_PATTERN;w_DOTS_1378]);
  (0x28c6, [w_BRAILLE;w_PATTERN;w_DOTS_2378]);
  (0x28c7, [w_BRAILLE;w_PATTERN;w_DOTS_12378]);
  (0x28c8, [w_BRAILLE;w_PATTERN;w_DOTS_478]);
  (0x28c9, [w_BRAILLE;w_PATTERN;w_DOTS_1478]);
  (0x28ca, [w_BRAILLE;w_PATTERN;w_DOTS_2478]);
  (0x28cb, [w_BRAILLE;w_PATTERN;w_DOTS_12478]);
  (0x28cc, [w_BRAILLE;w_PATTERN;w_DOTS_3478]);
  (0x28cd, [w_BRAILLE;w_PATTERN;w_DOTS_13478]);
  (0x28ce, [w_BRAILLE;w_PATTERN;w_DOTS_23478]);
  (0x28cf, [w_BRAILLE;w_PATTERN;w_DOTS_123478]);
  (0x28d0, [w_BRAILLE;w_PATTERN;w_DOTS_578]);
  (0x28d1, [w_BRAILLE;w_PATTERN;w_DOTS_1578]);
  (0x28d2, [w_BRAILLE;w_PATTERN;w_DOTS_2578]);
  (0x28d3, [w_BRAILLE;w_PATTERN;w_DOTS_12578]);
  (0x28d4, [w_BRAILLE;w_PATTERN;w_DOTS_3578]);
  (0x28d5, [w_BRAILLE;w_PATTERN;w_DOTS_13578]);
  (0x28d6, [w_BRAILLE;w_PATTERN;w_DOTS_23578]);
  (0x28d7, [w_BRAILLE;w_PATTERN;w_DOTS_123578]);
  (0x28d8, [w_BRAILLE;w_PATTERN;w_DOTS_4578]);
  (0x28d9, [w_BRAILLE;w_PATTERN;w_DOTS_14578]);
  (0x28da, [w_BRAILLE;w_PATTERN;w_DOTS_24578]);
  (0x28db, [w_BRAILLE;w_PATTERN;w_DOTS_124578]);
  (0x28dc, [w_BRAILLE;w_PATTERN;w_DOTS_34578]);
  (0x28dd, [w_BRAILLE;w_PATTERN;w_DOTS_134578]);
  (0x28de, [w_BRAILLE;w_PATTERN;w_DOTS_234578]);
  (0x28df, [w_BRAILLE;w_PATTERN;w_DOTS_1234578]);
  (0x28e0, [w_BRAILLE;w_PATTERN;w_DOTS_678]);
  (0x28e1, [w_BRAILLE;w_PATTERN;w_DOTS_1678]);
  (0x28e2, [w_BRAILLE;w_PATTERN;w_DOTS_2678]);
  (0x28e3, [w_BRAILLE;w_PATTERN;w_DOTS_12678]);
  (0x28e4, [w_BRAILLE;w_PATTERN;w_DOTS_3678]);
  (0x28e5, [w_BRAILLE;w_PATTERN;w_DOTS_13678]);
  (0x28e6, [w_BRAILLE;w_PATTERN;w_DOTS_23678]);
  (0x28e7, [w_BRAILLE;w_PATTERN;w_DOTS_123678]);
  (0x28e8, [w_BRAILLE;w_PATTERN;w_DOTS_4678]);
  (0x28e9, [w_BRAILLE;w_PATTERN;w_DOTS_14678]);
  (0x28ea, [w_BRAILLE;w_PATTERN;w_DOTS_24678]);
  (0x28eb, [w_BRAILLE;w_PATTERN;w_DOTS_124678]);
  (0x28ec, [w_BRAILLE;w_PATTERN;w_DOTS_34678]);
  (0x28ed, [w_BRAILLE;w_PATTERN;w_DOTS_134678]);
  (0x28ee, [w_BRAILLE;w_PATTERN;w_DOTS_234678]);
  (0x28ef, [w_BRAILLE;w_PATTERN;w_DOTS_1234678]);
  (0x28f0, [w_BRAILLE;w_PATTERN;w_DOTS_5678]);
  (0x28f1, [w_BRAILLE;w_PATTERN;w_DOTS_15678]);
  (0x28f2, [w_BRAILLE;w_PATTERN;w_DOTS_25678]);
  (0x28f3, [w_BRAILLE;w_PATTERN;w_DOTS_125678]);
  (0x28f4, [w_BRAILLE;w_PATTERN;w_DOTS_35678]);
  (0x28f5, [w_BRAILLE;w_PATTERN;w_DOTS_135678]);
  (0x28f6, [w_BRAILLE;w_PATTERN;w_DOTS_235678]);
  (0x28f7, [w_BRAILLE;w_PATTERN;w_DOTS_1235678]);
  (0x28f8, [w_BRAILLE;w_PATTERN;w_DOTS_45678]);
  (0x28f9, [w_BRAILLE;w_PATTERN;w_DOTS_145678]);
  (0x28fa, [w_BRAILLE;w_PATTERN;w_DOTS_245678]);
  (0x28fb, [w_BRAILLE;w_PATTERN;w_DOTS_1245678]);
  (0x28fc, [w_BRAILLE;w_PATTERN;w_DOTS_345678]);
  (0x28fd, [w_BRAILLE;w_PATTERN;w_DOTS_1345678]);
  (0x28fe, [w_BRAILLE;w_PATTERN;w_DOTS_2345678]);
  (0x28ff, [w_BRAILLE;w_PATTERN;w_DOTS_12345678]);
  (0x2900, [w_RIGHTWARDS;w_TWO_HEADED;w_ARROW;w_WITH;w_VERTICAL;w_STROKE]);
  (0x2901, [w_RIGHTWARDS;w_TWO_HEADED;w_ARROW;w_WITH;w_DOUBLE;w_VERTICAL;w_STROKE]);
  (0x2902, [w_LEFTWARDS;w_DOUBLE;w_ARROW;w_WITH;w_VERTICAL;w_STROKE]);
  (0x2903, [w_RIGHTWARDS;w_DOUBLE;w_ARROW;w_WITH;w_VERTICAL;w_STROKE]);
  (0x2904, [w_LEFT;w_RIGHT;w_DOUBLE;w_ARROW;w_WITH;w_VERTICAL;w_STROKE]);
  (0x2905, [w_RIGHTWARDS;w_TWO_HEADED;w_ARROW;w_FROM;w_BAR]);
  (0x2906, [w_LEFTWARDS;w_DOUBLE;w_ARROW;w_FROM;w_BAR]);
  (0x2907, [w_RIGHTWARDS;w_DOUBLE;w_ARROW;w_FROM;w_BAR]);
  (0x2908, [w_DOWNWARDS;w_ARROW;w_WITH;w_HORIZONTAL;w_STROKE]);
  (0x2909, [w_UPWARDS;w_ARROW;w_WITH;w_HORIZONTAL;w_STROKE]);
  (0x290a, [w_UPWARDS;w_TRIPLE;w_ARROW]);
  (0x290b, [w_DOWNWARDS;w_TRIPLE;w_ARROW]);
  (0x290c, [w_LEFTWARDS;w_DOUBLE;w_DASH;w_ARROW]);
  (0x290d, [w_RIGHTWARDS;w_DOUBLE;w_DASH;w_ARROW]);
  (0x290e, [w_LEFTWARDS;w_TRIPLE;w_DASH;w_ARROW]);
  (0x290f, [w_RIGHTWARDS;w_TRIPLE;w_DASH;w_ARROW]);
  (0x2910, [w_RIGHTWARDS;w_TWO_HEADED;w_TRIPLE;w_DASH;w_ARROW]);
  (0x2911, [w_RIGHTWARDS;w_ARROW;w_WITH;w_DOTTED;w_STEM]);
  (0x2912, [w_UPWARDS;w_ARROW;w_TO;w_BAR]);
  (0x2913, [w_DOWNWARDS;w_ARROW;w_TO;w_BAR]);
  (0x2914, [w_RIGHTWARDS;w_ARROW;w_WITH;w_TAIL;w_WITH;w_VERTICAL;w_STROKE]);
  (0x2915, [w_RIGHTWARDS;w_ARROW;w_WITH;w_TAIL;w_WITH;w_DOUBLE;w_VERTICAL;w_STROKE]);
  (0x2916, [w_RIGHTWARDS;w_TWO_HEADED;w_ARROW;w_WITH;w_TAIL]);
  (0x2917, [w_RIGHTWARDS;w_TWO_HEADED;w_ARROW;w_WITH;w_TAIL;w_WITH;w_VERTICAL;w_STROKE]);
  (0x2918, [w_RIGHTWARDS;w_TWO_HEADED;w_ARROW;w_WITH;w_TAIL;w_WITH;w_DOUBLE;w_VERTICAL;w_STROKE]);
  (0x2919, [w_LEFTWARDS;w_ARROW_TAIL]);
  (0x291a, [w_RIGHTWARDS;w_ARROW_TAIL]);
  (0x291b, [w_LEFTWARDS;w_DOUBLE;w_ARROW_TAIL]);
  (0x291c, [w_RIGHTWARDS;w_DOUBLE;w_ARROW_TAIL]);
  (0x291d, [w_LEFTWARDS;w_ARROW;w_TO;w_BLACK;w_DIAMOND]);
  (0x291e, [w_RIGHTWARDS;w_ARROW;w_TO;w_BLACK;w_DIAMOND]);
  (0x291f, [w_LEFTWARDS;w_ARROW;w_FROM;w_BAR;w_TO;w_BLACK;w_DIAMOND]);
  (0x2920, [w_RIGHTWARDS;w_ARROW;w_FROM;w_BAR;w_TO;w_BLACK;w_DIAMOND]);
  (0x2921, [w_NORTH;w_WEST;w_AND;w_SOUTH;w_EAST;w_ARROW]);
  (0x2922, [w_NORTH;w_EAST;w_AND;w_SOUTH;w_WEST;w_ARROW]);
  (0x2923, [w_NORTH;w_WEST;w_ARROW;w_WITH;w_HOOK]);
  (0x2924, [w_NORTH;w_EAST;w_ARROW;w_WITH;w_HOOK]);
  (0x2925, [w_SOUTH;w_EAST;w_ARROW;w_WITH;w_HOOK]);
  (0x2926, [w_SOUTH;w_WEST;w_ARROW;w_WITH;w_HOOK]);
  (0x2927, [w_NORTH;w_WEST;w_ARROW;w_AND;w_NORTH;w_EAST;w_ARROW]);
  (0x2928, [w_NORTH;w_EAST;w_ARROW;w_AND;w_SOUTH;w_EAST;w_ARROW]);
  (0x2929, [w_SOUTH;w_EAST;w_ARROW;w_AND;w_SOUTH;w_WEST;w_ARROW]);
  (0x292a, [w_SOUTH;w_WEST;w_ARROW;w_AND;w_NORTH;w_WEST;w_ARROW]);
  (0x292b, [w_RISING;w_DIAGONAL;w_CROSSING;w_FALLING;w_DIAGONAL]);
  (0x292c, [w_FALLING;w_DIAGONAL;w_CROSSING;w_RISING;w_DIAGONAL]);
  (0x292d, [w_SOUTH;w_EAST;w_ARROW;w_CROSSING;w_NORTH;w_EAST;w_ARROW]);
  (0x292e, [w_NORTH;w_EAST;w_ARROW;w_CROSSING;w_SOUTH;w_EAST;w_ARROW]);
  (0x292f, [w_FALLING;w_DIAGONAL;w_CROSSING;w_NORTH;w_EAST;w_ARROW]);
  (0x2930, [w_RISING;w_DIAGONAL;w_CROSSING;w_SOUTH;w_EAST;w_ARROW]);
  (0x2931, [w_NORTH;w_EAST;w_ARROW;w_CROSSING;w_NORTH;w_WEST;w_ARROW]);
  (0x2932, [w_NORTH;w_WEST;w_ARROW;w_CROSSING;w_NORTH;w_EAST;w_ARROW]);
  (0x2933, [w_WAVE;w_ARROW;w_POINTING;w_DIRECTLY;w_RIGHT]);
  (0x2934, [w_ARROW;w_POINTING;w_RIGHTWARDS;w_THEN;w_CURVING;w_UPWARDS]);
  (0x2935, [w_ARROW;w_POINTING;w_RIGHTWARDS;w_THEN;w_CURVING;w_DOWNWARDS]);
  (0x2936, [w_ARROW;w_POINTING;w_DOWNWARDS;w_THEN;w_CURVING;w_LEFTWARDS]);
  (0x2937, [w_ARROW;w_POINTING;w_DOWNWARDS;w_THEN;w_CURVING;w_RIGHTWARDS]);
  (0x2938, [w_RIGHT_SIDE;w_ARC;w_CLOCKWISE;w_ARROW]);
  (0x2939, [w_LEFT_SIDE;w_ARC;w_ANTICLOCKWISE;w_ARROW]);
  (0x293a, [w_TOP;w_ARC;w_ANTICLOCKWISE;w_ARROW]);
  (0x293b, [w_BOTTOM;w_ARC;w_ANTICLOCKWISE;w_ARROW]);
  (0x293c, [w_TOP;w_ARC;w_CLOCKWISE;w_ARROW;w_WITH;w_MINUS]);
  (0x293d, [w_TOP;w_ARC;w_ANTICLOCKWISE;w_ARROW;w_WITH;w_PLUS]);
  (0x293e, [w_LOWER;w_RIGHT;w_SEMICIRCULAR;w_CLOCKWISE;w_ARROW]);
  (0x293f, [w_LOWER;w_LEFT;w_SEMICIRCULAR;w_ANTICLOCKWISE;w_ARROW]);
  (0x2940, [w_ANTICLOCKWISE;w_CLOSED;w_CIRCLE;w_ARROW]);
  (0x2941, [w_CLOCKWISE;w_CLOSED;w_CIRCLE;w_ARROW]);
  (0x2942, [w_RIGHTWARDS;w_ARROW;w_ABOVE;w_SHORT;w_LEFTWARDS;w_ARROW]);
  (0x2943, [w_LEFTWARDS;w_ARROW;w_ABOVE;w_SHORT;w_RIGHTWARDS;w_ARROW]);
  (0x2944, [w_SHORT;w_RIGHTWARDS;w_ARROW;w_ABOVE;w_LEFTWARDS;w_ARROW]);
  (0x2945, [w_RIGHTWARDS;w_ARROW;w_WITH;w_PLUS;w_BELOW]);
  (0x2946, [w_LEFTWARDS;w_ARROW;w_WITH;w_PLUS;w_BELOW]);
  (0x2947, [w_RIGHTWARDS;w_ARROW;w_THROUGH;w_X]);
  (0x2948, [w_LEFT;w_RIGHT;w_ARROW;w_THROUGH;w_SMALL;w_CIRCLE]);
  (0x2949, [w_UPWARDS;w_TWO_HEADED;w_ARROW;w_FROM;w_SMALL;w_CIRCLE]);
  (0x294a, [w_LEFT;w_BARB;w_UP;w_RIGHT;w_BARB;w_DOWN;w_HARPOON]);
  (0x294b, [w_LEFT;w_BARB;w_DOWN;w_RIGHT;w_BARB;w_UP;w_HARPOON]);
  (0x294c, [w_UP;w_BARB;w_RIGHT;w_DOWN;w_BARB;w_LEFT;w_HARPOON]);
  (0x294d, [w_UP;w_BARB;w_LEFT;w_DOWN;w_BARB;w_RIGHT;w_HARPOON]);
  (0x294e, [w_LEFT;w_BARB;w_UP;w_RIGHT;w_BARB;w_UP;w_HARPOON]);
  (0x294f, [w_UP;w_BARB;w_RIGHT;w_DOWN;w_BARB;w_RIGHT;w_HARPOON]);
  (0x2950, [w_LEFT;w_BARB;w_DOWN;w_RIGHT;w_BARB;w_DOWN;w_HARPOON]);
  (0x2951, [w_UP;w_BARB;w_LEFT;w_DOWN;w_BARB;w_LEFT;w_HARPOON]);
  (0x2952, [w_LEFTWARDS;w_HARPOON;w_WITH;w_BARB;w_UP;w_TO;w_BAR]);
  (0x2953, [w_RIGHTWARDS;w_HARPOON;w_WITH;w_BARB;w_UP;w_TO;w_BAR]);
  (0x2954, [w_UPWARDS;w_HARPOON;w_WITH;w_BARB;w_RIGHT;w_TO;w_BAR]);
  (0x2955, [w_DOWNWARDS;w_HARPOON;w_WITH;w_BARB;w_RIGHT;w_TO;w_BAR]);
  (0x2956, [w_LEFTWARDS;w_HARPOON;w_WITH;w_BARB;w_DOWN;w_TO;w_BAR]);
  (0x2957, [w_RIGHTWARDS;w_HARPOON;w_WITH;w_BARB;w_DOWN;w_TO;w_BAR]);
  (0x2958, [w_UPWARDS;w_HARPOON;w_WITH;w_BARB;w_LEFT;w_TO;w_BAR]);
  (0x2959, [w_DOWNWARDS;w_HARPOON;w_WITH;w_BARB;w_LEFT;w_TO;w_BAR]);
  (0x295a, [w_LEFTWARDS;w_HARPOON;w_WITH;w_BARB;w_UP;w_FROM;w_BAR]);
  (0x295b, [w_RIGHTWARDS;w_HARPOON;w_WITH;w_BARB;w_UP;w_FROM;w_BAR]);
  (0x295c, [w_UPWARDS;w_HARPOON;w_WITH;w_BARB;w_RIGHT;w_FROM;w_BAR]);
  (0x295d, [w_DOWNWARDS;w_HARPOON;w_WITH;w_BARB;w_RIGHT;w_FROM;w_BAR]);
  (0x295e, [w_LEFTWARDS;w_HARPOON;w_WITH;w_BARB;w_DOWN;w_FROM;w_BAR]);
  (0x295f, [w_RIGHTWARDS;w_HARPOON;w_WITH;w_BARB;w_DOWN;w_FROM;w_BAR]);
  (0x2960, [w_UPWARDS;w_HARPOON;w_WITH;w_BARB;w_LEFT;w_FROM;w_BAR]);
  (0x2961, [w_DOWNWARDS;w_HARPOON;w_WITH;w_BARB;w_LEFT;w_FROM;w_BAR]);
  (0x2962, [w_LEFTWARDS;w_HARPOON;w_WITH;w_BARB;w_UP;w_ABOVE;w_LEFTWARDS;w_HARPOON;w_WITH;w_BARB;w_DOWN]);
  (0x2963, [w_UPWARDS;w_HARPOON;w_WITH;w_BARB;w_LEFT;w_BESIDE;w_UPWARDS;w_HARPOON;w_WITH;w_BARB;w_RIGHT]);
  (0x2964, [w_RIGHTWARDS;w_HARPOON;w_WITH;w_BARB;w_UP;w_ABOVE;w_RIGHTWARDS;w_HARPOON;w_WITH;w_BARB;w_DOWN]);
  (0x2965, [w_DOWNWARDS;w_HARPOON;w_WITH;w_BARB;w_LEFT;w_BESIDE;w_DOWNWARDS;w_HARPOON;w_WITH;w_BARB;w_RIGHT]);
  (0x2966, [w_LEFTWARDS;w_HARPOON;w_WITH;w_BARB;w_UP;w_ABOVE;w_RIGHTWARDS;w_HARPOON;w_WITH;w_BARB;w_UP]);
  (0x2967, [w_LEFTWARDS;w_HARPOON;w_WITH;w_BARB;w_DOWN;w_ABOVE;w_RIGHTWARDS;w_HARPOON;w_WITH;w_BARB;w_DOWN]);
  (0x2968, [w_RIGHTWARDS;w_HARPOON;w_WITH;w_BARB;w_UP;w_ABOVE;w_LEFTWARDS;w_HARPOON;w_WITH;w_BARB;w_UP]);
  (0x2969, [w_RIGHTWARDS;w_HARPOON;w_WITH;w_BARB;w_DOWN;w_ABOVE;w_LEFTWARDS;w_HARPOON;w_WITH;w_BARB;w_DOWN]);
  (0x296a, [w_LEFTWARDS;w_HARPOON;w_WITH;w_BARB;w_UP;w_ABOVE;w_LONG;w_DASH]);
  (0x296b, [w_LEFTWARDS;w_HARPOON;w_WITH;w_BARB;w_DOWN;w_BELOW;w_LONG;w_DASH]);
  (0x296c, [w_RIGHTWARDS;w_HARPOON;w_WITH;w_BARB;w_UP;w_ABOVE;w_LONG;w_DASH]);
  (0x296d, [w_RIGHTWARDS;w_HARPOON;w_WITH;w_BARB;w_DOWN;w_BELOW;w_LONG;w_DASH]);
  (0x296e, [w_UPWARDS;w_HARPOON;w_WITH;w_BARB;w_LEFT;w_BESIDE;w_DOWNWARDS;w_HARPOON;w_WITH;w_BARB;w_RIGHT]);
  (0x296f, [w_DOWNWARDS;w_HARPOON;w_WITH;w_BARB;w_LEFT;w_BESIDE;w_UPWARDS;w_HARPOON;w_WITH;w_BARB;w_RIGHT]);
  (0x2970, [w_RIGHT;w_DOUBLE;w_ARROW;w_WITH;w_ROUNDED;w_HEAD]);
  (0x2971, [w_EQUALS;w_SIGN;w_ABOVE;w_RIGHTWARDS;w_ARROW]);
  (0x2972, [w_TILDE;w_OPERATOR;w_ABOVE;w_RIGHTWARDS;w_ARROW]);
  (0x2973, [w_LEFTWARDS;w_ARROW;w_ABOVE;w_TILDE;w_OPERATOR]);
  (0x2974, [w_RIGHTWARDS;w_ARROW;w_ABOVE;w_TILDE;w_OPERATOR]);
  (0x2975, [w_RIGHTWARDS;w_ARROW;w_ABOVE;w_ALMOST;w_EQUAL;w_TO]);
  (0x2976, [w_LESS_THAN;w_ABOVE;w_LEFTWARDS;w_ARROW]);
  (0x2977, [w_LEFTWARDS;w_ARROW;w_THROUGH;w_LESS_THAN]);
  (0x2978, [w_GREATER_THAN;w_ABOVE;w_RIGHTWARDS;w_ARROW]);
  (0x2979, [w_SUBSET;w_ABOVE;w_RIGHTWARDS;w_ARROW]);
  (0x297a, [w_LEFTWARDS;w_ARROW;w_THROUGH;w_SUBSET]);
  (0x297b, [w_SUPERSET;w_ABOVE;w_LEFTWARDS;w_ARROW]);
  (0x297c, [w_LEFT;w_FISH;w_TAIL]);
  (0x297d, [w_RIGHT;w_FISH;w_TAIL]);
  (0x297e, [w_UP;w_FISH;w_TAIL]);
  (0x297f, [w_DOWN;w_FISH;w_TAIL]);
  (0x2980, [w_TRIPLE;w_VERTICAL;w_BAR;w_DELIMITER]);
  (0x2981, [w_Z;w_NOTATION;w_SPOT]);
  (0x2982, [w_Z;w_NOTATION;w_TYPE;w_COLON]);
  (0x2983, [w_LEFT;w_WHITE;w_CURLY;w_BRACKET]);
  (0x2984, [w_RIGHT;w_WHITE;w_CURLY;w_BRACKET]);
  (0x2985, [w_LEFT;w_WHITE;w_PARENTHESIS]);
  (0x2986, [w_RIGHT;w_WHITE;w_PARENTHESIS]);
  (0x2987, [w_Z;w_NOTATION;w_LEFT;w_IMAGE;w_BRACKET]);
  (0x2988, [w_Z;w_NOTATION;w_RIGHT;w_IMAGE;w_BRACKET]);
  (0x2989, [w_Z;w_NOTATION;w_LEFT;w_BINDING;w_BRACKET]);
  (0x298a, [w_Z;w_NOTATION;w_RIGHT;w_BINDING;w_BRACKET]);
  (0x298b, [w_LEFT;w_SQUARE;w_BRACKET;w_WITH;w_UNDERBAR]);
  (0x298c, [w_RIGHT;w_SQUARE;w_BRACKET;w_WITH;w_UNDERBAR]);
  (0x298d, [w_LEFT;w_SQUARE;w_BRACKET;w_WITH;w_TICK;w_IN;w_TOP;w_CORNER]);
  (0x298e, [w_RIGHT;w_SQUARE;w_BRACKET;w_WITH;w_TICK;w_IN;w_BOTTOM;w_CORNER]);
  (0x298f, [w_LEFT;w_SQUARE;w_BRACKET;w_WITH;w_TICK;w_IN;w_BOTTOM;w_CORNER]);
  (0x2990, [w_RIGHT;w_SQUARE;w_BRACKET;w_WITH;w_TICK;w_IN;w_TOP;w_CORNER]);
  (0x2991, [w_LEFT;w_ANGLE;w_BRACKET;w_WITH;w_DOT]);
  (0x2992, [w_RIGHT;w_ANGLE;w_BRACKET;w_WITH;w_DOT]);
  (0x2993, [w_LEFT;w_ARC;w_LESS_THAN;w_BRACKET]);
  (0x2994, [w_RIGHT;w_ARC;w_GREATER_THAN;w_BRACKET]);
  (0x2995, [w_DOUBLE;w_LEFT;w_ARC;w_GREATER_THAN;w_BRACKET]);
  (0x2996, [w_DOUBLE;w_RIGHT;w_ARC;w_LESS_THAN;w_BRACKET]);
  (0x2997, [w_LEFT;w_BLACK;w_TORTOISE;w_SHELL;w_BRACKET]);
  (0x2998, [w_RIGHT;w_BLACK;w_TORTOISE;w_SHELL;w_BRACKET]);
  (0x2999, [w_DOTTED;w_FENCE]);
  (0x299a, [w_VERTICAL;w_ZIGZAG;w_LINE]);
  (0x299b, [w_MEASURED;w_ANGLE;w_OPENING;w_LEFT]);
  (0x299c, [w_RIGHT;w_ANGLE;w_VARIANT;w_WITH;w_SQUARE]);
  (0x299d, [w_MEASURED;w_RIGHT;w_ANGLE;w_WITH;w_DOT]);
  (0x299e, [w_ANGLE;w_WITH;w_S;w_INSIDE]);
  (0x299f, [w_ACUTE;w_ANGLE]);
  (0x29a0, [w_SPHERICAL;w_ANGLE;w_OPENING;w_LEFT]);
  (0x29a1, [w_SPHERICAL;w_ANGLE;w_OPENING;w_UP]);
  (0x29a2, [w_TURNED;w_ANGLE]);
  (0x29a3, [w_REVERSED;w_ANGLE]);
  (0x29a4, [w_ANGLE;w_WITH;w_UNDERBAR]);
  (0x29a5, [w_REVERSED;w_ANGLE;w_WITH;w_UNDERBAR]);
  (0x29a6, [w_OBLIQUE;w_ANGLE;w_OPENING;w_UP]);
  (0x29a7, [w_OBLIQUE;w_ANGLE;w_OPENING;w_DOWN]);
  (0x29a8, [w_MEASURED;w_ANGLE;w_WITH;w_OPEN;w_ARM;w_ENDING;w_IN;w_ARROW;w_POINTING;w_UP;w_AND;w_RIGHT]);
  (0x29a9, [w_MEASURED;w_ANGLE;w_WITH;w_OPEN;w_ARM;w_ENDING;w_IN;w_ARROW;w_POINTING;w_UP;w_AND;w_LEFT]);
  (0x29aa, [w_MEASURED;w_ANGLE;w_WITH;w_OPEN;w_ARM;w_ENDING;w_IN;w_ARROW;w_POINTING;w_DOWN;w_AND;w_RIGHT]);
  (0x29ab, [w_MEASURED;w_ANGLE;w_WITH;w_OPEN;w_ARM;w_ENDING;w_IN;w_ARROW;w_POINTING;w_DOWN;w_AND;w_LEFT]);
  (0x29ac, [w_MEASURED;w_ANGLE;w_WITH;w_OPEN;w_ARM;w_ENDING;w_IN;w_ARROW;w_POINTING;w_RIGHT;w_AND;w_UP]);
  (0x29ad, [w_MEASURED;w_ANGLE;w_WITH;w_OPEN;w_ARM;w_ENDING;w_IN;w_ARROW;w_POINTING;w_LEFT;w_AND;w_UP]);
  (0x29ae, [w_MEASURED;w_ANGLE;w_WITH;w_OPEN;w_ARM;w_ENDING;w_IN;w_ARROW;w_POINTING;w_RIGHT;w_AND;w_DOWN]);
  (0x29af, [w_MEASURED;w_ANGLE;w_WITH;w_OPEN;w_ARM;w_ENDING;w_IN;w_ARROW;w_POINTING;w_LEFT;w_AND;w_DOWN]);
  (0x29b0, [w_REVERSED;w_EMPTY;w_SET]);
  (0x29b1, [w_EMPTY;w_SET;w_WITH;w_OVERBAR]);
  (0x29b2, [w_EMPTY;w_SET;w_WITH;w_SMALL;w_CIRCLE;w_ABOVE]);
  (0x29b3, [w_EMPTY;w_SET;w_WITH;w_RIGHT;w_ARROW;w_ABOVE]);
  (0x29b4, [w_EMPTY;w_SET;w_WITH;w_LEFT;w_ARROW;w_ABOVE]);
  (0x29b5, [w_CIRCLE;w_WITH;w_HORIZONTAL;w_BAR]);
  (0x29b6, [w_CIRCLED;w_VERTICAL;w_BAR]);
  (0x29b7, [w_CIRCLED;w_PARALLEL]);
  (0x29b8, [w_CIRCLED;w_REVERSE;w_SOLIDUS]);
  (0x29b9, [w_CIRCLED;w_PERPENDICULAR]);
  (0x29ba, [w_CIRCLE;w_DIVIDED;w_BY;w_HORIZONTAL;w_BAR;w_AND;w_TOP;w_HALF;w_DIVIDED;w_BY;w_VERTICAL;w_BAR]);
  (0x29bb, [w_CIRCLE;w_WITH;w_SUPERIMPOSED;w_X]);
  (0x29bc, [w_CIRCLED;w_ANTICLOCKWISE_ROTATED;w_DIVISION;w_SIGN]);
  (0x29bd, [w_UP;w_ARROW;w_THROUGH;w_CIRCLE]);
  (0x29be, [w_CIRCLED;w_WHITE;w_BULLET]);
  (0x29bf, [w_CIRCLED;w_BULLET]);
  (0x29c0, [w_CIRCLED;w_LESS_THAN]);
  (0x29c1, [w_CIRCLED;w_GREATER_THAN]);
  (0x29c2, [w_CIRCLE;w_WITH;w_SMALL;w_CIRCLE;w_TO;w_THE;w_RIGHT]);
  (0x29c3, [w_CIRCLE;w_WITH;w_TWO;w_HORIZONTAL;w_STROKES;w_TO;w_THE;w_RIGHT]);
  (0x29c4, [w_SQUARED;w_RISING;w_DIAGONAL;w_SLASH]);
  (0x29c5, [w_SQUARED;w_FALLING;w_DIAGONAL;w_SLASH]);
  (0x29c6, [w_SQUARED;w_ASTERISK]);
  (0x29c7, [w_SQUARED;w_SMALL;w_CIRCLE]);
  (0x29c8, [w_SQUARED;w_SQUARE]);
  (0x29c9, [w_TWO;w_JOINED;w_SQUARES]);
  (0x29ca, [w_TRIANGLE;w_WITH;w_DOT;w_ABOVE]);
  (0x29cb, [w_TRIANGLE;w_WITH;w_UNDERBAR]);
  (0x29cc, [w_S;w_IN;w_TRIANGLE]);
  (0x29cd, [w_TRIANGLE;w_WITH;w_SERIFS;w_AT;w_BOTTOM]);
  (0x29ce, [w_RIGHT;w_TRIANGLE;w_ABOVE;w_LEFT;w_TRIANGLE]);
  (0x29cf, [w_LEFT;w_TRIANGLE;w_BESIDE;w_VERTICAL;w_BAR]);
  (0x29d0, [w_VERTICAL;w_BAR;w_BESIDE;w_RIGHT;w_TRIANGLE]);
  (0x29d1, [w_BOWTIE;w_WITH;w_LEFT;w_HALF;w_BLACK]);
  (0x29d2, [w_BOWTIE;w_WITH;w_RIGHT;w_HALF;w_BLACK]);
  (0x29d3, [w_BLACK;w_BOWTIE]);
  (0x29d4, [w_TIMES;w_WITH;w_LEFT;w_HALF;w_BLACK]);
  (0x29d5, [w_TIMES;w_WITH;w_RIGHT;w_HALF;w_BLACK]);
  (0x29d6, [w_WHITE;w_HOURGLASS]);
  (0x29d7, [w_BLACK;w_HOURGLASS]);
  (0x29d8, [w_LEFT;w_WIGGLY;w_FENCE]);
  (0x29d9, [w_RIGHT;w_WIGGLY;w_FENCE]);
  (0x29da, [w_LEFT;w_DOUBLE;w_WIGGLY;w_FENCE]);
  (0x29db, [w_RIGHT;w_DOUBLE;w_WIGGLY;w_FENCE]);
  (0x29dc, [w_INCOMPLETE;w_INFINITY]);
  (0x29dd, [w_TIE;w_OVER;w_INFINITY]);
  (0x29de, [w_INFINITY;w_NEGATED;w_WITH;w_VERTICAL;w_BAR]);
  (0x29df, [w_DOUBLE_ENDED;w_MULTIMAP]);
  (0x29e0, [w_SQUARE;w_WITH;w_CONTOURED;w_OUTLINE]);
  (0x29e1, [w_INCREASES;w_AS]);
  (0x29e2, [w_SHUFFLE;w_PRODUCT]);
  (0x29e3, [w_EQUALS;w_SIGN;w_AND;w_SLANTED;w_PARALLEL]);
  (0x29e4, [w_EQUALS;w_SIGN;w_AND;w_SLANTED;w_PARALLEL;w_WITH;w_TILDE;w_ABOVE]);
  (0x29e5, [w_IDENTICAL;w_TO;w_AND;w_SLANTED;w_PARALLEL]);
  (0x29e6, [w_GLEICH;w_STARK]);
  (0x29e7, [w_THERMODYNAMIC]);
  (0x29e8, [w_DOWN_POINTING;w_TRIANGLE;w_WITH;w_LEFT;w_HALF;w_BLACK]);
  (0x29e9, [w_DOWN_POINTING;w_TRIANGLE;w_WITH;w_RIGHT;w_HALF;w_BLACK]);
  (0x29ea, [w_BLACK;w_DIAMOND;w_WITH;w_DOWN;w_ARROW]);
  (0x29eb, [w_BLACK;w_LOZENGE]);
  (0x29ec, [w_WHITE;w_CIRCLE;w_WITH;w_DOWN;w_ARROW]);
  (0x29ed, [w_BLACK;w_CIRCLE;w_WITH;w_DOWN;w_ARROW]);
  (0x29ee, [w_ERROR_BARRED;w_WHITE;w_SQUARE]);
  (0x29ef, [w_ERROR_BARRED;w_BLACK;w_SQUARE]);
  (0x29f0, [w_ERROR_BARRED;w_WHITE;w_DIAMOND]);
  (0x29f1, [w_ERROR_BARRED;w_BLACK;w_DIAMOND]);
  (0x29f2, [w_ERROR_BARRED;w_WHITE;w_CIRCLE]);
  (0x29f3, [w_ERROR_BARRED;w_BLACK;w_CIRCLE]);
  (0x29f4, [w_RULE_DELAYED]);
  (0x29f5, [w_REVERSE;w_SOLIDUS;w_OPERATOR]);
  (0x29f6, [w_SOLIDUS;w_WITH;w_OVERBAR]);
  (0x29f7, [w_REVERSE;w_SOLIDUS;w_WITH;w_HORIZONTAL;w_STROKE]);
  (0x29f8, [w_BIG;w_SOLIDUS]);
  (0x29f9, [w_BIG;w_REVERSE;w_SOLIDUS]);
  (0x29fa, [w_DOUBLE;w_PLUS]);
  (0x29fb, [w_TRIPLE;w_PLUS]);
  (0x29fc, [w_LEFT_POINTING;w_CURVED;w_ANGLE;w_BRACKET]);
  (0x29fd, [w_RIGHT_POINTING;w_CURVED;w_ANGLE;w_BRACKET]);
  (0x29fe, [w_TINY]);
  (0x29ff, [w_MINY]);
  (0x2a00, [w_N_ARY;w_CIRCLED;w_DOT;w_OPERATOR]);
  (0x2a01, [w_N_ARY;w_CIRCLED;w_PLUS;w_OPERATOR]);
  (0x2a02, [w_N_ARY;w_CIRCLED;w_TIMES;w_OPERATOR]);
  (0x2a03, [w_N_ARY;w_UNION;w_OPERATOR;w_WITH;w_DOT]);
  (0x2a04, [w_N_ARY;w_UNION;w_OPERATOR;w_WITH;w_PLUS]);
  (0x2a05, [w_N_ARY;w_SQUARE;w_INTERSECTION;w_OPERATOR]);
  (0x2a06, [w_N_ARY;w_SQUARE;w_UNION;w_OPERATOR]);
  (0x2a07, [w_TWO;w_LOGICAL;w_AND;w_OPERATOR]);
  (0x2a08, [w_TWO;w_LOGICAL;w_OR;w_OPERATOR])].

Definition NAMES_24 : list (N * (list str)) := [
  (0x2a09, [w_N_ARY;w_TIMES;w_OPERATOR]);
  (0x2a0a, [w_MODULO;w_TWO;w_SUM]);
  (0x2a0b, [w_SUMMATION;w_WITH;w_INTEGRAL]);
  (0x2a0c, [w_QUADRUPLE;w_INTEGRAL;w_OPERATOR]);
  (0x2a0d, [w_FINITE;w_PART;w_INTEGRAL]);
  (0x2a0e, [w_INTEGRAL;w_WITH;w_DOUBLE;w_STROKE]);
  (0x2a0f, [w_INTEGRAL;w_AVERAGE;w_WITH;w_SLASH]);
  (0x2a10, [w_CIRCULATION;w_FUNCTION]);
  (0x2a11, [w_ANTICLOCKWISE;w_INTEGRATION]);
  (0x2a12, [w_LINE;w_INTEGRATION;w_WITH;w_RECTANGULAR;w_PATH;w_AROUND;w_POLE]);
  (0x2a13, [w_LINE;w_INTEGRATION;w_WITH;w_SEMICIRCULAR;w_PATH;w_AROUND;w_POLE]);
  (0x2a14, [w_LINE;w_INTEGRATION;w_NOT;w_INCLUDING;w_THE;w_POLE]);
  (0x2a15, [w_INTEGRAL;w_AROUND;w_A;w_POINT;w_OPERATOR]);
  (0x2a16, [w_QUATERNION;w_INTEGRAL;w_OPERATOR]);
  (0x2a17, [w_INTEGRAL;w_WITH;w_LEFTWARDS;w_ARROW;w_WITH;w_HOOK]);
  (0x2a18, [w_INTEGRAL;w_WITH;w_TIMES;w_SIGN]);
  (0x2a19, [w_INTEGRAL;w_WITH;w_INTERSECTION]);
  (0x2a1a, [w_INTEGRAL;w_WITH;w_UNION]);
  (0x2a1b, [w_INTEGRAL;w_WITH;w_OVERBAR]);
  (0x2a1c, [w_INTEGRAL;w_WITH;w_UNDERBAR]);
  (0x2a1d, [w_JOIN]);
  (0x2a1e, [w_LARGE;w_LEFT;w_TRIANGLE;w_OPERATOR]);
  (0x2a1f, [w_Z;w_NOTATION;w_SCHEMA;w_COMPOSITION]);
  (0x2a20, [w_Z;w_NOTATION;w_SCHEMA;w_PIPING]);
  (0x2a21, [w_Z;w_NOTATION;w_SCHEMA;w_PROJECTION]);
  (0x2a22, [w_PLUS;w_SIGN;w_WITH;w_SMALL;w_CIRCLE;w_ABOVE]);
  (0x2a23, [w_PLUS;w_SIGN;w_WITH;w_CIRCUMFLEX;w_ACCENT;w_ABOVE]);
  (0x2a24, [w_PLUS;w_SIGN;w_WITH;w_TILDE;w_ABOVE]);
  (0x2a25, [w_PLUS;w_SIGN;w_WITH;w_DOT;w_BELOW]);
  (0x2a26, [w_PLUS;w_SIGN;w_WITH;w_TILDE;w_BELOW]);
  (0x2a27, [w_PLUS;w_SIGN;w_WITH;w_SUBSCRIPT;w_TWO]);
  (0x2a28, [w_PLUS;w_SIGN;w_WITH;w_BLACK;w_TRIANGLE]);
  (0x2a29, [w_MINUS;w_SIGN;w_WITH;w_COMMA;w_ABOVE]);
  (0x2a2a, [w_MINUS;w_SIGN;w_WITH;w_DOT;w_BELOW]);
  (0x2a2b, [w_MINUS;w_SIGN;w_WITH;w_FALLING;w_DOTS]);
  (0x2a2c, [w_MINUS;w_SIGN;w_WITH;w_RISING;w_DOTS]);
  (0x2a2d, [w_PLUS;w_SIGN;w_IN;w_LEFT;w_HALF;w_CIRCLE]);
  (0x2a2e, [w_PLUS;w_SIGN;w_IN;w_RIGHT;w_HALF;w_CIRCLE]);
  (0x2a2f, [w_VECTOR;w_OR;w_CROSS;w_PRODUCT]);
  (0x2a30, [w_MULTIPLICATION;w_SIGN;w_WITH;w_DOT;w_ABOVE]);
  (0x2a31, [w_MULTIPLICATION;w_SIGN;w_WITH;w_UNDERBAR]);
  (0x2a32, [w_SEMIDIRECT;w_PRODUCT;w_WITH;w_BOTTOM;w_CLOSED]);
  (0x2a33, [w_SMASH;w_PRODUCT]);
  (0x2a34, [w_MULTIPLICATION;w_SIGN;w_IN;w_LEFT;w_HALF;w_CIRCLE]);
  (0x2a35, [w_MULTIPLICATION;w_SIGN;w_IN;w_RIGHT;w_HALF;w_CIRCLE]);
  (0x2a36, [w_CIRCLED;w_MULTIPLICATION;w_SIGN;w_WITH;w_CIRCUMFLEX;w_ACCENT]);
  (0x2a37, [w_MULTIPLICATION;w_SIGN;w_IN;w_DOUBLE;w_CIRCLE]);
  (0x2a38, [w_CIRCLED;w_DIVISION;w_SIGN]);
  (0x2a39, [w_PLUS;w_SIGN;w_IN;w_TRIANGLE]);
  (0x2a3a, [w_MINUS;w_SIGN;w_IN;w_TRIANGLE]);
  (0x2a3b, [w_MULTIPLICATION;w_SIGN;w_IN;w_TRIANGLE]);
  (0x2a3c, [w_INTERIOR;w_PRODUCT]);
  (0x2a3d, [w_RIGHTHAND;w_INTERIOR;w_PRODUCT]);
  (0x2a3e, [w_Z;w_NOTATION;w_RELATIONAL;w_COMPOSITION]);
  (0x2a3f, [w_AMALGAMATION;w_OR;w_COPRODUCT]);
  (0x2a40, [w_INTERSECTION;w_WITH;w_DOT]);
  (0x2a41, [w_UNION;w_WITH;w_MINUS;w_SIGN]);
  (0x2a42, [w_UNION;w_WITH;w_OVERBAR]);
  (0x2a43, [w_INTERSECTION;w_WITH;w_OVERBAR]);
  (0x2a44, [w_INTERSECTION;w_WITH;w_LOGICAL;w_AND]);
  (0x2a45, [w_UNION;w_WITH;w_LOGICAL;w_OR]);
  (0x2a46, [w_UNION;w_ABOVE;w_INTERSECTION]);
  (0x2a47, [w_INTERSECTION;w_ABOVE;w_UNION]);
  (0x2a48, [w_UNION;w_ABOVE;w_BAR;w_ABOVE;w_INTERSECTION]);
  (0x2a49, [w_INTERSECTION;w_ABOVE;w_BAR;w_ABOVE;w_UNION]);
  (0x2a4a, [w_UNION;w_BESIDE;w_AND;w_JOINED;w_WITH;w_UNION]);
  (0x2a4b, [w_INTERSECTION;w_BESIDE;w_AND;w_JOINED;w_WITH;w_INTERSECTION]);
  (0x2a4c, [w_CLOSED;w_UNION;w_WITH;w_SERIFS]);
  (0x2a4d, [w_CLOSED;w_INTERSECTION;w_WITH;w_SERIFS]);
  (0x2a4e, [w_DOUBLE;w_SQUARE;w_INTERSECTION]);
  (0x2a4f, [w_DOUBLE;w_SQUARE;w_UNION]);
  (0x2a50, [w_CLOSED;w_UNION;w_WITH;w_SERIFS;w_AND;w_SMASH;w_PRODUCT]);
  (0x2a51, [w_LOGICAL;w_AND;w_WITH;w_DOT;w_ABOVE]);
  (0x2a52, [w_LOGICAL;w_OR;w_WITH;w_DOT;w_ABOVE]);
  (0x2a53, [w_DOUBLE;w_LOGICAL;w_AND]);
  (0x2a54, [w_DOUBLE;w_LOGICAL;w_OR]);
  (0x2a55, [w_TWO;w_INTERSECTING;w_LOGICAL;w_AND]);
  (0x2a56, [w_TWO;w_INTERSECTING;w_LOGICAL;w_OR]);
  (0x2a57, [w_SLOPING;w_LARGE;w_OR]);
  (0x2a58, [w_SLOPING;w_LARGE;w_AND]);
  (0x2a59, [w_LOGICAL;w_OR;w_OVERLAPPING;w_LOGICAL;w_AND]);
  (0x2a5a, [w_LOGICAL;w_AND;w_WITH;w_MIDDLE;w_STEM]);
  (0x2a5b, [w_LOGICAL;w_OR;w_WITH;w_MIDDLE;w_STEM]);
  (0x2a5c, [w_LOGICAL;w_AND;w_WITH;w_HORIZONTAL;w_DASH]);
  (0x2a5d, [w_LOGICAL;w_OR;w_WITH;w_HORIZONTAL;w_DASH]);
  (0x2a5e, [w_LOGICAL;w_AND;w_WITH;w_DOUBLE;w_OVERBAR]);
  (0x2a5f, [w_LOGICAL;w_AND;w_WITH;w_UNDERBAR]);
  (0x2a60, [w_LOGICAL;w_AND;w_WITH;w_DOUBLE;w_UNDERBAR]);
  (0x2a61, [w_SMALL;w_VEE;w_WITH;w_UNDERBAR]);
  (0x2a62, [w_LOGICAL;w_OR;w_WITH;w_DOUBLE;w_OVERBAR]);
  (0x2a63, [w_LOGICAL;w_OR;w_WITH;w_DOUBLE;w_UNDERBAR]);
  (0x2a64, [w_Z;w_NOTATION;w_DOMAIN;w_ANTIRESTRICTION]);
  (0x2a65, [w_Z;w_NOTATION;w_RANGE;w_ANTIRESTRICTION]);
  (0x2a66, [w_EQUALS;w_SIGN;w_WITH;w_DOT;w_BELOW]);
  (0x2a67, [w_IDENTICAL;w_WITH;w_DOT;w_ABOVE]);
  (0x2a68, [w_TRIPLE;w_HORIZONTAL;w_BAR;w_WITH;w_DOUBLE;w_VERTICAL;w_STROKE]);
  (0x2a69, [w_TRIPLE;w_HORIZONTAL;w_BAR;w_WITH;w_TRIPLE;w_VERTICAL;w_STROKE]);
  (0x2a6a, [w_TILDE;w_OPERATOR;w_WITH;w_DOT;w_ABOVE]);
  (0x2a6b, [w_TILDE;w_OPERATOR;w_WITH;w_RISING;w_DOTS]);
  (0x2a6c, [w_SIMILAR;w_MINUS;w_SIMILAR]);
  (0x2a6d, [w_CONGRUENT;w_WITH;w_DOT;w_ABOVE]);
  (0x2a6e, [w_EQUALS;w_WITH;w_ASTERISK]);
  (0x2a6f, [w_ALMOST;w_EQUAL;w_TO;w_WITH;w_CIRCUMFLEX;w_ACCENT]);
  (0x2a70, [w_APPROXIMATELY;w_EQUAL;w_OR;w_EQUAL;w_TO]);
  (0x2a71, [w_EQUALS;w_SIGN;w_ABOVE;w_PLUS;w_SIGN]);
  (0x2a72, [w_PLUS;w_SIGN;w_ABOVE;w_EQUALS;w_SIGN]);
  (0x2a73, [w_EQUALS;w_SIGN;w_ABOVE;w_TILDE;w_OPERATOR]);
  (0x2a74, [w_DOUBLE;w_COLON;w_EQUAL]);
  (0x2a75, [w_TWO;w_CONSECUTIVE;w_EQUALS;w_SIGNS]);
  (0x2a76, [w_THREE;w_CONSECUTIVE;w_EQUALS;w_SIGNS]);
  (0x2a77, [w_EQUALS;w_SIGN;w_WITH;w_TWO;w_DOTS;w_ABOVE;w_AND;w_TWO;w_DOTS;w_BELOW]);
  (0x2a78, [w_EQUIVALENT;w_WITH;w_FOUR;w_DOTS;w_ABOVE]);
  (0x2a79, [w_LESS_THAN;w_WITH;w_CIRCLE;w_INSIDE]);
  (0x2a7a, [w_GREATER_THAN;w_WITH;w_CIRCLE;w_INSIDE]);
  (0x2a7b, [w_LESS_THAN;w_WITH;w_QUESTION;w_MARK;w_ABOVE]);
  (0x2a7c, [w_GREATER_THAN;w_WITH;w_QUESTION;w_MARK;w_ABOVE]);
  (0x2a7d, [w_LESS_THAN;w_OR;w_SLANTED;w_EQUAL;w_TO]);
  (0x2a7e, [w_GREATER_THAN;w_OR;w_SLANTED;w_EQUAL;w_TO]);
  (0x2a7f, [w_LESS_THAN;w_OR;w_SLANTED;w_EQUAL;w_TO;w_WITH;w_DOT;w_INSIDE]);
  (0x2a80, [w_GREATER_THAN;w_OR;w_SLANTED;w_EQUAL;w_TO;w_WITH;w_DOT;w_INSIDE]);
  (0x2a81, [w_LESS_THAN;w_OR;w_SLANTED;w_EQUAL;w_TO;w_WITH;w_DOT;w_ABOVE]);
  (0x2a82, [w_GREATER_THAN;w_OR;w_SLANTED;w_EQUAL;w_TO;w_WITH;w_DOT;w_ABOVE]);
  (0x2a83, [w_LESS_THAN;w_OR;w_SLANTED;w_EQUAL;w_TO;w_WITH;w_DOT;w_ABOVE;w_RIGHT]);
  (0x2a84, [w_GREATER_THAN;w_OR;w_SLANTED;w_EQUAL;w_TO;w_WITH;w_DOT;w_ABOVE;w_LEFT]);
  (0x2a85, [w_LESS_THAN;w_OR;w_APPROXIMATE]);
  (0x2a86, [w_GREATER_THAN;w_OR;w_APPROXIMATE]);
  (0x2a87, [w_LESS_THAN;w_AND;w_SINGLE_LINE;w_NOT;w_EQUAL;w_TO]);
  (0x2a88, [w_GREATER_THAN;w_AND;w_SINGLE_LINE;w_NOT;w_EQUAL;w_TO]);
  (0x2a89, [w_LESS_THAN;w_AND;w_NOT;w_APPROXIMATE]);
  (0x2a8a, [w_GREATER_THAN;w_AND;w_NOT;w_APPROXIMATE]);
  (0x2a8b, [w_LESS_THAN;w_ABOVE;w_DOUBLE_LINE;w_EQUAL;w_ABOVE;w_GREATER_THAN]);
  (0x2a8c, [w_GREATER_THAN;w_ABOVE;w_DOUBLE_LINE;w_EQUAL;w_ABOVE;w_LESS_THAN]);
  (0x2a8d, [w_LESS_THAN;w_ABOVE;w_SIMILAR;w_OR;w_EQUAL]);
  (0x2a8e, [w_GREATER_THAN;w_ABOVE;w_SIMILAR;w_OR;w_EQUAL]);
  (0x2a8f, [w_LESS_THAN;w_ABOVE;w_SIMILAR;w_ABOVE;w_GREATER_THAN]);
  (0x2a90, [w_GREATER_THAN;w_ABOVE;w_SIMILAR;w_ABOVE;w_LESS_THAN]);
  (0x2a91, [w_LESS_THAN;w_ABOVE;w_GREATER_THAN;w_ABOVE;w_DOUBLE_LINE;w_EQUAL]);
  (0x2a92, [w_GREATER_THAN;w_ABOVE;w_LESS_THAN;w_ABOVE;w_DOUBLE_LINE;w_EQUAL]);
  (0x2a93, [w_LESS_THAN;w_ABOVE;w_SLANTED;w_EQUAL;w_ABOVE;w_GREATER_THAN;w_ABOVE;w_SLANTED;w_EQUAL]);
  (0x2a94, [w_GREATER_THAN;w_ABOVE;w_SLANTED;w_EQUAL;w_ABOVE;w_LESS_THAN;w_ABOVE;w_SLANTED;w_EQUAL]);
  (0x2a95, [w_SLANTED;w_EQUAL;w_TO;w_OR;w_LESS_THAN]);
  (0x2a96, [w_SLANTED;w_EQUAL;w_TO;w_OR;w_GREATER_THAN]);
  (0x2a97, [w_SLANTED;w_EQUAL;w_TO;w_OR;w_LESS_THAN;w_WITH;w_DOT;w_INSIDE]);
  (0x2a98, [w_SLANTED;w_EQUAL;w_TO;w_OR;w_GREATER_THAN;w_WITH;w_DOT;w_INSIDE]);
  (0x2a99, [w_DOUBLE_LINE;w_EQUAL;w_TO;w_OR;w_LESS_THAN]);
  (0x2a9a, [w_DOUBLE_LINE;w_EQUAL;w_TO;w_OR;w_GREATER_THAN]);
  (0x2a9b, [w_DOUBLE_LINE;w_SLANTED;w_EQUAL;w_TO;w_OR;w_LESS_THAN]);
  (0x2a9c, [w_DOUBLE_LINE;w_SLANTED;w_EQUAL;w_TO;w_OR;w_GREATER_THAN]);
  (0x2a9d, [w_SIMILAR;w_OR;w_LESS_THAN]);
  (0x2a9e, [w_SIMILAR;w_OR;w_GREATER_THAN]);
  (0x2a9f, [w_SIMILAR;w_ABOVE;w_LESS_THAN;w_ABOVE;w_EQUALS;w_SIGN]);
  (0x2aa0, [w_SIMILAR;w_ABOVE;w_GREATER_THAN;w_ABOVE;w_EQUALS;w_SIGN]);
  (0x2aa1, [w_DOUBLE;w_NESTED;w_LESS_THAN]);
  (0x2aa2, [w_DOUBLE;w_NESTED;w_GREATER_THAN]);
  (0x2aa3, [w_DOUBLE;w_NESTED;w_LESS_THAN;w_WITH;w_UNDERBAR]);
  (0x2aa4, [w_GREATER_THAN;w_OVERLAPPING;w_LESS_THAN]);
  (0x2aa5, [w_GREATER_THAN;w_BESIDE;w_LESS_THAN]);
  (0x2aa6, [w_LESS_THAN;w_CLOSED;w_BY;w_CURVE]);
  (0x2aa7, [w_GREATER_THAN;w_CLOSED;w_BY;w_CURVE]);
  (0x2aa8, [w_LESS_THAN;w_CLOSED;w_BY;w_CURVE;w_ABOVE;w_SLANTED;w_EQUAL]);
  (0x2aa9, [w_GREATER_THAN;w_CLOSED;w_BY;w_CURVE;w_ABOVE;w_SLANTED;w_EQUAL]);
  (0x2aaa, [w_SMALLER;w_THAN]);
  (0x2aab, [w_LARGER;w_THAN]);
  (0x2aac, [w_SMALLER;w_THAN;w_OR;w_EQUAL;w_TO]);
  (0x2aad, [w_LARGER;w_THAN;w_OR;w_EQUAL;w_TO]);
  (0x2aae, [w_EQUALS;w_SIGN;w_WITH;w_BUMPY;w_ABOVE]);
  (0x2aaf, [w_PRECEDES;w_ABOVE;w_SINGLE_LINE;w_EQUALS;w_SIGN]);
  (0x2ab0, [w_SUCCEEDS;w_ABOVE;w_SINGLE_LINE;w_EQUALS;w_SIGN]);
  (0x2ab1, [w_PRECEDES;w_ABOVE;w_SINGLE_LINE;w_NOT;w_EQUAL;w_TO]);
  (0x2ab2, [w_SUCCEEDS;w_ABOVE;w_SINGLE_LINE;w_NOT;w_EQUAL;w_TO]);
  (0x2ab3, [w_PRECEDES;w_ABOVE;w_EQUALS;w_SIGN]);
  (0x2ab4, [w_SUCCEEDS;w_ABOVE;w_EQUALS;w_SIGN]);
  (0x2ab5, [w_PRECEDES;w_ABOVE;w_NOT;w_EQUAL;w_TO]);
  (0x2ab6, [w_SUCCEEDS;w_ABOVE;w_NOT;w_EQUAL;w_TO]);
  (0x2ab7, [w_PRECEDES;w_ABOVE;w_ALMOST;w_EQUAL;w_TO]);
  (0x2ab8, [w_SUCCEEDS;w_ABOVE;w_ALMOST;w_EQUAL;w_TO]);
  (0x2ab9, [w_PRECEDES;w_ABOVE;w_NOT;w_ALMOST;w_EQUAL;w_TO]);
  (0x2aba, [w_SUCCEEDS;w_ABOVE;w_NOT;w_ALMOST;w_EQUAL;w_TO]);
  (0x2abb, [w_DOUBLE;w_PRECEDES]);
  (0x2abc, [w_DOUBLE;w_SUCCEEDS]);
  (0x2abd, [w_SUBSET;w_WITH;w_DOT]);
  (0x2abe, [w_SUPERSET;w_WITH;w_DOT]);
  (0x2abf, [w_SUBSET;w_WITH;w_PLUS;w_SIGN;w_BELOW]);
  (0x2ac0, [w_SUPERSET;w_WITH;w_PLUS;w_SIGN;w_BELOW]);
  (0x2ac1, [w_SUBSET;w_WITH;w_MULTIPLICATION;w_SIGN;w_BELOW]);
  (0x2ac2, [w_SUPERSET;w_WITH;w_MULTIPLICATION;w_SIGN;w_BELOW]);
  (0x2ac3, [w_SUBSET;w_OF;w_OR;w_EQUAL;w_TO;w_WITH;w_DOT;w_ABOVE]);
  (0x2ac4, [w_SUPERSET;w_OF;w_OR;w_EQUAL;w_TO;w_WITH;w_DOT;w_ABOVE]);
  (0x2ac5, [w_SUBSET;w_OF;w_ABOVE;w_EQUALS;w_SIGN]);
  (0x2ac6, [w_SUPERSET;w_OF;w_ABOVE;w_EQUALS;w_SIGN]);
  (0x2ac7, [w_SUBSET;w_OF;w_ABOVE;w_TILDE;w_OPERATOR]);
  (0x2ac8, [w_SUPERSET;w_OF;w_ABOVE;w_TILDE;w_OPERATOR]);
  (0x2ac9, [w_SUBSET;w_OF;w_ABOVE;w_ALMOST;w_EQUAL;w_TO]);
  (0x2aca, [w_SUPERSET;w_OF;w_ABOVE;w_ALMOST;w_EQUAL;w_TO]);
  (0x2acb, [w_SUBSET;w_OF;w_ABOVE;w_NOT;w_EQUAL;w_TO]);
  (0x2acc, [w_SUPERSET;w_OF;w_ABOVE;w_NOT;w_EQUAL;w_TO]);
  (0x2acd, [w_SQUARE;w_LEFT;w_OPEN;w_BOX;w_OPERATOR]);
  (0x2ace, [w_SQUARE;w_RIGHT;w_OPEN;w_BOX;w_OPERATOR]);
  (0x2acf, [w_CLOSED;w_SUBSET]);
  (0x2ad0, [w_CLOSED;w_SUPERSET]);
  (0x2ad1, [w_CLOSED;w_SUBSET;w_OR;w_EQUAL;w_TO]);
  (0x2ad2, [w_CLOSED;w_SUPERSET;w_OR;w_EQUAL;w_TO]);
  (0x2ad3, [w_SUBSET;w_ABOVE;w_SUPERSET]);
  (0x2ad4, [w_SUPERSET;w_ABOVE;w_SUBSET]);
  (0x2ad5, [w_SUBSET;w_ABOVE;w_SUBSET]);
  (0x2ad6, [w_SUPERSET;w_ABOVE;w_SUPERSET]);
  (0x2ad7, [w_SUPERSET;w_BESIDE;w_SUBSET]);
  (0x2ad8, [w_SUPERSET;w_BESIDE;w_AND;w_JOINED;w_BY;w_DASH;w_WITH;w_SUBSET]);
  (0x2ad9, [w_ELEMENT;w_OF;w_OPENING;w_DOWNWARDS]);
  (0x2ada, [w_PITCHFORK;w_WITH;w_TEE;w_TOP]);
  (0x2adb, [w_TRANSVERSAL;w_INTERSECTION]);
  (0x2adc, [w_FORKING]);
  (0x2add, [w_NONFORKING]);
  (0x2ade, [w_SHORT;w_LEFT;w_TACK]);
  (0x2adf, [w_SHORT;w_DOWN;w_TACK]);
  (0x2ae0, [w_SHORT;w_UP;w_TACK]);
  (0x2ae1, [w_PERPENDICULAR;w_WITH;w_S]);
  (0x2ae2, [w_VERTICAL;w_BAR;w_TRIPLE;w_RIGHT;w_TURNSTILE]);
  (0x2ae3, [w_DOUBLE;w_VERTICAL;w_BAR;w_LEFT;w_TURNSTILE]);
  (0x2ae4, [w_VERTICAL;w_BAR;w_DOUBLE;w_LEFT;w_TURNSTILE]);
  (0x2ae5, [w_DOUBLE;w_VERTICAL;w_BAR;w_DOUBLE;w_LEFT;w_TURNSTILE]);
  (0x2ae6, [w_LONG;w_DASH;w_FROM;w_LEFT;w_MEMBER;w_OF;w_DOUBLE;w_VERTICAL]);
  (0x2ae7, [w_SHORT;w_DOWN;w_TACK;w_WITH;w_OVERBAR]);
  (0x2ae8, [w_SHORT;w_UP;w_TACK;w_WITH;w_UNDERBAR]);
  (0x2ae9, [w_SHORT;w_UP;w_TACK;w_ABOVE;w_SHORT;w_DOWN;w_TACK]);
  (0x2aea, [w_DOUBLE;w_DOWN;w_TACK]);
  (0x2aeb, [w_DOUBLE;w_UP;w_TACK]);
  (0x2aec, [w_DOUBLE;w_STROKE;w_NOT;w_SIGN]);
  (0x2aed, [w_REVERSED;w_DOUBLE;w_STROKE;w_NOT;w_SIGN]);
  (0x2aee, [w_DOES;w_NOT;w_DIVIDE;w_WITH;w_REVERSED;w_NEGATION;w_SLASH]);
  (0x2aef, [w_VERTICAL;w_LINE;w_WITH;w_CIRCLE;w_ABOVE]);
  (0x2af0, [w_VERTICAL;w_LINE;w_WITH;w_CIRCLE;w_BELOW]);
  (0x2af1, [w_DOWN;w_TACK;w_WITH;w_CIRCLE;w_BELOW]);
  (0x2af2, [w_PARALLEL;w_WITH;w_HORIZONTAL;w_STROKE]);
  (0x2af3, [w_PARALLEL;w_WITH;w_TILDE;w_OPERATOR]);
  (0x2af4, [w_TRIPLE;w_VERTICAL;w_BAR;w_BINARY;w_RELATION]);
  (0x2af5, [w_TRIPLE;w_VERTICAL;w_BAR;w_WITH;w_HORIZONTAL;w_STROKE]);
  (0x2af6, [w_TRIPLE;w_COLON;w_OPERATOR]);
  (0x2af7, [w_TRIPLE;w_NESTED;w_LESS_THAN]);
  (0x2af8, [w_TRIPLE;w_NESTED;w_GREATER_THAN]);
  (0x2af9, [w_DOUBLE_LINE;w_SLANTED;w_LESS_THAN;w_OR;w_EQUAL;w_TO]);
  (0x2afa, [w_DOUBLE_LINE;w_SLANTED;w_GREATER_THAN;w_OR;w_EQUAL;w_TO]);
  (0x2afb, [w_TRIPLE;w_SOLIDUS;w_BINARY;w_RELATION]);
  (0x2afc, [w_LARGE;w_TRIPLE;w_VERTICAL;w_BAR;w_OPERATOR]);
  (0x2afd, [w_DOUBLE;w_SOLIDUS;w_OPERATOR]);
  (0x2afe, [w_WHITE;w_VERTICAL;w_BAR]);
  (0x2aff, [w_N_ARY;w_WHITE;w_VERTICAL;w_BAR]);
  (0x2b00, [w_NORTH;w_EAST;w_WHITE;w_ARROW]);
  (0x2b01, [w_NORTH;w_WEST;w_WHITE;w_ARROW]);
  (0x2b02, [w_SOUTH;w_EAST;w_WHITE;w_ARROW]);
  (0x2b03, [w_SOUTH;w_WEST;w_WHITE;w_ARROW]);
  (0x2b04, [w_LEFT;w_RIGHT;w_WHITE;w_ARROW]);
  (0x2b05, [w_LEFTWARDS;w_BLACK;w_ARROW]);
  (0x2b06, [w_UPWARDS;w_BLACK;w_ARROW]);
  (0x2b07, [w_DOWNWARDS;w_BLACK;w_ARROW]);
  (0x2b08, [w_NORTH;w_EAST;w_BLACK;w_ARROW]);
  (0x2b09, [w_NORTH;w_WEST;w_BLACK;w_ARROW]);
  (0x2b0a, [w_SOUTH;w_EAST;w_BLACK;w_ARROW]);
  (0x2b0b, [w_SOUTH;w_WEST;w_BLACK;w_ARROW]);
  (0x2b0c, [w_LEFT;w_RIGHT;w_BLACK;w_ARROW]);
  (0x2b0d, [w_UP;w_DOWN;w_BLACK;w_ARROW]);
  (0x2b0e, [w_RIGHTWARDS;w_ARROW;w_WITH;w_TIP;w_DOWNWARDS]);
  (0x2b0f, [w_RIGHTWARDS;w_ARROW;w_WITH;w_TIP;w_UPWARDS]);
  (0x2b10, [w_LEFTWARDS;w_ARROW;w_WITH;w_TIP;w_DOWNWARDS]);
  (0x2b11, [w_LEFTWARDS;w_ARROW;w_WITH;w_TIP;w_UPWARDS]);
  (0x2b12, [w_SQUARE;w_WITH;w_TOP;w_HALF;w_BLACK]);
  (0x2b13, [w_SQUARE;w_WITH;w_BOTTOM;w_HALF;w_BLACK]);
  (0x2b14, [w_SQUARE;w_WITH;w_UPPER;w_RIGHT;w_DIAGONAL;w_HALF;w_BLACK]);
  (0x2b15, [w_SQUARE;w_WITH;w_LOWER;w_LEFT;w_DIAGONAL;w_HALF;w_BLACK]);
  (0x2b16, [w_DIAMOND;w_WITH;w_LEFT;w_HALF;w_BLACK]);
  (0x2b17, [w_DIAMOND;w_WITH;w_RIGHT;w_HALF;w_BLACK]);
  (0x2b18, [w_DIAMOND;w_WITH;w_TOP;w_HALF;w_BLACK]);
  (0x2b19, [w_DIAMOND;w_WITH;w_BOTTOM;w_HALF;w_BLACK]);
  (0x2b1a, [w_DOTTED;w_SQUARE]);
  (0x2b1b, [w_BLACK;w_LARGE;w_SQUARE]);
  (0x2b1c, [w_WHITE;w_LARGE;w_SQUARE]);
  (0x2b1d, [w_BLACK;w_VERY;w_SMALL;w_SQUARE]);
  (0x2b1e, [w_WHITE;w_VERY;w_SMALL;w_SQUARE]);
  (0x2b1f, [w_BLACK;w_PENTAGON]);
  (0x2b20, [w_WHITE;w_PENTAGON]);
  (0x2b21, [w_WHITE;w_HEXAGON]);
  (0x2b22, [w_BLACK;w_HEXAGON]);
  (0x2b23, [w_HORIZONTAL;w_BLACK;w_HEXAGON]);
  (0x2b24, [w_BLACK;w_LARGE;w_CIRCLE]);
  (0x2b25, [w_BLACK;w_MEDIUM;w_DIAMOND]);
  (0x2b26, [w_WHITE;w_MEDIUM;w_DIAMOND]);
  (0x2b27, [w_BLACK;w_MEDIUM;w_LOZENGE]);
  (0x2b28, [w_WHITE;w_MEDIUM;w_LOZENGE]);
  (0x2b29, [w_BLACK;w_SMALL;w_DIAMOND]);
  (0x2b2a, [w_BLACK;w_SMALL;w_LOZENGE]);
  (0x2b2b, [w_WHITE;w_SMALL;w_LOZENGE]);
  (0x2b2c, [w_BLACK;w_HORIZONTAL;w_ELLIPSE]);
  (0x2b2d, [w_WHITE;w_HORIZONTAL;w_ELLIPSE]);
  (0x2b2e, [w_BLACK;w_VERTICAL;w_ELLIPSE]);
  (0x2b2f, [w_WHITE;w_VERTICAL;w_ELLIPSE]);
  (0x2b30, [w_LEFT;w_ARROW;w_WITH;w_SMALL;w_CIRCLE]);
  (0x2b31, [w_THREE;w_LEFTWARDS;w_ARROWS]);
  (0x2b32, [w_LEFT;w_ARROW;w_WITH;w_CIRCLED;w_PLUS]);
  (0x2b33, [w_LONG;w_LEFTWARDS;w_SQUIGGLE;w_ARROW]);
  (0x2b34, [w_LEFTWARDS;w_TWO_HEADED;w_ARROW;w_WITH;w_VERTICAL;w_STROKE]);
  (0x2b35, [w_LEFTWARDS;w_TWO_HEADED;w_ARROW;w_WITH;w_DOUBLE;w_VERTICAL;w_STROKE]);
  (0x2b36, [w_LEFTWARDS;w_TWO_HEADED;w_ARROW;w_FROM;w_BAR]);
  (0x2b37, [w_LEFTWARDS;w_TWO_HEADED;w_TRIPLE;w_DASH;w_ARROW]);
  (0x2b38, [w_LEFTWARDS;w_ARROW;w_WITH;w_DOTTED;w_STEM]);
  (0x2b39, [w_LEFTWARDS;w_ARROW;w_WITH;w_TAIL;w_WITH;w_VERTICAL;w_STROKE]);
  (0x2b3a, [w_LEFTWARDS;w_ARROW;w_WITH;w_TAIL;w_WITH;w_DOUBLE;w_VERTICAL;w_STROKE]);
  (0x2b3b, [w_LEFTWARDS;w_TWO_HEADED;w_ARROW;w_WITH;w_TAIL]);
  (0x2b3c, [w_LEFTWARDS;w_TWO_HEADED;w_ARROW;w_WITH;w_TAIL;w_WITH;w_VERTICAL;w_STROKE]);
  (0x2b3d, [w_LEFTWARDS;w_TWO_HEADED;w_ARROW;w_WITH;w_TAIL;w_WITH;w_DOUBLE;w_VERTICAL;w_STROKE]);
  (0x2b3e, [w_LEFTWARDS;w_ARROW;w_THROUGH;w_X]);
  (0x2b3f, [w_WAVE;w_ARROW;w_POINTING;w_DIRECTLY;w_LEFT]);
  (0x2b40, [w_EQUALS;w_SIGN;w_ABOVE;w_LEFTWARDS;w_ARROW]);
  (0x2b41, [w_REVERSE;w_TILDE;w_OPERATOR;w_ABOVE;w_LEFTWARDS;w_ARROW]);
  (0x2b42, [w_LEFTWARDS;w_ARROW;w_ABOVE;w_REVERSE;w_ALMOST;w_EQUAL;w_TO]);
  (0x2b43, [w_RIGHTWARDS;w_ARROW;w_THROUGH;w_GREATER_THAN]);
  (0x2b44, [w_RIGHTWARDS;w_ARROW;w_THROUGH;w_SUPERSET]);
  (0x2b45, [w_LEFTWARDS;w_QUADRUPLE;w_ARROW]);
  (0x2b46, [w_RIGHTWARDS;w_QUADRUPLE;w_ARROW]);
  (0x2b47, [w_REVERSE;w_TILDE;w_OPERATOR;w_ABOVE;w_RIGHTWARDS;w_ARROW]);
  (0x2b48, [w_RIGHTWARDS;w_ARROW;w_ABOVE;w_REVERSE;w_ALMOST;w_EQUAL;w_TO]);
  (0x2b49, [w_TILDE;w_OPERATOR;w_ABOVE;w_LEFTWARDS;w_ARROW]);
  (0x2b4a, [w_LEFTWARDS;w_ARROW;w_ABOVE;w_ALMOST;w_EQUAL;w_TO]);
  (0x2b4b, [w_LEFTWARDS;w_ARROW;w_ABOVE;w_REVERSE;w_TILDE;w_OPERATOR]);
  (0x2b4c, [w_RIGHTWARDS;w_ARROW;w_ABOVE;w_REVERSE;w_TILDE;w_OPERATOR]);
  (0x2b4d, [w_DOWNWARDS;w_TRIANGLE_HEADED;w_ZIGZAG;w_ARROW]);
  (0x2b4e, [w_SHORT;w_SLANTED;w_NORTH;w_ARROW]);
  (0x2b4f, [w_SHORT;w_BACKSLANTED;w_SOUTH;w_ARROW]);
  (0x2b50, [w_WHITE;w_MEDIUM;w_STAR]);
  (0x2b51, [w_BLACK;w_SMALL;w_STAR]);
  (0x2b52, [w_WHITE;w_SMALL;w_STAR]);
  (0x2b53, [w_BLACK;w_RIGHT_POINTING;w_PENTAGON]);
  (0x2b54, [w_WHITE;w_RIGHT_POINTING;w_PENTAGON]);
  (0x2b55, [w_HEAVY;w_LARGE;w_CIRCLE]);
  (0x2b56, [w_HEAVY;w_OVAL;w_WITH;w_OVAL;w_INSIDE]);
  (0x2b57, [w_HEAVY;w_CIRCLE;w_WITH;w_CIRCLE;w_INSIDE]);
  (0x2b58, [w_HEAVY;w_CIRCLE]);
  (0x2b59, [w_HEAVY;w_CIRCLED;w_SALTIRE]);
  (0x2b5a, [w_SLANTED;w_NORTH;w_ARROW;w_WITH;w_HOOKED;w_HEAD]);
  (0x2b5b, [w_BACKSLANTED;w_SOUTH;w_ARROW;w_WITH;w_HOOKED;w_TAIL]);
  (0x2b5c, [w_SLANTED;w_NORTH;w_ARROW;w_WITH;w_HORIZONTAL;w_TAIL]);
  (0x2b5d, [w_BACKSLANTED;w_SOUTH;w_ARROW;w_WITH;w_HORIZONTAL;w_TAIL]);
  (0x2b5e, [w_BENT;w_ARROW;w_POINTING;w_DOWNWARDS;w_THEN;w_NORTH;w_EAST]);
  (0x2b5f, [w_SHORT;w_BENT;w_ARROW;w_POINTING;w_DOWNWARDS;w_THEN;w_NORTH;w_EAST]);
  (0x2b60, [w_LEFTWARDS;w_TRIANGLE_HEADED;w_ARROW]);
  (0x2b61, [w_UPWARDS;w_TRIANGLE_HEADED;w_ARROW]);
  (0x2b62, [w_RIGHTWARDS;w_TRIANGLE_HEADED;w_ARROW]);
  (0x2b63, [w_DOWNWARDS;w_TRIANGLE_HEADED;w_ARROW]);
  (0x2b64, [w_LEFT;w_RIGHT;w_TRIANGLE_HEADED;w_ARROW]);
  (0x2b65, [w_UP;w_DOWN;w_TRIANGLE_HEADED;w_ARROW]);
  (0x2b66, [w_NORTH;w_WEST;w_TRIANGLE_HEADED;w_ARROW]);
  (0x2b67, [w_NORTH;w_EAST;w_TRIANGLE_HEADED;w_ARROW]);
  (0x2b68, [w_SOUTH;w_EAST;w_TRIANGLE_HEADED;w_ARROW]);
  (0x2b69, [w_SOUTH;w_WEST;w_TRIANGLE_HEADED;w_ARROW]);
  (0x2b6a, [w_LEFTWARDS;w_TRIANGLE_HEADED;w_DASHED;w_ARROW]);
  (0x2b6b, [w_UPWARDS;w_TRIANGLE_HEADED;w_DASHED;w_ARROW]);
  (0x2b6c, [w_RIGHTWARDS;w_TRIANGLE_HEADED;w_DASHED;w_ARROW]);
  (0x2b6d, [w_DOWNWARDS;w_TRIANGLE_HEADED;w_DASHED;w_ARROW]);
  (0x2b6e, [w_CLOCKWISE;w_TRIANGLE_HEADED;w_OPEN;w_CIRCLE;w_ARROW]);
  (0x2b6f, [w_ANTICLOCKWISE;w_TRIANGLE_HEADED;w_OPEN;w_CIRCLE;w_ARROW]);
  (0x2b70, [w_LEFTWARDS;w_TRIANGLE_HEADED;w_ARROW;w_TO;w_BAR]);
  (0x2b71, [w_UPWARDS;w_TRIANGLE_HEADED;w_ARROW;w_TO;w_BAR]);
  (0x2b72, [w_RIGHTWARDS;w_TRIANGLE_HEADED;w_ARROW;w_TO;w_BAR]);
  (0x2b73, [w_DOWNWARDS;w_TRIANGLE_HEADED;w_ARROW;w_TO;w_BAR]);
  (0x2b76, [w_NORTH;w_WEST;w_TRIANGLE_HEADED;w_ARROW;w_TO;w_BAR]);
  (0x2b77, [w_NORTH;w_EAST;w_TRIANGLE_HEADED;w_ARROW;w_TO;w_BAR]);
  (0x2b78, [w_SOUTH;w_EAST;w_TRIANGLE_HEADED;w_ARROW;w_TO;w_BAR]);
  (0x2b79, [w_SOUTH;w_WEST;w_TRIANGLE_HEADED;w_ARROW;w_TO;w_BAR]);
  (0x2b7a, [w_LEFTWARDS;w_TRIANGLE_HEADED;w_ARROW;w_WITH;w_DOUBLE;w_HORIZONTAL;w_STROKE]);
  (0x2b7b, [w_UPWARDS;w_TRIANGLE_HEADED;w_ARROW;w_WITH;w_DOUBLE;w_HORIZONTAL;w_STROKE]);
  (0x2b7c, [w_RIGHTWARDS;w_TRIANGLE_HEADED;w_ARROW;w_WITH;w_DOUBLE;w_HORIZONTAL;w_STROKE]);
  (0x2b7d, [w_DOWNWARDS;w_TRIANGLE_HEADED;w_ARROW;w_WITH;w_DOUBLE;w_HORIZONTAL;w_STROKE]);
  (0x2b7e, [w_HORIZONTAL;w_TAB;w_KEY]);
  (0x2b7f, [w_VERTICAL;w_TAB;w_KEY]);
  (0x2b80, [w_LEFTWARDS;w_TRIANGLE_HEADED;w_ARROW;w_OVER;w_RIGHTWARDS;w_TRIANGLE_HEADED;w_ARROW]);
  (0x2b81, [w_UPWARDS;w_TRIANGLE_HEADED;w_ARROW;w_LEFTWARDS;w_OF;w_DOWNWARDS;w_TRIANGLE_HEADED;w_ARROW]);
  (0x2b82, [w_RIGHTWARDS;w_TRIANGLE_HEADED;w_ARROW;w_OVER;w_LEFTWARDS;w_TRIANGLE_HEADED;w_ARROW]);
  (0x2b83, [w_DOWNWARDS;w_TRIANGLE_HEADED;w_ARROW;w_LEFTWARDS;w_OF;w_UPWARDS;w_TRIANGLE_HEADED;w_ARROW]);
  (0x2b84, [w_LEFTWARDS;w_TRIANGLE_HEADED;w_PAIRED;w_ARROWS]);
  (0x2b85, [w_UPWARDS;w_TRIANGLE_HEADED;w_PAIRED;w_ARROWS]);
  (0x2b86, [w_RIGHTWARDS;w_TRIANGLE_HEADED;w_PAIRED;w_ARROWS]);
  (0x2b87, [w_DOWNWARDS;w_TRIANGLE_HEADED;w_PAIRED;w_ARROWS]);
  (0x2b88, [w_LEFTWARDS;w_BLACK;w_CIRCLED;w_WHITE;w_ARROW]);
  (0x2b89, [w_UPWARDS;w_BLACK;w_CIRCLED;w_WHITE;w_ARROW]);
  (0x2b8a, [w_RIGHTWARDS;w_BLACK;w_CIRCLED;w_WHITE;w_ARROW]);
  (0x2b8b, [w_DOWNWARDS;w_BLACK;w_CIRCLED;w_WHITE;w_ARROW]);
  (0x2b8c, [w_ANTICLOCKWISE;w_TRIANGLE_HEADED;w_RIGHT;w_U_SHAPED;w_ARROW]);
  (0x2b8d, [w_ANTICLOCKWISE;w_TRIANGLE_HEADED;w_BOTTOM;w_U_SHAPED;w_ARROW]);
  (0x2b8e, [w_ANTICLOCKWISE;w_TRIANGLE_HEADED;w_LEFT;w_U_SHAPED;w_ARROW]);
  (0x2b8f, [w_ANTICLOCKWISE;w_TRIANGLE_HEADED;w_TOP;w_U_SHAPED;w_ARROW]);
  (0x2b90, [w_RETURN;w_LEFT]);
  (0x2b91, [w_RETURN;w_RIGHT]);
  (0x2b92, [w_NEWLINE;w_LEFT]);
  (0x2b93, [w_NEWLINE;w_RIGHT]);
  (0x2b94, [w_FOUR;w_CORNER;w_ARROWS;w_CIRCLING;w_ANTICLOCKWISE]);
  (0x2b95, [w_RIGHTWARDS;w_BLACK;w_ARROW]);
  (0x2b98, [w_THREE_D;w_TOP_LIGHTED;w_LEFTWARDS;w_EQUILATERAL;w_ARROWHEAD]);
  (0x2b99, [w_THREE_D;w_RIGHT_LIGHTED;w_UPWARDS;w_EQUILATERAL;w_ARROWHEAD]);
  (0x2b9a, [w_THREE_D;w_TOP_LIGHTED;w_RIGHTWARDS;w_EQUILATERAL;w_ARROWHEAD]);
  (0x2b9b, [w_THREE_D;w_LEFT_LIGHTED;w_DOWNWARDS;w_EQUILATERAL;w_ARROWHEAD]);
  (0x2b9c, [w_BLACK;w_LEFTWARDS;w_EQUILATERAL;w_ARROWHEAD])].

Definition NAMES_25 : list (N * (list str)) := [
  (0x2b9d, [w_BLACK;w_UPWARDS;w_EQUILATERAL;w_ARROWHEAD]);
  (0x2b9e, [w_BLACK;w_RIGHTWARDS;w_EQUILATERAL;w_ARROWHEAD]);
  (0x2b9f, [w_BLACK;w_DOWNWARDS;w_EQUILATERAL;w_ARROWHEAD]);
  (0x2ba0, [w_DOWNWARDS;w_TRIANGLE_HEADED;w_ARROW;w_WITH;w_LONG;w_TIP;w_LEFTWARDS]);
  (0x2ba1, [w_DOWNWARDS;w_TRIANGLE_HEADED;w_ARROW;w_WITH;w_LONG;w_TIP;w_RIGHTWARDS]);
  (0x2ba2, [w_UPWARDS;w_TRIANGLE_HEADED;w_ARROW;w_WITH;w_LONG;w_TIP;w_LEFTWARDS]);
  (0x2ba3, [w_UPWARDS;w_TRIANGLE_HEADED;w_ARROW;w_WITH;w_LONG;w_TIP;w_RIGHTWARDS]);
  (0x2ba4, [w_LEFTWARDS;w_TRIANGLE_HEADED;w_ARROW;w_WITH;w_LONG;w_TIP;w_UPWARDS]);
  (0x2ba5, [w_RIGHTWARDS;w_TRIANGLE_HEADED;w_ARROW;w_WITH;w_LONG;w_TIP;w_UPWARDS]);
  (0x2ba6, [w_LEFTWARDS;w_TRIANGLE_HEADED;w_ARROW;w_WITH;w_LONG;w_TIP;w_DOWNWARDS]);
  (0x2ba7, [w_RIGHTWARDS;w_TRIANGLE_HEADED;w_ARROW;w_WITH;w_LONG;w_TIP;w_DOWNWARDS]);
  (0x2ba8, [w_BLACK;w_CURVED;w_DOWNWARDS;w_AND;w_LEFTWARDS;w_ARROW]);
  (0x2ba9, [w_BLACK;w_CURVED;w_DOWNWARDS;w_AND;w_RIGHTWARDS;w_ARROW]);
  (0x2baa, [w_BLACK;w_CURVED;w_UPWARDS;w_AND;w_LEFTWARDS;w_ARROW]);
  (0x2bab, [w_BLACK;w_CURVED;w_UPWARDS;w_AND;w_RIGHTWARDS;w_ARROW]);
  (0x2bac, [w_BLACK;w_CURVED;w_LEFTWARDS;w_AND;w_UPWARDS;w_ARROW]);
  (0x2bad, [w_BLACK;w_CURVED;w_RIGHTWARDS;w_AND;w_UPWARDS;w_ARROW]);
  (0x2bae, [w_BLACK;w_CURVED;w_LEFTWARDS;w_AND;w_DOWNWARDS;w_ARROW]);
  (0x2baf, [w_BLACK;w_CURVED;w_RIGHTWARDS;w_AND;w_DOWNWARDS;w_ARROW]);
  (0x2bb0, [w_RIBBON;w_ARROW;w_DOWN;w_LEFT]);
  (0x2bb1, [w_RIBBON;w_ARROW;w_DOWN;w_RIGHT]);
  (0x2bb2, [w_RIBBON;w_ARROW;w_UP;w_LEFT]);
  (0x2bb3, [w_RIBBON;w_ARROW;w_UP;w_RIGHT]);
  (0x2bb4, [w_RIBBON;w_ARROW;w_LEFT;w_UP]);
  (0x2bb5, [w_RIBBON;w_ARROW;w_RIGHT;w_UP]);
  (0x2bb6, [w_RIBBON;w_ARROW;w_LEFT;w_DOWN]);
  (0x2bb7, [w_RIBBON;w_ARROW;w_RIGHT;w_DOWN]);
  (0x2bb8, [w_UPWARDS;w_WHITE;w_ARROW;w_FROM;w_BAR;w_WITH;w_HORIZONTAL;w_BAR]);
  (0x2bb9, [w_UP;w_ARROWHEAD;w_IN;w_A;w_RECTANGLE;w_BOX]);
  (0x2bbd, [w_BALLOT;w_BOX;w_WITH;w_LIGHT;w_X]);
  (0x2bbe, [w_CIRCLED;w_X]);
  (0x2bbf, [w_CIRCLED;w_BOLD;w_X]);
  (0x2bc0, [w_BLACK;w_SQUARE;w_CENTRED]);
  (0x2bc1, [w_BLACK;w_DIAMOND;w_CENTRED]);
  (0x2bc2, [w_TURNED;w_BLACK;w_PENTAGON]);
  (0x2bc3, [w_HORIZONTAL;w_BLACK;w_OCTAGON]);
  (0x2bc4, [w_BLACK;w_OCTAGON]);
  (0x2bc5, [w_BLACK;w_MEDIUM;w_UP_POINTING;w_TRIANGLE;w_CENTRED]);
  (0x2bc6, [w_BLACK;w_MEDIUM;w_DOWN_POINTING;w_TRIANGLE;w_CENTRED]);
  (0x2bc7, [w_BLACK;w_MEDIUM;w_LEFT_POINTING;w_TRIANGLE;w_CENTRED]);
  (0x2bc8, [w_BLACK;w_MEDIUM;w_RIGHT_POINTING;w_TRIANGLE;w_CENTRED]);
  (0x2bca, [w_TOP;w_HALF;w_BLACK;w_CIRCLE]);
  (0x2bcb, [w_BOTTOM;w_HALF;w_BLACK;w_CIRCLE]);
  (0x2bcc, [w_LIGHT;w_FOUR;w_POINTED;w_BLACK;w_CUSP]);
  (0x2bcd, [w_ROTATED;w_LIGHT;w_FOUR;w_POINTED;w_BLACK;w_CUSP]);
  (0x2bce, [w_WHITE;w_FOUR;w_POINTED;w_CUSP]);
  (0x2bcf, [w_ROTATED;w_WHITE;w_FOUR;w_POINTED;w_CUSP]);
  (0x2bd0, [w_SQUARE;w_POSITION;w_INDICATOR]);
  (0x2bd1, [w_UNCERTAINTY;w_SIGN]);
  (0x2bd2, [w_GROUP;w_MARK]);
  (0x2bec, [w_LEFTWARDS;w_TWO_HEADED;w_ARROW;w_WITH;w_TRIANGLE;w_ARROWHEADS]);
  (0x2bed, [w_UPWARDS;w_TWO_HEADED;w_ARROW;w_WITH;w_TRIANGLE;w_ARROWHEADS]);
  (0x2bee, [w_RIGHTWARDS;w_TWO_HEADED;w_ARROW;w_WITH;w_TRIANGLE;w_ARROWHEADS]);
  (0x2bef, [w_DOWNWARDS;w_TWO_HEADED;w_ARROW;w_WITH;w_TRIANGLE;w_ARROWHEADS]);
  (0x2c00, [w_GLAGOLITIC;w_CAPITAL;w_LETTER;w_AZU]);
  (0x2c01, [w_GLAGOLITIC;w_CAPITAL;w_LETTER;w_BUKY]);
  (0x2c02, [w_GLAGOLITIC;w_CAPITAL;w_LETTER;w_VEDE]);
  (0x2c03, [w_GLAGOLITIC;w_CAPITAL;w_LETTER;w_GLAGOLI]);
  (0x2c04, [w_GLAGOLITIC;w_CAPITAL;w_LETTER;w_DOBRO]);
  (0x2c05, [w_GLAGOLITIC;w_CAPITAL;w_LETTER;w_YESTU]);
  (0x2c06, [w_GLAGOLITIC;w_CAPITAL;w_LETTER;w_ZHIVETE]);
  (0x2c07, [w_GLAGOLITIC;w_CAPITAL;w_LETTER;w_DZELO]);
  (0x2c08, [w_GLAGOLITIC;w_CAPITAL;w_LETTER;w_ZEMLJA]);
  (0x2c09, [w_GLAGOLITIC;w_CAPITAL;w_LETTER;w_IZHE]);
  (0x2c0a, [w_GLAGOLITIC;w_CAPITAL;w_LETTER;w_INITIAL;w_IZHE]);
  (0x2c0b, [w_GLAGOLITIC;w_CAPITAL;w_LETTER;w_I]);
  (0x2c0c, [w_GLAGOLITIC;w_CAPITAL;w_LETTER;w_DJERVI]);
  (0x2c0d, [w_GLAGOLITIC;w_CAPITAL;w_LETTER;w_KAKO]);
  (0x2c0e, [w_GLAGOLITIC;w_CAPITAL;w_LETTER;w_LJUDIJE]);
  (0x2c0f, [w_GLAGOLITIC;w_CAPITAL;w_LETTER;w_MYSLITE]);
  (0x2c10, [w_GLAGOLITIC;w_CAPITAL;w_LETTER;w_NASHI]);
  (0x2c11, [w_GLAGOLITIC;w_CAPITAL;w_LETTER;w_ONU]);
  (0x2c12, [w_GLAGOLITIC;w_CAPITAL;w_LETTER;w_POKOJI]);
  (0x2c13, [w_GLAGOLITIC;w_CAPITAL;w_LETTER;w_RITSI]);
  (0x2c14, [w_GLAGOLITIC;w_CAPITAL;w_LETTER;w_SLOVO]);
  (0x2c15, [w_GLAGOLITIC;w_CAPITAL;w_LETTER;w_TVRIDO]);
  (0x2c16, [w_GLAGOLITIC;w_CAPITAL;w_LETTER;w_UKU]);
  (0x2c17, [w_GLAGOLITIC;w_CAPITAL;w_LETTER;w_FRITU]);
  (0x2c18, [w_GLAGOLITIC;w_CAPITAL;w_LETTER;w_HERU]);
  (0x2c19, [w_GLAGOLITIC;w_CAPITAL;w_LETTER;w_OTU]);
  (0x2c1a, [w_GLAGOLITIC;w_CAPITAL;w_LETTER;w_PE]);
  (0x2c1b, [w_GLAGOLITIC;w_CAPITAL;w_LETTER;w_SHTA]);
  (0x2c1c, [w_GLAGOLITIC;w_CAPITAL;w_LETTER;w_TSI]);
  (0x2c1d, [w_GLAGOLITIC;w_CAPITAL;w_LETTER;w_CHRIVI]);
  (0x2c1e, [w_GLAGOLITIC;w_CAPITAL;w_LETTER;w_SHA]);
  (0x2c1f, [w_GLAGOLITIC;w_CAPITAL;w_LETTER;w_YERU]);
  (0x2c20, [w_GLAGOLITIC;w_CAPITAL;w_LETTER;w_YERI]);
  (0x2c21, [w_GLAGOLITIC;w_CAPITAL;w_LETTER;w_YATI]);
  (0x2c22, [w_GLAGOLITIC;w_CAPITAL;w_LETTER;w_SPIDERY;w_HA]);
  (0x2c23, [w_GLAGOLITIC;w_CAPITAL;w_LETTER;w_YU]);
  (0x2c24, [w_GLAGOLITIC;w_CAPITAL;w_LETTER;w_SMALL;w_YUS]);
  (0x2c25, [w_GLAGOLITIC;w_CAPITAL;w_LETTER;w_SMALL;w_YUS;w_WITH;w_TAIL]);
  (0x2c26, [w_GLAGOLITIC;w_CAPITAL;w_LETTER;w_YO]);
  (0x2c27, [w_GLAGOLITIC;w_CAPITAL;w_LETTER;w_IOTATED;w_SMALL;w_YUS]);
  (0x2c28, [w_GLAGOLITIC;w_CAPITAL;w_LETTER;w_BIG;w_YUS]);
  (0x2c29, [w_GLAGOLITIC;w_CAPITAL;w_LETTER;w_IOTATED;w_BIG;w_YUS]);
  (0x2c2a, [w_GLAGOLITIC;w_CAPITAL;w_LETTER;w_FITA]);
  (0x2c2b, [w_GLAGOLITIC;w_CAPITAL;w_LETTER;w_IZHITSA]);
  (0x2c2c, [w_GLAGOLITIC;w_CAPITAL;w_LETTER;w_SHTAPIC]);
  (0x2c2d, [w_GLAGOLITIC;w_CAPITAL;w_LETTER;w_TROKUTASTI;w_A]);
  (0x2c2e, [w_GLAGOLITIC;w_CAPITAL;w_LETTER;w_LATINATE;w_MYSLITE]);
  (0x2c30, [w_GLAGOLITIC;w_SMALL;w_LETTER;w_AZU]);
  (0x2c31, [w_GLAGOLITIC;w_SMALL;w_LETTER;w_BUKY]);
  (0x2c32, [w_GLAGOLITIC;w_SMALL;w_LETTER;w_VEDE]);
  (0x2c33, [w_GLAGOLITIC;w_SMALL;w_LETTER;w_GLAGOLI]);
  (0x2c34, [w_GLAGOLITIC;w_SMALL;w_LETTER;w_DOBRO]);
  (0x2c35, [w_GLAGOLITIC;w_SMALL;w_LETTER;w_YESTU]);
  (0x2c36, [w_GLAGOLITIC;w_SMALL;w_LETTER;w_ZHIVETE]);
  (0x2c37, [w_GLAGOLITIC;w_SMALL;w_LETTER;w_DZELO]);
  (0x2c38, [w_GLAGOLITIC;w_SMALL;w_LETTER;w_ZEMLJA]);
  (0x2c39, [w_GLAGOLITIC;w_SMALL;w_LETTER;w_IZHE]);
  (0x2c3a, [w_GLAGOLITIC;w_SMALL;w_LETTER;w_INITIAL;w_IZHE]);
  (0x2c3b, [w_GLAGOLITIC;w_SMALL;w_LETTER;w_I]);
  (0x2c3c, [w_GLAGOLITIC;w_SMALL;w_LETTER;w_DJERVI]);
  (0x2c3d, [w_GLAGOLITIC;w_SMALL;w_LETTER;w_KAKO]);
  (0x2c3e, [w_GLAGOLITIC;w_SMALL;w_LETTER;w_LJUDIJE]);
  (0x2c3f, [w_GLAGOLITIC;w_SMALL;w_LETTER;w_MYSLITE]);
  (0x2c40, [w_GLAGOLITIC;w_SMALL;w_LETTER;w_NASHI]);
  (0x2c41, [w_GLAGOLITIC;w_SMALL;w_LETTER;w_ONU]);
  (0x2c42, [w_GLAGOLITIC;w_SMALL;w_LETTER;w_POKOJI]);
  (0x2c43, [w_GLAGOLITIC;w_SMALL;w_LETTER;w_RITSI]);
  (0x2c44, [w_GLAGOLITIC;w_SMALL;w_LETTER;w_SLOVO]);
  (0x2c45, [w_GLAGOLITIC;w_SMALL;w_LETTER;w_TVRIDO]);
  (0x2c46, [w_GLAGOLITIC;w_SMALL;w_LETTER;w_UKU]);
  (0x2c47, [w_GLAGOLITIC;w_SMALL;w_LETTER;w_FRITU]);
  (0x2c48, [w_GLAGOLITIC;w_SMALL;w_LETTER;w_HERU]);
  (0x2c49, [w_GLAGOLITIC;w_SMALL;w_LETTER;w_OTU]);
  (0x2c4a, [w_GLAGOLITIC;w_SMALL;w_LETTER;w_PE]);
  (0x2c4b, [w_GLAGOLITIC;w_SMALL;w_LETTER;w_SHTA]);
  (0x2c4c, [w_GLAGOLITIC;w_SMALL;w_LETTER;w_TSI]);
  (0x2c4d, [w_GLAGOLITIC;w_SMALL;w_LETTER;w_CHRIVI]);
  (0x2c4e, [w_GLAGOLITIC;w_SMALL;w_LETTER;w_SHA]);
  (0x2c4f, [w_GLAGOLITIC;w_SMALL;w_LETTER;w_YERU]);
  (0x2c50, [w_GLAGOLITIC;w_SMALL;w_LETTER;w_YERI]);
  (0x2c51, [w_GLAGOLITIC;w_SMALL;w_LETTER;w_YATI]);
  (0x2c52, [w_GLAGOLITIC;w_SMALL;w_LETTER;w_SPIDERY;w_HA]);
  (0x2c53, [w_GLAGOLITIC;w_SMALL;w_LETTER;w_YU]);
  (0x2c54, [w_GLAGOLITIC;w_SMALL;w_LETTER;w_SMALL;w_YUS]);
  (0x2c55, [w_GLAGOLITIC;w_SMALL;w_LETTER;w_SMALL;w_YUS;w_WITH;w_TAIL]);
  (0x2c56, [w_GLAGOLITIC;w_SMALL;w_LETTER;w_YO]);
  (0x2c57, [w_GLAGOLITIC;w_SMALL;w_LETTER;w_IOTATED;w_SMALL;w_YUS]);
  (0x2c58, [w_GLAGOLITIC;w_SMALL;w_LETTER;w_BIG;w_YUS]);
  (0x2c59, [w_GLAGOLITIC;w_SMALL;w_LETTER;w_IOTATED;w_BIG;w_YUS]);
  (0x2c5a, [w_GLAGOLITIC;w_SMALL;w_LETTER;w_FITA]);
  (0x2c5b, [w_GLAGOLITIC;w_SMALL;w_LETTER;w_IZHITSA]);
  (0x2c5c, [w_GLAGOLITIC;w_SMALL;w_LETTER;w_SHTAPIC]);
  (0x2c5d, [w_GLAGOLITIC;w_SMALL;w_LETTER;w_TROKUTASTI;w_A]);
  (0x2c5e, [w_GLAGOLITIC;w_SMALL;w_LETTER;w_LATINATE;w_MYSLITE]);
  (0x2c60, [w_LATIN;w_CAPITAL;w_LETTER;w_L;w_WITH;w_DOUBLE;w_BAR]);
  (0x2c61, [w_LATIN;w_SMALL;w_LETTER;w_L;w_WITH;w_DOUBLE;w_BAR]);
  (0x2c62, [w_LATIN;w_CAPITAL;w_LETTER;w_L;w_WITH;w_MIDDLE;w_TILDE]);
  (0x2c63, [w_LATIN;w_CAPITAL;w_LETTER;w_P;w_WITH;w_STROKE]);
  (0x2c64, [w_LATIN;w_CAPITAL;w_LETTER;w_R;w_WITH;w_TAIL]);
  (0x2c65, [w_LATIN;w_SMALL;w_LETTER;w_A;w_WITH;w_STROKE]);
  (0x2c66, [w_LATIN;w_SMALL;w_LETTER;w_T;w_WITH;w_DIAGONAL;w_STROKE]);
  (0x2c67, [w_LATIN;w_CAPITAL;w_LETTER;w_H;w_WITH;w_DESCENDER]);
  (0x2c68, [w_LATIN;w_SMALL;w_LETTER;w_H;w_WITH;w_DESCENDER]);
  (0x2c69, [w_LATIN;w_CAPITAL;w_LETTER;w_K;w_WITH;w_DESCENDER]);
  (0x2c6a, [w_LATIN;w_SMALL;w_LETTER;w_K;w_WITH;w_DESCENDER]);
  (0x2c6b, [w_LATIN;w_CAPITAL;w_LETTER;w_Z;w_WITH;w_DESCENDER]);
  (0x2c6c, [w_LATIN;w_SMALL;w_LETTER;w_Z;w_WITH;w_DESCENDER]);
  (0x2c6d, [w_LATIN;w_CAPITAL;w_LETTER;w_ALPHA]);
  (0x2c6e, [w_LATIN;w_CAPITAL;w_LETTER;w_M;w_WITH;w_HOOK]);
  (0x2c6f, [w_LATIN;w_CAPITAL;w_LETTER;w_TURNED;w_A]);
  (0x2c70, [w_LATIN;w_CAPITAL;w_LETTER;w_TURNED;w_ALPHA]);
  (0x2c71, [w_LATIN;w_SMALL;w_LETTER;w_V;w_WITH;w_RIGHT;w_HOOK]);
  (0x2c72, [w_LATIN;w_CAPITAL;w_LETTER;w_W;w_WITH;w_HOOK]);
  (0x2c73, [w_LATIN;w_SMALL;w_LETTER;w_W;w_WITH;w_HOOK]);
  (0x2c74, [w_LATIN;w_SMALL;w_LETTER;w_V;w_WITH;w_CURL]);
  (0x2c75, [w_LATIN;w_CAPITAL;w_LETTER;w_HALF;w_H]);
  (0x2c76, [w_LATIN;w_SMALL;w_LETTER;w_HALF;w_H]);
  (0x2c77, [w_LATIN;w_SMALL;w_LETTER;w_TAILLESS;w_PHI]);
  (0x2c78, [w_LATIN;w_SMALL;w_LETTER;w_E;w_WITH;w_NOTCH]);
  (0x2c79, [w_LATIN;w_SMALL;w_LETTER;w_TURNED;w_R;w_WITH;w_TAIL]);
  (0x2c7a, [w_LATIN;w_SMALL;w_LETTER;w_O;w_WITH;w_LOW;w_RING;w_INSIDE]);
  (0x2c7b, [w_LATIN;w_LETTER;w_SMALL;w_CAPITAL;w_TURNED;w_E]);
  (0x2c7c, [w_LATIN;w_SUBSCRIPT;w_SMALL;w_LETTER;w_J]);
  (0x2c7d, [w_MODIFIER;w_LETTER;w_CAPITAL;w_V]);
  (0x2c7e, [w_LATIN;w_CAPITAL;w_LETTER;w_S;w_WITH;w_SWASH;w_TAIL]);
  (0x2c7f, [w_LATIN;w_CAPITAL;w_LETTER;w_Z;w_WITH;w_SWASH;w_TAIL]);
  (0x2c80, [w_COPTIC;w_CAPITAL;w_LETTER;w_ALFA]);
  (0x2c81, [w_COPTIC;w_SMALL;w_LETTER;w_ALFA]);
  (0x2c82, [w_COPTIC;w_CAPITAL;w_LETTER;w_VIDA]);
  (0x2c83, [w_COPTIC;w_SMALL;w_LETTER;w_VIDA]);
  (0x2c84, [w_COPTIC;w_CAPITAL;w_LETTER;w_GAMMA]);
  (0x2c85, [w_COPTIC;w_SMALL;w_LETTER;w_GAMMA]);
  (0x2c86, [w_COPTIC;w_CAPITAL;w_LETTER;w_DALDA]);
  (0x2c87, [w_COPTIC;w_SMALL;w_LETTER;w_DALDA]);
  (0x2c88, [w_COPTIC;w_CAPITAL;w_LETTER;w_EIE]);
  (0x2c89, [w_COPTIC;w_SMALL;w_LETTER;w_EIE]);
  (0x2c8a, [w_COPTIC;w_CAPITAL;w_LETTER;w_SOU]);
  (0x2c8b, [w_COPTIC;w_SMALL;w_LETTER;w_SOU]);
  (0x2c8c, [w_COPTIC;w_CAPITAL;w_LETTER;w_ZATA]);
  (0x2c8d, [w_COPTIC;w_SMALL;w_LETTER;w_ZATA]);
  (0x2c8e, [w_COPTIC;w_CAPITAL;w_LETTER;w_HATE]);
  (0x2c8f, [w_COPTIC;w_SMALL;w_LETTER;w_HATE]);
  (0x2c90, [w_COPTIC;w_CAPITAL;w_LETTER;w_THETHE]);
  (0x2c91, [w_COPTIC;w_SMALL;w_LETTER;w_THETHE]);
  (0x2c92, [w_COPTIC;w_CAPITAL;w_LETTER;w_IAUDA]);
  (0x2c93, [w_COPTIC;w_SMALL;w_LETTER;w_IAUDA]);
  (0x2c94, [w_COPTIC;w_CAPITAL;w_LETTER;w_KAPA]);
  (0x2c95, [w_COPTIC;w_SMALL;w_LETTER;w_KAPA]);
  (0x2c96, [w_COPTIC;w_CAPITAL;w_LETTER;w_LAULA]);
  (0x2c97, [w_COPTIC;w_SMALL;w_LETTER;w_LAULA]);
  (0x2c98, [w_COPTIC;w_CAPITAL;w_LETTER;w_MI]);
  (0x2c99, [w_COPTIC;w_SMALL;w_LETTER;w_MI]);
  (0x2c9a, [w_COPTIC;w_CAPITAL;w_LETTER;w_NI]);
  (0x2c9b, [w_COPTIC;w_SMALL;w_LETTER;w_NI]);
  (0x2c9c, [w_COPTIC;w_CAPITAL;w_LETTER;w_KSI]);
  (0x2c9d, [w_COPTIC;w_SMALL;w_LETTER;w_KSI]);
  (0x2c9e, [w_COPTIC;w_CAPITAL;w_LETTER;w_O]);
  (0x2c9f, [w_COPTIC;w_SMALL;w_LETTER;w_O]);
  (0x2ca0, [w_COPTIC;w_CAPITAL;w_LETTER;w_PI]);
  (0x2ca1, [w_COPTIC;w_SMALL;w_LETTER;w_PI]);
  (0x2ca2, [w_COPTIC;w_CAPITAL;w_LETTER;w_RO]);
  (0x2ca3, [w_COPTIC;w_SMALL;w_LETTER;w_RO]);
  (0x2ca4, [w_COPTIC;w_CAPITAL;w_LETTER;w_SIMA]);
  (0x2ca5, [w_COPTIC;w_SMALL;w_LETTER;w_SIMA]);
  (0x2ca6, [w_COPTIC;w_CAPITAL;w_LETTER;w_TAU]);
  (0x2ca7, [w_COPTIC;w_SMALL;w_LETTER;w_TAU]);
  (0x2ca8, [w_COPTIC;w_CAPITAL;w_LETTER;w_UA]);
  (0x2ca9, [w_COPTIC;w_SMALL;w_LETTER;w_UA]);
  (0x2caa, [w_COPTIC;w_CAPITAL;w_LETTER;w_FI]);
  (0x2cab, [w_COPTIC;w_SMALL;w_LETTER;w_FI]);
  (0x2cac, [w_COPTIC;w_CAPITAL;w_LETTER;w_KHI]);
  (0x2cad, [w_COPTIC;w_SMALL;w_LETTER;w_KHI]);
  (0x2cae, [w_COPTIC;w_CAPITAL;w_LETTER;w_PSI]);
  (0x2caf, [w_COPTIC;w_SMALL;w_LETTER;w_PSI]);
  (0x2cb0, [w_COPTIC;w_CAPITAL;w_LETTER;w_OOU]);
  (0x2cb1, [w_COPTIC;w_SMALL;w_LETTER;w_OOU]);
  (0x2cb2, [w_COPTIC;w_CAPITAL;w_LETTER;w_DIALECT_P;w_ALEF]);
  (0x2cb3, [w_COPTIC;w_SMALL;w_LETTER;w_DIALECT_P;w_ALEF]);
  (0x2cb4, [w_COPTIC;w_CAPITAL;w_LETTER;w_OLD;w_COPTIC;w_AIN]);
  (0x2cb5, [w_COPTIC;w_SMALL;w_LETTER;w_OLD;w_COPTIC;w_AIN]);
  (0x2cb6, [w_COPTIC;w_CAPITAL;w_LETTER;w_CRYPTOGRAMMIC;w_EIE]);
  (0x2cb7, [w_COPTIC;w_SMALL;w_LETTER;w_CRYPTOGRAMMIC;w_EIE]);
  (0x2cb8, [w_COPTIC;w_CAPITAL;w_LETTER;w_DIALECT_P;w_KAPA]);
  (0x2cb9, [w_COPTIC;w_SMALL;w_LETTER;w_DIALECT_P;w_KAPA]);
  (0x2cba, [w_COPTIC;w_CAPITAL;w_LETTER;w_DIALECT_P;w_NI]);
  (0x2cbb, [w_COPTIC;w_SMALL;w_LETTER;w_DIALECT_P;w_NI]);
  (0x2cbc, [w_COPTIC;w_CAPITAL;w_LETTER;w_CRYPTOGRAMMIC;w_NI]);
  (0x2cbd, [w_COPTIC;w_SMALL;w_LETTER;w_CRYPTOGRAMMIC;w_NI]);
  (0x2cbe, [w_COPTIC;w_CAPITAL;w_LETTER;w_OLD;w_COPTIC;w_OOU]);
  (0x2cbf, [w_COPTIC;w_SMALL;w_LETTER;w_OLD;w_COPTIC;w_OOU]);
  (0x2cc0, [w_COPTIC;w_CAPITAL;w_LETTER;w_SAMPI]);
  (0x2cc1, [w_COPTIC;w_SMALL;w_LETTER;w_SAMPI]);
  (0x2cc2, [w_COPTIC;w_CAPITAL;w_LETTER;w_CROSSED;w_SHEI]);
  (0x2cc3, [w_COPTIC;w_SMALL;w_LETTER;w_CROSSED;w_SHEI]);
  (0x2cc4, [w_COPTIC;w_CAPITAL;w_LETTER;w_OLD;w_COPTIC;w_SHEI]);
  (0x2cc5, [w_COPTIC;w_SMALL;w_LETTER;w_OLD;w_COPTIC;w_SHEI]);
  (0x2cc6, [w_COPTIC;w_CAPITAL;w_LETTER;w_OLD;w_COPTIC;w_ESH]);
  (0x2cc7, [w_COPTIC;w_SMALL;w_LETTER;w_OLD;w_COPTIC;w_ESH]);
  (0x2cc8, [w_COPTIC;w_CAPITAL;w_LETTER;w_AKHMIMIC;w_KHEI]);
  (0x2cc9, [w_COPTIC;w_SMALL;w_LETTER;w_AKHMIMIC;w_KHEI]);
  (0x2cca, [w_COPTIC;w_CAPITAL;w_LETTER;w_DIALECT_P;w_HORI]);
  (0x2ccb, [w_COPTIC;w_SMALL;w_LETTER;w_DIALECT_P;w_HORI]);
  (0x2ccc, [w_COPTIC;w_CAPITAL;w_LETTER;w_OLD;w_COPTIC;w_HORI]);
  (0x2ccd, [w_COPTIC;w_SMALL;w_LETTER;w_OLD;w_COPTIC;w_HORI]);
  (0x2cce, [w_COPTIC;w_CAPITAL;w_LETTER;w_OLD;w_COPTIC;w_HA]);
  (0x2ccf, [w_COPTIC;w_SMALL;w_LETTER;w_OLD;w_COPTIC;w_HA]);
  (0x2cd0, [w_COPTIC;w_CAPITAL;w_LETTER;w_L_SHAPED;w_HA]);
  (0x2cd1, [w_COPTIC;w_SMALL;w_LETTER;w_L_SHAPED;w_HA]);
  (0x2cd2, [w_COPTIC;w_CAPITAL;w_LETTER;w_OLD;w_COPTIC;w_HEI]);
  (0x2cd3, [w_COPTIC;w_SMALL;w_LETTER;w_OLD;w_COPTIC;w_HEI]);
  (0x2cd4, [w_COPTIC;w_CAPITAL;w_LETTER;w_OLD;w_COPTIC;w_HAT]);
  (0x2cd5, [w_COPTIC;w_SMALL;w_LETTER;w_OLD;w_COPTIC;w_HAT]);
  (0x2cd6, [w_COPTIC;w_CAPITAL;w_LETTER;w_OLD;w_COPTIC;w_GANGIA]);
  (0x2cd7, [w_COPTIC;w_SMALL;w_LETTER;w_OLD;w_COPTIC;w_GANGIA]);
  (0x2cd8, [w_COPTIC;w_CAPITAL;w_LETTER;w_OLD;w_COPTIC;w_DJA]);
  (0x2cd9, [w_COPTIC;w_SMALL;w_LETTER;w_OLD;w_COPTIC;w_DJA]);
  (0x2cda, [w_COPTIC;w_CAPITAL;w_LETTER;w_OLD;w_COPTIC;w_SHIMA]);
  (0x2cdb, [w_COPTIC;w_SMALL;w_LETTER;w_OLD;w_COPTIC;w_SHIMA]);
  (0x2cdc, [w_COPTIC;w_CAPITAL;w_LETTER;w_OLD;w_NUBIAN;w_SHIMA]);
  (0x2cdd, [w_COPTIC;w_SMALL;w_LETTER;w_OLD;w_NUBIAN;w_SHIMA]);
  (0x2cde, [w_COPTIC;w_CAPITAL;w_LETTER;w_OLD;w_NUBIAN;w_NGI]);
  (0x2cdf, [w_COPTIC;w_SMALL;w_LETTER;w_OLD;w_NUBIAN;w_NGI]);
  (0x2ce0, [w_COPTIC;w_CAPITAL;w_LETTER;w_OLD;w_NUBIAN;w_NYI]);
  (0x2ce1, [w_COPTIC;w_SMALL;w_LETTER;w_OLD;w_NUBIAN;w_NYI]);
  (0x2ce2, [w_COPTIC;w_CAPITAL;w_LETTER;w_OLD;w_NUBIAN;w_WAU]);
  (0x2ce3, [w_COPTIC;w_SMALL;w_LETTER;w_OLD;w_NUBIAN;w_WAU]);
  (0x2ce4, [w_COPTIC;w_SYMBOL;w_KAI]);
  (0x2ce5, [w_COPTIC;w_SYMBOL;w_MI;w_RO]);
  (0x2ce6, [w_COPTIC;w_SYMBOL;w_PI;w_RO]);
  (0x2ce7, [w_COPTIC;w_SYMBOL;w_STAUROS]);
  (0x2ce8, [w_COPTIC;w_SYMBOL;w_TAU;w_RO]);
  (0x2ce9, [w_COPTIC;w_SYMBOL;w_KHI;w_RO]);
  (0x2cea, [w_COPTIC;w_SYMBOL;w_SHIMA;w_SIMA]);
  (0x2ceb, [w_COPTIC;w_CAPITAL;w_LETTER;w_CRYPTOGRAMMIC;w_SHEI]);
  (0x2cec, [w_COPTIC;w_SMALL;w_LETTER;w_CRYPTOGRAMMIC;w_SHEI]);
  (0x2ced, [w_COPTIC;w_CAPITAL;w_LETTER;w_CRYPTOGRAMMIC;w_GANGIA]);
  (0x2cee, [w_COPTIC;w_SMALL;w_LETTER;w_CRYPTOGRAMMIC;w_GANGIA]);
  (0x2cef, [w_COPTIC;w_COMBINING;w_NI;w_ABOVE]);
  (0x2cf0, [w_COPTIC;w_COMBINING;w_SPIRITUS;w_ASPER]);
  (0x2cf1, [w_COPTIC;w_COMBINING;w_SPIRITUS;w_LENIS]);
  (0x2cf2, [w_COPTIC;w_CAPITAL;w_LETTER;w_BOHAIRIC;w_KHEI]);
  (0x2cf3, [w_COPTIC;w_SMALL;w_LETTER;w_BOHAIRIC;w_KHEI]);
  (0x2cf9, [w_COPTIC;w_OLD;w_NUBIAN;w_FULL;w_STOP]);
  (0x2cfa, [w_COPTIC;w_OLD;w_NUBIAN;w_DIRECT;w_QUESTION;w_MARK]);
  (0x2cfb, [w_COPTIC;w_OLD;w_NUBIAN;w_INDIRECT;w_QUESTION;w_MARK]);
  (0x2cfc, [w_COPTIC;w_OLD;w_NUBIAN;w_VERSE;w_DIVIDER]);
  (0x2cfd, [w_COPTIC;w_FRACTION;w_ONE;w_HALF]);
  (0x2cfe, [w_COPTIC;w_FULL;w_STOP]);
  (0x2cff, [w_COPTIC;w_MORPHOLOGICAL;w_DIVIDER]);
  (0x2d00, [w_GEORGIAN;w_SMALL;w_LETTER;w_AN]);
  (0x2d01, [w_GEORGIAN;w_SMALL;w_LETTER;w_BAN]);
  (0x2d02, [w_GEORGIAN;w_SMALL;w_LETTER;w_GAN]);
  (0x2d03, [w_GEORGIAN;w_SMALL;w_LETTER;w_DON]);
  (0x2d04, [w_GEORGIAN;w_SMALL;w_LETTER;w_EN]);
  (0x2d05, [w_GEORGIAN;w_SMALL;w_LETTER;w_VIN]);
  (0x2d06, [w_GEORGIAN;w_SMALL;w_LETTER;w_ZEN]);
  (0x2d07, [w_GEORGIAN;w_SMALL;w_LETTER;w_TAN]);
  (0x2d08, [w_GEORGIAN;w_SMALL;w_LETTER;w_IN]);
  (0x2d09, [w_GEORGIAN;w_SMALL;w_LETTER;w_KAN]);
  (0x2d0a, [w_GEORGIAN;w_SMALL;w_LETTER;w_LAS]);
  (0x2d0b, [w_GEORGIAN;w_SMALL;w_LETTER;w_MAN]);
  (0x2d0c, [w_GEORGIAN;w_SMALL;w_LETTER;w_NAR]);
  (0x2d0d, [w_GEORGIAN;w_SMALL;w_LETTER;w_ON]);
  (0x2d0e, [w_GEORGIAN;w_SMALL;w_LETTER;w_PAR]);
  (0x2d0f, [w_GEORGIAN;w_SMALL;w_LETTER;w_ZHAR]);
  (0x2d10, [w_GEORGIAN;w_SMALL;w_LETTER;w_RAE]);
  (0x2d11, [w_GEORGIAN;w_SMALL;w_LETTER;w_SAN]);
  (0x2d12, [w_GEORGIAN;w_SMALL;w_LETTER;w_TAR]);
  (0x2d13, [w_GEORGIAN;w_SMALL;w_LETTER;w_UN]);
  (0x2d14, [w_GEORGIAN;w_SMALL;w_LETTER;w_PHAR]);
  (0x2d15, [w_GEORGIAN;w_SMALL;w_LETTER;w_KHAR]);
  (0x2d16, [w_GEORGIAN;w_SMALL;w_LETTER;w_GHAN]);
  (0x2d17, [w_GEORGIAN;w_SMALL;w_LETTER;w_QAR]);
  (0x2d18, [w_GEORGIAN;w_SMALL;w_LETTER;w_SHIN]);
  (0x2d19, [w_GEORGIAN;w_SMALL;w_LETTER;w_CHIN]);
  (0x2d1a, [w_GEORGIAN;w_SMALL;w_LETTER;w_CAN]);
  (0x2d1b, [w_GEORGIAN;w_SMALL;w_LETTER;w_JIL]);
  (0x2d1c, [w_GEORGIAN;w_SMALL;w_LETTER;w_CIL]);
  (0x2d1d, [w_GEORGIAN;w_SMALL;w_LETTER;w_CHAR]);
  (0x2d1e, [w_GEORGIAN;w_SMALL;w_LETTER;w_XAN]);
  (0x2d1f, [w_GEORGIAN;w_SMALL;w_LETTER;w_JHAN]);
  (0x2d20, [w_GEORGIAN;w_SMALL;w_LETTER;w_HAE]);
  (0x2d21, [w_GEORGIAN;w_SMALL;w_LETTER;w_HE]);
  (0x2d22, [w_GEORGIAN;w_SMALL;w_LETTER;w_HIE]);
  (0x2d23, [w_GEORGIAN;w_SMALL;w_LETTER;w_WE]);
  (0x2d24, [w_GEORGIAN;w_SMALL;w_LETTER;w_HAR]);
  (0x2d25, [w_GEORGIAN;w_SMALL;w_LETTER;w_HOE]);
  (0x2d27, [w_GEORGIAN;w_SMALL;w_LETTER;w_YN]);
  (0x2d2d, [w_GEORGIAN;w_SMALL;w_LETTER;w_AEN]);
  (0x2d30, [w_TIFINAGH;w_LETTER;w_YA]);
  (0x2d31, [w_TIFINAGH;w_LETTER;w_YAB]);
  (0x2d32, [w_TIFINAGH;w_LETTER;w_YABH]);
  (0x2d33, [w_TIFINAGH;w_LETTER;w_YAG]);
  (0x2d34, [w_TIFINAGH;w_LETTER;w_YAGHH]);
  (0x2d35, [w_TIFINAGH;w_LETTER;w_BERBER;w_ACADEMY;w_YAJ]);
  (0x2d36, [w_TIFINAGH;w_LETTER;w_YAJ]);
  (0x2d37, [w_TIFINAGH;w_LETTER;w_YAD]);
  (0x2d38, [w_TIFINAGH;w_LETTER;w_YADH]);
  (0x2d39, [w_TIFINAGH;w_LETTER;w_YADD]);
  (0x2d3a, [w_TIFINAGH;w_LETTER;w_YADDH]);
  (0x2d3b, [w_TIFINAGH;w_LETTER;w_YEY]);
  (0x2d3c, [w_TIFINAGH;w_LETTER;w_YAF]);
  (0x2d3d, [w_TIFINAGH;w_LETTER;w_YAK]);
  (0x2d3e, [w_TIFINAGH;w_LETTER;w_TUAREG;w_YAK]);
  (0x2d3f, [w_TIFINAGH;w_LETTER;w_YAKHH]);
  (0x2d40, [w_TIFINAGH;w_LETTER;w_YAH]);
  (0x2d41, [w_TIFINAGH;w_LETTER;w_BERBER;w_ACADEMY;w_YAH]);
  (0x2d42, [w_TIFINAGH;w_LETTER;w_TUAREG;w_YAH]);
  (0x2d43, [w_TIFINAGH;w_LETTER;w_YAHH]);
  (0x2d44, [w_TIFINAGH;w_LETTER;w_YAA]);
  (0x2d45, [w_TIFINAGH;w_LETTER;w_YAKH]);
  (0x2d46, [w_TIFINAGH;w_LETTER;w_TUAREG;w_YAKH]);
  (0x2d47, [w_TIFINAGH;w_LETTER;w_YAQ]);
  (0x2d48, [w_TIFINAGH;w_LETTER;w_TUAREG;w_YAQ]);
  (0x2d49, [w_TIFINAGH;w_LETTER;w_YI]);
  (0x2d4a, [w_TIFINAGH;w_LETTER;w_YAZH]);
  (0x2d4b, [w_TIFINAGH;w_LETTER;w_AHAGGAR;w_YAZH]);
  (0x2d4c, [w_TIFINAGH;w_LETTER;w_TUAREG;w_YAZH]);
  (0x2d4d, [w_TIFINAGH;w_LETTER;w_YAL]);
  (0x2d4e, [w_TIFINAGH;w_LETTER;w_YAM]);
  (0x2d4f, [w_TIFINAGH;w_LETTER;w_YAN]);
  (0x2d50, [w_TIFINAGH;w_LETTER;w_TUAREG;w_YAGN]);
  (0x2d51, [w_TIFINAGH;w_LETTER;w_TUAREG;w_YANG]);
  (0x2d52, [w_TIFINAGH;w_LETTER;w_YAP]);
  (0x2d53, [w_TIFINAGH;w_LETTER;w_YU]);
  (0x2d54, [w_TIFINAGH;w_LETTER;w_YAR]);
  (0x2d55, [w_TIFINAGH;w_LETTER;w_YARR]);
  (0x2d56, [w_TIFINAGH;w_LETTER;w_YAGH]);
  (0x2d57, [w_TIFINAGH;w_LETTER;w_TUAREG;w_YAGH]);
  (0x2d58, [w_TIFINAGH;w_LETTER;w_AYER;w_YAGH]);
  (0x2d59, [w_TIFINAGH;w_LETTER;w_YAS]);
  (0x2d5a, [w_TIFINAGH;w_LETTER;w_YASS]);
  (0x2d5b, [w_TIFINAGH;w_LETTER;w_YASH]);
  (0x2d5c, [w_TIFINAGH;w_LETTER;w_YAT]);
  (0x2d5d, [w_TIFINAGH;w_LETTER;w_YATH]);
  (0x2d5e, [w_TIFINAGH;w_LETTER;w_YACH]);
  (0x2d5f, [w_TIFINAGH;w_LETTER;w_YATT]);
  (0x2d60, [w_TIFINAGH;w_LETTER;w_YAV]);
  (0x2d61, [w_TIFINAGH;w_LETTER;w_YAW]);
  (0x2d62, [w_TIFINAGH;w_LETTER;w_YAY]);
  (0x2d63, [w_TIFINAGH;w_LETTER;w_YAZ]);
  (0x2d64, [w_TIFINAGH;w_LETTER;w_TAWELLEMET;w_YAZ]);
  (0x2d65, [w_TIFINAGH;w_LETTER;w_YAZZ]);
  (0x2d66, [w_TIFINAGH;w_LETTER;w_YE]);
  (0x2d67, [w_TIFINAGH;w_LETTER;w_YO]);
  (0x2d6f, [w_TIFINAGH;w_MODIFIER;w_LETTER;w_LABIALIZATION;w_MARK])].

Definition NAMES_26 : list (N * (list str)) := [
  (0x2d70, [w_TIFINAGH;w_SEPARATOR;w_MARK]);
  (0x2d7f, [w_TIFINAGH;w_CONSONANT;w_JOINER]);
  (0x2d80, [w_ETHIOPIC;w_SYLLABLE;w_LOA]);
  (0x2d81, [w_ETHIOPIC;w_SYLLABLE;w_MOA]);
  (0x2d82, [w_ETHIOPIC;w_SYLLABLE;w_ROA]);
  (0x2d83, [w_ETHIOPIC;w_SYLLABLE;w_SOA]);
  (0x2d84, [w_ETHIOPIC;w_SYLLABLE;w_SHOA]);
  (0x2d85, [w_ETHIOPIC;w_SYLLABLE;w_BOA]);
  (0x2d86, [w_ETHIOPIC;w_SYLLABLE;w_TOA]);
  (0x2d87, [w_ETHIOPIC;w_SYLLABLE;w_COA]);
  (0x2d88, [w_ETHIOPIC;w_SYLLABLE;w_NOA]);
  (0x2d89, [w_ETHIOPIC;w_SYLLABLE;w_NYOA]);
  (0x2d8a, [w_ETHIOPIC;w_SYLLABLE;w_GLOTTAL;w_OA]);
  (0x2d8b, [w_ETHIOPIC;w_SYLLABLE;w_ZOA]);
  (0x2d8c, [w_ETHIOPIC;w_SYLLABLE;w_DOA]);
  (0x2d8d, [w_ETHIOPIC;w_SYLLABLE;w_DDOA]);
  (0x2d8e, [w_ETHIOPIC;w_SYLLABLE;w_JOA]);
  (0x2d8f, [w_ETHIOPIC;w_SYLLABLE;w_THOA]);
  (0x2d90, [w_ETHIOPIC;w_SYLLABLE;w_CHOA]);
  (0x2d91, [w_ETHIOPIC;w_SYLLABLE;w_PHOA]);
  (0x2d92, [w_ETHIOPIC;w_SYLLABLE;w_POA]);
  (0x2d93, [w_ETHIOPIC;w_SYLLABLE;w_GGWA]);
  (0x2d94, [w_ETHIOPIC;w_SYLLABLE;w_GGWI]);
  (0x2d95, [w_ETHIOPIC;w_SYLLABLE;w_GGWEE]);
  (0x2d96, [w_ETHIOPIC;w_SYLLABLE;w_GGWE]);
  (0x2da0, [w_ETHIOPIC;w_SYLLABLE;w_SSA]);
  (0x2da1, [w_ETHIOPIC;w_SYLLABLE;w_SSU]);
  (0x2da2, [w_ETHIOPIC;w_SYLLABLE;w_SSI]);
  (0x2da3, [w_ETHIOPIC;w_SYLLABLE;w_SSAA]);
  (0x2da4, [w_ETHIOPIC;w_SYLLABLE;w_SSEE]);
  (0x2da5, [w_ETHIOPIC;w_SYLLABLE;w_SSE]);
  (0x2da6, [w_ETHIOPIC;w_SYLLABLE;w_SSO]);
  (0x2da8, [w_ETHIOPIC;w_SYLLABLE;w_CCA]);
  (0x2da9, [w_ETHIOPIC;w_SYLLABLE;w_CCU]);
  (0x2daa, [w_ETHIOPIC;w_SYLLABLE;w_CCI]);
  (0x2dab, [w_ETHIOPIC;w_SYLLABLE;w_CCAA]);
  (0x2dac, [w_ETHIOPIC;w_SYLLABLE;w_CCEE]);
  (0x2dad, [w_ETHIOPIC;w_SYLLABLE;w_CCE]);
  (0x2dae, [w_ETHIOPIC;w_SYLLABLE;w_CCO]);
  (0x2db0, [w_ETHIOPIC;w_SYLLABLE;w_ZZA]);
  (0x2db1, [w_ETHIOPIC;w_SYLLABLE;w_ZZU]);
  (0x2db2, [w_ETHIOPIC;w_SYLLABLE;w_ZZI]);
  (0x2db3, [w_ETHIOPIC;w_SYLLABLE;w_ZZAA]);
  (0x2db4, [w_ETHIOPIC;w_SYLLABLE;w_ZZEE]);
  (0x2db5, [w_ETHIOPIC;w_SYLLABLE;w_ZZE]);
  (0x2db6, [w_ETHIOPIC;w_SYLLABLE;w_ZZO]);
  (0x2db8, [w_ETHIOPIC;w_SYLLABLE;w_CCHA]);
  (0x2db9, [w_ETHIOPIC;w_SYLLABLE;w_CCHU]);
  (0x2dba, [w_ETHIOPIC;w_SYLLABLE;w_CCHI]);
  (0x2dbb, [w_ETHIOPIC;w_SYLLABLE;w_CCHAA]);
  (0x2dbc, [w_ETHIOPIC;w_SYLLABLE;w_CCHEE]);
  (0x2dbd, [w_ETHIOPIC;w_SYLLABLE;w_CCHE]);
  (0x2dbe, [w_ETHIOPIC;w_SYLLABLE;w_CCHO]);
  (0x2dc0, [w_ETHIOPIC;w_SYLLABLE;w_QYA]);
  (0x2dc1, [w_ETHIOPIC;w_SYLLABLE;w_QYU]);
  (0x2dc2, [w_ETHIOPIC;w_SYLLABLE;w_QYI]);
  (0x2dc3, [w_ETHIOPIC;w_SYLLABLE;w_QYAA]);
  (0x2dc4, [w_ETHIOPIC;w_SYLLABLE;w_QYEE]);
  (0x2dc5, [w_ETHIOPIC;w_SYLLABLE;w_QYE]);
  (0x2dc6, [w_ETHIOPIC;w_SYLLABLE;w_QYO]);
  (0x2dc8, [w_ETHIOPIC;w_SYLLABLE;w_KYA]);
  (0x2dc9, [w_ETHIOPIC;w_SYLLABLE;w_KYU]);
  (0x2dca, [w_ETHIOPIC;w_SYLLABLE;w_KYI]);
  (0x2dcb, [w_ETHIOPIC;w_SYLLABLE;w_KYAA]);
  (0x2dcc, [w_ETHIOPIC;w_SYLLABLE;w_KYEE]);
  (0x2dcd, [w_ETHIOPIC;w_SYLLABLE;w_KYE]);
  (0x2dce, [w_ETHIOPIC;w_SYLLABLE;w_KYO]);
  (0x2dd0, [w_ETHIOPIC;w_SYLLABLE;w_XYA]);
  (0x2dd1, [w_ETHIOPIC;w_SYLLABLE;w_XYU]);
  (0x2dd2, [w_ETHIOPIC;w_SYLLABLE;w_XYI]);
  (0x2dd3, [w_ETHIOPIC;w_SYLLABLE;w_XYAA]);
  (0x2dd4, [w_ETHIOPIC;w_SYLLABLE;w_XYEE]);
  (0x2dd5, [w_ETHIOPIC;w_SYLLABLE;w_XYE]);
  (0x2dd6, [w_ETHIOPIC;w_SYLLABLE;w_XYO]);
  (0x2dd8, [w_ETHIOPIC;w_SYLLABLE;w_GYA]);
  (0x2dd9, [w_ETHIOPIC;w_SYLLABLE;w_GYU]);
  (0x2dda, [w_ETHIOPIC;w_SYLLABLE;w_GYI]);
  (0x2ddb, [w_ETHIOPIC;w_SYLLABLE;w_GYAA]);
  (0x2ddc, [w_ETHIOPIC;w_SYLLABLE;w_GYEE]);
  (0x2ddd, [w_ETHIOPIC;w_SYLLABLE;w_GYE]);
  (0x2dde, [w_ETHIOPIC;w_SYLLABLE;w_GYO]);
  (0x2de0, [w_COMBINING;w_CYRILLIC;w_LETTER;w_BE]);
  (0x2de1, [w_COMBINING;w_CYRILLIC;w_LETTER;w_VE]);
  (0x2de2, [w_COMBINING;w_CYRILLIC;w_LETTER;w_GHE]);
  (0x2de3, [w_COMBINING;w_CYRILLIC;w_LETTER;w_DE]);
  (0x2de4, [w_COMBINING;w_CYRILLIC;w_LETTER;w_ZHE]);
  (0x2de5, [w_COMBINING;w_CYRILLIC;w_LETTER;w_ZE]);
  (0x2de6, [w_COMBINING;w_CYRILLIC;w_LETTER;w_KA]);
  (0x2de7, [w_COMBINING;w_CYRILLIC;w_LETTER;w_EL]);
  (0x2de8, [w_COMBINING;w_CYRILLIC;w_LETTER;w_EM]);
  (0x2de9, [w_COMBINING;w_CYRILLIC;w_LETTER;w_EN]);
  (0x2dea, [w_COMBINING;w_CYRILLIC;w_LETTER;w_O]);
  (0x2deb, [w_COMBINING;w_CYRILLIC;w_LETTER;w_PE]);
  (0x2dec, [w_COMBINING;w_CYRILLIC;w_LETTER;w_ER]);
  (0x2ded, [w_COMBINING;w_CYRILLIC;w_LETTER;w_ES]);
  (0x2dee, [w_COMBINING;w_CYRILLIC;w_LETTER;w_TE]);
  (0x2def, [w_COMBINING;w_CYRILLIC;w_LETTER;w_HA]);
  (0x2df0, [w_COMBINING;w_CYRILLIC;w_LETTER;w_TSE]);
  (0x2df1, [w_COMBINING;w_CYRILLIC;w_LETTER;w_CHE]);
  (0x2df2, [w_COMBINING;w_CYRILLIC;w_LETTER;w_SHA]);
  (0x2df3, [w_COMBINING;w_CYRILLIC;w_LETTER;w_SHCHA]);
  (0x2df4, [w_COMBINING;w_CYRILLIC;w_LETTER;w_FITA]);
  (0x2df5, [w_COMBINING;w_CYRILLIC;w_LETTER;w_ES_TE]);
  (0x2df6, [w_COMBINING;w_CYRILLIC;w_LETTER;w_A]);
  (0x2df7, [w_COMBINING;w_CYRILLIC;w_LETTER;w_IE]);
  (0x2df8, [w_COMBINING;w_CYRILLIC;w_LETTER;w_DJERV]);
  (0x2df9, [w_COMBINING;w_CYRILLIC;w_LETTER;w_MONOGRAPH;w_UK]);
  (0x2dfa, [w_COMBINING;w_CYRILLIC;w_LETTER;w_YAT]);
  (0x2dfb, [w_COMBINING;w_CYRILLIC;w_LETTER;w_YU]);
  (0x2dfc, [w_COMBINING;w_CYRILLIC;w_LETTER;w_IOTIFIED;w_A]);
  (0x2dfd, [w_COMBINING;w_CYRILLIC;w_LETTER;w_LITTLE;w_YUS]);
  (0x2dfe, [w_COMBINING;w_CYRILLIC;w_LETTER;w_BIG;w_YUS]);
  (0x2dff, [w_COMBINING;w_CYRILLIC;w_LETTER;w_IOTIFIED;w_BIG;w_YUS]);
  (0x2e00, [w_RIGHT;w_ANGLE;w_SUBSTITUTION;w_MARKER]);
  (0x2e01, [w_RIGHT;w_ANGLE;w_DOTTED;w_SUBSTITUTION;w_MARKER]);
  (0x2e02, [w_LEFT;w_SUBSTITUTION;w_BRACKET]);
  (0x2e03, [w_RIGHT;w_SUBSTITUTION;w_BRACKET]);
  (0x2e04, [w_LEFT;w_DOTTED;w_SUBSTITUTION;w_BRACKET]);
  (0x2e05, [w_RIGHT;w_DOTTED;w_SUBSTITUTION;w_BRACKET]);
  (0x2e06, [w_RAISED;w_INTERPOLATION;w_MARKER]);
  (0x2e07, [w_RAISED;w_DOTTED;w_INTERPOLATION;w_MARKER]);
  (0x2e08, [w_DOTTED;w_TRANSPOSITION;w_MARKER]);
  (0x2e09, [w_LEFT;w_TRANSPOSITION;w_BRACKET]);
  (0x2e0a, [w_RIGHT;w_TRANSPOSITION;w_BRACKET]);
  (0x2e0b, [w_RAISED;w_SQUARE]);
  (0x2e0c, [w_LEFT;w_RAISED;w_OMISSION;w_BRACKET]);
  (0x2e0d, [w_RIGHT;w_RAISED;w_OMISSION;w_BRACKET]);
  (0x2e0e, [w_EDITORIAL;w_CORONIS]);
  (0x2e0f, [w_PARAGRAPHOS]);
  (0x2e10, [w_FORKED;w_PARAGRAPHOS]);
  (0x2e11, [w_REVERSED;w_FORKED;w_PARAGRAPHOS]);
  (0x2e12, [w_HYPODIASTOLE]);
  (0x2e13, [w_DOTTED;w_OBELOS]);
  (0x2e14, [w_DOWNWARDS;w_ANCORA]);
  (0x2e15, [w_UPWARDS;w_ANCORA]);
  (0x2e16, [w_DOTTED;w_RIGHT_POINTING;w_ANGLE]);
  (0x2e17, [w_DOUBLE;w_OBLIQUE;w_HYPHEN]);
  (0x2e18, [w_INVERTED;w_INTERROBANG]);
  (0x2e19, [w_PALM;w_BRANCH]);
  (0x2e1a, [w_HYPHEN;w_WITH;w_DIAERESIS]);
  (0x2e1b, [w_TILDE;w_WITH;w_RING;w_ABOVE]);
  (0x2e1c, [w_LEFT;w_LOW;w_PARAPHRASE;w_BRACKET]);
  (0x2e1d, [w_RIGHT;w_LOW;w_PARAPHRASE;w_BRACKET]);
  (0x2e1e, [w_TILDE;w_WITH;w_DOT;w_ABOVE]);
  (0x2e1f, [w_TILDE;w_WITH;w_DOT;w_BELOW]);
  (0x2e20, [w_LEFT;w_VERTICAL;w_BAR;w_WITH;w_QUILL]);
  (0x2e21, [w_RIGHT;w_VERTICAL;w_BAR;w_WITH;w_QUILL]);
  (0x2e22, [w_TOP;w_LEFT;w_HALF;w_BRACKET]);
  (0x2e23, [w_TOP;w_RIGHT;w_HALF;w_BRACKET]);
  (0x2e24, [w_BOTTOM;w_LEFT;w_HALF;w_BRACKET]);
  (0x2e25, [w_BOTTOM;w_RIGHT;w_HALF;w_BRACKET]);
  (0x2e26, [w_LEFT;w_SIDEWAYS;w_U;w_BRACKET]);
  (0x2e27, [w_RIGHT;w_SIDEWAYS;w_U;w_BRACKET]);
  (0x2e28, [w_LEFT;w_DOUBLE;w_PARENTHESIS]);
  (0x2e29, [w_RIGHT;w_DOUBLE;w_PARENTHESIS]);
  (0x2e2a, [w_TWO;w_DOTS;w_OVER;w_ONE;w_DOT;w_PUNCTUATION]);
  (0x2e2b, [w_ONE;w_DOT;w_OVER;w_TWO;w_DOTS;w_PUNCTUATION]);
  (0x2e2c, [w_SQUARED;w_FOUR;w_DOT;w_PUNCTUATION]);
  (0x2e2d, [w_FIVE;w_DOT;w_MARK]);
  (0x2e2e, [w_REVERSED;w_QUESTION;w_MARK]);
  (0x2e2f, [w_VERTICAL;w_TILDE]);
  (0x2e30, [w_RING;w_POINT]);
  (0x2e31, [w_WORD;w_SEPARATOR;w_MIDDLE;w_DOT]);
  (0x2e32, [w_TURNED;w_COMMA]);
  (0x2e33, [w_RAISED;w_DOT]);
  (0x2e34, [w_RAISED;w_COMMA]);
  (0x2e35, [w_TURNED;w_SEMICOLON]);
  (0x2e36, [w_DAGGER;w_WITH;w_LEFT;w_GUARD]);
  (0x2e37, [w_DAGGER;w_WITH;w_RIGHT;w_GUARD]);
  (0x2e38, [w_TURNED;w_DAGGER]);
  (0x2e39, [w_TOP;w_HALF;w_SECTION;w_SIGN]);
  (0x2e3a, [w_TWO_EM;w_DASH]);
  (0x2e3b, [w_THREE_EM;w_DASH]);
  (0x2e3c, [w_STENOGRAPHIC;w_FULL;w_STOP]);
  (0x2e3d, [w_VERTICAL;w_SIX;w_DOTS]);
  (0x2e3e, [w_WIGGLY;w_VERTICAL;w_LINE]);
  (0x2e3f, [w_CAPITULUM]);
  (0x2e40, [w_DOUBLE;w_HYPHEN]);
  (0x2e41, [w_REVERSED;w_COMMA]);
  (0x2e42, [w_DOUBLE;w_LOW_REVERSED_9;w_QUOTATION;w_MARK]);
  (0x2e43, [w_DASH;w_WITH;w_LEFT;w_UPTURN]);
  (0x2e44, [w_DOUBLE;w_SUSPENSION;w_MARK]);
  (0x2e45, [w_INVERTED;w_LOW;w_KAVYKA]);
  (0x2e46, [w_INVERTED;w_LOW;w_KAVYKA;w_WITH;w_KAVYKA;w_ABOVE]);
  (0x2e47, [w_LOW;w_KAVYKA]);
  (0x2e48, [w_LOW;w_KAVYKA;w_WITH;w_DOT]);
  (0x2e49, [w_DOUBLE;w_STACKED;w_COMMA]);
  (0x2e80, [w_CJK;w_RADICAL;w_REPEAT]);
  (0x2e81, [w_CJK;w_RADICAL;w_CLIFF]);
  (0x2e82, [w_CJK;w_RADICAL;w_SECOND;w_ONE]);
  (0x2e83, [w_CJK;w_RADICAL;w_SECOND;w_TWO]);
  (0x2e84, [w_CJK;w_RADICAL;w_SECOND;w_THREE]);
  (0x2e85, [w_CJK;w_RADICAL;w_PERSON]);
  (0x2e86, [w_CJK;w_RADICAL;w_BOX]);
  (0x2e87, [w_CJK;w_RADICAL;w_TABLE]);
  (0x2e88, [w_CJK;w_RADICAL;w_KNIFE;w_ONE]);
  (0x2e89, [w_CJK;w_RADICAL;w_KNIFE;w_TWO]);
  (0x2e8a, [w_CJK;w_RADICAL;w_DIVINATION]);
  (0x2e8b, [w_CJK;w_RADICAL;w_SEAL]);
  (0x2e8c, [w_CJK;w_RADICAL;w_SMALL;w_ONE]);
  (0x2e8d, [w_CJK;w_RADICAL;w_SMALL;w_TWO]);
  (0x2e8e, [w_CJK;w_RADICAL;w_LAME;w_ONE]);
  (0x2e8f, [w_CJK;w_RADICAL;w_LAME;w_TWO]);
  (0x2e90, [w_CJK;w_RADICAL;w_LAME;w_THREE]);
  (0x2e91, [w_CJK;w_RADICAL;w_LAME;w_FOUR]);
  (0x2e92, [w_CJK;w_RADICAL;w_SNAKE]);
  (0x2e93, [w_CJK;w_RADICAL;w_THREAD]);
  (0x2e94, [w_CJK;w_RADICAL;w_SNOUT;w_ONE]);
  (0x2e95, [w_CJK;w_RADICAL;w_SNOUT;w_TWO]);
  (0x2e96, [w_CJK;w_RADICAL;w_HEART;w_ONE]);
  (0x2e97, [w_CJK;w_RADICAL;w_HEART;w_TWO]);
  (0x2e98, [w_CJK;w_RADICAL;w_HAND]);
  (0x2e99, [w_CJK;w_RADICAL;w_RAP]);
  (0x2e9b, [w_CJK;w_RADICAL;w_CHOKE]);
  (0x2e9c, [w_CJK;w_RADICAL;w_SUN]);
  (0x2e9d, [w_CJK;w_RADICAL;w_MOON]);
  (0x2e9e, [w_CJK;w_RADICAL;w_DEATH]);
  (0x2e9f, [w_CJK;w_RADICAL;w_MOTHER]);
  (0x2ea0, [w_CJK;w_RADICAL;w_CIVILIAN]);
  (0x2ea1, [w_CJK;w_RADICAL;w_WATER;w_ONE]);
  (0x2ea2, [w_CJK;w_RADICAL;w_WATER;w_TWO]);
  (0x2ea3, [w_CJK;w_RADICAL;w_FIRE]);
  (0x2ea4, [w_CJK;w_RADICAL;w_PAW;w_ONE]);
  (0x2ea5, [w_CJK;w_RADICAL;w_PAW;w_TWO]);
  (0x2ea6, [w_CJK;w_RADICAL;w_SIMPLIFIED;w_HALF;w_TREE;w_TRUNK]);
  (0x2ea7, [w_CJK;w_RADICAL;w_COW]);
  (0x2ea8, [w_CJK;w_RADICAL;w_DOG]);
  (0x2ea9, [w_CJK;w_RADICAL;w_JADE]);
  (0x2eaa, [w_CJK;w_RADICAL;w_BOLT;w_OF;w_CLOTH]);
  (0x2eab, [w_CJK;w_RADICAL;w_EYE]);
  (0x2eac, [w_CJK;w_RADICAL;w_SPIRIT;w_ONE]);
  (0x2ead, [w_CJK;w_RADICAL;w_SPIRIT;w_TWO]);
  (0x2eae, [w_CJK;w_RADICAL;w_BAMBOO]);
  (0x2eaf, [w_CJK;w_RADICAL;w_SILK]);
  (0x2eb0, [w_CJK;w_RADICAL;w_C_SIMPLIFIED;w_SILK]);
  (0x2eb1, [w_CJK;w_RADICAL;w_NET;w_ONE]);
  (0x2eb2, [w_CJK;w_RADICAL;w_NET;w_TWO]);
  (0x2eb3, [w_CJK;w_RADICAL;w_NET;w_THREE]);
  (0x2eb4, [w_CJK;w_RADICAL;w_NET;w_FOUR]);
  (0x2eb5, [w_CJK;w_RADICAL;w_MESH]);
  (0x2eb6, [w_CJK;w_RADICAL;w_SHEEP]);
  (0x2eb7, [w_CJK;w_RADICAL;w_RAM]);
  (0x2eb8, [w_CJK;w_RADICAL;w_EWE]);
  (0x2eb9, [w_CJK;w_RADICAL;w_OLD]);
  (0x2eba, [w_CJK;w_RADICAL;w_BRUSH;w_ONE]);
  (0x2ebb, [w_CJK;w_RADICAL;w_BRUSH;w_TWO]);
  (0x2ebc, [w_CJK;w_RADICAL;w_MEAT]);
  (0x2ebd, [w_CJK;w_RADICAL;w_MORTAR]);
  (0x2ebe, [w_CJK;w_RADICAL;w_GRASS;w_ONE]);
  (0x2ebf, [w_CJK;w_RADICAL;w_GRASS;w_TWO]);
  (0x2ec0, [w_CJK;w_RADICAL;w_GRASS;w_THREE]);
  (0x2ec1, [w_CJK;w_RADICAL;w_TIGER]);
  (0x2ec2, [w_CJK;w_RADICAL;w_CLOTHES]);
  (0x2ec3, [w_CJK;w_RADICAL;w_WEST;w_ONE]);
  (0x2ec4, [w_CJK;w_RADICAL;w_WEST;w_TWO]);
  (0x2ec5, [w_CJK;w_RADICAL;w_C_SIMPLIFIED;w_SEE]);
  (0x2ec6, [w_CJK;w_RADICAL;w_SIMPLIFIED;w_HORN]);
  (0x2ec7, [w_CJK;w_RADICAL;w_HORN]);
  (0x2ec8, [w_CJK;w_RADICAL;w_C_SIMPLIFIED;w_SPEECH]);
  (0x2ec9, [w_CJK;w_RADICAL;w_C_SIMPLIFIED;w_SHELL]);
  (0x2eca, [w_CJK;w_RADICAL;w_FOOT]);
  (0x2ecb, [w_CJK;w_RADICAL;w_C_SIMPLIFIED;w_CART]);
  (0x2ecc, [w_CJK;w_RADICAL;w_SIMPLIFIED;w_WALK]);
  (0x2ecd, [w_CJK;w_RADICAL;w_WALK;w_ONE]);
  (0x2ece, [w_CJK;w_RADICAL;w_WALK;w_TWO]);
  (0x2ecf, [w_CJK;w_RADICAL;w_CITY]);
  (0x2ed0, [w_CJK;w_RADICAL;w_C_SIMPLIFIED;w_GOLD]);
  (0x2ed1, [w_CJK;w_RADICAL;w_LONG;w_ONE]);
  (0x2ed2, [w_CJK;w_RADICAL;w_LONG;w_TWO]);
  (0x2ed3, [w_CJK;w_RADICAL;w_C_SIMPLIFIED;w_LONG]);
  (0x2ed4, [w_CJK;w_RADICAL;w_C_SIMPLIFIED;w_GATE]);
  (0x2ed5, [w_CJK;w_RADICAL;w_MOUND;w_ONE]);
  (0x2ed6, [w_CJK;w_RADICAL;w_MOUND;w_TWO]);
  (0x2ed7, [w_CJK;w_RADICAL;w_RAIN]);
  (0x2ed8, [w_CJK;w_RADICAL;w_BLUE]);
  (0x2ed9, [w_CJK;w_RADICAL;w_C_SIMPLIFIED;w_TANNED;w_LEATHER]);
  (0x2eda, [w_CJK;w_RADICAL;w_C_SIMPLIFIED;w_LEAF]);
  (0x2edb, [w_CJK;w_RADICAL;w_C_SIMPLIFIED;w_WIND]);
  (0x2edc, [w_CJK;w_RADICAL;w_C_SIMPLIFIED;w_FLY]);
  (0x2edd, [w_CJK;w_RADICAL;w_EAT;w_ONE]);
  (0x2ede, [w_CJK;w_RADICAL;w_EAT;w_TWO]);
  (0x2edf, [w_CJK;w_RADICAL;w_EAT;w_THREE]);
  (0x2ee0, [w_CJK;w_RADICAL;w_C_SIMPLIFIED;w_EAT]);
  (0x2ee1, [w_CJK;w_RADICAL;w_HEAD]);
  (0x2ee2, [w_CJK;w_RADICAL;w_C_SIMPLIFIED;w_HORSE]);
  (0x2ee3, [w_CJK;w_RADICAL;w_BONE]);
  (0x2ee4, [w_CJK;w_RADICAL;w_GHOST]);
  (0x2ee5, [w_CJK;w_RADICAL;w_C_SIMPLIFIED;w_FISH]);
  (0x2ee6, [w_CJK;w_RADICAL;w_C_SIMPLIFIED;w_BIRD]);
  (0x2ee7, [w_CJK;w_RADICAL;w_C_SIMPLIFIED;w_SALT]);
  (0x2ee8, [w_CJK;w_RADICAL;w_SIMPLIFIED;w_WHEAT]);
  (0x2ee9, [w_CJK;w_RADICAL;w_SIMPLIFIED;w_YELLOW]);
  (0x2eea, [w_CJK;w_RADICAL;w_C_SIMPLIFIED;w_FROG]);
  (0x2eeb, [w_CJK;w_RADICAL;w_J_SIMPLIFIED;w_EVEN]);
  (0x2eec, [w_CJK;w_RADICAL;w_C_SIMPLIFIED;w_EVEN]);
  (0x2eed, [w_CJK;w_RADICAL;w_J_SIMPLIFIED;w_TOOTH]);
  (0x2eee, [w_CJK;w_RADICAL;w_C_SIMPLIFIED;w_TOOTH]);
  (0x2eef, [w_CJK;w_RADICAL;w_J_SIMPLIFIED;w_DRAGON]);
  (0x2ef0, [w_CJK;w_RADICAL;w_C_SIMPLIFIED;w_DRAGON]);
  (0x2ef1, [w_CJK;w_RADICAL;w_TURTLE]);
  (0x2ef2, [w_CJK;w_RADICAL;w_J_SIMPLIFIED;w_TURTLE]);
  (0x2ef3, [w_CJK;w_RADICAL;w_C_SIMPLIFIED;w_TURTLE]);
  (0x2f00, [w_KANGXI;w_RADICAL;w_ONE]);
  (0x2f01, [w_KANGXI;w_RADICAL;w_LINE]);
  (0x2f02, [w_KANGXI;w_RADICAL;w_DOT]);
  (0x2f03, [w_KANGXI;w_RADICAL;w_SLASH]);
  (0x2f04, [w_KANGXI;w_RADICAL;w_SECOND]);
  (0x2f05, [w_KANGXI;w_RADICAL;w_HOOK]);
  (0x2f06, [w_KANGXI;w_RADICAL;w_TWO]);
  (0x2f07, [w_KANGXI;w_RADICAL;w_LID]);
  (0x2f08, [w_KANGXI;w_RADICAL;w_MAN]);
  (0x2f09, [w_KANGXI;w_RADICAL;w_LEGS]);
  (0x2f0a, [w_KANGXI;w_RADICAL;w_ENTER]);
  (0x2f0b, [w_KANGXI;w_RADICAL;w_EIGHT]);
  (0x2f0c, [w_KANGXI;w_RADICAL;w_DOWN;w_BOX]);
  (0x2f0d, [w_KANGXI;w_RADICAL;w_COVER]);
  (0x2f0e, [w_KANGXI;w_RADICAL;w_ICE]);
  (0x2f0f, [w_KANGXI;w_RADICAL;w_TABLE]);
  (0x2f10, [w_KANGXI;w_RADICAL;w_OPEN;w_BOX]);
  (0x2f11, [w_KANGXI;w_RADICAL;w_KNIFE]);
  (0x2f12, [w_KANGXI;w_RADICAL;w_POWER]);
  (0x2f13, [w_KANGXI;w_RADICAL;w_WRAP]);
  (0x2f14, [w_KANGXI;w_RADICAL;w_SPOON]);
  (0x2f15, [w_KANGXI;w_RADICAL;w_RIGHT;w_OPEN;w_BOX]);
  (0x2f16, [w_KANGXI;w_RADICAL;w_HIDING;w_ENCLOSURE]);
  (0x2f17, [w_KANGXI;w_RADICAL;w_TEN]);
  (0x2f18, [w_KANGXI;w_RADICAL;w_DIVINATION]);
  (0x2f19, [w_KANGXI;w_RADICAL;w_SEAL]);
  (0x2f1a, [w_KANGXI;w_RADICAL;w_CLIFF]);
  (0x2f1b, [w_KANGXI;w_RADICAL;w_PRIVATE]);
  (0x2f1c, [w_KANGXI;w_RADICAL;w_AGAIN]);
  (0x2f1d, [w_KANGXI;w_RADICAL;w_MOUTH]);
  (0x2f1e, [w_KANGXI;w_RADICAL;w_ENCLOSURE]);
  (0x2f1f, [w_KANGXI;w_RADICAL;w_EARTH]);
  (0x2f20, [w_KANGXI;w_RADICAL;w_SCHOLAR]);
  (0x2f21, [w_KANGXI;w_RADICAL;w_GO]);
  (0x2f22, [w_KANGXI;w_RADICAL;w_GO;w_SLOWLY]);
  (0x2f23, [w_KANGXI;w_RADICAL;w_EVENING]);
  (0x2f24, [w_KANGXI;w_RADICAL;w_BIG]);
  (0x2f25, [w_KANGXI;w_RADICAL;w_WOMAN]);
  (0x2f26, [w_KANGXI;w_RADICAL;w_CHILD]);
  (0x2f27, [w_KANGXI;w_RADICAL;w_ROOF]);
  (0x2f28, [w_KANGXI;w_RADICAL;w_INCH]);
  (0x2f29, [w_KANGXI;w_RADICAL;w_SMALL]);
  (0x2f2a, [w_KANGXI;w_RADICAL;w_LAME]);
  (0x2f2b, [w_KANGXI;w_RADICAL;w_CORPSE]);
  (0x2f2c, [w_KANGXI;w_RADICAL;w_SPROUT]);
  (0x2f2d, [w_KANGXI;w_RADICAL;w_MOUNTAIN]);
  (0x2f2e, [w_KANGXI;w_RADICAL;w_RIVER]);
  (0x2f2f, [w_KANGXI;w_RADICAL;w_WORK]);
  (0x2f30, [w_KANGXI;w_RADICAL;w_ONESELF]);
  (0x2f31, [w_KANGXI;w_RADICAL;w_TURBAN]);
  (0x2f32, [w_KANGXI;w_RADICAL;w_DRY]);
  (0x2f33, [w_KANGXI;w_RADICAL;w_SHORT;w_THREAD]);
  (0x2f34, [w_KANGXI;w_RADICAL;w_DOTTED;w_CLIFF]);
  (0x2f35, [w_KANGXI;w_RADICAL;w_LONG;w_STRIDE]);
  (0x2f36, [w_KANGXI;w_RADICAL;w_TWO;w_HANDS]);
  (0x2f37, [w_KANGXI;w_RADICAL;w_SHOOT]);
  (0x2f38, [w_KANGXI;w_RADICAL;w_BOW]);
  (0x2f39, [w_KANGXI;w_RADICAL;w_SNOUT]);
  (0x2f3a, [w_KANGXI;w_RADICAL;w_BRISTLE]);
  (0x2f3b, [w_KANGXI;w_RADICAL;w_STEP]);
  (0x2f3c, [w_KANGXI;w_RADICAL;w_HEART]);
  (0x2f3d, [w_KANGXI;w_RADICAL;w_HALBERD]);
  (0x2f3e, [w_KANGXI;w_RADICAL;w_DOOR]);
  (0x2f3f, [w_KANGXI;w_RADICAL;w_HAND]);
  (0x2f40, [w_KANGXI;w_RADICAL;w_BRANCH]);
  (0x2f41, [w_KANGXI;w_RADICAL;w_RAP]);
  (0x2f42, [w_KANGXI;w_RADICAL;w_SCRIPT]);
  (0x2f43, [w_KANGXI;w_RADICAL;w_DIPPER]);
  (0x2f44, [w_KANGXI;w_RADICAL;w_AXE]);
  (0x2f45, [w_KANGXI;w_RADICAL;w_SQUARE]);
  (0x2f46, [w_KANGXI;w_RADICAL;w_NOT]);
  (0x2f47, [w_KANGXI;w_RADICAL;w_SUN]);
  (0x2f48, [w_KANGXI;w_RADICAL;w_SAY]);
  (0x2f49, [w_KANGXI;w_RADICAL;w_MOON]);
  (0x2f4a, [w_KANGXI;w_RADICAL;w_TREE]);
  (0x2f4b, [w_KANGXI;w_RADICAL;w_LACK]);
  (0x2f4c, [w_KANGXI;w_RADICAL;w_STOP]);
  (0x2f4d, [w_KANGXI;w_RADICAL;w_DEATH]);
  (0x2f4e, [w_KANGXI;w_RADICAL;w_WEAPON]);
  (0x2f4f, [w_KANGXI;w_RADICAL;w_DO;w_NOT]);
  (0x2f50, [w_KANGXI;w_RADICAL;w_COMPARE]);
  (0x2f51, [w_KANGXI;w_RADICAL;w_FUR]);
  (0x2f52, [w_KANGXI;w_RADICAL;w_CLAN]);
  (0x2f53, [w_KANGXI;w_RADICAL;w_STEAM]);
  (0x2f54, [w_KANGXI;w_RADICAL;w_WATER]);
  (0x2f55, [w_KANGXI;w_RADICAL;w_FIRE]);
  (0x2f56, [w_KANGXI;w_RADICAL;w_CLAW]);
  (0x2f57, [w_KANGXI;w_RADICAL;w_FATHER]);
  (0x2f58, [w_KANGXI;w_RADICAL;w_DOUBLE;w_X]);
  (0x2f59, [w_KANGXI;w_RADICAL;w_HALF;w_TREE;w_TRUNK]);
  (0x2f5a, [w_KANGXI;w_RADICAL;w_SLICE]);
  (0x2f5b, [w_KANGXI;w_RADICAL;w_FANG]);
  (0x2f5c, [w_KANGXI;w_RADICAL;w_COW]);
  (0x2f5d, [w_KANGXI;w_RADICAL;w_DOG]);
  (0x2f5e, [w_KANGXI;w_RADICAL;w_PROFOUND]);
  (0x2f5f, [w_KANGXI;w_RADICAL;w_JADE]);
  (0x2f60, [w_KANGXI;w_RADICAL;w_MELON]);
  (0x2f61, [w_KANGXI;w_RADICAL;w_TILE])].

Definition NAMES_27 : list (N * (list str)) := [
  (0x2f62, [w_KANGXI;w_RADICAL;w_SWEET]);
  (0x2f63, [w_KANGXI;w_RADICAL;w_LIFE]);
  (0x2f64, [w_KANGXI;w_RADICAL;w_USE]);
  (0x2f65, [w_KANGXI;w_RADICAL;w_FIELD]);
  (0x2f66, [w_KANGXI;w_RADICAL;w_BOLT;w_OF;w_CLOTH]);
  (0x2f67, [w_KANGXI;w_RADICAL;w_SICKNESS]);
  (0x2f68, [w_KANGXI;w_RADICAL;w_DOTTED;w_TENT]);
  (0x2f69, [w_KANGXI;w_RADICAL;w_WHITE]);
  (0x2f6a, [w_KANGXI;w_RADICAL;w_SKIN]);
  (0x2f6b, [w_KANGXI;w_RADICAL;w_DISH]);
  (0x2f6c, [w_KANGXI;w_RADICAL;w_EYE]);
  (0x2f6d, [w_KANGXI;w_RADICAL;w_SPEAR]);
  (0x2f6e, [w_KANGXI;w_RADICAL;w_ARROW]);
  (0x2f6f, [w_KANGXI;w_RADICAL;w_STONE]);
  (0x2f70, [w_KANGXI;w_RADICAL;w_SPIRIT]);
  (0x2f71, [w_KANGXI;w_RADICAL;w_TRACK]);
  (0x2f72, [w_KANGXI;w_RADICAL;w_GRAIN]);
  (0x2f73, [w_KANGXI;w_RADICAL;w_CAVE]);
  (0x2f74, [w_KANGXI;w_RADICAL;w_STAND]);
  (0x2f75, [w_KANGXI;w_RADICAL;w_BAMBOO]);
  (0x2f76, [w_KANGXI;w_RADICAL;w_RICE]);
  (0x2f77, [w_KANGXI;w_RADICAL;w_SILK]);
  (0x2f78, [w_KANGXI;w_RADICAL;w_JAR]);
  (0x2f79, [w_KANGXI;w_RADICAL;w_NET]);
  (0x2f7a, [w_KANGXI;w_RADICAL;w_SHEEP]);
  (0x2f7b, [w_KANGXI;w_RADICAL;w_FEATHER]);
  (0x2f7c, [w_KANGXI;w_RADICAL;w_OLD]);
  (0x2f7d, [w_KANGXI;w_RADICAL;w_AND]);
  (0x2f7e, [w_KANGXI;w_RADICAL;w_PLOW]);
  (0x2f7f, [w_KANGXI;w_RADICAL;w_EAR]);
  (0x2f80, [w_KANGXI;w_RADICAL;w_BRUSH]);
  (0x2f81, [w_KANGXI;w_RADICAL;w_MEAT]);
  (0x2f82, [w_KANGXI;w_RADICAL;w_MINISTER]);
  (0x2f83, [w_KANGXI;w_RADICAL;w_SELF]);
  (0x2f84, [w_KANGXI;w_RADICAL;w_ARRIVE]);
  (0x2f85, [w_KANGXI;w_RADICAL;w_MORTAR]);
  (0x2f86, [w_KANGXI;w_RADICAL;w_TONGUE]);
  (0x2f87, [w_KANGXI;w_RADICAL;w_OPPOSE]);
  (0x2f88, [w_KANGXI;w_RADICAL;w_BOAT]);
  (0x2f89, [w_KANGXI;w_RADICAL;w_STOPPING]);
  (0x2f8a, [w_KANGXI;w_RADICAL;w_COLOR]);
  (0x2f8b, [w_KANGXI;w_RADICAL;w_GRASS]);
  (0x2f8c, [w_KANGXI;w_RADICAL;w_TIGER]);
  (0x2f8d, [w_KANGXI;w_RADICAL;w_INSECT]);
  (0x2f8e, [w_KANGXI;w_RADICAL;w_BLOOD]);
  (0x2f8f, [w_KANGXI;w_RADICAL;w_WALK;w_ENCLOSURE]);
  (0x2f90, [w_KANGXI;w_RADICAL;w_CLOTHES]);
  (0x2f91, [w_KANGXI;w_RADICAL;w_WEST]);
  (0x2f92, [w_KANGXI;w_RADICAL;w_SEE]);
  (0x2f93, [w_KANGXI;w_RADICAL;w_HORN]);
  (0x2f94, [w_KANGXI;w_RADICAL;w_SPEECH]);
  (0x2f95, [w_KANGXI;w_RADICAL;w_VALLEY]);
  (0x2f96, [w_KANGXI;w_RADICAL;w_BEAN]);
  (0x2f97, [w_KANGXI;w_RADICAL;w_PIG]);
  (0x2f98, [w_KANGXI;w_RADICAL;w_BADGER]);
  (0x2f99, [w_KANGXI;w_RADICAL;w_SHELL]);
  (0x2f9a, [w_KANGXI;w_RADICAL;w_RED]);
  (0x2f9b, [w_KANGXI;w_RADICAL;w_RUN]);
  (0x2f9c, [w_KANGXI;w_RADICAL;w_FOOT]);
  (0x2f9d, [w_KANGXI;w_RADICAL;w_BODY]);
  (0x2f9e, [w_KANGXI;w_RADICAL;w_CART]);
  (0x2f9f, [w_KANGXI;w_RADICAL;w_BITTER]);
  (0x2fa0, [w_KANGXI;w_RADICAL;w_MORNING]);
  (0x2fa1, [w_KANGXI;w_RADICAL;w_WALK]);
  (0x2fa2, [w_KANGXI;w_RADICAL;w_CITY]);
  (0x2fa3, [w_KANGXI;w_RADICAL;w_WINE]);
  (0x2fa4, [w_KANGXI;w_RADICAL;w_DISTINGUISH]);
  (0x2fa5, [w_KANGXI;w_RADICAL;w_VILLAGE]);
  (0x2fa6, [w_KANGXI;w_RADICAL;w_GOLD]);
  (0x2fa7, [w_KANGXI;w_RADICAL;w_LONG]);
  (0x2fa8, [w_KANGXI;w_RADICAL;w_GATE]);
  (0x2fa9, [w_KANGXI;w_RADICAL;w_MOUND]);
  (0x2faa, [w_KANGXI;w_RADICAL;w_SLAVE]);
  (0x2fab, [w_KANGXI;w_RADICAL;w_SHORT;w_TAILED;w_BIRD]);
  (0x2fac, [w_KANGXI;w_RADICAL;w_RAIN]);
  (0x2fad, [w_KANGXI;w_RADICAL;w_BLUE]);
  (0x2fae, [w_KANGXI;w_RADICAL;w_WRONG]);
  (0x2faf, [w_KANGXI;w_RADICAL;w_FACE]);
  (0x2fb0, [w_KANGXI;w_RADICAL;w_LEATHER]);
  (0x2fb1, [w_KANGXI;w_RADICAL;w_TANNED;w_LEATHER]);
  (0x2fb2, [w_KANGXI;w_RADICAL;w_LEEK]);
  (0x2fb3, [w_KANGXI;w_RADICAL;w_SOUND]);
  (0x2fb4, [w_KANGXI;w_RADICAL;w_LEAF]);
  (0x2fb5, [w_KANGXI;w_RADICAL;w_WIND]);
  (0x2fb6, [w_KANGXI;w_RADICAL;w_FLY]);
  (0x2fb7, [w_KANGXI;w_RADICAL;w_EAT]);
  (0x2fb8, [w_KANGXI;w_RADICAL;w_HEAD]);
  (0x2fb9, [w_KANGXI;w_RADICAL;w_FRAGRANT]);
  (0x2fba, [w_KANGXI;w_RADICAL;w_HORSE]);
  (0x2fbb, [w_KANGXI;w_RADICAL;w_BONE]);
  (0x2fbc, [w_KANGXI;w_RADICAL;w_TALL]);
  (0x2fbd, [w_KANGXI;w_RADICAL;w_HAIR]);
  (0x2fbe, [w_KANGXI;w_RADICAL;w_FIGHT]);
  (0x2fbf, [w_KANGXI;w_RADICAL;w_SACRIFICIAL;w_WINE]);
  (0x2fc0, [w_KANGXI;w_RADICAL;w_CAULDRON]);
  (0x2fc1, [w_KANGXI;w_RADICAL;w_GHOST]);
  (0x2fc2, [w_KANGXI;w_RADICAL;w_FISH]);
  (0x2fc3, [w_KANGXI;w_RADICAL;w_BIRD]);
  (0x2fc4, [w_KANGXI;w_RADICAL;w_SALT]);
  (0x2fc5, [w_KANGXI;w_RADICAL;w_DEER]);
  (0x2fc6, [w_KANGXI;w_RADICAL;w_WHEAT]);
  (0x2fc7, [w_KANGXI;w_RADICAL;w_HEMP]);
  (0x2fc8, [w_KANGXI;w_RADICAL;w_YELLOW]);
  (0x2fc9, [w_KANGXI;w_RADICAL;w_MILLET]);
  (0x2fca, [w_KANGXI;w_RADICAL;w_BLACK]);
  (0x2fcb, [w_KANGXI;w_RADICAL;w_EMBROIDERY]);
  (0x2fcc, [w_KANGXI;w_RADICAL;w_FROG]);
  (0x2fcd, [w_KANGXI;w_RADICAL;w_TRIPOD]);
  (0x2fce, [w_KANGXI;w_RADICAL;w_DRUM]);
  (0x2fcf, [w_KANGXI;w_RADICAL;w_RAT]);
  (0x2fd0, [w_KANGXI;w_RADICAL;w_NOSE]);
  (0x2fd1, [w_KANGXI;w_RADICAL;w_EVEN]);
  (0x2fd2, [w_KANGXI;w_RADICAL;w_TOOTH]);
  (0x2fd3, [w_KANGXI;w_RADICAL;w_DRAGON]);
  (0x2fd4, [w_KANGXI;w_RADICAL;w_TURTLE]);
  (0x2fd5, [w_KANGXI;w_RADICAL;w_FLUTE]);
  (0x2ff0, [w_IDEOGRAPHIC;w_DESCRIPTION;w_CHARACTER;w_LEFT;w_TO;w_RIGHT]);
  (0x2ff1, [w_IDEOGRAPHIC;w_DESCRIPTION;w_CHARACTER;w_ABOVE;w_TO;w_BELOW]);
  (0x2ff2, [w_IDEOGRAPHIC;w_DESCRIPTION;w_CHARACTER;w_LEFT;w_TO;w_MIDDLE;w_AND;w_RIGHT]);
  (0x2ff3, [w_IDEOGRAPHIC;w_DESCRIPTION;w_CHARACTER;w_ABOVE;w_TO;w_MIDDLE;w_AND;w_BELOW]);
  (0x2ff4, [w_IDEOGRAPHIC;w_DESCRIPTION;w_CHARACTER;w_FULL;w_SURROUND]);
  (0x2ff5, [w_IDEOGRAPHIC;w_DESCRIPTION;w_CHARACTER;w_SURROUND;w_FROM;w_ABOVE]);
  (0x2ff6, [w_IDEOGRAPHIC;w_DESCRIPTION;w_CHARACTER;w_SURROUND;w_FROM;w_BELOW]);
  (0x2ff7, [w_IDEOGRAPHIC;w_DESCRIPTION;w_CHARACTER;w_SURROUND;w_FROM;w_LEFT]);
  (0x2ff8, [w_IDEOGRAPHIC;w_DESCRIPTION;w_CHARACTER;w_SURROUND;w_FROM;w_UPPER;w_LEFT]);
  (0x2ff9, [w_IDEOGRAPHIC;w_DESCRIPTION;w_CHARACTER;w_SURROUND;w_FROM;w_UPPER;w_RIGHT]);
  (0x2ffa, [w_IDEOGRAPHIC;w_DESCRIPTION;w_CHARACTER;w_SURROUND;w_FROM;w_LOWER;w_LEFT]);
  (0x2ffb, [w_IDEOGRAPHIC;w_DESCRIPTION;w_CHARACTER;w_OVERLAID]);
  (0x3000, [w_IDEOGRAPHIC;w_SPACE]);
  (0x3001, [w_IDEOGRAPHIC;w_COMMA]);
  (0x3002, [w_IDEOGRAPHIC;w_FULL;w_STOP]);
  (0x3003, [w_DITTO;w_MARK]);
  (0x3004, [w_JAPANESE;w_INDUSTRIAL;w_STANDARD;w_SYMBOL]);
  (0x3005, [w_IDEOGRAPHIC;w_ITERATION;w_MARK]);
  (0x3006, [w_IDEOGRAPHIC;w_CLOSING;w_MARK]);
  (0x3007, [w_IDEOGRAPHIC;w_NUMBER;w_ZERO]);
  (0x3008, [w_LEFT;w_ANGLE;w_BRACKET]);
  (0x3009, [w_RIGHT;w_ANGLE;w_BRACKET]);
  (0x300a, [w_LEFT;w_DOUBLE;w_ANGLE;w_BRACKET]);
  (0x300b, [w_RIGHT;w_DOUBLE;w_ANGLE;w_BRACKET]);
  (0x300c, [w_LEFT;w_CORNER;w_BRACKET]);
  (0x300d, [w_RIGHT;w_CORNER;w_BRACKET]);
  (0x300e, [w_LEFT;w_WHITE;w_CORNER;w_BRACKET]);
  (0x300f, [w_RIGHT;w_WHITE;w_CORNER;w_BRACKET]);
  (0x3010, [w_LEFT;w_BLACK;w_LENTICULAR;w_BRACKET]);
  (0x3011, [w_RIGHT;w_BLACK;w_LENTICULAR;w_BRACKET]);
  (0x3012, [w_POSTAL;w_MARK]);
  (0x3013, [w_GETA;w_MARK]);
  (0x3014, [w_LEFT;w_TORTOISE;w_SHELL;w_BRACKET]);
  (0x3015, [w_RIGHT;w_TORTOISE;w_SHELL;w_BRACKET]);
  (0x3016, [w_LEFT;w_WHITE;w_LENTICULAR;w_BRACKET]);
  (0x3017, [w_RIGHT;w_WHITE;w_LENTICULAR;w_BRACKET]);
  (0x3018, [w_LEFT;w_WHITE;w_TORTOISE;w_SHELL;w_BRACKET]);
  (0x3019, [w_RIGHT;w_WHITE;w_TORTOISE;w_SHELL;w_BRACKET]);
  (0x301a, [w_LEFT;w_WHITE;w_SQUARE;w_BRACKET]);
  (0x301b, [w_RIGHT;w_WHITE;w_SQUARE;w_BRACKET]);
  (0x301c, [w_WAVE;w_DASH]);
  (0x301d, [w_REVERSED;w_DOUBLE;w_PRIME;w_QUOTATION;w_MARK]);
  (0x301e, [w_DOUBLE;w_PRIME;w_QUOTATION;w_MARK]);
  (0x301f, [w_LOW;w_DOUBLE;w_PRIME;w_QUOTATION;w_MARK]);
  (0x3020, [w_POSTAL;w_MARK;w_FACE]);
  (0x3021, [w_HANGZHOU;w_NUMERAL;w_ONE]);
  (0x3022, [w_HANGZHOU;w_NUMERAL;w_TWO]);
  (0x3023, [w_HANGZHOU;w_NUMERAL;w_THREE]);
  (0x3024, [w_HANGZHOU;w_NUMERAL;w_FOUR]);
  (0x3025, [w_HANGZHOU;w_NUMERAL;w_FIVE]);
  (0x3026, [w_HANGZHOU;w_NUMERAL;w_SIX]);
  (0x3027, [w_HANGZHOU;w_NUMERAL;w_SEVEN]);
  (0x3028, [w_HANGZHOU;w_NUMERAL;w_EIGHT]);
  (0x3029, [w_HANGZHOU;w_NUMERAL;w_NINE]);
  (0x302a, [w_IDEOGRAPHIC;w_LEVEL;w_TONE;w_MARK]);
  (0x302b, [w_IDEOGRAPHIC;w_RISING;w_TONE;w_MARK]);
  (0x302c, [w_IDEOGRAPHIC;w_DEPARTING;w_TONE;w_MARK]);
  (0x302d, [w_IDEOGRAPHIC;w_ENTERING;w_TONE;w_MARK]);
  (0x302e, [w_HANGUL;w_SINGLE;w_DOT;w_TONE;w_MARK]);
  (0x302f, [w_HANGUL;w_DOUBLE;w_DOT;w_TONE;w_MARK]);
  (0x3030, [w_WAVY;w_DASH]);
  (0x3031, [w_VERTICAL;w_KANA;w_REPEAT;w_MARK]);
  (0x3032, [w_VERTICAL;w_KANA;w_REPEAT;w_WITH;w_VOICED;w_SOUND;w_MARK]);
  (0x3033, [w_VERTICAL;w_KANA;w_REPEAT;w_MARK;w_UPPER;w_HALF]);
  (0x3034, [w_VERTICAL;w_KANA;w_REPEAT;w_WITH;w_VOICED;w_SOUND;w_MARK;w_UPPER;w_HALF]);
  (0x3035, [w_VERTICAL;w_KANA;w_REPEAT;w_MARK;w_LOWER;w_HALF]);
  (0x3036, [w_CIRCLED;w_POSTAL;w_MARK]);
  (0x3037, [w_IDEOGRAPHIC;w_TELEGRAPH;w_LINE;w_FEED;w_SEPARATOR;w_SYMBOL]);
  (0x3038, [w_HANGZHOU;w_NUMERAL;w_TEN]);
  (0x3039, [w_HANGZHOU;w_NUMERAL;w_TWENTY]);
  (0x303a, [w_HANGZHOU;w_NUMERAL;w_THIRTY]);
  (0x303b, [w_VERTICAL;w_IDEOGRAPHIC;w_ITERATION;w_MARK]);
  (0x303c, [w_MASU;w_MARK]);
  (0x303d, [w_PART;w_ALTERNATION;w_MARK]);
  (0x303e, [w_IDEOGRAPHIC;w_VARIATION;w_INDICATOR]);
  (0x303f, [w_IDEOGRAPHIC;w_HALF;w_FILL;w_SPACE]);
  (0x3041, [w_HIRAGANA;w_LETTER;w_SMALL;w_A]);
  (0x3042, [w_HIRAGANA;w_LETTER;w_A]);
  (0x3043, [w_HIRAGANA;w_LETTER;w_SMALL;w_I]);
  (0x3044, [w_HIRAGANA;w_LETTER;w_I]);
  (0x3045, [w_HIRAGANA;w_LETTER;w_SMALL;w_U]);
  (0x3046, [w_HIRAGANA;w_LETTER;w_U]);
  (0x3047, [w_HIRAGANA;w_LETTER;w_SMALL;w_E]);
  (0x3048, [w_HIRAGANA;w_LETTER;w_E]);
  (0x3049, [w_HIRAGANA;w_LETTER;w_SMALL;w_O]);
  (0x304a, [w_HIRAGANA;w_LETTER;w_O]);
  (0x304b, [w_HIRAGANA;w_LETTER;w_KA]);
  (0x304c, [w_HIRAGANA;w_LETTER;w_GA]);
  (0x304d, [w_HIRAGANA;w_LETTER;w_KI]);
  (0x304e, [w_HIRAGANA;w_LETTER;w_GI]);
  (0x304f, [w_HIRAGANA;w_LETTER;w_KU]);
  (0x3050, [w_HIRAGANA;w_LETTER;w_GU]);
  (0x3051, [w_HIRAGANA;w_LETTER;w_KE]);
  (0x3052, [w_HIRAGANA;w_LETTER;w_GE]);
  (0x3053, [w_HIRAGANA;w_LETTER;w_KO]);
  (0x3054, [w_HIRAGANA;w_LETTER;w_GO]);
  (0x3055, [w_HIRAGANA;w_LETTER;w_SA]);
  (0x3056, [w_HIRAGANA;w_LETTER;w_ZA]);
  (0x3057, [w_HIRAGANA;w_LETTER;w_SI]);
  (0x3058, [w_HIRAGANA;w_LETTER;w_ZI]);
  (0x3059, [w_HIRAGANA;w_LETTER;w_SU]);
  (0x305a, [w_HIRAGANA;w_LETTER;w_ZU]);
  (0x305b, [w_HIRAGANA;w_LETTER;w_SE]);
  (0x305c, [w_HIRAGANA;w_LETTER;w_ZE]);
  (0x305d, [w_HIRAGANA;w_LETTER;w_SO]);
  (0x305e, [w_HIRAGANA;w_LETTER;w_ZO]);
  (0x305f, [w_HIRAGANA;w_LETTER;w_TA]);
  (0x3060, [w_HIRAGANA;w_LETTER;w_DA]);
  (0x3061, [w_HIRAGANA;w_LETTER;w_TI]);
  (0x3062, [w_HIRAGANA;w_LETTER;w_DI]);
  (0x3063, [w_HIRAGANA;w_LETTER;w_SMALL;w_TU]);
  (0x3064, [w_HIRAGANA;w_LETTER;w_TU]);
  (0x3065, [w_HIRAGANA;w_LETTER;w_DU]);
  (0x3066, [w_HIRAGANA;w_LETTER;w_TE]);
  (0x3067, [w_HIRAGANA;w_LETTER;w_DE]);
  (0x3068, [w_HIRAGANA;w_LETTER;w_TO]);
  (0x3069, [w_HIRAGANA;w_LETTER;w_DO]);
  (0x306a, [w_HIRAGANA;w_LETTER;w_NA]);
  (0x306b, [w_HIRAGANA;w_LETTER;w_NI]);
  (0x306c, [w_HIRAGANA;w_LETTER;w_NU]);
  (0x306d, [w_HIRAGANA;w_LETTER;w_NE]);
  (0x306e, [w_HIRAGANA;w_LETTER;w_NO]);
  (0x306f, [w_HIRAGANA;w_LETTER;w_HA]);
  (0x3070, [w_HIRAGANA;w_LETTER;w_BA]);
  (0x3071, [w_HIRAGANA;w_LETTER;w_PA]);
  (0x3072, [w_HIRAGANA;w_LETTER;w_HI]);
  (0x3073, [w_HIRAGANA;w_LETTER;w_BI]);
  (0x3074, [w_HIRAGANA;w_LETTER;w_PI]);
  (0x3075, [w_HIRAGANA;w_LETTER;w_HU]);
  (0x3076, [w_HIRAGANA;w_LETTER;w_BU]);
  (0x3077, [w_HIRAGANA;w_LETTER;w_PU]);
  (0x3078, [w_HIRAGANA;w_LETTER;w_HE]);
  (0x3079, [w_HIRAGANA;w_LETTER;w_BE]);
  (0x307a, [w_HIRAGANA;w_LETTER;w_PE]);
  (0x307b, [w_HIRAGANA;w_LETTER;w_HO]);
  (0x307c, [w_HIRAGANA;w_LETTER;w_BO]);
  (0x307d, [w_HIRAGANA;w_LETTER;w_PO]);
  (0x307e, [w_HIRAGANA;w_LETTER;w_MA]);
  (0x307f, [w_HIRAGANA;w_LETTER;w_MI]);
  (0x3080, [w_HIRAGANA;w_LETTER;w_MU]);
  (0x3081, [w_HIRAGANA;w_LETTER;w_ME]);
  (0x3082, [w_HIRAGANA;w_LETTER;w_MO]);
  (0x3083, [w_HIRAGANA;w_LETTER;w_SMALL;w_YA]);
  (0x3084, [w_HIRAGANA;w_LETTER;w_YA]);
  (0x3085, [w_HIRAGANA;w_LETTER;w_SMALL;w_YU]);
  (0x3086, [w_HIRAGANA;w_LETTER;w_YU]);
  (0x3087, [w_HIRAGANA;w_LETTER;w_SMALL;w_YO]);
  (0x3088, [w_HIRAGANA;w_LETTER;w_YO]);
  (0x3089, [w_HIRAGANA;w_LETTER;w_RA]);
  (0x308a, [w_HIRAGANA;w_LETTER;w_RI]);
  (0x308b, [w_HIRAGANA;w_LETTER;w_RU]);
  (0x308c, [w_HIRAGANA;w_LETTER;w_RE]);
  (0x308d, [w_HIRAGANA;w_LETTER;w_RO]);
  (0x308e, [w_HIRAGANA;w_LETTER;w_SMALL;w_WA]);
  (0x308f, [w_HIRAGANA;w_LETTER;w_WA]);
  (0x3090, [w_HIRAGANA;w_LETTER;w_WI]);
  (0x3091, [w_HIRAGANA;w_LETTER;w_WE]);
  (0x3092, [w_HIRAGANA;w_LETTER;w_WO]);
  (0x3093, [w_HIRAGANA;w_LETTER;w_N]);
  (0x3094, [w_HIRAGANA;w_LETTER;w_VU]);
  (0x3095, [w_HIRAGANA;w_LETTER;w_SMALL;w_KA]);
  (0x3096, [w_HIRAGANA;w_LETTER;w_SMALL;w_KE]);
  (0x3099, [w_COMBINING;w_KATAKANA_HIRAGANA;w_VOICED;w_SOUND;w_MARK]);
  (0x309a, [w_COMBINING;w_KATAKANA_HIRAGANA;w_SEMI_VOICED;w_SOUND;w_MARK]);
  (0x309b, [w_KATAKANA_HIRAGANA;w_VOICED;w_SOUND;w_MARK]);
  (0x309c, [w_KATAKANA_HIRAGANA;w_SEMI_VOICED;w_SOUND;w_MARK]);
  (0x309d, [w_HIRAGANA;w_ITERATION;w_MARK]);
  (0x309e, [w_HIRAGANA;w_VOICED;w_ITERATION;w_MARK]);
  (0x309f, [w_HIRAGANA;w_DIGRAPH;w_YORI]);
  (0x30a0, [w_KATAKANA_HIRAGANA;w_DOUBLE;w_HYPHEN]);
  (0x30a1, [w_KATAKANA;w_LETTER;w_SMALL;w_A]);
  (0x30a2, [w_KATAKANA;w_LETTER;w_A]);
  (0x30a3, [w_KATAKANA;w_LETTER;w_SMALL;w_I]);
  (0x30a4, [w_KATAKANA;w_LETTER;w_I]);
  (0x30a5, [w_KATAKANA;w_LETTER;w_SMALL;w_U]);
  (0x30a6, [w_KATAKANA;w_LETTER;w_U]);
  (0x30a7, [w_KATAKANA;w_LETTER;w_SMALL;w_E]);
  (0x30a8, [w_KATAKANA;w_LETTER;w_E]);
  (0x30a9, [w_KATAKANA;w_LETTER;w_SMALL;w_O]);
  (0x30aa, [w_KATAKANA;w_LETTER;w_O]);
  (0x30ab, [w_KATAKANA;w_LETTER;w_KA]);
  (0x30ac, [w_KATAKANA;w_LETTER;w_GA]);
  (0x30ad, [w_KATAKANA;w_LETTER;w_KI]);
  (0x30ae, [w_KATAKANA;w_LETTER;w_GI]);
  (0x30af, [w_KATAKANA;w_LETTER;w_KU]);
  (0x30b0, [w_KATAKANA;w_LETTER;w_GU]);
  (0x30b1, [w_KATAKANA;w_LETTER;w_KE]);
  (0x30b2, [w_KATAKANA;w_LETTER;w_GE]);
  (0x30b3, [w_KATAKANA;w_LETTER;w_KO]);
  (0x30b4, [w_KATAKANA;w_LETTER;w_GO]);
  (0x30b5, [w_KATAKANA;w_LETTER;w_SA]);
  (0x30b6, [w_KATAKANA;w_LETTER;w_ZA]);
  (0x30b7, [w_KATAKANA;w_LETTER;w_SI]);
  (0x30b8, [w_KATAKANA;w_LETTER;w_ZI]);
  (0x30b9, [w_KATAKANA;w_LETTER;w_SU]);
  (0x30ba, [w_KATAKANA;w_LETTER;w_ZU]);
  (0x30bb, [w_KATAKANA;w_LETTER;w_SE]);
  (0x30bc, [w_KATAKANA;w_LETTER;w_ZE]);
  (0x30bd, [w_KATAKANA;w_LETTER;w_SO]);
  (0x30be, [w_KATAKANA;w_LETTER;w_ZO]);
  (0x30bf, [w_KATAKANA;w_LETTER;w_TA]);
  (0x30c0, [w_KATAKANA;w_LETTER;w_DA]);
  (0x30c1, [w_KATAKANA;w_LETTER;w_TI]);
  (0x30c2, [w_KATAKANA;w_LETTER;w_DI]);
  (0x30c3, [w_KATAKANA;w_LETTER;w_SMALL;w_TU]);
  (0x30c4, [w_KATAKANA;w_LETTER;w_TU]);
  (0x30c5, [w_KATAKANA;w_LETTER;w_DU]);
  (0x30c6, [w_KATAKANA;w_LETTER;w_TE]);
  (0x30c7, [w_KATAKANA;w_LETTER;w_DE]);
  (0x30c8, [w_KATAKANA;w_LETTER;w_TO]);
  (0x30c9, [w_KATAKANA;w_LETTER;w_DO]);
  (0x30ca, [w_KATAKANA;w_LETTER;w_NA]);
  (0x30cb, [w_KATAKANA;w_LETTER;w_NI]);
  (0x30cc, [w_KATAKANA;w_LETTER;w_NU]);
  (0x30cd, [w_KATAKANA;w_LETTER;w_NE]);
  (0x30ce, [w_KATAKANA;w_LETTER;w_NO]);
  (0x30cf, [w_KATAKANA;w_LETTER;w_HA]);
  (0x30d0, [w_KATAKANA;w_LETTER;w_BA]);
  (0x30d1, [w_KATAKANA;w_LETTER;w_PA]);
  (0x30d2, [w_KATAKANA;w_LETTER;w_HI]);
  (0x30d3, [w_KATAKANA;w_LETTER;w_BI]);
  (0x30d4, [w_KATAKANA;w_LETTER;w_PI]);
  (0x30d5, [w_KATAKANA;w_LETTER;w_HU]);
  (0x30d6, [w_KATAKANA;w_LETTER;w_BU]);
  (0x30d7, [w_KATAKANA;w_LETTER;w_PU]);
  (0x30d8, [w_KATAKANA;w_LETTER;w_HE]);
  (0x30d9, [w_KATAKANA;w_LETTER;w_BE]);
  (0x30da, [w_KATAKANA;w_LETTER;w_PE]);
  (0x30db, [w_KATAKANA;w_LETTER;w_HO]);
  (0x30dc, [w_KATAKANA;w_LETTER;w_BO]);
  (0x30dd, [w_KATAKANA;w_LETTER;w_PO]);
  (0x30de, [w_KATAKANA;w_LETTER;w_MA]);
  (0x30df, [w_KATAKANA;w_LETTER;w_MI]);
  (0x30e0, [w_KATAKANA;w_LETTER;w_MU]);
  (0x30e1, [w_KATAKANA;w_LETTER;w_ME]);
  (0x30e2, [w_KATAKANA;w_LETTER;w_MO]);
  (0x30e3, [w_KATAKANA;w_LETTER;w_SMALL;w_YA]);
  (0x30e4, [w_KATAKANA;w_LETTER;w_YA]);
  (0x30e5, [w_KATAKANA;w_LETTER;w_SMALL;w_YU]);
  (0x30e6, [w_KATAKANA;w_LETTER;w_YU]);
  (0x30e7, [w_KATAKANA;w_LETTER;w_SMALL;w_YO]);
  (0x30e8, [w_KATAKANA;w_LETTER;w_YO]);
  (0x30e9, [w_KATAKANA;w_LETTER;w_RA]);
  (0x30ea, [w_KATAKANA;w_LETTER;w_RI]);
  (0x30eb, [w_KATAKANA;w_LETTER;w_RU]);
  (0x30ec, [w_KATAKANA;w_LETTER;w_RE]);
  (0x30ed, [w_KATAKANA;w_LETTER;w_RO]);
  (0x30ee, [w_KATAKANA;w_LETTER;w_SMALL;w_WA]);
  (0x30ef, [w_KATAKANA;w_LETTER;w_WA]);
  (0x30f0, [w_KATAKANA;w_LETTER;w_WI]);
  (0x30f1, [w_KATAKANA;w_LETTER;w_WE]);
  (0x30f2, [w_KATAKANA;w_LETTER;w_WO]);
  (0x30f3, [w_KATAKANA;w_LETTER;w_N]);
  (0x30f4, [w_KATAKANA;w_LETTER;w_VU]);
  (0x30f5, [w_KATAKANA;w_LETTER;w_SMALL;w_KA]);
  (0x30f6, [w_KATAKANA;w_LETTER;w_SMALL;w_KE]);
  (0x30f7, [w_KATAKANA;w_LETTER;w_VA]);
  (0x30f8, [w_KATAKANA;w_LETTER;w_VI]);
  (0x30f9, [w_KATAKANA;w_LETTER;w_VE]);
  (0x30fa, [w_KATAKANA;w_LETTER;w_VO]);
  (0x30fb, [w_KATAKANA;w_MIDDLE;w_DOT]);
  (0x30fc, [w_KATAKANA_HIRAGANA;w_PROLONGED;w_SOUND;w_MARK]);
  (0x30fd, [w_KATAKANA;w_ITERATION;w_MARK]);
  (0x30fe, [w_KATAKANA;w_VOICED;w_ITERATION;w_MARK]);
  (0x30ff, [w_KATAKANA;w_DIGRAPH;w_KOTO]);
  (0x3105, [w_BOPOMOFO;w_LETTER;w_B]);
  (0x3106, [w_BOPOMOFO;w_LETTER;w_P]);
  (0x3107, [w_BOPOMOFO;w_LETTER;w_M]);
  (0x3108, [w_BOPOMOFO;w_LETTER;w_F]);
  (0x3109, [w_BOPOMOFO;w_LETTER;w_D]);
  (0x310a, [w_BOPOMOFO;w_LETTER;w_T]);
  (0x310b, [w_BOPOMOFO;w_LETTER;w_N]);
  (0x310c, [w_BOPOMOFO;w_LETTER;w_L]);
  (0x310d, [w_BOPOMOFO;w_LETTER;w_G]);
  (0x310e, [w_BOPOMOFO;w_LETTER;w_K]);
  (0x310f, [w_BOPOMOFO;w_LETTER;w_H]);
  (0x3110, [w_BOPOMOFO;w_LETTER;w_J]);
  (0x3111, [w_BOPOMOFO;w_LETTER;w_Q]);
  (0x3112, [w_BOPOMOFO;w_LETTER;w_X]);
  (0x3113, [w_BOPOMOFO;w_LETTER;w_ZH]);
  (0x3114, [w_BOPOMOFO;w_LETTER;w_CH]);
  (0x3115, [w_BOPOMOFO;w_LETTER;w_SH]);
  (0x3116, [w_BOPOMOFO;w_LETTER;w_R]);
  (0x3117, [w_BOPOMOFO;w_LETTER;w_Z])].

Definition NAMES_28 : list (N * (list str)) := [
  (0x3118, [w_BOPOMOFO;w_LETTER;w_C]);
  (0x3119, [w_BOPOMOFO;w_LETTER;w_S]);
  (0x311a, [w_BOPOMOFO;w_LETTER;w_A]);
  (0x311b, [w_BOPOMOFO;w_LETTER;w_O]);
  (0x311c, [w_BOPOMOFO;w_LETTER;w_E]);
  (0x311d, [w_BOPOMOFO;w_LETTER;w_EH]);
  (0x311e, [w_BOPOMOFO;w_LETTER;w_AI]);
  (0x311f, [w_BOPOMOFO;w_LETTER;w_EI]);
  (0x3120, [w_BOPOMOFO;w_LETTER;w_AU]);
  (0x3121, [w_BOPOMOFO;w_LETTER;w_OU]);
  (0x3122, [w_BOPOMOFO;w_LETTER;w_AN]);
  (0x3123, [w_BOPOMOFO;w_LETTER;w_EN]);
  (0x3124, [w_BOPOMOFO;w_LETTER;w_ANG]);
  (0x3125, [w_BOPOMOFO;w_LETTER;w_ENG]);
  (0x3126, [w_BOPOMOFO;w_LETTER;w_ER]);
  (0x3127, [w_BOPOMOFO;w_LETTER;w_I]);
  (0x3128, [w_BOPOMOFO;w_LETTER;w_U]);
  (0x3129, [w_BOPOMOFO;w_LETTER;w_IU]);
  (0x312a, [w_BOPOMOFO;w_LETTER;w_V]);
  (0x312b, [w_BOPOMOFO;w_LETTER;w_NG]);
  (0x312c, [w_BOPOMOFO;w_LETTER;w_GN]);
  (0x312d, [w_BOPOMOFO;w_LETTER;w_IH]);
  (0x312e, [w_BOPOMOFO;w_LETTER;w_O;w_WITH;w_DOT;w_ABOVE]);
  (0x3131, [w_HANGUL;w_LETTER;w_KIYEOK]);
  (0x3132, [w_HANGUL;w_LETTER;w_SSANGKIYEOK]);
  (0x3133, [w_HANGUL;w_LETTER;w_KIYEOK_SIOS]);
  (0x3134, [w_HANGUL;w_LETTER;w_NIEUN]);
  (0x3135, [w_HANGUL;w_LETTER;w_NIEUN_CIEUC]);
  (0x3136, [w_HANGUL;w_LETTER;w_NIEUN_HIEUH]);
  (0x3137, [w_HANGUL;w_LETTER;w_TIKEUT]);
  (0x3138, [w_HANGUL;w_LETTER;w_SSANGTIKEUT]);
  (0x3139, [w_HANGUL;w_LETTER;w_RIEUL]);
  (0x313a, [w_HANGUL;w_LETTER;w_RIEUL_KIYEOK]);
  (0x313b, [w_HANGUL;w_LETTER;w_RIEUL_MIEUM]);
  (0x313c, [w_HANGUL;w_LETTER;w_RIEUL_PIEUP]);
  (0x313d, [w_HANGUL;w_LETTER;w_RIEUL_SIOS]);
  (0x313e, [w_HANGUL;w_LETTER;w_RIEUL_THIEUTH]);
  (0x313f, [w_HANGUL;w_LETTER;w_RIEUL_PHIEUPH]);
  (0x3140, [w_HANGUL;w_LETTER;w_RIEUL_HIEUH]);
  (0x3141, [w_HANGUL;w_LETTER;w_MIEUM]);
  (0x3142, [w_HANGUL;w_LETTER;w_PIEUP]);
  (0x3143, [w_HANGUL;w_LETTER;w_SSANGPIEUP]);
  (0x3144, [w_HANGUL;w_LETTER;w_PIEUP_SIOS]);
  (0x3145, [w_HANGUL;w_LETTER;w_SIOS]);
  (0x3146, [w_HANGUL;w_LETTER;w_SSANGSIOS]);
  (0x3147, [w_HANGUL;w_LETTER;w_IEUNG]);
  (0x3148, [w_HANGUL;w_LETTER;w_CIEUC]);
  (0x3149, [w_HANGUL;w_LETTER;w_SSANGCIEUC]);
  (0x314a, [w_HANGUL;w_LETTER;w_CHIEUCH]);
  (0x314b, [w_HANGUL;w_LETTER;w_KHIEUKH]);
  (0x314c, [w_HANGUL;w_LETTER;w_THIEUTH]);
  (0x314d, [w_HANGUL;w_LETTER;w_PHIEUPH]);
  (0x314e, [w_HANGUL;w_LETTER;w_HIEUH]);
  (0x314f, [w_HANGUL;w_LETTER;w_A]);
  (0x3150, [w_HANGUL;w_LETTER;w_AE]);
  (0x3151, [w_HANGUL;w_LETTER;w_YA]);
  (0x3152, [w_HANGUL;w_LETTER;w_YAE]);
  (0x3153, [w_HANGUL;w_LETTER;w_EO]);
  (0x3154, [w_HANGUL;w_LETTER;w_E]);
  (0x3155, [w_HANGUL;w_LETTER;w_YEO]);
  (0x3156, [w_HANGUL;w_LETTER;w_YE]);
  (0x3157, [w_HANGUL;w_LETTER;w_O]);
  (0x3158, [w_HANGUL;w_LETTER;w_WA]);
  (0x3159, [w_HANGUL;w_LETTER;w_WAE]);
  (0x315a, [w_HANGUL;w_LETTER;w_OE]);
  (0x315b, [w_HANGUL;w_LETTER;w_YO]);
  (0x315c, [w_HANGUL;w_LETTER;w_U]);
  (0x315d, [w_HANGUL;w_LETTER;w_WEO]);
  (0x315e, [w_HANGUL;w_LETTER;w_WE]);
  (0x315f, [w_HANGUL;w_LETTER;w_WI]);
  (0x3160, [w_HANGUL;w_LETTER;w_YU]);
  (0x3161, [w_HANGUL;w_LETTER;w_EU]);
  (0x3162, [w_HANGUL;w_LETTER;w_YI]);
  (0x3163, [w_HANGUL;w_LETTER;w_I]);
  (0x3164, [w_HANGUL;w_FILLER]);
  (0x3165, [w_HANGUL;w_LETTER;w_SSANGNIEUN]);
  (0x3166, [w_HANGUL;w_LETTER;w_NIEUN_TIKEUT]);
  (0x3167, [w_HANGUL;w_LETTER;w_NIEUN_SIOS]);
  (0x3168, [w_HANGUL;w_LETTER;w_NIEUN_PANSIOS]);
  (0x3169, [w_HANGUL;w_LETTER;w_RIEUL_KIYEOK_SIOS]);
  (0x316a, [w_HANGUL;w_LETTER;w_RIEUL_TIKEUT]);
  (0x316b, [w_HANGUL;w_LETTER;w_RIEUL_PIEUP_SIOS]);
  (0x316c, [w_HANGUL;w_LETTER;w_RIEUL_PANSIOS]);
  (0x316d, [w_HANGUL;w_LETTER;w_RIEUL_YEORINHIEUH]);
  (0x316e, [w_HANGUL;w_LETTER;w_MIEUM_PIEUP]);
  (0x316f, [w_HANGUL;w_LETTER;w_MIEUM_SIOS]);
  (0x3170, [w_HANGUL;w_LETTER;w_MIEUM_PANSIOS]);
  (0x3171, [w_HANGUL;w_LETTER;w_KAPYEOUNMIEUM]);
  (0x3172, [w_HANGUL;w_LETTER;w_PIEUP_KIYEOK]);
  (0x3173, [w_HANGUL;w_LETTER;w_PIEUP_TIKEUT]);
  (0x3174, [w_HANGUL;w_LETTER;w_PIEUP_SIOS_KIYEOK]);
  (0x3175, [w_HANGUL;w_LETTER;w_PIEUP_SIOS_TIKEUT]);
  (0x3176, [w_HANGUL;w_LETTER;w_PIEUP_CIEUC]);
  (0x3177, [w_HANGUL;w_LETTER;w_PIEUP_THIEUTH]);
  (0x3178, [w_HANGUL;w_LETTER;w_KAPYEOUNPIEUP]);
  (0x3179, [w_HANGUL;w_LETTER;w_KAPYEOUNSSANGPIEUP]);
  (0x317a, [w_HANGUL;w_LETTER;w_SIOS_KIYEOK]);
  (0x317b, [w_HANGUL;w_LETTER;w_SIOS_NIEUN]);
  (0x317c, [w_HANGUL;w_LETTER;w_SIOS_TIKEUT]);
  (0x317d, [w_HANGUL;w_LETTER;w_SIOS_PIEUP]);
  (0x317e, [w_HANGUL;w_LETTER;w_SIOS_CIEUC]);
  (0x317f, [w_HANGUL;w_LETTER;w_PANSIOS]);
  (0x3180, [w_HANGUL;w_LETTER;w_SSANGIEUNG]);
  (0x3181, [w_HANGUL;w_LETTER;w_YESIEUNG]);
  (0x3182, [w_HANGUL;w_LETTER;w_YESIEUNG_SIOS]);
  (0x3183, [w_HANGUL;w_LETTER;w_YESIEUNG_PANSIOS]);
  (0x3184, [w_HANGUL;w_LETTER;w_KAPYEOUNPHIEUPH]);
  (0x3185, [w_HANGUL;w_LETTER;w_SSANGHIEUH]);
  (0x3186, [w_HANGUL;w_LETTER;w_YEORINHIEUH]);
  (0x3187, [w_HANGUL;w_LETTER;w_YO_YA]);
  (0x3188, [w_HANGUL;w_LETTER;w_YO_YAE]);
  (0x3189, [w_HANGUL;w_LETTER;w_YO_I]);
  (0x318a, [w_HANGUL;w_LETTER;w_YU_YEO]);
  (0x318b, [w_HANGUL;w_LETTER;w_YU_YE]);
  (0x318c, [w_HANGUL;w_LETTER;w_YU_I]);
  (0x318d, [w_HANGUL;w_LETTER;w_ARAEA]);
  (0x318e, [w_HANGUL;w_LETTER;w_ARAEAE]);
  (0x3190, [w_IDEOGRAPHIC;w_ANNOTATION;w_LINKING;w_MARK]);
  (0x3191, [w_IDEOGRAPHIC;w_ANNOTATION;w_REVERSE;w_MARK]);
  (0x3192, [w_IDEOGRAPHIC;w_ANNOTATION;w_ONE;w_MARK]);
  (0x3193, [w_IDEOGRAPHIC;w_ANNOTATION;w_TWO;w_MARK]);
  (0x3194, [w_IDEOGRAPHIC;w_ANNOTATION;w_THREE;w_MARK]);
  (0x3195, [w_IDEOGRAPHIC;w_ANNOTATION;w_FOUR;w_MARK]);
  (0x3196, [w_IDEOGRAPHIC;w_ANNOTATION;w_TOP;w_MARK]);
  (0x3197, [w_IDEOGRAPHIC;w_ANNOTATION;w_MIDDLE;w_MARK]);
  (0x3198, [w_IDEOGRAPHIC;w_ANNOTATION;w_BOTTOM;w_MARK]);
  (0x3199, [w_IDEOGRAPHIC;w_ANNOTATION;w_FIRST;w_MARK]);
  (0x319a, [w_IDEOGRAPHIC;w_ANNOTATION;w_SECOND;w_MARK]);
  (0x319b, [w_IDEOGRAPHIC;w_ANNOTATION;w_THIRD;w_MARK]);
  (0x319c, [w_IDEOGRAPHIC;w_ANNOTATION;w_FOURTH;w_MARK]);
  (0x319d, [w_IDEOGRAPHIC;w_ANNOTATION;w_HEAVEN;w_MARK]);
  (0x319e, [w_IDEOGRAPHIC;w_ANNOTATION;w_EARTH;w_MARK]);
  (0x319f, [w_IDEOGRAPHIC;w_ANNOTATION;w_MAN;w_MARK]);
  (0x31a0, [w_BOPOMOFO;w_LETTER;w_BU]);
  (0x31a1, [w_BOPOMOFO;w_LETTER;w_ZI]);
  (0x31a2, [w_BOPOMOFO;w_LETTER;w_JI]);
  (0x31a3, [w_BOPOMOFO;w_LETTER;w_GU]);
  (0x31a4, [w_BOPOMOFO;w_LETTER;w_EE]);
  (0x31a5, [w_BOPOMOFO;w_LETTER;w_ENN]);
  (0x31a6, [w_BOPOMOFO;w_LETTER;w_OO]);
  (0x31a7, [w_BOPOMOFO;w_LETTER;w_ONN]);
  (0x31a8, [w_BOPOMOFO;w_LETTER;w_IR]);
  (0x31a9, [w_BOPOMOFO;w_LETTER;w_ANN]);
  (0x31aa, [w_BOPOMOFO;w_LETTER;w_INN]);
  (0x31ab, [w_BOPOMOFO;w_LETTER;w_UNN]);
  (0x31ac, [w_BOPOMOFO;w_LETTER;w_IM]);
  (0x31ad, [w_BOPOMOFO;w_LETTER;w_NGG]);
  (0x31ae, [w_BOPOMOFO;w_LETTER;w_AINN]);
  (0x31af, [w_BOPOMOFO;w_LETTER;w_AUNN]);
  (0x31b0, [w_BOPOMOFO;w_LETTER;w_AM]);
  (0x31b1, [w_BOPOMOFO;w_LETTER;w_OM]);
  (0x31b2, [w_BOPOMOFO;w_LETTER;w_ONG]);
  (0x31b3, [w_BOPOMOFO;w_LETTER;w_INNN]);
  (0x31b4, [w_BOPOMOFO;w_FINAL;w_LETTER;w_P]);
  (0x31b5, [w_BOPOMOFO;w_FINAL;w_LETTER;w_T]);
  (0x31b6, [w_BOPOMOFO;w_FINAL;w_LETTER;w_K]);
  (0x31b7, [w_BOPOMOFO;w_FINAL;w_LETTER;w_H]);
  (0x31b8, [w_BOPOMOFO;w_LETTER;w_GH]);
  (0x31b9, [w_BOPOMOFO;w_LETTER;w_LH]);
  (0x31ba, [w_BOPOMOFO;w_LETTER;w_ZY]);
  (0x31c0, [w_CJK;w_STROKE;w_T]);
  (0x31c1, [w_CJK;w_STROKE;w_WG]);
  (0x31c2, [w_CJK;w_STROKE;w_XG]);
  (0x31c3, [w_CJK;w_STROKE;w_BXG]);
  (0x31c4, [w_CJK;w_STROKE;w_SW]);
  (0x31c5, [w_CJK;w_STROKE;w_HZZ]);
  (0x31c6, [w_CJK;w_STROKE;w_HZG]);
  (0x31c7, [w_CJK;w_STROKE;w_HP]);
  (0x31c8, [w_CJK;w_STROKE;w_HZWG]);
  (0x31c9, [w_CJK;w_STROKE;w_SZWG]);
  (0x31ca, [w_CJK;w_STROKE;w_HZT]);
  (0x31cb, [w_CJK;w_STROKE;w_HZZP]);
  (0x31cc, [w_CJK;w_STROKE;w_HPWG]);
  (0x31cd, [w_CJK;w_STROKE;w_HZW]);
  (0x31ce, [w_CJK;w_STROKE;w_HZZZ]);
  (0x31cf, [w_CJK;w_STROKE;w_N]);
  (0x31d0, [w_CJK;w_STROKE;w_H]);
  (0x31d1, [w_CJK;w_STROKE;w_S]);
  (0x31d2, [w_CJK;w_STROKE;w_P]);
  (0x31d3, [w_CJK;w_STROKE;w_SP]);
  (0x31d4, [w_CJK;w_STROKE;w_D]);
  (0x31d5, [w_CJK;w_STROKE;w_HZ]);
  (0x31d6, [w_CJK;w_STROKE;w_HG]);
  (0x31d7, [w_CJK;w_STROKE;w_SZ]);
  (0x31d8, [w_CJK;w_STROKE;w_SWZ]);
  (0x31d9, [w_CJK;w_STROKE;w_ST]);
  (0x31da, [w_CJK;w_STROKE;w_SG]);
  (0x31db, [w_CJK;w_STROKE;w_PD]);
  (0x31dc, [w_CJK;w_STROKE;w_PZ]);
  (0x31dd, [w_CJK;w_STROKE;w_TN]);
  (0x31de, [w_CJK;w_STROKE;w_SZZ]);
  (0x31df, [w_CJK;w_STROKE;w_SWG]);
  (0x31e0, [w_CJK;w_STROKE;w_HXWG]);
  (0x31e1, [w_CJK;w_STROKE;w_HZZZG]);
  (0x31e2, [w_CJK;w_STROKE;w_PG]);
  (0x31e3, [w_CJK;w_STROKE;w_Q]);
  (0x31f0, [w_KATAKANA;w_LETTER;w_SMALL;w_KU]);
  (0x31f1, [w_KATAKANA;w_LETTER;w_SMALL;w_SI]);
  (0x31f2, [w_KATAKANA;w_LETTER;w_SMALL;w_SU]);
  (0x31f3, [w_KATAKANA;w_LETTER;w_SMALL;w_TO]);
  (0x31f4, [w_KATAKANA;w_LETTER;w_SMALL;w_NU]);
  (0x31f5, [w_KATAKANA;w_LETTER;w_SMALL;w_HA]);
  (0x31f6, [w_KATAKANA;w_LETTER;w_SMALL;w_HI]);
  (0x31f7, [w_KATAKANA;w_LETTER;w_SMALL;w_HU]);
  (0x31f8, [w_KATAKANA;w_LETTER;w_SMALL;w_HE]);
  (0x31f9, [w_KATAKANA;w_LETTER;w_SMALL;w_HO]);
  (0x31fa, [w_KATAKANA;w_LETTER;w_SMALL;w_MU]);
  (0x31fb, [w_KATAKANA;w_LETTER;w_SMALL;w_RA]);
  (0x31fc, [w_KATAKANA;w_LETTER;w_SMALL;w_RI]);
  (0x31fd, [w_KATAKANA;w_LETTER;w_SMALL;w_RU]);
  (0x31fe, [w_KATAKANA;w_LETTER;w_SMALL;w_RE]);
  (0x31ff, [w_KATAKANA;w_LETTER;w_SMALL;w_RO]);
  (0x3200, [w_PARENTHESIZED;w_HANGUL;w_KIYEOK]);
  (0x3201, [w_PARENTHESIZED;w_HANGUL;w_NIEUN]);
  (0x3202, [w_PARENTHESIZED;w_HANGUL;w_TIKEUT]);
  (0x3203, [w_PARENTHESIZED;w_HANGUL;w_RIEUL]);
  (0x3204, [w_PARENTHESIZED;w_HANGUL;w_MIEUM]);
  (0x3205, [w_PARENTHESIZED;w_HANGUL;w_PIEUP]);
  (0x3206, [w_PARENTHESIZED;w_HANGUL;w_SIOS]);
  (0x3207, [w_PARENTHESIZED;w_HANGUL;w_IEUNG]);
  (0x3208, [w_PARENTHESIZED;w_HANGUL;w_CIEUC]);
  (0x3209, [w_PARENTHESIZED;w_HANGUL;w_CHIEUCH]);
  (0x320a, [w_PARENTHESIZED;w_HANGUL;w_KHIEUKH]);
  (0x320b, [w_PARENTHESIZED;w_HANGUL;w_THIEUTH]);
  (0x320c, [w_PARENTHESIZED;w_HANGUL;w_PHIEUPH]);
  (0x320d, [w_PARENTHESIZED;w_HANGUL;w_HIEUH]);
  (0x320e, [w_PARENTHESIZED;w_HANGUL;w_KIYEOK;w_A]);
  (0x320f, [w_PARENTHESIZED;w_HANGUL;w_NIEUN;w_A]);
  (0x3210, [w_PARENTHESIZED;w_HANGUL;w_TIKEUT;w_A]);
  (0x3211, [w_PARENTHESIZED;w_HANGUL;w_RIEUL;w_A]);
  (0x3212, [w_PARENTHESIZED;w_HANGUL;w_MIEUM;w_A]);
  (0x3213, [w_PARENTHESIZED;w_HANGUL;w_PIEUP;w_A]);
  (0x3214, [w_PARENTHESIZED;w_HANGUL;w_SIOS;w_A]);
  (0x3215, [w_PARENTHESIZED;w_HANGUL;w_IEUNG;w_A]);
  (0x3216, [w_PARENTHESIZED;w_HANGUL;w_CIEUC;w_A]);
  (0x3217, [w_PARENTHESIZED;w_HANGUL;w_CHIEUCH;w_A]);
  (0x3218, [w_PARENTHESIZED;w_HANGUL;w_KHIEUKH;w_A]);
  (0x3219, [w_PARENTHESIZED;w_HANGUL;w_THIEUTH;w_A]);
  (0x321a, [w_PARENTHESIZED;w_HANGUL;w_PHIEUPH;w_A]);
  (0x321b, [w_PARENTHESIZED;w_HANGUL;w_HIEUH;w_A]);
  (0x321c, [w_PARENTHESIZED;w_HANGUL;w_CIEUC;w_U]);
  (0x321d, [w_PARENTHESIZED;w_KOREAN;w_CHARACTER;w_OJEON]);
  (0x321e, [w_PARENTHESIZED;w_KOREAN;w_CHARACTER;w_O;w_HU]);
  (0x3220, [w_PARENTHESIZED;w_IDEOGRAPH;w_ONE]);
  (0x3221, [w_PARENTHESIZED;w_IDEOGRAPH;w_TWO]);
  (0x3222, [w_PARENTHESIZED;w_IDEOGRAPH;w_THREE]);
  (0x3223, [w_PARENTHESIZED;w_IDEOGRAPH;w_FOUR]);
  (0x3224, [w_PARENTHESIZED;w_IDEOGRAPH;w_FIVE]);
  (0x3225, [w_PARENTHESIZED;w_IDEOGRAPH;w_SIX]);
  (0x3226, [w_PARENTHESIZED;w_IDEOGRAPH;w_SEVEN]);
  (0x3227, [w_PARENTHESIZED;w_IDEOGRAPH;w_EIGHT]);
  (0x3228, [w_PARENTHESIZED;w_IDEOGRAPH;w_NINE]);
  (0x3229, [w_PARENTHESIZED;w_IDEOGRAPH;w_TEN]);
  (0x322a, [w_PARENTHESIZED;w_IDEOGRAPH;w_MOON]);
  (0x322b, [w_PARENTHESIZED;w_IDEOGRAPH;w_FIRE]);
  (0x322c, [w_PARENTHESIZED;w_IDEOGRAPH;w_WATER]);
  (0x322d, [w_PARENTHESIZED;w_IDEOGRAPH;w_WOOD]);
  (0x322e, [w_PARENTHESIZED;w_IDEOGRAPH;w_METAL]);
  (0x322f, [w_PARENTHESIZED;w_IDEOGRAPH;w_EARTH]);
  (0x3230, [w_PARENTHESIZED;w_IDEOGRAPH;w_SUN]);
  (0x3231, [w_PARENTHESIZED;w_IDEOGRAPH;w_STOCK]);
  (0x3232, [w_PARENTHESIZED;w_IDEOGRAPH;w_HAVE]);
  (0x3233, [w_PARENTHESIZED;w_IDEOGRAPH;w_SOCIETY]);
  (0x3234, [w_PARENTHESIZED;w_IDEOGRAPH;w_NAME]);
  (0x3235, [w_PARENTHESIZED;w_IDEOGRAPH;w_SPECIAL]);
  (0x3236, [w_PARENTHESIZED;w_IDEOGRAPH;w_FINANCIAL]);
  (0x3237, [w_PARENTHESIZED;w_IDEOGRAPH;w_CONGRATULATION]);
  (0x3238, [w_PARENTHESIZED;w_IDEOGRAPH;w_LABOR]);
  (0x3239, [w_PARENTHESIZED;w_IDEOGRAPH;w_REPRESENT]);
  (0x323a, [w_PARENTHESIZED;w_IDEOGRAPH;w_CALL]);
  (0x323b, [w_PARENTHESIZED;w_IDEOGRAPH;w_STUDY]);
  (0x323c, [w_PARENTHESIZED;w_IDEOGRAPH;w_SUPERVISE]);
  (0x323d, [w_PARENTHESIZED;w_IDEOGRAPH;w_ENTERPRISE]);
  (0x323e, [w_PARENTHESIZED;w_IDEOGRAPH;w_RESOURCE]);
  (0x323f, [w_PARENTHESIZED;w_IDEOGRAPH;w_ALLIANCE]);
  (0x3240, [w_PARENTHESIZED;w_IDEOGRAPH;w_FESTIVAL]);
  (0x3241, [w_PARENTHESIZED;w_IDEOGRAPH;w_REST]);
  (0x3242, [w_PARENTHESIZED;w_IDEOGRAPH;w_SELF]);
  (0x3243, [w_PARENTHESIZED;w_IDEOGRAPH;w_REACH]);
  (0x3244, [w_CIRCLED;w_IDEOGRAPH;w_QUESTION]);
  (0x3245, [w_CIRCLED;w_IDEOGRAPH;w_KINDERGARTEN]);
  (0x3246, [w_CIRCLED;w_IDEOGRAPH;w_SCHOOL]);
  (0x3247, [w_CIRCLED;w_IDEOGRAPH;w_KOTO]);
  (0x3248, [w_CIRCLED;w_NUMBER;w_TEN;w_ON;w_BLACK;w_SQUARE]);
  (0x3249, [w_CIRCLED;w_NUMBER;w_TWENTY;w_ON;w_BLACK;w_SQUARE]);
  (0x324a, [w_CIRCLED;w_NUMBER;w_THIRTY;w_ON;w_BLACK;w_SQUARE]);
  (0x324b, [w_CIRCLED;w_NUMBER;w_FORTY;w_ON;w_BLACK;w_SQUARE]);
  (0x324c, [w_CIRCLED;w_NUMBER;w_FIFTY;w_ON;w_BLACK;w_SQUARE]);
  (0x324d, [w_CIRCLED;w_NUMBER;w_SIXTY;w_ON;w_BLACK;w_SQUARE]);
  (0x324e, [w_CIRCLED;w_NUMBER;w_SEVENTY;w_ON;w_BLACK;w_SQUARE]);
  (0x324f, [w_CIRCLED;w_NUMBER;w_EIGHTY;w_ON;w_BLACK;w_SQUARE]);
  (0x3250, [w_PARTNERSHIP;w_SIGN]);
  (0x3251, [w_CIRCLED;w_NUMBER;w_TWENTY;w_ONE]);
  (0x3252, [w_CIRCLED;w_NUMBER;w_TWENTY;w_TWO]);
  (0x3253, [w_CIRCLED;w_NUMBER;w_TWENTY;w_THREE]);
  (0x3254, [w_CIRCLED;w_NUMBER;w_TWENTY;w_FOUR]);
  (0x3255, [w_CIRCLED;w_NUMBER;w_TWENTY;w_FIVE]);
  (0x3256, [w_CIRCLED;w_NUMBER;w_TWENTY;w_SIX]);
  (0x3257, [w_CIRCLED;w_NUMBER;w_TWENTY;w_SEVEN]);
  (0x3258, [w_CIRCLED;w_NUMBER;w_TWENTY;w_EIGHT]);
  (0x3259, [w_CIRCLED;w_NUMBER;w_TWENTY;w_NINE]);
  (0x325a, [w_CIRCLED;w_NUMBER;w_THIRTY]);
  (0x325b, [w_CIRCLED;w_NUMBER;w_THIRTY;w_ONE]);
  (0x325c, [w_CIRCLED;w_NUMBER;w_THIRTY;w_TWO]);
  (0x325d, [w_CIRCLED;w_NUMBER;w_THIRTY;w_THREE]);
  (0x325e, [w_CIRCLED;w_NUMBER;w_THIRTY;w_FOUR]);
  (0x325f, [w_CIRCLED;w_NUMBER;w_THIRTY;w_FIVE]);
  (0x3260, [w_CIRCLED;w_HANGUL;w_KIYEOK]);
  (0x3261, [w_CIRCLED;w_HANGUL;w_NIEUN]);
  (0x3262, [w_CIRCLED;w_HANGUL;w_TIKEUT]);
  (0x3263, [w_CIRCLED;w_HANGUL;w_RIEUL]);
  (0x3264, [w_CIRCLED;w_HANGUL;w_MIEUM]);
  (0x3265, [w_CIRCLED;w_HANGUL;w_PIEUP]);
  (0x3266, [w_CIRCLED;w_HANGUL;w_SIOS]);
  (0x3267, [w_CIRCLED;w_HANGUL;w_IEUNG]);
  (0x3268, [w_CIRCLED;w_HANGUL;w_CIEUC]);
  (0x3269, [w_CIRCLED;w_HANGUL;w_CHIEUCH]);
  (0x326a, [w_CIRCLED;w_HANGUL;w_KHIEUKH]);
  (0x326b, [w_CIRCLED;w_HANGUL;w_THIEUTH]);
  (0x326c, [w_CIRCLED;w_HANGUL;w_PHIEUPH]);
  (0x326d, [w_CIRCLED;w_HANGUL;w_HIEUH]);
  (0x326e, [w_CIRCLED;w_HANGUL;w_KIYEOK;w_A]);
  (0x326f, [w_CIRCLED;w_HANGUL;w_NIEUN;w_A]);
  (0x3270, [w_CIRCLED;w_HANGUL;w_TIKEUT;w_A]);
  (0x3271, [w_CIRCLED;w_HANGUL;w_RIEUL;w_A]);
  (0x3272, [w_CIRCLED;w_HANGUL;w_MIEUM;w_A]);
  (0x3273, [w_CIRCLED;w_HANGUL;w_PIEUP;w_A]);
  (0x3274, [w_CIRCLED;w_HANGUL;w_SIOS;w_A]);
  (0x3275, [w_CIRCLED;w_HANGUL;w_IEUNG;w_A]);
  (0x3276, [w_CIRCLED;w_HANGUL;w_CIEUC;w_A]);
  (0x3277, [w_CIRCLED;w_HANGUL;w_CHIEUCH;w_A]);
  (0x3278, [w_CIRCLED;w_HANGUL;w_KHIEUKH;w_A]);
  (0x3279, [w_CIRCLED;w_HANGUL;w_THIEUTH;w_A]);
  (0x327a, [w_CIRCLED;w_HANGUL;w_PHIEUPH;w_A]);
  (0x327b, [w_CIRCLED;w_HANGUL;w_HIEUH;w_A]);
  (0x327c, [w_CIRCLED;w_KOREAN;w_CHARACTER;w_CHAMKO]);
  (0x327d, [w_CIRCLED;w_KOREAN;w_CHARACTER;w_JUEUI]);
  (0x327e, [w_CIRCLED;w_HANGUL;w_IEUNG;w_U]);
  (0x327f, [w_KOREAN;w_STANDARD;w_SYMBOL]);
  (0x3280, [w_CIRCLED;w_IDEOGRAPH;w_ONE]);
  (0x3281, [w_CIRCLED;w_IDEOGRAPH;w_TWO]);
  (0x3282, [w_CIRCLED;w_IDEOGRAPH;w_THREE]);
  (0x3283, [w_CIRCLED;w_IDEOGRAPH;w_FOUR]);
  (0x3284, [w_CIRCLED;w_IDEOGRAPH;w_FIVE]);
  (0x3285, [w_CIRCLED;w_IDEOGRAPH;w_SIX]);
  (0x3286, [w_CIRCLED;w_IDEOGRAPH;w_SEVEN]);
  (0x3287, [w_CIRCLED;w_IDEOGRAPH;w_EIGHT]);
  (0x3288, [w_CIRCLED;w_IDEOGRAPH;w_NINE]);
  (0x3289, [w_CIRCLED;w_IDEOGRAPH;w_TEN]);
  (0x328a, [w_CIRCLED;w_IDEOGRAPH;w_MOON]);
  (0x328b, [w_CIRCLED;w_IDEOGRAPH;w_FIRE]);
  (0x328c, [w_CIRCLED;w_IDEOGRAPH;w_WATER]);
  (0x328d, [w_CIRCLED;w_IDEOGRAPH;w_WOOD]);
  (0x328e, [w_CIRCLED;w_IDEOGRAPH;w_METAL]);
  (0x328f, [w_CIRCLED;w_IDEOGRAPH;w_EARTH]);
  (0x3290, [w_CIRCLED;w_IDEOGRAPH;w_SUN]);
  (0x3291, [w_CIRCLED;w_IDEOGRAPH;w_STOCK]);
  (0x3292, [w_CIRCLED;w_IDEOGRAPH;w_HAVE]);
  (0x3293, [w_CIRCLED;w_IDEOGRAPH;w_SOCIETY]);
  (0x3294, [w_CIRCLED;w_IDEOGRAPH;w_NAME]);
  (0x3295, [w_CIRCLED;w_IDEOGRAPH;w_SPECIAL]);
  (0x3296, [w_CIRCLED;w_IDEOGRAPH;w_FINANCIAL]);
  (0x3297, [w_CIRCLED;w_IDEOGRAPH;w_CONGRATULATION]);
  (0x3298, [w_CIRCLED;w_IDEOGRAPH;w_LABOR]);
  (0x3299, [w_CIRCLED;w_IDEOGRAPH;w_SECRET]);
  (0x329a, [w_CIRCLED;w_IDEOGRAPH;w_MALE]);
  (0x329b, [w_CIRCLED;w_IDEOGRAPH;w_FEMALE]);
  (0x329c, [w_CIRCLED;w_IDEOGRAPH;w_SUITABLE]);
  (0x329d, [w_CIRCLED;w_IDEOGRAPH;w_EXCELLENT]);
  (0x329e, [w_CIRCLED;w_IDEOGRAPH;w_PRINT]);
  (0x329f, [w_CIRCLED;w_IDEOGRAPH;w_ATTENTION]);
  (0x32a0, [w_CIRCLED;w_IDEOGRAPH;w_ITEM]);
  (0x32a1, [w_CIRCLED;w_IDEOGRAPH;w_REST]);
  (0x32a2, [w_CIRCLED;w_IDEOGRAPH;w_COPY]);
  (0x32a3, [w_CIRCLED;w_IDEOGRAPH;w_CORRECT]);
  (0x32a4, [w_CIRCLED;w_IDEOGRAPH;w_HIGH]);
  (0x32a5, [w_CIRCLED;w_IDEOGRAPH;w_CENTRE]);
  (0x32a6, [w_CIRCLED;w_IDEOGRAPH;w_LOW]);
  (0x32a7, [w_CIRCLED;w_IDEOGRAPH;w_LEFT]);
  (0x32a8, [w_CIRCLED;w_IDEOGRAPH;w_RIGHT]);
  (0x32a9, [w_CIRCLED;w_IDEOGRAPH;w_MEDICINE]);
  (0x32aa, [w_CIRCLED;w_IDEOGRAPH;w_RELIGION]);
  (0x32ab, [w_CIRCLED;w_IDEOGRAPH;w_STUDY]);
  (0x32ac, [w_CIRCLED;w_IDEOGRAPH;w_SUPERVISE]);
  (0x32ad, [w_CIRCLED;w_IDEOGRAPH;w_ENTERPRISE]);
  (0x32ae, [w_CIRCLED;w_IDEOGRAPH;w_RESOURCE]);
  (0x32af, [w_CIRCLED;w_IDEOGRAPH;w_ALLIANCE]);
  (0x32b0, [w_CIRCLED;w_IDEOGRAPH;w_NIGHT]);
  (0x32b1, [w_CIRCLED;w_NUMBER;w_THIRTY;w_SIX]);
  (0x32b2, [w_CIRCLED;w_NUMBER;w_THIRTY;w_SEVEN]);
  (0x32b3, [w_CIRCLED;w_NUMBER;w_THIRTY;w_EIGHT]);
  (0x32b4, [w_CIRCLED;w_NUMBER;w_THIRTY;w_NINE]);
  (0x32b5, [w_CIRCLED;w_NUMBER;w_FORTY]);
  (0x32b6, [w_CIRCLED;w_NUMBER;w_FORTY;w_ONE]);
  (0x32b7, [w_CIRCLED;w_NUMBER;w_FORTY;w_TWO]);
  (0x32b8, [w_CIRCLED;w_NUMBER;w_FORTY;w_THREE]);
  (0x32b9, [w_CIRCLED;w_NUMBER;w_FORTY;w_FOUR]);
  (0x32ba, [w_CIRCLED;w_NUMBER;w_FORTY;w_FIVE]);
  (0x32bb, [w_CIRCLED;w_NUMBER;w_FORTY;w_SIX]);
  (0x32bc, [w_CIRCLED;w_NUMBER;w_FORTY;w_SEVEN])].

Definition NAMES_29 : list (N * (list str)) := [
  (0x32bd, [w_CIRCLED;w_NUMBER;w_FORTY;w_EIGHT]);
  (0x32be, [w_CIRCLED;w_NUMBER;w_FORTY;w_NINE]);
  (0x32bf, [w_CIRCLED;w_NUMBER;w_FIFTY]);
  (0x32c0, [w_IDEOGRAPHIC;w_TELEGRAPH;w_SYMBOL;w_FOR;w_JANUARY]);
  (0x32c1, [w_IDEOGRAPHIC;w_TELEGRAPH;w_SYMBOL;w_FOR;w_FEBRUARY]);
  (0x32c2, [w_IDEOGRAPHIC;w_TELEGRAPH;w_SYMBOL;w_FOR;w_MARCH]);
  (0x32c3, [w_IDEOGRAPHIC;w_TELEGRAPH;w_SYMBOL;w_FOR;w_APRIL]);
  (0x32c4, [w_IDEOGRAPHIC;w_TELEGRAPH;w_SYMBOL;w_FOR;w_MAY]);
  (0x32c5, [w_IDEOGRAPHIC;w_TELEGRAPH;w_SYMBOL;w_FOR;w_JUNE]);
  (0x32c6, [w_IDEOGRAPHIC;w_TELEGRAPH;w_SYMBOL;w_FOR;w_JULY]);
  (0x32c7, [w_IDEOGRAPHIC;w_TELEGRAPH;w_SYMBOL;w_FOR;w_AUGUST]);
  (0x32c8, [w_IDEOGRAPHIC;w_TELEGRAPH;w_SYMBOL;w_FOR;w_SEPTEMBER]);
  (0x32c9, [w_IDEOGRAPHIC;w_TELEGRAPH;w_SYMBOL;w_FOR;w_OCTOBER]);
  (0x32ca, [w_IDEOGRAPHIC;w_TELEGRAPH;w_SYMBOL;w_FOR;w_NOVEMBER]);
  (0x32cb, [w_IDEOGRAPHIC;w_TELEGRAPH;w_SYMBOL;w_FOR;w_DECEMBER]);
  (0x32cc, [w_SQUARE;w_HG]);
  (0x32cd, [w_SQUARE;w_ERG]);
  (0x32ce, [w_SQUARE;w_EV]);
  (0x32cf, [w_LIMITED;w_LIABILITY;w_SIGN]);
  (0x32d0, [w_CIRCLED;w_KATAKANA;w_A]);
  (0x32d1, [w_CIRCLED;w_KATAKANA;w_I]);
  (0x32d2, [w_CIRCLED;w_KATAKANA;w_U]);
  (0x32d3, [w_CIRCLED;w_KATAKANA;w_E]);
  (0x32d4, [w_CIRCLED;w_KATAKANA;w_O]);
  (0x32d5, [w_CIRCLED;w_KATAKANA;w_KA]);
  (0x32d6, [w_CIRCLED;w_KATAKANA;w_KI]);
  (0x32d7, [w_CIRCLED;w_KATAKANA;w_KU]);
  (0x32d8, [w_CIRCLED;w_KATAKANA;w_KE]);
  (0x32d9, [w_CIRCLED;w_KATAKANA;w_KO]);
  (0x32da, [w_CIRCLED;w_KATAKANA;w_SA]);
  (0x32db, [w_CIRCLED;w_KATAKANA;w_SI]);
  (0x32dc, [w_CIRCLED;w_KATAKANA;w_SU]);
  (0x32dd, [w_CIRCLED;w_KATAKANA;w_SE]);
  (0x32de, [w_CIRCLED;w_KATAKANA;w_SO]);
  (0x32df, [w_CIRCLED;w_KATAKANA;w_TA]);
  (0x32e0, [w_CIRCLED;w_KATAKANA;w_TI]);
  (0x32e1, [w_CIRCLED;w_KATAKANA;w_TU]);
  (0x32e2, [w_CIRCLED;w_KATAKANA;w_TE]);
  (0x32e3, [w_CIRCLED;w_KATAKANA;w_TO]);
  (0x32e4, [w_CIRCLED;w_KATAKANA;w_NA]);
  (0x32e5, [w_CIRCLED;w_KATAKANA;w_NI]);
  (0x32e6, [w_CIRCLED;w_KATAKANA;w_NU]);
  (0x32e7, [w_CIRCLED;w_KATAKANA;w_NE]);
  (0x32e8, [w_CIRCLED;w_KATAKANA;w_NO]);
  (0x32e9, [w_CIRCLED;w_KATAKANA;w_HA]);
  (0x32ea, [w_CIRCLED;w_KATAKANA;w_HI]);
  (0x32eb, [w_CIRCLED;w_KATAKANA;w_HU]);
  (0x32ec, [w_CIRCLED;w_KATAKANA;w_HE]);
  (0x32ed, [w_CIRCLED;w_KATAKANA;w_HO]);
  (0x32ee, [w_CIRCLED;w_KATAKANA;w_MA]);
  (0x32ef, [w_CIRCLED;w_KATAKANA;w_MI]);
  (0x32f0, [w_CIRCLED;w_KATAKANA;w_MU]);
  (0x32f1, [w_CIRCLED;w_KATAKANA;w_ME]);
  (0x32f2, [w_CIRCLED;w_KATAKANA;w_MO]);
  (0x32f3, [w_CIRCLED;w_KATAKANA;w_YA]);
  (0x32f4, [w_CIRCLED;w_KATAKANA;w_YU]);
  (0x32f5, [w_CIRCLED;w_KATAKANA;w_YO]);
  (0x32f6, [w_CIRCLED;w_KATAKANA;w_RA]);
  (0x32f7, [w_CIRCLED;w_KATAKANA;w_RI]);
  (0x32f8, [w_CIRCLED;w_KATAKANA;w_RU]);
  (0x32f9, [w_CIRCLED;w_KATAKANA;w_RE]);
  (0x32fa, [w_CIRCLED;w_KATAKANA;w_RO]);
  (0x32fb, [w_CIRCLED;w_KATAKANA;w_WA]);
  (0x32fc, [w_CIRCLED;w_KATAKANA;w_WI]);
  (0x32fd, [w_CIRCLED;w_KATAKANA;w_WE]);
  (0x32fe, [w_CIRCLED;w_KATAKANA;w_WO]);
  (0x3300, [w_SQUARE;w_APAATO]);
  (0x3301, [w_SQUARE;w_ARUHUA]);
  (0x3302, [w_SQUARE;w_ANPEA]);
  (0x3303, [w_SQUARE;w_AARU]);
  (0x3304, [w_SQUARE;w_ININGU]);
  (0x3305, [w_SQUARE;w_INTI]);
  (0x3306, [w_SQUARE;w_UON]);
  (0x3307, [w_SQUARE;w_ESUKUUDO]);
  (0x3308, [w_SQUARE;w_EEKAA]);
  (0x3309, [w_SQUARE;w_ONSU]);
  (0x330a, [w_SQUARE;w_OOMU]);
  (0x330b, [w_SQUARE;w_KAIRI]);
  (0x330c, [w_SQUARE;w_KARATTO]);
  (0x330d, [w_SQUARE;w_KARORII]);
  (0x330e, [w_SQUARE;w_GARON]);
  (0x330f, [w_SQUARE;w_GANMA]);
  (0x3310, [w_SQUARE;w_GIGA]);
  (0x3311, [w_SQUARE;w_GINII]);
  (0x3312, [w_SQUARE;w_KYURII]);
  (0x3313, [w_SQUARE;w_GIRUDAA]);
  (0x3314, [w_SQUARE;w_KIRO]);
  (0x3315, [w_SQUARE;w_KIROGURAMU]);
  (0x3316, [w_SQUARE;w_KIROMEETORU]);
  (0x3317, [w_SQUARE;w_KIROWATTO]);
  (0x3318, [w_SQUARE;w_GURAMU]);
  (0x3319, [w_SQUARE;w_GURAMUTON]);
  (0x331a, [w_SQUARE;w_KURUZEIRO]);
  (0x331b, [w_SQUARE;w_KUROONE]);
  (0x331c, [w_SQUARE;w_KEESU]);
  (0x331d, [w_SQUARE;w_KORUNA]);
  (0x331e, [w_SQUARE;w_KOOPO]);
  (0x331f, [w_SQUARE;w_SAIKURU]);
  (0x3320, [w_SQUARE;w_SANTIIMU]);
  (0x3321, [w_SQUARE;w_SIRINGU]);
  (0x3322, [w_SQUARE;w_SENTI]);
  (0x3323, [w_SQUARE;w_SENTO]);
  (0x3324, [w_SQUARE;w_DAASU]);
  (0x3325, [w_SQUARE;w_DESI]);
  (0x3326, [w_SQUARE;w_DORU]);
  (0x3327, [w_SQUARE;w_TON]);
  (0x3328, [w_SQUARE;w_NANO]);
  (0x3329, [w_SQUARE;w_NOTTO]);
  (0x332a, [w_SQUARE;w_HAITU]);
  (0x332b, [w_SQUARE;w_PAASENTO]);
  (0x332c, [w_SQUARE;w_PAATU]);
  (0x332d, [w_SQUARE;w_BAARERU]);
  (0x332e, [w_SQUARE;w_PIASUTORU]);
  (0x332f, [w_SQUARE;w_PIKURU]);
  (0x3330, [w_SQUARE;w_PIKO]);
  (0x3331, [w_SQUARE;w_BIRU]);
  (0x3332, [w_SQUARE;w_HUARADDO]);
  (0x3333, [w_SQUARE;w_HUIITO]);
  (0x3334, [w_SQUARE;w_BUSSYERU]);
  (0x3335, [w_SQUARE;w_HURAN]);
  (0x3336, [w_SQUARE;w_HEKUTAARU]);
  (0x3337, [w_SQUARE;w_PESO]);
  (0x3338, [w_SQUARE;w_PENIHI]);
  (0x3339, [w_SQUARE;w_HERUTU]);
  (0x333a, [w_SQUARE;w_PENSU]);
  (0x333b, [w_SQUARE;w_PEEZI]);
  (0x333c, [w_SQUARE;w_BEETA]);
  (0x333d, [w_SQUARE;w_POINTO]);
  (0x333e, [w_SQUARE;w_BORUTO]);
  (0x333f, [w_SQUARE;w_HON]);
  (0x3340, [w_SQUARE;w_PONDO]);
  (0x3341, [w_SQUARE;w_HOORU]);
  (0x3342, [w_SQUARE;w_HOON]);
  (0x3343, [w_SQUARE;w_MAIKURO]);
  (0x3344, [w_SQUARE;w_MAIRU]);
  (0x3345, [w_SQUARE;w_MAHHA]);
  (0x3346, [w_SQUARE;w_MARUKU]);
  (0x3347, [w_SQUARE;w_MANSYON]);
  (0x3348, [w_SQUARE;w_MIKURON]);
  (0x3349, [w_SQUARE;w_MIRI]);
  (0x334a, [w_SQUARE;w_MIRIBAARU]);
  (0x334b, [w_SQUARE;w_MEGA]);
  (0x334c, [w_SQUARE;w_MEGATON]);
  (0x334d, [w_SQUARE;w_MEETORU]);
  (0x334e, [w_SQUARE;w_YAADO]);
  (0x334f, [w_SQUARE;w_YAARU]);
  (0x3350, [w_SQUARE;w_YUAN]);
  (0x3351, [w_SQUARE;w_RITTORU]);
  (0x3352, [w_SQUARE;w_RIRA]);
  (0x3353, [w_SQUARE;w_RUPII]);
  (0x3354, [w_SQUARE;w_RUUBURU]);
  (0x3355, [w_SQUARE;w_REMU]);
  (0x3356, [w_SQUARE;w_RENTOGEN]);
  (0x3357, [w_SQUARE;w_WATTO]);
  (0x3358, [w_IDEOGRAPHIC;w_TELEGRAPH;w_SYMBOL;w_FOR;w_HOUR;w_ZERO]);
  (0x3359, [w_IDEOGRAPHIC;w_TELEGRAPH;w_SYMBOL;w_FOR;w_HOUR;w_ONE]);
  (0x335a, [w_IDEOGRAPHIC;w_TELEGRAPH;w_SYMBOL;w_FOR;w_HOUR;w_TWO]);
  (0x335b, [w_IDEOGRAPHIC;w_TELEGRAPH;w_SYMBOL;w_FOR;w_HOUR;w_THREE]);
  (0x335c, [w_IDEOGRAPHIC;w_TELEGRAPH;w_SYMBOL;w_FOR;w_HOUR;w_FOUR]);
  (0x335d, [w_IDEOGRAPHIC;w_TELEGRAPH;w_SYMBOL;w_FOR;w_HOUR;w_FIVE]);
  (0x335e, [w_IDEOGRAPHIC;w_TELEGRAPH;w_SYMBOL;w_FOR;w_HOUR;w_SIX]);
  (0x335f, [w_IDEOGRAPHIC;w_TELEGRAPH;w_SYMBOL;w_FOR;w_HOUR;w_SEVEN]);
  (0x3360, [w_IDEOGRAPHIC;w_TELEGRAPH;w_SYMBOL;w_FOR;w_HOUR;w_EIGHT]);
  (0x3361, [w_IDEOGRAPHIC;w_TELEGRAPH;w_SYMBOL;w_FOR;w_HOUR;w_NINE]);
  (0x3362, [w_IDEOGRAPHIC;w_TELEGRAPH;w_SYMBOL;w_FOR;w_HOUR;w_TEN]);
  (0x3363, [w_IDEOGRAPHIC;w_TELEGRAPH;w_SYMBOL;w_FOR;w_HOUR;w_ELEVEN]);
  (0x3364, [w_IDEOGRAPHIC;w_TELEGRAPH;w_SYMBOL;w_FOR;w_HOUR;w_TWELVE]);
  (0x3365, [w_IDEOGRAPHIC;w_TELEGRAPH;w_SYMBOL;w_FOR;w_HOUR;w_THIRTEEN]);
  (0x3366, [w_IDEOGRAPHIC;w_TELEGRAPH;w_SYMBOL;w_FOR;w_HOUR;w_FOURTEEN]);
  (0x3367, [w_IDEOGRAPHIC;w_TELEGRAPH;w_SYMBOL;w_FOR;w_HOUR;w_FIFTEEN]);
  (0x3368, [w_IDEOGRAPHIC;w_TELEGRAPH;w_SYMBOL;w_FOR;w_HOUR;w_SIXTEEN]);
  (0x3369, [w_IDEOGRAPHIC;w_TELEGRAPH;w_SYMBOL;w_FOR;w_HOUR;w_SEVENTEEN]);
  (0x336a, [w_IDEOGRAPHIC;w_TELEGRAPH;w_SYMBOL;w_FOR;w_HOUR;w_EIGHTEEN]);
  (0x336b, [w_IDEOGRAPHIC;w_TELEGRAPH;w_SYMBOL;w_FOR;w_HOUR;w_NINETEEN]);
  (0x336c, [w_IDEOGRAPHIC;w_TELEGRAPH;w_SYMBOL;w_FOR;w_HOUR;w_TWENTY]);
  (0x336d, [w_IDEOGRAPHIC;w_TELEGRAPH;w_SYMBOL;w_FOR;w_HOUR;w_TWENTY_ONE]);
  (0x336e, [w_IDEOGRAPHIC;w_TELEGRAPH;w_SYMBOL;w_FOR;w_HOUR;w_TWENTY_TWO]);
  (0x336f, [w_IDEOGRAPHIC;w_TELEGRAPH;w_SYMBOL;w_FOR;w_HOUR;w_TWENTY_THREE]);
  (0x3370, [w_IDEOGRAPHIC;w_TELEGRAPH;w_SYMBOL;w_FOR;w_HOUR;w_TWENTY_FOUR]);
  (0x3371, [w_SQUARE;w_HPA]);
  (0x3372, [w_SQUARE;w_DA]);
  (0x3373, [w_SQUARE;w_AU]);
  (0x3374, [w_SQUARE;w_BAR]);
  (0x3375, [w_SQUARE;w_OV]);
  (0x3376, [w_SQUARE;w_PC]);
  (0x3377, [w_SQUARE;w_DM]);
  (0x3378, [w_SQUARE;w_DM;w_SQUARED]);
  (0x3379, [w_SQUARE;w_DM;w_CUBED]);
  (0x337a, [w_SQUARE;w_IU]);
  (0x337b, [w_SQUARE;w_ERA;w_NAME;w_HEISEI]);
  (0x337c, [w_SQUARE;w_ERA;w_NAME;w_SYOUWA]);
  (0x337d, [w_SQUARE;w_ERA;w_NAME;w_TAISYOU]);
  (0x337e, [w_SQUARE;w_ERA;w_NAME;w_MEIZI]);
  (0x337f, [w_SQUARE;w_CORPORATION]);
  (0x3380, [w_SQUARE;w_PA;w_AMPS]);
  (0x3381, [w_SQUARE;w_NA]);
  (0x3382, [w_SQUARE;w_MU;w_A]);
  (0x3383, [w_SQUARE;w_MA]);
  (0x3384, [w_SQUARE;w_KA]);
  (0x3385, [w_SQUARE;w_KB]);
  (0x3386, [w_SQUARE;w_MB]);
  (0x3387, [w_SQUARE;w_GB]);
  (0x3388, [w_SQUARE;w_CAL]);
  (0x3389, [w_SQUARE;w_KCAL]);
  (0x338a, [w_SQUARE;w_PF]);
  (0x338b, [w_SQUARE;w_NF]);
  (0x338c, [w_SQUARE;w_MU;w_F]);
  (0x338d, [w_SQUARE;w_MU;w_G]);
  (0x338e, [w_SQUARE;w_MG]);
  (0x338f, [w_SQUARE;w_KG]);
  (0x3390, [w_SQUARE;w_HZ]);
  (0x3391, [w_SQUARE;w_KHZ]);
  (0x3392, [w_SQUARE;w_MHZ]);
  (0x3393, [w_SQUARE;w_GHZ]);
  (0x3394, [w_SQUARE;w_THZ]);
  (0x3395, [w_SQUARE;w_MU;w_L]);
  (0x3396, [w_SQUARE;w_ML]);
  (0x3397, [w_SQUARE;w_DL]);
  (0x3398, [w_SQUARE;w_KL]);
  (0x3399, [w_SQUARE;w_FM]);
  (0x339a, [w_SQUARE;w_NM]);
  (0x339b, [w_SQUARE;w_MU;w_M]);
  (0x339c, [w_SQUARE;w_MM]);
  (0x339d, [w_SQUARE;w_CM]);
  (0x339e, [w_SQUARE;w_KM]);
  (0x339f, [w_SQUARE;w_MM;w_SQUARED]);
  (0x33a0, [w_SQUARE;w_CM;w_SQUARED]);
  (0x33a1, [w_SQUARE;w_M;w_SQUARED]);
  (0x33a2, [w_SQUARE;w_KM;w_SQUARED]);
  (0x33a3, [w_SQUARE;w_MM;w_CUBED]);
  (0x33a4, [w_SQUARE;w_CM;w_CUBED]);
  (0x33a5, [w_SQUARE;w_M;w_CUBED]);
  (0x33a6, [w_SQUARE;w_KM;w_CUBED]);
  (0x33a7, [w_SQUARE;w_M;w_OVER;w_S]);
  (0x33a8, [w_SQUARE;w_M;w_OVER;w_S;w_SQUARED]);
  (0x33a9, [w_SQUARE;w_PA]);
  (0x33aa, [w_SQUARE;w_KPA]);
  (0x33ab, [w_SQUARE;w_MPA]);
  (0x33ac, [w_SQUARE;w_GPA]);
  (0x33ad, [w_SQUARE;w_RAD]);
  (0x33ae, [w_SQUARE;w_RAD;w_OVER;w_S]);
  (0x33af, [w_SQUARE;w_RAD;w_OVER;w_S;w_SQUARED]);
  (0x33b0, [w_SQUARE;w_PS]);
  (0x33b1, [w_SQUARE;w_NS]);
  (0x33b2, [w_SQUARE;w_MU;w_S]);
  (0x33b3, [w_SQUARE;w_MS]);
  (0x33b4, [w_SQUARE;w_PV]);
  (0x33b5, [w_SQUARE;w_NV]);
  (0x33b6, [w_SQUARE;w_MU;w_V]);
  (0x33b7, [w_SQUARE;w_MV]);
  (0x33b8, [w_SQUARE;w_KV]);
  (0x33b9, [w_SQUARE;w_MV;w_MEGA]);
  (0x33ba, [w_SQUARE;w_PW]);
  (0x33bb, [w_SQUARE;w_NW]);
  (0x33bc, [w_SQUARE;w_MU;w_W]);
  (0x33bd, [w_SQUARE;w_MW]);
  (0x33be, [w_SQUARE;w_KW]);
  (0x33bf, [w_SQUARE;w_MW;w_MEGA]);
  (0x33c0, [w_SQUARE;w_K;w_OHM]);
  (0x33c1, [w_SQUARE;w_M;w_OHM]);
  (0x33c2, [w_SQUARE;w_AM]);
  (0x33c3, [w_SQUARE;w_BQ]);
  (0x33c4, [w_SQUARE;w_CC]);
  (0x33c5, [w_SQUARE;w_CD]);
  (0x33c6, [w_SQUARE;w_C;w_OVER;w_KG]);
  (0x33c7, [w_SQUARE;w_CO]);
  (0x33c8, [w_SQUARE;w_DB]);
  (0x33c9, [w_SQUARE;w_GY]);
  (0x33ca, [w_SQUARE;w_HA]);
  (0x33cb, [w_SQUARE;w_HP]);
  (0x33cc, [w_SQUARE;w_IN]);
  (0x33cd, [w_SQUARE;w_KK]);
  (0x33ce, [w_SQUARE;w_KM;w_CAPITAL]);
  (0x33cf, [w_SQUARE;w_KT]);
  (0x33d0, [w_SQUARE;w_LM]);
  (0x33d1, [w_SQUARE;w_LN]);
  (0x33d2, [w_SQUARE;w_LOG]);
  (0x33d3, [w_SQUARE;w_LX]);
  (0x33d4, [w_SQUARE;w_MB;w_SMALL]);
  (0x33d5, [w_SQUARE;w_MIL]);
  (0x33d6, [w_SQUARE;w_MOL]);
  (0x33d7, [w_SQUARE;w_PH]);
  (0x33d8, [w_SQUARE;w_PM]);
  (0x33d9, [w_SQUARE;w_PPM]);
  (0x33da, [w_SQUARE;w_PR]);
  (0x33db, [w_SQUARE;w_SR]);
  (0x33dc, [w_SQUARE;w_SV]);
  (0x33dd, [w_SQUARE;w_WB]);
  (0x33de, [w_SQUARE;w_V;w_OVER;w_M]);
  (0x33df, [w_SQUARE;w_A;w_OVER;w_M]);
  (0x33e0, [w_IDEOGRAPHIC;w_TELEGRAPH;w_SYMBOL;w_FOR;w_DAY;w_ONE]);
  (0x33e1, [w_IDEOGRAPHIC;w_TELEGRAPH;w_SYMBOL;w_FOR;w_DAY;w_TWO]);
  (0x33e2, [w_IDEOGRAPHIC;w_TELEGRAPH;w_SYMBOL;w_FOR;w_DAY;w_THREE]);
  (0x33e3, [w_IDEOGRAPHIC;w_TELEGRAPH;w_SYMBOL;w_FOR;w_DAY;w_FOUR]);
  (0x33e4, [w_IDEOGRAPHIC;w_TELEGRAPH;w_SYMBOL;w_FOR;w_DAY;w_FIVE]);
  (0x33e5, [w_IDEOGRAPHIC;w_TELEGRAPH;w_SYMBOL;w_FOR;w_DAY;w_SIX]);
  (0x33e6, [w_IDEOGRAPHIC;w_TELEGRAPH;w_SYMBOL;w_FOR;w_DAY;w_SEVEN]);
  (0x33e7, [w_IDEOGRAPHIC;w_TELEGRAPH;w_SYMBOL;w_FOR;w_DAY;w_EIGHT]);
  (0x33e8, [w_IDEOGRAPHIC;w_TELEGRAPH;w_SYMBOL;w_FOR;w_DAY;w_NINE]);
  (0x33e9, [w_IDEOGRAPHIC;w_TELEGRAPH;w_SYMBOL;w_FOR;w_DAY;w_TEN]);
  (0x33ea, [w_IDEOGRAPHIC;w_TELEGRAPH;w_SYMBOL;w_FOR;w_DAY;w_ELEVEN]);
  (0x33eb, [w_IDEOGRAPHIC;w_TELEGRAPH;w_SYMBOL;w_FOR;w_DAY;w_TWELVE]);
  (0x33ec, [w_IDEOGRAPHIC;w_TELEGRAPH;w_SYMBOL;w_FOR;w_DAY;w_THIRTEEN]);
  (0x33ed, [w_IDEOGRAPHIC;w_TELEGRAPH;w_SYMBOL;w_FOR;w_DAY;w_FOURTEEN]);
  (0x33ee, [w_IDEOGRAPHIC;w_TELEGRAPH;w_SYMBOL;w_FOR;w_DAY;w_FIFTEEN]);
  (0x33ef, [w_IDEOGRAPHIC;w_TELEGRAPH;w_SYMBOL;w_FOR;w_DAY;w_SIXTEEN]);
  (0x33f0, [w_IDEOGRAPHIC;w_TELEGRAPH;w_SYMBOL;w_FOR;w_DAY;w_SEVENTEEN]);
  (0x33f1, [w_IDEOGRAPHIC;w_TELEGRAPH;w_SYMBOL;w_FOR;w_DAY;w_EIGHTEEN]);
  (0x33f2, [w_IDEOGRAPHIC;w_TELEGRAPH;w_SYMBOL;w_FOR;w_DAY;w_NINETEEN]);
  (0x33f3, [w_IDEOGRAPHIC;w_TELEGRAPH;w_SYMBOL;w_FOR;w_DAY;w_TWENTY]);
  (0x33f4, [w_IDEOGRAPHIC;w_TELEGRAPH;w_SYMBOL;w_FOR;w_DAY;w_TWENTY_ONE]);
  (0x33f5, [w_IDEOGRAPHIC;w_TELEGRAPH;w_SYMBOL;w_FOR;w_DAY;w_TWENTY_TWO]);
  (0x33f6, [w_IDEOGRAPHIC;w_TELEGRAPH;w_SYMBOL;w_FOR;w_DAY;w_TWENTY_THREE]);
  (0x33f7, [w_IDEOGRAPHIC;w_TELEGRAPH;w_SYMBOL;w_FOR;w_DAY;w_TWENTY_FOUR]);
  (0x33f8, [w_IDEOGRAPHIC;w_TELEGRAPH;w_SYMBOL;w_FOR;w_DAY;w_TWENTY_FIVE]);
  (0x33f9, [w_IDEOGRAPHIC;w_TELEGRAPH;w_SYMBOL;w_FOR;w_DAY;w_TWENTY_SIX]);
  (0x33fa, [w_IDEOGRAPHIC;w_TELEGRAPH;w_SYMBOL;w_FOR;w_DAY;w_TWENTY_SEVEN]);
  (0x33fb, [w_IDEOGRAPHIC;w_TELEGRAPH;w_SYMBOL;w_FOR;w_DAY;w_TWENTY_EIGHT]);
  (0x33fc, [w_IDEOGRAPHIC;w_TELEGRAPH;w_SYMBOL;w_FOR;w_DAY;w_TWENTY_NINE]);
  (0x33fd, [w_IDEOGRAPHIC;w_TELEGRAPH;w_SYMBOL;w_FOR;w_DAY;w_THIRTY]);
  (0x33fe, [w_IDEOGRAPHIC;w_TELEGRAPH;w_SYMBOL;w_FOR;w_DAY;w_THIRTY_ONE]);
  (0x33ff, [w_SQUARE;w_GAL]);
  (0x4dc0, [w_HEXAGRAM;w_FOR;w_THE;w_CREATIVE;w_HEAVEN]);
  (0x4dc1, [w_HEXAGRAM;w_FOR;w_THE;w_RECEPTIVE;w_EARTH]);
  (0x4dc2, [w_HEXAGRAM;w_FOR;w_DIFFICULTY;w_AT;w_THE;w_BEGINNING]);
  (0x4dc3, [w_HEXAGRAM;w_FOR;w_YOUTHFUL;w_FOLLY]);
  (0x4dc4, [w_HEXAGRAM;w_FOR;w_WAITING]);
  (0x4dc5, [w_HEXAGRAM;w_FOR;w_CONFLICT]);
  (0x4dc6, [w_HEXAGRAM;w_FOR;w_THE;w_ARMY]);
  (0x4dc7, [w_HEXAGRAM;w_FOR;w_HOLDING;w_TOGETHER]);
  (0x4dc8, [w_HEXAGRAM;w_FOR;w_SMALL;w_TAMING]);
  (0x4dc9, [w_HEXAGRAM;w_FOR;w_TREADING]);
  (0x4dca, [w_HEXAGRAM;w_FOR;w_PEACE]);
  (0x4dcb, [w_HEXAGRAM;w_FOR;w_STANDSTILL]);
  (0x4dcc, [w_HEXAGRAM;w_FOR;w_FELLOWSHIP]);
  (0x4dcd, [w_HEXAGRAM;w_FOR;w_GREAT;w_POSSESSION]);
  (0x4dce, [w_HEXAGRAM;w_FOR;w_MODESTY]);
  (0x4dcf, [w_HEXAGRAM;w_FOR;w_ENTHUSIASM]);
  (0x4dd0, [w_HEXAGRAM;w_FOR;w_FOLLOWING]);
  (0x4dd1, [w_HEXAGRAM;w_FOR;w_WORK;w_ON;w_THE;w_DECAYED]);
  (0x4dd2, [w_HEXAGRAM;w_FOR;w_APPROACH]);
  (0x4dd3, [w_HEXAGRAM;w_FOR;w_CONTEMPLATION]);
  (0x4dd4, [w_HEXAGRAM;w_FOR;w_BITING;w_THROUGH]);
  (0x4dd5, [w_HEXAGRAM;w_FOR;w_GRACE]);
  (0x4dd6, [w_HEXAGRAM;w_FOR;w_SPLITTING;w_APART]);
  (0x4dd7, [w_HEXAGRAM;w_FOR;w_RETURN]);
  (0x4dd8, [w_HEXAGRAM;w_FOR;w_INNOCENCE]);
  (0x4dd9, [w_HEXAGRAM;w_FOR;w_GREAT;w_TAMING]);
  (0x4dda, [w_HEXAGRAM;w_FOR;w_MOUTH;w_CORNERS]);
  (0x4ddb, [w_HEXAGRAM;w_FOR;w_GREAT;w_PREPONDERANCE]);
  (0x4ddc, [w_HEXAGRAM;w_FOR;w_THE;w_ABYSMAL;w_WATER]);
  (0x4ddd, [w_HEXAGRAM;w_FOR;w_THE;w_CLINGING;w_FIRE]);
  (0x4dde, [w_HEXAGRAM;w_FOR;w_INFLUENCE]);
  (0x4ddf, [w_HEXAGRAM;w_FOR;w_DURATION]);
  (0x4de0, [w_HEXAGRAM;w_FOR;w_RETREAT]);
  (0x4de1, [w_HEXAGRAM;w_FOR;w_GREAT;w_POWER]);
  (0x4de2, [w_HEXAGRAM;w_FOR;w_PROGRESS]);
  (0x4de3, [w_HEXAGRAM;w_FOR;w_DARKENING;w_OF;w_THE;w_LIGHT]);
  (0x4de4, [w_HEXAGRAM;w_FOR;w_THE;w_FAMILY]);
  (0x4de5, [w_HEXAGRAM;w_FOR;w_OPPOSITION]);
  (0x4de6, [w_HEXAGRAM;w_FOR;w_OBSTRUCTION]);
  (0x4de7, [w_HEXAGRAM;w_FOR;w_DELIVERANCE]);
  (0x4de8, [w_HEXAGRAM;w_FOR;w_DECREASE]);
  (0x4de9, [w_HEXAGRAM;w_FOR;w_INCREASE]);
  (0x4dea, [w_HEXAGRAM;w_FOR;w_BREAKTHROUGH]);
  (0x4deb, [w_HEXAGRAM;w_FOR;w_COMING;w_TO;w_MEET]);
  (0x4dec, [w_HEXAGRAM;w_FOR;w_GATHERING;w_TOGETHER]);
  (0x4ded, [w_HEXAGRAM;w_FOR;w_PUSHING;w_UPWARD]);
  (0x4dee, [w_HEXAGRAM;w_FOR;w_OPPRESSION]);
  (0x4def, [w_HEXAGRAM;w_FOR;w_THE;w_WELL]);
  (0x4df0, [w_HEXAGRAM;w_FOR;w_REVOLUTION]);
  (0x4df1, [w_HEXAGRAM;w_FOR;w_THE;w_CAULDRON]);
  (0x4df2, [w_HEXAGRAM;w_FOR;w_THE;w_AROUSING;w_THUNDER]);
  (0x4df3, [w_HEXAGRAM;w_FOR;w_THE;w_KEEPING;w_STILL;w_MOUNTAIN]);
  (0x4df4, [w_HEXAGRAM;w_FOR;w_DEVELOPMENT]);
  (0x4df5, [w_HEXAGRAM;w_FOR;w_THE;w_MARRYING;w_MAIDEN]);
  (0x4df6, [w_HEXAGRAM;w_FOR;w_ABUNDANCE]);
  (0x4df7, [w_HEXAGRAM;w_FOR;w_THE;w_WANDERER]);
  (0x4df8, [w_HEXAGRAM;w_FOR;w_THE;w_GENTLE;w_WIND]);
  (0x4df9, [w_HEXAGRAM;w_FOR;w_THE;w_JOYOUS;w_LAKE]);
  (0x4dfa, [w_HEXAGRAM;w_FOR;w_DISPERSION]);
  (0x4dfb, [w_HEXAGRAM;w_FOR;w_LIMITATION]);
  (0x4dfc, [w_HEXAGRAM;w_FOR;w_INNER;w_TRUTH]);
  (0x4dfd, [w_HEXAGRAM;w_FOR;w_SMALL;w_PREPONDERANCE]);
  (0x4dfe, [w_HEXAGRAM;w_FOR;w_AFTER;w_COMPLETION]);
  (0x4dff, [w_HEXAGRAM;w_FOR;w_BEFORE;w_COMPLETION]);
  (0xa000, [w_YI;w_SYLLABLE;w_IT]);
  (0xa001, [w_YI;w_SYLLABLE;w_IX]);
  (0xa002, [w_YI;w_SYLLABLE;w_I]);
  (0xa003, [w_YI;w_SYLLABLE;w_IP]);
  (0xa004, [w_YI;w_SYLLABLE;w_IET]);
  (0xa005, [w_YI;w_SYLLABLE;w_IEX]);
  (0xa006, [w_YI;w_SYLLABLE;w_IE]);
  (0xa007, [w_YI;w_SYLLABLE;w_IEP]);
  (0xa008, [w_YI;w_SYLLABLE;w_AT]);
  (0xa009, [w_YI;w_SYLLABLE;w_AX]);
  (0xa00a, [w_YI;w_SYLLABLE;w_A]);
  (0xa00b, [w_YI;w_SYLLABLE;w_AP]);
  (0xa00c, [w_YI;w_SYLLABLE;w_UOX]);
  (0xa00d, [w_YI;w_SYLLABLE;w_UO])].

Definition NAMES_30 : list (N * (list str)) := [
  (0xa00e, [w_YI;w_SYLLABLE;w_UOP]);
  (0xa00f, [w_YI;w_SYLLABLE;w_OT]);
  (0xa010, [w_YI;w_SYLLABLE;w_OX]);
  (0xa011, [w_YI;w_SYLLABLE;w_O]);
  (0xa012, [w_YI;w_SYLLABLE;w_OP]);
  (0xa013, [w_YI;w_SYLLABLE;w_EX]);
  (0xa014, [w_YI;w_SYLLABLE;w_E]);
  (0xa015, [w_YI;w_SYLLABLE;w_WU]);
  (0xa016, [w_YI;w_SYLLABLE;w_BIT]);
  (0xa017, [w_YI;w_SYLLABLE;w_BIX]);
  (0xa018, [w_YI;w_SYLLABLE;w_BI]);
  (0xa019, [w_YI;w_SYLLABLE;w_BIP]);
  (0xa01a, [w_YI;w_SYLLABLE;w_BIET]);
  (0xa01b, [w_YI;w_SYLLABLE;w_BIEX]);
  (0xa01c, [w_YI;w_SYLLABLE;w_BIE]);
  (0xa01d, [w_YI;w_SYLLABLE;w_BIEP]);
  (0xa01e, [w_YI;w_SYLLABLE;w_BAT]);
  (0xa01f, [w_YI;w_SYLLABLE;w_BAX]);
  (0xa020, [w_YI;w_SYLLABLE;w_BA]);
  (0xa021, [w_YI;w_SYLLABLE;w_BAP]);
  (0xa022, [w_YI;w_SYLLABLE;w_BUOX]);
  (0xa023, [w_YI;w_SYLLABLE;w_BUO]);
  (0xa024, [w_YI;w_SYLLABLE;w_BUOP]);
  (0xa025, [w_YI;w_SYLLABLE;w_BOT]);
  (0xa026, [w_YI;w_SYLLABLE;w_BOX]);
  (0xa027, [w_YI;w_SYLLABLE;w_BO]);
  (0xa028, [w_YI;w_SYLLABLE;w_BOP]);
  (0xa029, [w_YI;w_SYLLABLE;w_BEX]);
  (0xa02a, [w_YI;w_SYLLABLE;w_BE]);
  (0xa02b, [w_YI;w_SYLLABLE;w_BEP]);
  (0xa02c, [w_YI;w_SYLLABLE;w_BUT]);
  (0xa02d, [w_YI;w_SYLLABLE;w_BUX]);
  (0xa02e, [w_YI;w_SYLLABLE;w_BU]);
  (0xa02f, [w_YI;w_SYLLABLE;w_BUP]);
  (0xa030, [w_YI;w_SYLLABLE;w_BURX]);
  (0xa031, [w_YI;w_SYLLABLE;w_BUR]);
  (0xa032, [w_YI;w_SYLLABLE;w_BYT]);
  (0xa033, [w_YI;w_SYLLABLE;w_BYX]);
  (0xa034, [w_YI;w_SYLLABLE;w_BY]);
  (0xa035, [w_YI;w_SYLLABLE;w_BYP]);
  (0xa036, [w_YI;w_SYLLABLE;w_BYRX]);
  (0xa037, [w_YI;w_SYLLABLE;w_BYR]);
  (0xa038, [w_YI;w_SYLLABLE;w_PIT]);
  (0xa039, [w_YI;w_SYLLABLE;w_PIX]);
  (0xa03a, [w_YI;w_SYLLABLE;w_PI]);
  (0xa03b, [w_YI;w_SYLLABLE;w_PIP]);
  (0xa03c, [w_YI;w_SYLLABLE;w_PIEX]);
  (0xa03d, [w_YI;w_SYLLABLE;w_PIE]);
  (0xa03e, [w_YI;w_SYLLABLE;w_PIEP]);
  (0xa03f, [w_YI;w_SYLLABLE;w_PAT]);
  (0xa040, [w_YI;w_SYLLABLE;w_PAX]);
  (0xa041, [w_YI;w_SYLLABLE;w_PA]);
  (0xa042, [w_YI;w_SYLLABLE;w_PAP]);
  (0xa043, [w_YI;w_SYLLABLE;w_PUOX]);
  (0xa044, [w_YI;w_SYLLABLE;w_PUO]);
  (0xa045, [w_YI;w_SYLLABLE;w_PUOP]);
  (0xa046, [w_YI;w_SYLLABLE;w_POT]);
  (0xa047, [w_YI;w_SYLLABLE;w_POX]);
  (0xa048, [w_YI;w_SYLLABLE;w_PO]);
  (0xa049, [w_YI;w_SYLLABLE;w_POP]);
  (0xa04a, [w_YI;w_SYLLABLE;w_PUT]);
  (0xa04b, [w_YI;w_SYLLABLE;w_PUX]);
  (0xa04c, [w_YI;w_SYLLABLE;w_PU]);
  (0xa04d, [w_YI;w_SYLLABLE;w_PUP]);
  (0xa04e, [w_YI;w_SYLLABLE;w_PURX]);
  (0xa04f, [w_YI;w_SYLLABLE;w_PUR]);
  (0xa050, [w_YI;w_SYLLABLE;w_PYT]);
  (0xa051, [w_YI;w_SYLLABLE;w_PYX]);
  (0xa052, [w_YI;w_SYLLABLE;w_PY]);
  (0xa053, [w_YI;w_SYLLABLE;w_PYP]);
  (0xa054, [w_YI;w_SYLLABLE;w_PYRX]);
  (0xa055, [w_YI;w_SYLLABLE;w_PYR]);
  (0xa056, [w_YI;w_SYLLABLE;w_BBIT]);
  (0xa057, [w_YI;w_SYLLABLE;w_BBIX]);
  (0xa058, [w_YI;w_SYLLABLE;w_BBI]);
  (0xa059, [w_YI;w_SYLLABLE;w_BBIP]);
  (0xa05a, [w_YI;w_SYLLABLE;w_BBIET]);
  (0xa05b, [w_YI;w_SYLLABLE;w_BBIEX]);
  (0xa05c, [w_YI;w_SYLLABLE;w_BBIE]);
  (0xa05d, [w_YI;w_SYLLABLE;w_BBIEP]);
  (0xa05e, [w_YI;w_SYLLABLE;w_BBAT]);
  (0xa05f, [w_YI;w_SYLLABLE;w_BBAX]);
  (0xa060, [w_YI;w_SYLLABLE;w_BBA]);
  (0xa061, [w_YI;w_SYLLABLE;w_BBAP]);
  (0xa062, [w_YI;w_SYLLABLE;w_BBUOX]);
  (0xa063, [w_YI;w_SYLLABLE;w_BBUO]);
  (0xa064, [w_YI;w_SYLLABLE;w_BBUOP]);
  (0xa065, [w_YI;w_SYLLABLE;w_BBOT]);
  (0xa066, [w_YI;w_SYLLABLE;w_BBOX]);
  (0xa067, [w_YI;w_SYLLABLE;w_BBO]);
  (0xa068, [w_YI;w_SYLLABLE;w_BBOP]);
  (0xa069, [w_YI;w_SYLLABLE;w_BBEX]);
  (0xa06a, [w_YI;w_SYLLABLE;w_BBE]);
  (0xa06b, [w_YI;w_SYLLABLE;w_BBEP]);
  (0xa06c, [w_YI;w_SYLLABLE;w_BBUT]);
  (0xa06d, [w_YI;w_SYLLABLE;w_BBUX]);
  (0xa06e, [w_YI;w_SYLLABLE;w_BBU]);
  (0xa06f, [w_YI;w_SYLLABLE;w_BBUP]);
  (0xa070, [w_YI;w_SYLLABLE;w_BBURX]);
  (0xa071, [w_YI;w_SYLLABLE;w_BBUR]);
  (0xa072, [w_YI;w_SYLLABLE;w_BBYT]);
  (0xa073, [w_YI;w_SYLLABLE;w_BBYX]);
  (0xa074, [w_YI;w_SYLLABLE;w_BBY]);
  (0xa075, [w_YI;w_SYLLABLE;w_BBYP]);
  (0xa076, [w_YI;w_SYLLABLE;w_NBIT]);
  (0xa077, [w_YI;w_SYLLABLE;w_NBIX]);
  (0xa078, [w_YI;w_SYLLABLE;w_NBI]);
  (0xa079, [w_YI;w_SYLLABLE;w_NBIP]);
  (0xa07a, [w_YI;w_SYLLABLE;w_NBIEX]);
  (0xa07b, [w_YI;w_SYLLABLE;w_NBIE]);
  (0xa07c, [w_YI;w_SYLLABLE;w_NBIEP]);
  (0xa07d, [w_YI;w_SYLLABLE;w_NBAT]);
  (0xa07e, [w_YI;w_SYLLABLE;w_NBAX]);
  (0xa07f, [w_YI;w_SYLLABLE;w_NBA]);
  (0xa080, [w_YI;w_SYLLABLE;w_NBAP]);
  (0xa081, [w_YI;w_SYLLABLE;w_NBOT]);
  (0xa082, [w_YI;w_SYLLABLE;w_NBOX]);
  (0xa083, [w_YI;w_SYLLABLE;w_NBO]);
  (0xa084, [w_YI;w_SYLLABLE;w_NBOP]);
  (0xa085, [w_YI;w_SYLLABLE;w_NBUT]);
  (0xa086, [w_YI;w_SYLLABLE;w_NBUX]);
  (0xa087, [w_YI;w_SYLLABLE;w_NBU]);
  (0xa088, [w_YI;w_SYLLABLE;w_NBUP]);
  (0xa089, [w_YI;w_SYLLABLE;w_NBURX]);
  (0xa08a, [w_YI;w_SYLLABLE;w_NBUR]);
  (0xa08b, [w_YI;w_SYLLABLE;w_NBYT]);
  (0xa08c, [w_YI;w_SYLLABLE;w_NBYX]);
  (0xa08d, [w_YI;w_SYLLABLE;w_NBY]);
  (0xa08e, [w_YI;w_SYLLABLE;w_NBYP]);
  (0xa08f, [w_YI;w_SYLLABLE;w_NBYRX]);
  (0xa090, [w_YI;w_SYLLABLE;w_NBYR]);
  (0xa091, [w_YI;w_SYLLABLE;w_HMIT]);
  (0xa092, [w_YI;w_SYLLABLE;w_HMIX]);
  (0xa093, [w_YI;w_SYLLABLE;w_HMI]);
  (0xa094, [w_YI;w_SYLLABLE;w_HMIP]);
  (0xa095, [w_YI;w_SYLLABLE;w_HMIEX]);
  (0xa096, [w_YI;w_SYLLABLE;w_HMIE]);
  (0xa097, [w_YI;w_SYLLABLE;w_HMIEP]);
  (0xa098, [w_YI;w_SYLLABLE;w_HMAT]);
  (0xa099, [w_YI;w_SYLLABLE;w_HMAX]);
  (0xa09a, [w_YI;w_SYLLABLE;w_HMA]);
  (0xa09b, [w_YI;w_SYLLABLE;w_HMAP]);
  (0xa09c, [w_YI;w_SYLLABLE;w_HMUOX]);
  (0xa09d, [w_YI;w_SYLLABLE;w_HMUO]);
  (0xa09e, [w_YI;w_SYLLABLE;w_HMUOP]);
  (0xa09f, [w_YI;w_SYLLABLE;w_HMOT]);
  (0xa0a0, [w_YI;w_SYLLABLE;w_HMOX]);
  (0xa0a1, [w_YI;w_SYLLABLE;w_HMO]);
  (0xa0a2, [w_YI;w_SYLLABLE;w_HMOP]);
  (0xa0a3, [w_YI;w_SYLLABLE;w_HMUT]);
  (0xa0a4, [w_YI;w_SYLLABLE;w_HMUX]);
  (0xa0a5, [w_YI;w_SYLLABLE;w_HMU]);
  (0xa0a6, [w_YI;w_SYLLABLE;w_HMUP]);
  (0xa0a7, [w_YI;w_SYLLABLE;w_HMURX]);
  (0xa0a8, [w_YI;w_SYLLABLE;w_HMUR]);
  (0xa0a9, [w_YI;w_SYLLABLE;w_HMYX]);
  (0xa0aa, [w_YI;w_SYLLABLE;w_HMY]);
  (0xa0ab, [w_YI;w_SYLLABLE;w_HMYP]);
  (0xa0ac, [w_YI;w_SYLLABLE;w_HMYRX]);
  (0xa0ad, [w_YI;w_SYLLABLE;w_HMYR]);
  (0xa0ae, [w_YI;w_SYLLABLE;w_MIT]);
  (0xa0af, [w_YI;w_SYLLABLE;w_MIX]);
  (0xa0b0, [w_YI;w_SYLLABLE;w_MI]);
  (0xa0b1, [w_YI;w_SYLLABLE;w_MIP]);
  (0xa0b2, [w_YI;w_SYLLABLE;w_MIEX]);
  (0xa0b3, [w_YI;w_SYLLABLE;w_MIE]);
  (0xa0b4, [w_YI;w_SYLLABLE;w_MIEP]);
  (0xa0b5, [w_YI;w_SYLLABLE;w_MAT]);
  (0xa0b6, [w_YI;w_SYLLABLE;w_MAX]);
  (0xa0b7, [w_YI;w_SYLLABLE;w_MA]);
  (0xa0b8, [w_YI;w_SYLLABLE;w_MAP]);
  (0xa0b9, [w_YI;w_SYLLABLE;w_MUOT]);
  (0xa0ba, [w_YI;w_SYLLABLE;w_MUOX]);
  (0xa0bb, [w_YI;w_SYLLABLE;w_MUO]);
  (0xa0bc, [w_YI;w_SYLLABLE;w_MUOP]);
  (0xa0bd, [w_YI;w_SYLLABLE;w_MOT]);
  (0xa0be, [w_YI;w_SYLLABLE;w_MOX]);
  (0xa0bf, [w_YI;w_SYLLABLE;w_MO]);
  (0xa0c0, [w_YI;w_SYLLABLE;w_MOP]);
  (0xa0c1, [w_YI;w_SYLLABLE;w_MEX]);
  (0xa0c2, [w_YI;w_SYLLABLE;w_ME]);
  (0xa0c3, [w_YI;w_SYLLABLE;w_MUT]);
  (0xa0c4, [w_YI;w_SYLLABLE;w_MUX]);
  (0xa0c5, [w_YI;w_SYLLABLE;w_MU]);
  (0xa0c6, [w_YI;w_SYLLABLE;w_MUP]);
  (0xa0c7, [w_YI;w_SYLLABLE;w_MURX]);
  (0xa0c8, [w_YI;w_SYLLABLE;w_MUR]);
  (0xa0c9, [w_YI;w_SYLLABLE;w_MYT]);
  (0xa0ca, [w_YI;w_SYLLABLE;w_MYX]);
  (0xa0cb, [w_YI;w_SYLLABLE;w_MY]);
  (0xa0cc, [w_YI;w_SYLLABLE;w_MYP]);
  (0xa0cd, [w_YI;w_SYLLABLE;w_FIT]);
  (0xa0ce, [w_YI;w_SYLLABLE;w_FIX]);
  (0xa0cf, [w_YI;w_SYLLABLE;w_FI]);
  (0xa0d0, [w_YI;w_SYLLABLE;w_FIP]);
  (0xa0d1, [w_YI;w_SYLLABLE;w_FAT]);
  (0xa0d2, [w_YI;w_SYLLABLE;w_FAX]);
  (0xa0d3, [w_YI;w_SYLLABLE;w_FA]);
  (0xa0d4, [w_YI;w_SYLLABLE;w_FAP]);
  (0xa0d5, [w_YI;w_SYLLABLE;w_FOX]);
  (0xa0d6, [w_YI;w_SYLLABLE;w_FO]);
  (0xa0d7, [w_YI;w_SYLLABLE;w_FOP]);
  (0xa0d8, [w_YI;w_SYLLABLE;w_FUT]);
  (0xa0d9, [w_YI;w_SYLLABLE;w_FUX]);
  (0xa0da, [w_YI;w_SYLLABLE;w_FU]);
  (0xa0db, [w_YI;w_SYLLABLE;w_FUP]);
  (0xa0dc, [w_YI;w_SYLLABLE;w_FURX]);
  (0xa0dd, [w_YI;w_SYLLABLE;w_FUR]);
  (0xa0de, [w_YI;w_SYLLABLE;w_FYT]);
  (0xa0df, [w_YI;w_SYLLABLE;w_FYX]);
  (0xa0e0, [w_YI;w_SYLLABLE;w_FY]);
  (0xa0e1, [w_YI;w_SYLLABLE;w_FYP]);
  (0xa0e2, [w_YI;w_SYLLABLE;w_VIT]);
  (0xa0e3, [w_YI;w_SYLLABLE;w_VIX]);
  (0xa0e4, [w_YI;w_SYLLABLE;w_VI]);
  (0xa0e5, [w_YI;w_SYLLABLE;w_VIP]);
  (0xa0e6, [w_YI;w_SYLLABLE;w_VIET]);
  (0xa0e7, [w_YI;w_SYLLABLE;w_VIEX]);
  (0xa0e8, [w_YI;w_SYLLABLE;w_VIE]);
  (0xa0e9, [w_YI;w_SYLLABLE;w_VIEP]);
  (0xa0ea, [w_YI;w_SYLLABLE;w_VAT]);
  (0xa0eb, [w_YI;w_SYLLABLE;w_VAX]);
  (0xa0ec, [w_YI;w_SYLLABLE;w_VA]);
  (0xa0ed, [w_YI;w_SYLLABLE;w_VAP]);
  (0xa0ee, [w_YI;w_SYLLABLE;w_VOT]);
  (0xa0ef, [w_YI;w_SYLLABLE;w_VOX]);
  (0xa0f0, [w_YI;w_SYLLABLE;w_VO]);
  (0xa0f1, [w_YI;w_SYLLABLE;w_VOP]);
  (0xa0f2, [w_YI;w_SYLLABLE;w_VEX]);
  (0xa0f3, [w_YI;w_SYLLABLE;w_VEP]);
  (0xa0f4, [w_YI;w_SYLLABLE;w_VUT]);
  (0xa0f5, [w_YI;w_SYLLABLE;w_VUX]);
  (0xa0f6, [w_YI;w_SYLLABLE;w_VU]);
  (0xa0f7, [w_YI;w_SYLLABLE;w_VUP]);
  (0xa0f8, [w_YI;w_SYLLABLE;w_VURX]);
  (0xa0f9, [w_YI;w_SYLLABLE;w_VUR]);
  (0xa0fa, [w_YI;w_SYLLABLE;w_VYT]);
  (0xa0fb, [w_YI;w_SYLLABLE;w_VYX]);
  (0xa0fc, [w_YI;w_SYLLABLE;w_VY]);
  (0xa0fd, [w_YI;w_SYLLABLE;w_VYP]);
  (0xa0fe, [w_YI;w_SYLLABLE;w_VYRX]);
  (0xa0ff, [w_YI;w_SYLLABLE;w_VYR]);
  (0xa100, [w_YI;w_SYLLABLE;w_DIT]);
  (0xa101, [w_YI;w_SYLLABLE;w_DIX]);
  (0xa102, [w_YI;w_SYLLABLE;w_DI]);
  (0xa103, [w_YI;w_SYLLABLE;w_DIP]);
  (0xa104, [w_YI;w_SYLLABLE;w_DIEX]);
  (0xa105, [w_YI;w_SYLLABLE;w_DIE]);
  (0xa106, [w_YI;w_SYLLABLE;w_DIEP]);
  (0xa107, [w_YI;w_SYLLABLE;w_DAT]);
  (0xa108, [w_YI;w_SYLLABLE;w_DAX]);
  (0xa109, [w_YI;w_SYLLABLE;w_DA]);
  (0xa10a, [w_YI;w_SYLLABLE;w_DAP]);
  (0xa10b, [w_YI;w_SYLLABLE;w_DUOX]);
  (0xa10c, [w_YI;w_SYLLABLE;w_DUO]);
  (0xa10d, [w_YI;w_SYLLABLE;w_DOT]);
  (0xa10e, [w_YI;w_SYLLABLE;w_DOX]);
  (0xa10f, [w_YI;w_SYLLABLE;w_DO]);
  (0xa110, [w_YI;w_SYLLABLE;w_DOP]);
  (0xa111, [w_YI;w_SYLLABLE;w_DEX]);
  (0xa112, [w_YI;w_SYLLABLE;w_DE]);
  (0xa113, [w_YI;w_SYLLABLE;w_DEP]);
  (0xa114, [w_YI;w_SYLLABLE;w_DUT]);
  (0xa115, [w_YI;w_SYLLABLE;w_DUX]);
  (0xa116, [w_YI;w_SYLLABLE;w_DU]);
  (0xa117, [w_YI;w_SYLLABLE;w_DUP]);
  (0xa118, [w_YI;w_SYLLABLE;w_DURX]);
  (0xa119, [w_YI;w_SYLLABLE;w_DUR]);
  (0xa11a, [w_YI;w_SYLLABLE;w_TIT]);
  (0xa11b, [w_YI;w_SYLLABLE;w_TIX]);
  (0xa11c, [w_YI;w_SYLLABLE;w_TI]);
  (0xa11d, [w_YI;w_SYLLABLE;w_TIP]);
  (0xa11e, [w_YI;w_SYLLABLE;w_TIEX]);
  (0xa11f, [w_YI;w_SYLLABLE;w_TIE]);
  (0xa120, [w_YI;w_SYLLABLE;w_TIEP]);
  (0xa121, [w_YI;w_SYLLABLE;w_TAT]);
  (0xa122, [w_YI;w_SYLLABLE;w_TAX]);
  (0xa123, [w_YI;w_SYLLABLE;w_TA]);
  (0xa124, [w_YI;w_SYLLABLE;w_TAP]);
  (0xa125, [w_YI;w_SYLLABLE;w_TUOT]);
  (0xa126, [w_YI;w_SYLLABLE;w_TUOX]);
  (0xa127, [w_YI;w_SYLLABLE;w_TUO]);
  (0xa128, [w_YI;w_SYLLABLE;w_TUOP]);
  (0xa129, [w_YI;w_SYLLABLE;w_TOT]);
  (0xa12a, [w_YI;w_SYLLABLE;w_TOX]);
  (0xa12b, [w_YI;w_SYLLABLE;w_TO]);
  (0xa12c, [w_YI;w_SYLLABLE;w_TOP]);
  (0xa12d, [w_YI;w_SYLLABLE;w_TEX]);
  (0xa12e, [w_YI;w_SYLLABLE;w_TE]);
  (0xa12f, [w_YI;w_SYLLABLE;w_TEP]);
  (0xa130, [w_YI;w_SYLLABLE;w_TUT]);
  (0xa131, [w_YI;w_SYLLABLE;w_TUX]);
  (0xa132, [w_YI;w_SYLLABLE;w_TU]);
  (0xa133, [w_YI;w_SYLLABLE;w_TUP]);
  (0xa134, [w_YI;w_SYLLABLE;w_TURX]);
  (0xa135, [w_YI;w_SYLLABLE;w_TUR]);
  (0xa136, [w_YI;w_SYLLABLE;w_DDIT]);
  (0xa137, [w_YI;w_SYLLABLE;w_DDIX]);
  (0xa138, [w_YI;w_SYLLABLE;w_DDI]);
  (0xa139, [w_YI;w_SYLLABLE;w_DDIP]);
  (0xa13a, [w_YI;w_SYLLABLE;w_DDIEX]);
  (0xa13b, [w_YI;w_SYLLABLE;w_DDIE]);
  (0xa13c, [w_YI;w_SYLLABLE;w_DDIEP]);
  (0xa13d, [w_YI;w_SYLLABLE;w_DDAT]);
  (0xa13e, [w_YI;w_SYLLABLE;w_DDAX]);
  (0xa13f, [w_YI;w_SYLLABLE;w_DDA]);
  (0xa140, [w_YI;w_SYLLABLE;w_DDAP]);
  (0xa141, [w_YI;w_SYLLABLE;w_DDUOX]);
  (0xa142, [w_YI;w_SYLLABLE;w_DDUO]);
  (0xa143, [w_YI;w_SYLLABLE;w_DDUOP]);
  (0xa144, [w_YI;w_SYLLABLE;w_DDOT]);
  (0xa145, [w_YI;w_SYLLABLE;w_DDOX]);
  (0xa146, [w_YI;w_SYLLABLE;w_DDO]);
  (0xa147, [w_YI;w_SYLLABLE;w_DDOP]);
  (0xa148, [w_YI;w_SYLLABLE;w_DDEX]);
  (0xa149, [w_YI;w_SYLLABLE;w_DDE]);
  (0xa14a, [w_YI;w_SYLLABLE;w_DDEP]);
  (0xa14b, [w_YI;w_SYLLABLE;w_DDUT]);
  (0xa14c, [w_YI;w_SYLLABLE;w_DDUX]);
  (0xa14d, [w_YI;w_SYLLABLE;w_DDU]);
  (0xa14e, [w_YI;w_SYLLABLE;w_DDUP]);
  (0xa14f, [w_YI;w_SYLLABLE;w_DDURX]);
  (0xa150, [w_YI;w_SYLLABLE;w_DDUR]);
  (0xa151, [w_YI;w_SYLLABLE;w_NDIT]);
  (0xa152, [w_YI;w_SYLLABLE;w_NDIX]);
  (0xa153, [w_YI;w_SYLLABLE;w_NDI]);
  (0xa154, [w_YI;w_SYLLABLE;w_NDIP]);
  (0xa155, [w_YI;w_SYLLABLE;w_NDIEX]);
  (0xa156, [w_YI;w_SYLLABLE;w_NDIE]);
  (0xa157, [w_YI;w_SYLLABLE;w_NDAT]);
  (0xa158, [w_YI;w_SYLLABLE;w_NDAX]);
  (0xa159, [w_YI;w_SYLLABLE;w_NDA]);
  (0xa15a, [w_YI;w_SYLLABLE;w_NDAP]);
  (0xa15b, [w_YI;w_SYLLABLE;w_NDOT]);
  (0xa15c, [w_YI;w_SYLLABLE;w_NDOX]);
  (0xa15d, [w_YI;w_SYLLABLE;w_NDO]);
  (0xa15e, [w_YI;w_SYLLABLE;w_NDOP]);
  (0xa15f, [w_YI;w_SYLLABLE;w_NDEX]);
  (0xa160, [w_YI;w_SYLLABLE;w_NDE]);
  (0xa161, [w_YI;w_SYLLABLE;w_NDEP]);
  (0xa162, [w_YI;w_SYLLABLE;w_NDUT]);
  (0xa163, [w_YI;w_SYLLABLE;w_NDUX]);
  (0xa164, [w_YI;w_SYLLABLE;w_NDU]);
  (0xa165, [w_YI;w_SYLLABLE;w_NDUP]);
  (0xa166, [w_YI;w_SYLLABLE;w_NDURX]);
  (0xa167, [w_YI;w_SYLLABLE;w_NDUR]);
  (0xa168, [w_YI;w_SYLLABLE;w_HNIT]);
  (0xa169, [w_YI;w_SYLLABLE;w_HNIX]);
  (0xa16a, [w_YI;w_SYLLABLE;w_HNI]);
  (0xa16b, [w_YI;w_SYLLABLE;w_HNIP]);
  (0xa16c, [w_YI;w_SYLLABLE;w_HNIET]);
  (0xa16d, [w_YI;w_SYLLABLE;w_HNIEX]);
  (0xa16e, [w_YI;w_SYLLABLE;w_HNIE]);
  (0xa16f, [w_YI;w_SYLLABLE;w_HNIEP]);
  (0xa170, [w_YI;w_SYLLABLE;w_HNAT]);
  (0xa171, [w_YI;w_SYLLABLE;w_HNAX]);
  (0xa172, [w_YI;w_SYLLABLE;w_HNA]);
  (0xa173, [w_YI;w_SYLLABLE;w_HNAP]);
  (0xa174, [w_YI;w_SYLLABLE;w_HNUOX]);
  (0xa175, [w_YI;w_SYLLABLE;w_HNUO]);
  (0xa176, [w_YI;w_SYLLABLE;w_HNOT]);
  (0xa177, [w_YI;w_SYLLABLE;w_HNOX]);
  (0xa178, [w_YI;w_SYLLABLE;w_HNOP]);
  (0xa179, [w_YI;w_SYLLABLE;w_HNEX]);
  (0xa17a, [w_YI;w_SYLLABLE;w_HNE]);
  (0xa17b, [w_YI;w_SYLLABLE;w_HNEP]);
  (0xa17c, [w_YI;w_SYLLABLE;w_HNUT]);
  (0xa17d, [w_YI;w_SYLLABLE;w_NIT]);
  (0xa17e, [w_YI;w_SYLLABLE;w_NIX]);
  (0xa17f, [w_YI;w_SYLLABLE;w_NI]);
  (0xa180, [w_YI;w_SYLLABLE;w_NIP]);
  (0xa181, [w_YI;w_SYLLABLE;w_NIEX]);
  (0xa182, [w_YI;w_SYLLABLE;w_NIE]);
  (0xa183, [w_YI;w_SYLLABLE;w_NIEP]);
  (0xa184, [w_YI;w_SYLLABLE;w_NAX]);
  (0xa185, [w_YI;w_SYLLABLE;w_NA]);
  (0xa186, [w_YI;w_SYLLABLE;w_NAP]);
  (0xa187, [w_YI;w_SYLLABLE;w_NUOX]);
  (0xa188, [w_YI;w_SYLLABLE;w_NUO]);
  (0xa189, [w_YI;w_SYLLABLE;w_NUOP]);
  (0xa18a, [w_YI;w_SYLLABLE;w_NOT]);
  (0xa18b, [w_YI;w_SYLLABLE;w_NOX]);
  (0xa18c, [w_YI;w_SYLLABLE;w_NO]);
  (0xa18d, [w_YI;w_SYLLABLE;w_NOP]);
  (0xa18e, [w_YI;w_SYLLABLE;w_NEX]);
  (0xa18f, [w_YI;w_SYLLABLE;w_NE]);
  (0xa190, [w_YI;w_SYLLABLE;w_NEP]);
  (0xa191, [w_YI;w_SYLLABLE;w_NUT]);
  (0xa192, [w_YI;w_SYLLABLE;w_NUX]);
  (0xa193, [w_YI;w_SYLLABLE;w_NU]);
  (0xa194, [w_YI;w_SYLLABLE;w_NUP]);
  (0xa195, [w_YI;w_SYLLABLE;w_NURX]);
  (0xa196, [w_YI;w_SYLLABLE;w_NUR]);
  (0xa197, [w_YI;w_SYLLABLE;w_HLIT]);
  (0xa198, [w_YI;w_SYLLABLE;w_HLIX]);
  (0xa199, [w_YI;w_SYLLABLE;w_HLI]);
  (0xa19a, [w_YI;w_SYLLABLE;w_HLIP]);
  (0xa19b, [w_YI;w_SYLLABLE;w_HLIEX]);
  (0xa19c, [w_YI;w_SYLLABLE;w_HLIE]);
  (0xa19d, [w_YI;w_SYLLABLE;w_HLIEP])].

Definition NAMES_31 : list (N * (list str)) := [
  (0xa19e, [w_YI;w_SYLLABLE;w_HLAT]);
  (0xa19f, [w_YI;w_SYLLABLE;w_HLAX]);
  (0xa1a0, [w_YI;w_SYLLABLE;w_HLA]);
  (0xa1a1, [w_YI;w_SYLLABLE;w_HLAP]);
  (0xa1a2, [w_YI;w_SYLLABLE;w_HLUOX]);
  (0xa1a3, [w_YI;w_SYLLABLE;w_HLUO]);
  (0xa1a4, [w_YI;w_SYLLABLE;w_HLUOP]);
  (0xa1a5, [w_YI;w_SYLLABLE;w_HLOX]);
  (0xa1a6, [w_YI;w_SYLLABLE;w_HLO]);
  (0xa1a7, [w_YI;w_SYLLABLE;w_HLOP]);
  (0xa1a8, [w_YI;w_SYLLABLE;w_HLEX]);
  (0xa1a9, [w_YI;w_SYLLABLE;w_HLE]);
  (0xa1aa, [w_YI;w_SYLLABLE;w_HLEP]);
  (0xa1ab, [w_YI;w_SYLLABLE;w_HLUT]);
  (0xa1ac, [w_YI;w_SYLLABLE;w_HLUX]);
  (0xa1ad, [w_YI;w_SYLLABLE;w_HLU]);
  (0xa1ae, [w_YI;w_SYLLABLE;w_HLUP]);
  (0xa1af, [w_YI;w_SYLLABLE;w_HLURX]);
  (0xa1b0, [w_YI;w_SYLLABLE;w_HLUR]);
  (0xa1b1, [w_YI;w_SYLLABLE;w_HLYT]);
  (0xa1b2, [w_YI;w_SYLLABLE;w_HLYX]);
  (0xa1b3, [w_YI;w_SYLLABLE;w_HLY]);
  (0xa1b4, [w_YI;w_SYLLABLE;w_HLYP]);
  (0xa1b5, [w_YI;w_SYLLABLE;w_HLYRX]);
  (0xa1b6, [w_YI;w_SYLLABLE;w_HLYR]);
  (0xa1b7, [w_YI;w_SYLLABLE;w_LIT]);
  (0xa1b8, [w_YI;w_SYLLABLE;w_LIX]);
  (0xa1b9, [w_YI;w_SYLLABLE;w_LI]);
  (0xa1ba, [w_YI;w_SYLLABLE;w_LIP]);
  (0xa1bb, [w_YI;w_SYLLABLE;w_LIET]);
  (0xa1bc, [w_YI;w_SYLLABLE;w_LIEX]);
  (0xa1bd, [w_YI;w_SYLLABLE;w_LIE]);
  (0xa1be, [w_YI;w_SYLLABLE;w_LIEP]);
  (0xa1bf, [w_YI;w_SYLLABLE;w_LAT]);
  (0xa1c0, [w_YI;w_SYLLABLE;w_LAX]);
  (0xa1c1, [w_YI;w_SYLLABLE;w_LA]);
  (0xa1c2, [w_YI;w_SYLLABLE;w_LAP]);
  (0xa1c3, [w_YI;w_SYLLABLE;w_LUOT]);
  (0xa1c4, [w_YI;w_SYLLABLE;w_LUOX]);
  (0xa1c5, [w_YI;w_SYLLABLE;w_LUO]);
  (0xa1c6, [w_YI;w_SYLLABLE;w_LUOP]);
  (0xa1c7, [w_YI;w_SYLLABLE;w_LOT]);
  (0xa1c8, [w_YI;w_SYLLABLE;w_LOX]);
  (0xa1c9, [w_YI;w_SYLLABLE;w_LO]);
  (0xa1ca, [w_YI;w_SYLLABLE;w_LOP]);
  (0xa1cb, [w_YI;w_SYLLABLE;w_LEX]);
  (0xa1cc, [w_YI;w_SYLLABLE;w_LE]);
  (0xa1cd, [w_YI;w_SYLLABLE;w_LEP]);
  (0xa1ce, [w_YI;w_SYLLABLE;w_LUT]);
  (0xa1cf, [w_YI;w_SYLLABLE;w_LUX]);
  (0xa1d0, [w_YI;w_SYLLABLE;w_LU]);
  (0xa1d1, [w_YI;w_SYLLABLE;w_LUP]);
  (0xa1d2, [w_YI;w_SYLLABLE;w_LURX]);
  (0xa1d3, [w_YI;w_SYLLABLE;w_LUR]);
  (0xa1d4, [w_YI;w_SYLLABLE;w_LYT]);
  (0xa1d5, [w_YI;w_SYLLABLE;w_LYX]);
  (0xa1d6, [w_YI;w_SYLLABLE;w_LY]);
  (0xa1d7, [w_YI;w_SYLLABLE;w_LYP]);
  (0xa1d8, [w_YI;w_SYLLABLE;w_LYRX]);
  (0xa1d9, [w_YI;w_SYLLABLE;w_LYR]);
  (0xa1da, [w_YI;w_SYLLABLE;w_GIT]);
  (0xa1db, [w_YI;w_SYLLABLE;w_GIX]);
  (0xa1dc, [w_YI;w_SYLLABLE;w_GI]);
  (0xa1dd, [w_YI;w_SYLLABLE;w_GIP]);
  (0xa1de, [w_YI;w_SYLLABLE;w_GIET]);
  (0xa1df, [w_YI;w_SYLLABLE;w_GIEX]);
  (0xa1e0, [w_YI;w_SYLLABLE;w_GIE]);
  (0xa1e1, [w_YI;w_SYLLABLE;w_GIEP]);
  (0xa1e2, [w_YI;w_SYLLABLE;w_GAT]);
  (0xa1e3, [w_YI;w_SYLLABLE;w_GAX]);
  (0xa1e4, [w_YI;w_SYLLABLE;w_GA]);
  (0xa1e5, [w_YI;w_SYLLABLE;w_GAP]);
  (0xa1e6, [w_YI;w_SYLLABLE;w_GUOT]);
  (0xa1e7, [w_YI;w_SYLLABLE;w_GUOX]);
  (0xa1e8, [w_YI;w_SYLLABLE;w_GUO]);
  (0xa1e9, [w_YI;w_SYLLABLE;w_GUOP]);
  (0xa1ea, [w_YI;w_SYLLABLE;w_GOT]);
  (0xa1eb, [w_YI;w_SYLLABLE;w_GOX]);
  (0xa1ec, [w_YI;w_SYLLABLE;w_GO]);
  (0xa1ed, [w_YI;w_SYLLABLE;w_GOP]);
  (0xa1ee, [w_YI;w_SYLLABLE;w_GET]);
  (0xa1ef, [w_YI;w_SYLLABLE;w_GEX]);
  (0xa1f0, [w_YI;w_SYLLABLE;w_GE]);
  (0xa1f1, [w_YI;w_SYLLABLE;w_GEP]);
  (0xa1f2, [w_YI;w_SYLLABLE;w_GUT]);
  (0xa1f3, [w_YI;w_SYLLABLE;w_GUX]);
  (0xa1f4, [w_YI;w_SYLLABLE;w_GU]);
  (0xa1f5, [w_YI;w_SYLLABLE;w_GUP]);
  (0xa1f6, [w_YI;w_SYLLABLE;w_GURX]);
  (0xa1f7, [w_YI;w_SYLLABLE;w_GUR]);
  (0xa1f8, [w_YI;w_SYLLABLE;w_KIT]);
  (0xa1f9, [w_YI;w_SYLLABLE;w_KIX]);
  (0xa1fa, [w_YI;w_SYLLABLE;w_KI]);
  (0xa1fb, [w_YI;w_SYLLABLE;w_KIP]);
  (0xa1fc, [w_YI;w_SYLLABLE;w_KIEX]);
  (0xa1fd, [w_YI;w_SYLLABLE;w_KIE]);
  (0xa1fe, [w_YI;w_SYLLABLE;w_KIEP]);
  (0xa1ff, [w_YI;w_SYLLABLE;w_KAT]);
  (0xa200, [w_YI;w_SYLLABLE;w_KAX]);
  (0xa201, [w_YI;w_SYLLABLE;w_KA]);
  (0xa202, [w_YI;w_SYLLABLE;w_KAP]);
  (0xa203, [w_YI;w_SYLLABLE;w_KUOX]);
  (0xa204, [w_YI;w_SYLLABLE;w_KUO]);
  (0xa205, [w_YI;w_SYLLABLE;w_KUOP]);
  (0xa206, [w_YI;w_SYLLABLE;w_KOT]);
  (0xa207, [w_YI;w_SYLLABLE;w_KOX]);
  (0xa208, [w_YI;w_SYLLABLE;w_KO]);
  (0xa209, [w_YI;w_SYLLABLE;w_KOP]);
  (0xa20a, [w_YI;w_SYLLABLE;w_KET]);
  (0xa20b, [w_YI;w_SYLLABLE;w_KEX]);
  (0xa20c, [w_YI;w_SYLLABLE;w_KE]);
  (0xa20d, [w_YI;w_SYLLABLE;w_KEP]);
  (0xa20e, [w_YI;w_SYLLABLE;w_KUT]);
  (0xa20f, [w_YI;w_SYLLABLE;w_KUX]);
  (0xa210, [w_YI;w_SYLLABLE;w_KU]);
  (0xa211, [w_YI;w_SYLLABLE;w_KUP]);
  (0xa212, [w_YI;w_SYLLABLE;w_KURX]);
  (0xa213, [w_YI;w_SYLLABLE;w_KUR]);
  (0xa214, [w_YI;w_SYLLABLE;w_GGIT]);
  (0xa215, [w_YI;w_SYLLABLE;w_GGIX]);
  (0xa216, [w_YI;w_SYLLABLE;w_GGI]);
  (0xa217, [w_YI;w_SYLLABLE;w_GGIEX]);
  (0xa218, [w_YI;w_SYLLABLE;w_GGIE]);
  (0xa219, [w_YI;w_SYLLABLE;w_GGIEP]);
  (0xa21a, [w_YI;w_SYLLABLE;w_GGAT]);
  (0xa21b, [w_YI;w_SYLLABLE;w_GGAX]);
  (0xa21c, [w_YI;w_SYLLABLE;w_GGA]);
  (0xa21d, [w_YI;w_SYLLABLE;w_GGAP]);
  (0xa21e, [w_YI;w_SYLLABLE;w_GGUOT]);
  (0xa21f, [w_YI;w_SYLLABLE;w_GGUOX]);
  (0xa220, [w_YI;w_SYLLABLE;w_GGUO]);
  (0xa221, [w_YI;w_SYLLABLE;w_GGUOP]);
  (0xa222, [w_YI;w_SYLLABLE;w_GGOT]);
  (0xa223, [w_YI;w_SYLLABLE;w_GGOX]);
  (0xa224, [w_YI;w_SYLLABLE;w_GGO]);
  (0xa225, [w_YI;w_SYLLABLE;w_GGOP]);
  (0xa226, [w_YI;w_SYLLABLE;w_GGET]);
  (0xa227, [w_YI;w_SYLLABLE;w_GGEX]);
  (0xa228, [w_YI;w_SYLLABLE;w_GGE]);
  (0xa229, [w_YI;w_SYLLABLE;w_GGEP]);
  (0xa22a, [w_YI;w_SYLLABLE;w_GGUT]);
  (0xa22b, [w_YI;w_SYLLABLE;w_GGUX]);
  (0xa22c, [w_YI;w_SYLLABLE;w_GGU]);
  (0xa22d, [w_YI;w_SYLLABLE;w_GGUP]);
  (0xa22e, [w_YI;w_SYLLABLE;w_GGURX]);
  (0xa22f, [w_YI;w_SYLLABLE;w_GGUR]);
  (0xa230, [w_YI;w_SYLLABLE;w_MGIEX]);
  (0xa231, [w_YI;w_SYLLABLE;w_MGIE]);
  (0xa232, [w_YI;w_SYLLABLE;w_MGAT]);
  (0xa233, [w_YI;w_SYLLABLE;w_MGAX]);
  (0xa234, [w_YI;w_SYLLABLE;w_MGA]);
  (0xa235, [w_YI;w_SYLLABLE;w_MGAP]);
  (0xa236, [w_YI;w_SYLLABLE;w_MGUOX]);
  (0xa237, [w_YI;w_SYLLABLE;w_MGUO]);
  (0xa238, [w_YI;w_SYLLABLE;w_MGUOP]);
  (0xa239, [w_YI;w_SYLLABLE;w_MGOT]);
  (0xa23a, [w_YI;w_SYLLABLE;w_MGOX]);
  (0xa23b, [w_YI;w_SYLLABLE;w_MGO]);
  (0xa23c, [w_YI;w_SYLLABLE;w_MGOP]);
  (0xa23d, [w_YI;w_SYLLABLE;w_MGEX]);
  (0xa23e, [w_YI;w_SYLLABLE;w_MGE]);
  (0xa23f, [w_YI;w_SYLLABLE;w_MGEP]);
  (0xa240, [w_YI;w_SYLLABLE;w_MGUT]);
  (0xa241, [w_YI;w_SYLLABLE;w_MGUX]);
  (0xa242, [w_YI;w_SYLLABLE;w_MGU]);
  (0xa243, [w_YI;w_SYLLABLE;w_MGUP]);
  (0xa244, [w_YI;w_SYLLABLE;w_MGURX]);
  (0xa245, [w_YI;w_SYLLABLE;w_MGUR]);
  (0xa246, [w_YI;w_SYLLABLE;w_HXIT]);
  (0xa247, [w_YI;w_SYLLABLE;w_HXIX]);
  (0xa248, [w_YI;w_SYLLABLE;w_HXI]);
  (0xa249, [w_YI;w_SYLLABLE;w_HXIP]);
  (0xa24a, [w_YI;w_SYLLABLE;w_HXIET]);
  (0xa24b, [w_YI;w_SYLLABLE;w_HXIEX]);
  (0xa24c, [w_YI;w_SYLLABLE;w_HXIE]);
  (0xa24d, [w_YI;w_SYLLABLE;w_HXIEP]);
  (0xa24e, [w_YI;w_SYLLABLE;w_HXAT]);
  (0xa24f, [w_YI;w_SYLLABLE;w_HXAX]);
  (0xa250, [w_YI;w_SYLLABLE;w_HXA]);
  (0xa251, [w_YI;w_SYLLABLE;w_HXAP]);
  (0xa252, [w_YI;w_SYLLABLE;w_HXUOT]);
  (0xa253, [w_YI;w_SYLLABLE;w_HXUOX]);
  (0xa254, [w_YI;w_SYLLABLE;w_HXUO]);
  (0xa255, [w_YI;w_SYLLABLE;w_HXUOP]);
  (0xa256, [w_YI;w_SYLLABLE;w_HXOT]);
  (0xa257, [w_YI;w_SYLLABLE;w_HXOX]);
  (0xa258, [w_YI;w_SYLLABLE;w_HXO]);
  (0xa259, [w_YI;w_SYLLABLE;w_HXOP]);
  (0xa25a, [w_YI;w_SYLLABLE;w_HXEX]);
  (0xa25b, [w_YI;w_SYLLABLE;w_HXE]);
  (0xa25c, [w_YI;w_SYLLABLE;w_HXEP]);
  (0xa25d, [w_YI;w_SYLLABLE;w_NGIEX]);
  (0xa25e, [w_YI;w_SYLLABLE;w_NGIE]);
  (0xa25f, [w_YI;w_SYLLABLE;w_NGIEP]);
  (0xa260, [w_YI;w_SYLLABLE;w_NGAT]);
  (0xa261, [w_YI;w_SYLLABLE;w_NGAX]);
  (0xa262, [w_YI;w_SYLLABLE;w_NGA]);
  (0xa263, [w_YI;w_SYLLABLE;w_NGAP]);
  (0xa264, [w_YI;w_SYLLABLE;w_NGUOT]);
  (0xa265, [w_YI;w_SYLLABLE;w_NGUOX]);
  (0xa266, [w_YI;w_SYLLABLE;w_NGUO]);
  (0xa267, [w_YI;w_SYLLABLE;w_NGOT]);
  (0xa268, [w_YI;w_SYLLABLE;w_NGOX]);
  (0xa269, [w_YI;w_SYLLABLE;w_NGO]);
  (0xa26a, [w_YI;w_SYLLABLE;w_NGOP]);
  (0xa26b, [w_YI;w_SYLLABLE;w_NGEX]);
  (0xa26c, [w_YI;w_SYLLABLE;w_NGE]);
  (0xa26d, [w_YI;w_SYLLABLE;w_NGEP]);
  (0xa26e, [w_YI;w_SYLLABLE;w_HIT]);
  (0xa26f, [w_YI;w_SYLLABLE;w_HIEX]);
  (0xa270, [w_YI;w_SYLLABLE;w_HIE]);
  (0xa271, [w_YI;w_SYLLABLE;w_HAT]);
  (0xa272, [w_YI;w_SYLLABLE;w_HAX]);
  (0xa273, [w_YI;w_SYLLABLE;w_HA]);
  (0xa274, [w_YI;w_SYLLABLE;w_HAP]);
  (0xa275, [w_YI;w_SYLLABLE;w_HUOT]);
  (0xa276, [w_YI;w_SYLLABLE;w_HUOX]);
  (0xa277, [w_YI;w_SYLLABLE;w_HUO]);
  (0xa278, [w_YI;w_SYLLABLE;w_HUOP]);
  (0xa279, [w_YI;w_SYLLABLE;w_HOT]);
  (0xa27a, [w_YI;w_SYLLABLE;w_HOX]);
  (0xa27b, [w_YI;w_SYLLABLE;w_HO]);
  (0xa27c, [w_YI;w_SYLLABLE;w_HOP]);
  (0xa27d, [w_YI;w_SYLLABLE;w_HEX]);
  (0xa27e, [w_YI;w_SYLLABLE;w_HE]);
  (0xa27f, [w_YI;w_SYLLABLE;w_HEP]);
  (0xa280, [w_YI;w_SYLLABLE;w_WAT]);
  (0xa281, [w_YI;w_SYLLABLE;w_WAX]);
  (0xa282, [w_YI;w_SYLLABLE;w_WA]);
  (0xa283, [w_YI;w_SYLLABLE;w_WAP]);
  (0xa284, [w_YI;w_SYLLABLE;w_WUOX]);
  (0xa285, [w_YI;w_SYLLABLE;w_WUO]);
  (0xa286, [w_YI;w_SYLLABLE;w_WUOP]);
  (0xa287, [w_YI;w_SYLLABLE;w_WOX]);
  (0xa288, [w_YI;w_SYLLABLE;w_WO]);
  (0xa289, [w_YI;w_SYLLABLE;w_WOP]);
  (0xa28a, [w_YI;w_SYLLABLE;w_WEX]);
  (0xa28b, [w_YI;w_SYLLABLE;w_WE]);
  (0xa28c, [w_YI;w_SYLLABLE;w_WEP]);
  (0xa28d, [w_YI;w_SYLLABLE;w_ZIT]);
  (0xa28e, [w_YI;w_SYLLABLE;w_ZIX]);
  (0xa28f, [w_YI;w_SYLLABLE;w_ZI]);
  (0xa290, [w_YI;w_SYLLABLE;w_ZIP]);
  (0xa291, [w_YI;w_SYLLABLE;w_ZIEX]);
  (0xa292, [w_YI;w_SYLLABLE;w_ZIE]);
  (0xa293, [w_YI;w_SYLLABLE;w_ZIEP]);
  (0xa294, [w_YI;w_SYLLABLE;w_ZAT]);
  (0xa295, [w_YI;w_SYLLABLE;w_ZAX]);
  (0xa296, [w_YI;w_SYLLABLE;w_ZA]);
  (0xa297, [w_YI;w_SYLLABLE;w_ZAP]);
  (0xa298, [w_YI;w_SYLLABLE;w_ZUOX]);
  (0xa299, [w_YI;w_SYLLABLE;w_ZUO]);
  (0xa29a, [w_YI;w_SYLLABLE;w_ZUOP]);
  (0xa29b, [w_YI;w_SYLLABLE;w_ZOT]);
  (0xa29c, [w_YI;w_SYLLABLE;w_ZOX]);
  (0xa29d, [w_YI;w_SYLLABLE;w_ZO]);
  (0xa29e, [w_YI;w_SYLLABLE;w_ZOP]);
  (0xa29f, [w_YI;w_SYLLABLE;w_ZEX]);
  (0xa2a0, [w_YI;w_SYLLABLE;w_ZE]);
  (0xa2a1, [w_YI;w_SYLLABLE;w_ZEP]);
  (0xa2a2, [w_YI;w_SYLLABLE;w_ZUT]);
  (0xa2a3, [w_YI;w_SYLLABLE;w_ZUX]);
  (0xa2a4, [w_YI;w_SYLLABLE;w_ZU]);
  (0xa2a5, [w_YI;w_SYLLABLE;w_ZUP]);
  (0xa2a6, [w_YI;w_SYLLABLE;w_ZURX]);
  (0xa2a7, [w_YI;w_SYLLABLE;w_ZUR]);
  (0xa2a8, [w_YI;w_SYLLABLE;w_ZYT]);
  (0xa2a9, [w_YI;w_SYLLABLE;w_ZYX]);
  (0xa2aa, [w_YI;w_SYLLABLE;w_ZY]);
  (0xa2ab, [w_YI;w_SYLLABLE;w_ZYP]);
  (0xa2ac, [w_YI;w_SYLLABLE;w_ZYRX]);
  (0xa2ad, [w_YI;w_SYLLABLE;w_ZYR]);
  (0xa2ae, [w_YI;w_SYLLABLE;w_CIT]);
  (0xa2af, [w_YI;w_SYLLABLE;w_CIX]);
  (0xa2b0, [w_YI;w_SYLLABLE;w_CI]);
  (0xa2b1, [w_YI;w_SYLLABLE;w_CIP]);
  (0xa2b2, [w_YI;w_SYLLABLE;w_CIET]);
  (0xa2b3, [w_YI;w_SYLLABLE;w_CIEX]);
  (0xa2b4, [w_YI;w_SYLLABLE;w_CIE]);
  (0xa2b5, [w_YI;w_SYLLABLE;w_CIEP]);
  (0xa2b6, [w_YI;w_SYLLABLE;w_CAT]);
  (0xa2b7, [w_YI;w_SYLLABLE;w_CAX]);
  (0xa2b8, [w_YI;w_SYLLABLE;w_CA]);
  (0xa2b9, [w_YI;w_SYLLABLE;w_CAP]);
  (0xa2ba, [w_YI;w_SYLLABLE;w_CUOX]);
  (0xa2bb, [w_YI;w_SYLLABLE;w_CUO]);
  (0xa2bc, [w_YI;w_SYLLABLE;w_CUOP]);
  (0xa2bd, [w_YI;w_SYLLABLE;w_COT]);
  (0xa2be, [w_YI;w_SYLLABLE;w_COX]);
  (0xa2bf, [w_YI;w_SYLLABLE;w_CO]);
  (0xa2c0, [w_YI;w_SYLLABLE;w_COP]);
  (0xa2c1, [w_YI;w_SYLLABLE;w_CEX]);
  (0xa2c2, [w_YI;w_SYLLABLE;w_CE]);
  (0xa2c3, [w_YI;w_SYLLABLE;w_CEP]);
  (0xa2c4, [w_YI;w_SYLLABLE;w_CUT]);
  (0xa2c5, [w_YI;w_SYLLABLE;w_CUX]);
  (0xa2c6, [w_YI;w_SYLLABLE;w_CU]);
  (0xa2c7, [w_YI;w_SYLLABLE;w_CUP]);
  (0xa2c8, [w_YI;w_SYLLABLE;w_CURX]);
  (0xa2c9, [w_YI;w_SYLLABLE;w_CUR]);
  (0xa2ca, [w_YI;w_SYLLABLE;w_CYT]);
  (0xa2cb, [w_YI;w_SYLLABLE;w_CYX]);
  (0xa2cc, [w_YI;w_SYLLABLE;w_CY]);
  (0xa2cd, [w_YI;w_SYLLABLE;w_CYP]);
  (0xa2ce, [w_YI;w_SYLLABLE;w_CYRX]);
  (0xa2cf, [w_YI;w_SYLLABLE;w_CYR]);
  (0xa2d0, [w_YI;w_SYLLABLE;w_ZZIT]);
  (0xa2d1, [w_YI;w_SYLLABLE;w_ZZIX]);
  (0xa2d2, [w_YI;w_SYLLABLE;w_ZZI]);
  (0xa2d3, [w_YI;w_SYLLABLE;w_ZZIP]);
  (0xa2d4, [w_YI;w_SYLLABLE;w_ZZIET]);
  (0xa2d5, [w_YI;w_SYLLABLE;w_ZZIEX]);
  (0xa2d6, [w_YI;w_SYLLABLE;w_ZZIE]);
  (0xa2d7, [w_YI;w_SYLLABLE;w_ZZIEP]);
  (0xa2d8, [w_YI;w_SYLLABLE;w_ZZAT]);
  (0xa2d9, [w_YI;w_SYLLABLE;w_ZZAX]);
  (0xa2da, [w_YI;w_SYLLABLE;w_ZZA]);
  (0xa2db, [w_YI;w_SYLLABLE;w_ZZAP]);
  (0xa2dc, [w_YI;w_SYLLABLE;w_ZZOX]);
  (0xa2dd, [w_YI;w_SYLLABLE;w_ZZO]);
  (0xa2de, [w_YI;w_SYLLABLE;w_ZZOP]);
  (0xa2df, [w_YI;w_SYLLABLE;w_ZZEX]);
  (0xa2e0, [w_YI;w_SYLLABLE;w_ZZE]);
  (0xa2e1, [w_YI;w_SYLLABLE;w_ZZEP]);
  (0xa2e2, [w_YI;w_SYLLABLE;w_ZZUX]);
  (0xa2e3, [w_YI;w_SYLLABLE;w_ZZU]);
  (0xa2e4, [w_YI;w_SYLLABLE;w_ZZUP]);
  (0xa2e5, [w_YI;w_SYLLABLE;w_ZZURX]);
  (0xa2e6, [w_YI;w_SYLLABLE;w_ZZUR]);
  (0xa2e7, [w_YI;w_SYLLABLE;w_ZZYT]);
  (0xa2e8, [w_YI;w_SYLLABLE;w_ZZYX]);
  (0xa2e9, [w_YI;w_SYLLABLE;w_ZZY]);
  (0xa2ea, [w_YI;w_SYLLABLE;w_ZZYP]);
  (0xa2eb, [w_YI;w_SYLLABLE;w_ZZYRX]);
  (0xa2ec, [w_YI;w_SYLLABLE;w_ZZYR]);
  (0xa2ed, [w_YI;w_SYLLABLE;w_NZIT]);
  (0xa2ee, [w_YI;w_SYLLABLE;w_NZIX]);
  (0xa2ef, [w_YI;w_SYLLABLE;w_NZI]);
  (0xa2f0, [w_YI;w_SYLLABLE;w_NZIP]);
  (0xa2f1, [w_YI;w_SYLLABLE;w_NZIEX]);
  (0xa2f2, [w_YI;w_SYLLABLE;w_NZIE]);
  (0xa2f3, [w_YI;w_SYLLABLE;w_NZIEP]);
  (0xa2f4, [w_YI;w_SYLLABLE;w_NZAT]);
  (0xa2f5, [w_YI;w_SYLLABLE;w_NZAX]);
  (0xa2f6, [w_YI;w_SYLLABLE;w_NZA]);
  (0xa2f7, [w_YI;w_SYLLABLE;w_NZAP]);
  (0xa2f8, [w_YI;w_SYLLABLE;w_NZUOX]);
  (0xa2f9, [w_YI;w_SYLLABLE;w_NZUO]);
  (0xa2fa, [w_YI;w_SYLLABLE;w_NZOX]);
  (0xa2fb, [w_YI;w_SYLLABLE;w_NZOP]);
  (0xa2fc, [w_YI;w_SYLLABLE;w_NZEX]);
  (0xa2fd, [w_YI;w_SYLLABLE;w_NZE]);
  (0xa2fe, [w_YI;w_SYLLABLE;w_NZUX]);
  (0xa2ff, [w_YI;w_SYLLABLE;w_NZU]);
  (0xa300, [w_YI;w_SYLLABLE;w_NZUP]);
  (0xa301, [w_YI;w_SYLLABLE;w_NZURX]);
  (0xa302, [w_YI;w_SYLLABLE;w_NZUR]);
  (0xa303, [w_YI;w_SYLLABLE;w_NZYT]);
  (0xa304, [w_YI;w_SYLLABLE;w_NZYX]);
  (0xa305, [w_YI;w_SYLLABLE;w_NZY]);
  (0xa306, [w_YI;w_SYLLABLE;w_NZYP]);
  (0xa307, [w_YI;w_SYLLABLE;w_NZYRX]);
  (0xa308, [w_YI;w_SYLLABLE;w_NZYR]);
  (0xa309, [w_YI;w_SYLLABLE;w_SIT]);
  (0xa30a, [w_YI;w_SYLLABLE;w_SIX]);
  (0xa30b, [w_YI;w_SYLLABLE;w_SI]);
  (0xa30c, [w_YI;w_SYLLABLE;w_SIP]);
  (0xa30d, [w_YI;w_SYLLABLE;w_SIEX]);
  (0xa30e, [w_YI;w_SYLLABLE;w_SIE]);
  (0xa30f, [w_YI;w_SYLLABLE;w_SIEP]);
  (0xa310, [w_YI;w_SYLLABLE;w_SAT]);
  (0xa311, [w_YI;w_SYLLABLE;w_SAX]);
  (0xa312, [w_YI;w_SYLLABLE;w_SA]);
  (0xa313, [w_YI;w_SYLLABLE;w_SAP]);
  (0xa314, [w_YI;w_SYLLABLE;w_SUOX]);
  (0xa315, [w_YI;w_SYLLABLE;w_SUO]);
  (0xa316, [w_YI;w_SYLLABLE;w_SUOP]);
  (0xa317, [w_YI;w_SYLLABLE;w_SOT]);
  (0xa318, [w_YI;w_SYLLABLE;w_SOX]);
  (0xa319, [w_YI;w_SYLLABLE;w_SO]);
  (0xa31a, [w_YI;w_SYLLABLE;w_SOP]);
  (0xa31b, [w_YI;w_SYLLABLE;w_SEX]);
  (0xa31c, [w_YI;w_SYLLABLE;w_SE]);
  (0xa31d, [w_YI;w_SYLLABLE;w_SEP]);
  (0xa31e, [w_YI;w_SYLLABLE;w_SUT]);
  (0xa31f, [w_YI;w_SYLLABLE;w_SUX]);
  (0xa320, [w_YI;w_SYLLABLE;w_SU]);
  (0xa321, [w_YI;w_SYLLABLE;w_SUP]);
  (0xa322, [w_YI;w_SYLLABLE;w_SURX]);
  (0xa323, [w_YI;w_SYLLABLE;w_SUR]);
  (0xa324, [w_YI;w_SYLLABLE;w_SYT]);
  (0xa325, [w_YI;w_SYLLABLE;w_SYX]);
  (0xa326, [w_YI;w_SYLLABLE;w_SY]);
  (0xa327, [w_YI;w_SYLLABLE;w_SYP]);
  (0xa328, [w_YI;w_SYLLABLE;w_SYRX]);
  (0xa329, [w_YI;w_SYLLABLE;w_SYR]);
  (0xa32a, [w_YI;w_SYLLABLE;w_SSIT]);
  (0xa32b, [w_YI;w_SYLLABLE;w_SSIX]);
  (0xa32c, [w_YI;w_SYLLABLE;w_SSI]);
  (0xa32d, [w_YI;w_SYLLABLE;w_SSIP])].

Definition NAMES_32 : list (N * (list str)) := [
  (0xa32e, [w_YI;w_SYLLABLE;w_SSIEX]);
  (0xa32f, [w_YI;w_SYLLABLE;w_SSIE]);
  (0xa330, [w_YI;w_SYLLABLE;w_SSIEP]);
  (0xa331, [w_YI;w_SYLLABLE;w_SSAT]);
  (0xa332, [w_YI;w_SYLLABLE;w_SSAX]);
  (0xa333, [w_YI;w_SYLLABLE;w_SSA]);
  (0xa334, [w_YI;w_SYLLABLE;w_SSAP]);
  (0xa335, [w_YI;w_SYLLABLE;w_SSOT]);
  (0xa336, [w_YI;w_SYLLABLE;w_SSOX]);
  (0xa337, [w_YI;w_SYLLABLE;w_SSO]);
  (0xa338, [w_YI;w_SYLLABLE;w_SSOP]);
  (0xa339, [w_YI;w_SYLLABLE;w_SSEX]);
  (0xa33a, [w_YI;w_SYLLABLE;w_SSE]);
  (0xa33b, [w_YI;w_SYLLABLE;w_SSEP]);
  (0xa33c, [w_YI;w_SYLLABLE;w_SSUT]);
  (0xa33d, [w_YI;w_SYLLABLE;w_SSUX]);
  (0xa33e, [w_YI;w_SYLLABLE;w_SSU]);
  (0xa33f, [w_YI;w_SYLLABLE;w_SSUP]);
  (0xa340, [w_YI;w_SYLLABLE;w_SSYT]);
  (0xa341, [w_YI;w_SYLLABLE;w_SSYX]);
  (0xa342, [w_YI;w_SYLLABLE;w_SSY]);
  (0xa343, [w_YI;w_SYLLABLE;w_SSYP]);
  (0xa344, [w_YI;w_SYLLABLE;w_SSYRX]);
  (0xa345, [w_YI;w_SYLLABLE;w_SSYR]);
  (0xa346, [w_YI;w_SYLLABLE;w_ZHAT]);
  (0xa347, [w_YI;w_SYLLABLE;w_ZHAX]);
  (0xa348, [w_YI;w_SYLLABLE;w_ZHA]);
  (0xa349, [w_YI;w_SYLLABLE;w_ZHAP]);
  (0xa34a, [w_YI;w_SYLLABLE;w_ZHUOX]);
  (0xa34b, [w_YI;w_SYLLABLE;w_ZHUO]);
  (0xa34c, [w_YI;w_SYLLABLE;w_ZHUOP]);
  (0xa34d, [w_YI;w_SYLLABLE;w_ZHOT]);
  (0xa34e, [w_YI;w_SYLLABLE;w_ZHOX]);
  (0xa34f, [w_YI;w_SYLLABLE;w_ZHO]);
  (0xa350, [w_YI;w_SYLLABLE;w_ZHOP]);
  (0xa351, [w_YI;w_SYLLABLE;w_ZHET]);
  (0xa352, [w_YI;w_SYLLABLE;w_ZHEX]);
  (0xa353, [w_YI;w_SYLLABLE;w_ZHE]);
  (0xa354, [w_YI;w_SYLLABLE;w_ZHEP]);
  (0xa355, [w_YI;w_SYLLABLE;w_ZHUT]);
  (0xa356, [w_YI;w_SYLLABLE;w_ZHUX]);
  (0xa357, [w_YI;w_SYLLABLE;w_ZHU]);
  (0xa358, [w_YI;w_SYLLABLE;w_ZHUP]);
  (0xa359, [w_YI;w_SYLLABLE;w_ZHURX]);
  (0xa35a, [w_YI;w_SYLLABLE;w_ZHUR]);
  (0xa35b, [w_YI;w_SYLLABLE;w_ZHYT]);
  (0xa35c, [w_YI;w_SYLLABLE;w_ZHYX]);
  (0xa35d, [w_YI;w_SYLLABLE;w_ZHY]);
  (0xa35e, [w_YI;w_SYLLABLE;w_ZHYP]);
  (0xa35f, [w_YI;w_SYLLABLE;w_ZHYRX]);
  (0xa360, [w_YI;w_SYLLABLE;w_ZHYR]);
  (0xa361, [w_YI;w_SYLLABLE;w_CHAT]);
  (0xa362, [w_YI;w_SYLLABLE;w_CHAX]);
  (0xa363, [w_YI;w_SYLLABLE;w_CHA]);
  (0xa364, [w_YI;w_SYLLABLE;w_CHAP]);
  (0xa365, [w_YI;w_SYLLABLE;w_CHUOT]);
  (0xa366, [w_YI;w_SYLLABLE;w_CHUOX]);
  (0xa367, [w_YI;w_SYLLABLE;w_CHUO]);
  (0xa368, [w_YI;w_SYLLABLE;w_CHUOP]);
  (0xa369, [w_YI;w_SYLLABLE;w_CHOT]);
  (0xa36a, [w_YI;w_SYLLABLE;w_CHOX]);
  (0xa36b, [w_YI;w_SYLLABLE;w_CHO]);
  (0xa36c, [w_YI;w_SYLLABLE;w_CHOP]);
  (0xa36d, [w_YI;w_SYLLABLE;w_CHET]);
  (0xa36e, [w_YI;w_SYLLABLE;w_CHEX]);
  (0xa36f, [w_YI;w_SYLLABLE;w_CHE]);
  (0xa370, [w_YI;w_SYLLABLE;w_CHEP]);
  (0xa371, [w_YI;w_SYLLABLE;w_CHUX]);
  (0xa372, [w_YI;w_SYLLABLE;w_CHU]);
  (0xa373, [w_YI;w_SYLLABLE;w_CHUP]);
  (0xa374, [w_YI;w_SYLLABLE;w_CHURX]);
  (0xa375, [w_YI;w_SYLLABLE;w_CHUR]);
  (0xa376, [w_YI;w_SYLLABLE;w_CHYT]);
  (0xa377, [w_YI;w_SYLLABLE;w_CHYX]);
  (0xa378, [w_YI;w_SYLLABLE;w_CHY]);
  (0xa379, [w_YI;w_SYLLABLE;w_CHYP]);
  (0xa37a, [w_YI;w_SYLLABLE;w_CHYRX]);
  (0xa37b, [w_YI;w_SYLLABLE;w_CHYR]);
  (0xa37c, [w_YI;w_SYLLABLE;w_RRAX]);
  (0xa37d, [w_YI;w_SYLLABLE;w_RRA]);
  (0xa37e, [w_YI;w_SYLLABLE;w_RRUOX]);
  (0xa37f, [w_YI;w_SYLLABLE;w_RRUO]);
  (0xa380, [w_YI;w_SYLLABLE;w_RROT]);
  (0xa381, [w_YI;w_SYLLABLE;w_RROX]);
  (0xa382, [w_YI;w_SYLLABLE;w_RRO]);
  (0xa383, [w_YI;w_SYLLABLE;w_RROP]);
  (0xa384, [w_YI;w_SYLLABLE;w_RRET]);
  (0xa385, [w_YI;w_SYLLABLE;w_RREX]);
  (0xa386, [w_YI;w_SYLLABLE;w_RRE]);
  (0xa387, [w_YI;w_SYLLABLE;w_RREP]);
  (0xa388, [w_YI;w_SYLLABLE;w_RRUT]);
  (0xa389, [w_YI;w_SYLLABLE;w_RRUX]);
  (0xa38a, [w_YI;w_SYLLABLE;w_RRU]);
  (0xa38b, [w_YI;w_SYLLABLE;w_RRUP]);
  (0xa38c, [w_YI;w_SYLLABLE;w_RRURX]);
  (0xa38d, [w_YI;w_SYLLABLE;w_RRUR]);
  (0xa38e, [w_YI;w_SYLLABLE;w_RRYT]);
  (0xa38f, [w_YI;w_SYLLABLE;w_RRYX]);
  (0xa390, [w_YI;w_SYLLABLE;w_RRY]);
  (0xa391, [w_YI;w_SYLLABLE;w_RRYP]);
  (0xa392, [w_YI;w_SYLLABLE;w_RRYRX]);
  (0xa393, [w_YI;w_SYLLABLE;w_RRYR]);
  (0xa394, [w_YI;w_SYLLABLE;w_NRAT]);
  (0xa395, [w_YI;w_SYLLABLE;w_NRAX]);
  (0xa396, [w_YI;w_SYLLABLE;w_NRA]);
  (0xa397, [w_YI;w_SYLLABLE;w_NRAP]);
  (0xa398, [w_YI;w_SYLLABLE;w_NROX]);
  (0xa399, [w_YI;w_SYLLABLE;w_NRO]);
  (0xa39a, [w_YI;w_SYLLABLE;w_NROP]);
  (0xa39b, [w_YI;w_SYLLABLE;w_NRET]);
  (0xa39c, [w_YI;w_SYLLABLE;w_NREX]);
  (0xa39d, [w_YI;w_SYLLABLE;w_NRE]);
  (0xa39e, [w_YI;w_SYLLABLE;w_NREP]);
  (0xa39f, [w_YI;w_SYLLABLE;w_NRUT]);
  (0xa3a0, [w_YI;w_SYLLABLE;w_NRUX]);
  (0xa3a1, [w_YI;w_SYLLABLE;w_NRU]);
  (0xa3a2, [w_YI;w_SYLLABLE;w_NRUP]);
  (0xa3a3, [w_YI;w_SYLLABLE;w_NRURX]);
  (0xa3a4, [w_YI;w_SYLLABLE;w_NRUR]);
  (0xa3a5, [w_YI;w_SYLLABLE;w_NRYT]);
  (0xa3a6, [w_YI;w_SYLLABLE;w_NRYX]);
  (0xa3a7, [w_YI;w_SYLLABLE;w_NRY]);
  (0xa3a8, [w_YI;w_SYLLABLE;w_NRYP]);
  (0xa3a9, [w_YI;w_SYLLABLE;w_NRYRX]);
  (0xa3aa, [w_YI;w_SYLLABLE;w_NRYR]);
  (0xa3ab, [w_YI;w_SYLLABLE;w_SHAT]);
  (0xa3ac, [w_YI;w_SYLLABLE;w_SHAX]);
  (0xa3ad, [w_YI;w_SYLLABLE;w_SHA]);
  (0xa3ae, [w_YI;w_SYLLABLE;w_SHAP]);
  (0xa3af, [w_YI;w_SYLLABLE;w_SHUOX]);
  (0xa3b0, [w_YI;w_SYLLABLE;w_SHUO]);
  (0xa3b1, [w_YI;w_SYLLABLE;w_SHUOP]);
  (0xa3b2, [w_YI;w_SYLLABLE;w_SHOT]);
  (0xa3b3, [w_YI;w_SYLLABLE;w_SHOX]);
  (0xa3b4, [w_YI;w_SYLLABLE;w_SHO]);
  (0xa3b5, [w_YI;w_SYLLABLE;w_SHOP]);
  (0xa3b6, [w_YI;w_SYLLABLE;w_SHET]);
  (0xa3b7, [w_YI;w_SYLLABLE;w_SHEX]);
  (0xa3b8, [w_YI;w_SYLLABLE;w_SHE]);
  (0xa3b9, [w_YI;w_SYLLABLE;w_SHEP]);
  (0xa3ba, [w_YI;w_SYLLABLE;w_SHUT]);
  (0xa3bb, [w_YI;w_SYLLABLE;w_SHUX]);
  (0xa3bc, [w_YI;w_SYLLABLE;w_SHU]);
  (0xa3bd, [w_YI;w_SYLLABLE;w_SHUP]);
  (0xa3be, [w_YI;w_SYLLABLE;w_SHURX]);
  (0xa3bf, [w_YI;w_SYLLABLE;w_SHUR]);
  (0xa3c0, [w_YI;w_SYLLABLE;w_SHYT]);
  (0xa3c1, [w_YI;w_SYLLABLE;w_SHYX]);
  (0xa3c2, [w_YI;w_SYLLABLE;w_SHY]);
  (0xa3c3, [w_YI;w_SYLLABLE;w_SHYP]);
  (0xa3c4, [w_YI;w_SYLLABLE;w_SHYRX]);
  (0xa3c5, [w_YI;w_SYLLABLE;w_SHYR]);
  (0xa3c6, [w_YI;w_SYLLABLE;w_RAT]);
  (0xa3c7, [w_YI;w_SYLLABLE;w_RAX]);
  (0xa3c8, [w_YI;w_SYLLABLE;w_RA]);
  (0xa3c9, [w_YI;w_SYLLABLE;w_RAP]);
  (0xa3ca, [w_YI;w_SYLLABLE;w_RUOX]);
  (0xa3cb, [w_YI;w_SYLLABLE;w_RUO]);
  (0xa3cc, [w_YI;w_SYLLABLE;w_RUOP]);
  (0xa3cd, [w_YI;w_SYLLABLE;w_ROT]);
  (0xa3ce, [w_YI;w_SYLLABLE;w_ROX]);
  (0xa3cf, [w_YI;w_SYLLABLE;w_RO]);
  (0xa3d0, [w_YI;w_SYLLABLE;w_ROP]);
  (0xa3d1, [w_YI;w_SYLLABLE;w_REX]);
  (0xa3d2, [w_YI;w_SYLLABLE;w_RE]);
  (0xa3d3, [w_YI;w_SYLLABLE;w_REP]);
  (0xa3d4, [w_YI;w_SYLLABLE;w_RUT]);
  (0xa3d5, [w_YI;w_SYLLABLE;w_RUX]);
  (0xa3d6, [w_YI;w_SYLLABLE;w_RU]);
  (0xa3d7, [w_YI;w_SYLLABLE;w_RUP]);
  (0xa3d8, [w_YI;w_SYLLABLE;w_RURX]);
  (0xa3d9, [w_YI;w_SYLLABLE;w_RUR]);
  (0xa3da, [w_YI;w_SYLLABLE;w_RYT]);
  (0xa3db, [w_YI;w_SYLLABLE;w_RYX]);
  (0xa3dc, [w_YI;w_SYLLABLE;w_RY]);
  (0xa3dd, [w_YI;w_SYLLABLE;w_RYP]);
  (0xa3de, [w_YI;w_SYLLABLE;w_RYRX]);
  (0xa3df, [w_YI;w_SYLLABLE;w_RYR]);
  (0xa3e0, [w_YI;w_SYLLABLE;w_JIT]);
  (0xa3e1, [w_YI;w_SYLLABLE;w_JIX]);
  (0xa3e2, [w_YI;w_SYLLABLE;w_JI]);
  (0xa3e3, [w_YI;w_SYLLABLE;w_JIP]);
  (0xa3e4, [w_YI;w_SYLLABLE;w_JIET]);
  (0xa3e5, [w_YI;w_SYLLABLE;w_JIEX]);
  (0xa3e6, [w_YI;w_SYLLABLE;w_JIE]);
  (0xa3e7, [w_YI;w_SYLLABLE;w_JIEP]);
  (0xa3e8, [w_YI;w_SYLLABLE;w_JUOT]);
  (0xa3e9, [w_YI;w_SYLLABLE;w_JUOX]);
  (0xa3ea, [w_YI;w_SYLLABLE;w_JUO]);
  (0xa3eb, [w_YI;w_SYLLABLE;w_JUOP]);
  (0xa3ec, [w_YI;w_SYLLABLE;w_JOT]);
  (0xa3ed, [w_YI;w_SYLLABLE;w_JOX]);
  (0xa3ee, [w_YI;w_SYLLABLE;w_JO]);
  (0xa3ef, [w_YI;w_SYLLABLE;w_JOP]);
  (0xa3f0, [w_YI;w_SYLLABLE;w_JUT]);
  (0xa3f1, [w_YI;w_SYLLABLE;w_JUX]);
  (0xa3f2, [w_YI;w_SYLLABLE;w_JU]);
  (0xa3f3, [w_YI;w_SYLLABLE;w_JUP]);
  (0xa3f4, [w_YI;w_SYLLABLE;w_JURX]);
  (0xa3f5, [w_YI;w_SYLLABLE;w_JUR]);
  (0xa3f6, [w_YI;w_SYLLABLE;w_JYT]);
  (0xa3f7, [w_YI;w_SYLLABLE;w_JYX]);
  (0xa3f8, [w_YI;w_SYLLABLE;w_JY]);
  (0xa3f9, [w_YI;w_SYLLABLE;w_JYP]);
  (0xa3fa, [w_YI;w_SYLLABLE;w_JYRX]);
  (0xa3fb, [w_YI;w_SYLLABLE;w_JYR]);
  (0xa3fc, [w_YI;w_SYLLABLE;w_QIT]);
  (0xa3fd, [w_YI;w_SYLLABLE;w_QIX]);
  (0xa3fe, [w_YI;w_SYLLABLE;w_QI]);
  (0xa3ff, [w_YI;w_SYLLABLE;w_QIP]);
  (0xa400, [w_YI;w_SYLLABLE;w_QIET]);
  (0xa401, [w_YI;w_SYLLABLE;w_QIEX]);
  (0xa402, [w_YI;w_SYLLABLE;w_QIE]);
  (0xa403, [w_YI;w_SYLLABLE;w_QIEP]);
  (0xa404, [w_YI;w_SYLLABLE;w_QUOT]);
  (0xa405, [w_YI;w_SYLLABLE;w_QUOX]);
  (0xa406, [w_YI;w_SYLLABLE;w_QUO]);
  (0xa407, [w_YI;w_SYLLABLE;w_QUOP]);
  (0xa408, [w_YI;w_SYLLABLE;w_QOT]);
  (0xa409, [w_YI;w_SYLLABLE;w_QOX]);
  (0xa40a, [w_YI;w_SYLLABLE;w_QO]);
  (0xa40b, [w_YI;w_SYLLABLE;w_QOP]);
  (0xa40c, [w_YI;w_SYLLABLE;w_QUT]);
  (0xa40d, [w_YI;w_SYLLABLE;w_QUX]);
  (0xa40e, [w_YI;w_SYLLABLE;w_QU]);
  (0xa40f, [w_YI;w_SYLLABLE;w_QUP]);
  (0xa410, [w_YI;w_SYLLABLE;w_QURX]);
  (0xa411, [w_YI;w_SYLLABLE;w_QUR]);
  (0xa412, [w_YI;w_SYLLABLE;w_QYT]);
  (0xa413, [w_YI;w_SYLLABLE;w_QYX]);
  (0xa414, [w_YI;w_SYLLABLE;w_QY]);
  (0xa415, [w_YI;w_SYLLABLE;w_QYP]);
  (0xa416, [w_YI;w_SYLLABLE;w_QYRX]);
  (0xa417, [w_YI;w_SYLLABLE;w_QYR]);
  (0xa418, [w_YI;w_SYLLABLE;w_JJIT]);
  (0xa419, [w_YI;w_SYLLABLE;w_JJIX]);
  (0xa41a, [w_YI;w_SYLLABLE;w_JJI]);
  (0xa41b, [w_YI;w_SYLLABLE;w_JJIP]);
  (0xa41c, [w_YI;w_SYLLABLE;w_JJIET]);
  (0xa41d, [w_YI;w_SYLLABLE;w_JJIEX]);
  (0xa41e, [w_YI;w_SYLLABLE;w_JJIE]);
  (0xa41f, [w_YI;w_SYLLABLE;w_JJIEP]);
  (0xa420, [w_YI;w_SYLLABLE;w_JJUOX]);
  (0xa421, [w_YI;w_SYLLABLE;w_JJUO]);
  (0xa422, [w_YI;w_SYLLABLE;w_JJUOP]);
  (0xa423, [w_YI;w_SYLLABLE;w_JJOT]);
  (0xa424, [w_YI;w_SYLLABLE;w_JJOX]);
  (0xa425, [w_YI;w_SYLLABLE;w_JJO]);
  (0xa426, [w_YI;w_SYLLABLE;w_JJOP]);
  (0xa427, [w_YI;w_SYLLABLE;w_JJUT]);
  (0xa428, [w_YI;w_SYLLABLE;w_JJUX]);
  (0xa429, [w_YI;w_SYLLABLE;w_JJU]);
  (0xa42a, [w_YI;w_SYLLABLE;w_JJUP]);
  (0xa42b, [w_YI;w_SYLLABLE;w_JJURX]);
  (0xa42c, [w_YI;w_SYLLABLE;w_JJUR]);
  (0xa42d, [w_YI;w_SYLLABLE;w_JJYT]);
  (0xa42e, [w_YI;w_SYLLABLE;w_JJYX]);
  (0xa42f, [w_YI;w_SYLLABLE;w_JJY]);
  (0xa430, [w_YI;w_SYLLABLE;w_JJYP]);
  (0xa431, [w_YI;w_SYLLABLE;w_NJIT]);
  (0xa432, [w_YI;w_SYLLABLE;w_NJIX]);
  (0xa433, [w_YI;w_SYLLABLE;w_NJI]);
  (0xa434, [w_YI;w_SYLLABLE;w_NJIP]);
  (0xa435, [w_YI;w_SYLLABLE;w_NJIET]);
  (0xa436, [w_YI;w_SYLLABLE;w_NJIEX]);
  (0xa437, [w_YI;w_SYLLABLE;w_NJIE]);
  (0xa438, [w_YI;w_SYLLABLE;w_NJIEP]);
  (0xa439, [w_YI;w_SYLLABLE;w_NJUOX]);
  (0xa43a, [w_YI;w_SYLLABLE;w_NJUO]);
  (0xa43b, [w_YI;w_SYLLABLE;w_NJOT]);
  (0xa43c, [w_YI;w_SYLLABLE;w_NJOX]);
  (0xa43d, [w_YI;w_SYLLABLE;w_NJO]);
  (0xa43e, [w_YI;w_SYLLABLE;w_NJOP]);
  (0xa43f, [w_YI;w_SYLLABLE;w_NJUX]);
  (0xa440, [w_YI;w_SYLLABLE;w_NJU]);
  (0xa441, [w_YI;w_SYLLABLE;w_NJUP]);
  (0xa442, [w_YI;w_SYLLABLE;w_NJURX]);
  (0xa443, [w_YI;w_SYLLABLE;w_NJUR]);
  (0xa444, [w_YI;w_SYLLABLE;w_NJYT]);
  (0xa445, [w_YI;w_SYLLABLE;w_NJYX]);
  (0xa446, [w_YI;w_SYLLABLE;w_NJY]);
  (0xa447, [w_YI;w_SYLLABLE;w_NJYP]);
  (0xa448, [w_YI;w_SYLLABLE;w_NJYRX]);
  (0xa449, [w_YI;w_SYLLABLE;w_NJYR]);
  (0xa44a, [w_YI;w_SYLLABLE;w_NYIT]);
  (0xa44b, [w_YI;w_SYLLABLE;w_NYIX]);
  (0xa44c, [w_YI;w_SYLLABLE;w_NYI]);
  (0xa44d, [w_YI;w_SYLLABLE;w_NYIP]);
  (0xa44e, [w_YI;w_SYLLABLE;w_NYIET]);
  (0xa44f, [w_YI;w_SYLLABLE;w_NYIEX]);
  (0xa450, [w_YI;w_SYLLABLE;w_NYIE]);
  (0xa451, [w_YI;w_SYLLABLE;w_NYIEP]);
  (0xa452, [w_YI;w_SYLLABLE;w_NYUOX]);
  (0xa453, [w_YI;w_SYLLABLE;w_NYUO]);
  (0xa454, [w_YI;w_SYLLABLE;w_NYUOP]);
  (0xa455, [w_YI;w_SYLLABLE;w_NYOT]);
  (0xa456, [w_YI;w_SYLLABLE;w_NYOX]);
  (0xa457, [w_YI;w_SYLLABLE;w_NYO]);
  (0xa458, [w_YI;w_SYLLABLE;w_NYOP]);
  (0xa459, [w_YI;w_SYLLABLE;w_NYUT]);
  (0xa45a, [w_YI;w_SYLLABLE;w_NYUX]);
  (0xa45b, [w_YI;w_SYLLABLE;w_NYU]);
  (0xa45c, [w_YI;w_SYLLABLE;w_NYUP]);
  (0xa45d, [w_YI;w_SYLLABLE;w_XIT]);
  (0xa45e, [w_YI;w_SYLLABLE;w_XIX]);
  (0xa45f, [w_YI;w_SYLLABLE;w_XI]);
  (0xa460, [w_YI;w_SYLLABLE;w_XIP]);
  (0xa461, [w_YI;w_SYLLABLE;w_XIET]);
  (0xa462, [w_YI;w_SYLLABLE;w_XIEX]);
  (0xa463, [w_YI;w_SYLLABLE;w_XIE]);
  (0xa464, [w_YI;w_SYLLABLE;w_XIEP]);
  (0xa465, [w_YI;w_SYLLABLE;w_XUOX]);
  (0xa466, [w_YI;w_SYLLABLE;w_XUO]);
  (0xa467, [w_YI;w_SYLLABLE;w_XOT]);
  (0xa468, [w_YI;w_SYLLABLE;w_XOX]);
  (0xa469, [w_YI;w_SYLLABLE;w_XO]);
  (0xa46a, [w_YI;w_SYLLABLE;w_XOP]);
  (0xa46b, [w_YI;w_SYLLABLE;w_XYT]);
  (0xa46c, [w_YI;w_SYLLABLE;w_XYX]);
  (0xa46d, [w_YI;w_SYLLABLE;w_XY]);
  (0xa46e, [w_YI;w_SYLLABLE;w_XYP]);
  (0xa46f, [w_YI;w_SYLLABLE;w_XYRX]);
  (0xa470, [w_YI;w_SYLLABLE;w_XYR]);
  (0xa471, [w_YI;w_SYLLABLE;w_YIT]);
  (0xa472, [w_YI;w_SYLLABLE;w_YIX]);
  (0xa473, [w_YI;w_SYLLABLE;w_YI]);
  (0xa474, [w_YI;w_SYLLABLE;w_YIP]);
  (0xa475, [w_YI;w_SYLLABLE;w_YIET]);
  (0xa476, [w_YI;w_SYLLABLE;w_YIEX]);
  (0xa477, [w_YI;w_SYLLABLE;w_YIE]);
  (0xa478, [w_YI;w_SYLLABLE;w_YIEP]);
  (0xa479, [w_YI;w_SYLLABLE;w_YUOT]);
  (0xa47a, [w_YI;w_SYLLABLE;w_YUOX]);
  (0xa47b, [w_YI;w_SYLLABLE;w_YUO]);
  (0xa47c, [w_YI;w_SYLLABLE;w_YUOP]);
  (0xa47d, [w_YI;w_SYLLABLE;w_YOT]);
  (0xa47e, [w_YI;w_SYLLABLE;w_YOX]);
  (0xa47f, [w_YI;w_SYLLABLE;w_YO]);
  (0xa480, [w_YI;w_SYLLABLE;w_YOP]);
  (0xa481, [w_YI;w_SYLLABLE;w_YUT]);
  (0xa482, [w_YI;w_SYLLABLE;w_YUX]);
  (0xa483, [w_YI;w_SYLLABLE;w_YU]);
  (0xa484, [w_YI;w_SYLLABLE;w_YUP]);
  (0xa485, [w_YI;w_SYLLABLE;w_YURX]);
  (0xa486, [w_YI;w_SYLLABLE;w_YUR]);
  (0xa487, [w_YI;w_SYLLABLE;w_YYT]);
  (0xa488, [w_YI;w_SYLLABLE;w_YYX]);
  (0xa489, [w_YI;w_SYLLABLE;w_YY]);
  (0xa48a, [w_YI;w_SYLLABLE;w_YYP]);
  (0xa48b, [w_YI;w_SYLLABLE;w_YYRX]);
  (0xa48c, [w_YI;w_SYLLABLE;w_YYR]);
  (0xa490, [w_YI;w_RADICAL;w_QOT]);
  (0xa491, [w_YI;w_RADICAL;w_LI]);
  (0xa492, [w_YI;w_RADICAL;w_KIT]);
  (0xa493, [w_YI;w_RADICAL;w_NYIP]);
  (0xa494, [w_YI;w_RADICAL;w_CYP]);
  (0xa495, [w_YI;w_RADICAL;w_SSI]);
  (0xa496, [w_YI;w_RADICAL;w_GGOP]);
  (0xa497, [w_YI;w_RADICAL;w_GEP]);
  (0xa498, [w_YI;w_RADICAL;w_MI]);
  (0xa499, [w_YI;w_RADICAL;w_HXIT]);
  (0xa49a, [w_YI;w_RADICAL;w_LYR]);
  (0xa49b, [w_YI;w_RADICAL;w_BBUT]);
  (0xa49c, [w_YI;w_RADICAL;w_MOP]);
  (0xa49d, [w_YI;w_RADICAL;w_YO]);
  (0xa49e, [w_YI;w_RADICAL;w_PUT]);
  (0xa49f, [w_YI;w_RADICAL;w_HXUO]);
  (0xa4a0, [w_YI;w_RADICAL;w_TAT]);
  (0xa4a1, [w_YI;w_RADICAL;w_GA]);
  (0xa4a2, [w_YI;w_RADICAL;w_ZUP]);
  (0xa4a3, [w_YI;w_RADICAL;w_CYT]);
  (0xa4a4, [w_YI;w_RADICAL;w_DDUR]);
  (0xa4a5, [w_YI;w_RADICAL;w_BUR]);
  (0xa4a6, [w_YI;w_RADICAL;w_GGUO]);
  (0xa4a7, [w_YI;w_RADICAL;w_NYOP]);
  (0xa4a8, [w_YI;w_RADICAL;w_TU]);
  (0xa4a9, [w_YI;w_RADICAL;w_OP]);
  (0xa4aa, [w_YI;w_RADICAL;w_JJUT]);
  (0xa4ab, [w_YI;w_RADICAL;w_ZOT]);
  (0xa4ac, [w_YI;w_RADICAL;w_PYT]);
  (0xa4ad, [w_YI;w_RADICAL;w_HMO]);
  (0xa4ae, [w_YI;w_RADICAL;w_YIT]);
  (0xa4af, [w_YI;w_RADICAL;w_VUR]);
  (0xa4b0, [w_YI;w_RADICAL;w_SHY]);
  (0xa4b1, [w_YI;w_RADICAL;w_VEP]);
  (0xa4b2, [w_YI;w_RADICAL;w_ZA]);
  (0xa4b3, [w_YI;w_RADICAL;w_JO]);
  (0xa4b4, [w_YI;w_RADICAL;w_NZUP]);
  (0xa4b5, [w_YI;w_RADICAL;w_JJY]);
  (0xa4b6, [w_YI;w_RADICAL;w_GOT]);
  (0xa4b7, [w_YI;w_RADICAL;w_JJIE]);
  (0xa4b8, [w_YI;w_RADICAL;w_WO]);
  (0xa4b9, [w_YI;w_RADICAL;w_DU]);
  (0xa4ba, [w_YI;w_RADICAL;w_SHUR]);
  (0xa4bb, [w_YI;w_RADICAL;w_LIE]);
  (0xa4bc, [w_YI;w_RADICAL;w_CY]);
  (0xa4bd, [w_YI;w_RADICAL;w_CUOP]);
  (0xa4be, [w_YI;w_RADICAL;w_CIP]);
  (0xa4bf, [w_YI;w_RADICAL;w_HXOP]);
  (0xa4c0, [w_YI;w_RADICAL;w_SHAT])].

Definition NAMES_33 : list (N * (list str)) := [
  (0xa4c1, [w_YI;w_RADICAL;w_ZUR]);
  (0xa4c2, [w_YI;w_RADICAL;w_SHOP]);
  (0xa4c3, [w_YI;w_RADICAL;w_CHE]);
  (0xa4c4, [w_YI;w_RADICAL;w_ZZIET]);
  (0xa4c5, [w_YI;w_RADICAL;w_NBIE]);
  (0xa4c6, [w_YI;w_RADICAL;w_KE]);
  (0xa4d0, [w_LISU;w_LETTER;w_BA]);
  (0xa4d1, [w_LISU;w_LETTER;w_PA]);
  (0xa4d2, [w_LISU;w_LETTER;w_PHA]);
  (0xa4d3, [w_LISU;w_LETTER;w_DA]);
  (0xa4d4, [w_LISU;w_LETTER;w_TA]);
  (0xa4d5, [w_LISU;w_LETTER;w_THA]);
  (0xa4d6, [w_LISU;w_LETTER;w_GA]);
  (0xa4d7, [w_LISU;w_LETTER;w_KA]);
  (0xa4d8, [w_LISU;w_LETTER;w_KHA]);
  (0xa4d9, [w_LISU;w_LETTER;w_JA]);
  (0xa4da, [w_LISU;w_LETTER;w_CA]);
  (0xa4db, [w_LISU;w_LETTER;w_CHA]);
  (0xa4dc, [w_LISU;w_LETTER;w_DZA]);
  (0xa4dd, [w_LISU;w_LETTER;w_TSA]);
  (0xa4de, [w_LISU;w_LETTER;w_TSHA]);
  (0xa4df, [w_LISU;w_LETTER;w_MA]);
  (0xa4e0, [w_LISU;w_LETTER;w_NA]);
  (0xa4e1, [w_LISU;w_LETTER;w_LA]);
  (0xa4e2, [w_LISU;w_LETTER;w_SA]);
  (0xa4e3, [w_LISU;w_LETTER;w_ZHA]);
  (0xa4e4, [w_LISU;w_LETTER;w_ZA]);
  (0xa4e5, [w_LISU;w_LETTER;w_NGA]);
  (0xa4e6, [w_LISU;w_LETTER;w_HA]);
  (0xa4e7, [w_LISU;w_LETTER;w_XA]);
  (0xa4e8, [w_LISU;w_LETTER;w_HHA]);
  (0xa4e9, [w_LISU;w_LETTER;w_FA]);
  (0xa4ea, [w_LISU;w_LETTER;w_WA]);
  (0xa4eb, [w_LISU;w_LETTER;w_SHA]);
  (0xa4ec, [w_LISU;w_LETTER;w_YA]);
  (0xa4ed, [w_LISU;w_LETTER;w_GHA]);
  (0xa4ee, [w_LISU;w_LETTER;w_A]);
  (0xa4ef, [w_LISU;w_LETTER;w_AE]);
  (0xa4f0, [w_LISU;w_LETTER;w_E]);
  (0xa4f1, [w_LISU;w_LETTER;w_EU]);
  (0xa4f2, [w_LISU;w_LETTER;w_I]);
  (0xa4f3, [w_LISU;w_LETTER;w_O]);
  (0xa4f4, [w_LISU;w_LETTER;w_U]);
  (0xa4f5, [w_LISU;w_LETTER;w_UE]);
  (0xa4f6, [w_LISU;w_LETTER;w_UH]);
  (0xa4f7, [w_LISU;w_LETTER;w_OE]);
  (0xa4f8, [w_LISU;w_LETTER;w_TONE;w_MYA;w_TI]);
  (0xa4f9, [w_LISU;w_LETTER;w_TONE;w_NA;w_PO]);
  (0xa4fa, [w_LISU;w_LETTER;w_TONE;w_MYA;w_CYA]);
  (0xa4fb, [w_LISU;w_LETTER;w_TONE;w_MYA;w_BO]);
  (0xa4fc, [w_LISU;w_LETTER;w_TONE;w_MYA;w_NA]);
  (0xa4fd, [w_LISU;w_LETTER;w_TONE;w_MYA;w_JEU]);
  (0xa4fe, [w_LISU;w_PUNCTUATION;w_COMMA]);
  (0xa4ff, [w_LISU;w_PUNCTUATION;w_FULL;w_STOP]);
  (0xa500, [w_VAI;w_SYLLABLE;w_EE]);
  (0xa501, [w_VAI;w_SYLLABLE;w_EEN]);
  (0xa502, [w_VAI;w_SYLLABLE;w_HEE]);
  (0xa503, [w_VAI;w_SYLLABLE;w_WEE]);
  (0xa504, [w_VAI;w_SYLLABLE;w_WEEN]);
  (0xa505, [w_VAI;w_SYLLABLE;w_PEE]);
  (0xa506, [w_VAI;w_SYLLABLE;w_BHEE]);
  (0xa507, [w_VAI;w_SYLLABLE;w_BEE]);
  (0xa508, [w_VAI;w_SYLLABLE;w_MBEE]);
  (0xa509, [w_VAI;w_SYLLABLE;w_KPEE]);
  (0xa50a, [w_VAI;w_SYLLABLE;w_MGBEE]);
  (0xa50b, [w_VAI;w_SYLLABLE;w_GBEE]);
  (0xa50c, [w_VAI;w_SYLLABLE;w_FEE]);
  (0xa50d, [w_VAI;w_SYLLABLE;w_VEE]);
  (0xa50e, [w_VAI;w_SYLLABLE;w_TEE]);
  (0xa50f, [w_VAI;w_SYLLABLE;w_THEE]);
  (0xa510, [w_VAI;w_SYLLABLE;w_DHEE]);
  (0xa511, [w_VAI;w_SYLLABLE;w_DHHEE]);
  (0xa512, [w_VAI;w_SYLLABLE;w_LEE]);
  (0xa513, [w_VAI;w_SYLLABLE;w_REE]);
  (0xa514, [w_VAI;w_SYLLABLE;w_DEE]);
  (0xa515, [w_VAI;w_SYLLABLE;w_NDEE]);
  (0xa516, [w_VAI;w_SYLLABLE;w_SEE]);
  (0xa517, [w_VAI;w_SYLLABLE;w_SHEE]);
  (0xa518, [w_VAI;w_SYLLABLE;w_ZEE]);
  (0xa519, [w_VAI;w_SYLLABLE;w_ZHEE]);
  (0xa51a, [w_VAI;w_SYLLABLE;w_CEE]);
  (0xa51b, [w_VAI;w_SYLLABLE;w_JEE]);
  (0xa51c, [w_VAI;w_SYLLABLE;w_NJEE]);
  (0xa51d, [w_VAI;w_SYLLABLE;w_YEE]);
  (0xa51e, [w_VAI;w_SYLLABLE;w_KEE]);
  (0xa51f, [w_VAI;w_SYLLABLE;w_NGGEE]);
  (0xa520, [w_VAI;w_SYLLABLE;w_GEE]);
  (0xa521, [w_VAI;w_SYLLABLE;w_MEE]);
  (0xa522, [w_VAI;w_SYLLABLE;w_NEE]);
  (0xa523, [w_VAI;w_SYLLABLE;w_NYEE]);
  (0xa524, [w_VAI;w_SYLLABLE;w_I]);
  (0xa525, [w_VAI;w_SYLLABLE;w_IN]);
  (0xa526, [w_VAI;w_SYLLABLE;w_HI]);
  (0xa527, [w_VAI;w_SYLLABLE;w_HIN]);
  (0xa528, [w_VAI;w_SYLLABLE;w_WI]);
  (0xa529, [w_VAI;w_SYLLABLE;w_WIN]);
  (0xa52a, [w_VAI;w_SYLLABLE;w_PI]);
  (0xa52b, [w_VAI;w_SYLLABLE;w_BHI]);
  (0xa52c, [w_VAI;w_SYLLABLE;w_BI]);
  (0xa52d, [w_VAI;w_SYLLABLE;w_MBI]);
  (0xa52e, [w_VAI;w_SYLLABLE;w_KPI]);
  (0xa52f, [w_VAI;w_SYLLABLE;w_MGBI]);
  (0xa530, [w_VAI;w_SYLLABLE;w_GBI]);
  (0xa531, [w_VAI;w_SYLLABLE;w_FI]);
  (0xa532, [w_VAI;w_SYLLABLE;w_VI]);
  (0xa533, [w_VAI;w_SYLLABLE;w_TI]);
  (0xa534, [w_VAI;w_SYLLABLE;w_THI]);
  (0xa535, [w_VAI;w_SYLLABLE;w_DHI]);
  (0xa536, [w_VAI;w_SYLLABLE;w_DHHI]);
  (0xa537, [w_VAI;w_SYLLABLE;w_LI]);
  (0xa538, [w_VAI;w_SYLLABLE;w_RI]);
  (0xa539, [w_VAI;w_SYLLABLE;w_DI]);
  (0xa53a, [w_VAI;w_SYLLABLE;w_NDI]);
  (0xa53b, [w_VAI;w_SYLLABLE;w_SI]);
  (0xa53c, [w_VAI;w_SYLLABLE;w_SHI]);
  (0xa53d, [w_VAI;w_SYLLABLE;w_ZI]);
  (0xa53e, [w_VAI;w_SYLLABLE;w_ZHI]);
  (0xa53f, [w_VAI;w_SYLLABLE;w_CI]);
  (0xa540, [w_VAI;w_SYLLABLE;w_JI]);
  (0xa541, [w_VAI;w_SYLLABLE;w_NJI]);
  (0xa542, [w_VAI;w_SYLLABLE;w_YI]);
  (0xa543, [w_VAI;w_SYLLABLE;w_KI]);
  (0xa544, [w_VAI;w_SYLLABLE;w_NGGI]);
  (0xa545, [w_VAI;w_SYLLABLE;w_GI]);
  (0xa546, [w_VAI;w_SYLLABLE;w_MI]);
  (0xa547, [w_VAI;w_SYLLABLE;w_NI]);
  (0xa548, [w_VAI;w_SYLLABLE;w_NYI]);
  (0xa549, [w_VAI;w_SYLLABLE;w_A]);
  (0xa54a, [w_VAI;w_SYLLABLE;w_AN]);
  (0xa54b, [w_VAI;w_SYLLABLE;w_NGAN]);
  (0xa54c, [w_VAI;w_SYLLABLE;w_HA]);
  (0xa54d, [w_VAI;w_SYLLABLE;w_HAN]);
  (0xa54e, [w_VAI;w_SYLLABLE;w_WA]);
  (0xa54f, [w_VAI;w_SYLLABLE;w_WAN]);
  (0xa550, [w_VAI;w_SYLLABLE;w_PA]);
  (0xa551, [w_VAI;w_SYLLABLE;w_BHA]);
  (0xa552, [w_VAI;w_SYLLABLE;w_BA]);
  (0xa553, [w_VAI;w_SYLLABLE;w_MBA]);
  (0xa554, [w_VAI;w_SYLLABLE;w_KPA]);
  (0xa555, [w_VAI;w_SYLLABLE;w_KPAN]);
  (0xa556, [w_VAI;w_SYLLABLE;w_MGBA]);
  (0xa557, [w_VAI;w_SYLLABLE;w_GBA]);
  (0xa558, [w_VAI;w_SYLLABLE;w_FA]);
  (0xa559, [w_VAI;w_SYLLABLE;w_VA]);
  (0xa55a, [w_VAI;w_SYLLABLE;w_TA]);
  (0xa55b, [w_VAI;w_SYLLABLE;w_THA]);
  (0xa55c, [w_VAI;w_SYLLABLE;w_DHA]);
  (0xa55d, [w_VAI;w_SYLLABLE;w_DHHA]);
  (0xa55e, [w_VAI;w_SYLLABLE;w_LA]);
  (0xa55f, [w_VAI;w_SYLLABLE;w_RA]);
  (0xa560, [w_VAI;w_SYLLABLE;w_DA]);
  (0xa561, [w_VAI;w_SYLLABLE;w_NDA]);
  (0xa562, [w_VAI;w_SYLLABLE;w_SA]);
  (0xa563, [w_VAI;w_SYLLABLE;w_SHA]);
  (0xa564, [w_VAI;w_SYLLABLE;w_ZA]);
  (0xa565, [w_VAI;w_SYLLABLE;w_ZHA]);
  (0xa566, [w_VAI;w_SYLLABLE;w_CA]);
  (0xa567, [w_VAI;w_SYLLABLE;w_JA]);
  (0xa568, [w_VAI;w_SYLLABLE;w_NJA]);
  (0xa569, [w_VAI;w_SYLLABLE;w_YA]);
  (0xa56a, [w_VAI;w_SYLLABLE;w_KA]);
  (0xa56b, [w_VAI;w_SYLLABLE;w_KAN]);
  (0xa56c, [w_VAI;w_SYLLABLE;w_NGGA]);
  (0xa56d, [w_VAI;w_SYLLABLE;w_GA]);
  (0xa56e, [w_VAI;w_SYLLABLE;w_MA]);
  (0xa56f, [w_VAI;w_SYLLABLE;w_NA]);
  (0xa570, [w_VAI;w_SYLLABLE;w_NYA]);
  (0xa571, [w_VAI;w_SYLLABLE;w_OO]);
  (0xa572, [w_VAI;w_SYLLABLE;w_OON]);
  (0xa573, [w_VAI;w_SYLLABLE;w_HOO]);
  (0xa574, [w_VAI;w_SYLLABLE;w_WOO]);
  (0xa575, [w_VAI;w_SYLLABLE;w_WOON]);
  (0xa576, [w_VAI;w_SYLLABLE;w_POO]);
  (0xa577, [w_VAI;w_SYLLABLE;w_BHOO]);
  (0xa578, [w_VAI;w_SYLLABLE;w_BOO]);
  (0xa579, [w_VAI;w_SYLLABLE;w_MBOO]);
  (0xa57a, [w_VAI;w_SYLLABLE;w_KPOO]);
  (0xa57b, [w_VAI;w_SYLLABLE;w_MGBOO]);
  (0xa57c, [w_VAI;w_SYLLABLE;w_GBOO]);
  (0xa57d, [w_VAI;w_SYLLABLE;w_FOO]);
  (0xa57e, [w_VAI;w_SYLLABLE;w_VOO]);
  (0xa57f, [w_VAI;w_SYLLABLE;w_TOO]);
  (0xa580, [w_VAI;w_SYLLABLE;w_THOO]);
  (0xa581, [w_VAI;w_SYLLABLE;w_DHOO]);
  (0xa582, [w_VAI;w_SYLLABLE;w_DHHOO]);
  (0xa583, [w_VAI;w_SYLLABLE;w_LOO]);
  (0xa584, [w_VAI;w_SYLLABLE;w_ROO]);
  (0xa585, [w_VAI;w_SYLLABLE;w_DOO]);
  (0xa586, [w_VAI;w_SYLLABLE;w_NDOO]);
  (0xa587, [w_VAI;w_SYLLABLE;w_SOO]);
  (0xa588, [w_VAI;w_SYLLABLE;w_SHOO]);
  (0xa589, [w_VAI;w_SYLLABLE;w_ZOO]);
  (0xa58a, [w_VAI;w_SYLLABLE;w_ZHOO]);
  (0xa58b, [w_VAI;w_SYLLABLE;w_COO]);
  (0xa58c, [w_VAI;w_SYLLABLE;w_JOO]);
  (0xa58d, [w_VAI;w_SYLLABLE;w_NJOO]);
  (0xa58e, [w_VAI;w_SYLLABLE;w_YOO]);
  (0xa58f, [w_VAI;w_SYLLABLE;w_KOO]);
  (0xa590, [w_VAI;w_SYLLABLE;w_NGGOO]);
  (0xa591, [w_VAI;w_SYLLABLE;w_GOO]);
  (0xa592, [w_VAI;w_SYLLABLE;w_MOO]);
  (0xa593, [w_VAI;w_SYLLABLE;w_NOO]);
  (0xa594, [w_VAI;w_SYLLABLE;w_NYOO]);
  (0xa595, [w_VAI;w_SYLLABLE;w_U]);
  (0xa596, [w_VAI;w_SYLLABLE;w_UN]);
  (0xa597, [w_VAI;w_SYLLABLE;w_HU]);
  (0xa598, [w_VAI;w_SYLLABLE;w_HUN]);
  (0xa599, [w_VAI;w_SYLLABLE;w_WU]);
  (0xa59a, [w_VAI;w_SYLLABLE;w_WUN]);
  (0xa59b, [w_VAI;w_SYLLABLE;w_PU]);
  (0xa59c, [w_VAI;w_SYLLABLE;w_BHU]);
  (0xa59d, [w_VAI;w_SYLLABLE;w_BU]);
  (0xa59e, [w_VAI;w_SYLLABLE;w_MBU]);
  (0xa59f, [w_VAI;w_SYLLABLE;w_KPU]);
  (0xa5a0, [w_VAI;w_SYLLABLE;w_MGBU]);
  (0xa5a1, [w_VAI;w_SYLLABLE;w_GBU]);
  (0xa5a2, [w_VAI;w_SYLLABLE;w_FU]);
  (0xa5a3, [w_VAI;w_SYLLABLE;w_VU]);
  (0xa5a4, [w_VAI;w_SYLLABLE;w_TU]);
  (0xa5a5, [w_VAI;w_SYLLABLE;w_THU]);
  (0xa5a6, [w_VAI;w_SYLLABLE;w_DHU]);
  (0xa5a7, [w_VAI;w_SYLLABLE;w_DHHU]);
  (0xa5a8, [w_VAI;w_SYLLABLE;w_LU]);
  (0xa5a9, [w_VAI;w_SYLLABLE;w_RU]);
  (0xa5aa, [w_VAI;w_SYLLABLE;w_DU]);
  (0xa5ab, [w_VAI;w_SYLLABLE;w_NDU]);
  (0xa5ac, [w_VAI;w_SYLLABLE;w_SU]);
  (0xa5ad, [w_VAI;w_SYLLABLE;w_SHU]);
  (0xa5ae, [w_VAI;w_SYLLABLE;w_ZU]);
  (0xa5af, [w_VAI;w_SYLLABLE;w_ZHU]);
  (0xa5b0, [w_VAI;w_SYLLABLE;w_CU]);
  (0xa5b1, [w_VAI;w_SYLLABLE;w_JU]);
  (0xa5b2, [w_VAI;w_SYLLABLE;w_NJU]);
  (0xa5b3, [w_VAI;w_SYLLABLE;w_YU]);
  (0xa5b4, [w_VAI;w_SYLLABLE;w_KU]);
  (0xa5b5, [w_VAI;w_SYLLABLE;w_NGGU]);
  (0xa5b6, [w_VAI;w_SYLLABLE;w_GU]);
  (0xa5b7, [w_VAI;w_SYLLABLE;w_MU]);
  (0xa5b8, [w_VAI;w_SYLLABLE;w_NU]);
  (0xa5b9, [w_VAI;w_SYLLABLE;w_NYU]);
  (0xa5ba, [w_VAI;w_SYLLABLE;w_O]);
  (0xa5bb, [w_VAI;w_SYLLABLE;w_ON]);
  (0xa5bc, [w_VAI;w_SYLLABLE;w_NGON]);
  (0xa5bd, [w_VAI;w_SYLLABLE;w_HO]);
  (0xa5be, [w_VAI;w_SYLLABLE;w_HON]);
  (0xa5bf, [w_VAI;w_SYLLABLE;w_WO]);
  (0xa5c0, [w_VAI;w_SYLLABLE;w_WON]);
  (0xa5c1, [w_VAI;w_SYLLABLE;w_PO]);
  (0xa5c2, [w_VAI;w_SYLLABLE;w_BHO]);
  (0xa5c3, [w_VAI;w_SYLLABLE;w_BO]);
  (0xa5c4, [w_VAI;w_SYLLABLE;w_MBO]);
  (0xa5c5, [w_VAI;w_SYLLABLE;w_KPO]);
  (0xa5c6, [w_VAI;w_SYLLABLE;w_MGBO]);
  (0xa5c7, [w_VAI;w_SYLLABLE;w_GBO]);
  (0xa5c8, [w_VAI;w_SYLLABLE;w_GBON]);
  (0xa5c9, [w_VAI;w_SYLLABLE;w_FO]);
  (0xa5ca, [w_VAI;w_SYLLABLE;w_VO]);
  (0xa5cb, [w_VAI;w_SYLLABLE;w_TO]);
  (0xa5cc, [w_VAI;w_SYLLABLE;w_THO]);
  (0xa5cd, [w_VAI;w_SYLLABLE;w_DHO]);
  (0xa5ce, [w_VAI;w_SYLLABLE;w_DHHO]);
  (0xa5cf, [w_VAI;w_SYLLABLE;w_LO]);
  (0xa5d0, [w_VAI;w_SYLLABLE;w_RO]);
  (0xa5d1, [w_VAI;w_SYLLABLE;w_DO]);
  (0xa5d2, [w_VAI;w_SYLLABLE;w_NDO]);
  (0xa5d3, [w_VAI;w_SYLLABLE;w_SO]);
  (0xa5d4, [w_VAI;w_SYLLABLE;w_SHO]);
  (0xa5d5, [w_VAI;w_SYLLABLE;w_ZO]);
  (0xa5d6, [w_VAI;w_SYLLABLE;w_ZHO]);
  (0xa5d7, [w_VAI;w_SYLLABLE;w_CO]);
  (0xa5d8, [w_VAI;w_SYLLABLE;w_JO]);
  (0xa5d9, [w_VAI;w_SYLLABLE;w_NJO]);
  (0xa5da, [w_VAI;w_SYLLABLE;w_YO]);
  (0xa5db, [w_VAI;w_SYLLABLE;w_KO]);
  (0xa5dc, [w_VAI;w_SYLLABLE;w_NGGO]);
  (0xa5dd, [w_VAI;w_SYLLABLE;w_GO]);
  (0xa5de, [w_VAI;w_SYLLABLE;w_MO]);
  (0xa5df, [w_VAI;w_SYLLABLE;w_NO]);
  (0xa5e0, [w_VAI;w_SYLLABLE;w_NYO]);
  (0xa5e1, [w_VAI;w_SYLLABLE;w_E]);
  (0xa5e2, [w_VAI;w_SYLLABLE;w_EN]);
  (0xa5e3, [w_VAI;w_SYLLABLE;w_NGEN]);
  (0xa5e4, [w_VAI;w_SYLLABLE;w_HE]);
  (0xa5e5, [w_VAI;w_SYLLABLE;w_HEN]);
  (0xa5e6, [w_VAI;w_SYLLABLE;w_WE]);
  (0xa5e7, [w_VAI;w_SYLLABLE;w_WEN]);
  (0xa5e8, [w_VAI;w_SYLLABLE;w_PE]);
  (0xa5e9, [w_VAI;w_SYLLABLE;w_BHE]);
  (0xa5ea, [w_VAI;w_SYLLABLE;w_BE]);
  (0xa5eb, [w_VAI;w_SYLLABLE;w_MBE]);
  (0xa5ec, [w_VAI;w_SYLLABLE;w_KPE]);
  (0xa5ed, [w_VAI;w_SYLLABLE;w_KPEN]);
  (0xa5ee, [w_VAI;w_SYLLABLE;w_MGBE]);
  (0xa5ef, [w_VAI;w_SYLLABLE;w_GBE]);
  (0xa5f0, [w_VAI;w_SYLLABLE;w_GBEN]);
  (0xa5f1, [w_VAI;w_SYLLABLE;w_FE]);
  (0xa5f2, [w_VAI;w_SYLLABLE;w_VE]);
  (0xa5f3, [w_VAI;w_SYLLABLE;w_TE]);
  (0xa5f4, [w_VAI;w_SYLLABLE;w_THE]);
  (0xa5f5, [w_VAI;w_SYLLABLE;w_DHE]);
  (0xa5f6, [w_VAI;w_SYLLABLE;w_DHHE]);
  (0xa5f7, [w_VAI;w_SYLLABLE;w_LE]);
  (0xa5f8, [w_VAI;w_SYLLABLE;w_RE]);
  (0xa5f9, [w_VAI;w_SYLLABLE;w_DE]);
  (0xa5fa, [w_VAI;w_SYLLABLE;w_NDE]);
  (0xa5fb, [w_VAI;w_SYLLABLE;w_SE]);
  (0xa5fc, [w_VAI;w_SYLLABLE;w_SHE]);
  (0xa5fd, [w_VAI;w_SYLLABLE;w_ZE]);
  (0xa5fe, [w_VAI;w_SYLLABLE;w_ZHE]);
  (0xa5ff, [w_VAI;w_SYLLABLE;w_CE]);
  (0xa600, [w_VAI;w_SYLLABLE;w_JE]);
  (0xa601, [w_VAI;w_SYLLABLE;w_NJE]);
  (0xa602, [w_VAI;w_SYLLABLE;w_YE]);
  (0xa603, [w_VAI;w_SYLLABLE;w_KE]);
  (0xa604, [w_VAI;w_SYLLABLE;w_NGGE]);
  (0xa605, [w_VAI;w_SYLLABLE;w_NGGEN]);
  (0xa606, [w_VAI;w_SYLLABLE;w_GE]);
  (0xa607, [w_VAI;w_SYLLABLE;w_GEN]);
  (0xa608, [w_VAI;w_SYLLABLE;w_ME]);
  (0xa609, [w_VAI;w_SYLLABLE;w_NE]);
  (0xa60a, [w_VAI;w_SYLLABLE;w_NYE]);
  (0xa60b, [w_VAI;w_SYLLABLE;w_NG]);
  (0xa60c, [w_VAI;w_SYLLABLE;w_LENGTHENER]);
  (0xa60d, [w_VAI;w_COMMA]);
  (0xa60e, [w_VAI;w_FULL;w_STOP]);
  (0xa60f, [w_VAI;w_QUESTION;w_MARK]);
  (0xa610, [w_VAI;w_SYLLABLE;w_NDOLE;w_FA]);
  (0xa611, [w_VAI;w_SYLLABLE;w_NDOLE;w_KA]);
  (0xa612, [w_VAI;w_SYLLABLE;w_NDOLE;w_SOO]);
  (0xa613, [w_VAI;w_SYMBOL;w_FEENG]);
  (0xa614, [w_VAI;w_SYMBOL;w_KEENG]);
  (0xa615, [w_VAI;w_SYMBOL;w_TING]);
  (0xa616, [w_VAI;w_SYMBOL;w_NII]);
  (0xa617, [w_VAI;w_SYMBOL;w_BANG]);
  (0xa618, [w_VAI;w_SYMBOL;w_FAA]);
  (0xa619, [w_VAI;w_SYMBOL;w_TAA]);
  (0xa61a, [w_VAI;w_SYMBOL;w_DANG]);
  (0xa61b, [w_VAI;w_SYMBOL;w_DOONG]);
  (0xa61c, [w_VAI;w_SYMBOL;w_KUNG]);
  (0xa61d, [w_VAI;w_SYMBOL;w_TONG]);
  (0xa61e, [w_VAI;w_SYMBOL;w_DO_O]);
  (0xa61f, [w_VAI;w_SYMBOL;w_JONG]);
  (0xa620, [w_VAI;w_DIGIT;w_ZERO]);
  (0xa621, [w_VAI;w_DIGIT;w_ONE]);
  (0xa622, [w_VAI;w_DIGIT;w_TWO]);
  (0xa623, [w_VAI;w_DIGIT;w_THREE]);
  (0xa624, [w_VAI;w_DIGIT;w_FOUR]);
  (0xa625, [w_VAI;w_DIGIT;w_FIVE]);
  (0xa626, [w_VAI;w_DIGIT;w_SIX]);
  (0xa627, [w_VAI;w_DIGIT;w_SEVEN]);
  (0xa628, [w_VAI;w_DIGIT;w_EIGHT]);
  (0xa629, [w_VAI;w_DIGIT;w_NINE]);
  (0xa62a, [w_VAI;w_SYLLABLE;w_NDOLE;w_MA]);
  (0xa62b, [w_VAI;w_SYLLABLE;w_NDOLE;w_DO]);
  (0xa640, [w_CYRILLIC;w_CAPITAL;w_LETTER;w_ZEMLYA]);
  (0xa641, [w_CYRILLIC;w_SMALL;w_LETTER;w_ZEMLYA]);
  (0xa642, [w_CYRILLIC;w_CAPITAL;w_LETTER;w_DZELO]);
  (0xa643, [w_CYRILLIC;w_SMALL;w_LETTER;w_DZELO]);
  (0xa644, [w_CYRILLIC;w_CAPITAL;w_LETTER;w_REVERSED;w_DZE]);
  (0xa645, [w_CYRILLIC;w_SMALL;w_LETTER;w_REVERSED;w_DZE]);
  (0xa646, [w_CYRILLIC;w_CAPITAL;w_LETTER;w_IOTA]);
  (0xa647, [w_CYRILLIC;w_SMALL;w_LETTER;w_IOTA]);
  (0xa648, [w_CYRILLIC;w_CAPITAL;w_LETTER;w_DJERV]);
  (0xa649, [w_CYRILLIC;w_SMALL;w_LETTER;w_DJERV]);
  (0xa64a, [w_CYRILLIC;w_CAPITAL;w_LETTER;w_MONOGRAPH;w_UK]);
  (0xa64b, [w_CYRILLIC;w_SMALL;w_LETTER;w_MONOGRAPH;w_UK]);
  (0xa64c, [w_CYRILLIC;w_CAPITAL;w_LETTER;w_BROAD;w_OMEGA]);
  (0xa64d, [w_CYRILLIC;w_SMALL;w_LETTER;w_BROAD;w_OMEGA]);
  (0xa64e, [w_CYRILLIC;w_CAPITAL;w_LETTER;w_NEUTRAL;w_YER]);
  (0xa64f, [w_CYRILLIC;w_SMALL;w_LETTER;w_NEUTRAL;w_YER]);
  (0xa650, [w_CYRILLIC;w_CAPITAL;w_LETTER;w_YERU;w_WITH;w_BACK;w_YER]);
  (0xa651, [w_CYRILLIC;w_SMALL;w_LETTER;w_YERU;w_WITH;w_BACK;w_YER]);
  (0xa652, [w_CYRILLIC;w_CAPITAL;w_LETTER;w_IOTIFIED;w_YAT]);
  (0xa653, [w_CYRILLIC;w_SMALL;w_LETTER;w_IOTIFIED;w_YAT]);
  (0xa654, [w_CYRILLIC;w_CAPITAL;w_LETTER;w_REVERSED;w_YU]);
  (0xa655, [w_CYRILLIC;w_SMALL;w_LETTER;w_REVERSED;w_YU]);
  (0xa656, [w_CYRILLIC;w_CAPITAL;w_LETTER;w_IOTIFIED;w_A]);
  (0xa657, [w_CYRILLIC;w_SMALL;w_LETTER;w_IOTIFIED;w_A]);
  (0xa658, [w_CYRILLIC;w_CAPITAL;w_LETTER;w_CLOSED;w_LITTLE;w_YUS]);
  (0xa659, [w_CYRILLIC;w_SMALL;w_LETTER;w_CLOSED;w_LITTLE;w_YUS]);
  (0xa65a, [w_CYRILLIC;w_CAPITAL;w_LETTER;w_BLENDED;w_YUS]);
  (0xa65b, [w_CYRILLIC;w_SMALL;w_LETTER;w_BLENDED;w_YUS]);
  (0xa65c, [w_CYRILLIC;w_CAPITAL;w_LETTER;w_IOTIFIED;w_CLOSED;w_LITTLE;w_YUS]);
  (0xa65d, [w_CYRILLIC;w_SMALL;w_LETTER;w_IOTIFIED;w_CLOSED;w_LITTLE;w_YUS]);
  (0xa65e, [w_CYRILLIC;w_CAPITAL;w_LETTER;w_YN]);
  (0xa65f, [w_CYRILLIC;w_SMALL;w_LETTER;w_YN]);
  (0xa660, [w_CYRILLIC;w_CAPITAL;w_LETTER;w_REVERSED;w_TSE]);
  (0xa661, [w_CYRILLIC;w_SMALL;w_LETTER;w_REVERSED;w_TSE]);
  (0xa662, [w_CYRILLIC;w_CAPITAL;w_LETTER;w_SOFT;w_DE]);
  (0xa663, [w_CYRILLIC;w_SMALL;w_LETTER;w_SOFT;w_DE]);
  (0xa664, [w_CYRILLIC;w_CAPITAL;w_LETTER;w_SOFT;w_EL]);
  (0xa665, [w_CYRILLIC;w_SMALL;w_LETTER;w_SOFT;w_EL]);
  (0xa666, [w_CYRILLIC;w_CAPITAL;w_LETTER;w_SOFT;w_EM]);
  (0xa667, [w_CYRILLIC;w_SMALL;w_LETTER;w_SOFT;w_EM]);
  (0xa668, [w_CYRILLIC;w_CAPITAL;w_LETTER;w_MONOCULAR;w_O]);
  (0xa669, [w_CYRILLIC;w_SMALL;w_LETTER;w_MONOCULAR;w_O]);
  (0xa66a, [w_CYRILLIC;w_CAPITAL;w_LETTER;w_BINOCULAR;w_O]);
  (0xa66b, [w_CYRILLIC;w_SMALL;w_LETTER;w_BINOCULAR;w_O]);
  (0xa66c, [w_CYRILLIC;w_CAPITAL;w_LETTER;w_DOUBLE;w_MONOCULAR;w_O]);
  (0xa66d, [w_CYRILLIC;w_SMALL;w_LETTER;w_DOUBLE;w_MONOCULAR;w_O])].

Definition NAMES_34 : list (N * (list str)) := [
  (0xa66e, [w_CYRILLIC;w_LETTER;w_MULTIOCULAR;w_O]);
  (0xa66f, [w_COMBINING;w_CYRILLIC;w_VZMET]);
  (0xa670, [w_COMBINING;w_CYRILLIC;w_TEN;w_MILLIONS;w_SIGN]);
  (0xa671, [w_COMBINING;w_CYRILLIC;w_HUNDRED;w_MILLIONS;w_SIGN]);
  (0xa672, [w_COMBINING;w_CYRILLIC;w_THOUSAND;w_MILLIONS;w_SIGN]);
  (0xa673, [w_SLAVONIC;w_ASTERISK]);
  (0xa674, [w_COMBINING;w_CYRILLIC;w_LETTER;w_UKRAINIAN;w_IE]);
  (0xa675, [w_COMBINING;w_CYRILLIC;w_LETTER;w_I]);
  (0xa676, [w_COMBINING;w_CYRILLIC;w_LETTER;w_YI]);
  (0xa677, [w_COMBINING;w_CYRILLIC;w_LETTER;w_U]);
  (0xa678, [w_COMBINING;w_CYRILLIC;w_LETTER;w_HARD;w_SIGN]);
  (0xa679, [w_COMBINING;w_CYRILLIC;w_LETTER;w_YERU]);
  (0xa67a, [w_COMBINING;w_CYRILLIC;w_LETTER;w_SOFT;w_SIGN]);
  (0xa67b, [w_COMBINING;w_CYRILLIC;w_LETTER;w_OMEGA]);
  (0xa67c, [w_COMBINING;w_CYRILLIC;w_KAVYKA]);
  (0xa67d, [w_COMBINING;w_CYRILLIC;w_PAYEROK]);
  (0xa67e, [w_CYRILLIC;w_KAVYKA]);
  (0xa67f, [w_CYRILLIC;w_PAYEROK]);
  (0xa680, [w_CYRILLIC;w_CAPITAL;w_LETTER;w_DWE]);
  (0xa681, [w_CYRILLIC;w_SMALL;w_LETTER;w_DWE]);
  (0xa682, [w_CYRILLIC;w_CAPITAL;w_LETTER;w_DZWE]);
  (0xa683, [w_CYRILLIC;w_SMALL;w_LETTER;w_DZWE]);
  (0xa684, [w_CYRILLIC;w_CAPITAL;w_LETTER;w_ZHWE]);
  (0xa685, [w_CYRILLIC;w_SMALL;w_LETTER;w_ZHWE]);
  (0xa686, [w_CYRILLIC;w_CAPITAL;w_LETTER;w_CCHE]);
  (0xa687, [w_CYRILLIC;w_SMALL;w_LETTER;w_CCHE]);
  (0xa688, [w_CYRILLIC;w_CAPITAL;w_LETTER;w_DZZE]);
  (0xa689, [w_CYRILLIC;w_SMALL;w_LETTER;w_DZZE]);
  (0xa68a, [w_CYRILLIC;w_CAPITAL;w_LETTER;w_TE;w_WITH;w_MIDDLE;w_HOOK]);
  (0xa68b, [w_CYRILLIC;w_SMALL;w_LETTER;w_TE;w_WITH;w_MIDDLE;w_HOOK]);
  (0xa68c, [w_CYRILLIC;w_CAPITAL;w_LETTER;w_TWE]);
  (0xa68d, [w_CYRILLIC;w_SMALL;w_LETTER;w_TWE]);
  (0xa68e, [w_CYRILLIC;w_CAPITAL;w_LETTER;w_TSWE]);
  (0xa68f, [w_CYRILLIC;w_SMALL;w_LETTER;w_TSWE]);
  (0xa690, [w_CYRILLIC;w_CAPITAL;w_LETTER;w_TSSE]);
  (0xa691, [w_CYRILLIC;w_SMALL;w_LETTER;w_TSSE]);
  (0xa692, [w_CYRILLIC;w_CAPITAL;w_LETTER;w_TCHE]);
  (0xa693, [w_CYRILLIC;w_SMALL;w_LETTER;w_TCHE]);
  (0xa694, [w_CYRILLIC;w_CAPITAL;w_LETTER;w_HWE]);
  (0xa695, [w_CYRILLIC;w_SMALL;w_LETTER;w_HWE]);
  (0xa696, [w_CYRILLIC;w_CAPITAL;w_LETTER;w_SHWE]);
  (0xa697, [w_CYRILLIC;w_SMALL;w_LETTER;w_SHWE]);
  (0xa698, [w_CYRILLIC;w_CAPITAL;w_LETTER;w_DOUBLE;w_O]);
  (0xa699, [w_CYRILLIC;w_SMALL;w_LETTER;w_DOUBLE;w_O]);
  (0xa69a, [w_CYRILLIC;w_CAPITAL;w_LETTER;w_CROSSED;w_O]);
  (0xa69b, [w_CYRILLIC;w_SMALL;w_LETTER;w_CROSSED;w_O]);
  (0xa69c, [w_MODIFIER;w_LETTER;w_CYRILLIC;w_HARD;w_SIGN]);
  (0xa69d, [w_MODIFIER;w_LETTER;w_CYRILLIC;w_SOFT;w_SIGN]);
  (0xa69e, [w_COMBINING;w_CYRILLIC;w_LETTER;w_EF]);
  (0xa69f, [w_COMBINING;w_CYRILLIC;w_LETTER;w_IOTIFIED;w_E]);
  (0xa6a0, [w_BAMUM;w_LETTER;w_A]);
  (0xa6a1, [w_BAMUM;w_LETTER;w_KA]);
  (0xa6a2, [w_BAMUM;w_LETTER;w_U]);
  (0xa6a3, [w_BAMUM;w_LETTER;w_KU]);
  (0xa6a4, [w_BAMUM;w_LETTER;w_EE]);
  (0xa6a5, [w_BAMUM;w_LETTER;w_REE]);
  (0xa6a6, [w_BAMUM;w_LETTER;w_TAE]);
  (0xa6a7, [w_BAMUM;w_LETTER;w_O]);
  (0xa6a8, [w_BAMUM;w_LETTER;w_NYI]);
  (0xa6a9, [w_BAMUM;w_LETTER;w_I]);
  (0xa6aa, [w_BAMUM;w_LETTER;w_LA]);
  (0xa6ab, [w_BAMUM;w_LETTER;w_PA]);
  (0xa6ac, [w_BAMUM;w_LETTER;w_RII]);
  (0xa6ad, [w_BAMUM;w_LETTER;w_RIEE]);
  (0xa6ae, [w_BAMUM;w_LETTER;w_LEEEE]);
  (0xa6af, [w_BAMUM;w_LETTER;w_MEEEE]);
  (0xa6b0, [w_BAMUM;w_LETTER;w_TAA]);
  (0xa6b1, [w_BAMUM;w_LETTER;w_NDAA]);
  (0xa6b2, [w_BAMUM;w_LETTER;w_NJAEM]);
  (0xa6b3, [w_BAMUM;w_LETTER;w_M]);
  (0xa6b4, [w_BAMUM;w_LETTER;w_SUU]);
  (0xa6b5, [w_BAMUM;w_LETTER;w_MU]);
  (0xa6b6, [w_BAMUM;w_LETTER;w_SHII]);
  (0xa6b7, [w_BAMUM;w_LETTER;w_SI]);
  (0xa6b8, [w_BAMUM;w_LETTER;w_SHEUX]);
  (0xa6b9, [w_BAMUM;w_LETTER;w_SEUX]);
  (0xa6ba, [w_BAMUM;w_LETTER;w_KYEE]);
  (0xa6bb, [w_BAMUM;w_LETTER;w_KET]);
  (0xa6bc, [w_BAMUM;w_LETTER;w_NUAE]);
  (0xa6bd, [w_BAMUM;w_LETTER;w_NU]);
  (0xa6be, [w_BAMUM;w_LETTER;w_NJUAE]);
  (0xa6bf, [w_BAMUM;w_LETTER;w_YOQ]);
  (0xa6c0, [w_BAMUM;w_LETTER;w_SHU]);
  (0xa6c1, [w_BAMUM;w_LETTER;w_YUQ]);
  (0xa6c2, [w_BAMUM;w_LETTER;w_YA]);
  (0xa6c3, [w_BAMUM;w_LETTER;w_NSHA]);
  (0xa6c4, [w_BAMUM;w_LETTER;w_KEUX]);
  (0xa6c5, [w_BAMUM;w_LETTER;w_PEUX]);
  (0xa6c6, [w_BAMUM;w_LETTER;w_NJEE]);
  (0xa6c7, [w_BAMUM;w_LETTER;w_NTEE]);
  (0xa6c8, [w_BAMUM;w_LETTER;w_PUE]);
  (0xa6c9, [w_BAMUM;w_LETTER;w_WUE]);
  (0xa6ca, [w_BAMUM;w_LETTER;w_PEE]);
  (0xa6cb, [w_BAMUM;w_LETTER;w_FEE]);
  (0xa6cc, [w_BAMUM;w_LETTER;w_RU]);
  (0xa6cd, [w_BAMUM;w_LETTER;w_LU]);
  (0xa6ce, [w_BAMUM;w_LETTER;w_MI]);
  (0xa6cf, [w_BAMUM;w_LETTER;w_NI]);
  (0xa6d0, [w_BAMUM;w_LETTER;w_REUX]);
  (0xa6d1, [w_BAMUM;w_LETTER;w_RAE]);
  (0xa6d2, [w_BAMUM;w_LETTER;w_KEN]);
  (0xa6d3, [w_BAMUM;w_LETTER;w_NGKWAEN]);
  (0xa6d4, [w_BAMUM;w_LETTER;w_NGGA]);
  (0xa6d5, [w_BAMUM;w_LETTER;w_NGA]);
  (0xa6d6, [w_BAMUM;w_LETTER;w_SHO]);
  (0xa6d7, [w_BAMUM;w_LETTER;w_PUAE]);
  (0xa6d8, [w_BAMUM;w_LETTER;w_FU]);
  (0xa6d9, [w_BAMUM;w_LETTER;w_FOM]);
  (0xa6da, [w_BAMUM;w_LETTER;w_WA]);
  (0xa6db, [w_BAMUM;w_LETTER;w_NA]);
  (0xa6dc, [w_BAMUM;w_LETTER;w_LI]);
  (0xa6dd, [w_BAMUM;w_LETTER;w_PI]);
  (0xa6de, [w_BAMUM;w_LETTER;w_LOQ]);
  (0xa6df, [w_BAMUM;w_LETTER;w_KO]);
  (0xa6e0, [w_BAMUM;w_LETTER;w_MBEN]);
  (0xa6e1, [w_BAMUM;w_LETTER;w_REN]);
  (0xa6e2, [w_BAMUM;w_LETTER;w_MEN]);
  (0xa6e3, [w_BAMUM;w_LETTER;w_MA]);
  (0xa6e4, [w_BAMUM;w_LETTER;w_TI]);
  (0xa6e5, [w_BAMUM;w_LETTER;w_KI]);
  (0xa6e6, [w_BAMUM;w_LETTER;w_MO]);
  (0xa6e7, [w_BAMUM;w_LETTER;w_MBAA]);
  (0xa6e8, [w_BAMUM;w_LETTER;w_TET]);
  (0xa6e9, [w_BAMUM;w_LETTER;w_KPA]);
  (0xa6ea, [w_BAMUM;w_LETTER;w_TEN]);
  (0xa6eb, [w_BAMUM;w_LETTER;w_NTUU]);
  (0xa6ec, [w_BAMUM;w_LETTER;w_SAMBA]);
  (0xa6ed, [w_BAMUM;w_LETTER;w_FAAMAE]);
  (0xa6ee, [w_BAMUM;w_LETTER;w_KOVUU]);
  (0xa6ef, [w_BAMUM;w_LETTER;w_KOGHOM]);
  (0xa6f0, [w_BAMUM;w_COMBINING;w_MARK;w_KOQNDON]);
  (0xa6f1, [w_BAMUM;w_COMBINING;w_MARK;w_TUKWENTIS]);
  (0xa6f2, [w_BAMUM;w_NJAEMLI]);
  (0xa6f3, [w_BAMUM;w_FULL;w_STOP]);
  (0xa6f4, [w_BAMUM;w_COLON]);
  (0xa6f5, [w_BAMUM;w_COMMA]);
  (0xa6f6, [w_BAMUM;w_SEMICOLON]);
  (0xa6f7, [w_BAMUM;w_QUESTION;w_MARK]);
  (0xa700, [w_MODIFIER;w_LETTER;w_CHINESE;w_TONE;w_YIN;w_PING]);
  (0xa701, [w_MODIFIER;w_LETTER;w_CHINESE;w_TONE;w_YANG;w_PING]);
  (0xa702, [w_MODIFIER;w_LETTER;w_CHINESE;w_TONE;w_YIN;w_SHANG]);
  (0xa703, [w_MODIFIER;w_LETTER;w_CHINESE;w_TONE;w_YANG;w_SHANG]);
  (0xa704, [w_MODIFIER;w_LETTER;w_CHINESE;w_TONE;w_YIN;w_QU]);
  (0xa705, [w_MODIFIER;w_LETTER;w_CHINESE;w_TONE;w_YANG;w_QU]);
  (0xa706, [w_MODIFIER;w_LETTER;w_CHINESE;w_TONE;w_YIN;w_RU]);
  (0xa707, [w_MODIFIER;w_LETTER;w_CHINESE;w_TONE;w_YANG;w_RU]);
  (0xa708, [w_MODIFIER;w_LETTER;w_EXTRA_HIGH;w_DOTTED;w_TONE;w_BAR]);
  (0xa709, [w_MODIFIER;w_LETTER;w_HIGH;w_DOTTED;w_TONE;w_BAR]);
  (0xa70a, [w_MODIFIER;w_LETTER;w_MID;w_DOTTED;w_TONE;w_BAR]);
  (0xa70b, [w_MODIFIER;w_LETTER;w_LOW;w_DOTTED;w_TONE;w_BAR]);
  (0xa70c, [w_MODIFIER;w_LETTER;w_EXTRA_LOW;w_DOTTED;w_TONE;w_BAR]);
  (0xa70d, [w_MODIFIER;w_LETTER;w_EXTRA_HIGH;w_DOTTED;w_LEFT_STEM;w_TONE;w_BAR]);
  (0xa70e, [w_MODIFIER;w_LETTER;w_HIGH;w_DOTTED;w_LEFT_STEM;w_TONE;w_BAR]);
  (0xa70f, [w_MODIFIER;w_LETTER;w_MID;w_DOTTED;w_LEFT_STEM;w_TONE;w_BAR]);
  (0xa710, [w_MODIFIER;w_LETTER;w_LOW;w_DOTTED;w_LEFT_STEM;w_TONE;w_BAR]);
  (0xa711, [w_MODIFIER;w_LETTER;w_EXTRA_LOW;w_DOTTED;w_LEFT_STEM;w_TONE;w_BAR]);
  (0xa712, [w_MODIFIER;w_LETTER;w_EXTRA_HIGH;w_LEFT_STEM;w_TONE;w_BAR]);
  (0xa713, [w_MODIFIER;w_LETTER;w_HIGH;w_LEFT_STEM;w_TONE;w_BAR]);
  (0xa714, [w_MODIFIER;w_LETTER;w_MID;w_LEFT_STEM;w_TONE;w_BAR]);
  (0xa715, [w_MODIFIER;w_LETTER;w_LOW;w_LEFT_STEM;w_TONE;w_BAR]);
  (0xa716, [w_MODIFIER;w_LETTER;w_EXTRA_LOW;w_LEFT_STEM;w_TONE;w_BAR]);
  (0xa717, [w_MODIFIER;w_LETTER;w_DOT;w_VERTICAL;w_BAR]);
  (0xa718, [w_MODIFIER;w_LETTER;w_DOT;w_SLASH]);
  (0xa719, [w_MODIFIER;w_LETTER;w_DOT;w_HORIZONTAL;w_BAR]);
  (0xa71a, [w_MODIFIER;w_LETTER;w_LOWER;w_RIGHT;w_CORNER;w_ANGLE]);
  (0xa71b, [w_MODIFIER;w_LETTER;w_RAISED;w_UP;w_ARROW]);
  (0xa71c, [w_MODIFIER;w_LETTER;w_RAISED;w_DOWN;w_ARROW]);
  (0xa71d, [w_MODIFIER;w_LETTER;w_RAISED;w_EXCLAMATION;w_MARK]);
  (0xa71e, [w_MODIFIER;w_LETTER;w_RAISED;w_INVERTED;w_EXCLAMATION;w_MARK]);
  (0xa71f, [w_MODIFIER;w_LETTER;w_LOW;w_INVERTED;w_EXCLAMATION;w_MARK]);
  (0xa720, [w_MODIFIER;w_LETTER;w_STRESS;w_AND;w_HIGH;w_TONE]);
  (0xa721, [w_MODIFIER;w_LETTER;w_STRESS;w_AND;w_LOW;w_TONE]);
  (0xa722, [w_LATIN;w_CAPITAL;w_LETTER;w_EGYPTOLOGICAL;w_ALEF]);
  (0xa723, [w_LATIN;w_SMALL;w_LETTER;w_EGYPTOLOGICAL;w_ALEF]);
  (0xa724, [w_LATIN;w_CAPITAL;w_LETTER;w_EGYPTOLOGICAL;w_AIN]);
  (0xa725, [w_LATIN;w_SMALL;w_LETTER;w_EGYPTOLOGICAL;w_AIN]);
  (0xa726, [w_LATIN;w_CAPITAL;w_LETTER;w_HENG]);
  (0xa727, [w_LATIN;w_SMALL;w_LETTER;w_HENG]);
  (0xa728, [w_LATIN;w_CAPITAL;w_LETTER;w_TZ]);
  (0xa729, [w_LATIN;w_SMALL;w_LETTER;w_TZ]);
  (0xa72a, [w_LATIN;w_CAPITAL;w_LETTER;w_TRESILLO]);
  (0xa72b, [w_LATIN;w_SMALL;w_LETTER;w_TRESILLO]);
  (0xa72c, [w_LATIN;w_CAPITAL;w_LETTER;w_CUATRILLO]);
  (0xa72d, [w_LATIN;w_SMALL;w_LETTER;w_CUATRILLO]);
  (0xa72e, [w_LATIN;w_CAPITAL;w_LETTER;w_CUATRILLO;w_WITH;w_COMMA]);
  (0xa72f, [w_LATIN;w_SMALL;w_LETTER;w_CUATRILLO;w_WITH;w_COMMA]);
  (0xa730, [w_LATIN;w_LETTER;w_SMALL;w_CAPITAL;w_F]);
  (0xa731, [w_LATIN;w_LETTER;w_SMALL;w_CAPITAL;w_S]);
  (0xa732, [w_LATIN;w_CAPITAL;w_LETTER;w_AA]);
  (0xa733, [w_LATIN;w_SMALL;w_LETTER;w_AA]);
  (0xa734, [w_LATIN;w_CAPITAL;w_LETTER;w_AO]);
  (0xa735, [w_LATIN;w_SMALL;w_LETTER;w_AO]);
  (0xa736, [w_LATIN;w_CAPITAL;w_LETTER;w_AU]);
  (0xa737, [w_LATIN;w_SMALL;w_LETTER;w_AU]);
  (0xa738, [w_LATIN;w_CAPITAL;w_LETTER;w_AV]);
  (0xa739, [w_LATIN;w_SMALL;w_LETTER;w_AV]);
  (0xa73a, [w_LATIN;w_CAPITAL;w_LETTER;w_AV;w_WITH;w_HORIZONTAL;w_BAR]);
  (0xa73b, [w_LATIN;w_SMALL;w_LETTER;w_AV;w_WITH;w_HORIZONTAL;w_BAR]);
  (0xa73c, [w_LATIN;w_CAPITAL;w_LETTER;w_AY]);
  (0xa73d, [w_LATIN;w_SMALL;w_LETTER;w_AY]);
  (0xa73e, [w_LATIN;w_CAPITAL;w_LETTER;w_REVERSED;w_C;w_WITH;w_DOT]);
  (0xa73f, [w_LATIN;w_SMALL;w_LETTER;w_REVERSED;w_C;w_WITH;w_DOT]);
  (0xa740, [w_LATIN;w_CAPITAL;w_LETTER;w_K;w_WITH;w_STROKE]);
  (0xa741, [w_LATIN;w_SMALL;w_LETTER;w_K;w_WITH;w_STROKE]);
  (0xa742, [w_LATIN;w_CAPITAL;w_LETTER;w_K;w_WITH;w_DIAGONAL;w_STROKE]);
  (0xa743, [w_LATIN;w_SMALL;w_LETTER;w_K;w_WITH;w_DIAGONAL;w_STROKE]);
  (0xa744, [w_LATIN;w_CAPITAL;w_LETTER;w_K;w_WITH;w_STROKE;w_AND;w_DIAGONAL;w_STROKE]);
  (0xa745, [w_LATIN;w_SMALL;w_LETTER;w_K;w_WITH;w_STROKE;w_AND;w_DIAGONAL;w_STROKE]);
  (0xa746, [w_LATIN;w_CAPITAL;w_LETTER;w_BROKEN;w_L]);
  (0xa747, [w_LATIN;w_SMALL;w_LETTER;w_BROKEN;w_L]);
  (0xa748, [w_LATIN;w_CAPITAL;w_LETTER;w_L;w_WITH;w_HIGH;w_STROKE]);
  (0xa749, [w_LATIN;w_SMALL;w_LETTER;w_L;w_WITH;w_HIGH;w_STROKE]);
  (0xa74a, [w_LATIN;w_CAPITAL;w_LETTER;w_O;w_WITH;w_LONG;w_STROKE;w_OVERLAY]);
  (0xa74b, [w_LATIN;w_SMALL;w_LETTER;w_O;w_WITH;w_LONG;w_STROKE;w_OVERLAY]);
  (0xa74c, [w_LATIN;w_CAPITAL;w_LETTER;w_O;w_WITH;w_LOOP]);
  (0xa74d, [w_LATIN;w_SMALL;w_LETTER;w_O;w_WITH;w_LOOP]);
  (0xa74e, [w_LATIN;w_CAPITAL;w_LETTER;w_OO]);
  (0xa74f, [w_LATIN;w_SMALL;w_LETTER;w_OO]);
  (0xa750, [w_LATIN;w_CAPITAL;w_LETTER;w_P;w_WITH;w_STROKE;w_THROUGH;w_DESCENDER]);
  (0xa751, [w_LATIN;w_SMALL;w_LETTER;w_P;w_WITH;w_STROKE;w_THROUGH;w_DESCENDER]);
  (0xa752, [w_LATIN;w_CAPITAL;w_LETTER;w_P;w_WITH;w_FLOURISH]);
  (0xa753, [w_LATIN;w_SMALL;w_LETTER;w_P;w_WITH;w_FLOURISH]);
  (0xa754, [w_LATIN;w_CAPITAL;w_LETTER;w_P;w_WITH;w_SQUIRREL;w_TAIL]);
  (0xa755, [w_LATIN;w_SMALL;w_LETTER;w_P;w_WITH;w_SQUIRREL;w_TAIL]);
  (0xa756, [w_LATIN;w_CAPITAL;w_LETTER;w_Q;w_WITH;w_STROKE;w_THROUGH;w_DESCENDER]);
  (0xa757, [w_LATIN;w_SMALL;w_LETTER;w_Q;w_WITH;w_STROKE;w_THROUGH;w_DESCENDER]);
  (0xa758, [w_LATIN;w_CAPITAL;w_LETTER;w_Q;w_WITH;w_DIAGONAL;w_STROKE]);
  (0xa759, [w_LATIN;w_SMALL;w_LETTER;w_Q;w_WITH;w_DIAGONAL;w_STROKE]);
  (0xa75a, [w_LATIN;w_CAPITAL;w_LETTER;w_R;w_ROTUNDA]);
  (0xa75b, [w_LATIN;w_SMALL;w_LETTER;w_R;w_ROTUNDA]);
  (0xa75c, [w_LATIN;w_CAPITAL;w_LETTER;w_RUM;w_ROTUNDA]);
  (0xa75d, [w_LATIN;w_SMALL;w_LETTER;w_RUM;w_ROTUNDA]);
  (0xa75e, [w_LATIN;w_CAPITAL;w_LETTER;w_V;w_WITH;w_DIAGONAL;w_STROKE]);
  (0xa75f, [w_LATIN;w_SMALL;w_LETTER;w_V;w_WITH;w_DIAGONAL;w_STROKE]);
  (0xa760, [w_LATIN;w_CAPITAL;w_LETTER;w_VY]);
  (0xa761, [w_LATIN;w_SMALL;w_LETTER;w_VY]);
  (0xa762, [w_LATIN;w_CAPITAL;w_LETTER;w_VISIGOTHIC;w_Z]);
  (0xa763, [w_LATIN;w_SMALL;w_LETTER;w_VISIGOTHIC;w_Z]);
  (0xa764, [w_LATIN;w_CAPITAL;w_LETTER;w_THORN;w_WITH;w_STROKE]);
  (0xa765, [w_LATIN;w_SMALL;w_LETTER;w_THORN;w_WITH;w_STROKE]);
  (0xa766, [w_LATIN;w_CAPITAL;w_LETTER;w_THORN;w_WITH;w_STROKE;w_THROUGH;w_DESCENDER]);
  (0xa767, [w_LATIN;w_SMALL;w_LETTER;w_THORN;w_WITH;w_STROKE;w_THROUGH;w_DESCENDER]);
  (0xa768, [w_LATIN;w_CAPITAL;w_LETTER;w_VEND]);
  (0xa769, [w_LATIN;w_SMALL;w_LETTER;w_VEND]);
  (0xa76a, [w_LATIN;w_CAPITAL;w_LETTER;w_ET]);
  (0xa76b, [w_LATIN;w_SMALL;w_LETTER;w_ET]);
  (0xa76c, [w_LATIN;w_CAPITAL;w_LETTER;w_IS]);
  (0xa76d, [w_LATIN;w_SMALL;w_LETTER;w_IS]);
  (0xa76e, [w_LATIN;w_CAPITAL;w_LETTER;w_CON]);
  (0xa76f, [w_LATIN;w_SMALL;w_LETTER;w_CON]);
  (0xa770, [w_MODIFIER;w_LETTER;w_US]);
  (0xa771, [w_LATIN;w_SMALL;w_LETTER;w_DUM]);
  (0xa772, [w_LATIN;w_SMALL;w_LETTER;w_LUM]);
  (0xa773, [w_LATIN;w_SMALL;w_LETTER;w_MUM]);
  (0xa774, [w_LATIN;w_SMALL;w_LETTER;w_NUM]);
  (0xa775, [w_LATIN;w_SMALL;w_LETTER;w_RUM]);
  (0xa776, [w_LATIN;w_LETTER;w_SMALL;w_CAPITAL;w_RUM]);
  (0xa777, [w_LATIN;w_SMALL;w_LETTER;w_TUM]);
  (0xa778, [w_LATIN;w_SMALL;w_LETTER;w_UM]);
  (0xa779, [w_LATIN;w_CAPITAL;w_LETTER;w_INSULAR;w_D]);
  (0xa77a, [w_LATIN;w_SMALL;w_LETTER;w_INSULAR;w_D]);
  (0xa77b, [w_LATIN;w_CAPITAL;w_LETTER;w_INSULAR;w_F]);
  (0xa77c, [w_LATIN;w_SMALL;w_LETTER;w_INSULAR;w_F]);
  (0xa77d, [w_LATIN;w_CAPITAL;w_LETTER;w_INSULAR;w_G]);
  (0xa77e, [w_LATIN;w_CAPITAL;w_LETTER;w_TURNED;w_INSULAR;w_G]);
  (0xa77f, [w_LATIN;w_SMALL;w_LETTER;w_TURNED;w_INSULAR;w_G]);
  (0xa780, [w_LATIN;w_CAPITAL;w_LETTER;w_TURNED;w_L]);
  (0xa781, [w_LATIN;w_SMALL;w_LETTER;w_TURNED;w_L]);
  (0xa782, [w_LATIN;w_CAPITAL;w_LETTER;w_INSULAR;w_R]);
  (0xa783, [w_LATIN;w_SMALL;w_LETTER;w_INSULAR;w_R]);
  (0xa784, [w_LATIN;w_CAPITAL;w_LETTER;w_INSULAR;w_S]);
  (0xa785, [w_LATIN;w_SMALL;w_LETTER;w_INSULAR;w_S]);
  (0xa786, [w_LATIN;w_CAPITAL;w_LETTER;w_INSULAR;w_T]);
  (0xa787, [w_LATIN;w_SMALL;w_LETTER;w_INSULAR;w_T]);
  (0xa788, [w_MODIFIER;w_LETTER;w_LOW;w_CIRCUMFLEX;w_ACCENT]);
  (0xa789, [w_MODIFIER;w_LETTER;w_COLON]);
  (0xa78a, [w_MODIFIER;w_LETTER;w_SHORT;w_EQUALS;w_SIGN]);
  (0xa78b, [w_LATIN;w_CAPITAL;w_LETTER;w_SALTILLO]);
  (0xa78c, [w_LATIN;w_SMALL;w_LETTER;w_SALTILLO]);
  (0xa78d, [w_LATIN;w_CAPITAL;w_LETTER;w_TURNED;w_H]);
  (0xa78e, [w_LATIN;w_SMALL;w_LETTER;w_L;w_WITH;w_RETROFLEX;w_HOOK;w_AND;w_BELT]);
  (0xa78f, [w_LATIN;w_LETTER;w_SINOLOGICAL;w_DOT]);
  (0xa790, [w_LATIN;w_CAPITAL;w_LETTER;w_N;w_WITH;w_DESCENDER]);
  (0xa791, [w_LATIN;w_SMALL;w_LETTER;w_N;w_WITH;w_DESCENDER]);
  (0xa792, [w_LATIN;w_CAPITAL;w_LETTER;w_C;w_WITH;w_BAR]);
  (0xa793, [w_LATIN;w_SMALL;w_LETTER;w_C;w_WITH;w_BAR]);
  (0xa794, [w_LATIN;w_SMALL;w_LETTER;w_C;w_WITH;w_PALATAL;w_HOOK]);
  (0xa795, [w_LATIN;w_SMALL;w_LETTER;w_H;w_WITH;w_PALATAL;w_HOOK]);
  (0xa796, [w_LATIN;w_CAPITAL;w_LETTER;w_B;w_WITH;w_FLOURISH]);
  (0xa797, [w_LATIN;w_SMALL;w_LETTER;w_B;w_WITH;w_FLOURISH]);
  (0xa798, [w_LATIN;w_CAPITAL;w_LETTER;w_F;w_WITH;w_STROKE]);
  (0xa799, [w_LATIN;w_SMALL;w_LETTER;w_F;w_WITH;w_STROKE]);
  (0xa79a, [w_LATIN;w_CAPITAL;w_LETTER;w_VOLAPUK;w_AE]);
  (0xa79b, [w_LATIN;w_SMALL;w_LETTER;w_VOLAPUK;w_AE]);
  (0xa79c, [w_LATIN;w_CAPITAL;w_LETTER;w_VOLAPUK;w_OE]);
  (0xa79d, [w_LATIN;w_SMALL;w_LETTER;w_VOLAPUK;w_OE]);
  (0xa79e, [w_LATIN;w_CAPITAL;w_LETTER;w_VOLAPUK;w_UE]);
  (0xa79f, [w_LATIN;w_SMALL;w_LETTER;w_VOLAPUK;w_UE]);
  (0xa7a0, [w_LATIN;w_CAPITAL;w_LETTER;w_G;w_WITH;w_OBLIQUE;w_STROKE]);
  (0xa7a1, [w_LATIN;w_SMALL;w_LETTER;w_G;w_WITH;w_OBLIQUE;w_STROKE]);
  (0xa7a2, [w_LATIN;w_CAPITAL;w_LETTER;w_K;w_WITH;w_OBLIQUE;w_STROKE]);
  (0xa7a3, [w_LATIN;w_SMALL;w_LETTER;w_K;w_WITH;w_OBLIQUE;w_STROKE]);
  (0xa7a4, [w_LATIN;w_CAPITAL;w_LETTER;w_N;w_WITH;w_OBLIQUE;w_STROKE]);
  (0xa7a5, [w_LATIN;w_SMALL;w_LETTER;w_N;w_WITH;w_OBLIQUE;w_STROKE]);
  (0xa7a6, [w_LATIN;w_CAPITAL;w_LETTER;w_R;w_WITH;w_OBLIQUE;w_STROKE]);
  (0xa7a7, [w_LATIN;w_SMALL;w_LETTER;w_R;w_WITH;w_OBLIQUE;w_STROKE]);
  (0xa7a8, [w_LATIN;w_CAPITAL;w_LETTER;w_S;w_WITH;w_OBLIQUE;w_STROKE]);
  (0xa7a9, [w_LATIN;w_SMALL;w_LETTER;w_S;w_WITH;w_OBLIQUE;w_STROKE]);
  (0xa7aa, [w_LATIN;w_CAPITAL;w_LETTER;w_H;w_WITH;w_HOOK]);
  (0xa7ab, [w_LATIN;w_CAPITAL;w_LETTER;w_REVERSED;w_OPEN;w_E]);
  (0xa7ac, [w_LATIN;w_CAPITAL;w_LETTER;w_SCRIPT;w_G]);
  (0xa7ad, [w_LATIN;w_CAPITAL;w_LETTER;w_L;w_WITH;w_BELT]);
  (0xa7ae, [w_LATIN;w_CAPITAL;w_LETTER;w_SMALL;w_CAPITAL;w_I]);
  (0xa7b0, [w_LATIN;w_CAPITAL;w_LETTER;w_TURNED;w_K]);
  (0xa7b1, [w_LATIN;w_CAPITAL;w_LETTER;w_TURNED;w_T]);
  (0xa7b2, [w_LATIN;w_CAPITAL;w_LETTER;w_J;w_WITH;w_CROSSED_TAIL]);
  (0xa7b3, [w_LATIN;w_CAPITAL;w_LETTER;w_CHI]);
  (0xa7b4, [w_LATIN;w_CAPITAL;w_LETTER;w_BETA]);
  (0xa7b5, [w_LATIN;w_SMALL;w_LETTER;w_BETA]);
  (0xa7b6, [w_LATIN;w_CAPITAL;w_LETTER;w_OMEGA]);
  (0xa7b7, [w_LATIN;w_SMALL;w_LETTER;w_OMEGA]);
  (0xa7f7, [w_LATIN;w_EPIGRAPHIC;w_LETTER;w_SIDEWAYS;w_I]);
  (0xa7f8, [w_MODIFIER;w_LETTER;w_CAPITAL;w_H;w_WITH;w_STROKE]);
  (0xa7f9, [w_MODIFIER;w_LETTER;w_SMALL;w_LIGATURE;w_OE]);
  (0xa7fa, [w_LATIN;w_LETTER;w_SMALL;w_CAPITAL;w_TURNED;w_M]);
  (0xa7fb, [w_LATIN;w_EPIGRAPHIC;w_LETTER;w_REVERSED;w_F]);
  (0xa7fc, [w_LATIN;w_EPIGRAPHIC;w_LETTER;w_REVERSED;w_P]);
  (0xa7fd, [w_LATIN;w_EPIGRAPHIC;w_LETTER;w_INVERTED;w_M]);
  (0xa7fe, [w_LATIN;w_EPIGRAPHIC;w_LETTER;w_I;w_LONGA]);
  (0xa7ff, [w_LATIN;w_EPIGRAPHIC;w_LETTER;w_ARCHAIC;w_M]);
  (0xa800, [w_SYLOTI;w_NAGRI;w_LETTER;w_A]);
  (0xa801, [w_SYLOTI;w_NAGRI;w_LETTER;w_I]);
  (0xa802, [w_SYLOTI;w_NAGRI;w_SIGN;w_DVISVARA]);
  (0xa803, [w_SYLOTI;w_NAGRI;w_LETTER;w_U]);
  (0xa804, [w_SYLOTI;w_NAGRI;w_LETTER;w_E]);
  (0xa805, [w_SYLOTI;w_NAGRI;w_LETTER;w_O]);
  (0xa806, [w_SYLOTI;w_NAGRI;w_SIGN;w_HASANTA]);
  (0xa807, [w_SYLOTI;w_NAGRI;w_LETTER;w_KO]);
  (0xa808, [w_SYLOTI;w_NAGRI;w_LETTER;w_KHO]);
  (0xa809, [w_SYLOTI;w_NAGRI;w_LETTER;w_GO]);
  (0xa80a, [w_SYLOTI;w_NAGRI;w_LETTER;w_GHO]);
  (0xa80b, [w_SYLOTI;w_NAGRI;w_SIGN;w_ANUSVARA]);
  (0xa80c, [w_SYLOTI;w_NAGRI;w_LETTER;w_CO]);
  (0xa80d, [w_SYLOTI;w_NAGRI;w_LETTER;w_CHO]);
  (0xa80e, [w_SYLOTI;w_NAGRI;w_LETTER;w_JO]);
  (0xa80f, [w_SYLOTI;w_NAGRI;w_LETTER;w_JHO]);
  (0xa810, [w_SYLOTI;w_NAGRI;w_LETTER;w_TTO]);
  (0xa811, [w_SYLOTI;w_NAGRI;w_LETTER;w_TTHO]);
  (0xa812, [w_SYLOTI;w_NAGRI;w_LETTER;w_DDO]);
  (0xa813, [w_SYLOTI;w_NAGRI;w_LETTER;w_DDHO]);
  (0xa814, [w_SYLOTI;w_NAGRI;w_LETTER;w_TO]);
  (0xa815, [w_SYLOTI;w_NAGRI;w_LETTER;w_THO]);
  (0xa816, [w_SYLOTI;w_NAGRI;w_LETTER;w_DO]);
  (0xa817, [w_SYLOTI;w_NAGRI;w_LETTER;w_DHO]);
  (0xa818, [w_SYLOTI;w_NAGRI;w_LETTER;w_NO]);
  (0xa819, [w_SYLOTI;w_NAGRI;w_LETTER;w_PO]);
  (0xa81a, [w_SYLOTI;w_NAGRI;w_LETTER;w_PHO]);
  (0xa81b, [w_SYLOTI;w_NAGRI;w_LETTER;w_BO]);
  (0xa81c, [w_SYLOTI;w_NAGRI;w_LETTER;w_BHO]);
  (0xa81d, [w_SYLOTI;w_NAGRI;w_LETTER;w_MO]);
  (0xa81e, [w_SYLOTI;w_NAGRI;w_LETTER;w_RO]);
  (0xa81f, [w_SYLOTI;w_NAGRI;w_LETTER;w_LO]);
  (0xa820, [w_SYLOTI;w_NAGRI;w_LETTER;w_RRO]);
  (0xa821, [w_SYLOTI;w_NAGRI;w_LETTER;w_SO]);
  (0xa822, [w_SYLOTI;w_NAGRI;w_LETTER;w_HO]);
  (0xa823, [w_SYLOTI;w_NAGRI;w_VOWEL;w_SIGN;w_A]);
  (0xa824, [w_SYLOTI;w_NAGRI;w_VOWEL;w_SIGN;w_I]);
  (0xa825, [w_SYLOTI;w_NAGRI;w_VOWEL;w_SIGN;w_U]);
  (0xa826, [w_SYLOTI;w_NAGRI;w_VOWEL;w_SIGN;w_E]);
  (0xa827, [w_SYLOTI;w_NAGRI;w_VOWEL;w_SIGN;w_OO]);
  (0xa828, [w_SYLOTI;w_NAGRI;w_POETRY;w_MARK_1]);
  (0xa829, [w_SYLOTI;w_NAGRI;w_POETRY;w_MARK_2]);
  (0xa82a, [w_SYLOTI;w_NAGRI;w_POETRY;w_MARK_3]);
  (0xa82b, [w_SYLOTI;w_NAGRI;w_POETRY;w_MARK_4]);
  (0xa830, [w_NORTH;w_INDIC;w_FRACTION;w_ONE;w_QUARTER]);
  (0xa831, [w_NORTH;w_INDIC;w_FRACTION;w_ONE;w_HALF]);
  (0xa832, [w_NORTH;w_INDIC;w_FRACTION;w_THREE;w_QUARTERS]);
  (0xa833, [w_NORTH;w_INDIC;w_FRACTION;w_ONE;w_SIXTEENTH]);
  (0xa834, [w_NORTH;w_INDIC;w_FRACTION;w_ONE;w_EIGHTH]);
  (0xa835, [w_NORTH;w_INDIC;w_FRACTION;w_THREE;w_SIXTEENTHS]);
  (0xa836, [w_NORTH;w_INDIC;w_QUARTER;w_MARK]);
  (0xa837, [w_NORTH;w_INDIC;w_PLACEHOLDER;w_MARK]);
  (0xa838, [w_NORTH;w_INDIC;w_RUPEE;w_MARK]);
  (0xa839, [w_NORTH;w_INDIC;w_QUANTITY;w_MARK]);
  (0xa840, [w_PHAGS_PA;w_LETTER;w_KA]);
  (0xa841, [w_PHAGS_PA;w_LETTER;w_KHA]);
  (0xa842, [w_PHAGS_PA;w_LETTER;w_GA]);
  (0xa843, [w_PHAGS_PA;w_LETTER;w_NGA]);
  (0xa844, [w_PHAGS_PA;w_LETTER;w_CA]);
  (0xa845, [w_PHAGS_PA;w_LETTER;w_CHA]);
  (0xa846, [w_PHAGS_PA;w_LETTER;w_JA]);
  (0xa847, [w_PHAGS_PA;w_LETTER;w_NYA]);
  (0xa848, [w_PHAGS_PA;w_LETTER;w_TA]);
  (0xa849, [w_PHAGS_PA;w_LETTER;w_THA]);
  (0xa84a, [w_PHAGS_PA;w_LETTER;w_DA]);
  (0xa84b, [w_PHAGS_PA;w_LETTER;w_NA]);
  (0xa84c, [w_PHAGS_PA;w_LETTER;w_PA]);
  (0xa84d, [w_PHAGS_PA;w_LETTER;w_PHA]);
  (0xa84e, [w_PHAGS_PA;w_LETTER;w_BA]);
  (0xa84f, [w_PHAGS_PA;w_LETTER;w_MA])].

Definition NAMES_35 : list (N * (list str)) := [
  (0xa850, [w_PHAGS_PA;w_LETTER;w_TSA]);
  (0xa851, [w_PHAGS_PA;w_LETTER;w_TSHA]);
  (0xa852, [w_PHAGS_PA;w_LETTER;w_DZA]);
  (0xa853, [w_PHAGS_PA;w_LETTER;w_WA]);
  (0xa854, [w_PHAGS_PA;w_LETTER;w_ZHA]);
  (0xa855, [w_PHAGS_PA;w_LETTER;w_ZA]);
  (0xa856, [w_PHAGS_PA;w_LETTER;w_SMALL;w_A]);
  (0xa857, [w_PHAGS_PA;w_LETTER;w_YA]);
  (0xa858, [w_PHAGS_PA;w_LETTER;w_RA]);
  (0xa859, [w_PHAGS_PA;w_LETTER;w_LA]);
  (0xa85a, [w_PHAGS_PA;w_LETTER;w_SHA]);
  (0xa85b, [w_PHAGS_PA;w_LETTER;w_SA]);
  (0xa85c, [w_PHAGS_PA;w_LETTER;w_HA]);
  (0xa85d, [w_PHAGS_PA;w_LETTER;w_A]);
  (0xa85e, [w_PHAGS_PA;w_LETTER;w_I]);
  (0xa85f, [w_PHAGS_PA;w_LETTER;w_U]);
  (0xa860, [w_PHAGS_PA;w_LETTER;w_E]);
  (0xa861, [w_PHAGS_PA;w_LETTER;w_O]);
  (0xa862, [w_PHAGS_PA;w_LETTER;w_QA]);
  (0xa863, [w_PHAGS_PA;w_LETTER;w_XA]);
  (0xa864, [w_PHAGS_PA;w_LETTER;w_FA]);
  (0xa865, [w_PHAGS_PA;w_LETTER;w_GGA]);
  (0xa866, [w_PHAGS_PA;w_LETTER;w_EE]);
  (0xa867, [w_PHAGS_PA;w_SUBJOINED;w_LETTER;w_WA]);
  (0xa868, [w_PHAGS_PA;w_SUBJOINED;w_LETTER;w_YA]);
  (0xa869, [w_PHAGS_PA;w_LETTER;w_TTA]);
  (0xa86a, [w_PHAGS_PA;w_LETTER;w_TTHA]);
  (0xa86b, [w_PHAGS_PA;w_LETTER;w_DDA]);
  (0xa86c, [w_PHAGS_PA;w_LETTER;w_NNA]);
  (0xa86d, [w_PHAGS_PA;w_LETTER;w_ALTERNATE;w_YA]);
  (0xa86e, [w_PHAGS_PA;w_LETTER;w_VOICELESS;w_SHA]);
  (0xa86f, [w_PHAGS_PA;w_LETTER;w_VOICED;w_HA]);
  (0xa870, [w_PHAGS_PA;w_LETTER;w_ASPIRATED;w_FA]);
  (0xa871, [w_PHAGS_PA;w_SUBJOINED;w_LETTER;w_RA]);
  (0xa872, [w_PHAGS_PA;w_SUPERFIXED;w_LETTER;w_RA]);
  (0xa873, [w_PHAGS_PA;w_LETTER;w_CANDRABINDU]);
  (0xa874, [w_PHAGS_PA;w_SINGLE;w_HEAD;w_MARK]);
  (0xa875, [w_PHAGS_PA;w_DOUBLE;w_HEAD;w_MARK]);
  (0xa876, [w_PHAGS_PA;w_MARK;w_SHAD]);
  (0xa877, [w_PHAGS_PA;w_MARK;w_DOUBLE;w_SHAD]);
  (0xa880, [w_SAURASHTRA;w_SIGN;w_ANUSVARA]);
  (0xa881, [w_SAURASHTRA;w_SIGN;w_VISARGA]);
  (0xa882, [w_SAURASHTRA;w_LETTER;w_A]);
  (0xa883, [w_SAURASHTRA;w_LETTER;w_AA]);
  (0xa884, [w_SAURASHTRA;w_LETTER;w_I]);
  (0xa885, [w_SAURASHTRA;w_LETTER;w_II]);
  (0xa886, [w_SAURASHTRA;w_LETTER;w_U]);
  (0xa887, [w_SAURASHTRA;w_LETTER;w_UU]);
  (0xa888, [w_SAURASHTRA;w_LETTER;w_VOCALIC;w_R]);
  (0xa889, [w_SAURASHTRA;w_LETTER;w_VOCALIC;w_RR]);
  (0xa88a, [w_SAURASHTRA;w_LETTER;w_VOCALIC;w_L]);
  (0xa88b, [w_SAURASHTRA;w_LETTER;w_VOCALIC;w_LL]);
  (0xa88c, [w_SAURASHTRA;w_LETTER;w_E]);
  (0xa88d, [w_SAURASHTRA;w_LETTER;w_EE]);
  (0xa88e, [w_SAURASHTRA;w_LETTER;w_AI]);
  (0xa88f, [w_SAURASHTRA;w_LETTER;w_O]);
  (0xa890, [w_SAURASHTRA;w_LETTER;w_OO]);
  (0xa891, [w_SAURASHTRA;w_LETTER;w_AU]);
  (0xa892, [w_SAURASHTRA;w_LETTER;w_KA]);
  (0xa893, [w_SAURASHTRA;w_LETTER;w_KHA]);
  (0xa894, [w_SAURASHTRA;w_LETTER;w_GA]);
  (0xa895, [w_SAURASHTRA;w_LETTER;w_GHA]);
  (0xa896, [w_SAURASHTRA;w_LETTER;w_NGA]);
  (0xa897, [w_SAURASHTRA;w_LETTER;w_CA]);
  (0xa898, [w_SAURASHTRA;w_LETTER;w_CHA]);
  (0xa899, [w_SAURASHTRA;w_LETTER;w_JA]);
  (0xa89a, [w_SAURASHTRA;w_LETTER;w_JHA]);
  (0xa89b, [w_SAURASHTRA;w_LETTER;w_NYA]);
  (0xa89c, [w_SAURASHTRA;w_LETTER;w_TTA]);
  (0xa89d, [w_SAURASHTRA;w_LETTER;w_TTHA]);
  (0xa89e, [w_SAURASHTRA;w_LETTER;w_DDA]);
  (0xa89f, [w_SAURASHTRA;w_LETTER;w_DDHA]);
  (0xa8a0, [w_SAURASHTRA;w_LETTER;w_NNA]);
  (0xa8a1, [w_SAURASHTRA;w_LETTER;w_TA]);
  (0xa8a2, [w_SAURASHTRA;w_LETTER;w_THA]);
  (0xa8a3, [w_SAURASHTRA;w_LETTER;w_DA]);
  (0xa8a4, [w_SAURASHTRA;w_LETTER;w_DHA]);
  (0xa8a5, [w_SAURASHTRA;w_LETTER;w_NA]);
  (0xa8a6, [w_SAURASHTRA;w_LETTER;w_PA]);
  (0xa8a7, [w_SAURASHTRA;w_LETTER;w_PHA]);
  (0xa8a8, [w_SAURASHTRA;w_LETTER;w_BA]);
  (0xa8a9, [w_SAURASHTRA;w_LETTER;w_BHA]);
  (0xa8aa, [w_SAURASHTRA;w_LETTER;w_MA]);
  (0xa8ab, [w_SAURASHTRA;w_LETTER;w_YA]);
  (0xa8ac, [w_SAURASHTRA;w_LETTER;w_RA]);
  (0xa8ad, [w_SAURASHTRA;w_LETTER;w_LA]);
  (0xa8ae, [w_SAURASHTRA;w_LETTER;w_VA]);
  (0xa8af, [w_SAURASHTRA;w_LETTER;w_SHA]);
  (0xa8b0, [w_SAURASHTRA;w_LETTER;w_SSA]);
  (0xa8b1, [w_SAURASHTRA;w_LETTER;w_SA]);
  (0xa8b2, [w_SAURASHTRA;w_LETTER;w_HA]);
  (0xa8b3, [w_SAURASHTRA;w_LETTER;w_LLA]);
  (0xa8b4, [w_SAURASHTRA;w_CONSONANT;w_SIGN;w_HAARU]);
  (0xa8b5, [w_SAURASHTRA;w_VOWEL;w_SIGN;w_AA]);
  (0xa8b6, [w_SAURASHTRA;w_VOWEL;w_SIGN;w_I]);
  (0xa8b7, [w_SAURASHTRA;w_VOWEL;w_SIGN;w_II]);
  (0xa8b8, [w_SAURASHTRA;w_VOWEL;w_SIGN;w_U]);
  (0xa8b9, [w_SAURASHTRA;w_VOWEL;w_SIGN;w_UU]);
  (0xa8ba, [w_SAURASHTRA;w_VOWEL;w_SIGN;w_VOCALIC;w_R]);
  (0xa8bb, [w_SAURASHTRA;w_VOWEL;w_SIGN;w_VOCALIC;w_RR]);
  (0xa8bc, [w_SAURASHTRA;w_VOWEL;w_SIGN;w_VOCALIC;w_L]);
  (0xa8bd, [w_SAURASHTRA;w_VOWEL;w_SIGN;w_VOCALIC;w_LL]);
  (0xa8be, [w_SAURASHTRA;w_VOWEL;w_SIGN;w_E]);
  (0xa8bf, [w_SAURASHTRA;w_VOWEL;w_SIGN;w_EE]);
  (0xa8c0, [w_SAURASHTRA;w_VOWEL;w_SIGN;w_AI]);
  (0xa8c1, [w_SAURASHTRA;w_VOWEL;w_SIGN;w_O]);
  (0xa8c2, [w_SAURASHTRA;w_VOWEL;w_SIGN;w_OO]);
  (0xa8c3, [w_SAURASHTRA;w_VOWEL;w_SIGN;w_AU]);
  (0xa8c4, [w_SAURASHTRA;w_SIGN;w_VIRAMA]);
  (0xa8c5, [w_SAURASHTRA;w_SIGN;w_CANDRABINDU]);
  (0xa8ce, [w_SAURASHTRA;w_DANDA]);
  (0xa8cf, [w_SAURASHTRA;w_DOUBLE;w_DANDA]);
  (0xa8d0, [w_SAURASHTRA;w_DIGIT;w_ZERO]);
  (0xa8d1, [w_SAURASHTRA;w_DIGIT;w_ONE]);
  (0xa8d2, [w_SAURASHTRA;w_DIGIT;w_TWO]);
  (0xa8d3, [w_SAURASHTRA;w_DIGIT;w_THREE]);
  (0xa8d4, [w_SAURASHTRA;w_DIGIT;w_FOUR]);
  (0xa8d5, [w_SAURASHTRA;w_DIGIT;w_FIVE]);
  (0xa8d6, [w_SAURASHTRA;w_DIGIT;w_SIX]);
  (0xa8d7, [w_SAURASHTRA;w_DIGIT;w_SEVEN]);
  (0xa8d8, [w_SAURASHTRA;w_DIGIT;w_EIGHT]);
  (0xa8d9, [w_SAURASHTRA;w_DIGIT;w_NINE]);
  (0xa8e0, [w_COMBINING;w_DEVANAGARI;w_DIGIT;w_ZERO]);
  (0xa8e1, [w_COMBINING;w_DEVANAGARI;w_DIGIT;w_ONE]);
  (0xa8e2, [w_COMBINING;w_DEVANAGARI;w_DIGIT;w_TWO]);
  (0xa8e3, [w_COMBINING;w_DEVANAGARI;w_DIGIT;w_THREE]);
  (0xa8e4, [w_COMBINING;w_DEVANAGARI;w_DIGIT;w_FOUR]);
  (0xa8e5, [w_COMBINING;w_DEVANAGARI;w_DIGIT;w_FIVE]);
  (0xa8e6, [w_COMBINING;w_DEVANAGARI;w_DIGIT;w_SIX]);
  (0xa8e7, [w_COMBINING;w_DEVANAGARI;w_DIGIT;w_SEVEN]);
  (0xa8e8, [w_COMBINING;w_DEVANAGARI;w_DIGIT;w_EIGHT]);
  (0xa8e9, [w_COMBINING;w_DEVANAGARI;w_DIGIT;w_NINE]);
  (0xa8ea, [w_COMBINING;w_DEVANAGARI;w_LETTER;w_A]);
  (0xa8eb, [w_COMBINING;w_DEVANAGARI;w_LETTER;w_U]);
  (0xa8ec, [w_COMBINING;w_DEVANAGARI;w_LETTER;w_KA]);
  (0xa8ed, [w_COMBINING;w_DEVANAGARI;w_LETTER;w_NA]);
  (0xa8ee, [w_COMBINING;w_DEVANAGARI;w_LETTER;w_PA]);
  (0xa8ef, [w_COMBINING;w_DEVANAGARI;w_LETTER;w_RA]);
  (0xa8f0, [w_COMBINING;w_DEVANAGARI;w_LETTER;w_VI]);
  (0xa8f1, [w_COMBINING;w_DEVANAGARI;w_SIGN;w_AVAGRAHA]);
  (0xa8f2, [w_DEVANAGARI;w_SIGN;w_SPACING;w_CANDRABINDU]);
  (0xa8f3, [w_DEVANAGARI;w_SIGN;w_CANDRABINDU;w_VIRAMA]);
  (0xa8f4, [w_DEVANAGARI;w_SIGN;w_DOUBLE;w_CANDRABINDU;w_VIRAMA]);
  (0xa8f5, [w_DEVANAGARI;w_SIGN;w_CANDRABINDU;w_TWO]);
  (0xa8f6, [w_DEVANAGARI;w_SIGN;w_CANDRABINDU;w_THREE]);
  (0xa8f7, [w_DEVANAGARI;w_SIGN;w_CANDRABINDU;w_AVAGRAHA]);
  (0xa8f8, [w_DEVANAGARI;w_SIGN;w_PUSHPIKA]);
  (0xa8f9, [w_DEVANAGARI;w_GAP;w_FILLER]);
  (0xa8fa, [w_DEVANAGARI;w_CARET]);
  (0xa8fb, [w_DEVANAGARI;w_HEADSTROKE]);
  (0xa8fc, [w_DEVANAGARI;w_SIGN;w_SIDDHAM]);
  (0xa8fd, [w_DEVANAGARI;w_JAIN;w_OM]);
  (0xa900, [w_KAYAH;w_LI;w_DIGIT;w_ZERO]);
  (0xa901, [w_KAYAH;w_LI;w_DIGIT;w_ONE]);
  (0xa902, [w_KAYAH;w_LI;w_DIGIT;w_TWO]);
  (0xa903, [w_KAYAH;w_LI;w_DIGIT;w_THREE]);
  (0xa904, [w_KAYAH;w_LI;w_DIGIT;w_FOUR]);
  (0xa905, [w_KAYAH;w_LI;w_DIGIT;w_FIVE]);
  (0xa906, [w_KAYAH;w_LI;w_DIGIT;w_SIX]);
  (0xa907, [w_KAYAH;w_LI;w_DIGIT;w_SEVEN]);
  (0xa908, [w_KAYAH;w_LI;w_DIGIT;w_EIGHT]);
  (0xa909, [w_KAYAH;w_LI;w_DIGIT;w_NINE]);
  (0xa90a, [w_KAYAH;w_LI;w_LETTER;w_KA]);
  (0xa90b, [w_KAYAH;w_LI;w_LETTER;w_KHA]);
  (0xa90c, [w_KAYAH;w_LI;w_LETTER;w_GA]);
  (0xa90d, [w_KAYAH;w_LI;w_LETTER;w_NGA]);
  (0xa90e, [w_KAYAH;w_LI;w_LETTER;w_SA]);
  (0xa90f, [w_KAYAH;w_LI;w_LETTER;w_SHA]);
  (0xa910, [w_KAYAH;w_LI;w_LETTER;w_ZA]);
  (0xa911, [w_KAYAH;w_LI;w_LETTER;w_NYA]);
  (0xa912, [w_KAYAH;w_LI;w_LETTER;w_TA]);
  (0xa913, [w_KAYAH;w_LI;w_LETTER;w_HTA]);
  (0xa914, [w_KAYAH;w_LI;w_LETTER;w_NA]);
  (0xa915, [w_KAYAH;w_LI;w_LETTER;w_PA]);
  (0xa916, [w_KAYAH;w_LI;w_LETTER;w_PHA]);
  (0xa917, [w_KAYAH;w_LI;w_LETTER;w_MA]);
  (0xa918, [w_KAYAH;w_LI;w_LETTER;w_DA]);
  (0xa919, [w_KAYAH;w_LI;w_LETTER;w_BA]);
  (0xa91a, [w_KAYAH;w_LI;w_LETTER;w_RA]);
  (0xa91b, [w_KAYAH;w_LI;w_LETTER;w_YA]);
  (0xa91c, [w_KAYAH;w_LI;w_LETTER;w_LA]);
  (0xa91d, [w_KAYAH;w_LI;w_LETTER;w_WA]);
  (0xa91e, [w_KAYAH;w_LI;w_LETTER;w_THA]);
  (0xa91f, [w_KAYAH;w_LI;w_LETTER;w_HA]);
  (0xa920, [w_KAYAH;w_LI;w_LETTER;w_VA]);
  (0xa921, [w_KAYAH;w_LI;w_LETTER;w_CA]);
  (0xa922, [w_KAYAH;w_LI;w_LETTER;w_A]);
  (0xa923, [w_KAYAH;w_LI;w_LETTER;w_OE]);
  (0xa924, [w_KAYAH;w_LI;w_LETTER;w_I]);
  (0xa925, [w_KAYAH;w_LI;w_LETTER;w_OO]);
  (0xa926, [w_KAYAH;w_LI;w_VOWEL;w_UE]);
  (0xa927, [w_KAYAH;w_LI;w_VOWEL;w_E]);
  (0xa928, [w_KAYAH;w_LI;w_VOWEL;w_U]);
  (0xa929, [w_KAYAH;w_LI;w_VOWEL;w_EE]);
  (0xa92a, [w_KAYAH;w_LI;w_VOWEL;w_O]);
  (0xa92b, [w_KAYAH;w_LI;w_TONE;w_PLOPHU]);
  (0xa92c, [w_KAYAH;w_LI;w_TONE;w_CALYA]);
  (0xa92d, [w_KAYAH;w_LI;w_TONE;w_CALYA;w_PLOPHU]);
  (0xa92e, [w_KAYAH;w_LI;w_SIGN;w_CWI]);
  (0xa92f, [w_KAYAH;w_LI;w_SIGN;w_SHYA]);
  (0xa930, [w_REJANG;w_LETTER;w_KA]);
  (0xa931, [w_REJANG;w_LETTER;w_GA]);
  (0xa932, [w_REJANG;w_LETTER;w_NGA]);
  (0xa933, [w_REJANG;w_LETTER;w_TA]);
  (0xa934, [w_REJANG;w_LETTER;w_DA]);
  (0xa935, [w_REJANG;w_LETTER;w_NA]);
  (0xa936, [w_REJANG;w_LETTER;w_PA]);
  (0xa937, [w_REJANG;w_LETTER;w_BA]);
  (0xa938, [w_REJANG;w_LETTER;w_MA]);
  (0xa939, [w_REJANG;w_LETTER;w_CA]);
  (0xa93a, [w_REJANG;w_LETTER;w_JA]);
  (0xa93b, [w_REJANG;w_LETTER;w_NYA]);
  (0xa93c, [w_REJANG;w_LETTER;w_SA]);
  (0xa93d, [w_REJANG;w_LETTER;w_RA]);
  (0xa93e, [w_REJANG;w_LETTER;w_LA]);
  (0xa93f, [w_REJANG;w_LETTER;w_YA]);
  (0xa940, [w_REJANG;w_LETTER;w_WA]);
  (0xa941, [w_REJANG;w_LETTER;w_HA]);
  (0xa942, [w_REJANG;w_LETTER;w_MBA]);
  (0xa943, [w_REJANG;w_LETTER;w_NGGA]);
  (0xa944, [w_REJANG;w_LETTER;w_NDA]);
  (0xa945, [w_REJANG;w_LETTER;w_NYJA]);
  (0xa946, [w_REJANG;w_LETTER;w_A]);
  (0xa947, [w_REJANG;w_VOWEL;w_SIGN;w_I]);
  (0xa948, [w_REJANG;w_VOWEL;w_SIGN;w_U]);
  (0xa949, [w_REJANG;w_VOWEL;w_SIGN;w_E]);
  (0xa94a, [w_REJANG;w_VOWEL;w_SIGN;w_AI]);
  (0xa94b, [w_REJANG;w_VOWEL;w_SIGN;w_O]);
  (0xa94c, [w_REJANG;w_VOWEL;w_SIGN;w_AU]);
  (0xa94d, [w_REJANG;w_VOWEL;w_SIGN;w_EU]);
  (0xa94e, [w_REJANG;w_VOWEL;w_SIGN;w_EA]);
  (0xa94f, [w_REJANG;w_CONSONANT;w_SIGN;w_NG]);
  (0xa950, [w_REJANG;w_CONSONANT;w_SIGN;w_N]);
  (0xa951, [w_REJANG;w_CONSONANT;w_SIGN;w_R]);
  (0xa952, [w_REJANG;w_CONSONANT;w_SIGN;w_H]);
  (0xa953, [w_REJANG;w_VIRAMA]);
  (0xa95f, [w_REJANG;w_SECTION;w_MARK]);
  (0xa960, [w_HANGUL;w_CHOSEONG;w_TIKEUT_MIEUM]);
  (0xa961, [w_HANGUL;w_CHOSEONG;w_TIKEUT_PIEUP]);
  (0xa962, [w_HANGUL;w_CHOSEONG;w_TIKEUT_SIOS]);
  (0xa963, [w_HANGUL;w_CHOSEONG;w_TIKEUT_CIEUC]);
  (0xa964, [w_HANGUL;w_CHOSEONG;w_RIEUL_KIYEOK]);
  (0xa965, [w_HANGUL;w_CHOSEONG;w_RIEUL_SSANGKIYEOK]);
  (0xa966, [w_HANGUL;w_CHOSEONG;w_RIEUL_TIKEUT]);
  (0xa967, [w_HANGUL;w_CHOSEONG;w_RIEUL_SSANGTIKEUT]);
  (0xa968, [w_HANGUL;w_CHOSEONG;w_RIEUL_MIEUM]);
  (0xa969, [w_HANGUL;w_CHOSEONG;w_RIEUL_PIEUP]);
  (0xa96a, [w_HANGUL;w_CHOSEONG;w_RIEUL_SSANGPIEUP]);
  (0xa96b, [w_HANGUL;w_CHOSEONG;w_RIEUL_KAPYEOUNPIEUP]);
  (0xa96c, [w_HANGUL;w_CHOSEONG;w_RIEUL_SIOS]);
  (0xa96d, [w_HANGUL;w_CHOSEONG;w_RIEUL_CIEUC]);
  (0xa96e, [w_HANGUL;w_CHOSEONG;w_RIEUL_KHIEUKH]);
  (0xa96f, [w_HANGUL;w_CHOSEONG;w_MIEUM_KIYEOK]);
  (0xa970, [w_HANGUL;w_CHOSEONG;w_MIEUM_TIKEUT]);
  (0xa971, [w_HANGUL;w_CHOSEONG;w_MIEUM_SIOS]);
  (0xa972, [w_HANGUL;w_CHOSEONG;w_PIEUP_SIOS_THIEUTH]);
  (0xa973, [w_HANGUL;w_CHOSEONG;w_PIEUP_KHIEUKH]);
  (0xa974, [w_HANGUL;w_CHOSEONG;w_PIEUP_HIEUH]);
  (0xa975, [w_HANGUL;w_CHOSEONG;w_SSANGSIOS_PIEUP]);
  (0xa976, [w_HANGUL;w_CHOSEONG;w_IEUNG_RIEUL]);
  (0xa977, [w_HANGUL;w_CHOSEONG;w_IEUNG_HIEUH]);
  (0xa978, [w_HANGUL;w_CHOSEONG;w_SSANGCIEUC_HIEUH]);
  (0xa979, [w_HANGUL;w_CHOSEONG;w_SSANGTHIEUTH]);
  (0xa97a, [w_HANGUL;w_CHOSEONG;w_PHIEUPH_HIEUH]);
  (0xa97b, [w_HANGUL;w_CHOSEONG;w_HIEUH_SIOS]);
  (0xa97c, [w_HANGUL;w_CHOSEONG;w_SSANGYEORINHIEUH]);
  (0xa980, [w_JAVANESE;w_SIGN;w_PANYANGGA]);
  (0xa981, [w_JAVANESE;w_SIGN;w_CECAK]);
  (0xa982, [w_JAVANESE;w_SIGN;w_LAYAR]);
  (0xa983, [w_JAVANESE;w_SIGN;w_WIGNYAN]);
  (0xa984, [w_JAVANESE;w_LETTER;w_A]);
  (0xa985, [w_JAVANESE;w_LETTER;w_I;w_KAWI]);
  (0xa986, [w_JAVANESE;w_LETTER;w_I]);
  (0xa987, [w_JAVANESE;w_LETTER;w_II]);
  (0xa988, [w_JAVANESE;w_LETTER;w_U]);
  (0xa989, [w_JAVANESE;w_LETTER;w_PA;w_CEREK]);
  (0xa98a, [w_JAVANESE;w_LETTER;w_NGA;w_LELET]);
  (0xa98b, [w_JAVANESE;w_LETTER;w_NGA;w_LELET;w_RASWADI]);
  (0xa98c, [w_JAVANESE;w_LETTER;w_E]);
  (0xa98d, [w_JAVANESE;w_LETTER;w_AI]);
  (0xa98e, [w_JAVANESE;w_LETTER;w_O]);
  (0xa98f, [w_JAVANESE;w_LETTER;w_KA]);
  (0xa990, [w_JAVANESE;w_LETTER;w_KA;w_SASAK]);
  (0xa991, [w_JAVANESE;w_LETTER;w_KA;w_MURDA]);
  (0xa992, [w_JAVANESE;w_LETTER;w_GA]);
  (0xa993, [w_JAVANESE;w_LETTER;w_GA;w_MURDA]);
  (0xa994, [w_JAVANESE;w_LETTER;w_NGA]);
  (0xa995, [w_JAVANESE;w_LETTER;w_CA]);
  (0xa996, [w_JAVANESE;w_LETTER;w_CA;w_MURDA]);
  (0xa997, [w_JAVANESE;w_LETTER;w_JA]);
  (0xa998, [w_JAVANESE;w_LETTER;w_NYA;w_MURDA]);
  (0xa999, [w_JAVANESE;w_LETTER;w_JA;w_MAHAPRANA]);
  (0xa99a, [w_JAVANESE;w_LETTER;w_NYA]);
  (0xa99b, [w_JAVANESE;w_LETTER;w_TTA]);
  (0xa99c, [w_JAVANESE;w_LETTER;w_TTA;w_MAHAPRANA]);
  (0xa99d, [w_JAVANESE;w_LETTER;w_DDA]);
  (0xa99e, [w_JAVANESE;w_LETTER;w_DDA;w_MAHAPRANA]);
  (0xa99f, [w_JAVANESE;w_LETTER;w_NA;w_MURDA]);
  (0xa9a0, [w_JAVANESE;w_LETTER;w_TA]);
  (0xa9a1, [w_JAVANESE;w_LETTER;w_TA;w_MURDA]);
  (0xa9a2, [w_JAVANESE;w_LETTER;w_DA]);
  (0xa9a3, [w_JAVANESE;w_LETTER;w_DA;w_MAHAPRANA]);
  (0xa9a4, [w_JAVANESE;w_LETTER;w_NA]);
  (0xa9a5, [w_JAVANESE;w_LETTER;w_PA]);
  (0xa9a6, [w_JAVANESE;w_LETTER;w_PA;w_MURDA]);
  (0xa9a7, [w_JAVANESE;w_LETTER;w_BA]);
  (0xa9a8, [w_JAVANESE;w_LETTER;w_BA;w_MURDA]);
  (0xa9a9, [w_JAVANESE;w_LETTER;w_MA]);
  (0xa9aa, [w_JAVANESE;w_LETTER;w_YA]);
  (0xa9ab, [w_JAVANESE;w_LETTER;w_RA]);
  (0xa9ac, [w_JAVANESE;w_LETTER;w_RA;w_AGUNG]);
  (0xa9ad, [w_JAVANESE;w_LETTER;w_LA]);
  (0xa9ae, [w_JAVANESE;w_LETTER;w_WA]);
  (0xa9af, [w_JAVANESE;w_LETTER;w_SA;w_MURDA]);
  (0xa9b0, [w_JAVANESE;w_LETTER;w_SA;w_MAHAPRANA]);
  (0xa9b1, [w_JAVANESE;w_LETTER;w_SA]);
  (0xa9b2, [w_JAVANESE;w_LETTER;w_HA]);
  (0xa9b3, [w_JAVANESE;w_SIGN;w_CECAK;w_TELU]);
  (0xa9b4, [w_JAVANESE;w_VOWEL;w_SIGN;w_TARUNG]);
  (0xa9b5, [w_JAVANESE;w_VOWEL;w_SIGN;w_TOLONG]);
  (0xa9b6, [w_JAVANESE;w_VOWEL;w_SIGN;w_WULU]);
  (0xa9b7, [w_JAVANESE;w_VOWEL;w_SIGN;w_WULU;w_MELIK]);
  (0xa9b8, [w_JAVANESE;w_VOWEL;w_SIGN;w_SUKU]);
  (0xa9b9, [w_JAVANESE;w_VOWEL;w_SIGN;w_SUKU;w_MENDUT]);
  (0xa9ba, [w_JAVANESE;w_VOWEL;w_SIGN;w_TALING]);
  (0xa9bb, [w_JAVANESE;w_VOWEL;w_SIGN;w_DIRGA;w_MURE]);
  (0xa9bc, [w_JAVANESE;w_VOWEL;w_SIGN;w_PEPET]);
  (0xa9bd, [w_JAVANESE;w_CONSONANT;w_SIGN;w_KERET]);
  (0xa9be, [w_JAVANESE;w_CONSONANT;w_SIGN;w_PENGKAL]);
  (0xa9bf, [w_JAVANESE;w_CONSONANT;w_SIGN;w_CAKRA]);
  (0xa9c0, [w_JAVANESE;w_PANGKON]);
  (0xa9c1, [w_JAVANESE;w_LEFT;w_RERENGGAN]);
  (0xa9c2, [w_JAVANESE;w_RIGHT;w_RERENGGAN]);
  (0xa9c3, [w_JAVANESE;w_PADA;w_ANDAP]);
  (0xa9c4, [w_JAVANESE;w_PADA;w_MADYA]);
  (0xa9c5, [w_JAVANESE;w_PADA;w_LUHUR]);
  (0xa9c6, [w_JAVANESE;w_PADA;w_WINDU]);
  (0xa9c7, [w_JAVANESE;w_PADA;w_PANGKAT]);
  (0xa9c8, [w_JAVANESE;w_PADA;w_LINGSA]);
  (0xa9c9, [w_JAVANESE;w_PADA;w_LUNGSI]);
  (0xa9ca, [w_JAVANESE;w_PADA;w_ADEG]);
  (0xa9cb, [w_JAVANESE;w_PADA;w_ADEG;w_ADEG]);
  (0xa9cc, [w_JAVANESE;w_PADA;w_PISELEH]);
  (0xa9cd, [w_JAVANESE;w_TURNED;w_PADA;w_PISELEH]);
  (0xa9cf, [w_JAVANESE;w_PANGRANGKEP]);
  (0xa9d0, [w_JAVANESE;w_DIGIT;w_ZERO]);
  (0xa9d1, [w_JAVANESE;w_DIGIT;w_ONE]);
  (0xa9d2, [w_JAVANESE;w_DIGIT;w_TWO]);
  (0xa9d3, [w_JAVANESE;w_DIGIT;w_THREE]);
  (0xa9d4, [w_JAVANESE;w_DIGIT;w_FOUR]);
  (0xa9d5, [w_JAVANESE;w_DIGIT;w_FIVE]);
  (0xa9d6, [w_JAVANESE;w_DIGIT;w_SIX]);
  (0xa9d7, [w_JAVANESE;w_DIGIT;w_SEVEN]);
  (0xa9d8, [w_JAVANESE;w_DIGIT;w_EIGHT]);
  (0xa9d9, [w_JAVANESE;w_DIGIT;w_NINE]);
  (0xa9de, [w_JAVANESE;w_PADA;w_TIRTA;w_TUMETES]);
  (0xa9df, [w_JAVANESE;w_PADA;w_ISEN_ISEN]);
  (0xa9e0, [w_MYANMAR;w_LETTER;w_SHAN;w_GHA]);
  (0xa9e1, [w_MYANMAR;w_LETTER;w_SHAN;w_CHA]);
  (0xa9e2, [w_MYANMAR;w_LETTER;w_SHAN;w_JHA]);
  (0xa9e3, [w_MYANMAR;w_LETTER;w_SHAN;w_NNA]);
  (0xa9e4, [w_MYANMAR;w_LETTER;w_SHAN;w_BHA]);
  (0xa9e5, [w_MYANMAR;w_SIGN;w_SHAN;w_SAW]);
  (0xa9e6, [w_MYANMAR;w_MODIFIER;w_LETTER;w_SHAN;w_REDUPLICATION]);
  (0xa9e7, [w_MYANMAR;w_LETTER;w_TAI;w_LAING;w_NYA]);
  (0xa9e8, [w_MYANMAR;w_LETTER;w_TAI;w_LAING;w_FA]);
  (0xa9e9, [w_MYANMAR;w_LETTER;w_TAI;w_LAING;w_GA]);
  (0xa9ea, [w_MYANMAR;w_LETTER;w_TAI;w_LAING;w_GHA]);
  (0xa9eb, [w_MYANMAR;w_LETTER;w_TAI;w_LAING;w_JA]);
  (0xa9ec, [w_MYANMAR;w_LETTER;w_TAI;w_LAING;w_JHA]);
  (0xa9ed, [w_MYANMAR;w_LETTER;w_TAI;w_LAING;w_DDA]);
  (0xa9ee, [w_MYANMAR;w_LETTER;w_TAI;w_LAING;w_DDHA]);
  (0xa9ef, [w_MYANMAR;w_LETTER;w_TAI;w_LAING;w_NNA]);
  (0xa9f0, [w_MYANMAR;w_TAI;w_LAING;w_DIGIT;w_ZERO]);
  (0xa9f1, [w_MYANMAR;w_TAI;w_LAING;w_DIGIT;w_ONE]);
  (0xa9f2, [w_MYANMAR;w_TAI;w_LAING;w_DIGIT;w_TWO]);
  (0xa9f3, [w_MYANMAR;w_TAI;w_LAING;w_DIGIT;w_THREE]);
  (0xa9f4, [w_MYANMAR;w_TAI;w_LAING;w_DIGIT;w_FOUR]);
  (0xa9f5, [w_MYANMAR;w_TAI;w_LAING;w_DIGIT;w_FIVE]);
  (0xa9f6, [w_MYANMAR;w_TAI;w_LAING;w_DIGIT;w_SIX]);
  (0xa9f7, [w_MYANMAR;w_TAI;w_LAING;w_DIGIT;w_SEVEN]);
  (0xa9f8, [w_MYANMAR;w_TAI;w_LAING;w_DIGIT;w_EIGHT]);
  (0xa9f9, [w_MYANMAR;w_TAI;w_LAING;w_DIGIT;w_NINE]);
  (0xa9fa, [w_MYANMAR;w_LETTER;w_TAI;w_LAING;w_LLA]);
  (0xa9fb, [w_MYANMAR;w_LETTER;w_TAI;w_LAING;w_DA]);
  (0xa9fc, [w_MYANMAR;w_LETTER;w_TAI;w_LAING;w_DHA]);
  (0xa9fd, [w_MYANMAR;w_LETTER;w_TAI;w_LAING;w_BA]);
  (0xa9fe, [w_MYANMAR;w_LETTER;w_TAI;w_LAING;w_BHA]);
  (0xaa00, [w_CHAM;w_LETTER;w_A]);
  (0xaa01, [w_CHAM;w_LETTER;w_I]);
  (0xaa02, [w_CHAM;w_LETTER;w_U]);
  (0xaa03, [w_CHAM;w_LETTER;w_E]);
  (0xaa04, [w_CHAM;w_LETTER;w_AI]);
  (0xaa05, [w_CHAM;w_LETTER;w_O]);
  (0xaa06, [w_CHAM;w_LETTER;w_KA]);
  (0xaa07, [w_CHAM;w_LETTER;w_KHA]);
  (0xaa08, [w_CHAM;w_LETTER;w_GA]);
  (0xaa09, [w_CHAM;w_LETTER;w_GHA]);
  (0xaa0a, [w_CHAM;w_LETTER;w_NGUE]);
  (0xaa0b, [w_CHAM;w_LETTER;w_NGA])].

Definition NAMES_36 : list (N * (list str)) := [
  (0xaa0c, [w_CHAM;w_LETTER;w_CHA]);
  (0xaa0d, [w_CHAM;w_LETTER;w_CHHA]);
  (0xaa0e, [w_CHAM;w_LETTER;w_JA]);
  (0xaa0f, [w_CHAM;w_LETTER;w_JHA]);
  (0xaa10, [w_CHAM;w_LETTER;w_NHUE]);
  (0xaa11, [w_CHAM;w_LETTER;w_NHA]);
  (0xaa12, [w_CHAM;w_LETTER;w_NHJA]);
  (0xaa13, [w_CHAM;w_LETTER;w_TA]);
  (0xaa14, [w_CHAM;w_LETTER;w_THA]);
  (0xaa15, [w_CHAM;w_LETTER;w_DA]);
  (0xaa16, [w_CHAM;w_LETTER;w_DHA]);
  (0xaa17, [w_CHAM;w_LETTER;w_NUE]);
  (0xaa18, [w_CHAM;w_LETTER;w_NA]);
  (0xaa19, [w_CHAM;w_LETTER;w_DDA]);
  (0xaa1a, [w_CHAM;w_LETTER;w_PA]);
  (0xaa1b, [w_CHAM;w_LETTER;w_PPA]);
  (0xaa1c, [w_CHAM;w_LETTER;w_PHA]);
  (0xaa1d, [w_CHAM;w_LETTER;w_BA]);
  (0xaa1e, [w_CHAM;w_LETTER;w_BHA]);
  (0xaa1f, [w_CHAM;w_LETTER;w_MUE]);
  (0xaa20, [w_CHAM;w_LETTER;w_MA]);
  (0xaa21, [w_CHAM;w_LETTER;w_BBA]);
  (0xaa22, [w_CHAM;w_LETTER;w_YA]);
  (0xaa23, [w_CHAM;w_LETTER;w_RA]);
  (0xaa24, [w_CHAM;w_LETTER;w_LA]);
  (0xaa25, [w_CHAM;w_LETTER;w_VA]);
  (0xaa26, [w_CHAM;w_LETTER;w_SSA]);
  (0xaa27, [w_CHAM;w_LETTER;w_SA]);
  (0xaa28, [w_CHAM;w_LETTER;w_HA]);
  (0xaa29, [w_CHAM;w_VOWEL;w_SIGN;w_AA]);
  (0xaa2a, [w_CHAM;w_VOWEL;w_SIGN;w_I]);
  (0xaa2b, [w_CHAM;w_VOWEL;w_SIGN;w_II]);
  (0xaa2c, [w_CHAM;w_VOWEL;w_SIGN;w_EI]);
  (0xaa2d, [w_CHAM;w_VOWEL;w_SIGN;w_U]);
  (0xaa2e, [w_CHAM;w_VOWEL;w_SIGN;w_OE]);
  (0xaa2f, [w_CHAM;w_VOWEL;w_SIGN;w_O]);
  (0xaa30, [w_CHAM;w_VOWEL;w_SIGN;w_AI]);
  (0xaa31, [w_CHAM;w_VOWEL;w_SIGN;w_AU]);
  (0xaa32, [w_CHAM;w_VOWEL;w_SIGN;w_UE]);
  (0xaa33, [w_CHAM;w_CONSONANT;w_SIGN;w_YA]);
  (0xaa34, [w_CHAM;w_CONSONANT;w_SIGN;w_RA]);
  (0xaa35, [w_CHAM;w_CONSONANT;w_SIGN;w_LA]);
  (0xaa36, [w_CHAM;w_CONSONANT;w_SIGN;w_WA]);
  (0xaa40, [w_CHAM;w_LETTER;w_FINAL;w_K]);
  (0xaa41, [w_CHAM;w_LETTER;w_FINAL;w_G]);
  (0xaa42, [w_CHAM;w_LETTER;w_FINAL;w_NG]);
  (0xaa43, [w_CHAM;w_CONSONANT;w_SIGN;w_FINAL;w_NG]);
  (0xaa44, [w_CHAM;w_LETTER;w_FINAL;w_CH]);
  (0xaa45, [w_CHAM;w_LETTER;w_FINAL;w_T]);
  (0xaa46, [w_CHAM;w_LETTER;w_FINAL;w_N]);
  (0xaa47, [w_CHAM;w_LETTER;w_FINAL;w_P]);
  (0xaa48, [w_CHAM;w_LETTER;w_FINAL;w_Y]);
  (0xaa49, [w_CHAM;w_LETTER;w_FINAL;w_R]);
  (0xaa4a, [w_CHAM;w_LETTER;w_FINAL;w_L]);
  (0xaa4b, [w_CHAM;w_LETTER;w_FINAL;w_SS]);
  (0xaa4c, [w_CHAM;w_CONSONANT;w_SIGN;w_FINAL;w_M]);
  (0xaa4d, [w_CHAM;w_CONSONANT;w_SIGN;w_FINAL;w_H]);
  (0xaa50, [w_CHAM;w_DIGIT;w_ZERO]);
  (0xaa51, [w_CHAM;w_DIGIT;w_ONE]);
  (0xaa52, [w_CHAM;w_DIGIT;w_TWO]);
  (0xaa53, [w_CHAM;w_DIGIT;w_THREE]);
  (0xaa54, [w_CHAM;w_DIGIT;w_FOUR]);
  (0xaa55, [w_CHAM;w_DIGIT;w_FIVE]);
  (0xaa56, [w_CHAM;w_DIGIT;w_SIX]);
  (0xaa57, [w_CHAM;w_DIGIT;w_SEVEN]);
  (0xaa58, [w_CHAM;w_DIGIT;w_EIGHT]);
  (0xaa59, [w_CHAM;w_DIGIT;w_NINE]);
  (0xaa5c, [w_CHAM;w_PUNCTUATION;w_SPIRAL]);
  (0xaa5d, [w_CHAM;w_PUNCTUATION;w_DANDA]);
  (0xaa5e, [w_CHAM;w_PUNCTUATION;w_DOUBLE;w_DANDA]);
  (0xaa5f, [w_CHAM;w_PUNCTUATION;w_TRIPLE;w_DANDA]);
  (0xaa60, [w_MYANMAR;w_LETTER;w_KHAMTI;w_GA]);
  (0xaa61, [w_MYANMAR;w_LETTER;w_KHAMTI;w_CA]);
  (0xaa62, [w_MYANMAR;w_LETTER;w_KHAMTI;w_CHA]);
  (0xaa63, [w_MYANMAR;w_LETTER;w_KHAMTI;w_JA]);
  (0xaa64, [w_MYANMAR;w_LETTER;w_KHAMTI;w_JHA]);
  (0xaa65, [w_MYANMAR;w_LETTER;w_KHAMTI;w_NYA]);
  (0xaa66, [w_MYANMAR;w_LETTER;w_KHAMTI;w_TTA]);
  (0xaa67, [w_MYANMAR;w_LETTER;w_KHAMTI;w_TTHA]);
  (0xaa68, [w_MYANMAR;w_LETTER;w_KHAMTI;w_DDA]);
  (0xaa69, [w_MYANMAR;w_LETTER;w_KHAMTI;w_DDHA]);
  (0xaa6a, [w_MYANMAR;w_LETTER;w_KHAMTI;w_DHA]);
  (0xaa6b, [w_MYANMAR;w_LETTER;w_KHAMTI;w_NA]);
  (0xaa6c, [w_MYANMAR;w_LETTER;w_KHAMTI;w_SA]);
  (0xaa6d, [w_MYANMAR;w_LETTER;w_KHAMTI;w_HA]);
  (0xaa6e, [w_MYANMAR;w_LETTER;w_KHAMTI;w_HHA]);
  (0xaa6f, [w_MYANMAR;w_LETTER;w_KHAMTI;w_FA]);
  (0xaa70, [w_MYANMAR;w_MODIFIER;w_LETTER;w_KHAMTI;w_REDUPLICATION]);
  (0xaa71, [w_MYANMAR;w_LETTER;w_KHAMTI;w_XA]);
  (0xaa72, [w_MYANMAR;w_LETTER;w_KHAMTI;w_ZA]);
  (0xaa73, [w_MYANMAR;w_LETTER;w_KHAMTI;w_RA]);
  (0xaa74, [w_MYANMAR;w_LOGOGRAM;w_KHAMTI;w_OAY]);
  (0xaa75, [w_MYANMAR;w_LOGOGRAM;w_KHAMTI;w_QN]);
  (0xaa76, [w_MYANMAR;w_LOGOGRAM;w_KHAMTI;w_HM]);
  (0xaa77, [w_MYANMAR;w_SYMBOL;w_AITON;w_EXCLAMATION]);
  (0xaa78, [w_MYANMAR;w_SYMBOL;w_AITON;w_ONE]);
  (0xaa79, [w_MYANMAR;w_SYMBOL;w_AITON;w_TWO]);
  (0xaa7a, [w_MYANMAR;w_LETTER;w_AITON;w_RA]);
  (0xaa7b, [w_MYANMAR;w_SIGN;w_PAO;w_KAREN;w_TONE]);
  (0xaa7c, [w_MYANMAR;w_SIGN;w_TAI;w_LAING;w_TONE_2]);
  (0xaa7d, [w_MYANMAR;w_SIGN;w_TAI;w_LAING;w_TONE_5]);
  (0xaa7e, [w_MYANMAR;w_LETTER;w_SHWE;w_PALAUNG;w_CHA]);
  (0xaa7f, [w_MYANMAR;w_LETTER;w_SHWE;w_PALAUNG;w_SHA]);
  (0xaa80, [w_TAI;w_VIET;w_LETTER;w_LOW;w_KO]);
  (0xaa81, [w_TAI;w_VIET;w_LETTER;w_HIGH;w_KO]);
  (0xaa82, [w_TAI;w_VIET;w_LETTER;w_LOW;w_KHO]);
  (0xaa83, [w_TAI;w_VIET;w_LETTER;w_HIGH;w_KHO]);
  (0xaa84, [w_TAI;w_VIET;w_LETTER;w_LOW;w_KHHO]);
  (0xaa85, [w_TAI;w_VIET;w_LETTER;w_HIGH;w_KHHO]);
  (0xaa86, [w_TAI;w_VIET;w_LETTER;w_LOW;w_GO]);
  (0xaa87, [w_TAI;w_VIET;w_LETTER;w_HIGH;w_GO]);
  (0xaa88, [w_TAI;w_VIET;w_LETTER;w_LOW;w_NGO]);
  (0xaa89, [w_TAI;w_VIET;w_LETTER;w_HIGH;w_NGO]);
  (0xaa8a, [w_TAI;w_VIET;w_LETTER;w_LOW;w_CO]);
  (0xaa8b, [w_TAI;w_VIET;w_LETTER;w_HIGH;w_CO]);
  (0xaa8c, [w_TAI;w_VIET;w_LETTER;w_LOW;w_CHO]);
  (0xaa8d, [w_TAI;w_VIET;w_LETTER;w_HIGH;w_CHO]);
  (0xaa8e, [w_TAI;w_VIET;w_LETTER;w_LOW;w_SO]);
  (0xaa8f, [w_TAI;w_VIET;w_LETTER;w_HIGH;w_SO]);
  (0xaa90, [w_TAI;w_VIET;w_LETTER;w_LOW;w_NYO]);
  (0xaa91, [w_TAI;w_VIET;w_LETTER;w_HIGH;w_NYO]);
  (0xaa92, [w_TAI;w_VIET;w_LETTER;w_LOW;w_DO]);
  (0xaa93, [w_TAI;w_VIET;w_LETTER;w_HIGH;w_DO]);
  (0xaa94, [w_TAI;w_VIET;w_LETTER;w_LOW;w_TO]);
  (0xaa95, [w_TAI;w_VIET;w_LETTER;w_HIGH;w_TO]);
  (0xaa96, [w_TAI;w_VIET;w_LETTER;w_LOW;w_THO]);
  (0xaa97, [w_TAI;w_VIET;w_LETTER;w_HIGH;w_THO]);
  (0xaa98, [w_TAI;w_VIET;w_LETTER;w_LOW;w_NO]);
  (0xaa99, [w_TAI;w_VIET;w_LETTER;w_HIGH;w_NO]);
  (0xaa9a, [w_TAI;w_VIET;w_LETTER;w_LOW;w_BO]);
  (0xaa9b, [w_TAI;w_VIET;w_LETTER;w_HIGH;w_BO]);
  (0xaa9c, [w_TAI;w_VIET;w_LETTER;w_LOW;w_PO]);
  (0xaa9d, [w_TAI;w_VIET;w_LETTER;w_HIGH;w_PO]);
  (0xaa9e, [w_TAI;w_VIET;w_LETTER;w_LOW;w_PHO]);
  (0xaa9f, [w_TAI;w_VIET;w_LETTER;w_HIGH;w_PHO]);
  (0xaaa0, [w_TAI;w_VIET;w_LETTER;w_LOW;w_FO]);
  (0xaaa1, [w_TAI;w_VIET;w_LETTER;w_HIGH;w_FO]);
  (0xaaa2, [w_TAI;w_VIET;w_LETTER;w_LOW;w_MO]);
  (0xaaa3, [w_TAI;w_VIET;w_LETTER;w_HIGH;w_MO]);
  (0xaaa4, [w_TAI;w_VIET;w_LETTER;w_LOW;w_YO]);
  (0xaaa5, [w_TAI;w_VIET;w_LETTER;w_HIGH;w_YO]);
  (0xaaa6, [w_TAI;w_VIET;w_LETTER;w_LOW;w_RO]);
  (0xaaa7, [w_TAI;w_VIET;w_LETTER;w_HIGH;w_RO]);
  (0xaaa8, [w_TAI;w_VIET;w_LETTER;w_LOW;w_LO]);
  (0xaaa9, [w_TAI;w_VIET;w_LETTER;w_HIGH;w_LO]);
  (0xaaaa, [w_TAI;w_VIET;w_LETTER;w_LOW;w_VO]);
  (0xaaab, [w_TAI;w_VIET;w_LETTER;w_HIGH;w_VO]);
  (0xaaac, [w_TAI;w_VIET;w_LETTER;w_LOW;w_HO]);
  (0xaaad, [w_TAI;w_VIET;w_LETTER;w_HIGH;w_HO]);
  (0xaaae, [w_TAI;w_VIET;w_LETTER;w_LOW;w_O]);
  (0xaaaf, [w_TAI;w_VIET;w_LETTER;w_HIGH;w_O]);
  (0xaab0, [w_TAI;w_VIET;w_MAI;w_KANG]);
  (0xaab1, [w_TAI;w_VIET;w_VOWEL;w_AA]);
  (0xaab2, [w_TAI;w_VIET;w_VOWEL;w_I]);
  (0xaab3, [w_TAI;w_VIET;w_VOWEL;w_UE]);
  (0xaab4, [w_TAI;w_VIET;w_VOWEL;w_U]);
  (0xaab5, [w_TAI;w_VIET;w_VOWEL;w_E]);
  (0xaab6, [w_TAI;w_VIET;w_VOWEL;w_O]);
  (0xaab7, [w_TAI;w_VIET;w_MAI;w_KHIT]);
  (0xaab8, [w_TAI;w_VIET;w_VOWEL;w_IA]);
  (0xaab9, [w_TAI;w_VIET;w_VOWEL;w_UEA]);
  (0xaaba, [w_TAI;w_VIET;w_VOWEL;w_UA]);
  (0xaabb, [w_TAI;w_VIET;w_VOWEL;w_AUE]);
  (0xaabc, [w_TAI;w_VIET;w_VOWEL;w_AY]);
  (0xaabd, [w_TAI;w_VIET;w_VOWEL;w_AN]);
  (0xaabe, [w_TAI;w_VIET;w_VOWEL;w_AM]);
  (0xaabf, [w_TAI;w_VIET;w_TONE;w_MAI;w_EK]);
  (0xaac0, [w_TAI;w_VIET;w_TONE;w_MAI;w_NUENG]);
  (0xaac1, [w_TAI;w_VIET;w_TONE;w_MAI;w_THO]);
  (0xaac2, [w_TAI;w_VIET;w_TONE;w_MAI;w_SONG]);
  (0xaadb, [w_TAI;w_VIET;w_SYMBOL;w_KON]);
  (0xaadc, [w_TAI;w_VIET;w_SYMBOL;w_NUENG]);
  (0xaadd, [w_TAI;w_VIET;w_SYMBOL;w_SAM]);
  (0xaade, [w_TAI;w_VIET;w_SYMBOL;w_HO;w_HOI]);
  (0xaadf, [w_TAI;w_VIET;w_SYMBOL;w_KOI;w_KOI]);
  (0xaae0, [w_MEETEI;w_MAYEK;w_LETTER;w_E]);
  (0xaae1, [w_MEETEI;w_MAYEK;w_LETTER;w_O]);
  (0xaae2, [w_MEETEI;w_MAYEK;w_LETTER;w_CHA]);
  (0xaae3, [w_MEETEI;w_MAYEK;w_LETTER;w_NYA]);
  (0xaae4, [w_MEETEI;w_MAYEK;w_LETTER;w_TTA]);
  (0xaae5, [w_MEETEI;w_MAYEK;w_LETTER;w_TTHA]);
  (0xaae6, [w_MEETEI;w_MAYEK;w_LETTER;w_DDA]);
  (0xaae7, [w_MEETEI;w_MAYEK;w_LETTER;w_DDHA]);
  (0xaae8, [w_MEETEI;w_MAYEK;w_LETTER;w_NNA]);
  (0xaae9, [w_MEETEI;w_MAYEK;w_LETTER;w_SHA]);
  (0xaaea, [w_MEETEI;w_MAYEK;w_LETTER;w_SSA]);
  (0xaaeb, [w_MEETEI;w_MAYEK;w_VOWEL;w_SIGN;w_II]);
  (0xaaec, [w_MEETEI;w_MAYEK;w_VOWEL;w_SIGN;w_UU]);
  (0xaaed, [w_MEETEI;w_MAYEK;w_VOWEL;w_SIGN;w_AAI]);
  (0xaaee, [w_MEETEI;w_MAYEK;w_VOWEL;w_SIGN;w_AU]);
  (0xaaef, [w_MEETEI;w_MAYEK;w_VOWEL;w_SIGN;w_AAU]);
  (0xaaf0, [w_MEETEI;w_MAYEK;w_CHEIKHAN]);
  (0xaaf1, [w_MEETEI;w_MAYEK;w_AHANG;w_KHUDAM]);
  (0xaaf2, [w_MEETEI;w_MAYEK;w_ANJI]);
  (0xaaf3, [w_MEETEI;w_MAYEK;w_SYLLABLE;w_REPETITION;w_MARK]);
  (0xaaf4, [w_MEETEI;w_MAYEK;w_WORD;w_REPETITION;w_MARK]);
  (0xaaf5, [w_MEETEI;w_MAYEK;w_VOWEL;w_SIGN;w_VISARGA]);
  (0xaaf6, [w_MEETEI;w_MAYEK;w_VIRAMA]);
  (0xab01, [w_ETHIOPIC;w_SYLLABLE;w_TTHU]);
  (0xab02, [w_ETHIOPIC;w_SYLLABLE;w_TTHI]);
  (0xab03, [w_ETHIOPIC;w_SYLLABLE;w_TTHAA]);
  (0xab04, [w_ETHIOPIC;w_SYLLABLE;w_TTHEE]);
  (0xab05, [w_ETHIOPIC;w_SYLLABLE;w_TTHE]);
  (0xab06, [w_ETHIOPIC;w_SYLLABLE;w_TTHO]);
  (0xab09, [w_ETHIOPIC;w_SYLLABLE;w_DDHU]);
  (0xab0a, [w_ETHIOPIC;w_SYLLABLE;w_DDHI]);
  (0xab0b, [w_ETHIOPIC;w_SYLLABLE;w_DDHAA]);
  (0xab0c, [w_ETHIOPIC;w_SYLLABLE;w_DDHEE]);
  (0xab0d, [w_ETHIOPIC;w_SYLLABLE;w_DDHE]);
  (0xab0e, [w_ETHIOPIC;w_SYLLABLE;w_DDHO]);
  (0xab11, [w_ETHIOPIC;w_SYLLABLE;w_DZU]);
  (0xab12, [w_ETHIOPIC;w_SYLLABLE;w_DZI]);
  (0xab13, [w_ETHIOPIC;w_SYLLABLE;w_DZAA]);
  (0xab14, [w_ETHIOPIC;w_SYLLABLE;w_DZEE]);
  (0xab15, [w_ETHIOPIC;w_SYLLABLE;w_DZE]);
  (0xab16, [w_ETHIOPIC;w_SYLLABLE;w_DZO]);
  (0xab20, [w_ETHIOPIC;w_SYLLABLE;w_CCHHA]);
  (0xab21, [w_ETHIOPIC;w_SYLLABLE;w_CCHHU]);
  (0xab22, [w_ETHIOPIC;w_SYLLABLE;w_CCHHI]);
  (0xab23, [w_ETHIOPIC;w_SYLLABLE;w_CCHHAA]);
  (0xab24, [w_ETHIOPIC;w_SYLLABLE;w_CCHHEE]);
  (0xab25, [w_ETHIOPIC;w_SYLLABLE;w_CCHHE]);
  (0xab26, [w_ETHIOPIC;w_SYLLABLE;w_CCHHO]);
  (0xab28, [w_ETHIOPIC;w_SYLLABLE;w_BBA]);
  (0xab29, [w_ETHIOPIC;w_SYLLABLE;w_BBU]);
  (0xab2a, [w_ETHIOPIC;w_SYLLABLE;w_BBI]);
  (0xab2b, [w_ETHIOPIC;w_SYLLABLE;w_BBAA]);
  (0xab2c, [w_ETHIOPIC;w_SYLLABLE;w_BBEE]);
  (0xab2d, [w_ETHIOPIC;w_SYLLABLE;w_BBE]);
  (0xab2e, [w_ETHIOPIC;w_SYLLABLE;w_BBO]);
  (0xab30, [w_LATIN;w_SMALL;w_LETTER;w_BARRED;w_ALPHA]);
  (0xab31, [w_LATIN;w_SMALL;w_LETTER;w_A;w_REVERSED_SCHWA]);
  (0xab32, [w_LATIN;w_SMALL;w_LETTER;w_BLACKLETTER;w_E]);
  (0xab33, [w_LATIN;w_SMALL;w_LETTER;w_BARRED;w_E]);
  (0xab34, [w_LATIN;w_SMALL;w_LETTER;w_E;w_WITH;w_FLOURISH]);
  (0xab35, [w_LATIN;w_SMALL;w_LETTER;w_LENIS;w_F]);
  (0xab36, [w_LATIN;w_SMALL;w_LETTER;w_SCRIPT;w_G;w_WITH;w_CROSSED_TAIL]);
  (0xab37, [w_LATIN;w_SMALL;w_LETTER;w_L;w_WITH;w_INVERTED;w_LAZY;w_S]);
  (0xab38, [w_LATIN;w_SMALL;w_LETTER;w_L;w_WITH;w_DOUBLE;w_MIDDLE;w_TILDE]);
  (0xab39, [w_LATIN;w_SMALL;w_LETTER;w_L;w_WITH;w_MIDDLE;w_RING]);
  (0xab3a, [w_LATIN;w_SMALL;w_LETTER;w_M;w_WITH;w_CROSSED_TAIL]);
  (0xab3b, [w_LATIN;w_SMALL;w_LETTER;w_N;w_WITH;w_CROSSED_TAIL]);
  (0xab3c, [w_LATIN;w_SMALL;w_LETTER;w_ENG;w_WITH;w_CROSSED_TAIL]);
  (0xab3d, [w_LATIN;w_SMALL;w_LETTER;w_BLACKLETTER;w_O]);
  (0xab3e, [w_LATIN;w_SMALL;w_LETTER;w_BLACKLETTER;w_O;w_WITH;w_STROKE]);
  (0xab3f, [w_LATIN;w_SMALL;w_LETTER;w_OPEN;w_O;w_WITH;w_STROKE]);
  (0xab40, [w_LATIN;w_SMALL;w_LETTER;w_INVERTED;w_OE]);
  (0xab41, [w_LATIN;w_SMALL;w_LETTER;w_TURNED;w_OE;w_WITH;w_STROKE]);
  (0xab42, [w_LATIN;w_SMALL;w_LETTER;w_TURNED;w_OE;w_WITH;w_HORIZONTAL;w_STROKE]);
  (0xab43, [w_LATIN;w_SMALL;w_LETTER;w_TURNED;w_O;w_OPEN_O]);
  (0xab44, [w_LATIN;w_SMALL;w_LETTER;w_TURNED;w_O;w_OPEN_O;w_WITH;w_STROKE]);
  (0xab45, [w_LATIN;w_SMALL;w_LETTER;w_STIRRUP;w_R]);
  (0xab46, [w_LATIN;w_LETTER;w_SMALL;w_CAPITAL;w_R;w_WITH;w_RIGHT;w_LEG]);
  (0xab47, [w_LATIN;w_SMALL;w_LETTER;w_R;w_WITHOUT;w_HANDLE]);
  (0xab48, [w_LATIN;w_SMALL;w_LETTER;w_DOUBLE;w_R]);
  (0xab49, [w_LATIN;w_SMALL;w_LETTER;w_R;w_WITH;w_CROSSED_TAIL]);
  (0xab4a, [w_LATIN;w_SMALL;w_LETTER;w_DOUBLE;w_R;w_WITH;w_CROSSED_TAIL]);
  (0xab4b, [w_LATIN;w_SMALL;w_LETTER;w_SCRIPT;w_R]);
  (0xab4c, [w_LATIN;w_SMALL;w_LETTER;w_SCRIPT;w_R;w_WITH;w_RING]);
  (0xab4d, [w_LATIN;w_SMALL;w_LETTER;w_BASELINE;w_ESH]);
  (0xab4e, [w_LATIN;w_SMALL;w_LETTER;w_U;w_WITH;w_SHORT;w_RIGHT;w_LEG]);
  (0xab4f, [w_LATIN;w_SMALL;w_LETTER;w_U;w_BAR;w_WITH;w_SHORT;w_RIGHT;w_LEG]);
  (0xab50, [w_LATIN;w_SMALL;w_LETTER;w_UI]);
  (0xab51, [w_LATIN;w_SMALL;w_LETTER;w_TURNED;w_UI]);
  (0xab52, [w_LATIN;w_SMALL;w_LETTER;w_U;w_WITH;w_LEFT;w_HOOK]);
  (0xab53, [w_LATIN;w_SMALL;w_LETTER;w_CHI]);
  (0xab54, [w_LATIN;w_SMALL;w_LETTER;w_CHI;w_WITH;w_LOW;w_RIGHT;w_RING]);
  (0xab55, [w_LATIN;w_SMALL;w_LETTER;w_CHI;w_WITH;w_LOW;w_LEFT;w_SERIF]);
  (0xab56, [w_LATIN;w_SMALL;w_LETTER;w_X;w_WITH;w_LOW;w_RIGHT;w_RING]);
  (0xab57, [w_LATIN;w_SMALL;w_LETTER;w_X;w_WITH;w_LONG;w_LEFT;w_LEG]);
  (0xab58, [w_LATIN;w_SMALL;w_LETTER;w_X;w_WITH;w_LONG;w_LEFT;w_LEG;w_AND;w_LOW;w_RIGHT;w_RING]);
  (0xab59, [w_LATIN;w_SMALL;w_LETTER;w_X;w_WITH;w_LONG;w_LEFT;w_LEG;w_WITH;w_SERIF]);
  (0xab5a, [w_LATIN;w_SMALL;w_LETTER;w_Y;w_WITH;w_SHORT;w_RIGHT;w_LEG]);
  (0xab5b, [w_MODIFIER;w_BREVE;w_WITH;w_INVERTED;w_BREVE]);
  (0xab5c, [w_MODIFIER;w_LETTER;w_SMALL;w_HENG]);
  (0xab5d, [w_MODIFIER;w_LETTER;w_SMALL;w_L;w_WITH;w_INVERTED;w_LAZY;w_S]);
  (0xab5e, [w_MODIFIER;w_LETTER;w_SMALL;w_L;w_WITH;w_MIDDLE;w_TILDE]);
  (0xab5f, [w_MODIFIER;w_LETTER;w_SMALL;w_U;w_WITH;w_LEFT;w_HOOK]);
  (0xab60, [w_LATIN;w_SMALL;w_LETTER;w_SAKHA;w_YAT]);
  (0xab61, [w_LATIN;w_SMALL;w_LETTER;w_IOTIFIED;w_E]);
  (0xab62, [w_LATIN;w_SMALL;w_LETTER;w_OPEN;w_OE]);
  (0xab63, [w_LATIN;w_SMALL;w_LETTER;w_UO]);
  (0xab64, [w_LATIN;w_SMALL;w_LETTER;w_INVERTED;w_ALPHA]);
  (0xab65, [w_GREEK;w_LETTER;w_SMALL;w_CAPITAL;w_OMEGA]);
  (0xab70, [w_CHEROKEE;w_SMALL;w_LETTER;w_A]);
  (0xab71, [w_CHEROKEE;w_SMALL;w_LETTER;w_E]);
  (0xab72, [w_CHEROKEE;w_SMALL;w_LETTER;w_I]);
  (0xab73, [w_CHEROKEE;w_SMALL;w_LETTER;w_O]);
  (0xab74, [w_CHEROKEE;w_SMALL;w_LETTER;w_U]);
  (0xab75, [w_CHEROKEE;w_SMALL;w_LETTER;w_V]);
  (0xab76, [w_CHEROKEE;w_SMALL;w_LETTER;w_GA]);
  (0xab77, [w_CHEROKEE;w_SMALL;w_LETTER;w_KA]);
  (0xab78, [w_CHEROKEE;w_SMALL;w_LETTER;w_GE]);
  (0xab79, [w_CHEROKEE;w_SMALL;w_LETTER;w_GI]);
  (0xab7a, [w_CHEROKEE;w_SMALL;w_LETTER;w_GO]);
  (0xab7b, [w_CHEROKEE;w_SMALL;w_LETTER;w_GU]);
  (0xab7c, [w_CHEROKEE;w_SMALL;w_LETTER;w_GV]);
  (0xab7d, [w_CHEROKEE;w_SMALL;w_LETTER;w_HA]);
  (0xab7e, [w_CHEROKEE;w_SMALL;w_LETTER;w_HE]);
  (0xab7f, [w_CHEROKEE;w_SMALL;w_LETTER;w_HI]);
  (0xab80, [w_CHEROKEE;w_SMALL;w_LETTER;w_HO]);
  (0xab81, [w_CHEROKEE;w_SMALL;w_LETTER;w_HU]);
  (0xab82, [w_CHEROKEE;w_SMALL;w_LETTER;w_HV]);
  (0xab83, [w_CHEROKEE;w_SMALL;w_LETTER;w_LA]);
  (0xab84, [w_CHEROKEE;w_SMALL;w_LETTER;w_LE]);
  (0xab85, [w_CHEROKEE;w_SMALL;w_LETTER;w_LI]);
  (0xab86, [w_CHEROKEE;w_SMALL;w_LETTER;w_LO]);
  (0xab87, [w_CHEROKEE;w_SMALL;w_LETTER;w_LU]);
  (0xab88, [w_CHEROKEE;w_SMALL;w_LETTER;w_LV]);
  (0xab89, [w_CHEROKEE;w_SMALL;w_LETTER;w_MA]);
  (0xab8a, [w_CHEROKEE;w_SMALL;w_LETTER;w_ME]);
  (0xab8b, [w_CHEROKEE;w_SMALL;w_LETTER;w_MI]);
  (0xab8c, [w_CHEROKEE;w_SMALL;w_LETTER;w_MO]);
  (0xab8d, [w_CHEROKEE;w_SMALL;w_LETTER;w_MU]);
  (0xab8e, [w_CHEROKEE;w_SMALL;w_LETTER;w_NA]);
  (0xab8f, [w_CHEROKEE;w_SMALL;w_LETTER;w_HNA]);
  (0xab90, [w_CHEROKEE;w_SMALL;w_LETTER;w_NAH]);
  (0xab91, [w_CHEROKEE;w_SMALL;w_LETTER;w_NE]);
  (0xab92, [w_CHEROKEE;w_SMALL;w_LETTER;w_NI]);
  (0xab93, [w_CHEROKEE;w_SMALL;w_LETTER;w_NO]);
  (0xab94, [w_CHEROKEE;w_SMALL;w_LETTER;w_NU]);
  (0xab95, [w_CHEROKEE;w_SMALL;w_LETTER;w_NV]);
  (0xab96, [w_CHEROKEE;w_SMALL;w_LETTER;w_QUA]);
  (0xab97, [w_CHEROKEE;w_SMALL;w_LETTER;w_QUE]);
  (0xab98, [w_CHEROKEE;w_SMALL;w_LETTER;w_QUI]);
  (0xab99, [w_CHEROKEE;w_SMALL;w_LETTER;w_QUO]);
  (0xab9a, [w_CHEROKEE;w_SMALL;w_LETTER;w_QUU]);
  (0xab9b, [w_CHEROKEE;w_SMALL;w_LETTER;w_QUV]);
  (0xab9c, [w_CHEROKEE;w_SMALL;w_LETTER;w_SA]);
  (0xab9d, [w_CHEROKEE;w_SMALL;w_LETTER;w_S]);
  (0xab9e, [w_CHEROKEE;w_SMALL;w_LETTER;w_SE]);
  (0xab9f, [w_CHEROKEE;w_SMALL;w_LETTER;w_SI]);
  (0xaba0, [w_CHEROKEE;w_SMALL;w_LETTER;w_SO]);
  (0xaba1, [w_CHEROKEE;w_SMALL;w_LETTER;w_SU]);
  (0xaba2, [w_CHEROKEE;w_SMALL;w_LETTER;w_SV]);
  (0xaba3, [w_CHEROKEE;w_SMALL;w_LETTER;w_DA]);
  (0xaba4, [w_CHEROKEE;w_SMALL;w_LETTER;w_TA]);
  (0xaba5, [w_CHEROKEE;w_SMALL;w_LETTER;w_DE]);
  (0xaba6, [w_CHEROKEE;w_SMALL;w_LETTER;w_TE]);
  (0xaba7, [w_CHEROKEE;w_SMALL;w_LETTER;w_DI]);
  (0xaba8, [w_CHEROKEE;w_SMALL;w_LETTER;w_TI]);
  (0xaba9, [w_CHEROKEE;w_SMALL;w_LETTER;w_DO]);
  (0xabaa, [w_CHEROKEE;w_SMALL;w_LETTER;w_DU]);
  (0xabab, [w_CHEROKEE;w_SMALL;w_LETTER;w_DV]);
  (0xabac, [w_CHEROKEE;w_SMALL;w_LETTER;w_DLA]);
  (0xabad, [w_CHEROKEE;w_SMALL;w_LETTER;w_TLA]);
  (0xabae, [w_CHEROKEE;w_SMALL;w_LETTER;w_TLE]);
  (0xabaf, [w_CHEROKEE;w_SMALL;w_LETTER;w_TLI]);
  (0xabb0, [w_CHEROKEE;w_SMALL;w_LETTER;w_TLO]);
  (0xabb1, [w_CHEROKEE;w_SMALL;w_LETTER;w_TLU]);
  (0xabb2, [w_CHEROKEE;w_SMALL;w_LETTER;w_TLV]);
  (0xabb3, [w_CHEROKEE;w_SMALL;w_LETTER;w_TSA]);
  (0xabb4, [w_CHEROKEE;w_SMALL;w_LETTER;w_TSE]);
  (0xabb5, [w_CHEROKEE;w_SMALL;w_LETTER;w_TSI]);
  (0xabb6, [w_CHEROKEE;w_SMALL;w_LETTER;w_TSO]);
  (0xabb7, [w_CHEROKEE;w_SMALL;w_LETTER;w_TSU]);
  (0xabb8, [w_CHEROKEE;w_SMALL;w_LETTER;w_TSV]);
  (0xabb9, [w_CHEROKEE;w_SMALL;w_LETTER;w_WA]);
  (0xabba, [w_CHEROKEE;w_SMALL;w_LETTER;w_WE]);
  (0xabbb, [w_CHEROKEE;w_SMALL;w_LETTER;w_WI]);
  (0xabbc, [w_CHEROKEE;w_SMALL;w_LETTER;w_WO]);
  (0xabbd, [w_CHEROKEE;w_SMALL;w_LETTER;w_WU]);
  (0xabbe, [w_CHEROKEE;w_SMALL;w_LETTER;w_WV]);
  (0xabbf, [w_CHEROKEE;w_SMALL;w_LETTER;w_YA]);
  (0xabc0, [w_MEETEI;w_MAYEK;w_LETTER;w_KOK]);
  (0xabc1, [w_MEETEI;w_MAYEK;w_LETTER;w_SAM]);
  (0xabc2, [w_MEETEI;w_MAYEK;w_LETTER;w_LAI]);
  (0xabc3, [w_MEETEI;w_MAYEK;w_LETTER;w_MIT]);
  (0xabc4, [w_MEETEI;w_MAYEK;w_LETTER;w_PA]);
  (0xabc5, [w_MEETEI;w_MAYEK;w_LETTER;w_NA]);
  (0xabc6, [w_MEETEI;w_MAYEK;w_LETTER;w_CHIL]);
  (0xabc7, [w_MEETEI;w_MAYEK;w_LETTER;w_TIL]);
  (0xabc8, [w_MEETEI;w_MAYEK;w_LETTER;w_KHOU]);
  (0xabc9, [w_MEETEI;w_MAYEK;w_LETTER;w_NGOU]);
  (0xabca, [w_MEETEI;w_MAYEK;w_LETTER;w_THOU]);
  (0xabcb, [w_MEETEI;w_MAYEK;w_LETTER;w_WAI]);
  (0xabcc, [w_MEETEI;w_MAYEK;w_LETTER;w_YANG]);
  (0xabcd, [w_MEETEI;w_MAYEK;w_LETTER;w_HUK]);
  (0xabce, [w_MEETEI;w_MAYEK;w_LETTER;w_UN]);
  (0xabcf, [w_MEETEI;w_MAYEK;w_LETTER;w_I]);
  (0xabd0, [w_MEETEI;w_MAYEK;w_LETTER;w_PHAM]);
  (0xabd1, [w_MEETEI;w_MAYEK;w_LETTER;w_ATIYA]);
  (0xabd2, [w_MEETEI;w_MAYEK;w_LETTER;w_GOK]);
  (0xabd3, [w_MEETEI;w_MAYEK;w_LETTER;w_JHAM]);
  (0xabd4, [w_MEETEI;w_MAYEK;w_LETTER;w_RAI]);
  (0xabd5, [w_MEETEI;w_MAYEK;w_LETTER;w_BA]);
  (0xabd6, [w_MEETEI;w_MAYEK;w_LETTER;w_JIL]);
  (0xabd7, [w_MEETEI;w_MAYEK;w_LETTER;w_DIL]);
  (0xabd8, [w_MEETEI;w_MAYEK;w_LETTER;w_GHOU]);
  (0xabd9, [w_MEETEI;w_MAYEK;w_LETTER;w_DHOU]);
  (0xabda, [w_MEETEI;w_MAYEK;w_LETTER;w_BHAM]);
  (0xabdb, [w_MEETEI;w_MAYEK;w_LETTER;w_KOK;w_LONSUM]);
  (0xabdc, [w_MEETEI;w_MAYEK;w_LETTER;w_LAI;w_LONSUM]);
  (0xabdd, [w_MEETEI;w_MAYEK;w_LETTER;w_MIT;w_LONSUM]);
  (0xabde, [w_MEETEI;w_MAYEK;w_LETTER;w_PA;w_LONSUM]);
  (0xabdf, [w_MEETEI;w_MAYEK;w_LETTER;w_NA;w_LONSUM]);
  (0xabe0, [w_MEETEI;w_MAYEK;w_LETTER;w_TIL;w_LONSUM]);
  (0xabe1, [w_MEETEI;w_MAYEK;w_LETTER;w_NGOU;w_LONSUM]);
  (0xabe2, [w_MEETEI;w_MAYEK;w_LETTER;w_I;w_LONSUM]);
  (0xabe3, [w_MEETEI;w_MAYEK;w_VOWEL;w_SIGN;w_ONAP])].

Definition NAMES_37 : list (N * (list str)) := [
  (0xabe4, [w_MEETEI;w_MAYEK;w_VOWEL;w_SIGN;w_INAP]);
  (0xabe5, [w_MEETEI;w_MAYEK;w_VOWEL;w_SIGN;w_ANAP]);
  (0xabe6, [w_MEETEI;w_MAYEK;w_VOWEL;w_SIGN;w_YENAP]);
  (0xabe7, [w_MEETEI;w_MAYEK;w_VOWEL;w_SIGN;w_SOUNAP]);
  (0xabe8, [w_MEETEI;w_MAYEK;w_VOWEL;w_SIGN;w_UNAP]);
  (0xabe9, [w_MEETEI;w_MAYEK;w_VOWEL;w_SIGN;w_CHEINAP]);
  (0xabea, [w_MEETEI;w_MAYEK;w_VOWEL;w_SIGN;w_NUNG]);
  (0xabeb, [w_MEETEI;w_MAYEK;w_CHEIKHEI]);
  (0xabec, [w_MEETEI;w_MAYEK;w_LUM;w_IYEK]);
  (0xabed, [w_MEETEI;w_MAYEK;w_APUN;w_IYEK]);
  (0xabf0, [w_MEETEI;w_MAYEK;w_DIGIT;w_ZERO]);
  (0xabf1, [w_MEETEI;w_MAYEK;w_DIGIT;w_ONE]);
  (0xabf2, [w_MEETEI;w_MAYEK;w_DIGIT;w_TWO]);
  (0xabf3, [w_MEETEI;w_MAYEK;w_DIGIT;w_THREE]);
  (0xabf4, [w_MEETEI;w_MAYEK;w_DIGIT;w_FOUR]);
  (0xabf5, [w_MEETEI;w_MAYEK;w_DIGIT;w_FIVE]);
  (0xabf6, [w_MEETEI;w_MAYEK;w_DIGIT;w_SIX]);
  (0xabf7, [w_MEETEI;w_MAYEK;w_DIGIT;w_SEVEN]);
  (0xabf8, [w_MEETEI;w_MAYEK;w_DIGIT;w_EIGHT]);
  (0xabf9, [w_MEETEI;w_MAYEK;w_DIGIT;w_NINE]);
  (0xd7b0, [w_HANGUL;w_JUNGSEONG;w_O_YEO]);
  (0xd7b1, [w_HANGUL;w_JUNGSEONG;w_O_O_I]);
  (0xd7b2, [w_HANGUL;w_JUNGSEONG;w_YO_A]);
  (0xd7b3, [w_HANGUL;w_JUNGSEONG;w_YO_AE]);
  (0xd7b4, [w_HANGUL;w_JUNGSEONG;w_YO_EO]);
  (0xd7b5, [w_HANGUL;w_JUNGSEONG;w_U_YEO]);
  (0xd7b6, [w_HANGUL;w_JUNGSEONG;w_U_I_I]);
  (0xd7b7, [w_HANGUL;w_JUNGSEONG;w_YU_AE]);
  (0xd7b8, [w_HANGUL;w_JUNGSEONG;w_YU_O]);
  (0xd7b9, [w_HANGUL;w_JUNGSEONG;w_EU_A]);
  (0xd7ba, [w_HANGUL;w_JUNGSEONG;w_EU_EO]);
  (0xd7bb, [w_HANGUL;w_JUNGSEONG;w_EU_E]);
  (0xd7bc, [w_HANGUL;w_JUNGSEONG;w_EU_O]);
  (0xd7bd, [w_HANGUL;w_JUNGSEONG;w_I_YA_O]);
  (0xd7be, [w_HANGUL;w_JUNGSEONG;w_I_YAE]);
  (0xd7bf, [w_HANGUL;w_JUNGSEONG;w_I_YEO]);
  (0xd7c0, [w_HANGUL;w_JUNGSEONG;w_I_YE]);
  (0xd7c1, [w_HANGUL;w_JUNGSEONG;w_I_O_I]);
  (0xd7c2, [w_HANGUL;w_JUNGSEONG;w_I_YO]);
  (0xd7c3, [w_HANGUL;w_JUNGSEONG;w_I_YU]);
  (0xd7c4, [w_HANGUL;w_JUNGSEONG;w_I_I]);
  (0xd7c5, [w_HANGUL;w_JUNGSEONG;w_ARAEA_A]);
  (0xd7c6, [w_HANGUL;w_JUNGSEONG;w_ARAEA_E]);
  (0xd7cb, [w_HANGUL;w_JONGSEONG;w_NIEUN_RIEUL]);
  (0xd7cc, [w_HANGUL;w_JONGSEONG;w_NIEUN_CHIEUCH]);
  (0xd7cd, [w_HANGUL;w_JONGSEONG;w_SSANGTIKEUT]);
  (0xd7ce, [w_HANGUL;w_JONGSEONG;w_SSANGTIKEUT_PIEUP]);
  (0xd7cf, [w_HANGUL;w_JONGSEONG;w_TIKEUT_PIEUP]);
  (0xd7d0, [w_HANGUL;w_JONGSEONG;w_TIKEUT_SIOS]);
  (0xd7d1, [w_HANGUL;w_JONGSEONG;w_TIKEUT_SIOS_KIYEOK]);
  (0xd7d2, [w_HANGUL;w_JONGSEONG;w_TIKEUT_CIEUC]);
  (0xd7d3, [w_HANGUL;w_JONGSEONG;w_TIKEUT_CHIEUCH]);
  (0xd7d4, [w_HANGUL;w_JONGSEONG;w_TIKEUT_THIEUTH]);
  (0xd7d5, [w_HANGUL;w_JONGSEONG;w_RIEUL_SSANGKIYEOK]);
  (0xd7d6, [w_HANGUL;w_JONGSEONG;w_RIEUL_KIYEOK_HIEUH]);
  (0xd7d7, [w_HANGUL;w_JONGSEONG;w_SSANGRIEUL_KHIEUKH]);
  (0xd7d8, [w_HANGUL;w_JONGSEONG;w_RIEUL_MIEUM_HIEUH]);
  (0xd7d9, [w_HANGUL;w_JONGSEONG;w_RIEUL_PIEUP_TIKEUT]);
  (0xd7da, [w_HANGUL;w_JONGSEONG;w_RIEUL_PIEUP_PHIEUPH]);
  (0xd7db, [w_HANGUL;w_JONGSEONG;w_RIEUL_YESIEUNG]);
  (0xd7dc, [w_HANGUL;w_JONGSEONG;w_RIEUL_YEORINHIEUH_HIEUH]);
  (0xd7dd, [w_HANGUL;w_JONGSEONG;w_KAPYEOUNRIEUL]);
  (0xd7de, [w_HANGUL;w_JONGSEONG;w_MIEUM_NIEUN]);
  (0xd7df, [w_HANGUL;w_JONGSEONG;w_MIEUM_SSANGNIEUN]);
  (0xd7e0, [w_HANGUL;w_JONGSEONG;w_SSANGMIEUM]);
  (0xd7e1, [w_HANGUL;w_JONGSEONG;w_MIEUM_PIEUP_SIOS]);
  (0xd7e2, [w_HANGUL;w_JONGSEONG;w_MIEUM_CIEUC]);
  (0xd7e3, [w_HANGUL;w_JONGSEONG;w_PIEUP_TIKEUT]);
  (0xd7e4, [w_HANGUL;w_JONGSEONG;w_PIEUP_RIEUL_PHIEUPH]);
  (0xd7e5, [w_HANGUL;w_JONGSEONG;w_PIEUP_MIEUM]);
  (0xd7e6, [w_HANGUL;w_JONGSEONG;w_SSANGPIEUP]);
  (0xd7e7, [w_HANGUL;w_JONGSEONG;w_PIEUP_SIOS_TIKEUT]);
  (0xd7e8, [w_HANGUL;w_JONGSEONG;w_PIEUP_CIEUC]);
  (0xd7e9, [w_HANGUL;w_JONGSEONG;w_PIEUP_CHIEUCH]);
  (0xd7ea, [w_HANGUL;w_JONGSEONG;w_SIOS_MIEUM]);
  (0xd7eb, [w_HANGUL;w_JONGSEONG;w_SIOS_KAPYEOUNPIEUP]);
  (0xd7ec, [w_HANGUL;w_JONGSEONG;w_SSANGSIOS_KIYEOK]);
  (0xd7ed, [w_HANGUL;w_JONGSEONG;w_SSANGSIOS_TIKEUT]);
  (0xd7ee, [w_HANGUL;w_JONGSEONG;w_SIOS_PANSIOS]);
  (0xd7ef, [w_HANGUL;w_JONGSEONG;w_SIOS_CIEUC]);
  (0xd7f0, [w_HANGUL;w_JONGSEONG;w_SIOS_CHIEUCH]);
  (0xd7f1, [w_HANGUL;w_JONGSEONG;w_SIOS_THIEUTH]);
  (0xd7f2, [w_HANGUL;w_JONGSEONG;w_SIOS_HIEUH]);
  (0xd7f3, [w_HANGUL;w_JONGSEONG;w_PANSIOS_PIEUP]);
  (0xd7f4, [w_HANGUL;w_JONGSEONG;w_PANSIOS_KAPYEOUNPIEUP]);
  (0xd7f5, [w_HANGUL;w_JONGSEONG;w_YESIEUNG_MIEUM]);
  (0xd7f6, [w_HANGUL;w_JONGSEONG;w_YESIEUNG_HIEUH]);
  (0xd7f7, [w_HANGUL;w_JONGSEONG;w_CIEUC_PIEUP]);
  (0xd7f8, [w_HANGUL;w_JONGSEONG;w_CIEUC_SSANGPIEUP]);
  (0xd7f9, [w_HANGUL;w_JONGSEONG;w_SSANGCIEUC]);
  (0xd7fa, [w_HANGUL;w_JONGSEONG;w_PHIEUPH_SIOS]);
  (0xd7fb, [w_HANGUL;w_JONGSEONG;w_PHIEUPH_THIEUTH]);
  (0xf900, [w_CJK;w_COMPATIBILITY;w_IDEOGRAPH_F900]);
  (0xf901, [w_CJK;w_COMPATIBILITY;w_IDEOGRAPH_F901]);
  (0xf902, [w_CJK;w_COMPATIBILITY;w_IDEOGRAPH_F902]);
  (0xf903, [w_CJK;w_COMPATIBILITY;w_IDEOGRAPH_F903]);
  (0xf904, [w_CJK;w_COMPATIBILITY;w_IDEOGRAPH_F904]);
  (0xf905, [w_CJK;w_COMPATIBILITY;w_IDEOGRAPH_F905]);
  (0xf906, [w_CJK;w_COMPATIBILITY;w_IDEOGRAPH_F906]);
  (0xf907, [w_CJK;w_COMPATIBILITY;w_IDEOGRAPH_F907]);
  (0xf908, [w_CJK;w_COMPATIBILITY;w_IDEOGRAPH_F908]);
  (0xf909, [w_CJK;w_COMPATIBILITY;w_IDEOGRAPH_F909]);
  (0xf90a, [w_CJK;w_COMPATIBILITY;w_IDEOGRAPH_F90A]);
  (0xf90b, [w_CJK;w_COMPATIBILITY;w_IDEOGRAPH_F90B]);
  (0xf90c, [w_CJK;w_COMPATIBILITY;w_IDEOGRAPH_F90C]);
  (0xf90d, [w_CJK;w_COMPATIBILITY;w_IDEOGRAPH_F90D]);
  (0xf90e, [w_CJK;w_COMPATIBILITY;w_IDEOGRAPH_F90E]);
  (0xf90f, [w_CJK;w_COMPATIBILITY;w_IDEOGRAPH_F90F]);
  (0xf910, [w_CJK;w_COMPATIBILITY;w_IDEOGRAPH_F910]);
  (0xf911, [w_CJK;w_COMPATIBILITY;w_IDEOGRAPH_F911]);
  (0xf912, [w_CJK;w_COMPATIBILITY;w_IDEOGRAPH_F912]);
  (0xf913, [w_CJK;w_COMPATIBILITY;w_IDEOGRAPH_F913]);
  (0xf914, [w_CJK;w_COMPATIBILITY;w_IDEOGRAPH_F914]);
  (0xf915, [w_CJK;w_COMPATIBILITY;w_IDEOGRAPH_F915]);
  (0xf916, [w_CJK;w_COMPATIBILITY;w_IDEOGRAPH_F916]);
  (0xf917, [w_CJK;w_COMPATIBILITY;w_IDEOGRAPH_F917]);
  (0xf918, [w_CJK;w_COMPATIBILITY;w_IDEOGRAPH_F918]);
  (0xf919, [w_CJK;w_COMPATIBILITY;w_IDEOGRAPH_F919]);
  (0xf91a, [w_CJK;w_COMPATIBILITY;w_IDEOGRAPH_F91A]);
  (0xf91b, [w_CJK;w_COMPATIBILITY;w_IDEOGRAPH_F91B]);
  (0xf91c, [w_CJK;w_COMPATIBILITY;w_IDEOGRAPH_F91C]);
  (0xf91d, [w_CJK;w_COMPATIBILITY;w_IDEOGRAPH_F91D]);
  (0xf91e, [w_CJK;w_COMPATIBILITY;w_IDEOGRAPH_F91E]);
  (0xf91f, [w_CJK;w_COMPATIBILITY;w_IDEOGRAPH_F91F]);
  (0xf920, [w_CJK;w_COMPATIBILITY;w_IDEOGRAPH_F920]);
  (0xf921, [w_CJK;w_COMPATIBILITY;w_IDEOGRAPH_F921]);
  (0xf922, [w_CJK;w_COMPATIBILITY;w_IDEOGRAPH_F922]);
  (0xf923, [w_CJK;w_COMPATIBILITY;w_IDEOGRAPH_F923]);
  (0xf924, [w_CJK;w_COMPATIBILITY;w_IDEOGRAPH_F924]);
  (0xf925, [w_CJK;w_COMPATIBILITY;w_IDEOGRAPH_F925]);
  (0xf926, [w_CJK;w_COMPATIBILITY;w_IDEOGRAPH_F926]);
  (0xf927, [w_CJK;w_COMPATIBILITY;w_IDEOGRAPH_F927]);
  (0xf928, [w_CJK;w_COMPATIBILITY;w_IDEOGRAPH_F928]);
  (0xf929, [w_CJK;w_COMPATIBILITY;w_IDEOGRAPH_F929]);
  (0xf92a, [w_CJK;w_COMPATIBILITY;w_IDEOGRAPH_F92A]);
  (0xf92b, [w_CJK;w_COMPATIBILITY;w_IDEOGRAPH_F92B]);
  (0xf92c, [w_CJK;w_COMPATIBILITY;w_IDEOGRAPH_F92C]);
  (0xf92d, [w_CJK;w_COMPATIBILITY;w_IDEOGRAPH_F92D]);
  (0xf92e, [w_CJK;w_COMPATIBILITY;w_IDEOGRAPH_F92E]);
  (0xf92f, [w_CJK;w_COMPATIBILITY;w_IDEOGRAPH_F92F]);
  (0xf930, [w_CJK;w_COMPATIBILITY;w_IDEOGRAPH_F930]);
  (0xf931, [w_CJK;w_COMPATIBILITY;w_IDEOGRAPH_F931]);
  (0xf932, [w_CJK;w_COMPATIBILITY;w_IDEOGRAPH_F932]);
  (0xf933, [w_CJK;w_COMPATIBILITY;w_IDEOGRAPH_F933]);
  (0xf934, [w_CJK;w_COMPATIBILITY;w_IDEOGRAPH_F934]);
  (0xf935, [w_CJK;w_COMPATIBILITY;w_IDEOGRAPH_F935]);
  (0xf936, [w_CJK;w_COMPATIBILITY;w_IDEOGRAPH_F936]);
  (0xf937, [w_CJK;w_COMPATIBILITY;w_IDEOGRAPH_F937]);
  (0xf938, [w_CJK;w_COMPATIBILITY;w_IDEOGRAPH_F938]);
  (0xf939, [w_CJK;w_COMPATIBILITY;w_IDEOGRAPH_F939]);
  (0xf93a, [w_CJK;w_COMPATIBILITY;w_IDEOGRAPH_F93A]);
  (0xf93b, [w_CJK;w_COMPATIBILITY;w_IDEOGRAPH_F93B]);
  (0xf93c, [w_CJK;w_COMPATIBILITY;w_IDEOGRAPH_F93C]);
  (0xf93d, [w_CJK;w_COMPATIBILITY;w_IDEOGRAPH_F93D]);
  (0xf93e, [w_CJK;w_COMPATIBILITY;w_IDEOGRAPH_F93E]);
  (0xf93f, [w_CJK;w_COMPATIBILITY;w_IDEOGRAPH_F93F]);
  (0xf940, [w_CJK;w_COMPATIBILITY;w_IDEOGRAPH_F940]);
  (0xf941, [w_CJK;w_COMPATIBILITY;w_IDEOGRAPH_F941]);
  (0xf942, [w_CJK;w_COMPATIBILITY;w_IDEOGRAPH_F942]);
  (0xf943, [w_CJK;w_COMPATIBILITY;w_IDEOGRAPH_F943]);
  (0xf944, [w_CJK;w_COMPATIBILITY;w_IDEOGRAPH_F944]);
  (0xf945, [w_CJK;w_COMPATIBILITY;w_IDEOGRAPH_F945]);
  (0xf946, [w_CJK;w_COMPATIBILITY;w_IDEOGRAPH_F946]);
  (0xf947, [w_CJK;w_COMPATIBILITY;w_IDEOGRAPH_F947]);
  (0xf948, [w_CJK;w_COMPATIBILITY;w_IDEOGRAPH_F948]);
  (0xf949, [w_CJK;w_COMPATIBILITY;w_IDEOGRAPH_F949]);
  (0xf94a, [w_CJK;w_COMPATIBILITY;w_IDEOGRAPH_F94A]);
  (0xf94b, [w_CJK;w_COMPATIBILITY;w_IDEOGRAPH_F94B]);
  (0xf94c, [w_CJK;w_COMPATIBILITY;w_IDEOGRAPH_F94C]);
  (0xf94d, [w_CJK;w_COMPATIBILITY;w_IDEOGRAPH_F94D]);
  (0xf94e, [w_CJK;w_COMPATIBILITY;w_IDEOGRAPH_F94E]);
  (0xf94f, [w_CJK;w_COMPATIBILITY;w_IDEOGRAPH_F94F]);
  (0xf950, [w_CJK;w_COMPATIBILITY;w_IDEOGRAPH_F950]);
  (0xf951, [w_CJK;w_COMPATIBILITY;w_IDEOGRAPH_F951]);
  (0xf952, [w_CJK;w_COMPATIBILITY;w_IDEOGRAPH_F952]);
  (0xf953, [w_CJK;w_COMPATIBILITY;w_IDEOGRAPH_F953]);
  (0xf954, [w_CJK;w_COMPATIBILITY;w_IDEOGRAPH_F954]);
  (0xf955, [w_CJK;w_COMPATIBILITY;w_IDEOGRAPH_F955]);
  (0xf956, [w_CJK;w_COMPATIBILITY;w_IDEOGRAPH_F956]);
  (0xf957, [w_CJK;w_COMPATIBILITY;w_IDEOGRAPH_F957]);
  (0xf958, [w_CJK;w_COMPATIBILITY;w_IDEOGRAPH_F958]);
  (0xf959, [w_CJK;w_COMPATIBILITY;w_IDEOGRAPH_F959]);
  (0xf95a, [w_CJK;w_COMPATIBILITY;w_IDEOGRAPH_F95A]);
  (0xf95b, [w_CJK;w_COMPATIBILITY;w_IDEOGRAPH_F95B]);
  (0xf95c, [w_CJK;w_COMPATIBILITY;w_IDEOGRAPH_F95C]);
  (0xf95d, [w_CJK;w_COMPATIBILITY;w_IDEOGRAPH_F95D]);
  (0xf95e, [w_CJK;w_COMPATIBILITY;w_IDEOGRAPH_F95E]);
  (0xf95f, [w_CJK;w_COMPATIBILITY;w_IDEOGRAPH_F95F]);
  (0xf960, [w_CJK;w_COMPATIBILITY;w_IDEOGRAPH_F960]);
  (0xf961, [w_CJK;w_COMPATIBILITY;w_IDEOGRAPH_F961]);
  (0xf962, [w_CJK;w_COMPATIBILITY;w_IDEOGRAPH_F962]);
  (0xf963, [w_CJK;w_COMPATIBILITY;w_IDEOGRAPH_F963]);
  (0xf964, [w_CJK;w_COMPATIBILITY;w_IDEOGRAPH_F964]);
  (0xf965, [w_CJK;w_COMPATIBILITY;w_IDEOGRAPH_F965]);
  (0xf966, [w_CJK;w_COMPATIBILITY;w_IDEOGRAPH_F966]);
  (0xf967, [w_CJK;w_COMPATIBILITY;w_IDEOGRAPH_F967]);
  (0xf968, [w_CJK;w_COMPATIBILITY;w_IDEOGRAPH_F968]);
  (0xf969, [w_CJK;w_COMPATIBILITY;w_IDEOGRAPH_F969]);
  (0xf96a, [w_CJK;w_COMPATIBILITY;w_IDEOGRAPH_F96A]);
  (0xf96b, [w_CJK;w_COMPATIBILITY;w_IDEOGRAPH_F96B]);
  (0xf96c, [w_CJK;w_COMPATIBILITY;w_IDEOGRAPH_F96C]);
  (0xf96d, [w_CJK;w_COMPATIBILITY;w_IDEOGRAPH_F96D]);
  (0xf96e, [w_CJK;w_COMPATIBILITY;w_IDEOGRAPH_F96E]);
  (0xf96f, [w_CJK;w_COMPATIBILITY;w_IDEOGRAPH_F96F]);
  (0xf970, [w_CJK;w_COMPATIBILITY;w_IDEOGRAPH_F970]);
  (0xf971, [w_CJK;w_COMPATIBILITY;w_IDEOGRAPH_F971]);
  (0xf972, [w_CJK;w_COMPATIBILITY;w_IDEOGRAPH_F972]);
  (0xf973, [w_CJK;w_COMPATIBILITY;w_IDEOGRAPH_F973]);
  (0xf974, [w_CJK;w_COMPATIBILITY;w_IDEOGRAPH_F974]);
  (0xf975, [w_CJK;w_COMPATIBILITY;w_IDEOGRAPH_F975]);
  (0xf976, [w_CJK;w_COMPATIBILITY;w_IDEOGRAPH_F976]);
  (0xf977, [w_CJK;w_COMPATIBILITY;w_IDEOGRAPH_F977]);
  (0xf978, [w_CJK;w_COMPATIBILITY;w_IDEOGRAPH_F978]);
  (0xf979, [w_CJK;w_COMPATIBILITY;w_IDEOGRAPH_F979]);
  (0xf97a, [w_CJK;w_COMPATIBILITY;w_IDEOGRAPH_F97A]);
  (0xf97b, [w_CJK;w_COMPATIBILITY;w_IDEOGRAPH_F97B]);
  (0xf97c, [w_CJK;w_COMPATIBILITY;w_IDEOGRAPH_F97C]);
  (0xf97d, [w_CJK;w_COMPATIBILITY;w_IDEOGRAPH_F97D]);
  (0xf97e, [w_CJK;w_COMPATIBILITY;w_IDEOGRAPH_F97E]);
  (0xf97f, [w_CJK;w_COMPATIBILITY;w_IDEOGRAPH_F97F]);
  (0xf980, [w_CJK;w_COMPATIBILITY;w_IDEOGRAPH_F980]);
  (0xf981, [w_CJK;w_COMPATIBILITY;w_IDEOGRAPH_F981]);
  (0xf982, [w_CJK;w_COMPATIBILITY;w_IDEOGRAPH_F982]);
  (0xf983, [w_CJK;w_COMPATIBILITY;w_IDEOGRAPH_F983]);
  (0xf984, [w_CJK;w_COMPATIBILITY;w_IDEOGRAPH_F984]);
  (0xf985, [w_CJK;w_COMPATIBILITY;w_IDEOGRAPH_F985]);
  (0xf986, [w_CJK;w_COMPATIBILITY;w_IDEOGRAPH_F986]);
  (0xf987, [w_CJK;w_COMPATIBILITY;w_IDEOGRAPH_F987]);
  (0xf988, [w_CJK;w_COMPATIBILITY;w_IDEOGRAPH_F988]);
  (0xf989, [w_CJK;w_COMPATIBILITY;w_IDEOGRAPH_F989]);
  (0xf98a, [w_CJK;w_COMPATIBILITY;w_IDEOGRAPH_F98A]);
  (0xf98b, [w_CJK;w_COMPATIBILITY;w_IDEOGRAPH_F98B]);
  (0xf98c, [w_CJK;w_COMPATIBILITY;w_IDEOGRAPH_F98C]);
  (0xf98d, [w_CJK;w_COMPATIBILITY;w_IDEOGRAPH_F98D]);
  (0xf98e, [w_CJK;w_COMPATIBILITY;w_IDEOGRAPH_F98E]);
  (0xf98f, [w_CJK;w_COMPATIBILITY;w_IDEOGRAPH_F98F]);
  (0xf990, [w_CJK;w_COMPATIBILITY;w_IDEOGRAPH_F990]);
  (0xf991, [w_CJK;w_COMPATIBILITY;w_IDEOGRAPH_F991]);
  (0xf992, [w_CJK;w_COMPATIBILITY;w_IDEOGRAPH_F992]);
  (0xf993, [w_CJK;w_COMPATIBILITY;w_IDEOGRAPH_F993]);
  (0xf994, [w_CJK;w_COMPATIBILITY;w_IDEOGRAPH_F994]);
  (0xf995, [w_CJK;w_COMPATIBILITY;w_IDEOGRAPH_F995]);
  (0xf996, [w_CJK;w_COMPATIBILITY;w_IDEOGRAPH_F996]);
  (0xf997, [w_CJK;w_COMPATIBILITY;w_IDEOGRAPH_F997]);
  (0xf998, [w_CJK;w_COMPATIBILITY;w_IDEOGRAPH_F998]);
  (0xf999, [w_CJK;w_COMPATIBILITY;w_IDEOGRAPH_F999]);
  (0xf99a, [w_CJK;w_COMPATIBILITY;w_IDEOGRAPH_F99A]);
  (0xf99b, [w_CJK;w_COMPATIBILITY;w_IDEOGRAPH_F99B]);
  (0xf99c, [w_CJK;w_COMPATIBILITY;w_IDEOGRAPH_F99C]);
  (0xf99d, [w_CJK;w_COMPATIBILITY;w_IDEOGRAPH_F99D]);
  (0xf99e, [w_CJK;w_COMPATIBILITY;w_IDEOGRAPH_F99E]);
  (0xf99f, [w_CJK;w_COMPATIBILITY;w_IDEOGRAPH_F99F]);
  (0xf9a0, [w_CJK;w_COMPATIBILITY;w_IDEOGRAPH_F9A0]);
  (0xf9a1, [w_CJK;w_COMPATIBILITY;w_IDEOGRAPH_F9A1]);
  (0xf9a2, [w_CJK;w_COMPATIBILITY;w_IDEOGRAPH_F9A2]);
  (0xf9a3, [w_CJK;w_COMPATIBILITY;w_IDEOGRAPH_F9A3]);
  (0xf9a4, [w_CJK;w_COMPATIBILITY;w_IDEOGRAPH_F9A4]);
  (0xf9a5, [w_CJK;w_COMPATIBILITY;w_IDEOGRAPH_F9A5]);
  (0xf9a6, [w_CJK;w_COMPATIBILITY;w_IDEOGRAPH_F9A6]);
  (0xf9a7, [w_CJK;w_COMPATIBILITY;w_IDEOGRAPH_F9A7]);
  (0xf9a8, [w_CJK;w_COMPATIBILITY;w_IDEOGRAPH_F9A8]);
  (0xf9a9, [w_CJK;w_COMPATIBILITY;w_IDEOGRAPH_F9A9]);
  (0xf9aa, [w_CJK;w_COMPATIBILITY;w_IDEOGRAPH_F9AA]);
  (0xf9ab, [w_CJK;w_COMPATIBILITY;w_IDEOGRAPH_F9AB]);
  (0xf9ac, [w_CJK;w_COMPATIBILITY;w_IDEOGRAPH_F9AC]);
  (0xf9ad, [w_CJK;w_COMPATIBILITY;w_IDEOGRAPH_F9AD]);
  (0xf9ae, [w_CJK;w_COMPATIBILITY;w_IDEOGRAPH_F9AE]);
  (0xf9af, [w_CJK;w_COMPATIBILITY;w_IDEOGRAPH_F9AF]);
  (0xf9b0, [w_CJK;w_COMPATIBILITY;w_IDEOGRAPH_F9B0]);
  (0xf9b1, [w_CJK;w_COMPATIBILITY;w_IDEOGRAPH_F9B1]);
  (0xf9b2, [w_CJK;w_COMPATIBILITY;w_IDEOGRAPH_F9B2]);
  (0xf9b3, [w_CJK;w_COMPATIBILITY;w_IDEOGRAPH_F9B3]);
  (0xf9b4, [w_CJK;w_COMPATIBILITY;w_IDEOGRAPH_F9B4]);
  (0xf9b5, [w_CJK;w_COMPATIBILITY;w_IDEOGRAPH_F9B5]);
  (0xf9b6, [w_CJK;w_COMPATIBILITY;w_IDEOGRAPH_F9B6]);
  (0xf9b7, [w_CJK;w_COMPATIBILITY;w_IDEOGRAPH_F9B7]);
  (0xf9b8, [w_CJK;w_COMPATIBILITY;w_IDEOGRAPH_F9B8]);
  (0xf9b9, [w_CJK;w_COMPATIBILITY;w_IDEOGRAPH_F9B9]);
  (0xf9ba, [w_CJK;w_COMPATIBILITY;w_IDEOGRAPH_F9BA]);
  (0xf9bb, [w_CJK;w_COMPATIBILITY;w_IDEOGRAPH_F9BB]);
  (0xf9bc, [w_CJK;w_COMPATIBILITY;w_IDEOGRAPH_F9BC]);
  (0xf9bd, [w_CJK;w_COMPATIBILITY;w_IDEOGRAPH_F9BD]);
  (0xf9be, [w_CJK;w_COMPATIBILITY;w_IDEOGRAPH_F9BE]);
  (0xf9bf, [w_CJK;w_COMPATIBILITY;w_IDEOGRAPH_F9BF]);
  (0xf9c0, [w_CJK;w_COMPATIBILITY;w_IDEOGRAPH_F9C0]);
  (0xf9c1, [w_CJK;w_COMPATIBILITY;w_IDEOGRAPH_F9C1]);
  (0xf9c2, [w_CJK;w_COMPATIBILITY;w_IDEOGRAPH_F9C2]);
  (0xf9c3, [w_CJK;w_COMPATIBILITY;w_IDEOGRAPH_F9C3]);
  (0xf9c4, [w_CJK;w_COMPATIBILITY;w_IDEOGRAPH_F9C4]);
  (0xf9c5, [w_CJK;w_COMPATIBILITY;w_IDEOGRAPH_F9C5]);
  (0xf9c6, [w_CJK;w_COMPATIBILITY;w_IDEOGRAPH_F9C6]);
  (0xf9c7, [w_CJK;w_COMPATIBILITY;w_IDEOGRAPH_F9C7]);
  (0xf9c8, [w_CJK;w_COMPATIBILITY;w_IDEOGRAPH_F9C8]);
  (0xf9c9, [w_CJK;w_COMPATIBILITY;w_IDEOGRAPH_F9C9]);
  (0xf9ca, [w_CJK;w_COMPATIBILITY;w_IDEOGRAPH_F9CA]);
  (0xf9cb, [w_CJK;w_COMPATIBILITY;w_IDEOGRAPH_F9CB]);
  (0xf9cc, [w_CJK;w_COMPATIBILITY;w_IDEOGRAPH_F9CC]);
  (0xf9cd, [w_CJK;w_COMPATIBILITY;w_IDEOGRAPH_F9CD]);
  (0xf9ce, [w_CJK;w_COMPATIBILITY;w_IDEOGRAPH_F9CE]);
  (0xf9cf, [w_CJK;w_COMPATIBILITY;w_IDEOGRAPH_F9CF]);
  (0xf9d0, [w_CJK;w_COMPATIBILITY;w_IDEOGRAPH_F9D0]);
  (0xf9d1, [w_CJK;w_COMPATIBILITY;w_IDEOGRAPH_F9D1]);
  (0xf9d2, [w_CJK;w_COMPATIBILITY;w_IDEOGRAPH_F9D2]);
  (0xf9d3, [w_CJK;w_COMPATIBILITY;w_IDEOGRAPH_F9D3]);
  (0xf9d4, [w_CJK;w_COMPATIBILITY;w_IDEOGRAPH_F9D4]);
  (0xf9d5, [w_CJK;w_COMPATIBILITY;w_IDEOGRAPH_F9D5]);
  (0xf9d6, [w_CJK;w_COMPATIBILITY;w_IDEOGRAPH_F9D6]);
  (0xf9d7, [w_CJK;w_COMPATIBILITY;w_IDEOGRAPH_F9D7]);
  (0xf9d8, [w_CJK;w_COMPATIBILITY;w_IDEOGRAPH_F9D8]);
  (0xf9d9, [w_CJK;w_COMPATIBILITY;w_IDEOGRAPH_F9D9]);
  (0xf9da, [w_CJK;w_COMPATIBILITY;w_IDEOGRAPH_F9DA]);
  (0xf9db, [w_CJK;w_COMPATIBILITY;w_IDEOGRAPH_F9DB]);
  (0xf9dc, [w_CJK;w_COMPATIBILITY;w_IDEOGRAPH_F9DC]);
  (0xf9dd, [w_CJK;w_COMPATIBILITY;w_IDEOGRAPH_F9DD]);
  (0xf9de, [w_CJK;w_COMPATIBILITY;w_IDEOGRAPH_F9DE]);
  (0xf9df, [w_CJK;w_COMPATIBILITY;w_IDEOGRAPH_F9DF]);
  (0xf9e0, [w_CJK;w_COMPATIBILITY;w_IDEOGRAPH_F9E0]);
  (0xf9e1, [w_CJK;w_COMPATIBILITY;w_IDEOGRAPH_F9E1]);
  (0xf9e2, [w_CJK;w_COMPATIBILITY;w_IDEOGRAPH_F9E2]);
  (0xf9e3, [w_CJK;w_COMPATIBILITY;w_IDEOGRAPH_F9E3]);
  (0xf9e4, [w_CJK;w_COMPATIBILITY;w_IDEOGRAPH_F9E4]);
  (0xf9e5, [w_CJK;w_COMPATIBILITY;w_IDEOGRAPH_F9E5]);
  (0xf9e6, [w_CJK;w_COMPATIBILITY;w_IDEOGRAPH_F9E6]);
  (0xf9e7, [w_CJK;w_COMPATIBILITY;w_IDEOGRAPH_F9E7]);
  (0xf9e8, [w_CJK;w_COMPATIBILITY;w_IDEOGRAPH_F9E8]);
  (0xf9e9, [w_CJK;w_COMPATIBILITY;w_IDEOGRAPH_F9E9]);
  (0xf9ea, [w_CJK;w_COMPATIBILITY;w_IDEOGRAPH_F9EA]);
  (0xf9eb, [w_CJK;w_COMPATIBILITY;w_IDEOGRAPH_F9EB]);
  (0xf9ec, [w_CJK;w_COMPATIBILITY;w_IDEOGRAPH_F9EC]);
  (0xf9ed, [w_CJK;w_COMPATIBILITY;w_IDEOGRAPH_F9ED]);
  (0xf9ee, [w_CJK;w_COMPATIBILITY;w_IDEOGRAPH_F9EE]);
  (0xf9ef, [w_CJK;w_COMPATIBILITY;w_IDEOGRAPH_F9EF]);
  (0xf9f0, [w_CJK;w_COMPATIBILITY;w_IDEOGRAPH_F9F0]);
  (0xf9f1, [w_CJK;w_COMPATIBILITY;w_IDEOGRAPH_F9F1]);
  (0xf9f2, [w_CJK;w_COMPATIBILITY;w_IDEOGRAPH_F9F2]);
  (0xf9f3, [w_CJK;w_COMPATIBILITY;w_IDEOGRAPH_F9F3]);
  (0xf9f4, [w_CJK;w_COMPATIBILITY;w_IDEOGRAPH_F9F4]);
  (0xf9f5, [w_CJK;w_COMPATIBILITY;w_IDEOGRAPH_F9F5]);
  (0xf9f6, [w_CJK;w_COMPATIBILITY;w_IDEOGRAPH_F9F6]);
  (0xf9f7, [w_CJK;w_COMPATIBILITY;w_IDEOGRAPH_F9F7]);
  (0xf9f8, [w_CJK;w_COMPATIBILITY;w_IDEOGRAPH_F9F8]);
  (0xf9f9, [w_CJK;w_COMPATIBILITY;w_IDEOGRAPH_F9F9]);
  (0xf9fa, [w_CJK;w_COMPATIBILITY;w_IDEOGRAPH_F9FA]);
  (0xf9fb, [w_CJK;w_COMPATIBILITY;w_IDEOGRAPH_F9FB]);
  (0xf9fc, [w_CJK;w_COMPATIBILITY;w_IDEOGRAPH_F9FC]);
  (0xf9fd, [w_CJK;w_COMPATIBILITY;w_IDEOGRAPH_F9FD]);
  (0xf9fe, [w_CJK;w_COMPATIBILITY;w_IDEOGRAPH_F9FE]);
  (0xf9ff, [w_CJK;w_COMPATIBILITY;w_IDEOGRAPH_F9FF]);
  (0xfa00, [w_CJK;w_COMPATIBILITY;w_IDEOGRAPH_FA00]);
  (0xfa01, [w_CJK;w_COMPATIBILITY;w_IDEOGRAPH_FA01]);
  (0xfa02, [w_CJK;w_COMPATIBILITY;w_IDEOGRAPH_FA02]);
  (0xfa03, [w_CJK;w_COMPATIBILITY;w_IDEOGRAPH_FA03]);
  (0xfa04, [w_CJK;w_COMPATIBILITY;w_IDEOGRAPH_FA04]);
  (0xfa05, [w_CJK;w_COMPATIBILITY;w_IDEOGRAPH_FA05]);
  (0xfa06, [w_CJK;w_COMPATIBILITY;w_IDEOGRAPH_FA06]);
  (0xfa07, [w_CJK;w_COMPATIBILITY;w_IDEOGRAPH_FA07]);
  (0xfa08, [w_CJK;w_COMPATIBILITY;w_IDEOGRAPH_FA08]);
  (0xfa09, [w_CJK;w_COMPATIBILITY;w_IDEOGRAPH_FA09]);
  (0xfa0a, [w_CJK;w_COMPATIBILITY;w_IDEOGRAPH_FA0A]);
  (0xfa0b, [w_CJK;w_COMPATIBILITY;w_IDEOGRAPH_FA0B]);
  (0xfa0c, [w_CJK;w_COMPATIBILITY;w_IDEOGRAPH_FA0C]);
  (0xfa0d, [w_CJK;w_COMPATIBILITY;w_IDEOGRAPH_FA0D]);
  (0xfa0e, [w_CJK;w_COMPATIBILITY;w_IDEOGRAPH_FA0E]);
  (0xfa0f, [w_CJK;w_COMPATIBILITY;w_IDEOGRAPH_FA0F]);
  (0xfa10, [w_CJK;w_COMPATIBILITY;w_IDEOGRAPH_FA10]);
  (0xfa11, [w_CJK;w_COMPATIBILITY;w_IDEOGRAPH_FA11]);
  (0xfa12, [w_CJK;w_COMPATIBILITY;w_IDEOGRAPH_FA12]);
  (0xfa13, [w_CJK;w_COMPATIBILITY;w_IDEOGRAPH_FA13]);
  (0xfa14, [w_CJK;w_COMPATIBILITY;w_IDEOGRAPH_FA14]);
  (0xfa15, [w_CJK;w_COMPATIBILITY;w_IDEOGRAPH_FA15]);
  (0xfa16, [w_CJK;w_COMPATIBILITY;w_IDEOGRAPH_FA16]);
  (0xfa17, [w_CJK;w_COMPATIBILITY;w_IDEOGRAPH_FA17]);
  (0xfa18, [w_CJK;w_COMPATIBILITY;w_IDEOGRAPH_FA18]);
  (0xfa19, [w_CJK;w_COMPATIBILITY;w_IDEOGRAPH_FA19]);
  (0xfa1a, [w_CJK;w_COMPATIBILITY;w_IDEOGRAPH_FA1A]);
  (0xfa1b, [w_CJK;w_COMPATIBILITY;w_IDEOGRAPH_FA1B]);
  (0xfa1c, [w_CJK;w_COMPATIBILITY;w_IDEOGRAPH_FA1C]);
  (0xfa1d, [w_CJK;w_COMPATIBILITY;w_IDEOGRAPH_FA1D]);
  (0xfa1e, [w_CJK;w_COMPATIBILITY;w_IDEOGRAPH_FA1E]);
  (0xfa1f, [w_CJK;w_COMPATIBILITY;w_IDEOGRAPH_FA1F]);
  (0xfa20, [w_CJK;w_COMPATIBILITY;w_IDEOGRAPH_FA20]);
  (0xfa21, [w_CJK;w_COMPATIBILITY;w_IDEOGRAPH_FA21]);
  (0xfa22, [w_CJK;w_COMPATIBILITY;w_IDEOGRAPH_FA22]);
  (0xfa23, [w_CJK;w_COMPATIBILITY;w_IDEOGRAPH_FA23]);
  (0xfa24, [w_CJK;w_COMPATIBILITY;w_IDEOGRAPH_FA24]);
  (0xfa25, [w_CJK;w_COMPATIBILITY;w_IDEOGRAPH_FA25]);
  (0xfa26, [w_CJK;w_COMPATIBILITY;w_IDEOGRAPH_FA26]);
  (0xfa27, [w_CJK;w_COMPATIBILITY;w_IDEOGRAPH_FA27]);
  (0xfa28, [w_CJK;w_COMPATIBILITY;w_IDEOGRAPH_FA28]);
  (0xfa29, [w_CJK;w_COMPATIBILITY;w_IDEOGRAPH_FA29]);
  (0xfa2a, [w_CJK;w_COMPATIBILITY;w_IDEOGRAPH_FA2A]);
  (0xfa2b, [w_CJK;w_COMPATIBILITY;w_IDEOGRAPH_FA2B]);
  (0xfa2c, [w_CJK;w_COMPATIBILITY;w_IDEOGRAPH_FA2C]);
  (0xfa2d, [w_CJK;w_COMPATIBILITY;w_IDEOGRAPH_FA2D]);
  (0xfa2e, [w_CJK;w_COMPATIBILITY;w_IDEOGRAPH_FA2E]);
  (0xfa2f, [w_CJK;w_COMPATIBILITY;w_IDEOGRAPH_FA2F]);
  (0xfa30, [w_CJK;w_COMPATIBILITY;w_IDEOGRAPH_FA30]);
  (0xfa31, [w_CJK;w_COMPATIBILITY;w_IDEOGRAPH_FA31]);
  (0xfa32, [w_CJK;w_COMPATIBILITY;w_IDEOGRAPH_FA32]);
  (0xfa33, [w_CJK;w_COMPATIBILITY;w_IDEOGRAPH_FA33])].

Definition NAMES_38 : list (N * (list str)) := [
  (0xfa34, [w_CJK;w_COMPATIBILITY;w_IDEOGRAPH_FA34]);
  (0xfa35, [w_CJK;w_COMPATIBILITY;w_IDEOGRAPH_FA35]);
  (0xfa36, [w_CJK;w_COMPATIBILITY;w_IDEOGRAPH_FA36]);
  (0xfa37, [w_CJK;w_COMPATIBILITY;w_IDEOGRAPH_FA37]);
  (0xfa38, [w_CJK;w_COMPATIBILITY;w_IDEOGRAPH_FA38]);
  (0xfa39, [w_CJK;w_COMPATIBILITY;w_IDEOGRAPH_FA39]);
  (0xfa3a, [w_CJK;w_COMPATIBILITY;w_IDEOGRAPH_FA3A]);
  (0xfa3b, [w_CJK;w_COMPATIBILITY;w_IDEOGRAPH_FA3B]);
  (0xfa3c, [w_CJK;w_COMPATIBILITY;w_IDEOGRAPH_FA3C]);
  (0xfa3d, [w_CJK;w_COMPATIBILITY;w_IDEOGRAPH_FA3D]);
  (0xfa3e, [w_CJK;w_COMPATIBILITY;w_IDEOGRAPH_FA3E]);
  (0xfa3f, [w_CJK;w_COMPATIBILITY;w_IDEOGRAPH_FA3F]);
  (0xfa40, [w_CJK;w_COMPATIBILITY;w_IDEOGRAPH_FA40]);
  (0xfa41, [w_CJK;w_COMPATIBILITY;w_IDEOGRAPH_FA41]);
  (0xfa42, [w_CJK;w_COMPATIBILITY;w_IDEOGRAPH_FA42]);
  (0xfa43, [w_CJK;w_COMPATIBILITY;w_IDEOGRAPH_FA43]);
  (0xfa44, [w_CJK;w_COMPATIBILITY;w_IDEOGRAPH_FA44]);
  (0xfa45, [w_CJK;w_COMPATIBILITY;w_IDEOGRAPH_FA45]);
  (0xfa46, [w_CJK;w_COMPATIBILITY;w_IDEOGRAPH_FA46]);
  (0xfa47, [w_CJK;w_COMPATIBILITY;w_IDEOGRAPH_FA47]);
  (0xfa48, [w_CJK;w_COMPATIBILITY;w_IDEOGRAPH_FA48]);
  (0xfa49, [w_CJK;w_COMPATIBILITY;w_IDEOGRAPH_FA49]);
  (0xfa4a, [w_CJK;w_COMPATIBILITY;w_IDEOGRAPH_FA4A]);
  (0xfa4b, [w_CJK;w_COMPATIBILITY;w_IDEOGRAPH_FA4B]);
  (0xfa4c, [w_CJK;w_COMPATIBILITY;w_IDEOGRAPH_FA4C]);
  (0xfa4d, [w_CJK;w_COMPATIBILITY;w_IDEOGRAPH_FA4D]);
  (0xfa4e, [w_CJK;w_COMPATIBILITY;w_IDEOGRAPH_FA4E]);
  (0xfa4f, [w_CJK;w_COMPATIBILITY;w_IDEOGRAPH_FA4F]);
  (0xfa50, [w_CJK;w_COMPATIBILITY;w_IDEOGRAPH_FA50]);
  (0xfa51, [w_CJK;w_COMPATIBILITY;w_IDEOGRAPH_FA51]);
  (0xfa52, [w_CJK;w_COMPATIBILITY;w_IDEOGRAPH_FA52]);
  (0xfa53, [w_CJK;w_COMPATIBILITY;w_IDEOGRAPH_FA53]);
  (0xfa54, [w_CJK;w_COMPATIBILITY;w_IDEOGRAPH_FA54]);
  (0xfa55, [w_CJK;w_COMPATIBILITY;w_IDEOGRAPH_FA55]);
  (0xfa56, [w_CJK;w_COMPATIBILITY;w_IDEOGRAPH_FA56]);
  (0xfa57, [w_CJK;w_COMPATIBILITY;w_IDEOGRAPH_FA57]);
  (0xfa58, [w_CJK;w_COMPATIBILITY;w_IDEOGRAPH_FA58]);
  (0xfa59, [w_CJK;w_COMPATIBILITY;w_IDEOGRAPH_FA59]);
  (0xfa5a, [w_CJK;w_COMPATIBILITY;w_IDEOGRAPH_FA5A]);
  (0xfa5b, [w_CJK;w_COMPATIBILITY;w_IDEOGRAPH_FA5B]);
  (0xfa5c, [w_CJK;w_COMPATIBILITY;w_IDEOGRAPH_FA5C]);
  (0xfa5d, [w_CJK;w_COMPATIBILITY;w_IDEOGRAPH_FA5D]);
  (0xfa5e, [w_CJK;w_COMPATIBILITY;w_IDEOGRAPH_FA5E]);
  (0xfa5f, [w_CJK;w_COMPATIBILITY;w_IDEOGRAPH_FA5F]);
  (0xfa60, [w_CJK;w_COMPATIBILITY;w_IDEOGRAPH_FA60]);
  (0xfa61, [w_CJK;w_COMPATIBILITY;w_IDEOGRAPH_FA61]);
  (0xfa62, [w_CJK;w_COMPATIBILITY;w_IDEOGRAPH_FA62]);
  (0xfa63, [w_CJK;w_COMPATIBILITY;w_IDEOGRAPH_FA63]);
  (0xfa64, [w_CJK;w_COMPATIBILITY;w_IDEOGRAPH_FA64]);
  (0xfa65, [w_CJK;w_COMPATIBILITY;w_IDEOGRAPH_FA65]);
  (0xfa66, [w_CJK;w_COMPATIBILITY;w_IDEOGRAPH_FA66]);
  (0xfa67, [w_CJK;w_COMPATIBILITY;w_IDEOGRAPH_FA67]);
  (0xfa68, [w_CJK;w_COMPATIBILITY;w_IDEOGRAPH_FA68]);
  (0xfa69, [w_CJK;w_COMPATIBILITY;w_IDEOGRAPH_FA69]);
  (0xfa6a, [w_CJK;w_COMPATIBILITY;w_IDEOGRAPH_FA6A]);
  (0xfa6b, [w_CJK;w_COMPATIBILITY;w_IDEOGRAPH_FA6B]);
  (0xfa6c, [w_CJK;w_COMPATIBILITY;w_IDEOGRAPH_FA6C]);
  (0xfa6d, [w_CJK;w_COMPATIBILITY;w_IDEOGRAPH_FA6D]);
  (0xfa70, [w_CJK;w_COMPATIBILITY;w_IDEOGRAPH_FA70]);
  (0xfa71, [w_CJK;w_COMPATIBILITY;w_IDEOGRAPH_FA71]);
  (0xfa72, [w_CJK;w_COMPATIBILITY;w_IDEOGRAPH_FA72]);
  (0xfa73, [w_CJK;w_COMPATIBILITY;w_IDEOGRAPH_FA73]);
  (0xfa74, [w_CJK;w_COMPATIBILITY;w_IDEOGRAPH_FA74]);
  (0xfa75, [w_CJK;w_COMPATIBILITY;w_IDEOGRAPH_FA75]);
  (0xfa76, [w_CJK;w_COMPATIBILITY;w_IDEOGRAPH_FA76]);
  (0xfa77, [w_CJK;w_COMPATIBILITY;w_IDEOGRAPH_FA77]);
  (0xfa78, [w_CJK;w_COMPATIBILITY;w_IDEOGRAPH_FA78]);
  (0xfa79, [w_CJK;w_COMPATIBILITY;w_IDEOGRAPH_FA79]);
  (0xfa7a, [w_CJK;w_COMPATIBILITY;w_IDEOGRAPH_FA7A]);
  (0xfa7b, [w_CJK;w_COMPATIBILITY;w_IDEOGRAPH_FA7B]);
  (0xfa7c, [w_CJK;w_COMPATIBILITY;w_IDEOGRAPH_FA7C]);
  (0xfa7d, [w_CJK;w_COMPATIBILITY;w_IDEOGRAPH_FA7D]);
  (0xfa7e, [w_CJK;w_COMPATIBILITY;w_IDEOGRAPH_FA7E]);
  (0xfa7f, [w_CJK;w_COMPATIBILITY;w_IDEOGRAPH_FA7F]);
  (0xfa80, [w_CJK;w_COMPATIBILITY;w_IDEOGRAPH_FA80]);
  (0xfa81, [w_CJK;w_COMPATIBILITY;w_IDEOGRAPH_FA81]);
  (0xfa82, [w_CJK;w_COMPATIBILITY;w_IDEOGRAPH_FA82]);
  (0xfa83, [w_CJK;w_COMPATIBILITY;w_IDEOGRAPH_FA83]);
  (0xfa84, [w_CJK;w_COMPATIBILITY;w_IDEOGRAPH_FA84]);
  (0xfa85, [w_CJK;w_COMPATIBILITY;w_IDEOGRAPH_FA85]);
  (0xfa86, [w_CJK;w_COMPATIBILITY;w_IDEOGRAPH_FA86]);
  (0xfa87, [w_CJK;w_COMPATIBILITY;w_IDEOGRAPH_FA87]);
  (0xfa88, [w_CJK;w_COMPATIBILITY;w_IDEOGRAPH_FA88]);
  (0xfa89, [w_CJK;w_COMPATIBILITY;w_IDEOGRAPH_FA89]);
  (0xfa8a, [w_CJK;w_COMPATIBILITY;w_IDEOGRAPH_FA8A]);
  (0xfa8b, [w_CJK;w_COMPATIBILITY;w_IDEOGRAPH_FA8B]);
  (0xfa8c, [w_CJK;w_COMPATIBILITY;w_IDEOGRAPH_FA8C]);
  (0xfa8d, [w_CJK;w_COMPATIBILITY;w_IDEOGRAPH_FA8D]);
  (0xfa8e, [w_CJK;w_COMPATIBILITY;w_IDEOGRAPH_FA8E]);
  (0xfa8f, [w_CJK;w_COMPATIBILITY;w_IDEOGRAPH_FA8F]);
  (0xfa90, [w_CJK;w_COMPATIBILITY;w_IDEOGRAPH_FA90]);
  (0xfa91, [w_CJK;w_COMPATIBILITY;w_IDEOGRAPH_FA91]);
  (0xfa92, [w_CJK;w_COMPATIBILITY;w_IDEOGRAPH_FA92]);
  (0xfa93, [w_CJK;w_COMPATIBILITY;w_IDEOGRAPH_FA93]);
  (0xfa94, [w_CJK;w_COMPATIBILITY;w_IDEOGRAPH_FA94]);
  (0xfa95, [w_CJK;w_COMPATIBILITY;w_IDEOGRAPH_FA95]);
  (0xfa96, [w_CJK;w_COMPATIBILITY;w_IDEOGRAPH_FA96]);
  (0xfa97, [w_CJK;w_COMPATIBILITY;w_IDEOGRAPH_FA97]);
  (0xfa98, [w_CJK;w_COMPATIBILITY;w_IDEOGRAPH_FA98]);
  (0xfa99, [w_CJK;w_COMPATIBILITY;w_IDEOGRAPH_FA99]);
  (0xfa9a, [w_CJK;w_COMPATIBILITY;w_IDEOGRAPH_FA9A]);
  (0xfa9b, [w_CJK;w_COMPATIBILITY;w_IDEOGRAPH_FA9B]);
  (0xfa9c, [w_CJK;w_COMPATIBILITY;w_IDEOGRAPH_FA9C]);
  (0xfa9d, [w_CJK;w_COMPATIBILITY;w_IDEOGRAPH_FA9D]);
  (0xfa9e, [w_CJK;w_COMPATIBILITY;w_IDEOGRAPH_FA9E]);
  (0xfa9f, [w_CJK;w_COMPATIBILITY;w_IDEOGRAPH_FA9F]);
  (0xfaa0, [w_CJK;w_COMPATIBILITY;w_IDEOGRAPH_FAA0]);
  (0xfaa1, [w_CJK;w_COMPATIBILITY;w_IDEOGRAPH_FAA1]);
  (0xfaa2, [w_CJK;w_COMPATIBILITY;w_IDEOGRAPH_FAA2]);
  (0xfaa3, [w_CJK;w_COMPATIBILITY;w_IDEOGRAPH_FAA3]);
  (0xfaa4, [w_CJK;w_COMPATIBILITY;w_IDEOGRAPH_FAA4]);
  (0xfaa5, [w_CJK;w_COMPATIBILITY;w_IDEOGRAPH_FAA5]);
  (0xfaa6, [w_CJK;w_COMPATIBILITY;w_IDEOGRAPH_FAA6]);
  (0xfaa7, [w_CJK;w_COMPATIBILITY;w_IDEOGRAPH_FAA7]);
  (0xfaa8, [w_CJK;w_COMPATIBILITY;w_IDEOGRAPH_FAA8]);
  (0xfaa9, [w_CJK;w_COMPATIBILITY;w_IDEOGRAPH_FAA9]);
  (0xfaaa, [w_CJK;w_COMPATIBILITY;w_IDEOGRAPH_FAAA]);
  (0xfaab, [w_CJK;w_COMPATIBILITY;w_IDEOGRAPH_FAAB]);
  (0xfaac, [w_CJK;w_COMPATIBILITY;w_IDEOGRAPH_FAAC]);
  (0xfaad, [w_CJK;w_COMPATIBILITY;w_IDEOGRAPH_FAAD]);
  (0xfaae, [w_CJK;w_COMPATIBILITY;w_IDEOGRAPH_FAAE]);
  (0xfaaf, [w_CJK;w_COMPATIBILITY;w_IDEOGRAPH_FAAF]);
  (0xfab0, [w_CJK;w_COMPATIBILITY;w_IDEOGRAPH_FAB0]);
  (0xfab1, [w_CJK;w_COMPATIBILITY;w_IDEOGRAPH_FAB1]);
  (0xfab2, [w_CJK;w_COMPATIBILITY;w_IDEOGRAPH_FAB2]);
  (0xfab3, [w_CJK;w_COMPATIBILITY;w_IDEOGRAPH_FAB3]);
  (0xfab4, [w_CJK;w_COMPATIBILITY;w_IDEOGRAPH_FAB4]);
  (0xfab5, [w_CJK;w_COMPATIBILITY;w_IDEOGRAPH_FAB5]);
  (0xfab6, [w_CJK;w_COMPATIBILITY;w_IDEOGRAPH_FAB6]);
  (0xfab7, [w_CJK;w_COMPATIBILITY;w_IDEOGRAPH_FAB7]);
  (0xfab8, [w_CJK;w_COMPATIBILITY;w_IDEOGRAPH_FAB8]);
  (0xfab9, [w_CJK;w_COMPATIBILITY;w_IDEOGRAPH_FAB9]);
  (0xfaba, [w_CJK;w_COMPATIBILITY;w_IDEOGRAPH_FABA]);
  (0xfabb, [w_CJK;w_COMPATIBILITY;w_IDEOGRAPH_FABB]);
  (0xfabc, [w_CJK;w_COMPATIBILITY;w_IDEOGRAPH_FABC]);
  (0xfabd, [w_CJK;w_COMPATIBILITY;w_IDEOGRAPH_FABD]);
  (0xfabe, [w_CJK;w_COMPATIBILITY;w_IDEOGRAPH_FABE]);
  (0xfabf, [w_CJK;w_COMPATIBILITY;w_IDEOGRAPH_FABF]);
  (0xfac0, [w_CJK;w_COMPATIBILITY;w_IDEOGRAPH_FAC0]);
  (0xfac1, [w_CJK;w_COMPATIBILITY;w_IDEOGRAPH_FAC1]);
  (0xfac2, [w_CJK;w_COMPATIBILITY;w_IDEOGRAPH_FAC2]);
  (0xfac3, [w_CJK;w_COMPATIBILITY;w_IDEOGRAPH_FAC3]);
  (0xfac4, [w_CJK;w_COMPATIBILITY;w_IDEOGRAPH_FAC4]);
  (0xfac5, [w_CJK;w_COMPATIBILITY;w_IDEOGRAPH_FAC5]);
  (0xfac6, [w_CJK;w_COMPATIBILITY;w_IDEOGRAPH_FAC6]);
  (0xfac7, [w_CJK;w_COMPATIBILITY;w_IDEOGRAPH_FAC7]);
  (0xfac8, [w_CJK;w_COMPATIBILITY;w_IDEOGRAPH_FAC8]);
  (0xfac9, [w_CJK;w_COMPATIBILITY;w_IDEOGRAPH_FAC9]);
  (0xfaca, [w_CJK;w_COMPATIBILITY;w_IDEOGRAPH_FACA]);
  (0xfacb, [w_CJK;w_COMPATIBILITY;w_IDEOGRAPH_FACB]);
  (0xfacc, [w_CJK;w_COMPATIBILITY;w_IDEOGRAPH_FACC]);
  (0xfacd, [w_CJK;w_COMPATIBILITY;w_IDEOGRAPH_FACD]);
  (0xface, [w_CJK;w_COMPATIBILITY;w_IDEOGRAPH_FACE]);
  (0xfacf, [w_CJK;w_COMPATIBILITY;w_IDEOGRAPH_FACF]);
  (0xfad0, [w_CJK;w_COMPATIBILITY;w_IDEOGRAPH_FAD0]);
  (0xfad1, [w_CJK;w_COMPATIBILITY;w_IDEOGRAPH_FAD1]);
  (0xfad2, [w_CJK;w_COMPATIBILITY;w_IDEOGRAPH_FAD2]);
  (0xfad3, [w_CJK;w_COMPATIBILITY;w_IDEOGRAPH_FAD3]);
  (0xfad4, [w_CJK;w_COMPATIBILITY;w_IDEOGRAPH_FAD4]);
  (0xfad5, [w_CJK;w_COMPATIBILITY;w_IDEOGRAPH_FAD5]);
  (0xfad6, [w_CJK;w_COMPATIBILITY;w_IDEOGRAPH_FAD6]);
  (0xfad7, [w_CJK;w_COMPATIBILITY;w_IDEOGRAPH_FAD7]);
  (0xfad8, [w_CJK;w_COMPATIBILITY;w_IDEOGRAPH_FAD8]);
  (0xfad9, [w_CJK;w_COMPATIBILITY;w_IDEOGRAPH_FAD9]);
  (0xfb00, [w_LATIN;w_SMALL;w_LIGATURE;w_FF]);
  (0xfb01, [w_LATIN;w_SMALL;w_LIGATURE;w_FI]);
  (0xfb02, [w_LATIN;w_SMALL;w_LIGATURE;w_FL]);
  (0xfb03, [w_LATIN;w_SMALL;w_LIGATURE;w_FFI]);
  (0xfb04, [w_LATIN;w_SMALL;w_LIGATURE;w_FFL]);
  (0xfb05, [w_LATIN;w_SMALL;w_LIGATURE;w_LONG;w_S;w_T]);
  (0xfb06, [w_LATIN;w_SMALL;w_LIGATURE;w_ST]);
  (0xfb13, [w_ARMENIAN;w_SMALL;w_LIGATURE;w_MEN;w_NOW]);
  (0xfb14, [w_ARMENIAN;w_SMALL;w_LIGATURE;w_MEN;w_ECH]);
  (0xfb15, [w_ARMENIAN;w_SMALL;w_LIGATURE;w_MEN;w_INI]);
  (0xfb16, [w_ARMENIAN;w_SMALL;w_LIGATURE;w_VEW;w_NOW]);
  (0xfb17, [w_ARMENIAN;w_SMALL;w_LIGATURE;w_MEN;w_XEH]);
  (0xfb1d, [w_HEBREW;w_LETTER;w_YOD;w_WITH;w_HIRIQ]);
  (0xfb1e, [w_HEBREW;w_POINT;w_JUDEO_SPANISH;w_VARIKA]);
  (0xfb1f, [w_HEBREW;w_LIGATURE;w_YIDDISH;w_YOD;w_YOD;w_PATAH]);
  (0xfb20, [w_HEBREW;w_LETTER;w_ALTERNATIVE;w_AYIN]);
  (0xfb21, [w_HEBREW;w_LETTER;w_WIDE;w_ALEF]);
  (0xfb22, [w_HEBREW;w_LETTER;w_WIDE;w_DALET]);
  (0xfb23, [w_HEBREW;w_LETTER;w_WIDE;w_HE]);
  (0xfb24, [w_HEBREW;w_LETTER;w_WIDE;w_KAF]);
  (0xfb25, [w_HEBREW;w_LETTER;w_WIDE;w_LAMED]);
  (0xfb26, [w_HEBREW;w_LETTER;w_WIDE;w_FINAL;w_MEM]);
  (0xfb27, [w_HEBREW;w_LETTER;w_WIDE;w_RESH]);
  (0xfb28, [w_HEBREW;w_LETTER;w_WIDE;w_TAV]);
  (0xfb29, [w_HEBREW;w_LETTER;w_ALTERNATIVE;w_PLUS;w_SIGN]);
  (0xfb2a, [w_HEBREW;w_LETTER;w_SHIN;w_WITH;w_SHIN;w_DOT]);
  (0xfb2b, [w_HEBREW;w_LETTER;w_SHIN;w_WITH;w_SIN;w_DOT]);
  (0xfb2c, [w_HEBREW;w_LETTER;w_SHIN;w_WITH;w_DAGESH;w_AND;w_SHIN;w_DOT]);
  (0xfb2d, [w_HEBREW;w_LETTER;w_SHIN;w_WITH;w_DAGESH;w_AND;w_SIN;w_DOT]);
  (0xfb2e, [w_HEBREW;w_LETTER;w_ALEF;w_WITH;w_PATAH]);
  (0xfb2f, [w_HEBREW;w_LETTER;w_ALEF;w_WITH;w_QAMATS]);
  (0xfb30, [w_HEBREW;w_LETTER;w_ALEF;w_WITH;w_MAPIQ]);
  (0xfb31, [w_HEBREW;w_LETTER;w_BET;w_WITH;w_DAGESH]);
  (0xfb32, [w_HEBREW;w_LETTER;w_GIMEL;w_WITH;w_DAGESH]);
  (0xfb33, [w_HEBREW;w_LETTER;w_DALET;w_WITH;w_DAGESH]);
  (0xfb34, [w_HEBREW;w_LETTER;w_HE;w_WITH;w_MAPIQ]);
  (0xfb35, [w_HEBREW;w_LETTER;w_VAV;w_WITH;w_DAGESH]);
  (0xfb36, [w_HEBREW;w_LETTER;w_ZAYIN;w_WITH;w_DAGESH]);
  (0xfb38, [w_HEBREW;w_LETTER;w_TET;w_WITH;w_DAGESH]);
  (0xfb39, [w_HEBREW;w_LETTER;w_YOD;w_WITH;w_DAGESH]);
  (0xfb3a, [w_HEBREW;w_LETTER;w_FINAL;w_KAF;w_WITH;w_DAGESH]);
  (0xfb3b, [w_HEBREW;w_LETTER;w_KAF;w_WITH;w_DAGESH]);
  (0xfb3c, [w_HEBREW;w_LETTER;w_LAMED;w_WITH;w_DAGESH]);
  (0xfb3e, [w_HEBREW;w_LETTER;w_MEM;w_WITH;w_DAGESH]);
  (0xfb40, [w_HEBREW;w_LETTER;w_NUN;w_WITH;w_DAGESH]);
  (0xfb41, [w_HEBREW;w_LETTER;w_SAMEKH;w_WITH;w_DAGESH]);
  (0xfb43, [w_HEBREW;w_LETTER;w_FINAL;w_PE;w_WITH;w_DAGESH]);
  (0xfb44, [w_HEBREW;w_LETTER;w_PE;w_WITH;w_DAGESH]);
  (0xfb46, [w_HEBREW;w_LETTER;w_TSADI;w_WITH;w_DAGESH]);
  (0xfb47, [w_HEBREW;w_LETTER;w_QOF;w_WITH;w_DAGESH]);
  (0xfb48, [w_HEBREW;w_LETTER;w_RESH;w_WITH;w_DAGESH]);
  (0xfb49, [w_HEBREW;w_LETTER;w_SHIN;w_WITH;w_DAGESH]);
  (0xfb4a, [w_HEBREW;w_LETTER;w_TAV;w_WITH;w_DAGESH]);
  (0xfb4b, [w_HEBREW;w_LETTER;w_VAV;w_WITH;w_HOLAM]);
  (0xfb4c, [w_HEBREW;w_LETTER;w_BET;w_WITH;w_RAFE]);
  (0xfb4d, [w_HEBREW;w_LETTER;w_KAF;w_WITH;w_RAFE]);
  (0xfb4e, [w_HEBREW;w_LETTER;w_PE;w_WITH;w_RAFE]);
  (0xfb4f, [w_HEBREW;w_LIGATURE;w_ALEF;w_LAMED]);
  (0xfb50, [w_ARABIC;w_LETTER;w_ALEF;w_WASLA;w_ISOLATED;w_FORM]);
  (0xfb51, [w_ARABIC;w_LETTER;w_ALEF;w_WASLA;w_FINAL;w_FORM]);
  (0xfb52, [w_ARABIC;w_LETTER;w_BEEH;w_ISOLATED;w_FORM]);
  (0xfb53, [w_ARABIC;w_LETTER;w_BEEH;w_FINAL;w_FORM]);
  (0xfb54, [w_ARABIC;w_LETTER;w_BEEH;w_INITIAL;w_FORM]);
  (0xfb55, [w_ARABIC;w_LETTER;w_BEEH;w_MEDIAL;w_FORM]);
  (0xfb56, [w_ARABIC;w_LETTER;w_PEH;w_ISOLATED;w_FORM]);
  (0xfb57, [w_ARABIC;w_LETTER;w_PEH;w_FINAL;w_FORM]);
  (0xfb58, [w_ARABIC;w_LETTER;w_PEH;w_INITIAL;w_FORM]);
  (0xfb59, [w_ARABIC;w_LETTER;w_PEH;w_MEDIAL;w_FORM]);
  (0xfb5a, [w_ARABIC;w_LETTER;w_BEHEH;w_ISOLATED;w_FORM]);
  (0xfb5b, [w_ARABIC;w_LETTER;w_BEHEH;w_FINAL;w_FORM]);
  (0xfb5c, [w_ARABIC;w_LETTER;w_BEHEH;w_INITIAL;w_FORM]);
  (0xfb5d, [w_ARABIC;w_LETTER;w_BEHEH;w_MEDIAL;w_FORM]);
  (0xfb5e, [w_ARABIC;w_LETTER;w_TTEHEH;w_ISOLATED;w_FORM]);
  (0xfb5f, [w_ARABIC;w_LETTER;w_TTEHEH;w_FINAL;w_FORM]);
  (0xfb60, [w_ARABIC;w_LETTER;w_TTEHEH;w_INITIAL;w_FORM]);
  (0xfb61, [w_ARABIC;w_LETTER;w_TTEHEH;w_MEDIAL;w_FORM]);
  (0xfb62, [w_ARABIC;w_LETTER;w_TEHEH;w_ISOLATED;w_FORM]);
  (0xfb63, [w_ARABIC;w_LETTER;w_TEHEH;w_FINAL;w_FORM]);
  (0xfb64, [w_ARABIC;w_LETTER;w_TEHEH;w_INITIAL;w_FORM]);
  (0xfb65, [w_ARABIC;w_LETTER;w_TEHEH;w_MEDIAL;w_FORM]);
  (0xfb66, [w_ARABIC;w_LETTER;w_TTEH;w_ISOLATED;w_FORM]);
  (0xfb67, [w_ARABIC;w_LETTER;w_TTEH;w_FINAL;w_FORM]);
  (0xfb68, [w_ARABIC;w_LETTER;w_TTEH;w_INITIAL;w_FORM]);
  (0xfb69, [w_ARABIC;w_LETTER;w_TTEH;w_MEDIAL;w_FORM]);
  (0xfb6a, [w_ARABIC;w_LETTER;w_VEH;w_ISOLATED;w_FORM]);
  (0xfb6b, [w_ARABIC;w_LETTER;w_VEH;w_FINAL;w_FORM]);
  (0xfb6c, [w_ARABIC;w_LETTER;w_VEH;w_INITIAL;w_FORM]);
  (0xfb6d, [w_ARABIC;w_LETTER;w_VEH;w_MEDIAL;w_FORM]);
  (0xfb6e, [w_ARABIC;w_LETTER;w_PEHEH;w_ISOLATED;w_FORM]);
  (0xfb6f, [w_ARABIC;w_LETTER;w_PEHEH;w_FINAL;w_FORM]);
  (0xfb70, [w_ARABIC;w_LETTER;w_PEHEH;w_INITIAL;w_FORM]);
  (0xfb71, [w_ARABIC;w_LETTER;w_PEHEH;w_MEDIAL;w_FORM]);
  (0xfb72, [w_ARABIC;w_LETTER;w_DYEH;w_ISOLATED;w_FORM]);
  (0xfb73, [w_ARABIC;w_LETTER;w_DYEH;w_FINAL;w_FORM]);
  (0xfb74, [w_ARABIC;w_LETTER;w_DYEH;w_INITIAL;w_FORM]);
  (0xfb75, [w_ARABIC;w_LETTER;w_DYEH;w_MEDIAL;w_FORM]);
  (0xfb76, [w_ARABIC;w_LETTER;w_NYEH;w_ISOLATED;w_FORM]);
  (0xfb77, [w_ARABIC;w_LETTER;w_NYEH;w_FINAL;w_FORM]);
  (0xfb78, [w_ARABIC;w_LETTER;w_NYEH;w_INITIAL;w_FORM]);
  (0xfb79, [w_ARABIC;w_LETTER;w_NYEH;w_MEDIAL;w_FORM]);
  (0xfb7a, [w_ARABIC;w_LETTER;w_TCHEH;w_ISOLATED;w_FORM]);
  (0xfb7b, [w_ARABIC;w_LETTER;w_TCHEH;w_FINAL;w_FORM]);
  (0xfb7c, [w_ARABIC;w_LETTER;w_TCHEH;w_INITIAL;w_FORM]);
  (0xfb7d, [w_ARABIC;w_LETTER;w_TCHEH;w_MEDIAL;w_FORM]);
  (0xfb7e, [w_ARABIC;w_LETTER;w_TCHEHEH;w_ISOLATED;w_FORM]);
  (0xfb7f, [w_ARABIC;w_LETTER;w_TCHEHEH;w_FINAL;w_FORM]);
  (0xfb80, [w_ARABIC;w_LETTER;w_TCHEHEH;w_INITIAL;w_FORM]);
  (0xfb81, [w_ARABIC;w_LETTER;w_TCHEHEH;w_MEDIAL;w_FORM]);
  (0xfb82, [w_ARABIC;w_LETTER;w_DDAHAL;w_ISOLATED;w_FORM]);
  (0xfb83, [w_ARABIC;w_LETTER;w_DDAHAL;w_FINAL;w_FORM]);
  (0xfb84, [w_ARABIC;w_LETTER;w_DAHAL;w_ISOLATED;w_FORM]);
  (0xfb85, [w_ARABIC;w_LETTER;w_DAHAL;w_FINAL;w_FORM]);
  (0xfb86, [w_ARABIC;w_LETTER;w_DUL;w_ISOLATED;w_FORM]);
  (0xfb87, [w_ARABIC;w_LETTER;w_DUL;w_FINAL;w_FORM]);
  (0xfb88, [w_ARABIC;w_LETTER;w_DDAL;w_ISOLATED;w_FORM]);
  (0xfb89, [w_ARABIC;w_LETTER;w_DDAL;w_FINAL;w_FORM]);
  (0xfb8a, [w_ARABIC;w_LETTER;w_JEH;w_ISOLATED;w_FORM]);
  (0xfb8b, [w_ARABIC;w_LETTER;w_JEH;w_FINAL;w_FORM]);
  (0xfb8c, [w_ARABIC;w_LETTER;w_RREH;w_ISOLATED;w_FORM]);
  (0xfb8d, [w_ARABIC;w_LETTER;w_RREH;w_FINAL;w_FORM]);
  (0xfb8e, [w_ARABIC;w_LETTER;w_KEHEH;w_ISOLATED;w_FORM]);
  (0xfb8f, [w_ARABIC;w_LETTER;w_KEHEH;w_FINAL;w_FORM]);
  (0xfb90, [w_ARABIC;w_LETTER;w_KEHEH;w_INITIAL;w_FORM]);
  (0xfb91, [w_ARABIC;w_LETTER;w_KEHEH;w_MEDIAL;w_FORM]);
  (0xfb92, [w_ARABIC;w_LETTER;w_GAF;w_ISOLATED;w_FORM]);
  (0xfb93, [w_ARABIC;w_LETTER;w_GAF;w_FINAL;w_FORM]);
  (0xfb94, [w_ARABIC;w_LETTER;w_GAF;w_INITIAL;w_FORM]);
  (0xfb95, [w_ARABIC;w_LETTER;w_GAF;w_MEDIAL;w_FORM]);
  (0xfb96, [w_ARABIC;w_LETTER;w_GUEH;w_ISOLATED;w_FORM]);
  (0xfb97, [w_ARABIC;w_LETTER;w_GUEH;w_FINAL;w_FORM]);
  (0xfb98, [w_ARABIC;w_LETTER;w_GUEH;w_INITIAL;w_FORM]);
  (0xfb99, [w_ARABIC;w_LETTER;w_GUEH;w_MEDIAL;w_FORM]);
  (0xfb9a, [w_ARABIC;w_LETTER;w_NGOEH;w_ISOLATED;w_FORM]);
  (0xfb9b, [w_ARABIC;w_LETTER;w_NGOEH;w_FINAL;w_FORM]);
  (0xfb9c, [w_ARABIC;w_LETTER;w_NGOEH;w_INITIAL;w_FORM]);
  (0xfb9d, [w_ARABIC;w_LETTER;w_NGOEH;w_MEDIAL;w_FORM]);
  (0xfb9e, [w_ARABIC;w_LETTER;w_NOON;w_GHUNNA;w_ISOLATED;w_FORM]);
  (0xfb9f, [w_ARABIC;w_LETTER;w_NOON;w_GHUNNA;w_FINAL;w_FORM]);
  (0xfba0, [w_ARABIC;w_LETTER;w_RNOON;w_ISOLATED;w_FORM]);
  (0xfba1, [w_ARABIC;w_LETTER;w_RNOON;w_FINAL;w_FORM]);
  (0xfba2, [w_ARABIC;w_LETTER;w_RNOON;w_INITIAL;w_FORM]);
  (0xfba3, [w_ARABIC;w_LETTER;w_RNOON;w_MEDIAL;w_FORM]);
  (0xfba4, [w_ARABIC;w_LETTER;w_HEH;w_WITH;w_YEH;w_ABOVE;w_ISOLATED;w_FORM]);
  (0xfba5, [w_ARABIC;w_LETTER;w_HEH;w_WITH;w_YEH;w_ABOVE;w_FINAL;w_FORM]);
  (0xfba6, [w_ARABIC;w_LETTER;w_HEH;w_GOAL;w_ISOLATED;w_FORM]);
  (0xfba7, [w_ARABIC;w_LETTER;w_HEH;w_GOAL;w_FINAL;w_FORM]);
  (0xfba8, [w_ARABIC;w_LETTER;w_HEH;w_GOAL;w_INITIAL;w_FORM]);
  (0xfba9, [w_ARABIC;w_LETTER;w_HEH;w_GOAL;w_MEDIAL;w_FORM]);
  (0xfbaa, [w_ARABIC;w_LETTER;w_HEH;w_DOACHASHMEE;w_ISOLATED;w_FORM]);
  (0xfbab, [w_ARABIC;w_LETTER;w_HEH;w_DOACHASHMEE;w_FINAL;w_FORM]);
  (0xfbac, [w_ARABIC;w_LETTER;w_HEH;w_DOACHASHMEE;w_INITIAL;w_FORM]);
  (0xfbad, [w_ARABIC;w_LETTER;w_HEH;w_DOACHASHMEE;w_MEDIAL;w_FORM]);
  (0xfbae, [w_ARABIC;w_LETTER;w_YEH;w_BARREE;w_ISOLATED;w_FORM]);
  (0xfbaf, [w_ARABIC;w_LETTER;w_YEH;w_BARREE;w_FINAL;w_FORM]);
  (0xfbb0, [w_ARABIC;w_LETTER;w_YEH;w_BARREE;w_WITH;w_HAMZA;w_ABOVE;w_ISOLATED;w_FORM]);
  (0xfbb1, [w_ARABIC;w_LETTER;w_YEH;w_BARREE;w_WITH;w_HAMZA;w_ABOVE;w_FINAL;w_FORM]);
  (0xfbb2, [w_ARABIC;w_SYMBOL;w_DOT;w_ABOVE]);
  (0xfbb3, [w_ARABIC;w_SYMBOL;w_DOT;w_BELOW]);
  (0xfbb4, [w_ARABIC;w_SYMBOL;w_TWO;w_DOTS;w_ABOVE]);
  (0xfbb5, [w_ARABIC;w_SYMBOL;w_TWO;w_DOTS;w_BELOW]);
  (0xfbb6, [w_ARABIC;w_SYMBOL;w_THREE;w_DOTS;w_ABOVE]);
  (0xfbb7, [w_ARABIC;w_SYMBOL;w_THREE;w_DOTS;w_BELOW]);
  (0xfbb8, [w_ARABIC;w_SYMBOL;w_THREE;w_DOTS;w_POINTING;w_DOWNWARDS;w_ABOVE]);
  (0xfbb9, [w_ARABIC;w_SYMBOL;w_THREE;w_DOTS;w_POINTING;w_DOWNWARDS;w_BELOW]);
  (0xfbba, [w_ARABIC;w_SYMBOL;w_FOUR;w_DOTS;w_ABOVE]);
  (0xfbbb, [w_ARABIC;w_SYMBOL;w_FOUR;w_DOTS;w_BELOW]);
  (0xfbbc, [w_ARABIC;w_SYMBOL;w_DOUBLE;w_VERTICAL;w_BAR;w_BELOW]);
  (0xfbbd, [w_ARABIC;w_SYMBOL;w_TWO;w_DOTS;w_VERTICALLY;w_ABOVE]);
  (0xfbbe, [w_ARABIC;w_SYMBOL;w_TWO;w_DOTS;w_VERTICALLY;w_BELOW]);
  (0xfbbf, [w_ARABIC;w_SYMBOL;w_RING]);
  (0xfbc0, [w_ARABIC;w_SYMBOL;w_SMALL;w_TAH;w_ABOVE]);
  (0xfbc1, [w_ARABIC;w_SYMBOL;w_SMALL;w_TAH;w_BELOW]);
  (0xfbd3, [w_ARABIC;w_LETTER;w_NG;w_ISOLATED;w_FORM]);
  (0xfbd4, [w_ARABIC;w_LETTER;w_NG;w_FINAL;w_FORM]);
  (0xfbd5, [w_ARABIC;w_LETTER;w_NG;w_INITIAL;w_FORM]);
  (0xfbd6, [w_ARABIC;w_LETTER;w_NG;w_MEDIAL;w_FORM]);
  (0xfbd7, [w_ARABIC;w_LETTER;w_U;w_ISOLATED;w_FORM]);
  (0xfbd8, [w_ARABIC;w_LETTER;w_U;w_FINAL;w_FORM]);
  (0xfbd9, [w_ARABIC;w_LETTER;w_OE;w_ISOLATED;w_FORM]);
  (0xfbda, [w_ARABIC;w_LETTER;w_OE;w_FINAL;w_FORM]);
  (0xfbdb, [w_ARABIC;w_LETTER;w_YU;w_ISOLATED;w_FORM]);
  (0xfbdc, [w_ARABIC;w_LETTER;w_YU;w_FINAL;w_FORM]);
  (0xfbdd, [w_ARABIC;w_LETTER;w_U;w_WITH;w_HAMZA;w_ABOVE;w_ISOLATED;w_FORM]);
  (0xfbde, [w_ARABIC;w_LETTER;w_VE;w_ISOLATED;w_FORM]);
  (0xfbdf, [w_ARABIC;w_LETTER;w_VE;w_FINAL;w_FORM]);
  (0xfbe0, [w_ARABIC;w_LETTER;w_KIRGHIZ;w_OE;w_ISOLATED;w_FORM]);
  (0xfbe1, [w_ARABIC;w_LETTER;w_KIRGHIZ;w_OE;w_FINAL;w_FORM]);
  (0xfbe2, [w_ARABIC;w_LETTER;w_KIRGHIZ;w_YU;w_ISOLATED;w_FORM]);
  (0xfbe3, [w_ARABIC;w_LETTER;w_KIRGHIZ;w_YU;w_FINAL;w_FORM]);
  (0xfbe4, [w_ARABIC;w_LETTER;w_E;w_ISOLATED;w_FORM]);
  (0xfbe5, [w_ARABIC;w_LETTER;w_E;w_FINAL;w_FORM]);
  (0xfbe6, [w_ARABIC;w_LETTER;w_E;w_INITIAL;w_FORM]);
  (0xfbe7, [w_ARABIC;w_LETTER;w_E;w_MEDIAL;w_FORM]);
  (0xfbe8, [w_ARABIC;w_LETTER;w_UIGHUR;w_KAZAKH;w_KIRGHIZ;w_ALEF;w_MAKSURA;w_INITIAL;w_FORM]);
  (0xfbe9, [w_ARABIC;w_LETTER;w_UIGHUR;w_KAZAKH;w_KIRGHIZ;w_ALEF;w_MAKSURA;w_MEDIAL;w_FORM]);
  (0xfbea, [w_ARABIC;w_LIGATURE;w_YEH;w_WITH;w_HAMZA;w_ABOVE;w_WITH;w_ALEF;w_ISOLATED;w_FORM]);
  (0xfbeb, [w_ARABIC;w_LIGATURE;w_YEH;w_WITH;w_HAMZA;w_ABOVE;w_WITH;w_ALEF;w_FINAL;w_FORM]);
  (0xfbec, [w_ARABIC;w_LIGATURE;w_YEH;w_WITH;w_HAMZA;w_ABOVE;w_WITH;w_AE;w_ISOLATED;w_FORM]);
  (0xfbed, [w_ARABIC;w_LIGATURE;w_YEH;w_WITH;w_HAMZA;w_ABOVE;w_WITH;w_AE;w_FINAL;w_FORM]);
  (0xfbee, [w_ARABIC;w_LIGATURE;w_YEH;w_WITH;w_HAMZA;w_ABOVE;w_WITH;w_WAW;w_ISOLATED;w_FORM]);
  (0xfbef, [w_ARABIC;w_LIGATURE;w_YEH;w_WITH;w_HAMZA;w_ABOVE;w_WITH;w_WAW;w_FINAL;w_FORM]);
  (0xfbf0, [w_ARABIC;w_LIGATURE;w_YEH;w_WITH;w_HAMZA;w_ABOVE;w_WITH;w_U;w_ISOLATED;w_FORM]);
  (0xfbf1, [w_ARABIC;w_LIGATURE;w_YEH;w_WITH;w_HAMZA;w_ABOVE;w_WITH;w_U;w_FINAL;w_FORM]);
  (0xfbf2, [w_ARABIC;w_LIGATURE;w_YEH;w_WITH;w_HAMZA;w_ABOVE;w_WITH;w_OE;w_ISOLATED;w_FORM]);
  (0xfbf3, [w_ARABIC;w_LIGATURE;w_YEH;w_WITH;w_HAMZA;w_ABOVE;w_WITH;w_OE;w_FINAL;w_FORM]);
  (0xfbf4, [w_ARABIC;w_LIGATURE;w_YEH;w_WITH;w_HAMZA;w_ABOVE;w_WITH;w_YU;w_ISOLATED;w_FORM]);
  (0xfbf5, [w_ARABIC;w_LIGATURE;w_YEH;w_WITH;w_HAMZA;w_ABOVE;w_WITH;w_YU;w_FINAL;w_FORM]);
  (0xfbf6, [w_ARABIC;w_LIGATURE;w_YEH;w_WITH;w_HAMZA;w_ABOVE;w_WITH;w_E;w_ISOLATED;w_FORM]);
  (0xfbf7, [w_ARABIC;w_LIGATURE;w_YEH;w_WITH;w_HAMZA;w_ABOVE;w_WITH;w_E;w_FINAL;w_FORM]);
  (0xfbf8, [w_ARABIC;w_LIGATURE;w_YEH;w_WITH;w_HAMZA;w_ABOVE;w_WITH;w_E;w_INITIAL;w_FORM]);
  (0xfbf9, [w_ARABIC;w_LIGATURE;w_UIGHUR;w_KIRGHIZ;w_YEH;w_WITH;w_HAMZA;w_ABOVE;w_WITH;w_ALEF;w_MAKSURA;w_ISOLATED;w_FORM]);
  (0xfbfa, [w_ARABIC;w_LIGATURE;w_UIGHUR;w_KIRGHIZ;w_YEH;w_WITH;w_HAMZA;w_ABOVE;w_WITH;w_ALEF;w_MAKSURA;w_FINAL;w_FORM]);
  (0xfbfb, [w_ARABIC;w_LIGATURE;w_UIGHUR;w_KIRGHIZ;w_YEH;w_WITH;w_HAMZA;w_ABOVE;w_WITH;w_ALEF;w_MAKSURA;w_INITIAL;w_FORM]);
  (0xfbfc, [w_ARABIC;w_LETTER;w_FARSI;w_YEH;w_ISOLATED;w_FORM]);
  (0xfbfd, [w_ARABIC;w_LETTER;w_FARSI;w_YEH;w_FINAL;w_FORM]);
  (0xfbfe, [w_ARABIC;w_LETTER;w_FARSI;w_YEH;w_INITIAL;w_FORM]);
  (0xfbff, [w_ARABIC;w_LETTER;w_FARSI;w_YEH;w_MEDIAL;w_FORM]);
  (0xfc00, [w_ARABIC;w_LIGATURE;w_YEH;w_WITH;w_HAMZA;w_ABOVE;w_WITH;w_JEEM;w_ISOLATED;w_FORM]);
  (0xfc01, [w_ARABIC;w_LIGATURE;w_YEH;w_WITH;w_HAMZA;w_ABOVE;w_WITH;w_HAH;w_ISOLATED;w_FORM]);
  (0xfc02, [w_ARABIC;w_LIGATURE;w_YEH;w_WITH;w_HAMZA;w_ABOVE;w_WITH;w_MEEM;w_ISOLATED;w_FORM]);
  (0xfc03, [w_ARABIC;w_LIGATURE;w_YEH;w_WITH;w_HAMZA;w_ABOVE;w_WITH;w_ALEF;w_MAKSURA;w_ISOLATED;w_FORM]);
  (0xfc04, [w_ARABIC;w_LIGATURE;w_YEH;w_WITH;w_HAMZA;w_ABOVE;w_WITH;w_YEH;w_ISOLATED;w_FORM]);
  (0xfc05, [w_ARABIC;w_LIGATURE;w_BEH;w_WITH;w_JEEM;w_ISOLATED;w_FORM]);
  (0xfc06, [w_ARABIC;w_LIGATURE;w_BEH;w_WITH;w_HAH;w_ISOLATED;w_FORM]);
  (0xfc07, [w_ARABIC;w_LIGATURE;w_BEH;w_WITH;w_KHAH;w_ISOLATED;w_FORM]);
  (0xfc08, [w_ARABIC;w_LIGATURE;w_BEH;w_WITH;w_MEEM;w_ISOLATED;w_FORM]);
  (0xfc09, [w_ARABIC;w_LIGATURE;w_BEH;w_WITH;w_ALEF;w_MAKSURA;w_ISOLATED;w_FORM]);
  (0xfc0a, [w_ARABIC;w_LIGATURE;w_BEH;w_WITH;w_YEH;w_ISOLATED;w_FORM]);
  (0xfc0b, [w_ARABIC;w_LIGATURE;w_TEH;w_WITH;w_JEEM;w_ISOLATED;w_FORM]);
  (0xfc0c, [w_ARABIC;w_LIGATURE;w_TEH;w_WITH;w_HAH;w_ISOLATED;w_FORM]);
  (0xfc0d, [w_ARABIC;w_LIGATURE;w_TEH;w_WITH;w_KHAH;w_ISOLATED;w_FORM]);
  (0xfc0e, [w_ARABIC;w_LIGATURE;w_TEH;w_WITH;w_MEEM;w_ISOLATED;w_FORM]);
  (0xfc0f, [w_ARABIC;w_LIGATURE;w_TEH;w_WITH;w_ALEF;w_MAKSURA;w_ISOLATED;w_FORM]);
  (0xfc10, [w_ARABIC;w_LIGATURE;w_TEH;w_WITH;w_YEH;w_ISOLATED;w_FORM]);
  (0xfc11, [w_ARABIC;w_LIGATURE;w_THEH;w_WITH;w_JEEM;w_ISOLATED;w_FORM]);
  (0xfc12, [w_ARABIC;w_LIGATURE;w_THEH;w_WITH;w_MEEM;w_ISOLATED;w_FORM])].

Definition NAMES_39 : list (N * (list str)) := [
  (0xfc13, [w_ARABIC;w_LIGATURE;w_THEH;w_WITH;w_ALEF;w_MAKSURA;w_ISOLATED;w_FORM]);
  (0xfc14, [w_ARABIC;w_LIGATURE;w_THEH;w_WITH;w_YEH;w_ISOLATED;w_FORM]);
  (0xfc15, [w_ARABIC;w_LIGATURE;w_JEEM;w_WITH;w_HAH;w_ISOLATED;w_FORM]);
  (0xfc16, [w_ARABIC;w_LIGATURE;w_JEEM;w_WITH;w_MEEM;w_ISOLATED;w_FORM]);
  (0xfc17, [w_ARABIC;w_LIGATURE;w_HAH;w_WITH;w_JEEM;w_ISOLATED;w_FORM]);
  (0xfc18, [w_ARABIC;w_LIGATURE;w_HAH;w_WITH;w_MEEM;w_ISOLATED;w_FORM]);
  (0xfc19, [w_ARABIC;w_LIGATURE;w_KHAH;w_WITH;w_JEEM;w_ISOLATED;w_FORM]);
  (0xfc1a, [w_ARABIC;w_LIGATURE;w_KHAH;w_WITH;w_HAH;w_ISOLATED;w_FORM]);
  (0xfc1b, [w_ARABIC;w_LIGATURE;w_KHAH;w_WITH;w_MEEM;w_ISOLATED;w_FORM]);
  (0xfc1c, [w_ARABIC;w_LIGATURE;w_SEEN;w_WITH;w_JEEM;w_ISOLATED;w_FORM]);
  (0xfc1d, [w_ARABIC;w_LIGATURE;w_SEEN;w_WITH;w_HAH;w_ISOLATED;w_FORM]);
  (0xfc1e, [w_ARABIC;w_LIGATURE;w_SEEN;w_WITH;w_KHAH;w_ISOLATED;w_FORM]);
  (0xfc1f, [w_ARABIC;w_LIGATURE;w_SEEN;w_WITH;w_MEEM;w_ISOLATED;w_FORM]);
  (0xfc20, [w_ARABIC;w_LIGATURE;w_SAD;w_WITH;w_HAH;w_ISOLATED;w_FORM]);
  (0xfc21, [w_ARABIC;w_LIGATURE;w_SAD;w_WITH;w_MEEM;w_ISOLATED;w_FORM]);
  (0xfc22, [w_ARABIC;w_LIGATURE;w_DAD;w_WITH;w_JEEM;w_ISOLATED;w_FORM]);
  (0xfc23, [w_ARABIC;w_LIGATURE;w_DAD;w_WITH;w_HAH;w_ISOLATED;w_FORM]);
  (0xfc24, [w_ARABIC;w_LIGATURE;w_DAD;w_WITH;w_KHAH;w_ISOLATED;w_FORM]);
  (0xfc25, [w_ARABIC;w_LIGATURE;w_DAD;w_WITH;w_MEEM;w_ISOLATED;w_FORM]);
  (0xfc26, [w_ARABIC;w_LIGATURE;w_TAH;w_WITH;w_HAH;w_ISOLATED;w_FORM]);
  (0xfc27, [w_ARABIC;w_LIGATURE;w_TAH;w_WITH;w_MEEM;w_ISOLATED;w_FORM]);
  (0xfc28, [w_ARABIC;w_LIGATURE;w_ZAH;w_WITH;w_MEEM;w_ISOLATED;w_FORM]);
  (0xfc29, [w_ARABIC;w_LIGATURE;w_AIN;w_WITH;w_JEEM;w_ISOLATED;w_FORM]);
  (0xfc2a, [w_ARABIC;w_LIGATURE;w_AIN;w_WITH;w_MEEM;w_ISOLATED;w_FORM]);
  (0xfc2b, [w_ARABIC;w_LIGATURE;w_GHAIN;w_WITH;w_JEEM;w_ISOLATED;w_FORM]);
  (0xfc2c, [w_ARABIC;w_LIGATURE;w_GHAIN;w_WITH;w_MEEM;w_ISOLATED;w_FORM]);
  (0xfc2d, [w_ARABIC;w_LIGATURE;w_FEH;w_WITH;w_JEEM;w_ISOLATED;w_FORM]);
  (0xfc2e, [w_ARABIC;w_LIGATURE;w_FEH;w_WITH;w_HAH;w_ISOLATED;w_FORM]);
  (0xfc2f, [w_ARABIC;w_LIGATURE;w_FEH;w_WITH;w_KHAH;w_ISOLATED;w_FORM]);
  (0xfc30, [w_ARABIC;w_LIGATURE;w_FEH;w_WITH;w_MEEM;w_ISOLATED;w_FORM]);
  (0xfc31, [w_ARABIC;w_LIGATURE;w_FEH;w_WITH;w_ALEF;w_MAKSURA;w_ISOLATED;w_FORM]);
  (0xfc32, [w_ARABIC;w_LIGATURE;w_FEH;w_WITH;w_YEH;w_ISOLATED;w_FORM]);
  (0xfc33, [w_ARABIC;w_LIGATURE;w_QAF;w_WITH;w_HAH;w_ISOLATED;w_FORM]);
  (0xfc34, [w_ARABIC;w_LIGATURE;w_QAF;w_WITH;w_MEEM;w_ISOLATED;w_FORM]);
  (0xfc35, [w_ARABIC;w_LIGATURE;w_QAF;w_WITH;w_ALEF;w_MAKSURA;w_ISOLATED;w_FORM]);
  (0xfc36, [w_ARABIC;w_LIGATURE;w_QAF;w_WITH;w_YEH;w_ISOLATED;w_FORM]);
  (0xfc37, [w_ARABIC;w_LIGATURE;w_KAF;w_WITH;w_ALEF;w_ISOLATED;w_FORM]);
  (0xfc38, [w_ARABIC;w_LIGATURE;w_KAF;w_WITH;w_JEEM;w_ISOLATED;w_FORM]);
  (0xfc39, [w_ARABIC;w_LIGATURE;w_KAF;w_WITH;w_HAH;w_ISOLATED;w_FORM]);
  (0xfc3a, [w_ARABIC;w_LIGATURE;w_KAF;w_WITH;w_KHAH;w_ISOLATED;w_FORM]);
  (0xfc3b, [w_ARABIC;w_LIGATURE;w_KAF;w_WITH;w_LAM;w_ISOLATED;w_FORM]);
  (0xfc3c, [w_ARABIC;w_LIGATURE;w_KAF;w_WITH;w_MEEM;w_ISOLATED;w_FORM]);
  (0xfc3d, [w_ARABIC;w_LIGATURE;w_KAF;w_WITH;w_ALEF;w_MAKSURA;w_ISOLATED;w_FORM]);
  (0xfc3e, [w_ARABIC;w_LIGATURE;w_KAF;w_WITH;w_YEH;w_ISOLATED;w_FORM]);
  (0xfc3f, [w_ARABIC;w_LIGATURE;w_LAM;w_WITH;w_JEEM;w_ISOLATED;w_FORM]);
  (0xfc40, [w_ARABIC;w_LIGATURE;w_LAM;w_WITH;w_HAH;w_ISOLATED;w_FORM]);
  (0xfc41, [w_ARABIC;w_LIGATURE;w_LAM;w_WITH;w_KHAH;w_ISOLATED;w_FORM]);
  (0xfc42, [w_ARABIC;w_LIGATURE;w_LAM;w_WITH;w_MEEM;w_ISOLATED;w_FORM]);
  (0xfc43, [w_ARABIC;w_LIGATURE;w_LAM;w_WITH;w_ALEF;w_MAKSURA;w_ISOLATED;w_FORM]);
  (0xfc44, [w_ARABIC;w_LIGATURE;w_LAM;w_WITH;w_YEH;w_ISOLATED;w_FORM]);
  (0xfc45, [w_ARABIC;w_LIGATURE;w_MEEM;w_WITH;w_JEEM;w_ISOLATED;w_FORM]);
  (0xfc46, [w_ARABIC;w_LIGATURE;w_MEEM;w_WITH;w_HAH;w_ISOLATED;w_FORM]);
  (0xfc47, [w_ARABIC;w_LIGATURE;w_MEEM;w_WITH;w_KHAH;w_ISOLATED;w_FORM]);
  (0xfc48, [w_ARABIC;w_LIGATURE;w_MEEM;w_WITH;w_MEEM;w_ISOLATED;w_FORM]);
  (0xfc49, [w_ARABIC;w_LIGATURE;w_MEEM;w_WITH;w_ALEF;w_MAKSURA;w_ISOLATED;w_FORM]);
  (0xfc4a, [w_ARABIC;w_LIGATURE;w_MEEM;w_WITH;w_YEH;w_ISOLATED;w_FORM]);
  (0xfc4b, [w_ARABIC;w_LIGATURE;w_NOON;w_WITH;w_JEEM;w_ISOLATED;w_FORM]);
  (0xfc4c, [w_ARABIC;w_LIGATURE;w_NOON;w_WITH;w_HAH;w_ISOLATED;w_FORM]);
  (0xfc4d, [w_ARABIC;w_LIGATURE;w_NOON;w_WITH;w_KHAH;w_ISOLATED;w_FORM]);
  (0xfc4e, [w_ARABIC;w_LIGATURE;w_NOON;w_WITH;w_MEEM;w_ISOLATED;w_FORM]);
  (0xfc4f, [w_ARABIC;w_LIGATURE;w_NOON;w_WITH;w_ALEF;w_MAKSURA;w_ISOLATED;w_FORM]);
  (0xfc50, [w_ARABIC;w_LIGATURE;w_NOON;w_WITH;w_YEH;w_ISOLATED;w_FORM]);
  (0xfc51, [w_ARABIC;w_LIGATURE;w_HEH;w_WITH;w_JEEM;w_ISOLATED;w_FORM]);
  (0xfc52, [w_ARABIC;w_LIGATURE;w_HEH;w_WITH;w_MEEM;w_ISOLATED;w_FORM]);
  (0xfc53, [w_ARABIC;w_LIGATURE;w_HEH;w_WITH;w_ALEF;w_MAKSURA;w_ISOLATED;w_FORM]);
  (0xfc54, [w_ARABIC;w_LIGATURE;w_HEH;w_WITH;w_YEH;w_ISOLATED;w_FORM]);
  (0xfc55, [w_ARABIC;w_LIGATURE;w_YEH;w_WITH;w_JEEM;w_ISOLATED;w_FORM]);
  (0xfc56, [w_ARABIC;w_LIGATURE;w_YEH;w_WITH;w_HAH;w_ISOLATED;w_FORM]);
  (0xfc57, [w_ARABIC;w_LIGATURE;w_YEH;w_WITH;w_KHAH;w_ISOLATED;w_FORM]);
  (0xfc58, [w_ARABIC;w_LIGATURE;w_YEH;w_WITH;w_MEEM;w_ISOLATED;w_FORM]);
  (0xfc59, [w_ARABIC;w_LIGATURE;w_YEH;w_WITH;w_ALEF;w_MAKSURA;w_ISOLATED;w_FORM]);
  (0xfc5a, [w_ARABIC;w_LIGATURE;w_YEH;w_WITH;w_YEH;w_ISOLATED;w_FORM]);
  (0xfc5b, [w_ARABIC;w_LIGATURE;w_THAL;w_WITH;w_SUPERSCRIPT;w_ALEF;w_ISOLATED;w_FORM]);
  (0xfc5c, [w_ARABIC;w_LIGATURE;w_REH;w_WITH;w_SUPERSCRIPT;w_ALEF;w_ISOLATED;w_FORM]);
  (0xfc5d, [w_ARABIC;w_LIGATURE;w_ALEF;w_MAKSURA;w_WITH;w_SUPERSCRIPT;w_ALEF;w_ISOLATED;w_FORM]);
  (0xfc5e, [w_ARABIC;w_LIGATURE;w_SHADDA;w_WITH;w_DAMMATAN;w_ISOLATED;w_FORM]);
  (0xfc5f, [w_ARABIC;w_LIGATURE;w_SHADDA;w_WITH;w_KASRATAN;w_ISOLATED;w_FORM]);
  (0xfc60, [w_ARABIC;w_LIGATURE;w_SHADDA;w_WITH;w_FATHA;w_ISOLATED;w_FORM]);
  (0xfc61, [w_ARABIC;w_LIGATURE;w_SHADDA;w_WITH;w_DAMMA;w_ISOLATED;w_FORM]);
  (0xfc62, [w_ARABIC;w_LIGATURE;w_SHADDA;w_WITH;w_KASRA;w_ISOLATED;w_FORM]);
  (0xfc63, [w_ARABIC;w_LIGATURE;w_SHADDA;w_WITH;w_SUPERSCRIPT;w_ALEF;w_ISOLATED;w_FORM]);
  (0xfc64, [w_ARABIC;w_LIGATURE;w_YEH;w_WITH;w_HAMZA;w_ABOVE;w_WITH;w_REH;w_FINAL;w_FORM]);
  (0xfc65, [w_ARABIC;w_LIGATURE;w_YEH;w_WITH;w_HAMZA;w_ABOVE;w_WITH;w_ZAIN;w_FINAL;w_FORM]);
  (0xfc66, [w_ARABIC;w_LIGATURE;w_YEH;w_WITH;w_HAMZA;w_ABOVE;w_WITH;w_MEEM;w_FINAL;w_FORM]);
  (0xfc67, [w_ARABIC;w_LIGATURE;w_YEH;w_WITH;w_HAMZA;w_ABOVE;w_WITH;w_NOON;w_FINAL;w_FORM]);
  (0xfc68, [w_ARABIC;w_LIGATURE;w_YEH;w_WITH;w_HAMZA;w_ABOVE;w_WITH;w_ALEF;w_MAKSURA;w_FINAL;w_FORM]);
  (0xfc69, [w_ARABIC;w_LIGATURE;w_YEH;w_WITH;w_HAMZA;w_ABOVE;w_WITH;w_YEH;w_FINAL;w_FORM]);
  (0xfc6a, [w_ARABIC;w_LIGATURE;w_BEH;w_WITH;w_REH;w_FINAL;w_FORM]);
  (0xfc6b, [w_ARABIC;w_LIGATURE;w_BEH;w_WITH;w_ZAIN;w_FINAL;w_FORM]);
  (0xfc6c, [w_ARABIC;w_LIGATURE;w_BEH;w_WITH;w_MEEM;w_FINAL;w_FORM]);
  (0xfc6d, [w_ARABIC;w_LIGATURE;w_BEH;w_WITH;w_NOON;w_FINAL;w_FORM]);
  (0xfc6e, [w_ARABIC;w_LIGATURE;w_BEH;w_WITH;w_ALEF;w_MAKSURA;w_FINAL;w_FORM]);
  (0xfc6f, [w_ARABIC;w_LIGATURE;w_BEH;w_WITH;w_YEH;w_FINAL;w_FORM]);
  (0xfc70, [w_ARABIC;w_LIGATURE;w_TEH;w_WITH;w_REH;w_FINAL;w_FORM]);
  (0xfc71, [w_ARABIC;w_LIGATURE;w_TEH;w_WITH;w_ZAIN;w_FINAL;w_FORM]);
  (0xfc72, [w_ARABIC;w_LIGATURE;w_TEH;w_WITH;w_MEEM;w_FINAL;w_FORM]);
  (0xfc73, [w_ARABIC;w_LIGATURE;w_TEH;w_WITH;w_NOON;w_FINAL;w_FORM]);
  (0xfc74, [w_ARABIC;w_LIGATURE;w_TEH;w_WITH;w_ALEF;w_MAKSURA;w_FINAL;w_FORM]);
  (0xfc75, [w_ARABIC;w_LIGATURE;w_TEH;w_WITH;w_YEH;w_FINAL;w_FORM]);
  (0xfc76, [w_ARABIC;w_LIGATURE;w_THEH;w_WITH;w_REH;w_FINAL;w_FORM]);
  (0xfc77, [w_ARABIC;w_LIGATURE;w_THEH;w_WITH;w_ZAIN;w_FINAL;w_FORM]);
  (0xfc78, [w_ARABIC;w_LIGATURE;w_THEH;w_WITH;w_MEEM;w_FINAL;w_FORM]);
  (0xfc79, [w_ARABIC;w_LIGATURE;w_THEH;w_WITH;w_NOON;w_FINAL;w_FORM]);
  (0xfc7a, [w_ARABIC;w_LIGATURE;w_THEH;w_WITH;w_ALEF;w_MAKSURA;w_FINAL;w_FORM]);
  (0xfc7b, [w_ARABIC;w_LIGATURE;w_THEH;w_WITH;w_YEH;w_FINAL;w_FORM]);
  (0xfc7c, [w_ARABIC;w_LIGATURE;w_FEH;w_WITH;w_ALEF;w_MAKSURA;w_FINAL;w_FORM]);
  (0xfc7d, [w_ARABIC;w_LIGATURE;w_FEH;w_WITH;w_YEH;w_FINAL;w_FORM]);
  (0xfc7e, [w_ARABIC;w_LIGATURE;w_QAF;w_WITH;w_ALEF;w_MAKSURA;w_FINAL;w_FORM]);
  (0xfc7f, [w_ARABIC;w_LIGATURE;w_QAF;w_WITH;w_YEH;w_FINAL;w_FORM]);
  (0xfc80, [w_ARABIC;w_LIGATURE;w_KAF;w_WITH;w_ALEF;w_FINAL;w_FORM]);
  (0xfc81, [w_ARABIC;w_LIGATURE;w_KAF;w_WITH;w_LAM;w_FINAL;w_FORM]);
  (0xfc82, [w_ARABIC;w_LIGATURE;w_KAF;w_WITH;w_MEEM;w_FINAL;w_FORM]);
  (0xfc83, [w_ARABIC;w_LIGATURE;w_KAF;w_WITH;w_ALEF;w_MAKSURA;w_FINAL;w_FORM]);
  (0xfc84, [w_ARABIC;w_LIGATURE;w_KAF;w_WITH;w_YEH;w_FINAL;w_FORM]);
  (0xfc85, [w_ARABIC;w_LIGATURE;w_LAM;w_WITH;w_MEEM;w_FINAL;w_FORM]);
  (0xfc86, [w_ARABIC;w_LIGATURE;w_LAM;w_WITH;w_ALEF;w_MAKSURA;w_FINAL;w_FORM]);
  (0xfc87, [w_ARABIC;w_LIGATURE;w_LAM;w_WITH;w_YEH;w_FINAL;w_FORM]);
  (0xfc88, [w_ARABIC;w_LIGATURE;w_MEEM;w_WITH;w_ALEF;w_FINAL;w_FORM]);
  (0xfc89, [w_ARABIC;w_LIGATURE;w_MEEM;w_WITH;w_MEEM;w_FINAL;w_FORM]);
  (0xfc8a, [w_ARABIC;w_LIGATURE;w_NOON;w_WITH;w_REH;w_FINAL;w_FORM]);
  (0xfc8b, [w_ARABIC;w_LIGATURE;w_NOON;w_WITH;w_ZAIN;w_FINAL;w_FORM]);
  (0xfc8c, [w_ARABIC;w_LIGATURE;w_NOON;w_WITH;w_MEEM;w_FINAL;w_FORM]);
  (0xfc8d, [w_ARABIC;w_LIGATURE;w_NOON;w_WITH;w_NOON;w_FINAL;w_FORM]);
  (0xfc8e, [w_ARABIC;w_LIGATURE;w_NOON;w_WITH;w_ALEF;w_MAKSURA;w_FINAL;w_FORM]);
  (0xfc8f, [w_ARABIC;w_LIGATURE;w_NOON;w_WITH;w_YEH;w_FINAL;w_FORM]);
  (0xfc90, [w_ARABIC;w_LIGATURE;w_ALEF;w_MAKSURA;w_WITH;w_SUPERSCRIPT;w_ALEF;w_FINAL;w_FORM]);
  (0xfc91, [w_ARABIC;w_LIGATURE;w_YEH;w_WITH;w_REH;w_FINAL;w_FORM]);
  (0xfc92, [w_ARABIC;w_LIGATURE;w_YEH;w_WITH;w_ZAIN;w_FINAL;w_FORM]);
  (0xfc93, [w_ARABIC;w_LIGATURE;w_YEH;w_WITH;w_MEEM;w_FINAL;w_FORM]);
  (0xfc94, [w_ARABIC;w_LIGATURE;w_YEH;w_WITH;w_NOON;w_FINAL;w_FORM]);
  (0xfc95, [w_ARABIC;w_LIGATURE;w_YEH;w_WITH;w_ALEF;w_MAKSURA;w_FINAL;w_FORM]);
  (0xfc96, [w_ARABIC;w_LIGATURE;w_YEH;w_WITH;w_YEH;w_FINAL;w_FORM]);
  (0xfc97, [w_ARABIC;w_LIGATURE;w_YEH;w_WITH;w_HAMZA;w_ABOVE;w_WITH;w_JEEM;w_INITIAL;w_FORM]);
  (0xfc98, [w_ARABIC;w_LIGATURE;w_YEH;w_WITH;w_HAMZA;w_ABOVE;w_WITH;w_HAH;w_INITIAL;w_FORM]);
  (0xfc99, [w_ARABIC;w_LIGATURE;w_YEH;w_WITH;w_HAMZA;w_ABOVE;w_WITH;w_KHAH;w_INITIAL;w_FORM]);
  (0xfc9a, [w_ARABIC;w_LIGATURE;w_YEH;w_WITH;w_HAMZA;w_ABOVE;w_WITH;w_MEEM;w_INITIAL;w_FORM]);
  (0xfc9b, [w_ARABIC;w_LIGATURE;w_YEH;w_WITH;w_HAMZA;w_ABOVE;w_WITH;w_HEH;w_INITIAL;w_FORM]);
  (0xfc9c, [w_ARABIC;w_LIGATURE;w_BEH;w_WITH;w_JEEM;w_INITIAL;w_FORM]);
  (0xfc9d, [w_ARABIC;w_LIGATURE;w_BEH;w_WITH;w_HAH;w_INITIAL;w_FORM]);
  (0xfc9e, [w_ARABIC;w_LIGATURE;w_BEH;w_WITH;w_KHAH;w_INITIAL;w_FORM]);
  (0xfc9f, [w_ARABIC;w_LIGATURE;w_BEH;w_WITH;w_MEEM;w_INITIAL;w_FORM]);
  (0xfca0, [w_ARABIC;w_LIGATURE;w_BEH;w_WITH;w_HEH;w_INITIAL;w_FORM]);
  (0xfca1, [w_ARABIC;w_LIGATURE;w_TEH;w_WITH;w_JEEM;w_INITIAL;w_FORM]);
  (0xfca2, [w_ARABIC;w_LIGATURE;w_TEH;w_WITH;w_HAH;w_INITIAL;w_FORM]);
  (0xfca3, [w_ARABIC;w_LIGATURE;w_TEH;w_WITH;w_KHAH;w_INITIAL;w_FORM]);
  (0xfca4, [w_ARABIC;w_LIGATURE;w_TEH;w_WITH;w_MEEM;w_INITIAL;w_FORM]);
  (0xfca5, [w_ARABIC;w_LIGATURE;w_TEH;w_WITH;w_HEH;w_INITIAL;w_FORM]);
  (0xfca6, [w_ARABIC;w_LIGATURE;w_THEH;w_WITH;w_MEEM;w_INITIAL;w_FORM]);
  (0xfca7, [w_ARABIC;w_LIGATURE;w_JEEM;w_WITH;w_HAH;w_INITIAL;w_FORM]);
  (0xfca8, [w_ARABIC;w_LIGATURE;w_JEEM;w_WITH;w_MEEM;w_INITIAL;w_FORM]);
  (0xfca9, [w_ARABIC;w_LIGATURE;w_HAH;w_WITH;w_JEEM;w_INITIAL;w_FORM]);
  (0xfcaa, [w_ARABIC;w_LIGATURE;w_HAH;w_WITH;w_MEEM;w_INITIAL;w_FORM]);
  (0xfcab, [w_ARABIC;w_LIGATURE;w_KHAH;w_WITH;w_JEEM;w_INITIAL;w_FORM]);
  (0xfcac, [w_ARABIC;w_LIGATURE;w_KHAH;w_WITH;w_MEEM;w_INITIAL;w_FORM]);
  (0xfcad, [w_ARABIC;w_LIGATURE;w_SEEN;w_WITH;w_JEEM;w_INITIAL;w_FORM]);
  (0xfcae, [w_ARABIC;w_LIGATURE;w_SEEN;w_WITH;w_HAH;w_INITIAL;w_FORM]);
  (0xfcaf, [w_ARABIC;w_LIGATURE;w_SEEN;w_WITH;w_KHAH;w_INITIAL;w_FORM]);
  (0xfcb0, [w_ARABIC;w_LIGATURE;w_SEEN;w_WITH;w_MEEM;w_INITIAL;w_FORM]);
  (0xfcb1, [w_ARABIC;w_LIGATURE;w_SAD;w_WITH;w_HAH;w_INITIAL;w_FORM]);
  (0xfcb2, [w_ARABIC;w_LIGATURE;w_SAD;w_WITH;w_KHAH;w_INITIAL;w_FORM]);
  (0xfcb3, [w_ARABIC;w_LIGATURE;w_SAD;w_WITH;w_MEEM;w_INITIAL;w_FORM]);
  (0xfcb4, [w_ARABIC;w_LIGATURE;w_DAD;w_WITH;w_JEEM;w_INITIAL;w_FORM]);
  (0xfcb5, [w_ARABIC;w_LIGATURE;w_DAD;w_WITH;w_HAH;w_INITIAL;w_FORM]);
  (0xfcb6, [w_ARABIC;w_LIGATURE;w_DAD;w_WITH;w_KHAH;w_INITIAL;w_FORM]);
  (0xfcb7, [w_ARABIC;w_LIGATURE;w_DAD;w_WITH;w_MEEM;w_INITIAL;w_FORM]);
  (0xfcb8, [w_ARABIC;w_LIGATURE;w_TAH;w_WITH;w_HAH;w_INITIAL;w_FORM]);
  (0xfcb9, [w_ARABIC;w_LIGATURE;w_ZAH;w_WITH;w_MEEM;w_INITIAL;w_FORM]);
  (0xfcba, [w_ARABIC;w_LIGATURE;w_AIN;w_WITH;w_JEEM;w_INITIAL;w_FORM]);
  (0xfcbb, [w_ARABIC;w_LIGATURE;w_AIN;w_WITH;w_MEEM;w_INITIAL;w_FORM]);
  (0xfcbc, [w_ARABIC;w_LIGATURE;w_GHAIN;w_WITH;w_JEEM;w_INITIAL;w_FORM]);
  (0xfcbd, [w_ARABIC;w_LIGATURE;w_GHAIN;w_WITH;w_MEEM;w_INITIAL;w_FORM]);
  (0xfcbe, [w_ARABIC;w_LIGATURE;w_FEH;w_WITH;w_JEEM;w_INITIAL;w_FORM]);
  (0xfcbf, [w_ARABIC;w_LIGATURE;w_FEH;w_WITH;w_HAH;w_INITIAL;w_FORM]);
  (0xfcc0, [w_ARABIC;w_LIGATURE;w_FEH;w_WITH;w_KHAH;w_INITIAL;w_FORM]);
  (0xfcc1, [w_ARABIC;w_LIGATURE;w_FEH;w_WITH;w_MEEM;w_INITIAL;w_FORM]);
  (0xfcc2, [w_ARABIC;w_LIGATURE;w_QAF;w_WITH;w_HAH;w_INITIAL;w_FORM]);
  (0xfcc3, [w_ARABIC;w_LIGATURE;w_QAF;w_WITH;w_MEEM;w_INITIAL;w_FORM]);
  (0xfcc4, [w_ARABIC;w_LIGATURE;w_KAF;w_WITH;w_JEEM;w_INITIAL;w_FORM]);
  (0xfcc5, [w_ARABIC;w_LIGATURE;w_KAF;w_WITH;w_HAH;w_INITIAL;w_FORM]);
  (0xfcc6, [w_ARABIC;w_LIGATURE;w_KAF;w_WITH;w_KHAH;w_INITIAL;w_FORM]);
  (0xfcc7, [w_ARABIC;w_LIGATURE;w_KAF;w_WITH;w_LAM;w_INITIAL;w_FORM]);
  (0xfcc8, [w_ARABIC;w_LIGATURE;w_KAF;w_WITH;w_MEEM;w_INITIAL;w_FORM]);
  (0xfcc9, [w_ARABIC;w_LIGATURE;w_LAM;w_WITH;w_JEEM;w_INITIAL;w_FORM]);
  (0xfcca, [w_ARABIC;w_LIGATURE;w_LAM;w_WITH;w_HAH;w_INITIAL;w_FORM]);
  (0xfccb, [w_ARABIC;w_LIGATURE;w_LAM;w_WITH;w_KHAH;w_INITIAL;w_FORM]);
  (0xfccc, [w_ARABIC;w_LIGATURE;w_LAM;w_WITH;w_MEEM;w_INITIAL;w_FORM]);
  (0xfccd, [w_ARABIC;w_LIGATURE;w_LAM;w_WITH;w_HEH;w_INITIAL;w_FORM]);
  (0xfcce, [w_ARABIC;w_LIGATURE;w_MEEM;w_WITH;w_JEEM;w_INITIAL;w_FORM]);
  (0xfccf, [w_ARABIC;w_LIGATURE;w_MEEM;w_WITH;w_HAH;w_INITIAL;w_FORM]);
  (0xfcd0, [w_ARABIC;w_LIGATURE;w_MEEM;w_WITH;w_KHAH;w_INITIAL;w_FORM]);
  (0xfcd1, [w_ARABIC;w_LIGATURE;w_MEEM;w_WITH;w_MEEM;w_INITIAL;w_FORM]);
  (0xfcd2, [w_ARABIC;w_LIGATURE;w_NOON;w_WITH;w_JEEM;w_INITIAL;w_FORM]);
  (0xfcd3, [w_ARABIC;w_LIGATURE;w_NOON;w_WITH;w_HAH;w_INITIAL;w_FORM]);
  (0xfcd4, [w_ARABIC;w_LIGATURE;w_NOON;w_WITH;w_KHAH;w_INITIAL;w_FORM]);
  (0xfcd5, [w_ARABIC;w_LIGATURE;w_NOON;w_WITH;w_MEEM;w_INITIAL;w_FORM]);
  (0xfcd6, [w_ARABIC;w_LIGATURE;w_NOON;w_WITH;w_HEH;w_INITIAL;w_FORM]);
  (0xfcd7, [w_ARABIC;w_LIGATURE;w_HEH;w_WITH;w_JEEM;w_INITIAL;w_FORM]);
  (0xfcd8, [w_ARABIC;w_LIGATURE;w_HEH;w_WITH;w_MEEM;w_INITIAL;w_FORM]);
  (0xfcd9, [w_ARABIC;w_LIGATURE;w_HEH;w_WITH;w_SUPERSCRIPT;w_ALEF;w_INITIAL;w_FORM]);
  (0xfcda, [w_ARABIC;w_LIGATURE;w_YEH;w_WITH;w_JEEM;w_INITIAL;w_FORM]);
  (0xfcdb, [w_ARABIC;w_LIGATURE;w_YEH;w_WITH;w_HAH;w_INITIAL;w_FORM]);
  (0xfcdc, [w_ARABIC;w_LIGATURE;w_YEH;w_WITH;w_KHAH;w_INITIAL;w_FORM]);
  (0xfcdd, [w_ARABIC;w_LIGATURE;w_YEH;w_WITH;w_MEEM;w_INITIAL;w_FORM]);
  (0xfcde, [w_ARABIC;w_LIGATURE;w_YEH;w_WITH;w_HEH;w_INITIAL;w_FORM]);
  (0xfcdf, [w_ARABIC;w_LIGATURE;w_YEH;w_WITH;w_HAMZA;w_ABOVE;w_WITH;w_MEEM;w_MEDIAL;w_FORM]);
  (0xfce0, [w_ARABIC;w_LIGATURE;w_YEH;w_WITH;w_HAMZA;w_ABOVE;w_WITH;w_HEH;w_MEDIAL;w_FORM]);
  (0xfce1, [w_ARABIC;w_LIGATURE;w_BEH;w_WITH;w_MEEM;w_MEDIAL;w_FORM]);
  (0xfce2, [w_ARABIC;w_LIGATURE;w_BEH;w_WITH;w_HEH;w_MEDIAL;w_FORM]);
  (0xfce3, [w_ARABIC;w_LIGATURE;w_TEH;w_WITH;w_MEEM;w_MEDIAL;w_FORM]);
  (0xfce4, [w_ARABIC;w_LIGATURE;w_TEH;w_WITH;w_HEH;w_MEDIAL;w_FORM]);
  (0xfce5, [w_ARABIC;w_LIGATURE;w_THEH;w_WITH;w_MEEM;w_MEDIAL;w_FORM]);
  (0xfce6, [w_ARABIC;w_LIGATURE;w_THEH;w_WITH;w_HEH;w_MEDIAL;w_FORM]);
  (0xfce7, [w_ARABIC;w_LIGATURE;w_SEEN;w_WITH;w_MEEM;w_MEDIAL;w_FORM]);
  (0xfce8, [w_ARABIC;w_LIGATURE;w_SEEN;w_WITH;w_HEH;w_MEDIAL;w_FORM]);
  (0xfce9, [w_ARABIC;w_LIGATURE;w_SHEEN;w_WITH;w_MEEM;w_MEDIAL;w_FORM]);
  (0xfcea, [w_ARABIC;w_LIGATURE;w_SHEEN;w_WITH;w_HEH;w_MEDIAL;w_FORM]);
  (0xfceb, [w_ARABIC;w_LIGATURE;w_KAF;w_WITH;w_LAM;w_MEDIAL;w_FORM]);
  (0xfcec, [w_ARABIC;w_LIGATURE;w_KAF;w_WITH;w_MEEM;w_MEDIAL;w_FORM]);
  (0xfced, [w_ARABIC;w_LIGATURE;w_LAM;w_WITH;w_MEEM;w_MEDIAL;w_FORM]);
  (0xfcee, [w_ARABIC;w_LIGATURE;w_NOON;w_WITH;w_MEEM;w_MEDIAL;w_FORM]);
  (0xfcef, [w_ARABIC;w_LIGATURE;w_NOON;w_WITH;w_HEH;w_MEDIAL;w_FORM]);
  (0xfcf0, [w_ARABIC;w_LIGATURE;w_YEH;w_WITH;w_MEEM;w_MEDIAL;w_FORM]);
  (0xfcf1, [w_ARABIC;w_LIGATURE;w_YEH;w_WITH;w_HEH;w_MEDIAL;w_FORM]);
  (0xfcf2, [w_ARABIC;w_LIGATURE;w_SHADDA;w_WITH;w_FATHA;w_MEDIAL;w_FORM]);
  (0xfcf3, [w_ARABIC;w_LIGATURE;w_SHADDA;w_WITH;w_DAMMA;w_MEDIAL;w_FORM]);
  (0xfcf4, [w_ARABIC;w_LIGATURE;w_SHADDA;w_WITH;w_KASRA;w_MEDIAL;w_FORM]);
  (0xfcf5, [w_ARABIC;w_LIGATURE;w_TAH;w_WITH;w_ALEF;w_MAKSURA;w_ISOLATED;w_FORM]);
  (0xfcf6, [w_ARABIC;w_LIGATURE;w_TAH;w_WITH;w_YEH;w_ISOLATED;w_FORM]);
  (0xfcf7, [w_ARABIC;w_LIGATURE;w_AIN;w_WITH;w_ALEF;w_MAKSURA;w_ISOLATED;w_FORM]);
  (0xfcf8, [w_ARABIC;w_LIGATURE;w_AIN;w_WITH;w_YEH;w_ISOLATED;w_FORM]);
  (0xfcf9, [w_ARABIC;w_LIGATURE;w_GHAIN;w_WITH;w_ALEF;w_MAKSURA;w_ISOLATED;w_FORM]);
  (0xfcfa, [w_ARABIC;w_LIGATURE;w_GHAIN;w_WITH;w_YEH;w_ISOLATED;w_FORM]);
  (0xfcfb, [w_ARABIC;w_LIGATURE;w_SEEN;w_WITH;w_ALEF;w_MAKSURA;w_ISOLATED;w_FORM]);
  (0xfcfc, [w_ARABIC;w_LIGATURE;w_SEEN;w_WITH;w_YEH;w_ISOLATED;w_FORM]);
  (0xfcfd, [w_ARABIC;w_LIGATURE;w_SHEEN;w_WITH;w_ALEF;w_MAKSURA;w_ISOLATED;w_FORM]);
  (0xfcfe, [w_ARABIC;w_LIGATURE;w_SHEEN;w_WITH;w_YEH;w_ISOLATED;w_FORM]);
  (0xfcff, [w_ARABIC;w_LIGATURE;w_HAH;w_WITH;w_ALEF;w_MAKSURA;w_ISOLATED;w_FORM]);
  (0xfd00, [w_ARABIC;w_LIGATURE;w_HAH;w_WITH;w_YEH;w_ISOLATED;w_FORM]);
  (0xfd01, [w_ARABIC;w_LIGATURE;w_JEEM;w_WITH;w_ALEF;w_MAKSURA;w_ISOLATED;w_FORM]);
  (0xfd02, [w_ARABIC;w_LIGATURE;w_JEEM;w_WITH;w_YEH;w_ISOLATED;w_FORM]);
  (0xfd03, [w_ARABIC;w_LIGATURE;w_KHAH;w_WITH;w_ALEF;w_MAKSURA;w_ISOLATED;w_FORM]);
  (0xfd04, [w_ARABIC;w_LIGATURE;w_KHAH;w_WITH;w_YEH;w_ISOLATED;w_FORM]);
  (0xfd05, [w_ARABIC;w_LIGATURE;w_SAD;w_WITH;w_ALEF;w_MAKSURA;w_ISOLATED;w_FORM]);
  (0xfd06, [w_ARABIC;w_LIGATURE;w_SAD;w_WITH;w_YEH;w_ISOLATED;w_FORM]);
  (0xfd07, [w_ARABIC;w_LIGATURE;w_DAD;w_WITH;w_ALEF;w_MAKSURA;w_ISOLATED;w_FORM]);
  (0xfd08, [w_ARABIC;w_LIGATURE;w_DAD;w_WITH;w_YEH;w_ISOLATED;w_FORM]);
  (0xfd09, [w_ARABIC;w_LIGATURE;w_SHEEN;w_WITH;w_JEEM;w_ISOLATED;w_FORM]);
  (0xfd0a, [w_ARABIC;w_LIGATURE;w_SHEEN;w_WITH;w_HAH;w_ISOLATED;w_FORM]);
  (0xfd0b, [w_ARABIC;w_LIGATURE;w_SHEEN;w_WITH;w_KHAH;w_ISOLATED;w_FORM]);
  (0xfd0c, [w_ARABIC;w_LIGATURE;w_SHEEN;w_WITH;w_MEEM;w_ISOLATED;w_FORM]);
  (0xfd0d, [w_ARABIC;w_LIGATURE;w_SHEEN;w_WITH;w_REH;w_ISOLATED;w_FORM]);
  (0xfd0e, [w_ARABIC;w_LIGATURE;w_SEEN;w_WITH;w_REH;w_ISOLATED;w_FORM]);
  (0xfd0f, [w_ARABIC;w_LIGATURE;w_SAD;w_WITH;w_REH;w_ISOLATED;w_FORM]);
  (0xfd10, [w_ARABIC;w_LIGATURE;w_DAD;w_WITH;w_REH;w_ISOLATED;w_FORM]);
  (0xfd11, [w_ARABIC;w_LIGATURE;w_TAH;w_WITH;w_ALEF;w_MAKSURA;w_FINAL;w_FORM]);
  (0xfd12, [w_ARABIC;w_LIGATURE;w_TAH;w_WITH;w_YEH;w_FINAL;w_FORM]);
  (0xfd13, [w_ARABIC;w_LIGATURE;w_AIN;w_WITH;w_ALEF;w_MAKSURA;w_FINAL;w_FORM]);
  (0xfd14, [w_ARABIC;w_LIGATURE;w_AIN;w_WITH;w_YEH;w_FINAL;w_FORM]);
  (0xfd15, [w_ARABIC;w_LIGATURE;w_GHAIN;w_WITH;w_ALEF;w_MAKSURA;w_FINAL;w_FORM]);
  (0xfd16, [w_ARABIC;w_LIGATURE;w_GHAIN;w_WITH;w_YEH;w_FINAL;w_FORM]);
  (0xfd17, [w_ARABIC;w_LIGATURE;w_SEEN;w_WITH;w_ALEF;w_MAKSURA;w_FINAL;w_FORM]);
  (0xfd18, [w_ARABIC;w_LIGATURE;w_SEEN;w_WITH;w_YEH;w_FINAL;w_FORM]);
  (0xfd19, [w_ARABIC;w_LIGATURE;w_SHEEN;w_WITH;w_ALEF;w_MAKSURA;w_FINAL;w_FORM]);
  (0xfd1a, [w_ARABIC;w_LIGATURE;w_SHEEN;w_WITH;w_YEH;w_FINAL;w_FORM]);
  (0xfd1b, [w_ARABIC;w_LIGATURE;w_HAH;w_WITH;w_ALEF;w_MAKSURA;w_FINAL;w_FORM]);
  (0xfd1c, [w_ARABIC;w_LIGATURE;w_HAH;w_WITH;w_YEH;w_FINAL;w_FORM]);
  (0xfd1d, [w_ARABIC;w_LIGATURE;w_JEEM;w_WITH;w_ALEF;w_MAKSURA;w_FINAL;w_FORM]);
  (0xfd1e, [w_ARABIC;w_LIGATURE;w_JEEM;w_WITH;w_YEH;w_FINAL;w_FORM]);
  (0xfd1f, [w_ARABIC;w_LIGATURE;w_KHAH;w_WITH;w_ALEF;w_MAKSURA;w_FINAL;w_FORM]);
  (0xfd20, [w_ARABIC;w_LIGATURE;w_KHAH;w_WITH;w_YEH;w_FINAL;w_FORM]);
  (0xfd21, [w_ARABIC;w_LIGATURE;w_SAD;w_WITH;w_ALEF;w_MAKSURA;w_FINAL;w_FORM]);
  (0xfd22, [w_ARABIC;w_LIGATURE;w_SAD;w_WITH;w_YEH;w_FINAL;w_FORM]);
  (0xfd23, [w_ARABIC;w_LIGATURE;w_DAD;w_WITH;w_ALEF;w_MAKSURA;w_FINAL;w_FORM]);
  (0xfd24, [w_ARABIC;w_LIGATURE;w_DAD;w_WITH;w_YEH;w_FINAL;w_FORM]);
  (0xfd25, [w_ARABIC;w_LIGATURE;w_SHEEN;w_WITH;w_JEEM;w_FINAL;w_FORM]);
  (0xfd26, [w_ARABIC;w_LIGATURE;w_SHEEN;w_WITH;w_HAH;w_FINAL;w_FORM]);
  (0xfd27, [w_ARABIC;w_LIGATURE;w_SHEEN;w_WITH;w_KHAH;w_FINAL;w_FORM]);
  (0xfd28, [w_ARABIC;w_LIGATURE;w_SHEEN;w_WITH;w_MEEM;w_FINAL;w_FORM]);
  (0xfd29, [w_ARABIC;w_LIGATURE;w_SHEEN;w_WITH;w_REH;w_FINAL;w_FORM]);
  (0xfd2a, [w_ARABIC;w_LIGATURE;w_SEEN;w_WITH;w_REH;w_FINAL;w_FORM]);
  (0xfd2b, [w_ARABIC;w_LIGATURE;w_SAD;w_WITH;w_REH;w_FINAL;w_FORM]);
  (0xfd2c, [w_ARABIC;w_LIGATURE;w_DAD;w_WITH;w_REH;w_FINAL;w_FORM]);
  (0xfd2d, [w_ARABIC;w_LIGATURE;w_SHEEN;w_WITH;w_JEEM;w_INITIAL;w_FORM]);
  (0xfd2e, [w_ARABIC;w_LIGATURE;w_SHEEN;w_WITH;w_HAH;w_INITIAL;w_FORM]);
  (0xfd2f, [w_ARABIC;w_LIGATURE;w_SHEEN;w_WITH;w_KHAH;w_INITIAL;w_FORM]);
  (0xfd30, [w_ARABIC;w_LIGATURE;w_SHEEN;w_WITH;w_MEEM;w_INITIAL;w_FORM]);
  (0xfd31, [w_ARABIC;w_LIGATURE;w_SEEN;w_WITH;w_HEH;w_INITIAL;w_FORM]);
  (0xfd32, [w_ARABIC;w_LIGATURE;w_SHEEN;w_WITH;w_HEH;w_INITIAL;w_FORM]);
  (0xfd33, [w_ARABIC;w_LIGATURE;w_TAH;w_WITH;w_MEEM;w_INITIAL;w_FORM]);
  (0xfd34, [w_ARABIC;w_LIGATURE;w_SEEN;w_WITH;w_JEEM;w_MEDIAL;w_FORM]);
  (0xfd35, [w_ARABIC;w_LIGATURE;w_SEEN;w_WITH;w_HAH;w_MEDIAL;w_FORM]);
  (0xfd36, [w_ARABIC;w_LIGATURE;w_SEEN;w_WITH;w_KHAH;w_MEDIAL;w_FORM]);
  (0xfd37, [w_ARABIC;w_LIGATURE;w_SHEEN;w_WITH;w_JEEM;w_MEDIAL;w_FORM]);
  (0xfd38, [w_ARABIC;w_LIGATURE;w_SHEEN;w_WITH;w_HAH;w_MEDIAL;w_FORM]);
  (0xfd39, [w_ARABIC;w_LIGATURE;w_SHEEN;w_WITH;w_KHAH;w_MEDIAL;w_FORM]);
  (0xfd3a, [w_ARABIC;w_LIGATURE;w_TAH;w_WITH;w_MEEM;w_MEDIAL;w_FORM]);
  (0xfd3b, [w_ARABIC;w_LIGATURE;w_ZAH;w_WITH;w_MEEM;w_MEDIAL;w_FORM]);
  (0xfd3c, [w_ARABIC;w_LIGATURE;w_ALEF;w_WITH;w_FATHATAN;w_FINAL;w_FORM]);
  (0xfd3d, [w_ARABIC;w_LIGATURE;w_ALEF;w_WITH;w_FATHATAN;w_ISOLATED;w_FORM]);
  (0xfd3e, [w_ORNATE;w_LEFT;w_PARENTHESIS]);
  (0xfd3f, [w_ORNATE;w_RIGHT;w_PARENTHESIS]);
  (0xfd50, [w_ARABIC;w_LIGATURE;w_TEH;w_WITH;w_JEEM;w_WITH;w_MEEM;w_INITIAL;w_FORM]);
  (0xfd51, [w_ARABIC;w_LIGATURE;w_TEH;w_WITH;w_HAH;w_WITH;w_JEEM;w_FINAL;w_FORM]);
  (0xfd52, [w_ARABIC;w_LIGATURE;w_TEH;w_WITH;w_HAH;w_WITH;w_JEEM;w_INITIAL;w_FORM]);
  (0xfd53, [w_ARABIC;w_LIGATURE;w_TEH;w_WITH;w_HAH;w_WITH;w_MEEM;w_INITIAL;w_FORM]);
  (0xfd54, [w_ARABIC;w_LIGATURE;w_TEH;w_WITH;w_KHAH;w_WITH;w_MEEM;w_INITIAL;w_FORM]);
  (0xfd55, [w_ARABIC;w_LIGATURE;w_TEH;w_WITH;w_MEEM;w_WITH;w_JEEM;w_INITIAL;w_FORM]);
  (0xfd56, [w_ARABIC;w_LIGATURE;w_TEH;w_WITH;w_MEEM;w_WITH;w_HAH;w_INITIAL;w_FORM]);
  (0xfd57, [w_ARABIC;w_LIGATURE;w_TEH;w_WITH;w_MEEM;w_WITH;w_KHAH;w_INITIAL;w_FORM]);
  (0xfd58, [w_ARABIC;w_LIGATURE;w_JEEM;w_WITH;w_MEEM;w_WITH;w_HAH;w_FINAL;w_FORM]);
  (0xfd59, [w_ARABIC;w_LIGATURE;w_JEEM;w_WITH;w_MEEM;w_WITH;w_HAH;w_INITIAL;w_FORM]);
  (0xfd5a, [w_ARABIC;w_LIGATURE;w_HAH;w_WITH;w_MEEM;w_WITH;w_YEH;w_FINAL;w_FORM]);
  (0xfd5b, [w_ARABIC;w_LIGATURE;w_HAH;w_WITH;w_MEEM;w_WITH;w_ALEF;w_MAKSURA;w_FINAL;w_FORM]);
  (0xfd5c, [w_ARABIC;w_LIGATURE;w_SEEN;w_WITH;w_HAH;w_WITH;w_JEEM;w_INITIAL;w_FORM]);
  (0xfd5d, [w_ARABIC;w_LIGATURE;w_SEEN;w_WITH;w_JEEM;w_WITH;w_HAH;w_INITIAL;w_FORM]);
  (0xfd5e, [w_ARABIC;w_LIGATURE;w_SEEN;w_WITH;w_JEEM;w_WITH;w_ALEF;w_MAKSURA;w_FINAL;w_FORM]);
  (0xfd5f, [w_ARABIC;w_LIGATURE;w_SEEN;w_WITH;w_MEEM;w_WITH;w_HAH;w_FINAL;w_FORM]);
  (0xfd60, [w_ARABIC;w_LIGATURE;w_SEEN;w_WITH;w_MEEM;w_WITH;w_HAH;w_INITIAL;w_FORM]);
  (0xfd61, [w_ARABIC;w_LIGATURE;w_SEEN;w_WITH;w_MEEM;w_WITH;w_JEEM;w_INITIAL;w_FORM]);
  (0xfd62, [w_ARABIC;w_LIGATURE;w_SEEN;w_WITH;w_MEEM;w_WITH;w_MEEM;w_FINAL;w_FORM]);
  (0xfd63, [w_ARABIC;w_LIGATURE;w_SEEN;w_WITH;w_MEEM;w_WITH;w_MEEM;w_INITIAL;w_FORM]);
  (0xfd64, [w_ARABIC;w_LIGATURE;w_SAD;w_WITH;w_HAH;w_WITH;w_HAH;w_FINAL;w_FORM]);
  (0xfd65, [w_ARABIC;w_LIGATURE;w_SAD;w_WITH;w_HAH;w_WITH;w_HAH;w_INITIAL;w_FORM]);
  (0xfd66, [w_ARABIC;w_LIGATURE;w_SAD;w_WITH;w_MEEM;w_WITH;w_MEEM;w_FINAL;w_FORM]);
  (0xfd67, [w_ARABIC;w_LIGATURE;w_SHEEN;w_WITH;w_HAH;w_WITH;w_MEEM;w_FINAL;w_FORM]);
  (0xfd68, [w_ARABIC;w_LIGATURE;w_SHEEN;w_WITH;w_HAH;w_WITH;w_MEEM;w_INITIAL;w_FORM]);
  (0xfd69, [w_ARABIC;w_LIGATURE;w_SHEEN;w_WITH;w_JEEM;w_WITH;w_YEH;w_FINAL;w_FORM]);
  (0xfd6a, [w_ARABIC;w_LIGATURE;w_SHEEN;w_WITH;w_MEEM;w_WITH;w_KHAH;w_FINAL;w_FORM]);
  (0xfd6b, [w_ARABIC;w_LIGATURE;w_SHEEN;w_WITH;w_MEEM;w_WITH;w_KHAH;w_INITIAL;w_FORM]);
  (0xfd6c, [w_ARABIC;w_LIGATURE;w_SHEEN;w_WITH;w_MEEM;w_WITH;w_MEEM;w_FINAL;w_FORM]);
  (0xfd6d, [w_ARABIC;w_LIGATURE;w_SHEEN;w_WITH;w_MEEM;w_WITH;w_MEEM;w_INITIAL;w_FORM]);
  (0xfd6e, [w_ARABIC;w_LIGATURE;w_DAD;w_WITH;w_HAH;w_WITH;w_ALEF;w_MAKSURA;w_FINAL;w_FORM]);
  (0xfd6f, [w_ARABIC;w_LIGATURE;w_DAD;w_WITH;w_KHAH;w_WITH;w_MEEM;w_FINAL;w_FORM]);
  (0xfd70, [w_ARABIC;w_LIGATURE;w_DAD;w_WITH;w_KHAH;w_WITH;w_MEEM;w_INITIAL;w_FORM]);
  (0xfd71, [w_ARABIC;w_LIGATURE;w_TAH;w_WITH;w_MEEM;w_WITH;w_HAH;w_FINAL;w_FORM]);
  (0xfd72, [w_ARABIC;w_LIGATURE;w_TAH;w_WITH;w_MEEM;w_WITH;w_HAH;w_INITIAL;w_FORM]);
  (0xfd73, [w_ARABIC;w_LIGATURE;w_TAH;w_WITH;w_MEEM;w_WITH;w_MEEM;w_INITIAL;w_FORM]);
  (0xfd74, [w_ARABIC;w_LIGATURE;w_TAH;w_WITH;w_MEEM;w_WITH;w_YEH;w_FINAL;w_FORM]);
  (0xfd75, [w_ARABIC;w_LIGATURE;w_AIN;w_WITH;w_JEEM;w_WITH;w_MEEM;w_FINAL;w_FORM]);
  (0xfd76, [w_ARABIC;w_LIGATURE;w_AIN;w_WITH;w_MEEM;w_WITH;w_MEEM;w_FINAL;w_FORM]);
  (0xfd77, [w_ARABIC;w_LIGATURE;w_AIN;w_WITH;w_MEEM;w_WITH;w_MEEM;w_INITIAL;w_FORM]);
  (0xfd78, [w_ARABIC;w_LIGATURE;w_AIN;w_WITH;w_MEEM;w_WITH;w_ALEF;w_MAKSURA;w_FINAL;w_FORM]);
  (0xfd79, [w_ARABIC;w_LIGATURE;w_GHAIN;w_WITH;w_MEEM;w_WITH;w_MEEM;w_FINAL;w_FORM]);
  (0xfd7a, [w_ARABIC;w_LIGATURE;w_GHAIN;w_WITH;w_MEEM;w_WITH;w_YEH;w_FINAL;w_FORM]);
  (0xfd7b, [w_ARABIC;w_LIGATURE;w_GHAIN;w_WITH;w_MEEM;w_WITH;w_ALEF;w_MAKSURA;w_FINAL;w_FORM]);
  (0xfd7c, [w_ARABIC;w_LIGATURE;w_FEH;w_WITH;w_KHAH;w_WITH;w_MEEM;w_FINAL;w_FORM]);
  (0xfd7d, [w_ARABIC;w_LIGATURE;w_FEH;w_WITH;w_KHAH;w_WITH;w_MEEM;w_INITIAL;w_FORM]);
  (0xfd7e, [w_ARABIC;w_LIGATURE;w_QAF;w_WITH;w_MEEM;w_WITH;w_HAH;w_FINAL;w_FORM]);
  (0xfd7f, [w_ARABIC;w_LIGATURE;w_QAF;w_WITH;w_MEEM;w_WITH;w_MEEM;w_FINAL;w_FORM]);
  (0xfd80, [w_ARABIC;w_LIGATURE;w_LAM;w_WITH;w_HAH;w_WITH;w_MEEM;w_FINAL;w_FORM]);
  (0xfd81, [w_ARABIC;w_LIGATURE;w_LAM;w_WITH;w_HAH;w_WITH;w_YEH;w_FINAL;w_FORM]);
  (0xfd82, [w_ARABIC;w_LIGATURE;w_LAM;w_WITH;w_HAH;w_WITH;w_ALEF;w_MAKSURA;w_FINAL;w_FORM]);
  (0xfd83, [w_ARABIC;w_LIGATURE;w_LAM;w_WITH;w_JEEM;w_WITH;w_JEEM;w_INITIAL;w_FORM]);
  (0xfd84, [w_ARABIC;w_LIGATURE;w_LAM;w_WITH;w_JEEM;w_WITH;w_JEEM;w_FINAL;w_FORM]);
  (0xfd85, [w_ARABIC;w_LIGATURE;w_LAM;w_WITH;w_KHAH;w_WITH;w_MEEM;w_FINAL;w_FORM]);
  (0xfd86, [w_ARABIC;w_LIGATURE;w_LAM;w_WITH;w_KHAH;w_WITH;w_MEEM;w_INITIAL;w_FORM]);
  (0xfd87, [w_ARABIC;w_LIGATURE;w_LAM;w_WITH;w_MEEM;w_WITH;w_HAH;w_FINAL;w_FORM]);
  (0xfd88, [w_ARABIC;w_LIGATURE;w_LAM;w_WITH;w_MEEM;w_WITH;w_HAH;w_INITIAL;w_FORM]);
  (0xfd89, [w_ARABIC;w_LIGATURE;w_MEEM;w_WITH;w_HAH;w_WITH;w_JEEM;w_INITIAL;w_FORM]);
  (0xfd8a, [w_ARABIC;w_LIGATURE;w_MEEM;w_WITH;w_HAH;w_WITH;w_MEEM;w_INITIAL;w_FORM]);
  (0xfd8b, [w_ARABIC;w_LIGATURE;w_MEEM;w_WITH;w_HAH;w_WITH;w_YEH;w_FINAL;w_FORM]);
  (0xfd8c, [w_ARABIC;w_LIGATURE;w_MEEM;w_WITH;w_JEEM;w_WITH;w_HAH;w_INITIAL;w_FORM]);
  (0xfd8d, [w_ARABIC;w_LIGATURE;w_MEEM;w_WITH;w_JEEM;w_WITH;w_MEEM;w_INITIAL;w_FORM]);
  (0xfd8e, [w_ARABIC;w_LIGATURE;w_MEEM;w_WITH;w_KHAH;w_WITH;w_JEEM;w_INITIAL;w_FORM]);
  (0xfd8f, [w_ARABIC;w_LIGATURE;w_MEEM;w_WITH;w_KHAH;w_WITH;w_MEEM;w_INITIAL;w_FORM]);
  (0xfd92, [w_ARABIC;w_LIGATURE;w_MEEM;w_WITH;w_JEEM;w_WITH;w_KHAH;w_INITIAL;w_FORM]);
  (0xfd93, [w_ARABIC;w_LIGATURE;w_HEH;w_WITH;w_MEEM;w_WITH;w_JEEM;w_INITIAL;w_FORM]);
  (0xfd94, [w_ARABIC;w_LIGATURE;w_HEH;w_WITH;w_MEEM;w_WITH;w_MEEM;w_INITIAL;w_FORM]);
  (0xfd95, [w_ARABIC;w_LIGATURE;w_NOON;w_WITH;w_HAH;w_WITH;w_MEEM;w_INITIAL;w_FORM]);
  (0xfd96, [w_ARABIC;w_LIGATURE;w_NOON;w_WITH;w_HAH;w_WITH;w_ALEF;w_MAKSURA;w_FINAL;w_FORM]);
  (0xfd97, [w_ARABIC;w_LIGATURE;w_NOON;w_WITH;w_JEEM;w_WITH;w_MEEM;w_FINAL;w_FORM]);
  (0xfd98, [w_ARABIC;w_LIGATURE;w_NOON;w_WITH;w_JEEM;w_WITH;w_MEEM;w_INITIAL;w_FORM]);
  (0xfd99, [w_ARABIC;w_LIGATURE;w_NOON;w_WITH;w_JEEM;w_WITH;w_ALEF;w_MAKSURA;w_FINAL;w_FORM]);
  (0xfd9a, [w_ARABIC;w_LIGATURE;w_NOON;w_WITH;w_MEEM;w_WITH;w_YEH;w_FINAL;w_FORM]);
  (0xfd9b, [w_ARABIC;w_LIGATURE;w_NOON;w_WITH;w_MEEM;w_WITH;w_ALEF;w_MAKSURA;w_FINAL;w_FORM]);
  (0xfd9c, [w_ARABIC;w_LIGATURE;w_YEH;w_WITH;w_MEEM;w_WITH;w_MEEM;w_FINAL;w_FORM]);
  (0xfd9d, [w_ARABIC;w_LIGATURE;w_YEH;w_WITH;w_MEEM;w_WITH;w_MEEM;w_INITIAL;w_FORM]);
  (0xfd9e, [w_ARABIC;w_LIGATURE;w_BEH;w_WITH;w_KHAH;w_WITH;w_YEH;w_FINAL;w_FORM]);
  (0xfd9f, [w_ARABIC;w_LIGATURE;w_TEH;w_WITH;w_JEEM;w_WITH;w_YEH;w_FINAL;w_FORM]);
  (0xfda0, [w_ARABIC;w_LIGATURE;w_TEH;w_WITH;w_JEEM;w_WITH;w_ALEF;w_MAKSURA;w_FINAL;w_FORM]);
  (0xfda1, [w_ARABIC;w_LIGATURE;w_TEH;w_WITH;w_KHAH;w_WITH;w_YEH;w_FINAL;w_FORM]);
  (0xfda2, [w_ARABIC;w_LIGATURE;w_TEH;w_WITH;w_KHAH;w_WITH;w_ALEF;w_MAKSURA;w_FINAL;w_FORM]);
  (0xfda3, [w_ARABIC;w_LIGATURE;w_TEH;w_WITH;w_MEEM;w_WITH;w_YEH;w_FINAL;w_FORM]);
  (0xfda4, [w_ARABIC;w_LIGATURE;w_TEH;w_WITH;w_MEEM;w_WITH;w_ALEF;w_MAKSURA;w_FINAL;w_FORM]);
  (0xfda5, [w_ARABIC;w_LIGATURE;w_JEEM;w_WITH;w_MEEM;w_WITH;w_YEH;w_FINAL;w_FORM]);
  (0xfda6, [w_ARABIC;w_LIGATURE;w_JEEM;w_WITH;w_HAH;w_WITH;w_ALEF;w_MAKSURA;w_FINAL;w_FORM]);
  (0xfda7, [w_ARABIC;w_LIGATURE;w_JEEM;w_WITH;w_MEEM;w_WITH;w_ALEF;w_MAKSURA;w_FINAL;w_FORM]);
  (0xfda8, [w_ARABIC;w_LIGATURE;w_SEEN;w_WITH;w_KHAH;w_WITH;w_ALEF;w_MAKSURA;w_FINAL;w_FORM]);
  (0xfda9, [w_ARABIC;w_LIGATURE;w_SAD;w_WITH;w_HAH;w_WITH;w_YEH;w_FINAL;w_FORM]);
  (0xfdaa, [w_ARABIC;w_LIGATURE;w_SHEEN;w_WITH;w_HAH;w_WITH;w_YEH;w_FINAL;w_FORM]);
  (0xfdab, [w_ARABIC;w_LIGATURE;w_DAD;w_WITH;w_HAH;w_WITH;w_YEH;w_FINAL;w_FORM]);
  (0xfdac, [w_ARABIC;w_LIGATURE;w_LAM;w_WITH;w_JEEM;w_WITH;w_YEH;w_FINAL;w_FORM]);
  (0xfdad, [w_ARABIC;w_LIGATURE;w_LAM;w_WITH;w_MEEM;w_WITH;w_YEH;w_FINAL;w_FORM]);
  (0xfdae, [w_ARABIC;w_LIGATURE;w_YEH;w_WITH;w_HAH;w_WITH;w_YEH;w_FINAL;w_FORM]);
  (0xfdaf, [w_ARABIC;w_LIGATURE;w_YEH;w_WITH;w_JEEM;w_WITH;w_YEH;w_FINAL;w_FORM]);
  (0xfdb0, [w_ARABIC;w_LIGATURE;w_YEH;w_WITH;w_MEEM;w_WITH;w_YEH;w_FINAL;w_FORM]);
  (0xfdb1, [w_ARABIC;w_LIGATURE;w_MEEM;w_WITH;w_MEEM;w_WITH;w_YEH;w_FINAL;w_FORM]);
  (0xfdb2, [w_ARABIC;w_LIGATURE;w_QAF;w_WITH;w_MEEM;w_WITH;w_YEH;w_FINAL;w_FORM]);
  (0xfdb3, [w_ARABIC;w_LIGATURE;w_NOON;w_WITH;w_HAH;w_WITH;w_YEH;w_FINAL;w_FORM]);
  (0xfdb4, [w_ARABIC;w_LIGATURE;w_QAF;w_WITH;w_MEEM;w_WITH;w_HAH;w_INITIAL;w_FORM])].

Definition NAMES_40 : list (N * (list str)) := [
  (0xfdb5, [w_ARABIC;w_LIGATURE;w_LAM;w_WITH;w_HAH;w_WITH;w_MEEM;w_INITIAL;w_FORM]);
  (0xfdb6, [w_ARABIC;w_LIGATURE;w_AIN;w_WITH;w_MEEM;w_WITH;w_YEH;w_FINAL;w_FORM]);
  (0xfdb7, [w_ARABIC;w_LIGATURE;w_KAF;w_WITH;w_MEEM;w_WITH;w_YEH;w_FINAL;w_FORM]);
  (0xfdb8, [w_ARABIC;w_LIGATURE;w_NOON;w_WITH;w_JEEM;w_WITH;w_HAH;w_INITIAL;w_FORM]);
  (0xfdb9, [w_ARABIC;w_LIGATURE;w_MEEM;w_WITH;w_KHAH;w_WITH;w_YEH;w_FINAL;w_FORM]);
  (0xfdba, [w_ARABIC;w_LIGATURE;w_LAM;w_WITH;w_JEEM;w_WITH;w_MEEM;w_INITIAL;w_FORM]);
  (0xfdbb, [w_ARABIC;w_LIGATURE;w_KAF;w_WITH;w_MEEM;w_WITH;w_MEEM;w_FINAL;w_FORM]);
  (0xfdbc, [w_ARABIC;w_LIGATURE;w_LAM;w_WITH;w_JEEM;w_WITH;w_MEEM;w_FINAL;w_FORM]);
  (0xfdbd, [w_ARABIC;w_LIGATURE;w_NOON;w_WITH;w_JEEM;w_WITH;w_HAH;w_FINAL;w_FORM]);
  (0xfdbe, [w_ARABIC;w_LIGATURE;w_JEEM;w_WITH;w_HAH;w_WITH;w_YEH;w_FINAL;w_FORM]);
  (0xfdbf, [w_ARABIC;w_LIGATURE;w_HAH;w_WITH;w_JEEM;w_WITH;w_YEH;w_FINAL;w_FORM]);
  (0xfdc0, [w_ARABIC;w_LIGATURE;w_MEEM;w_WITH;w_JEEM;w_WITH;w_YEH;w_FINAL;w_FORM]);
  (0xfdc1, [w_ARABIC;w_LIGATURE;w_FEH;w_WITH;w_MEEM;w_WITH;w_YEH;w_FINAL;w_FORM]);
  (0xfdc2, [w_ARABIC;w_LIGATURE;w_BEH;w_WITH;w_HAH;w_WITH;w_YEH;w_FINAL;w_FORM]);
  (0xfdc3, [w_ARABIC;w_LIGATURE;w_KAF;w_WITH;w_MEEM;w_WITH;w_MEEM;w_INITIAL;w_FORM]);
  (0xfdc4, [w_ARABIC;w_LIGATURE;w_AIN;w_WITH;w_JEEM;w_WITH;w_MEEM;w_INITIAL;w_FORM]);
  (0xfdc5, [w_ARABIC;w_LIGATURE;w_SAD;w_WITH;w_MEEM;w_WITH;w_MEEM;w_INITIAL;w_FORM]);
  (0xfdc6, [w_ARABIC;w_LIGATURE;w_SEEN;w_WITH;w_KHAH;w_WITH;w_YEH;w_FINAL;w_FORM]);
  (0xfdc7, [w_ARABIC;w_LIGATURE;w_NOON;w_WITH;w_JEEM;w_WITH;w_YEH;w_FINAL;w_FORM]);
  (0xfdf0, [w_ARABIC;w_LIGATURE;w_SALLA;w_USED;w_AS;w_KORANIC;w_STOP;w_SIGN;w_ISOLATED;w_FORM]);
  (0xfdf1, [w_ARABIC;w_LIGATURE;w_QALA;w_USED;w_AS;w_KORANIC;w_STOP;w_SIGN;w_ISOLATED;w_FORM]);
  (0xfdf2, [w_ARABIC;w_LIGATURE;w_ALLAH;w_ISOLATED;w_FORM]);
  (0xfdf3, [w_ARABIC;w_LIGATURE;w_AKBAR;w_ISOLATED;w_FORM]);
  (0xfdf4, [w_ARABIC;w_LIGATURE;w_MOHAMMAD;w_ISOLATED;w_FORM]);
  (0xfdf5, [w_ARABIC;w_LIGATURE;w_SALAM;w_ISOLATED;w_FORM]);
  (0xfdf6, [w_ARABIC;w_LIGATURE;w_RASOUL;w_ISOLATED;w_FORM]);
  (0xfdf7, [w_ARABIC;w_LIGATURE;w_ALAYHE;w_ISOLATED;w_FORM]);
  (0xfdf8, [w_ARABIC;w_LIGATURE;w_WASALLAM;w_ISOLATED;w_FORM]);
  (0xfdf9, [w_ARABIC;w_LIGATURE;w_SALLA;w_ISOLATED;w_FORM]);
  (0xfdfa, [w_ARABIC;w_LIGATURE;w_SALLALLAHOU;w_ALAYHE;w_WASALLAM]);
  (0xfdfb, [w_ARABIC;w_LIGATURE;w_JALLAJALALOUHOU]);
  (0xfdfc, [w_RIAL;w_SIGN]);
  (0xfdfd, [w_ARABIC;w_LIGATURE;w_BISMILLAH;w_AR_RAHMAN;w_AR_RAHEEM]);
  (0xfe00, [w_VARIATION;w_SELECTOR_1]);
  (0xfe01, [w_VARIATION;w_SELECTOR_2]);
  (0xfe02, [w_VARIATION;w_SELECTOR_3]);
  (0xfe03, [w_VARIATION;w_SELECTOR_4]);
  (0xfe04, [w_VARIATION;w_SELECTOR_5]);
  (0xfe05, [w_VARIATION;w_SELECTOR_6]);
  (0xfe06, [w_VARIATION;w_SELECTOR_7]);
  (0xfe07, [w_VARIATION;w_SELECTOR_8]);
  (0xfe08, [w_VARIATION;w_SELECTOR_9]);
  (0xfe09, [w_VARIATION;w_SELECTOR_10]);
  (0xfe0a, [w_VARIATION;w_SELECTOR_11]);
  (0xfe0b, [w_VARIATION;w_SELECTOR_12]);
  (0xfe0c, [w_VARIATION;w_SELECTOR_13]);
  (0xfe0d, [w_VARIATION;w_SELECTOR_14]);
  (0xfe0e, [w_VARIATION;w_SELECTOR_15]);
  (0xfe0f, [w_VARIATION;w_SELECTOR_16]);
  (0xfe10, [w_PRESENTATION;w_FORM;w_FOR;w_VERTICAL;w_COMMA]);
  (0xfe11, [w_PRESENTATION;w_FORM;w_FOR;w_VERTICAL;w_IDEOGRAPHIC;w_COMMA]);
  (0xfe12, [w_PRESENTATION;w_FORM;w_FOR;w_VERTICAL;w_IDEOGRAPHIC;w_FULL;w_STOP]);
  (0xfe13, [w_PRESENTATION;w_FORM;w_FOR;w_VERTICAL;w_COLON]);
  (0xfe14, [w_PRESENTATION;w_FORM;w_FOR;w_VERTICAL;w_SEMICOLON]);
  (0xfe15, [w_PRESENTATION;w_FORM;w_FOR;w_VERTICAL;w_EXCLAMATION;w_MARK]);
  (0xfe16, [w_PRESENTATION;w_FORM;w_FOR;w_VERTICAL;w_QUESTION;w_MARK]);
  (0xfe17, [w_PRESENTATION;w_FORM;w_FOR;w_VERTICAL;w_LEFT;w_WHITE;w_LENTICULAR;w_BRACKET]);
  (0xfe18, [w_PRESENTATION;w_FORM;w_FOR;w_VERTICAL;w_RIGHT;w_WHITE;w_LENTICULAR;w_BRAKCET]);
  (0xfe19, [w_PRESENTATION;w_FORM;w_FOR;w_VERTICAL;w_HORIZONTAL;w_ELLIPSIS]);
  (0xfe20, [w_COMBINING;w_LIGATURE;w_LEFT;w_HALF]);
  (0xfe21, [w_COMBINING;w_LIGATURE;w_RIGHT;w_HALF]);
  (0xfe22, [w_COMBINING;w_DOUBLE;w_TILDE;w_LEFT;w_HALF]);
  (0xfe23, [w_COMBINING;w_DOUBLE;w_TILDE;w_RIGHT;w_HALF]);
  (0xfe24, [w_COMBINING;w_MACRON;w_LEFT;w_HALF]);
  (0xfe25, [w_COMBINING;w_MACRON;w_RIGHT;w_HALF]);
  (0xfe26, [w_COMBINING;w_CONJOINING;w_MACRON]);
  (0xfe27, [w_COMBINING;w_LIGATURE;w_LEFT;w_HALF;w_BELOW]);
  (0xfe28, [w_COMBINING;w_LIGATURE;w_RIGHT;w_HALF;w_BELOW]);
  (0xfe29, [w_COMBINING;w_TILDE;w_LEFT;w_HALF;w_BELOW]);
  (0xfe2a, [w_COMBINING;w_TILDE;w_RIGHT;w_HALF;w_BELOW]);
  (0xfe2b, [w_COMBINING;w_MACRON;w_LEFT;w_HALF;w_BELOW]);
  (0xfe2c, [w_COMBINING;w_MACRON;w_RIGHT;w_HALF;w_BELOW]);
  (0xfe2d, [w_COMBINING;w_CONJOINING;w_MACRON;w_BELOW]);
  (0xfe2e, [w_COMBINING;w_CYRILLIC;w_TITLO;w_LEFT;w_HALF]);
  (0xfe2f, [w_COMBINING;w_CYRILLIC;w_TITLO;w_RIGHT;w_HALF]);
  (0xfe30, [w_PRESENTATION;w_FORM;w_FOR;w_VERTICAL;w_TWO;w_DOT;w_LEADER]);
  (0xfe31, [w_PRESENTATION;w_FORM;w_FOR;w_VERTICAL;w_EM;w_DASH]);
  (0xfe32, [w_PRESENTATION;w_FORM;w_FOR;w_VERTICAL;w_EN;w_DASH]);
  (0xfe33, [w_PRESENTATION;w_FORM;w_FOR;w_VERTICAL;w_LOW;w_LINE]);
  (0xfe34, [w_PRESENTATION;w_FORM;w_FOR;w_VERTICAL;w_WAVY;w_LOW;w_LINE]);
  (0xfe35, [w_PRESENTATION;w_FORM;w_FOR;w_VERTICAL;w_LEFT;w_PARENTHESIS]);
  (0xfe36, [w_PRESENTATION;w_FORM;w_FOR;w_VERTICAL;w_RIGHT;w_PARENTHESIS]);
  (0xfe37, [w_PRESENTATION;w_FORM;w_FOR;w_VERTICAL;w_LEFT;w_CURLY;w_BRACKET]);
  (0xfe38, [w_PRESENTATION;w_FORM;w_FOR;w_VERTICAL;w_RIGHT;w_CURLY;w_BRACKET]);
  (0xfe39, [w_PRESENTATION;w_FORM;w_FOR;w_VERTICAL;w_LEFT;w_TORTOISE;w_SHELL;w_BRACKET]);
  (0xfe3a, [w_PRESENTATION;w_FORM;w_FOR;w_VERTICAL;w_RIGHT;w_TORTOISE;w_SHELL;w_BRACKET]);
  (0xfe3b, [w_PRESENTATION;w_FORM;w_FOR;w_VERTICAL;w_LEFT;w_BLACK;w_LENTICULAR;w_BRACKET]);
  (0xfe3c, [w_PRESENTATION;w_FORM;w_FOR;w_VERTICAL;w_RIGHT;w_BLACK;w_LENTICULAR;w_BRACKET]);
  (0xfe3d, [w_PRESENTATION;w_FORM;w_FOR;w_VERTICAL;w_LEFT;w_DOUBLE;w_ANGLE;w_BRACKET]);
  (0xfe3e, [w_PRESENTATION;w_FORM;w_FOR;w_VERTICAL;w_RIGHT;w_DOUBLE;w_ANGLE;w_BRACKET]);
  (0xfe3f, [w_PRESENTATION;w_FORM;w_FOR;w_VERTICAL;w_LEFT;w_ANGLE;w_BRACKET]);
  (0xfe40, [w_PRESENTATION;w_FORM;w_FOR;w_VERTICAL;w_RIGHT;w_ANGLE;w_BRACKET]);
  (0xfe41, [w_PRESENTATION;w_FORM;w_FOR;w_VERTICAL;w_LEFT;w_CORNER;w_BRACKET]);
  (0xfe42, [w_PRESENTATION;w_FORM;w_FOR;w_VERTICAL;w_RIGHT;w_CORNER;w_BRACKET]);
  (0xfe43, [w_PRESENTATION;w_FORM;w_FOR;w_VERTICAL;w_LEFT;w_WHITE;w_CORNER;w_BRACKET]);
  (0xfe44, [w_PRESENTATION;w_FORM;w_FOR;w_VERTICAL;w_RIGHT;w_WHITE;w_CORNER;w_BRACKET]);
  (0xfe45, [w_SESAME;w_DOT]);
  (0xfe46, [w_WHITE;w_SESAME;w_DOT]);
  (0xfe47, [w_PRESENTATION;w_FORM;w_FOR;w_VERTICAL;w_LEFT;w_SQUARE;w_BRACKET]);
  (0xfe48, [w_PRESENTATION;w_FORM;w_FOR;w_VERTICAL;w_RIGHT;w_SQUARE;w_BRACKET]);
  (0xfe49, [w_DASHED;w_OVERLINE]);
  (0xfe4a, [w_CENTRELINE;w_OVERLINE]);
  (0xfe4b, [w_WAVY;w_OVERLINE]);
  (0xfe4c, [w_DOUBLE;w_WAVY;w_OVERLINE]);
  (0xfe4d, [w_DASHED;w_LOW;w_LINE]);
  (0xfe4e, [w_CENTRELINE;w_LOW;w_LINE]);
  (0xfe4f, [w_WAVY;w_LOW;w_LINE]);
  (0xfe50, [w_SMALL;w_COMMA]);
  (0xfe51, [w_SMALL;w_IDEOGRAPHIC;w_COMMA]);
  (0xfe52, [w_SMALL;w_FULL;w_STOP]);
  (0xfe54, [w_SMALL;w_SEMICOLON]);
  (0xfe55, [w_SMALL;w_COLON]);
  (0xfe56, [w_SMALL;w_QUESTION;w_MARK]);
  (0xfe57, [w_SMALL;w_EXCLAMATION;w_MARK]);
  (0xfe58, [w_SMALL;w_EM;w_DASH]);
  (0xfe59, [w_SMALL;w_LEFT;w_PARENTHESIS]);
  (0xfe5a, [w_SMALL;w_RIGHT;w_PARENTHESIS]);
  (0xfe5b, [w_SMALL;w_LEFT;w_CURLY;w_BRACKET]);
  (0xfe5c, [w_SMALL;w_RIGHT;w_CURLY;w_BRACKET]);
  (0xfe5d, [w_SMALL;w_LEFT;w_TORTOISE;w_SHELL;w_BRACKET]);
  (0xfe5e, [w_SMALL;w_RIGHT;w_TORTOISE;w_SHELL;w_BRACKET]);
  (0xfe5f, [w_SMALL;w_NUMBER;w_SIGN]);
  (0xfe60, [w_SMALL;w_AMPERSAND]);
  (0xfe61, [w_SMALL;w_ASTERISK]);
  (0xfe62, [w_SMALL;w_PLUS;w_SIGN]);
  (0xfe63, [w_SMALL;w_HYPHEN_MINUS]);
  (0xfe64, [w_SMALL;w_LESS_THAN;w_SIGN]);
  (0xfe65, [w_SMALL;w_GREATER_THAN;w_SIGN]);
  (0xfe66, [w_SMALL;w_EQUALS;w_SIGN]);
  (0xfe68, [w_SMALL;w_REVERSE;w_SOLIDUS]);
  (0xfe69, [w_SMALL;w_DOLLAR;w_SIGN]);
  (0xfe6a, [w_SMALL;w_PERCENT;w_SIGN]);
  (0xfe6b, [w_SMALL;w_COMMERCIAL;w_AT]);
  (0xfe70, [w_ARABIC;w_FATHATAN;w_ISOLATED;w_FORM]);
  (0xfe71, [w_ARABIC;w_TATWEEL;w_WITH;w_FATHATAN;w_ABOVE]);
  (0xfe72, [w_ARABIC;w_DAMMATAN;w_ISOLATED;w_FORM]);
  (0xfe73, [w_ARABIC;w_TAIL;w_FRAGMENT]);
  (0xfe74, [w_ARABIC;w_KASRATAN;w_ISOLATED;w_FORM]);
  (0xfe76, [w_ARABIC;w_FATHA;w_ISOLATED;w_FORM]);
  (0xfe77, [w_ARABIC;w_FATHA;w_MEDIAL;w_FORM]);
  (0xfe78, [w_ARABIC;w_DAMMA;w_ISOLATED;w_FORM]);
  (0xfe79, [w_ARABIC;w_DAMMA;w_MEDIAL;w_FORM]);
  (0xfe7a, [w_ARABIC;w_KASRA;w_ISOLATED;w_FORM]);
  (0xfe7b, [w_ARABIC;w_KASRA;w_MEDIAL;w_FORM]);
  (0xfe7c, [w_ARABIC;w_SHADDA;w_ISOLATED;w_FORM]);
  (0xfe7d, [w_ARABIC;w_SHADDA;w_MEDIAL;w_FORM]);
  (0xfe7e, [w_ARABIC;w_SUKUN;w_ISOLATED;w_FORM]);
  (0xfe7f, [w_ARABIC;w_SUKUN;w_MEDIAL;w_FORM]);
  (0xfe80, [w_ARABIC;w_LETTER;w_HAMZA;w_ISOLATED;w_FORM]);
  (0xfe81, [w_ARABIC;w_LETTER;w_ALEF;w_WITH;w_MADDA;w_ABOVE;w_ISOLATED;w_FORM]);
  (0xfe82, [w_ARABIC;w_LETTER;w_ALEF;w_WITH;w_MADDA;w_ABOVE;w_FINAL;w_FORM]);
  (0xfe83, [w_ARABIC;w_LETTER;w_ALEF;w_WITH;w_HAMZA;w_ABOVE;w_ISOLATED;w_FORM]);
  (0xfe84, [w_ARABIC;w_LETTER;w_ALEF;w_WITH;w_HAMZA;w_ABOVE;w_FINAL;w_FORM]);
  (0xfe85, [w_ARABIC;w_LETTER;w_WAW;w_WITH;w_HAMZA;w_ABOVE;w_ISOLATED;w_FORM]);
  (0xfe86, [w_ARABIC;w_LETTER;w_WAW;w_WITH;w_HAMZA;w_ABOVE;w_FINAL;w_FORM]);
  (0xfe87, [w_ARABIC;w_LETTER;w_ALEF;w_WITH;w_HAMZA;w_BELOW;w_ISOLATED;w_FORM]);
  (0xfe88, [w_ARABIC;w_LETTER;w_ALEF;w_WITH;w_HAMZA;w_BELOW;w_FINAL;w_FORM]);
  (0xfe89, [w_ARABIC;w_LETTER;w_YEH;w_WITH;w_HAMZA;w_ABOVE;w_ISOLATED;w_FORM]);
  (0xfe8a, [w_ARABIC;w_LETTER;w_YEH;w_WITH;w_HAMZA;w_ABOVE;w_FINAL;w_FORM]);
  (0xfe8b, [w_ARABIC;w_LETTER;w_YEH;w_WITH;w_HAMZA;w_ABOVE;w_INITIAL;w_FORM]);
  (0xfe8c, [w_ARABIC;w_LETTER;w_YEH;w_WITH;w_HAMZA;w_ABOVE;w_MEDIAL;w_FORM]);
  (0xfe8d, [w_ARABIC;w_LETTER;w_ALEF;w_ISOLATED;w_FORM]);
  (0xfe8e, [w_ARABIC;w_LETTER;w_ALEF;w_FINAL;w_FORM]);
  (0xfe8f, [w_ARABIC;w_LETTER;w_BEH;w_ISOLATED;w_FORM]);
  (0xfe90, [w_ARABIC;w_LETTER;w_BEH;w_FINAL;w_FORM]);
  (0xfe91, [w_ARABIC;w_LETTER;w_BEH;w_INITIAL;w_FORM]);
  (0xfe92, [w_ARABIC;w_LETTER;w_BEH;w_MEDIAL;w_FORM]);
  (0xfe93, [w_ARABIC;w_LETTER;w_TEH;w_MARBUTA;w_ISOLATED;w_FORM]);
  (0xfe94, [w_ARABIC;w_LETTER;w_TEH;w_MARBUTA;w_FINAL;w_FORM]);
  (0xfe95, [w_ARABIC;w_LETTER;w_TEH;w_ISOLATED;w_FORM]);
  (0xfe96, [w_ARABIC;w_LETTER;w_TEH;w_FINAL;w_FORM]);
  (0xfe97, [w_ARABIC;w_LETTER;w_TEH;w_INITIAL;w_FORM]);
  (0xfe98, [w_ARABIC;w_LETTER;w_TEH;w_MEDIAL;w_FORM]);
  (0xfe99, [w_ARABIC;w_LETTER;w_THEH;w_ISOLATED;w_FORM]);
  (0xfe9a, [w_ARABIC;w_LETTER;w_THEH;w_FINAL;w_FORM]);
  (0xfe9b, [w_ARABIC;w_LETTER;w_THEH;w_INITIAL;w_FORM]);
  (0xfe9c, [w_ARABIC;w_LETTER;w_THEH;w_MEDIAL;w_FORM]);
  (0xfe9d, [w_ARABIC;w_LETTER;w_JEEM;w_ISOLATED;w_FORM]);
  (0xfe9e, [w_ARABIC;w_LETTER;w_JEEM;w_FINAL;w_FORM]);
  (0xfe9f, [w_ARABIC;w_LETTER;w_JEEM;w_INITIAL;w_FORM]);
  (0xfea0, [w_ARABIC;w_LETTER;w_JEEM;w_MEDIAL;w_FORM]);
  (0xfea1, [w_ARABIC;w_LETTER;w_HAH;w_ISOLATED;w_FORM]);
  (0xfea2, [w_ARABIC;w_LETTER;w_HAH;w_FINAL;w_FORM]);
  (0xfea3, [w_ARABIC;w_LETTER;w_HAH;w_INITIAL;w_FORM]);
  (0xfea4, [w_ARABIC;w_LETTER;w_HAH;w_MEDIAL;w_FORM]);
  (0xfea5, [w_ARABIC;w_LETTER;w_KHAH;w_ISOLATED;w_FORM]);
  (0xfea6, [w_ARABIC;w_LETTER;w_KHAH;w_FINAL;w_FORM]);
  (0xfea7, [w_ARABIC;w_LETTER;w_KHAH;w_INITIAL;w_FORM]);
  (0xfea8, [w_ARABIC;w_LETTER;w_KHAH;w_MEDIAL;w_FORM]);
  (0xfea9, [w_ARABIC;w_LETTER;w_DAL;w_ISOLATED;w_FORM]);
  (0xfeaa, [w_ARABIC;w_LETTER;w_DAL;w_FINAL;w_FORM]);
  (0xfeab, [w_ARABIC;w_LETTER;w_THAL;w_ISOLATED;w_FORM]);
  (0xfeac, [w_ARABIC;w_LETTER;w_THAL;w_FINAL;w_FORM]);
  (0xfead, [w_ARABIC;w_LETTER;w_REH;w_ISOLATED;w_FORM]);
  (0xfeae, [w_ARABIC;w_LETTER;w_REH;w_FINAL;w_FORM]);
  (0xfeaf, [w_ARABIC;w_LETTER;w_ZAIN;w_ISOLATED;w_FORM]);
  (0xfeb0, [w_ARABIC;w_LETTER;w_ZAIN;w_FINAL;w_FORM]);
  (0xfeb1, [w_ARABIC;w_LETTER;w_SEEN;w_ISOLATED;w_FORM]);
  (0xfeb2, [w_ARABIC;w_LETTER;w_SEEN;w_FINAL;w_FORM]);
  (0xfeb3, [w_ARABIC;w_LETTER;w_SEEN;w_INITIAL;w_FORM]);
  (0xfeb4, [w_ARABIC;w_LETTER;w_SEEN;w_MEDIAL;w_FORM]);
  (0xfeb5, [w_ARABIC;w_LETTER;w_SHEEN;w_ISOLATED;w_FORM]);
  (0xfeb6, [w_ARABIC;w_LETTER;w_SHEEN;w_FINAL;w_FORM]);
  (0xfeb7, [w_ARABIC;w_LETTER;w_SHEEN;w_INITIAL;w_FORM]);
  (0xfeb8, [w_ARABIC;w_LETTER;w_SHEEN;w_MEDIAL;w_FORM]);
  (0xfeb9, [w_ARABIC;w_LETTER;w_SAD;w_ISOLATED;w_FORM]);
  (0xfeba, [w_ARABIC;w_LETTER;w_SAD;w_FINAL;w_FORM]);
  (0xfebb, [w_ARABIC;w_LETTER;w_SAD;w_INITIAL;w_FORM]);
  (0xfebc, [w_ARABIC;w_LETTER;w_SAD;w_MEDIAL;w_FORM]);
  (0xfebd, [w_ARABIC;w_LETTER;w_DAD;w_ISOLATED;w_FORM]);
  (0xfebe, [w_ARABIC;w_LETTER;w_DAD;w_FINAL;w_FORM]);
  (0xfebf, [w_ARABIC;w_LETTER;w_DAD;w_INITIAL;w_FORM]);
  (0xfec0, [w_ARABIC;w_LETTER;w_DAD;w_MEDIAL;w_FORM]);
  (0xfec1, [w_ARABIC;w_LETTER;w_TAH;w_ISOLATED;w_FORM]);
  (0xfec2, [w_ARABIC;w_LETTER;w_TAH;w_FINAL;w_FORM]);
  (0xfec3, [w_ARABIC;w_LETTER;w_TAH;w_INITIAL;w_FORM]);
  (0xfec4, [w_ARABIC;w_LETTER;w_TAH;w_MEDIAL;w_FORM]);
  (0xfec5, [w_ARABIC;w_LETTER;w_ZAH;w_ISOLATED;w_FORM]);
  (0xfec6, [w_ARABIC;w_LETTER;w_ZAH;w_FINAL;w_FORM]);
  (0xfec7, [w_ARABIC;w_LETTER;w_ZAH;w_INITIAL;w_FORM]);
  (0xfec8, [w_ARABIC;w_LETTER;w_ZAH;w_MEDIAL;w_FORM]);
  (0xfec9, [w_ARABIC;w_LETTER;w_AIN;w_ISOLATED;w_FORM]);
  (0xfeca, [w_ARABIC;w_LETTER;w_AIN;w_FINAL;w_FORM]);
  (0xfecb, [w_ARABIC;w_LETTER;w_AIN;w_INITIAL;w_FORM]);
  (0xfecc, [w_ARABIC;w_LETTER;w_AIN;w_MEDIAL;w_FORM]);
  (0xfecd, [w_ARABIC;w_LETTER;w_GHAIN;w_ISOLATED;w_FORM]);
  (0xfece, [w_ARABIC;w_LETTER;w_GHAIN;w_FINAL;w_FORM]);
  (0xfecf, [w_ARABIC;w_LETTER;w_GHAIN;w_INITIAL;w_FORM]);
  (0xfed0, [w_ARABIC;w_LETTER;w_GHAIN;w_MEDIAL;w_FORM]);
  (0xfed1, [w_ARABIC;w_LETTER;w_FEH;w_ISOLATED;w_FORM]);
  (0xfed2, [w_ARABIC;w_LETTER;w_FEH;w_FINAL;w_FORM]);
  (0xfed3, [w_ARABIC;w_LETTER;w_FEH;w_INITIAL;w_FORM]);
  (0xfed4, [w_ARABIC;w_LETTER;w_FEH;w_MEDIAL;w_FORM]);
  (0xfed5, [w_ARABIC;w_LETTER;w_QAF;w_ISOLATED;w_FORM]);
  (0xfed6, [w_ARABIC;w_LETTER;w_QAF;w_FINAL;w_FORM]);
  (0xfed7, [w_ARABIC;w_LETTER;w_QAF;w_INITIAL;w_FORM]);
  (0xfed8, [w_ARABIC;w_LETTER;w_QAF;w_MEDIAL;w_FORM]);
  (0xfed9, [w_ARABIC;w_LETTER;w_KAF;w_ISOLATED;w_FORM]);
  (0xfeda, [w_ARABIC;w_LETTER;w_KAF;w_FINAL;w_FORM]);
  (0xfedb, [w_ARABIC;w_LETTER;w_KAF;w_INITIAL;w_FORM]);
  (0xfedc, [w_ARABIC;w_LETTER;w_KAF;w_MEDIAL;w_FORM]);
  (0xfedd, [w_ARABIC;w_LETTER;w_LAM;w_ISOLATED;w_FORM]);
  (0xfede, [w_ARABIC;w_LETTER;w_LAM;w_FINAL;w_FORM]);
  (0xfedf, [w_ARABIC;w_LETTER;w_LAM;w_INITIAL;w_FORM]);
  (0xfee0, [w_ARABIC;w_LETTER;w_LAM;w_MEDIAL;w_FORM]);
  (0xfee1, [w_ARABIC;w_LETTER;w_MEEM;w_ISOLATED;w_FORM]);
  (0xfee2, [w_ARABIC;w_LETTER;w_MEEM;w_FINAL;w_FORM]);
  (0xfee3, [w_ARABIC;w_LETTER;w_MEEM;w_INITIAL;w_FORM]);
  (0xfee4, [w_ARABIC;w_LETTER;w_MEEM;w_MEDIAL;w_FORM]);
  (0xfee5, [w_ARABIC;w_LETTER;w_NOON;w_ISOLATED;w_FORM]);
  (0xfee6, [w_ARABIC;w_LETTER;w_NOON;w_FINAL;w_FORM]);
  (0xfee7, [w_ARABIC;w_LETTER;w_NOON;w_INITIAL;w_FORM]);
  (0xfee8, [w_ARABIC;w_LETTER;w_NOON;w_MEDIAL;w_FORM]);
  (0xfee9, [w_ARABIC;w_LETTER;w_HEH;w_ISOLATED;w_FORM]);
  (0xfeea, [w_ARABIC;w_LETTER;w_HEH;w_FINAL;w_FORM]);
  (0xfeeb, [w_ARABIC;w_LETTER;w_HEH;w_INITIAL;w_FORM]);
  (0xfeec, [w_ARABIC;w_LETTER;w_HEH;w_MEDIAL;w_FORM]);
  (0xfeed, [w_ARABIC;w_LETTER;w_WAW;w_ISOLATED;w_FORM]);
  (0xfeee, [w_ARABIC;w_LETTER;w_WAW;w_FINAL;w_FORM]);
  (0xfeef, [w_ARABIC;w_LETTER;w_ALEF;w_MAKSURA;w_ISOLATED;w_FORM]);
  (0xfef0, [w_ARABIC;w_LETTER;w_ALEF;w_MAKSURA;w_FINAL;w_FORM]);
  (0xfef1, [w_ARABIC;w_LETTER;w_YEH;w_ISOLATED;w_FORM]);
  (0xfef2, [w_ARABIC;w_LETTER;w_YEH;w_FINAL;w_FORM]);
  (0xfef3, [w_ARABIC;w_LETTER;w_YEH;w_INITIAL;w_FORM]);
  (0xfef4, [w_ARABIC;w_LETTER;w_YEH;w_MEDIAL;w_FORM]);
  (0xfef5, [w_ARABIC;w_LIGATURE;w_LAM;w_WITH;w_ALEF;w_WITH;w_MADDA;w_ABOVE;w_ISOLATED;w_FORM]);
  (0xfef6, [w_ARABIC;w_LIGATURE;w_LAM;w_WITH;w_ALEF;w_WITH;w_MADDA;w_ABOVE;w_FINAL;w_FORM]);
  (0xfef7, [w_ARABIC;w_LIGATURE;w_LAM;w_WITH;w_ALEF;w_WITH;w_HAMZA;w_ABOVE;w_ISOLATED;w_FORM]);
  (0xfef8, [w_ARABIC;w_LIGATURE;w_LAM;w_WITH;w_ALEF;w_WITH;w_HAMZA;w_ABOVE;w_FINAL;w_FORM]);
  (0xfef9, [w_ARABIC;w_LIGATURE;w_LAM;w_WITH;w_ALEF;w_WITH;w_HAMZA;w_BELOW;w_ISOLATED;w_FORM]);
  (0xfefa, [w_ARABIC;w_LIGATURE;w_LAM;w_WITH;w_ALEF;w_WITH;w_HAMZA;w_BELOW;w_FINAL;w_FORM]);
  (0xfefb, [w_ARABIC;w_LIGATURE;w_LAM;w_WITH;w_ALEF;w_ISOLATED;w_FORM]);
  (0xfefc, [w_ARABIC;w_LIGATURE;w_LAM;w_WITH;w_ALEF;w_FINAL;w_FORM]);
  (0xfeff, [w_ZERO;w_WIDTH;w_NO_BREAK;w_SPACE]);
  (0xff01, [w_FULLWIDTH;w_EXCLAMATION;w_MARK]);
  (0xff02, [w_FULLWIDTH;w_QUOTATION;w_MARK]);
  (0xff03, [w_FULLWIDTH;w_NUMBER;w_SIGN]);
  (0xff04, [w_FULLWIDTH;w_DOLLAR;w_SIGN]);
  (0xff05, [w_FULLWIDTH;w_PERCENT;w_SIGN]);
  (0xff06, [w_FULLWIDTH;w_AMPERSAND]);
  (0xff07, [w_FULLWIDTH;w_APOSTROPHE]);
  (0xff08, [w_FULLWIDTH;w_LEFT;w_PARENTHESIS]);
  (0xff09, [w_FULLWIDTH;w_RIGHT;w_PARENTHESIS]);
  (0xff0a, [w_FULLWIDTH;w_ASTERISK]);
  (0xff0b, [w_FULLWIDTH;w_PLUS;w_SIGN]);
  (0xff0c, [w_FULLWIDTH;w_COMMA]);
  (0xff0d, [w_FULLWIDTH;w_HYPHEN_MINUS]);
  (0xff0e, [w_FULLWIDTH;w_FULL;w_STOP]);
  (0xff0f, [w_FULLWIDTH;w_SOLIDUS]);
  (0xff10, [w_FULLWIDTH;w_DIGIT;w_ZERO]);
  (0xff11, [w_FULLWIDTH;w_DIGIT;w_ONE]);
  (0xff12, [w_FULLWIDTH;w_DIGIT;w_TWO]);
  (0xff13, [w_FULLWIDTH;w_DIGIT;w_THREE]);
  (0xff14, [w_FULLWIDTH;w_DIGIT;w_FOUR]);
  (0xff15, [w_FULLWIDTH;w_DIGIT;w_FIVE]);
  (0xff16, [w_FULLWIDTH;w_DIGIT;w_SIX]);
  (0xff17, [w_FULLWIDTH;w_DIGIT;w_SEVEN]);
  (0xff18, [w_FULLWIDTH;w_DIGIT;w_EIGHT]);
  (0xff19, [w_FULLWIDTH;w_DIGIT;w_NINE]);
  (0xff1a, [w_FULLWIDTH;w_COLON]);
  (0xff1b, [w_FULLWIDTH;w_SEMICOLON]);
  (0xff1c, [w_FULLWIDTH;w_LESS_THAN;w_SIGN]);
  (0xff1d, [w_FULLWIDTH;w_EQUALS;w_SIGN]);
  (0xff1e, [w_FULLWIDTH;w_GREATER_THAN;w_SIGN]);
  (0xff1f, [w_FULLWIDTH;w_QUESTION;w_MARK]);
  (0xff20, [w_FULLWIDTH;w_COMMERCIAL;w_AT]);
  (0xff21, [w_FULLWIDTH;w_LATIN;w_CAPITAL;w_LETTER;w_A]);
  (0xff22, [w_FULLWIDTH;w_LATIN;w_CAPITAL;w_LETTER;w_B]);
  (0xff23, [w_FULLWIDTH;w_LATIN;w_CAPITAL;w_LETTER;w_C]);
  (0xff24, [w_FULLWIDTH;w_LATIN;w_CAPITAL;w_LETTER;w_D]);
  (0xff25, [w_FULLWIDTH;w_LATIN;w_CAPITAL;w_LETTER;w_E]);
  (0xff26, [w_FULLWIDTH;w_LATIN;w_CAPITAL;w_LETTER;w_F]);
  (0xff27, [w_FULLWIDTH;w_LATIN;w_CAPITAL;w_LETTER;w_G]);
  (0xff28, [w_FULLWIDTH;w_LATIN;w_CAPITAL;w_LETTER;w_H]);
  (0xff29, [w_FULLWIDTH;w_LATIN;w_CAPITAL;w_LETTER;w_I]);
  (0xff2a, [w_FULLWIDTH;w_LATIN;w_CAPITAL;w_LETTER;w_J]);
  (0xff2b, [w_FULLWIDTH;w_LATIN;w_CAPITAL;w_LETTER;w_K]);
  (0xff2c, [w_FULLWIDTH;w_LATIN;w_CAPITAL;w_LETTER;w_L]);
  (0xff2d, [w_FULLWIDTH;w_LATIN;w_CAPITAL;w_LETTER;w_M]);
  (0xff2e, [w_FULLWIDTH;w_LATIN;w_CAPITAL;w_LETTER;w_N]);
  (0xff2f, [w_FULLWIDTH;w_LATIN;w_CAPITAL;w_LETTER;w_O]);
  (0xff30, [w_FULLWIDTH;w_LATIN;w_CAPITAL;w_LETTER;w_P]);
  (0xff31, [w_FULLWIDTH;w_LATIN;w_CAPITAL;w_LETTER;w_Q]);
  (0xff32, [w_FULLWIDTH;w_LATIN;w_CAPITAL;w_LETTER;w_R]);
  (0xff33, [w_FULLWIDTH;w_LATIN;w_CAPITAL;w_LETTER;w_S]);
  (0xff34, [w_FULLWIDTH;w_LATIN;w_CAPITAL;w_LETTER;w_T]);
  (0xff35, [w_FULLWIDTH;w_LATIN;w_CAPITAL;w_LETTER;w_U]);
  (0xff36, [w_FULLWIDTH;w_LATIN;w_CAPITAL;w_LETTER;w_V]);
  (0xff37, [w_FULLWIDTH;w_LATIN;w_CAPITAL;w_LETTER;w_W]);
  (0xff38, [w_FULLWIDTH;w_LATIN;w_CAPITAL;w_LETTER;w_X]);
  (0xff39, [w_FULLWIDTH;w_LATIN;w_CAPITAL;w_LETTER;w_Y]);
  (0xff3a, [w_FULLWIDTH;w_LATIN;w_CAPITAL;w_LETTER;w_Z]);
  (0xff3b, [w_FULLWIDTH;w_LEFT;w_SQUARE;w_BRACKET]);
  (0xff3c, [w_FULLWIDTH;w_REVERSE;w_SOLIDUS]);
  (0xff3d, [w_FULLWIDTH;w_RIGHT;w_SQUARE;w_BRACKET]);
  (0xff3e, [w_FULLWIDTH;w_CIRCUMFLEX;w_ACCENT]);
  (0xff3f, [w_FULLWIDTH;w_LOW;w_LINE]);
  (0xff40, [w_FULLWIDTH;w_GRAVE;w_ACCENT]);
  (0xff41, [w_FULLWIDTH;w_LATIN;w_SMALL;w_LETTER;w_A]);
  (0xff42, [w_FULLWIDTH;w_LATIN;w_SMALL;w_LETTER;w_B]);
  (0xff43, [w_FULLWIDTH;w_LATIN;w_SMALL;w_LETTER;w_C]);
  (0xff44, [w_FULLWIDTH;w_LATIN;w_SMALL;w_LETTER;w_D]);
  (0xff45, [w_FULLWIDTH;w_LATIN;w_SMALL;w_LETTER;w_E]);
  (0xff46, [w_FULLWIDTH;w_LATIN;w_SMALL;w_LETTER;w_F]);
  (0xff47, [w_FULLWIDTH;w_LATIN;w_SMALL;w_LETTER;w_G]);
  (0xff48, [w_FULLWIDTH;w_LATIN;w_SMALL;w_LETTER;w_H]);
  (0xff49, [w_FULLWIDTH;w_LATIN;w_SMALL;w_LETTER;w_I]);
  (0xff4a, [w_FULLWIDTH;w_LATIN;w_SMALL;w_LETTER;w_J]);
  (0xff4b, [w_FULLWIDTH;w_LATIN;w_SMALL;w_LETTER;w_K]);
  (0xff4c, [w_FULLWIDTH;w_LATIN;w_SMALL;w_LETTER;w_L]);
  (0xff4d, [w_FULLWIDTH;w_LATIN;w_SMALL;w_LETTER;w_M]);
  (0xff4e, [w_FULLWIDTH;w_LATIN;w_SMALL;w_LETTER;w_N]);
  (0xff4f, [w_FULLWIDTH;w_LATIN;w_SMALL;w_LETTER;w_O]);
  (0xff50, [w_FULLWIDTH;w_LATIN;w_SMALL;w_LETTER;w_P]);
  (0xff51, [w_FULLWIDTH;w_LATIN;w_SMALL;w_LETTER;w_Q]);
  (0xff52, [w_FULLWIDTH;w_LATIN;w_SMALL;w_LETTER;w_R]);
  (0xff53, [w_FULLWIDTH;w_LATIN;w_SMALL;w_LETTER;w_S]);
  (0xff54, [w_FULLWIDTH;w_LATIN;w_SMALL;w_LETTER;w_T]);
  (0xff55, [w_FULLWIDTH;w_LATIN;w_SMALL;w_LETTER;w_U]);
  (0xff56, [w_FULLWIDTH;w_LATIN;w_SMALL;w_LETTER;w_V]);
  (0xff57, [w_FULLWIDTH;w_LATIN;w_SMALL;w_LETTER;w_W]);
  (0xff58, [w_FULLWIDTH;w_LATIN;w_SMALL;w_LETTER;w_X]);
  (0xff59, [w_FULLWIDTH;w_LATIN;w_SMALL;w_LETTER;w_Y]);
  (0xff5a, [w_FULLWIDTH;w_LATIN;w_SMALL;w_LETTER;w_Z]);
  (0xff5b, [w_FULLWIDTH;w_LEFT;w_CURLY;w_BRACKET]);
  (0xff5c, [w_FULLWIDTH;w_VERTICAL;w_LINE]);
  (0xff5d, [w_FULLWIDTH;w_RIGHT;w_CURLY;w_BRACKET]);
  (0xff5e, [w_FULLWIDTH;w_TILDE]);
  (0xff5f, [w_FULLWIDTH;w_LEFT;w_WHITE;w_PARENTHESIS]);
  (0xff60, [w_FULLWIDTH;w_RIGHT;w_WHITE;w_PARENTHESIS]);
  (0xff61, [w_HALFWIDTH;w_IDEOGRAPHIC;w_FULL;w_STOP]);
  (0xff62, [w_HALFWIDTH;w_LEFT;w_CORNER;w_BRACKET]);
  (0xff63, [w_HALFWIDTH;w_RIGHT;w_CORNER;w_BRACKET]);
  (0xff64, [w_HALFWIDTH;w_IDEOGRAPHIC;w_COMMA]);
  (0xff65, [w_HALFWIDTH;w_KATAKANA;w_MIDDLE;w_DOT]);
  (0xff66, [w_HALFWIDTH;w_KATAKANA;w_LETTER;w_WO]);
  (0xff67, [w_HALFWIDTH;w_KATAKANA;w_LETTER;w_SMALL;w_A]);
  (0xff68, [w_HALFWIDTH;w_KATAKANA;w_LETTER;w_SMALL;w_I]);
  (0xff69, [w_HALFWIDTH;w_KATAKANA;w_LETTER;w_SMALL;w_U]);
  (0xff6a, [w_HALFWIDTH;w_KATAKANA;w_LETTER;w_SMALL;w_E]);
  (0xff6b, [w_HALFWIDTH;w_KATAKANA;w_LETTER;w_SMALL;w_O]);
  (0xff6c, [w_HALFWIDTH;w_KATAKANA;w_LETTER;w_SMALL;w_YA]);
  (0xff6d, [w_HALFWIDTH;w_KATAKANA;w_LETTER;w_SMALL;w_YU]);
  (0xff6e, [w_HALFWIDTH;w_KATAKANA;w_LETTER;w_SMALL;w_YO]);
  (0xff6f, [w_HALFWIDTH;w_KATAKANA;w_LETTER;w_SMALL;w_TU]);
  (0xff70, [w_HALFWIDTH;w_KATAKANA_HIRAGANA;w_PROLONGED;w_SOUND;w_MARK]);
  (0xff71, [w_HALFWIDTH;w_KATAKANA;w_LETTER;w_A]);
  (0xff72, [w_HALFWIDTH;w_KATAKANA;w_LETTER;w_I]);
  (0xff73, [w_HALFWIDTH;w_KATAKANA;w_LETTER;w_U]);
  (0xff74, [w_HALFWIDTH;w_KATAKANA;w_LETTER;w_E]);
  (0xff75, [w_HALFWIDTH;w_KATAKANA;w_LETTER;w_O]);
  (0xff76, [w_HALFWIDTH;w_KATAKANA;w_LETTER;w_KA]);
  (0xff77, [w_HALFWIDTH;w_KATAKANA;w_LETTER;w_KI]);
  (0xff78, [w_HALFWIDTH;w_KATAKANA;w_LETTER;w_KU]);
  (0xff79, [w_HALFWIDTH;w_KATAKANA;w_LETTER;w_KE]);
  (0xff7a, [w_HALFWIDTH;w_KATAKANA;w_LETTER;w_KO]);
  (0xff7b, [w_HALFWIDTH;w_KATAKANA;w_LETTER;w_SA]);
  (0xff7c, [w_HALFWIDTH;w_KATAKANA;w_LETTER;w_SI]);
  (0xff7d, [w_HALFWIDTH;w_KATAKANA;w_LETTER;w_SU]);
  (0xff7e, [w_HALFWIDTH;w_KATAKANA;w_LETTER;w_SE])].

Definition NAMES_41 : list (N * (list str)) := [
  (0xff7f, [w_HALFWIDTH;w_KATAKANA;w_LETTER;w_SO]);
  (0xff80, [w_HALFWIDTH;w_KATAKANA;w_LETTER;w_TA]);
  (0xff81, [w_HALFWIDTH;w_KATAKANA;w_LETTER;w_TI]);
  (0xff82, [w_HALFWIDTH;w_KATAKANA;w_LETTER;w_TU]);
  (0xff83, [w_HALFWIDTH;w_KATAKANA;w_LETTER;w_TE]);
  (0xff84, [w_HALFWIDTH;w_KATAKANA;w_LETTER;w_TO]);
  (0xff85, [w_HALFWIDTH;w_KATAKANA;w_LETTER;w_NA]);
  (0xff86, [w_HALFWIDTH;w_KATAKANA;w_LETTER;w_NI]);
  (0xff87, [w_HALFWIDTH;w_KATAKANA;w_LETTER;w_NU]);
  (0xff88, [w_HALFWIDTH;w_KATAKANA;w_LETTER;w_NE]);
  (0xff89, [w_HALFWIDTH;w_KATAKANA;w_LETTER;w_NO]);
  (0xff8a, [w_HALFWIDTH;w_KATAKANA;w_LETTER;w_HA]);
  (0xff8b, [w_HALFWIDTH;w_KATAKANA;w_LETTER;w_HI]);
  (0xff8c, [w_HALFWIDTH;w_KATAKANA;w_LETTER;w_HU]);
  (0xff8d, [w_HALFWIDTH;w_KATAKANA;w_LETTER;w_HE]);
  (0xff8e, [w_HALFWIDTH;w_KATAKANA;w_LETTER;w_HO]);
  (0xff8f, [w_HALFWIDTH;w_KATAKANA;w_LETTER;w_MA]);
  (0xff90, [w_HALFWIDTH;w_KATAKANA;w_LETTER;w_MI]);
  (0xff91, [w_HALFWIDTH;w_KATAKANA;w_LETTER;w_MU]);
  (0xff92, [w_HALFWIDTH;w_KATAKANA;w_LETTER;w_ME]);
  (0xff93, [w_HALFWIDTH;w_KATAKANA;w_LETTER;w_MO]);
  (0xff94, [w_HALFWIDTH;w_KATAKANA;w_LETTER;w_YA]);
  (0xff95, [w_HALFWIDTH;w_KATAKANA;w_LETTER;w_YU]);
  (0xff96, [w_HALFWIDTH;w_KATAKANA;w_LETTER;w_YO]);
  (0xff97, [w_HALFWIDTH;w_KATAKANA;w_LETTER;w_RA]);
  (0xff98, [w_HALFWIDTH;w_KATAKANA;w_LETTER;w_RI]);
  (0xff99, [w_HALFWIDTH;w_KATAKANA;w_LETTER;w_RU]);
  (0xff9a, [w_HALFWIDTH;w_KATAKANA;w_LETTER;w_RE]);
  (0xff9b, [w_HALFWIDTH;w_KATAKANA;w_LETTER;w_RO]);
  (0xff9c, [w_HALFWIDTH;w_KATAKANA;w_LETTER;w_WA]);
  (0xff9d, [w_HALFWIDTH;w_KATAKANA;w_LETTER;w_N]);
  (0xff9e, [w_HALFWIDTH;w_KATAKANA;w_VOICED;w_SOUND;w_MARK]);
  (0xff9f, [w_HALFWIDTH;w_KATAKANA;w_SEMI_VOICED;w_SOUND;w_MARK]);
  (0xffa0, [w_HALFWIDTH;w_HANGUL;w_FILLER]);
  (0xffa1, [w_HALFWIDTH;w_HANGUL;w_LETTER;w_KIYEOK]);
  (0xffa2, [w_HALFWIDTH;w_HANGUL;w_LETTER;w_SSANGKIYEOK]);
  (0xffa3, [w_HALFWIDTH;w_HANGUL;w_LETTER;w_KIYEOK_SIOS]);
  (0xffa4, [w_HALFWIDTH;w_HANGUL;w_LETTER;w_NIEUN]);
  (0xffa5, [w_HALFWIDTH;w_HANGUL;w_LETTER;w_NIEUN_CIEUC]);
  (0xffa6, [w_HALFWIDTH;w_HANGUL;w_LETTER;w_NIEUN_HIEUH]);
  (0xffa7, [w_HALFWIDTH;w_HANGUL;w_LETTER;w_TIKEUT]);
  (0xffa8, [w_HALFWIDTH;w_HANGUL;w_LETTER;w_SSANGTIKEUT]);
  (0xffa9, [w_HALFWIDTH;w_HANGUL;w_LETTER;w_RIEUL]);
  (0xffaa, [w_HALFWIDTH;w_HANGUL;w_LETTER;w_RIEUL_KIYEOK]);
  (0xffab, [w_HALFWIDTH;w_HANGUL;w_LETTER;w_RIEUL_MIEUM]);
  (0xffac, [w_HALFWIDTH;w_HANGUL;w_LETTER;w_RIEUL_PIEUP]);
  (0xffad, [w_HALFWIDTH;w_HANGUL;w_LETTER;w_RIEUL_SIOS]);
  (0xffae, [w_HALFWIDTH;w_HANGUL;w_LETTER;w_RIEUL_THIEUTH]);
  (0xffaf, [w_HALFWIDTH;w_HANGUL;w_LETTER;w_RIEUL_PHIEUPH]);
  (0xffb0, [w_HALFWIDTH;w_HANGUL;w_LETTER;w_RIEUL_HIEUH]);
  (0xffb1, [w_HALFWIDTH;w_HANGUL;w_LETTER;w_MIEUM]);
  (0xffb2, [w_HALFWIDTH;w_HANGUL;w_LETTER;w_PIEUP]);
  (0xffb3, [w_HALFWIDTH;w_HANGUL;w_LETTER;w_SSANGPIEUP]);
  (0xffb4, [w_HALFWIDTH;w_HANGUL;w_LETTER;w_PIEUP_SIOS]);
  (0xffb5, [w_HALFWIDTH;w_HANGUL;w_LETTER;w_SIOS]);
  (0xffb6, [w_HALFWIDTH;w_HANGUL;w_LETTER;w_SSANGSIOS]);
  (0xffb7, [w_HALFWIDTH;w_HANGUL;w_LETTER;w_IEUNG]);
  (0xffb8, [w_HALFWIDTH;w_HANGUL;w_LETTER;w_CIEUC]);
  (0xffb9, [w_HALFWIDTH;w_HANGUL;w_LETTER;w_SSANGCIEUC]);
  (0xffba, [w_HALFWIDTH;w_HANGUL;w_LETTER;w_CHIEUCH]);
  (0xffbb, [w_HALFWIDTH;w_HANGUL;w_LETTER;w_KHIEUKH]);
  (0xffbc, [w_HALFWIDTH;w_HANGUL;w_LETTER;w_THIEUTH]);
  (0xffbd, [w_HALFWIDTH;w_HANGUL;w_LETTER;w_PHIEUPH]);
  (0xffbe, [w_HALFWIDTH;w_HANGUL;w_LETTER;w_HIEUH]);
  (0xffc2, [w_HALFWIDTH;w_HANGUL;w_LETTER;w_A]);
  (0xffc3, [w_HALFWIDTH;w_HANGUL;w_LETTER;w_AE]);
  (0xffc4, [w_HALFWIDTH;w_HANGUL;w_LETTER;w_YA]);
  (0xffc5, [w_HALFWIDTH;w_HANGUL;w_LETTER;w_YAE]);
  (0xffc6, [w_HALFWIDTH;w_HANGUL;w_LETTER;w_EO]);
  (0xffc7, [w_HALFWIDTH;w_HANGUL;w_LETTER;w_E]);
  (0xffca, [w_HALFWIDTH;w_HANGUL;w_LETTER;w_YEO]);
  (0xffcb, [w_HALFWIDTH;w_HANGUL;w_LETTER;w_YE]);
  (0xffcc, [w_HALFWIDTH;w_HANGUL;w_LETTER;w_O]);
  (0xffcd, [w_HALFWIDTH;w_HANGUL;w_LETTER;w_WA]);
  (0xffce, [w_HALFWIDTH;w_HANGUL;w_LETTER;w_WAE]);
  (0xffcf, [w_HALFWIDTH;w_HANGUL;w_LETTER;w_OE]);
  (0xffd2, [w_HALFWIDTH;w_HANGUL;w_LETTER;w_YO]);
  (0xffd3, [w_HALFWIDTH;w_HANGUL;w_LETTER;w_U]);
  (0xffd4, [w_HALFWIDTH;w_HANGUL;w_LETTER;w_WEO]);
  (0xffd5, [w_HALFWIDTH;w_HANGUL;w_LETTER;w_WE]);
  (0xffd6, [w_HALFWIDTH;w_HANGUL;w_LETTER;w_WI]);
  (0xffd7, [w_HALFWIDTH;w_HANGUL;w_LETTER;w_YU]);
  (0xffda, [w_HALFWIDTH;w_HANGUL;w_LETTER;w_EU]);
  (0xffdb, [w_HALFWIDTH;w_HANGUL;w_LETTER;w_YI]);
  (0xffdc, [w_HALFWIDTH;w_HANGUL;w_LETTER;w_I]);
  (0xffe0, [w_FULLWIDTH;w_CENT;w_SIGN]);
  (0xffe1, [w_FULLWIDTH;w_POUND;w_SIGN]);
  (0xffe2, [w_FULLWIDTH;w_NOT;w_SIGN]);
  (0xffe3, [w_FULLWIDTH;w_MACRON]);
  (0xffe4, [w_FULLWIDTH;w_BROKEN;w_BAR]);
  (0xffe5, [w_FULLWIDTH;w_YEN;w_SIGN]);
  (0xffe6, [w_FULLWIDTH;w_WON;w_SIGN]);
  (0xffe8, [w_HALFWIDTH;w_FORMS;w_LIGHT;w_VERTICAL]);
  (0xffe9, [w_HALFWIDTH;w_LEFTWARDS;w_ARROW]);
  (0xffea, [w_HALFWIDTH;w_UPWARDS;w_ARROW]);
  (0xffeb, [w_HALFWIDTH;w_RIGHTWARDS;w_ARROW]);
  (0xffec, [w_HALFWIDTH;w_DOWNWARDS;w_ARROW]);
  (0xffed, [w_HALFWIDTH;w_BLACK;w_SQUARE]);
  (0xffee, [w_HALFWIDTH;w_WHITE;w_CIRCLE]);
  (0xfff9, [w_INTERLINEAR;w_ANNOTATION;w_ANCHOR]);
  (0xfffa, [w_INTERLINEAR;w_ANNOTATION;w_SEPARATOR]);
  (0xfffb, [w_INTERLINEAR;w_ANNOTATION;w_TERMINATOR]);
  (0xfffc, [w_OBJECT;w_REPLACEMENT;w_CHARACTER]);
  (0xfffd, [w_REPLACEMENT;w_CHARACTER]);
  (0x10000, [w_LINEAR;w_B;w_SYLLABLE;w_B008;w_A]);
  (0x10001, [w_LINEAR;w_B;w_SYLLABLE;w_B038;w_E]);
  (0x10002, [w_LINEAR;w_B;w_SYLLABLE;w_B028;w_I]);
  (0x10003, [w_LINEAR;w_B;w_SYLLABLE;w_B061;w_O]);
  (0x10004, [w_LINEAR;w_B;w_SYLLABLE;w_B010;w_U]);
  (0x10005, [w_LINEAR;w_B;w_SYLLABLE;w_B001;w_DA]);
  (0x10006, [w_LINEAR;w_B;w_SYLLABLE;w_B045;w_DE]);
  (0x10007, [w_LINEAR;w_B;w_SYLLABLE;w_B007;w_DI]);
  (0x10008, [w_LINEAR;w_B;w_SYLLABLE;w_B014;w_DO]);
  (0x10009, [w_LINEAR;w_B;w_SYLLABLE;w_B051;w_DU]);
  (0x1000a, [w_LINEAR;w_B;w_SYLLABLE;w_B057;w_JA]);
  (0x1000b, [w_LINEAR;w_B;w_SYLLABLE;w_B046;w_JE]);
  (0x1000d, [w_LINEAR;w_B;w_SYLLABLE;w_B036;w_JO]);
  (0x1000e, [w_LINEAR;w_B;w_SYLLABLE;w_B065;w_JU]);
  (0x1000f, [w_LINEAR;w_B;w_SYLLABLE;w_B077;w_KA]);
  (0x10010, [w_LINEAR;w_B;w_SYLLABLE;w_B044;w_KE]);
  (0x10011, [w_LINEAR;w_B;w_SYLLABLE;w_B067;w_KI]);
  (0x10012, [w_LINEAR;w_B;w_SYLLABLE;w_B070;w_KO]);
  (0x10013, [w_LINEAR;w_B;w_SYLLABLE;w_B081;w_KU]);
  (0x10014, [w_LINEAR;w_B;w_SYLLABLE;w_B080;w_MA]);
  (0x10015, [w_LINEAR;w_B;w_SYLLABLE;w_B013;w_ME]);
  (0x10016, [w_LINEAR;w_B;w_SYLLABLE;w_B073;w_MI]);
  (0x10017, [w_LINEAR;w_B;w_SYLLABLE;w_B015;w_MO]);
  (0x10018, [w_LINEAR;w_B;w_SYLLABLE;w_B023;w_MU]);
  (0x10019, [w_LINEAR;w_B;w_SYLLABLE;w_B006;w_NA]);
  (0x1001a, [w_LINEAR;w_B;w_SYLLABLE;w_B024;w_NE]);
  (0x1001b, [w_LINEAR;w_B;w_SYLLABLE;w_B030;w_NI]);
  (0x1001c, [w_LINEAR;w_B;w_SYLLABLE;w_B052;w_NO]);
  (0x1001d, [w_LINEAR;w_B;w_SYLLABLE;w_B055;w_NU]);
  (0x1001e, [w_LINEAR;w_B;w_SYLLABLE;w_B003;w_PA]);
  (0x1001f, [w_LINEAR;w_B;w_SYLLABLE;w_B072;w_PE]);
  (0x10020, [w_LINEAR;w_B;w_SYLLABLE;w_B039;w_PI]);
  (0x10021, [w_LINEAR;w_B;w_SYLLABLE;w_B011;w_PO]);
  (0x10022, [w_LINEAR;w_B;w_SYLLABLE;w_B050;w_PU]);
  (0x10023, [w_LINEAR;w_B;w_SYLLABLE;w_B016;w_QA]);
  (0x10024, [w_LINEAR;w_B;w_SYLLABLE;w_B078;w_QE]);
  (0x10025, [w_LINEAR;w_B;w_SYLLABLE;w_B021;w_QI]);
  (0x10026, [w_LINEAR;w_B;w_SYLLABLE;w_B032;w_QO]);
  (0x10028, [w_LINEAR;w_B;w_SYLLABLE;w_B060;w_RA]);
  (0x10029, [w_LINEAR;w_B;w_SYLLABLE;w_B027;w_RE]);
  (0x1002a, [w_LINEAR;w_B;w_SYLLABLE;w_B053;w_RI]);
  (0x1002b, [w_LINEAR;w_B;w_SYLLABLE;w_B002;w_RO]);
  (0x1002c, [w_LINEAR;w_B;w_SYLLABLE;w_B026;w_RU]);
  (0x1002d, [w_LINEAR;w_B;w_SYLLABLE;w_B031;w_SA]);
  (0x1002e, [w_LINEAR;w_B;w_SYLLABLE;w_B009;w_SE]);
  (0x1002f, [w_LINEAR;w_B;w_SYLLABLE;w_B041;w_SI]);
  (0x10030, [w_LINEAR;w_B;w_SYLLABLE;w_B012;w_SO]);
  (0x10031, [w_LINEAR;w_B;w_SYLLABLE;w_B058;w_SU]);
  (0x10032, [w_LINEAR;w_B;w_SYLLABLE;w_B059;w_TA]);
  (0x10033, [w_LINEAR;w_B;w_SYLLABLE;w_B004;w_TE]);
  (0x10034, [w_LINEAR;w_B;w_SYLLABLE;w_B037;w_TI]);
  (0x10035, [w_LINEAR;w_B;w_SYLLABLE;w_B005;w_TO]);
  (0x10036, [w_LINEAR;w_B;w_SYLLABLE;w_B069;w_TU]);
  (0x10037, [w_LINEAR;w_B;w_SYLLABLE;w_B054;w_WA]);
  (0x10038, [w_LINEAR;w_B;w_SYLLABLE;w_B075;w_WE]);
  (0x10039, [w_LINEAR;w_B;w_SYLLABLE;w_B040;w_WI]);
  (0x1003a, [w_LINEAR;w_B;w_SYLLABLE;w_B042;w_WO]);
  (0x1003c, [w_LINEAR;w_B;w_SYLLABLE;w_B017;w_ZA]);
  (0x1003d, [w_LINEAR;w_B;w_SYLLABLE;w_B074;w_ZE]);
  (0x1003f, [w_LINEAR;w_B;w_SYLLABLE;w_B020;w_ZO]);
  (0x10040, [w_LINEAR;w_B;w_SYLLABLE;w_B025;w_A2]);
  (0x10041, [w_LINEAR;w_B;w_SYLLABLE;w_B043;w_A3]);
  (0x10042, [w_LINEAR;w_B;w_SYLLABLE;w_B085;w_AU]);
  (0x10043, [w_LINEAR;w_B;w_SYLLABLE;w_B071;w_DWE]);
  (0x10044, [w_LINEAR;w_B;w_SYLLABLE;w_B090;w_DWO]);
  (0x10045, [w_LINEAR;w_B;w_SYLLABLE;w_B048;w_NWA]);
  (0x10046, [w_LINEAR;w_B;w_SYLLABLE;w_B029;w_PU2]);
  (0x10047, [w_LINEAR;w_B;w_SYLLABLE;w_B062;w_PTE]);
  (0x10048, [w_LINEAR;w_B;w_SYLLABLE;w_B076;w_RA2]);
  (0x10049, [w_LINEAR;w_B;w_SYLLABLE;w_B033;w_RA3]);
  (0x1004a, [w_LINEAR;w_B;w_SYLLABLE;w_B068;w_RO2]);
  (0x1004b, [w_LINEAR;w_B;w_SYLLABLE;w_B066;w_TA2]);
  (0x1004c, [w_LINEAR;w_B;w_SYLLABLE;w_B087;w_TWE]);
  (0x1004d, [w_LINEAR;w_B;w_SYLLABLE;w_B091;w_TWO]);
  (0x10050, [w_LINEAR;w_B;w_SYMBOL;w_B018]);
  (0x10051, [w_LINEAR;w_B;w_SYMBOL;w_B019]);
  (0x10052, [w_LINEAR;w_B;w_SYMBOL;w_B022]);
  (0x10053, [w_LINEAR;w_B;w_SYMBOL;w_B034]);
  (0x10054, [w_LINEAR;w_B;w_SYMBOL;w_B047]);
  (0x10055, [w_LINEAR;w_B;w_SYMBOL;w_B049]);
  (0x10056, [w_LINEAR;w_B;w_SYMBOL;w_B056]);
  (0x10057, [w_LINEAR;w_B;w_SYMBOL;w_B063]);
  (0x10058, [w_LINEAR;w_B;w_SYMBOL;w_B064]);
  (0x10059, [w_LINEAR;w_B;w_SYMBOL;w_B079]);
  (0x1005a, [w_LINEAR;w_B;w_SYMBOL;w_B082]);
  (0x1005b, [w_LINEAR;w_B;w_SYMBOL;w_B083]);
  (0x1005c, [w_LINEAR;w_B;w_SYMBOL;w_B086]);
  (0x1005d, [w_LINEAR;w_B;w_SYMBOL;w_B089]);
  (0x10080, [w_LINEAR;w_B;w_IDEOGRAM;w_B100;w_MAN]);
  (0x10081, [w_LINEAR;w_B;w_IDEOGRAM;w_B102;w_WOMAN]);
  (0x10082, [w_LINEAR;w_B;w_IDEOGRAM;w_B104;w_DEER]);
  (0x10083, [w_LINEAR;w_B;w_IDEOGRAM;w_B105;w_EQUID]);
  (0x10084, [w_LINEAR;w_B;w_IDEOGRAM;w_B105F;w_MARE]);
  (0x10085, [w_LINEAR;w_B;w_IDEOGRAM;w_B105M;w_STALLION]);
  (0x10086, [w_LINEAR;w_B;w_IDEOGRAM;w_B106F;w_EWE]);
  (0x10087, [w_LINEAR;w_B;w_IDEOGRAM;w_B106M;w_RAM]);
  (0x10088, [w_LINEAR;w_B;w_IDEOGRAM;w_B107F;w_SHE_GOAT]);
  (0x10089, [w_LINEAR;w_B;w_IDEOGRAM;w_B107M;w_HE_GOAT]);
  (0x1008a, [w_LINEAR;w_B;w_IDEOGRAM;w_B108F;w_SOW]);
  (0x1008b, [w_LINEAR;w_B;w_IDEOGRAM;w_B108M;w_BOAR]);
  (0x1008c, [w_LINEAR;w_B;w_IDEOGRAM;w_B109F;w_COW]);
  (0x1008d, [w_LINEAR;w_B;w_IDEOGRAM;w_B109M;w_BULL]);
  (0x1008e, [w_LINEAR;w_B;w_IDEOGRAM;w_B120;w_WHEAT]);
  (0x1008f, [w_LINEAR;w_B;w_IDEOGRAM;w_B121;w_BARLEY]);
  (0x10090, [w_LINEAR;w_B;w_IDEOGRAM;w_B122;w_OLIVE]);
  (0x10091, [w_LINEAR;w_B;w_IDEOGRAM;w_B123;w_SPICE]);
  (0x10092, [w_LINEAR;w_B;w_IDEOGRAM;w_B125;w_CYPERUS]);
  (0x10093, [w_LINEAR;w_B;w_MONOGRAM;w_B127;w_KAPO]);
  (0x10094, [w_LINEAR;w_B;w_MONOGRAM;w_B128;w_KANAKO]);
  (0x10095, [w_LINEAR;w_B;w_IDEOGRAM;w_B130;w_OIL]);
  (0x10096, [w_LINEAR;w_B;w_IDEOGRAM;w_B131;w_WINE]);
  (0x10097, [w_LINEAR;w_B;w_IDEOGRAM;w_B132]);
  (0x10098, [w_LINEAR;w_B;w_MONOGRAM;w_B133;w_AREPA]);
  (0x10099, [w_LINEAR;w_B;w_MONOGRAM;w_B135;w_MERI]);
  (0x1009a, [w_LINEAR;w_B;w_IDEOGRAM;w_B140;w_BRONZE]);
  (0x1009b, [w_LINEAR;w_B;w_IDEOGRAM;w_B141;w_GOLD]);
  (0x1009c, [w_LINEAR;w_B;w_IDEOGRAM;w_B142]);
  (0x1009d, [w_LINEAR;w_B;w_IDEOGRAM;w_B145;w_WOOL]);
  (0x1009e, [w_LINEAR;w_B;w_IDEOGRAM;w_B146]);
  (0x1009f, [w_LINEAR;w_B;w_IDEOGRAM;w_B150]);
  (0x100a0, [w_LINEAR;w_B;w_IDEOGRAM;w_B151;w_HORN]);
  (0x100a1, [w_LINEAR;w_B;w_IDEOGRAM;w_B152]);
  (0x100a2, [w_LINEAR;w_B;w_IDEOGRAM;w_B153]);
  (0x100a3, [w_LINEAR;w_B;w_IDEOGRAM;w_B154]);
  (0x100a4, [w_LINEAR;w_B;w_MONOGRAM;w_B156;w_TURO2]);
  (0x100a5, [w_LINEAR;w_B;w_IDEOGRAM;w_B157]);
  (0x100a6, [w_LINEAR;w_B;w_IDEOGRAM;w_B158]);
  (0x100a7, [w_LINEAR;w_B;w_IDEOGRAM;w_B159;w_CLOTH]);
  (0x100a8, [w_LINEAR;w_B;w_IDEOGRAM;w_B160]);
  (0x100a9, [w_LINEAR;w_B;w_IDEOGRAM;w_B161]);
  (0x100aa, [w_LINEAR;w_B;w_IDEOGRAM;w_B162;w_GARMENT]);
  (0x100ab, [w_LINEAR;w_B;w_IDEOGRAM;w_B163;w_ARMOUR]);
  (0x100ac, [w_LINEAR;w_B;w_IDEOGRAM;w_B164]);
  (0x100ad, [w_LINEAR;w_B;w_IDEOGRAM;w_B165]);
  (0x100ae, [w_LINEAR;w_B;w_IDEOGRAM;w_B166]);
  (0x100af, [w_LINEAR;w_B;w_IDEOGRAM;w_B167]);
  (0x100b0, [w_LINEAR;w_B;w_IDEOGRAM;w_B168]);
  (0x100b1, [w_LINEAR;w_B;w_IDEOGRAM;w_B169]);
  (0x100b2, [w_LINEAR;w_B;w_IDEOGRAM;w_B170]);
  (0x100b3, [w_LINEAR;w_B;w_IDEOGRAM;w_B171]);
  (0x100b4, [w_LINEAR;w_B;w_IDEOGRAM;w_B172]);
  (0x100b5, [w_LINEAR;w_B;w_IDEOGRAM;w_B173;w_MONTH]);
  (0x100b6, [w_LINEAR;w_B;w_IDEOGRAM;w_B174]);
  (0x100b7, [w_LINEAR;w_B;w_IDEOGRAM;w_B176;w_TREE]);
  (0x100b8, [w_LINEAR;w_B;w_IDEOGRAM;w_B177]);
  (0x100b9, [w_LINEAR;w_B;w_IDEOGRAM;w_B178]);
  (0x100ba, [w_LINEAR;w_B;w_IDEOGRAM;w_B179]);
  (0x100bb, [w_LINEAR;w_B;w_IDEOGRAM;w_B180]);
  (0x100bc, [w_LINEAR;w_B;w_IDEOGRAM;w_B181]);
  (0x100bd, [w_LINEAR;w_B;w_IDEOGRAM;w_B182]);
  (0x100be, [w_LINEAR;w_B;w_IDEOGRAM;w_B183]);
  (0x100bf, [w_LINEAR;w_B;w_IDEOGRAM;w_B184]);
  (0x100c0, [w_LINEAR;w_B;w_IDEOGRAM;w_B185]);
  (0x100c1, [w_LINEAR;w_B;w_IDEOGRAM;w_B189]);
  (0x100c2, [w_LINEAR;w_B;w_IDEOGRAM;w_B190]);
  (0x100c3, [w_LINEAR;w_B;w_IDEOGRAM;w_B191;w_HELMET]);
  (0x100c4, [w_LINEAR;w_B;w_IDEOGRAM;w_B220;w_FOOTSTOOL]);
  (0x100c5, [w_LINEAR;w_B;w_IDEOGRAM;w_B225;w_BATHTUB]);
  (0x100c6, [w_LINEAR;w_B;w_IDEOGRAM;w_B230;w_SPEAR]);
  (0x100c7, [w_LINEAR;w_B;w_IDEOGRAM;w_B231;w_ARROW]);
  (0x100c8, [w_LINEAR;w_B;w_IDEOGRAM;w_B232]);
  (0x100c9, [w_LINEAR;w_B;w_IDEOGRAM;w_B233;w_SWORD]);
  (0x100ca, [w_LINEAR;w_B;w_IDEOGRAM;w_B234]);
  (0x100cb, [w_LINEAR;w_B;w_IDEOGRAM;w_B236]);
  (0x100cc, [w_LINEAR;w_B;w_IDEOGRAM;w_B240;w_WHEELED;w_CHARIOT]);
  (0x100cd, [w_LINEAR;w_B;w_IDEOGRAM;w_B241;w_CHARIOT]);
  (0x100ce, [w_LINEAR;w_B;w_IDEOGRAM;w_B242;w_CHARIOT;w_FRAME]);
  (0x100cf, [w_LINEAR;w_B;w_IDEOGRAM;w_B243;w_WHEEL]);
  (0x100d0, [w_LINEAR;w_B;w_IDEOGRAM;w_B245]);
  (0x100d1, [w_LINEAR;w_B;w_IDEOGRAM;w_B246]);
  (0x100d2, [w_LINEAR;w_B;w_MONOGRAM;w_B247;w_DIPTE]);
  (0x100d3, [w_LINEAR;w_B;w_IDEOGRAM;w_B248]);
  (0x100d4, [w_LINEAR;w_B;w_IDEOGRAM;w_B249]);
  (0x100d5, [w_LINEAR;w_B;w_IDEOGRAM;w_B251]);
  (0x100d6, [w_LINEAR;w_B;w_IDEOGRAM;w_B252]);
  (0x100d7, [w_LINEAR;w_B;w_IDEOGRAM;w_B253]);
  (0x100d8, [w_LINEAR;w_B;w_IDEOGRAM;w_B254;w_DART]);
  (0x100d9, [w_LINEAR;w_B;w_IDEOGRAM;w_B255]);
  (0x100da, [w_LINEAR;w_B;w_IDEOGRAM;w_B256]);
  (0x100db, [w_LINEAR;w_B;w_IDEOGRAM;w_B257]);
  (0x100dc, [w_LINEAR;w_B;w_IDEOGRAM;w_B258]);
  (0x100dd, [w_LINEAR;w_B;w_IDEOGRAM;w_B259]);
  (0x100de, [w_LINEAR;w_B;w_IDEOGRAM;w_VESSEL;w_B155]);
  (0x100df, [w_LINEAR;w_B;w_IDEOGRAM;w_VESSEL;w_B200]);
  (0x100e0, [w_LINEAR;w_B;w_IDEOGRAM;w_VESSEL;w_B201]);
  (0x100e1, [w_LINEAR;w_B;w_IDEOGRAM;w_VESSEL;w_B202]);
  (0x100e2, [w_LINEAR;w_B;w_IDEOGRAM;w_VESSEL;w_B203]);
  (0x100e3, [w_LINEAR;w_B;w_IDEOGRAM;w_VESSEL;w_B204]);
  (0x100e4, [w_LINEAR;w_B;w_IDEOGRAM;w_VESSEL;w_B205]);
  (0x100e5, [w_LINEAR;w_B;w_IDEOGRAM;w_VESSEL;w_B206]);
  (0x100e6, [w_LINEAR;w_B;w_IDEOGRAM;w_VESSEL;w_B207]);
  (0x100e7, [w_LINEAR;w_B;w_IDEOGRAM;w_VESSEL;w_B208]);
  (0x100e8, [w_LINEAR;w_B;w_IDEOGRAM;w_VESSEL;w_B209]);
  (0x100e9, [w_LINEAR;w_B;w_IDEOGRAM;w_VESSEL;w_B210]);
  (0x100ea, [w_LINEAR;w_B;w_IDEOGRAM;w_VESSEL;w_B211]);
  (0x100eb, [w_LINEAR;w_B;w_IDEOGRAM;w_VESSEL;w_B212]);
  (0x100ec, [w_LINEAR;w_B;w_IDEOGRAM;w_VESSEL;w_B213]);
  (0x100ed, [w_LINEAR;w_B;w_IDEOGRAM;w_VESSEL;w_B214]);
  (0x100ee, [w_LINEAR;w_B;w_IDEOGRAM;w_VESSEL;w_B215]);
  (0x100ef, [w_LINEAR;w_B;w_IDEOGRAM;w_VESSEL;w_B216]);
  (0x100f0, [w_LINEAR;w_B;w_IDEOGRAM;w_VESSEL;w_B217]);
  (0x100f1, [w_LINEAR;w_B;w_IDEOGRAM;w_VESSEL;w_B218]);
  (0x100f2, [w_LINEAR;w_B;w_IDEOGRAM;w_VESSEL;w_B219]);
  (0x100f3, [w_LINEAR;w_B;w_IDEOGRAM;w_VESSEL;w_B221]);
  (0x100f4, [w_LINEAR;w_B;w_IDEOGRAM;w_VESSEL;w_B222]);
  (0x100f5, [w_LINEAR;w_B;w_IDEOGRAM;w_VESSEL;w_B226]);
  (0x100f6, [w_LINEAR;w_B;w_IDEOGRAM;w_VESSEL;w_B227]);
  (0x100f7, [w_LINEAR;w_B;w_IDEOGRAM;w_VESSEL;w_B228]);
  (0x100f8, [w_LINEAR;w_B;w_IDEOGRAM;w_VESSEL;w_B229]);
  (0x100f9, [w_LINEAR;w_B;w_IDEOGRAM;w_VESSEL;w_B250]);
  (0x100fa, [w_LINEAR;w_B;w_IDEOGRAM;w_VESSEL;w_B305]);
  (0x10100, [w_AEGEAN;w_WORD;w_SEPARATOR;w_LINE]);
  (0x10101, [w_AEGEAN;w_WORD;w_SEPARATOR;w_DOT]);
  (0x10102, [w_AEGEAN;w_CHECK;w_MARK]);
  (0x10107, [w_AEGEAN;w_NUMBER;w_ONE]);
  (0x10108, [w_AEGEAN;w_NUMBER;w_TWO]);
  (0x10109, [w_AEGEAN;w_NUMBER;w_THREE]);
  (0x1010a, [w_AEGEAN;w_NUMBER;w_FOUR]);
  (0x1010b, [w_AEGEAN;w_NUMBER;w_FIVE]);
  (0x1010c, [w_AEGEAN;w_NUMBER;w_SIX]);
  (0x1010d, [w_AEGEAN;w_NUMBER;w_SEVEN]);
  (0x1010e, [w_AEGEAN;w_NUMBER;w_EIGHT]);
  (0x1010f, [w_AEGEAN;w_NUMBER;w_NINE]);
  (0x10110, [w_AEGEAN;w_NUMBER;w_TEN]);
  (0x10111, [w_AEGEAN;w_NUMBER;w_TWENTY]);
  (0x10112, [w_AEGEAN;w_NUMBER;w_THIRTY]);
  (0x10113, [w_AEGEAN;w_NUMBER;w_FORTY]);
  (0x10114, [w_AEGEAN;w_NUMBER;w_FIFTY]);
  (0x10115, [w_AEGEAN;w_NUMBER;w_SIXTY]);
  (0x10116, [w_AEGEAN;w_NUMBER;w_SEVENTY]);
  (0x10117, [w_AEGEAN;w_NUMBER;w_EIGHTY]);
  (0x10118, [w_AEGEAN;w_NUMBER;w_NINETY]);
  (0x10119, [w_AEGEAN;w_NUMBER;w_ONE;w_HUNDRED]);
  (0x1011a, [w_AEGEAN;w_NUMBER;w_TWO;w_HUNDRED]);
  (0x1011b, [w_AEGEAN;w_NUMBER;w_THREE;w_HUNDRED]);
  (0x1011c, [w_AEGEAN;w_NUMBER;w_FOUR;w_HUNDRED]);
  (0x1011d, [w_AEGEAN;w_NUMBER;w_FIVE;w_HUNDRED]);
  (0x1011e, [w_AEGEAN;w_NUMBER;w_SIX;w_HUNDRED]);
  (0x1011f, [w_AEGEAN;w_NUMBER;w_SEVEN;w_HUNDRED]);
  (0x10120, [w_AEGEAN;w_NUMBER;w_EIGHT;w_HUNDRED]);
  (0x10121, [w_AEGEAN;w_NUMBER;w_NINE;w_HUNDRED]);
  (0x10122, [w_AEGEAN;w_NUMBER;w_ONE;w_THOUSAND]);
  (0x10123, [w_AEGEAN;w_NUMBER;w_TWO;w_THOUSAND]);
  (0x10124, [w_AEGEAN;w_NUMBER;w_THREE;w_THOUSAND]);
  (0x10125, [w_AEGEAN;w_NUMBER;w_FOUR;w_THOUSAND]);
  (0x10126, [w_AEGEAN;w_NUMBER;w_FIVE;w_THOUSAND]);
  (0x10127, [w_AEGEAN;w_NUMBER;w_SIX;w_THOUSAND]);
  (0x10128, [w_AEGEAN;w_NUMBER;w_SEVEN;w_THOUSAND]);
  (0x10129, [w_AEGEAN;w_NUMBER;w_EIGHT;w_THOUSAND]);
  (0x1012a, [w_AEGEAN;w_NUMBER;w_NINE;w_THOUSAND]);
  (0x1012b, [w_AEGEAN;w_NUMBER;w_TEN;w_THOUSAND]);
  (0x1012c, [w_AEGEAN;w_NUMBER;w_TWENTY;w_THOUSAND]);
  (0x1012d, [w_AEGEAN;w_NUMBER;w_THIRTY;w_THOUSAND]);
  (0x1012e, [w_AEGEAN;w_NUMBER;w_FORTY;w_THOUSAND]);
  (0x1012f, [w_AEGEAN;w_NUMBER;w_FIFTY;w_THOUSAND]);
  (0x10130, [w_AEGEAN;w_NUMBER;w_SIXTY;w_THOUSAND]);
  (0x10131, [w_AEGEAN;w_NUMBER;w_SEVENTY;w_THOUSAND]);
  (0x10132, [w_AEGEAN;w_NUMBER;w_EIGHTY;w_THOUSAND]);
  (0x10133, [w_AEGEAN;w_NUMBER;w_NINETY;w_THOUSAND]);
  (0x10137, [w_AEGEAN;w_WEIGHT;w_BASE;w_UNIT]);
  (0x10138, [w_AEGEAN;w_WEIGHT;w_FIRST;w_SUBUNIT]);
  (0x10139, [w_AEGEAN;w_WEIGHT;w_SECOND;w_SUBUNIT]);
  (0x1013a, [w_AEGEAN;w_WEIGHT;w_THIRD;w_SUBUNIT]);
  (0x1013b, [w_AEGEAN;w_WEIGHT;w_FOURTH;w_SUBUNIT]);
  (0x1013c, [w_AEGEAN;w_DRY;w_MEASURE;w_FIRST;w_SUBUNIT]);
  (0x1013d, [w_AEGEAN;w_LIQUID;w_MEASURE;w_FIRST;w_SUBUNIT]);
  (0x1013e, [w_AEGEAN;w_MEASURE;w_SECOND;w_SUBUNIT]);
  (0x1013f, [w_AEGEAN;w_MEASURE;w_THIRD;w_SUBUNIT]);
  (0x10140, [w_GREEK;w_ACROPHONIC;w_ATTIC;w_ONE;w_QUARTER]);
  (0x10141, [w_GREEK;w_ACROPHONIC;w_ATTIC;w_ONE;w_HALF]);
  (0x10142, [w_GREEK;w_ACROPHONIC;w_ATTIC;w_ONE;w_DRACHMA]);
  (0x10143, [w_GREEK;w_ACROPHONIC;w_ATTIC;w_FIVE]);
  (0x10144, [w_GREEK;w_ACROPHONIC;w_ATTIC;w_FIFTY]);
  (0x10145, [w_GREEK;w_ACROPHONIC;w_ATTIC;w_FIVE;w_HUNDRED]);
  (0x10146, [w_GREEK;w_ACROPHONIC;w_ATTIC;w_FIVE;w_THOUSAND]);
  (0x10147, [w_GREEK;w_ACROPHONIC;w_ATTIC;w_FIFTY;w_THOUSAND]);
  (0x10148, [w_GREEK;w_ACROPHONIC;w_ATTIC;w_FIVE;w_TALENTS]);
  (0x10149, [w_GREEK;w_ACROPHONIC;w_ATTIC;w_TEN;w_TALENTS]);
  (0x1014a, [w_GREEK;w_ACROPHONIC;w_ATTIC;w_FIFTY;w_TALENTS]);
  (0x1014b, [w_GREEK;w_ACROPHONIC;w_ATTIC;w_ONE;w_HUNDRED;w_TALENTS]);
  (0x1014c, [w_GREEK;w_ACROPHONIC;w_ATTIC;w_FIVE;w_HUNDRED;w_TALENTS]);
  (0x1014d, [w_GREEK;w_ACROPHONIC;w_ATTIC;w_ONE;w_THOUSAND;w_TALENTS]);
  (0x1014e, [w_GREEK;w_ACROPHONIC;w_ATTIC;w_FIVE;w_THOUSAND;w_TALENTS]);
  (0x1014f, [w_GREEK;w_ACROPHONIC;w_ATTIC;w_FIVE;w_STATERS]);
  (0x10150, [w_GREEK;w_ACROPHONIC;w_ATTIC;w_TEN;w_STATERS]);
  (0x10151, [w_GREEK;w_ACROPHONIC;w_ATTIC;w_FIFTY;w_STATERS]);
  (0x10152, [w_GREEK;w_ACROPHONIC;w_ATTIC;w_ONE;w_HUNDRED;w_STATERS]);
  (0x10153, [w_GREEK;w_ACROPHONIC;w_ATTIC;w_FIVE;w_HUNDRED;w_STATERS]);
  (0x10154, [w_GREEK;w_ACROPHONIC;w_ATTIC;w_ONE;w_THOUSAND;w_STATERS]);
  (0x10155, [w_GREEK;w_ACROPHONIC;w_ATTIC;w_TEN;w_THOUSAND;w_STATERS]);
  (0x10156, [w_GREEK;w_ACROPHONIC;w_ATTIC;w_FIFTY;w_THOUSAND;w_STATERS]);
  (0x10157, [w_GREEK;w_ACROPHONIC;w_ATTIC;w_TEN;w_MNAS]);
  (0x10158, [w_GREEK;w_ACROPHONIC;w_HERAEUM;w_ONE;w_PLETHRON]);
  (0x10159, [w_GREEK;w_ACROPHONIC;w_THESPIAN;w_ONE]);
  (0x1015a, [w_GREEK;w_ACROPHONIC;w_HERMIONIAN;w_ONE]);
  (0x1015b, [w_GREEK;w_ACROPHONIC;w_EPIDAUREAN;w_TWO])].

Definition NAMES_42 : list (N * (list str)) := [
  (0x1015c, [w_GREEK;w_ACROPHONIC;w_THESPIAN;w_TWO]);
  (0x1015d, [w_GREEK;w_ACROPHONIC;w_CYRENAIC;w_TWO;w_DRACHMAS]);
  (0x1015e, [w_GREEK;w_ACROPHONIC;w_EPIDAUREAN;w_TWO;w_DRACHMAS]);
  (0x1015f, [w_GREEK;w_ACROPHONIC;w_TROEZENIAN;w_FIVE]);
  (0x10160, [w_GREEK;w_ACROPHONIC;w_TROEZENIAN;w_TEN]);
  (0x10161, [w_GREEK;w_ACROPHONIC;w_TROEZENIAN;w_TEN;w_ALTERNATE;w_FORM]);
  (0x10162, [w_GREEK;w_ACROPHONIC;w_HERMIONIAN;w_TEN]);
  (0x10163, [w_GREEK;w_ACROPHONIC;w_MESSENIAN;w_TEN]);
  (0x10164, [w_GREEK;w_ACROPHONIC;w_THESPIAN;w_TEN]);
  (0x10165, [w_GREEK;w_ACROPHONIC;w_THESPIAN;w_THIRTY]);
  (0x10166, [w_GREEK;w_ACROPHONIC;w_TROEZENIAN;w_FIFTY]);
  (0x10167, [w_GREEK;w_ACROPHONIC;w_TROEZENIAN;w_FIFTY;w_ALTERNATE;w_FORM]);
  (0x10168, [w_GREEK;w_ACROPHONIC;w_HERMIONIAN;w_FIFTY]);
  (0x10169, [w_GREEK;w_ACROPHONIC;w_THESPIAN;w_FIFTY]);
  (0x1016a, [w_GREEK;w_ACROPHONIC;w_THESPIAN;w_ONE;w_HUNDRED]);
  (0x1016b, [w_GREEK;w_ACROPHONIC;w_THESPIAN;w_THREE;w_HUNDRED]);
  (0x1016c, [w_GREEK;w_ACROPHONIC;w_EPIDAUREAN;w_FIVE;w_HUNDRED]);
  (0x1016d, [w_GREEK;w_ACROPHONIC;w_TROEZENIAN;w_FIVE;w_HUNDRED]);
  (0x1016e, [w_GREEK;w_ACROPHONIC;w_THESPIAN;w_FIVE;w_HUNDRED]);
  (0x1016f, [w_GREEK;w_ACROPHONIC;w_CARYSTIAN;w_FIVE;w_HUNDRED]);
  (0x10170, [w_GREEK;w_ACROPHONIC;w_NAXIAN;w_FIVE;w_HUNDRED]);
  (0x10171, [w_GREEK;w_ACROPHONIC;w_THESPIAN;w_ONE;w_THOUSAND]);
  (0x10172, [w_GREEK;w_ACROPHONIC;w_THESPIAN;w_FIVE;w_THOUSAND]);
  (0x10173, [w_GREEK;w_ACROPHONIC;w_DELPHIC;w_FIVE;w_MNAS]);
  (0x10174, [w_GREEK;w_ACROPHONIC;w_STRATIAN;w_FIFTY;w_MNAS]);
  (0x10175, [w_GREEK;w_ONE;w_HALF;w_SIGN]);
  (0x10176, [w_GREEK;w_ONE;w_HALF;w_SIGN;w_ALTERNATE;w_FORM]);
  (0x10177, [w_GREEK;w_TWO;w_THIRDS;w_SIGN]);
  (0x10178, [w_GREEK;w_THREE;w_QUARTERS;w_SIGN]);
  (0x10179, [w_GREEK;w_YEAR;w_SIGN]);
  (0x1017a, [w_GREEK;w_TALENT;w_SIGN]);
  (0x1017b, [w_GREEK;w_DRACHMA;w_SIGN]);
  (0x1017c, [w_GREEK;w_OBOL;w_SIGN]);
  (0x1017d, [w_GREEK;w_TWO;w_OBOLS;w_SIGN]);
  (0x1017e, [w_GREEK;w_THREE;w_OBOLS;w_SIGN]);
  (0x1017f, [w_GREEK;w_FOUR;w_OBOLS;w_SIGN]);
  (0x10180, [w_GREEK;w_FIVE;w_OBOLS;w_SIGN]);
  (0x10181, [w_GREEK;w_METRETES;w_SIGN]);
  (0x10182, [w_GREEK;w_KYATHOS;w_BASE;w_SIGN]);
  (0x10183, [w_GREEK;w_LITRA;w_SIGN]);
  (0x10184, [w_GREEK;w_OUNKIA;w_SIGN]);
  (0x10185, [w_GREEK;w_XESTES;w_SIGN]);
  (0x10186, [w_GREEK;w_ARTABE;w_SIGN]);
  (0x10187, [w_GREEK;w_AROURA;w_SIGN]);
  (0x10188, [w_GREEK;w_GRAMMA;w_SIGN]);
  (0x10189, [w_GREEK;w_TRYBLION;w_BASE;w_SIGN]);
  (0x1018a, [w_GREEK;w_ZERO;w_SIGN]);
  (0x1018b, [w_GREEK;w_ONE;w_QUARTER;w_SIGN]);
  (0x1018c, [w_GREEK;w_SINUSOID;w_SIGN]);
  (0x1018d, [w_GREEK;w_INDICTION;w_SIGN]);
  (0x1018e, [w_NOMISMA;w_SIGN]);
  (0x10190, [w_ROMAN;w_SEXTANS;w_SIGN]);
  (0x10191, [w_ROMAN;w_UNCIA;w_SIGN]);
  (0x10192, [w_ROMAN;w_SEMUNCIA;w_SIGN]);
  (0x10193, [w_ROMAN;w_SEXTULA;w_SIGN]);
  (0x10194, [w_ROMAN;w_DIMIDIA;w_SEXTULA;w_SIGN]);
  (0x10195, [w_ROMAN;w_SILIQUA;w_SIGN]);
  (0x10196, [w_ROMAN;w_DENARIUS;w_SIGN]);
  (0x10197, [w_ROMAN;w_QUINARIUS;w_SIGN]);
  (0x10198, [w_ROMAN;w_SESTERTIUS;w_SIGN]);
  (0x10199, [w_ROMAN;w_DUPONDIUS;w_SIGN]);
  (0x1019a, [w_ROMAN;w_AS;w_SIGN]);
  (0x1019b, [w_ROMAN;w_CENTURIAL;w_SIGN]);
  (0x101a0, [w_GREEK;w_SYMBOL;w_TAU;w_RHO]);
  (0x101d0, [w_PHAISTOS;w_DISC;w_SIGN;w_PEDESTRIAN]);
  (0x101d1, [w_PHAISTOS;w_DISC;w_SIGN;w_PLUMED;w_HEAD]);
  (0x101d2, [w_PHAISTOS;w_DISC;w_SIGN;w_TATTOOED;w_HEAD]);
  (0x101d3, [w_PHAISTOS;w_DISC;w_SIGN;w_CAPTIVE]);
  (0x101d4, [w_PHAISTOS;w_DISC;w_SIGN;w_CHILD]);
  (0x101d5, [w_PHAISTOS;w_DISC;w_SIGN;w_WOMAN]);
  (0x101d6, [w_PHAISTOS;w_DISC;w_SIGN;w_HELMET]);
  (0x101d7, [w_PHAISTOS;w_DISC;w_SIGN;w_GAUNTLET]);
  (0x101d8, [w_PHAISTOS;w_DISC;w_SIGN;w_TIARA]);
  (0x101d9, [w_PHAISTOS;w_DISC;w_SIGN;w_ARROW]);
  (0x101da, [w_PHAISTOS;w_DISC;w_SIGN;w_BOW]);
  (0x101db, [w_PHAISTOS;w_DISC;w_SIGN;w_SHIELD]);
  (0x101dc, [w_PHAISTOS;w_DISC;w_SIGN;w_CLUB]);
  (0x101dd, [w_PHAISTOS;w_DISC;w_SIGN;w_MANACLES]);
  (0x101de, [w_PHAISTOS;w_DISC;w_SIGN;w_MATTOCK]);
  (0x101df, [w_PHAISTOS;w_DISC;w_SIGN;w_SAW]);
  (0x101e0, [w_PHAISTOS;w_DISC;w_SIGN;w_LID]);
  (0x101e1, [w_PHAISTOS;w_DISC;w_SIGN;w_BOOMERANG]);
  (0x101e2, [w_PHAISTOS;w_DISC;w_SIGN;w_CARPENTRY;w_PLANE]);
  (0x101e3, [w_PHAISTOS;w_DISC;w_SIGN;w_DOLIUM]);
  (0x101e4, [w_PHAISTOS;w_DISC;w_SIGN;w_COMB]);
  (0x101e5, [w_PHAISTOS;w_DISC;w_SIGN;w_SLING]);
  (0x101e6, [w_PHAISTOS;w_DISC;w_SIGN;w_COLUMN]);
  (0x101e7, [w_PHAISTOS;w_DISC;w_SIGN;w_BEEHIVE]);
  (0x101e8, [w_PHAISTOS;w_DISC;w_SIGN;w_SHIP]);
  (0x101e9, [w_PHAISTOS;w_DISC;w_SIGN;w_HORN]);
  (0x101ea, [w_PHAISTOS;w_DISC;w_SIGN;w_HIDE]);
  (0x101eb, [w_PHAISTOS;w_DISC;w_SIGN;w_BULLS;w_LEG]);
  (0x101ec, [w_PHAISTOS;w_DISC;w_SIGN;w_CAT]);
  (0x101ed, [w_PHAISTOS;w_DISC;w_SIGN;w_RAM]);
  (0x101ee, [w_PHAISTOS;w_DISC;w_SIGN;w_EAGLE]);
  (0x101ef, [w_PHAISTOS;w_DISC;w_SIGN;w_DOVE]);
  (0x101f0, [w_PHAISTOS;w_DISC;w_SIGN;w_TUNNY]);
  (0x101f1, [w_PHAISTOS;w_DISC;w_SIGN;w_BEE]);
  (0x101f2, [w_PHAISTOS;w_DISC;w_SIGN;w_PLANE;w_TREE]);
  (0x101f3, [w_PHAISTOS;w_DISC;w_SIGN;w_VINE]);
  (0x101f4, [w_PHAISTOS;w_DISC;w_SIGN;w_PAPYRUS]);
  (0x101f5, [w_PHAISTOS;w_DISC;w_SIGN;w_ROSETTE]);
  (0x101f6, [w_PHAISTOS;w_DISC;w_SIGN;w_LILY]);
  (0x101f7, [w_PHAISTOS;w_DISC;w_SIGN;w_OX;w_BACK]);
  (0x101f8, [w_PHAISTOS;w_DISC;w_SIGN;w_FLUTE]);
  (0x101f9, [w_PHAISTOS;w_DISC;w_SIGN;w_GRATER]);
  (0x101fa, [w_PHAISTOS;w_DISC;w_SIGN;w_STRAINER]);
  (0x101fb, [w_PHAISTOS;w_DISC;w_SIGN;w_SMALL;w_AXE]);
  (0x101fc, [w_PHAISTOS;w_DISC;w_SIGN;w_WAVY;w_BAND]);
  (0x101fd, [w_PHAISTOS;w_DISC;w_SIGN;w_COMBINING;w_OBLIQUE;w_STROKE]);
  (0x10280, [w_LYCIAN;w_LETTER;w_A]);
  (0x10281, [w_LYCIAN;w_LETTER;w_E]);
  (0x10282, [w_LYCIAN;w_LETTER;w_B]);
  (0x10283, [w_LYCIAN;w_LETTER;w_BH]);
  (0x10284, [w_LYCIAN;w_LETTER;w_G]);
  (0x10285, [w_LYCIAN;w_LETTER;w_D]);
  (0x10286, [w_LYCIAN;w_LETTER;w_I]);
  (0x10287, [w_LYCIAN;w_LETTER;w_W]);
  (0x10288, [w_LYCIAN;w_LETTER;w_Z]);
  (0x10289, [w_LYCIAN;w_LETTER;w_TH]);
  (0x1028a, [w_LYCIAN;w_LETTER;w_J]);
  (0x1028b, [w_LYCIAN;w_LETTER;w_K]);
  (0x1028c, [w_LYCIAN;w_LETTER;w_Q]);
  (0x1028d, [w_LYCIAN;w_LETTER;w_L]);
  (0x1028e, [w_LYCIAN;w_LETTER;w_M]);
  (0x1028f, [w_LYCIAN;w_LETTER;w_N]);
  (0x10290, [w_LYCIAN;w_LETTER;w_MM]);
  (0x10291, [w_LYCIAN;w_LETTER;w_NN]);
  (0x10292, [w_LYCIAN;w_LETTER;w_U]);
  (0x10293, [w_LYCIAN;w_LETTER;w_P]);
  (0x10294, [w_LYCIAN;w_LETTER;w_KK]);
  (0x10295, [w_LYCIAN;w_LETTER;w_R]);
  (0x10296, [w_LYCIAN;w_LETTER;w_S]);
  (0x10297, [w_LYCIAN;w_LETTER;w_T]);
  (0x10298, [w_LYCIAN;w_LETTER;w_TT]);
  (0x10299, [w_LYCIAN;w_LETTER;w_AN]);
  (0x1029a, [w_LYCIAN;w_LETTER;w_EN]);
  (0x1029b, [w_LYCIAN;w_LETTER;w_H]);
  (0x1029c, [w_LYCIAN;w_LETTER;w_X]);
  (0x102a0, [w_CARIAN;w_LETTER;w_A]);
  (0x102a1, [w_CARIAN;w_LETTER;w_P2]);
  (0x102a2, [w_CARIAN;w_LETTER;w_D]);
  (0x102a3, [w_CARIAN;w_LETTER;w_L]);
  (0x102a4, [w_CARIAN;w_LETTER;w_UUU]);
  (0x102a5, [w_CARIAN;w_LETTER;w_R]);
  (0x102a6, [w_CARIAN;w_LETTER;w_LD]);
  (0x102a7, [w_CARIAN;w_LETTER;w_A2]);
  (0x102a8, [w_CARIAN;w_LETTER;w_Q]);
  (0x102a9, [w_CARIAN;w_LETTER;w_B]);
  (0x102aa, [w_CARIAN;w_LETTER;w_M]);
  (0x102ab, [w_CARIAN;w_LETTER;w_O]);
  (0x102ac, [w_CARIAN;w_LETTER;w_D2]);
  (0x102ad, [w_CARIAN;w_LETTER;w_T]);
  (0x102ae, [w_CARIAN;w_LETTER;w_SH]);
  (0x102af, [w_CARIAN;w_LETTER;w_SH2]);
  (0x102b0, [w_CARIAN;w_LETTER;w_S]);
  (0x102b1, [w_CARIAN;w_LETTER;w_C_18]);
  (0x102b2, [w_CARIAN;w_LETTER;w_U]);
  (0x102b3, [w_CARIAN;w_LETTER;w_NN]);
  (0x102b4, [w_CARIAN;w_LETTER;w_X]);
  (0x102b5, [w_CARIAN;w_LETTER;w_N]);
  (0x102b6, [w_CARIAN;w_LETTER;w_TT2]);
  (0x102b7, [w_CARIAN;w_LETTER;w_P]);
  (0x102b8, [w_CARIAN;w_LETTER;w_SS]);
  (0x102b9, [w_CARIAN;w_LETTER;w_I]);
  (0x102ba, [w_CARIAN;w_LETTER;w_E]);
  (0x102bb, [w_CARIAN;w_LETTER;w_UUUU]);
  (0x102bc, [w_CARIAN;w_LETTER;w_K]);
  (0x102bd, [w_CARIAN;w_LETTER;w_K2]);
  (0x102be, [w_CARIAN;w_LETTER;w_ND]);
  (0x102bf, [w_CARIAN;w_LETTER;w_UU]);
  (0x102c0, [w_CARIAN;w_LETTER;w_G]);
  (0x102c1, [w_CARIAN;w_LETTER;w_G2]);
  (0x102c2, [w_CARIAN;w_LETTER;w_ST]);
  (0x102c3, [w_CARIAN;w_LETTER;w_ST2]);
  (0x102c4, [w_CARIAN;w_LETTER;w_NG]);
  (0x102c5, [w_CARIAN;w_LETTER;w_II]);
  (0x102c6, [w_CARIAN;w_LETTER;w_C_39]);
  (0x102c7, [w_CARIAN;w_LETTER;w_TT]);
  (0x102c8, [w_CARIAN;w_LETTER;w_UUU2]);
  (0x102c9, [w_CARIAN;w_LETTER;w_RR]);
  (0x102ca, [w_CARIAN;w_LETTER;w_MB]);
  (0x102cb, [w_CARIAN;w_LETTER;w_MB2]);
  (0x102cc, [w_CARIAN;w_LETTER;w_MB3]);
  (0x102cd, [w_CARIAN;w_LETTER;w_MB4]);
  (0x102ce, [w_CARIAN;w_LETTER;w_LD2]);
  (0x102cf, [w_CARIAN;w_LETTER;w_E2]);
  (0x102d0, [w_CARIAN;w_LETTER;w_UUU3]);
  (0x102e0, [w_COPTIC;w_EPACT;w_THOUSANDS;w_MARK]);
  (0x102e1, [w_COPTIC;w_EPACT;w_DIGIT;w_ONE]);
  (0x102e2, [w_COPTIC;w_EPACT;w_DIGIT;w_TWO]);
  (0x102e3, [w_COPTIC;w_EPACT;w_DIGIT;w_THREE]);
  (0x102e4, [w_COPTIC;w_EPACT;w_DIGIT;w_FOUR]);
  (0x102e5, [w_COPTIC;w_EPACT;w_DIGIT;w_FIVE]);
  (0x102e6, [w_COPTIC;w_EPACT;w_DIGIT;w_SIX]);
  (0x102e7, [w_COPTIC;w_EPACT;w_DIGIT;w_SEVEN]);
  (0x102e8, [w_COPTIC;w_EPACT;w_DIGIT;w_EIGHT]);
  (0x102e9, [w_COPTIC;w_EPACT;w_DIGIT;w_NINE]);
  (0x102ea, [w_COPTIC;w_EPACT;w_NUMBER;w_TEN]);
  (0x102eb, [w_COPTIC;w_EPACT;w_NUMBER;w_TWENTY]);
  (0x102ec, [w_COPTIC;w_EPACT;w_NUMBER;w_THIRTY]);
  (0x102ed, [w_COPTIC;w_EPACT;w_NUMBER;w_FORTY]);
  (0x102ee, [w_COPTIC;w_EPACT;w_NUMBER;w_FIFTY]);
  (0x102ef, [w_COPTIC;w_EPACT;w_NUMBER;w_SIXTY]);
  (0x102f0, [w_COPTIC;w_EPACT;w_NUMBER;w_SEVENTY]);
  (0x102f1, [w_COPTIC;w_EPACT;w_NUMBER;w_EIGHTY]);
  (0x102f2, [w_COPTIC;w_EPACT;w_NUMBER;w_NINETY]);
  (0x102f3, [w_COPTIC;w_EPACT;w_NUMBER;w_ONE;w_HUNDRED]);
  (0x102f4, [w_COPTIC;w_EPACT;w_NUMBER;w_TWO;w_HUNDRED]);
  (0x102f5, [w_COPTIC;w_EPACT;w_NUMBER;w_THREE;w_HUNDRED]);
  (0x102f6, [w_COPTIC;w_EPACT;w_NUMBER;w_FOUR;w_HUNDRED]);
  (0x102f7, [w_COPTIC;w_EPACT;w_NUMBER;w_FIVE;w_HUNDRED]);
  (0x102f8, [w_COPTIC;w_EPACT;w_NUMBER;w_SIX;w_HUNDRED]);
  (0x102f9, [w_COPTIC;w_EPACT;w_NUMBER;w_SEVEN;w_HUNDRED]);
  (0x102fa, [w_COPTIC;w_EPACT;w_NUMBER;w_EIGHT;w_HUNDRED]);
  (0x102fb, [w_COPTIC;w_EPACT;w_NUMBER;w_NINE;w_HUNDRED]);
  (0x10300, [w_OLD;w_ITALIC;w_LETTER;w_A]);
  (0x10301, [w_OLD;w_ITALIC;w_LETTER;w_BE]);
  (0x10302, [w_OLD;w_ITALIC;w_LETTER;w_KE]);
  (0x10303, [w_OLD;w_ITALIC;w_LETTER;w_DE]);
  (0x10304, [w_OLD;w_ITALIC;w_LETTER;w_E]);
  (0x10305, [w_OLD;w_ITALIC;w_LETTER;w_VE]);
  (0x10306, [w_OLD;w_ITALIC;w_LETTER;w_ZE]);
  (0x10307, [w_OLD;w_ITALIC;w_LETTER;w_HE]);
  (0x10308, [w_OLD;w_ITALIC;w_LETTER;w_THE]);
  (0x10309, [w_OLD;w_ITALIC;w_LETTER;w_I]);
  (0x1030a, [w_OLD;w_ITALIC;w_LETTER;w_KA]);
  (0x1030b, [w_OLD;w_ITALIC;w_LETTER;w_EL]);
  (0x1030c, [w_OLD;w_ITALIC;w_LETTER;w_EM]);
  (0x1030d, [w_OLD;w_ITALIC;w_LETTER;w_EN]);
  (0x1030e, [w_OLD;w_ITALIC;w_LETTER;w_ESH]);
  (0x1030f, [w_OLD;w_ITALIC;w_LETTER;w_O]);
  (0x10310, [w_OLD;w_ITALIC;w_LETTER;w_PE]);
  (0x10311, [w_OLD;w_ITALIC;w_LETTER;w_SHE]);
  (0x10312, [w_OLD;w_ITALIC;w_LETTER;w_KU]);
  (0x10313, [w_OLD;w_ITALIC;w_LETTER;w_ER]);
  (0x10314, [w_OLD;w_ITALIC;w_LETTER;w_ES]);
  (0x10315, [w_OLD;w_ITALIC;w_LETTER;w_TE]);
  (0x10316, [w_OLD;w_ITALIC;w_LETTER;w_U]);
  (0x10317, [w_OLD;w_ITALIC;w_LETTER;w_EKS]);
  (0x10318, [w_OLD;w_ITALIC;w_LETTER;w_PHE]);
  (0x10319, [w_OLD;w_ITALIC;w_LETTER;w_KHE]);
  (0x1031a, [w_OLD;w_ITALIC;w_LETTER;w_EF]);
  (0x1031b, [w_OLD;w_ITALIC;w_LETTER;w_ERS]);
  (0x1031c, [w_OLD;w_ITALIC;w_LETTER;w_CHE]);
  (0x1031d, [w_OLD;w_ITALIC;w_LETTER;w_II]);
  (0x1031e, [w_OLD;w_ITALIC;w_LETTER;w_UU]);
  (0x1031f, [w_OLD;w_ITALIC;w_LETTER;w_ESS]);
  (0x10320, [w_OLD;w_ITALIC;w_NUMERAL;w_ONE]);
  (0x10321, [w_OLD;w_ITALIC;w_NUMERAL;w_FIVE]);
  (0x10322, [w_OLD;w_ITALIC;w_NUMERAL;w_TEN]);
  (0x10323, [w_OLD;w_ITALIC;w_NUMERAL;w_FIFTY]);
  (0x1032d, [w_OLD;w_ITALIC;w_LETTER;w_YE]);
  (0x1032e, [w_OLD;w_ITALIC;w_LETTER;w_NORTHERN;w_TSE]);
  (0x1032f, [w_OLD;w_ITALIC;w_LETTER;w_SOUTHERN;w_TSE]);
  (0x10330, [w_GOTHIC;w_LETTER;w_AHSA]);
  (0x10331, [w_GOTHIC;w_LETTER;w_BAIRKAN]);
  (0x10332, [w_GOTHIC;w_LETTER;w_GIBA]);
  (0x10333, [w_GOTHIC;w_LETTER;w_DAGS]);
  (0x10334, [w_GOTHIC;w_LETTER;w_AIHVUS]);
  (0x10335, [w_GOTHIC;w_LETTER;w_QAIRTHRA]);
  (0x10336, [w_GOTHIC;w_LETTER;w_IUJA]);
  (0x10337, [w_GOTHIC;w_LETTER;w_HAGL]);
  (0x10338, [w_GOTHIC;w_LETTER;w_THIUTH]);
  (0x10339, [w_GOTHIC;w_LETTER;w_EIS]);
  (0x1033a, [w_GOTHIC;w_LETTER;w_KUSMA]);
  (0x1033b, [w_GOTHIC;w_LETTER;w_LAGUS]);
  (0x1033c, [w_GOTHIC;w_LETTER;w_MANNA]);
  (0x1033d, [w_GOTHIC;w_LETTER;w_NAUTHS]);
  (0x1033e, [w_GOTHIC;w_LETTER;w_JER]);
  (0x1033f, [w_GOTHIC;w_LETTER;w_URUS]);
  (0x10340, [w_GOTHIC;w_LETTER;w_PAIRTHRA]);
  (0x10341, [w_GOTHIC;w_LETTER;w_NINETY]);
  (0x10342, [w_GOTHIC;w_LETTER;w_RAIDA]);
  (0x10343, [w_GOTHIC;w_LETTER;w_SAUIL]);
  (0x10344, [w_GOTHIC;w_LETTER;w_TEIWS]);
  (0x10345, [w_GOTHIC;w_LETTER;w_WINJA]);
  (0x10346, [w_GOTHIC;w_LETTER;w_FAIHU]);
  (0x10347, [w_GOTHIC;w_LETTER;w_IGGWS]);
  (0x10348, [w_GOTHIC;w_LETTER;w_HWAIR]);
  (0x10349, [w_GOTHIC;w_LETTER;w_OTHAL]);
  (0x1034a, [w_GOTHIC;w_LETTER;w_NINE;w_HUNDRED]);
  (0x10350, [w_OLD;w_PERMIC;w_LETTER;w_AN]);
  (0x10351, [w_OLD;w_PERMIC;w_LETTER;w_BUR]);
  (0x10352, [w_OLD;w_PERMIC;w_LETTER;w_GAI]);
  (0x10353, [w_OLD;w_PERMIC;w_LETTER;w_DOI]);
  (0x10354, [w_OLD;w_PERMIC;w_LETTER;w_E]);
  (0x10355, [w_OLD;w_PERMIC;w_LETTER;w_ZHOI]);
  (0x10356, [w_OLD;w_PERMIC;w_LETTER;w_DZHOI]);
  (0x10357, [w_OLD;w_PERMIC;w_LETTER;w_ZATA]);
  (0x10358, [w_OLD;w_PERMIC;w_LETTER;w_DZITA]);
  (0x10359, [w_OLD;w_PERMIC;w_LETTER;w_I]);
  (0x1035a, [w_OLD;w_PERMIC;w_LETTER;w_KOKE]);
  (0x1035b, [w_OLD;w_PERMIC;w_LETTER;w_LEI]);
  (0x1035c, [w_OLD;w_PERMIC;w_LETTER;w_MENOE]);
  (0x1035d, [w_OLD;w_PERMIC;w_LETTER;w_NENOE]);
  (0x1035e, [w_OLD;w_PERMIC;w_LETTER;w_VOOI]);
  (0x1035f, [w_OLD;w_PERMIC;w_LETTER;w_PEEI]);
  (0x10360, [w_OLD;w_PERMIC;w_LETTER;w_REI]);
  (0x10361, [w_OLD;w_PERMIC;w_LETTER;w_SII]);
  (0x10362, [w_OLD;w_PERMIC;w_LETTER;w_TAI]);
  (0x10363, [w_OLD;w_PERMIC;w_LETTER;w_U]);
  (0x10364, [w_OLD;w_PERMIC;w_LETTER;w_CHERY]);
  (0x10365, [w_OLD;w_PERMIC;w_LETTER;w_SHOOI]);
  (0x10366, [w_OLD;w_PERMIC;w_LETTER;w_SHCHOOI]);
  (0x10367, [w_OLD;w_PERMIC;w_LETTER;w_YRY]);
  (0x10368, [w_OLD;w_PERMIC;w_LETTER;w_YERU]);
  (0x10369, [w_OLD;w_PERMIC;w_LETTER;w_O]);
  (0x1036a, [w_OLD;w_PERMIC;w_LETTER;w_OO]);
  (0x1036b, [w_OLD;w_PERMIC;w_LETTER;w_EF]);
  (0x1036c, [w_OLD;w_PERMIC;w_LETTER;w_HA]);
  (0x1036d, [w_OLD;w_PERMIC;w_LETTER;w_TSIU]);
  (0x1036e, [w_OLD;w_PERMIC;w_LETTER;w_VER]);
  (0x1036f, [w_OLD;w_PERMIC;w_LETTER;w_YER]);
  (0x10370, [w_OLD;w_PERMIC;w_LETTER;w_YERI]);
  (0x10371, [w_OLD;w_PERMIC;w_LETTER;w_YAT]);
  (0x10372, [w_OLD;w_PERMIC;w_LETTER;w_IE]);
  (0x10373, [w_OLD;w_PERMIC;w_LETTER;w_YU]);
  (0x10374, [w_OLD;w_PERMIC;w_LETTER;w_YA]);
  (0x10375, [w_OLD;w_PERMIC;w_LETTER;w_IA]);
  (0x10376, [w_COMBINING;w_OLD;w_PERMIC;w_LETTER;w_AN]);
  (0x10377, [w_COMBINING;w_OLD;w_PERMIC;w_LETTER;w_DOI]);
  (0x10378, [w_COMBINING;w_OLD;w_PERMIC;w_LETTER;w_ZATA]);
  (0x10379, [w_COMBINING;w_OLD;w_PERMIC;w_LETTER;w_NENOE]);
  (0x1037a, [w_COMBINING;w_OLD;w_PERMIC;w_LETTER;w_SII]);
  (0x10380, [w_UGARITIC;w_LETTER;w_ALPA]);
  (0x10381, [w_UGARITIC;w_LETTER;w_BETA]);
  (0x10382, [w_UGARITIC;w_LETTER;w_GAMLA]);
  (0x10383, [w_UGARITIC;w_LETTER;w_KHA]);
  (0x10384, [w_UGARITIC;w_LETTER;w_DELTA]);
  (0x10385, [w_UGARITIC;w_LETTER;w_HO]);
  (0x10386, [w_UGARITIC;w_LETTER;w_WO]);
  (0x10387, [w_UGARITIC;w_LETTER;w_ZETA]);
  (0x10388, [w_UGARITIC;w_LETTER;w_HOTA]);
  (0x10389, [w_UGARITIC;w_LETTER;w_TET]);
  (0x1038a, [w_UGARITIC;w_LETTER;w_YOD]);
  (0x1038b, [w_UGARITIC;w_LETTER;w_KAF]);
  (0x1038c, [w_UGARITIC;w_LETTER;w_SHIN]);
  (0x1038d, [w_UGARITIC;w_LETTER;w_LAMDA]);
  (0x1038e, [w_UGARITIC;w_LETTER;w_MEM]);
  (0x1038f, [w_UGARITIC;w_LETTER;w_DHAL]);
  (0x10390, [w_UGARITIC;w_LETTER;w_NUN]);
  (0x10391, [w_UGARITIC;w_LETTER;w_ZU]);
  (0x10392, [w_UGARITIC;w_LETTER;w_SAMKA]);
  (0x10393, [w_UGARITIC;w_LETTER;w_AIN]);
  (0x10394, [w_UGARITIC;w_LETTER;w_PU]);
  (0x10395, [w_UGARITIC;w_LETTER;w_SADE]);
  (0x10396, [w_UGARITIC;w_LETTER;w_QOPA]);
  (0x10397, [w_UGARITIC;w_LETTER;w_RASHA]);
  (0x10398, [w_UGARITIC;w_LETTER;w_THANNA]);
  (0x10399, [w_UGARITIC;w_LETTER;w_GHAIN]);
  (0x1039a, [w_UGARITIC;w_LETTER;w_TO]);
  (0x1039b, [w_UGARITIC;w_LETTER;w_I]);
  (0x1039c, [w_UGARITIC;w_LETTER;w_U]);
  (0x1039d, [w_UGARITIC;w_LETTER;w_SSU]);
  (0x1039f, [w_UGARITIC;w_WORD;w_DIVIDER]);
  (0x103a0, [w_OLD;w_PERSIAN;w_SIGN;w_A]);
  (0x103a1, [w_OLD;w_PERSIAN;w_SIGN;w_I]);
  (0x103a2, [w_OLD;w_PERSIAN;w_SIGN;w_U]);
  (0x103a3, [w_OLD;w_PERSIAN;w_SIGN;w_KA]);
  (0x103a4, [w_OLD;w_PERSIAN;w_SIGN;w_KU]);
  (0x103a5, [w_OLD;w_PERSIAN;w_SIGN;w_GA]);
  (0x103a6, [w_OLD;w_PERSIAN;w_SIGN;w_GU]);
  (0x103a7, [w_OLD;w_PERSIAN;w_SIGN;w_XA]);
  (0x103a8, [w_OLD;w_PERSIAN;w_SIGN;w_CA]);
  (0x103a9, [w_OLD;w_PERSIAN;w_SIGN;w_JA]);
  (0x103aa, [w_OLD;w_PERSIAN;w_SIGN;w_JI]);
  (0x103ab, [w_OLD;w_PERSIAN;w_SIGN;w_TA]);
  (0x103ac, [w_OLD;w_PERSIAN;w_SIGN;w_TU]);
  (0x103ad, [w_OLD;w_PERSIAN;w_SIGN;w_DA]);
  (0x103ae, [w_OLD;w_PERSIAN;w_SIGN;w_DI]);
  (0x103af, [w_OLD;w_PERSIAN;w_SIGN;w_DU]);
  (0x103b0, [w_OLD;w_PERSIAN;w_SIGN;w_THA]);
  (0x103b1, [w_OLD;w_PERSIAN;w_SIGN;w_PA]);
  (0x103b2, [w_OLD;w_PERSIAN;w_SIGN;w_BA]);
  (0x103b3, [w_OLD;w_PERSIAN;w_SIGN;w_FA]);
  (0x103b4, [w_OLD;w_PERSIAN;w_SIGN;w_NA]);
  (0x103b5, [w_OLD;w_PERSIAN;w_SIGN;w_NU]);
  (0x103b6, [w_OLD;w_PERSIAN;w_SIGN;w_MA]);
  (0x103b7, [w_OLD;w_PERSIAN;w_SIGN;w_MI]);
  (0x103b8, [w_OLD;w_PERSIAN;w_SIGN;w_MU]);
  (0x103b9, [w_OLD;w_PERSIAN;w_SIGN;w_YA]);
  (0x103ba, [w_OLD;w_PERSIAN;w_SIGN;w_VA]);
  (0x103bb, [w_OLD;w_PERSIAN;w_SIGN;w_VI]);
  (0x103bc, [w_OLD;w_PERSIAN;w_SIGN;w_RA]);
  (0x103bd, [w_OLD;w_PERSIAN;w_SIGN;w_RU]);
  (0x103be, [w_OLD;w_PERSIAN;w_SIGN;w_LA]);
  (0x103bf, [w_OLD;w_PERSIAN;w_SIGN;w_SA]);
  (0x103c0, [w_OLD;w_PERSIAN;w_SIGN;w_ZA]);
  (0x103c1, [w_OLD;w_PERSIAN;w_SIGN;w_SHA]);
  (0x103c2, [w_OLD;w_PERSIAN;w_SIGN;w_SSA]);
  (0x103c3, [w_OLD;w_PERSIAN;w_SIGN;w_HA]);
  (0x103c8, [w_OLD;w_PERSIAN;w_SIGN;w_AURAMAZDAA]);
  (0x103c9, [w_OLD;w_PERSIAN;w_SIGN;w_AURAMAZDAA_2]);
  (0x103ca, [w_OLD;w_PERSIAN;w_SIGN;w_AURAMAZDAAHA]);
  (0x103cb, [w_OLD;w_PERSIAN;w_SIGN;w_XSHAAYATHIYA]);
  (0x103cc, [w_OLD;w_PERSIAN;w_SIGN;w_DAHYAAUSH]);
  (0x103cd, [w_OLD;w_PERSIAN;w_SIGN;w_DAHYAAUSH_2]);
  (0x103ce, [w_OLD;w_PERSIAN;w_SIGN;w_BAGA]);
  (0x103cf, [w_OLD;w_PERSIAN;w_SIGN;w_BUUMISH])].

Definition NAMES_43 : list (N * (list str)) := [
  (0x103d0, [w_OLD;w_PERSIAN;w_WORD;w_DIVIDER]);
  (0x103d1, [w_OLD;w_PERSIAN;w_NUMBER;w_ONE]);
  (0x103d2, [w_OLD;w_PERSIAN;w_NUMBER;w_TWO]);
  (0x103d3, [w_OLD;w_PERSIAN;w_NUMBER;w_TEN]);
  (0x103d4, [w_OLD;w_PERSIAN;w_NUMBER;w_TWENTY]);
  (0x103d5, [w_OLD;w_PERSIAN;w_NUMBER;w_HUNDRED]);
  (0x10400, [w_DESERET;w_CAPITAL;w_LETTER;w_LONG;w_I]);
  (0x10401, [w_DESERET;w_CAPITAL;w_LETTER;w_LONG;w_E]);
  (0x10402, [w_DESERET;w_CAPITAL;w_LETTER;w_LONG;w_A]);
  (0x10403, [w_DESERET;w_CAPITAL;w_LETTER;w_LONG;w_AH]);
  (0x10404, [w_DESERET;w_CAPITAL;w_LETTER;w_LONG;w_O]);
  (0x10405, [w_DESERET;w_CAPITAL;w_LETTER;w_LONG;w_OO]);
  (0x10406, [w_DESERET;w_CAPITAL;w_LETTER;w_SHORT;w_I]);
  (0x10407, [w_DESERET;w_CAPITAL;w_LETTER;w_SHORT;w_E]);
  (0x10408, [w_DESERET;w_CAPITAL;w_LETTER;w_SHORT;w_A]);
  (0x10409, [w_DESERET;w_CAPITAL;w_LETTER;w_SHORT;w_AH]);
  (0x1040a, [w_DESERET;w_CAPITAL;w_LETTER;w_SHORT;w_O]);
  (0x1040b, [w_DESERET;w_CAPITAL;w_LETTER;w_SHORT;w_OO]);
  (0x1040c, [w_DESERET;w_CAPITAL;w_LETTER;w_AY]);
  (0x1040d, [w_DESERET;w_CAPITAL;w_LETTER;w_OW]);
  (0x1040e, [w_DESERET;w_CAPITAL;w_LETTER;w_WU]);
  (0x1040f, [w_DESERET;w_CAPITAL;w_LETTER;w_YEE]);
  (0x10410, [w_DESERET;w_CAPITAL;w_LETTER;w_H]);
  (0x10411, [w_DESERET;w_CAPITAL;w_LETTER;w_PEE]);
  (0x10412, [w_DESERET;w_CAPITAL;w_LETTER;w_BEE]);
  (0x10413, [w_DESERET;w_CAPITAL;w_LETTER;w_TEE]);
  (0x10414, [w_DESERET;w_CAPITAL;w_LETTER;w_DEE]);
  (0x10415, [w_DESERET;w_CAPITAL;w_LETTER;w_CHEE]);
  (0x10416, [w_DESERET;w_CAPITAL;w_LETTER;w_JEE]);
  (0x10417, [w_DESERET;w_CAPITAL;w_LETTER;w_KAY]);
  (0x10418, [w_DESERET;w_CAPITAL;w_LETTER;w_GAY]);
  (0x10419, [w_DESERET;w_CAPITAL;w_LETTER;w_EF]);
  (0x1041a, [w_DESERET;w_CAPITAL;w_LETTER;w_VEE]);
  (0x1041b, [w_DESERET;w_CAPITAL;w_LETTER;w_ETH]);
  (0x1041c, [w_DESERET;w_CAPITAL;w_LETTER;w_THEE]);
  (0x1041d, [w_DESERET;w_CAPITAL;w_LETTER;w_ES]);
  (0x1041e, [w_DESERET;w_CAPITAL;w_LETTER;w_ZEE]);
  (0x1041f, [w_DESERET;w_CAPITAL;w_LETTER;w_ESH]);
  (0x10420, [w_DESERET;w_CAPITAL;w_LETTER;w_ZHEE]);
  (0x10421, [w_DESERET;w_CAPITAL;w_LETTER;w_ER]);
  (0x10422, [w_DESERET;w_CAPITAL;w_LETTER;w_EL]);
  (0x10423, [w_DESERET;w_CAPITAL;w_LETTER;w_EM]);
  (0x10424, [w_DESERET;w_CAPITAL;w_LETTER;w_EN]);
  (0x10425, [w_DESERET;w_CAPITAL;w_LETTER;w_ENG]);
  (0x10426, [w_DESERET;w_CAPITAL;w_LETTER;w_OI]);
  (0x10427, [w_DESERET;w_CAPITAL;w_LETTER;w_EW]);
  (0x10428, [w_DESERET;w_SMALL;w_LETTER;w_LONG;w_I]);
  (0x10429, [w_DESERET;w_SMALL;w_LETTER;w_LONG;w_E]);
  (0x1042a, [w_DESERET;w_SMALL;w_LETTER;w_LONG;w_A]);
  (0x1042b, [w_DESERET;w_SMALL;w_LETTER;w_LONG;w_AH]);
  (0x1042c, [w_DESERET;w_SMALL;w_LETTER;w_LONG;w_O]);
  (0x1042d, [w_DESERET;w_SMALL;w_LETTER;w_LONG;w_OO]);
  (0x1042e, [w_DESERET;w_SMALL;w_LETTER;w_SHORT;w_I]);
  (0x1042f, [w_DESERET;w_SMALL;w_LETTER;w_SHORT;w_E]);
  (0x10430, [w_DESERET;w_SMALL;w_LETTER;w_SHORT;w_A]);
  (0x10431, [w_DESERET;w_SMALL;w_LETTER;w_SHORT;w_AH]);
  (0x10432, [w_DESERET;w_SMALL;w_LETTER;w_SHORT;w_O]);
  (0x10433, [w_DESERET;w_SMALL;w_LETTER;w_SHORT;w_OO]);
  (0x10434, [w_DESERET;w_SMALL;w_LETTER;w_AY]);
  (0x10435, [w_DESERET;w_SMALL;w_LETTER;w_OW]);
  (0x10436, [w_DESERET;w_SMALL;w_LETTER;w_WU]);
  (0x10437, [w_DESERET;w_SMALL;w_LETTER;w_YEE]);
  (0x10438, [w_DESERET;w_SMALL;w_LETTER;w_H]);
  (0x10439, [w_DESERET;w_SMALL;w_LETTER;w_PEE]);
  (0x1043a, [w_DESERET;w_SMALL;w_LETTER;w_BEE]);
  (0x1043b, [w_DESERET;w_SMALL;w_LETTER;w_TEE]);
  (0x1043c, [w_DESERET;w_SMALL;w_LETTER;w_DEE]);
  (0x1043d, [w_DESERET;w_SMALL;w_LETTER;w_CHEE]);
  (0x1043e, [w_DESERET;w_SMALL;w_LETTER;w_JEE]);
  (0x1043f, [w_DESERET;w_SMALL;w_LETTER;w_KAY]);
  (0x10440, [w_DESERET;w_SMALL;w_LETTER;w_GAY]);
  (0x10441, [w_DESERET;w_SMALL;w_LETTER;w_EF]);
  (0x10442, [w_DESERET;w_SMALL;w_LETTER;w_VEE]);
  (0x10443, [w_DESERET;w_SMALL;w_LETTER;w_ETH]);
  (0x10444, [w_DESERET;w_SMALL;w_LETTER;w_THEE]);
  (0x10445, [w_DESERET;w_SMALL;w_LETTER;w_ES]);
  (0x10446, [w_DESERET;w_SMALL;w_LETTER;w_ZEE]);
  (0x10447, [w_DESERET;w_SMALL;w_LETTER;w_ESH]);
  (0x10448, [w_DESERET;w_SMALL;w_LETTER;w_ZHEE]);
  (0x10449, [w_DESERET;w_SMALL;w_LETTER;w_ER]);
  (0x1044a, [w_DESERET;w_SMALL;w_LETTER;w_EL]);
  (0x1044b, [w_DESERET;w_SMALL;w_LETTER;w_EM]);
  (0x1044c, [w_DESERET;w_SMALL;w_LETTER;w_EN]);
  (0x1044d, [w_DESERET;w_SMALL;w_LETTER;w_ENG]);
  (0x1044e, [w_DESERET;w_SMALL;w_LETTER;w_OI]);
  (0x1044f, [w_DESERET;w_SMALL;w_LETTER;w_EW]);
  (0x10450, [w_SHAVIAN;w_LETTER;w_PEEP]);
  (0x10451, [w_SHAVIAN;w_LETTER;w_TOT]);
  (0x10452, [w_SHAVIAN;w_LETTER;w_KICK]);
  (0x10453, [w_SHAVIAN;w_LETTER;w_FEE]);
  (0x10454, [w_SHAVIAN;w_LETTER;w_THIGH]);
  (0x10455, [w_SHAVIAN;w_LETTER;w_SO]);
  (0x10456, [w_SHAVIAN;w_LETTER;w_SURE]);
  (0x10457, [w_SHAVIAN;w_LETTER;w_CHURCH]);
  (0x10458, [w_SHAVIAN;w_LETTER;w_YEA]);
  (0x10459, [w_SHAVIAN;w_LETTER;w_HUNG]);
  (0x1045a, [w_SHAVIAN;w_LETTER;w_BIB]);
  (0x1045b, [w_SHAVIAN;w_LETTER;w_DEAD]);
  (0x1045c, [w_SHAVIAN;w_LETTER;w_GAG]);
  (0x1045d, [w_SHAVIAN;w_LETTER;w_VOW]);
  (0x1045e, [w_SHAVIAN;w_LETTER;w_THEY]);
  (0x1045f, [w_SHAVIAN;w_LETTER;w_ZOO]);
  (0x10460, [w_SHAVIAN;w_LETTER;w_MEASURE]);
  (0x10461, [w_SHAVIAN;w_LETTER;w_JUDGE]);
  (0x10462, [w_SHAVIAN;w_LETTER;w_WOE]);
  (0x10463, [w_SHAVIAN;w_LETTER;w_HA_HA]);
  (0x10464, [w_SHAVIAN;w_LETTER;w_LOLL]);
  (0x10465, [w_SHAVIAN;w_LETTER;w_MIME]);
  (0x10466, [w_SHAVIAN;w_LETTER;w_IF]);
  (0x10467, [w_SHAVIAN;w_LETTER;w_EGG]);
  (0x10468, [w_SHAVIAN;w_LETTER;w_ASH]);
  (0x10469, [w_SHAVIAN;w_LETTER;w_ADO]);
  (0x1046a, [w_SHAVIAN;w_LETTER;w_ON]);
  (0x1046b, [w_SHAVIAN;w_LETTER;w_WOOL]);
  (0x1046c, [w_SHAVIAN;w_LETTER;w_OUT]);
  (0x1046d, [w_SHAVIAN;w_LETTER;w_AH]);
  (0x1046e, [w_SHAVIAN;w_LETTER;w_ROAR]);
  (0x1046f, [w_SHAVIAN;w_LETTER;w_NUN]);
  (0x10470, [w_SHAVIAN;w_LETTER;w_EAT]);
  (0x10471, [w_SHAVIAN;w_LETTER;w_AGE]);
  (0x10472, [w_SHAVIAN;w_LETTER;w_ICE]);
  (0x10473, [w_SHAVIAN;w_LETTER;w_UP]);
  (0x10474, [w_SHAVIAN;w_LETTER;w_OAK]);
  (0x10475, [w_SHAVIAN;w_LETTER;w_OOZE]);
  (0x10476, [w_SHAVIAN;w_LETTER;w_OIL]);
  (0x10477, [w_SHAVIAN;w_LETTER;w_AWE]);
  (0x10478, [w_SHAVIAN;w_LETTER;w_ARE]);
  (0x10479, [w_SHAVIAN;w_LETTER;w_OR]);
  (0x1047a, [w_SHAVIAN;w_LETTER;w_AIR]);
  (0x1047b, [w_SHAVIAN;w_LETTER;w_ERR]);
  (0x1047c, [w_SHAVIAN;w_LETTER;w_ARRAY]);
  (0x1047d, [w_SHAVIAN;w_LETTER;w_EAR]);
  (0x1047e, [w_SHAVIAN;w_LETTER;w_IAN]);
  (0x1047f, [w_SHAVIAN;w_LETTER;w_YEW]);
  (0x10480, [w_OSMANYA;w_LETTER;w_ALEF]);
  (0x10481, [w_OSMANYA;w_LETTER;w_BA]);
  (0x10482, [w_OSMANYA;w_LETTER;w_TA]);
  (0x10483, [w_OSMANYA;w_LETTER;w_JA]);
  (0x10484, [w_OSMANYA;w_LETTER;w_XA]);
  (0x10485, [w_OSMANYA;w_LETTER;w_KHA]);
  (0x10486, [w_OSMANYA;w_LETTER;w_DEEL]);
  (0x10487, [w_OSMANYA;w_LETTER;w_RA]);
  (0x10488, [w_OSMANYA;w_LETTER;w_SA]);
  (0x10489, [w_OSMANYA;w_LETTER;w_SHIIN]);
  (0x1048a, [w_OSMANYA;w_LETTER;w_DHA]);
  (0x1048b, [w_OSMANYA;w_LETTER;w_CAYN]);
  (0x1048c, [w_OSMANYA;w_LETTER;w_GA]);
  (0x1048d, [w_OSMANYA;w_LETTER;w_FA]);
  (0x1048e, [w_OSMANYA;w_LETTER;w_QAAF]);
  (0x1048f, [w_OSMANYA;w_LETTER;w_KAAF]);
  (0x10490, [w_OSMANYA;w_LETTER;w_LAAN]);
  (0x10491, [w_OSMANYA;w_LETTER;w_MIIN]);
  (0x10492, [w_OSMANYA;w_LETTER;w_NUUN]);
  (0x10493, [w_OSMANYA;w_LETTER;w_WAW]);
  (0x10494, [w_OSMANYA;w_LETTER;w_HA]);
  (0x10495, [w_OSMANYA;w_LETTER;w_YA]);
  (0x10496, [w_OSMANYA;w_LETTER;w_A]);
  (0x10497, [w_OSMANYA;w_LETTER;w_E]);
  (0x10498, [w_OSMANYA;w_LETTER;w_I]);
  (0x10499, [w_OSMANYA;w_LETTER;w_O]);
  (0x1049a, [w_OSMANYA;w_LETTER;w_U]);
  (0x1049b, [w_OSMANYA;w_LETTER;w_AA]);
  (0x1049c, [w_OSMANYA;w_LETTER;w_EE]);
  (0x1049d, [w_OSMANYA;w_LETTER;w_OO]);
  (0x104a0, [w_OSMANYA;w_DIGIT;w_ZERO]);
  (0x104a1, [w_OSMANYA;w_DIGIT;w_ONE]);
  (0x104a2, [w_OSMANYA;w_DIGIT;w_TWO]);
  (0x104a3, [w_OSMANYA;w_DIGIT;w_THREE]);
  (0x104a4, [w_OSMANYA;w_DIGIT;w_FOUR]);
  (0x104a5, [w_OSMANYA;w_DIGIT;w_FIVE]);
  (0x104a6, [w_OSMANYA;w_DIGIT;w_SIX]);
  (0x104a7, [w_OSMANYA;w_DIGIT;w_SEVEN]);
  (0x104a8, [w_OSMANYA;w_DIGIT;w_EIGHT]);
  (0x104a9, [w_OSMANYA;w_DIGIT;w_NINE]);
  (0x104b0, [w_OSAGE;w_CAPITAL;w_LETTER;w_A]);
  (0x104b1, [w_OSAGE;w_CAPITAL;w_LETTER;w_AI]);
  (0x104b2, [w_OSAGE;w_CAPITAL;w_LETTER;w_AIN]);
  (0x104b3, [w_OSAGE;w_CAPITAL;w_LETTER;w_AH]);
  (0x104b4, [w_OSAGE;w_CAPITAL;w_LETTER;w_BRA]);
  (0x104b5, [w_OSAGE;w_CAPITAL;w_LETTER;w_CHA]);
  (0x104b6, [w_OSAGE;w_CAPITAL;w_LETTER;w_EHCHA]);
  (0x104b7, [w_OSAGE;w_CAPITAL;w_LETTER;w_E]);
  (0x104b8, [w_OSAGE;w_CAPITAL;w_LETTER;w_EIN]);
  (0x104b9, [w_OSAGE;w_CAPITAL;w_LETTER;w_HA]);
  (0x104ba, [w_OSAGE;w_CAPITAL;w_LETTER;w_HYA]);
  (0x104bb, [w_OSAGE;w_CAPITAL;w_LETTER;w_I]);
  (0x104bc, [w_OSAGE;w_CAPITAL;w_LETTER;w_KA]);
  (0x104bd, [w_OSAGE;w_CAPITAL;w_LETTER;w_EHKA]);
  (0x104be, [w_OSAGE;w_CAPITAL;w_LETTER;w_KYA]);
  (0x104bf, [w_OSAGE;w_CAPITAL;w_LETTER;w_LA]);
  (0x104c0, [w_OSAGE;w_CAPITAL;w_LETTER;w_MA]);
  (0x104c1, [w_OSAGE;w_CAPITAL;w_LETTER;w_NA]);
  (0x104c2, [w_OSAGE;w_CAPITAL;w_LETTER;w_O]);
  (0x104c3, [w_OSAGE;w_CAPITAL;w_LETTER;w_OIN]);
  (0x104c4, [w_OSAGE;w_CAPITAL;w_LETTER;w_PA]);
  (0x104c5, [w_OSAGE;w_CAPITAL;w_LETTER;w_EHPA]);
  (0x104c6, [w_OSAGE;w_CAPITAL;w_LETTER;w_SA]);
  (0x104c7, [w_OSAGE;w_CAPITAL;w_LETTER;w_SHA]);
  (0x104c8, [w_OSAGE;w_CAPITAL;w_LETTER;w_TA]);
  (0x104c9, [w_OSAGE;w_CAPITAL;w_LETTER;w_EHTA]);
  (0x104ca, [w_OSAGE;w_CAPITAL;w_LETTER;w_TSA]);
  (0x104cb, [w_OSAGE;w_CAPITAL;w_LETTER;w_EHTSA]);
  (0x104cc, [w_OSAGE;w_CAPITAL;w_LETTER;w_TSHA]);
  (0x104cd, [w_OSAGE;w_CAPITAL;w_LETTER;w_DHA]);
  (0x104ce, [w_OSAGE;w_CAPITAL;w_LETTER;w_U]);
  (0x104cf, [w_OSAGE;w_CAPITAL;w_LETTER;w_WA]);
  (0x104d0, [w_OSAGE;w_CAPITAL;w_LETTER;w_KHA]);
  (0x104d1, [w_OSAGE;w_CAPITAL;w_LETTER;w_GHA]);
  (0x104d2, [w_OSAGE;w_CAPITAL;w_LETTER;w_ZA]);
  (0x104d3, [w_OSAGE;w_CAPITAL;w_LETTER;w_ZHA]);
  (0x104d8, [w_OSAGE;w_SMALL;w_LETTER;w_A]);
  (0x104d9, [w_OSAGE;w_SMALL;w_LETTER;w_AI]);
  (0x104da, [w_OSAGE;w_SMALL;w_LETTER;w_AIN]);
  (0x104db, [w_OSAGE;w_SMALL;w_LETTER;w_AH]);
  (0x104dc, [w_OSAGE;w_SMALL;w_LETTER;w_BRA]);
  (0x104dd, [w_OSAGE;w_SMALL;w_LETTER;w_CHA]);
  (0x104de, [w_OSAGE;w_SMALL;w_LETTER;w_EHCHA]);
  (0x104df, [w_OSAGE;w_SMALL;w_LETTER;w_E]);
  (0x104e0, [w_OSAGE;w_SMALL;w_LETTER;w_EIN]);
  (0x104e1, [w_OSAGE;w_SMALL;w_LETTER;w_HA]);
  (0x104e2, [w_OSAGE;w_SMALL;w_LETTER;w_HYA]);
  (0x104e3, [w_OSAGE;w_SMALL;w_LETTER;w_I]);
  (0x104e4, [w_OSAGE;w_SMALL;w_LETTER;w_KA]);
  (0x104e5, [w_OSAGE;w_SMALL;w_LETTER;w_EHKA]);
  (0x104e6, [w_OSAGE;w_SMALL;w_LETTER;w_KYA]);
  (0x104e7, [w_OSAGE;w_SMALL;w_LETTER;w_LA]);
  (0x104e8, [w_OSAGE;w_SMALL;w_LETTER;w_MA]);
  (0x104e9, [w_OSAGE;w_SMALL;w_LETTER;w_NA]);
  (0x104ea, [w_OSAGE;w_SMALL;w_LETTER;w_O]);
  (0x104eb, [w_OSAGE;w_SMALL;w_LETTER;w_OIN]);
  (0x104ec, [w_OSAGE;w_SMALL;w_LETTER;w_PA]);
  (0x104ed, [w_OSAGE;w_SMALL;w_LETTER;w_EHPA]);
  (0x104ee, [w_OSAGE;w_SMALL;w_LETTER;w_SA]);
  (0x104ef, [w_OSAGE;w_SMALL;w_LETTER;w_SHA]);
  (0x104f0, [w_OSAGE;w_SMALL;w_LETTER;w_TA]);
  (0x104f1, [w_OSAGE;w_SMALL;w_LETTER;w_EHTA]);
  (0x104f2, [w_OSAGE;w_SMALL;w_LETTER;w_TSA]);
  (0x104f3, [w_OSAGE;w_SMALL;w_LETTER;w_EHTSA]);
  (0x104f4, [w_OSAGE;w_SMALL;w_LETTER;w_TSHA]);
  (0x104f5, [w_OSAGE;w_SMALL;w_LETTER;w_DHA]);
  (0x104f6, [w_OSAGE;w_SMALL;w_LETTER;w_U]);
  (0x104f7, [w_OSAGE;w_SMALL;w_LETTER;w_WA]);
  (0x104f8, [w_OSAGE;w_SMALL;w_LETTER;w_KHA]);
  (0x104f9, [w_OSAGE;w_SMALL;w_LETTER;w_GHA]);
  (0x104fa, [w_OSAGE;w_SMALL;w_LETTER;w_ZA]);
  (0x104fb, [w_OSAGE;w_SMALL;w_LETTER;w_ZHA]);
  (0x10500, [w_ELBASAN;w_LETTER;w_A]);
  (0x10501, [w_ELBASAN;w_LETTER;w_BE]);
  (0x10502, [w_ELBASAN;w_LETTER;w_CE]);
  (0x10503, [w_ELBASAN;w_LETTER;w_CHE]);
  (0x10504, [w_ELBASAN;w_LETTER;w_DE]);
  (0x10505, [w_ELBASAN;w_LETTER;w_NDE]);
  (0x10506, [w_ELBASAN;w_LETTER;w_DHE]);
  (0x10507, [w_ELBASAN;w_LETTER;w_EI]);
  (0x10508, [w_ELBASAN;w_LETTER;w_E]);
  (0x10509, [w_ELBASAN;w_LETTER;w_FE]);
  (0x1050a, [w_ELBASAN;w_LETTER;w_GE]);
  (0x1050b, [w_ELBASAN;w_LETTER;w_GJE]);
  (0x1050c, [w_ELBASAN;w_LETTER;w_HE]);
  (0x1050d, [w_ELBASAN;w_LETTER;w_I]);
  (0x1050e, [w_ELBASAN;w_LETTER;w_JE]);
  (0x1050f, [w_ELBASAN;w_LETTER;w_KE]);
  (0x10510, [w_ELBASAN;w_LETTER;w_LE]);
  (0x10511, [w_ELBASAN;w_LETTER;w_LLE]);
  (0x10512, [w_ELBASAN;w_LETTER;w_ME]);
  (0x10513, [w_ELBASAN;w_LETTER;w_NE]);
  (0x10514, [w_ELBASAN;w_LETTER;w_NA]);
  (0x10515, [w_ELBASAN;w_LETTER;w_NJE]);
  (0x10516, [w_ELBASAN;w_LETTER;w_O]);
  (0x10517, [w_ELBASAN;w_LETTER;w_PE]);
  (0x10518, [w_ELBASAN;w_LETTER;w_QE]);
  (0x10519, [w_ELBASAN;w_LETTER;w_RE]);
  (0x1051a, [w_ELBASAN;w_LETTER;w_RRE]);
  (0x1051b, [w_ELBASAN;w_LETTER;w_SE]);
  (0x1051c, [w_ELBASAN;w_LETTER;w_SHE]);
  (0x1051d, [w_ELBASAN;w_LETTER;w_TE]);
  (0x1051e, [w_ELBASAN;w_LETTER;w_THE]);
  (0x1051f, [w_ELBASAN;w_LETTER;w_U]);
  (0x10520, [w_ELBASAN;w_LETTER;w_VE]);
  (0x10521, [w_ELBASAN;w_LETTER;w_XE]);
  (0x10522, [w_ELBASAN;w_LETTER;w_Y]);
  (0x10523, [w_ELBASAN;w_LETTER;w_ZE]);
  (0x10524, [w_ELBASAN;w_LETTER;w_ZHE]);
  (0x10525, [w_ELBASAN;w_LETTER;w_GHE]);
  (0x10526, [w_ELBASAN;w_LETTER;w_GHAMMA]);
  (0x10527, [w_ELBASAN;w_LETTER;w_KHE]);
  (0x10530, [w_CAUCASIAN;w_ALBANIAN;w_LETTER;w_ALT]);
  (0x10531, [w_CAUCASIAN;w_ALBANIAN;w_LETTER;w_BET]);
  (0x10532, [w_CAUCASIAN;w_ALBANIAN;w_LETTER;w_GIM]);
  (0x10533, [w_CAUCASIAN;w_ALBANIAN;w_LETTER;w_DAT]);
  (0x10534, [w_CAUCASIAN;w_ALBANIAN;w_LETTER;w_EB]);
  (0x10535, [w_CAUCASIAN;w_ALBANIAN;w_LETTER;w_ZARL]);
  (0x10536, [w_CAUCASIAN;w_ALBANIAN;w_LETTER;w_EYN]);
  (0x10537, [w_CAUCASIAN;w_ALBANIAN;w_LETTER;w_ZHIL]);
  (0x10538, [w_CAUCASIAN;w_ALBANIAN;w_LETTER;w_TAS]);
  (0x10539, [w_CAUCASIAN;w_ALBANIAN;w_LETTER;w_CHA]);
  (0x1053a, [w_CAUCASIAN;w_ALBANIAN;w_LETTER;w_YOWD]);
  (0x1053b, [w_CAUCASIAN;w_ALBANIAN;w_LETTER;w_ZHA]);
  (0x1053c, [w_CAUCASIAN;w_ALBANIAN;w_LETTER;w_IRB]);
  (0x1053d, [w_CAUCASIAN;w_ALBANIAN;w_LETTER;w_SHA]);
  (0x1053e, [w_CAUCASIAN;w_ALBANIAN;w_LETTER;w_LAN]);
  (0x1053f, [w_CAUCASIAN;w_ALBANIAN;w_LETTER;w_INYA]);
  (0x10540, [w_CAUCASIAN;w_ALBANIAN;w_LETTER;w_XEYN]);
  (0x10541, [w_CAUCASIAN;w_ALBANIAN;w_LETTER;w_DYAN]);
  (0x10542, [w_CAUCASIAN;w_ALBANIAN;w_LETTER;w_CAR]);
  (0x10543, [w_CAUCASIAN;w_ALBANIAN;w_LETTER;w_JHOX]);
  (0x10544, [w_CAUCASIAN;w_ALBANIAN;w_LETTER;w_KAR]);
  (0x10545, [w_CAUCASIAN;w_ALBANIAN;w_LETTER;w_LYIT]);
  (0x10546, [w_CAUCASIAN;w_ALBANIAN;w_LETTER;w_HEYT]);
  (0x10547, [w_CAUCASIAN;w_ALBANIAN;w_LETTER;w_QAY]);
  (0x10548, [w_CAUCASIAN;w_ALBANIAN;w_LETTER;w_AOR]);
  (0x10549, [w_CAUCASIAN;w_ALBANIAN;w_LETTER;w_CHOY]);
  (0x1054a, [w_CAUCASIAN;w_ALBANIAN;w_LETTER;w_CHI]);
  (0x1054b, [w_CAUCASIAN;w_ALBANIAN;w_LETTER;w_CYAY]);
  (0x1054c, [w_CAUCASIAN;w_ALBANIAN;w_LETTER;w_MAQ]);
  (0x1054d, [w_CAUCASIAN;w_ALBANIAN;w_LETTER;w_QAR]);
  (0x1054e, [w_CAUCASIAN;w_ALBANIAN;w_LETTER;w_NOWC]);
  (0x1054f, [w_CAUCASIAN;w_ALBANIAN;w_LETTER;w_DZYAY]);
  (0x10550, [w_CAUCASIAN;w_ALBANIAN;w_LETTER;w_SHAK]);
  (0x10551, [w_CAUCASIAN;w_ALBANIAN;w_LETTER;w_JAYN]);
  (0x10552, [w_CAUCASIAN;w_ALBANIAN;w_LETTER;w_ON]);
  (0x10553, [w_CAUCASIAN;w_ALBANIAN;w_LETTER;w_TYAY]);
  (0x10554, [w_CAUCASIAN;w_ALBANIAN;w_LETTER;w_FAM]);
  (0x10555, [w_CAUCASIAN;w_ALBANIAN;w_LETTER;w_DZAY]);
  (0x10556, [w_CAUCASIAN;w_ALBANIAN;w_LETTER;w_CHAT]);
  (0x10557, [w_CAUCASIAN;w_ALBANIAN;w_LETTER;w_PEN]);
  (0x10558, [w_CAUCASIAN;w_ALBANIAN;w_LETTER;w_GHEYS]);
  (0x10559, [w_CAUCASIAN;w_ALBANIAN;w_LETTER;w_RAT]);
  (0x1055a, [w_CAUCASIAN;w_ALBANIAN;w_LETTER;w_SEYK]);
  (0x1055b, [w_CAUCASIAN;w_ALBANIAN;w_LETTER;w_VEYZ]);
  (0x1055c, [w_CAUCASIAN;w_ALBANIAN;w_LETTER;w_TIWR]);
  (0x1055d, [w_CAUCASIAN;w_ALBANIAN;w_LETTER;w_SHOY]);
  (0x1055e, [w_CAUCASIAN;w_ALBANIAN;w_LETTER;w_IWN]);
  (0x1055f, [w_CAUCASIAN;w_ALBANIAN;w_LETTER;w_CYAW]);
  (0x10560, [w_CAUCASIAN;w_ALBANIAN;w_LETTER;w_CAYN]);
  (0x10561, [w_CAUCASIAN;w_ALBANIAN;w_LETTER;w_YAYD]);
  (0x10562, [w_CAUCASIAN;w_ALBANIAN;w_LETTER;w_PIWR]);
  (0x10563, [w_CAUCASIAN;w_ALBANIAN;w_LETTER;w_KIW]);
  (0x1056f, [w_CAUCASIAN;w_ALBANIAN;w_CITATION;w_MARK]);
  (0x10600, [w_LINEAR;w_A;w_SIGN;w_AB001]);
  (0x10601, [w_LINEAR;w_A;w_SIGN;w_AB002]);
  (0x10602, [w_LINEAR;w_A;w_SIGN;w_AB003]);
  (0x10603, [w_LINEAR;w_A;w_SIGN;w_AB004]);
  (0x10604, [w_LINEAR;w_A;w_SIGN;w_AB005]);
  (0x10605, [w_LINEAR;w_A;w_SIGN;w_AB006]);
  (0x10606, [w_LINEAR;w_A;w_SIGN;w_AB007]);
  (0x10607, [w_LINEAR;w_A;w_SIGN;w_AB008]);
  (0x10608, [w_LINEAR;w_A;w_SIGN;w_AB009]);
  (0x10609, [w_LINEAR;w_A;w_SIGN;w_AB010]);
  (0x1060a, [w_LINEAR;w_A;w_SIGN;w_AB011]);
  (0x1060b, [w_LINEAR;w_A;w_SIGN;w_AB013]);
  (0x1060c, [w_LINEAR;w_A;w_SIGN;w_AB016]);
  (0x1060d, [w_LINEAR;w_A;w_SIGN;w_AB017]);
  (0x1060e, [w_LINEAR;w_A;w_SIGN;w_AB020]);
  (0x1060f, [w_LINEAR;w_A;w_SIGN;w_AB021]);
  (0x10610, [w_LINEAR;w_A;w_SIGN;w_AB021F]);
  (0x10611, [w_LINEAR;w_A;w_SIGN;w_AB021M]);
  (0x10612, [w_LINEAR;w_A;w_SIGN;w_AB022]);
  (0x10613, [w_LINEAR;w_A;w_SIGN;w_AB022F]);
  (0x10614, [w_LINEAR;w_A;w_SIGN;w_AB022M]);
  (0x10615, [w_LINEAR;w_A;w_SIGN;w_AB023]);
  (0x10616, [w_LINEAR;w_A;w_SIGN;w_AB023M]);
  (0x10617, [w_LINEAR;w_A;w_SIGN;w_AB024]);
  (0x10618, [w_LINEAR;w_A;w_SIGN;w_AB026]);
  (0x10619, [w_LINEAR;w_A;w_SIGN;w_AB027]);
  (0x1061a, [w_LINEAR;w_A;w_SIGN;w_AB028]);
  (0x1061b, [w_LINEAR;w_A;w_SIGN;w_A028B]);
  (0x1061c, [w_LINEAR;w_A;w_SIGN;w_AB029]);
  (0x1061d, [w_LINEAR;w_A;w_SIGN;w_AB030]);
  (0x1061e, [w_LINEAR;w_A;w_SIGN;w_AB031]);
  (0x1061f, [w_LINEAR;w_A;w_SIGN;w_AB034]);
  (0x10620, [w_LINEAR;w_A;w_SIGN;w_AB037]);
  (0x10621, [w_LINEAR;w_A;w_SIGN;w_AB038]);
  (0x10622, [w_LINEAR;w_A;w_SIGN;w_AB039]);
  (0x10623, [w_LINEAR;w_A;w_SIGN;w_AB040]);
  (0x10624, [w_LINEAR;w_A;w_SIGN;w_AB041]);
  (0x10625, [w_LINEAR;w_A;w_SIGN;w_AB044]);
  (0x10626, [w_LINEAR;w_A;w_SIGN;w_AB045]);
  (0x10627, [w_LINEAR;w_A;w_SIGN;w_AB046]);
  (0x10628, [w_LINEAR;w_A;w_SIGN;w_AB047]);
  (0x10629, [w_LINEAR;w_A;w_SIGN;w_AB048]);
  (0x1062a, [w_LINEAR;w_A;w_SIGN;w_AB049]);
  (0x1062b, [w_LINEAR;w_A;w_SIGN;w_AB050]);
  (0x1062c, [w_LINEAR;w_A;w_SIGN;w_AB051]);
  (0x1062d, [w_LINEAR;w_A;w_SIGN;w_AB053]);
  (0x1062e, [w_LINEAR;w_A;w_SIGN;w_AB054]);
  (0x1062f, [w_LINEAR;w_A;w_SIGN;w_AB055]);
  (0x10630, [w_LINEAR;w_A;w_SIGN;w_AB056]);
  (0x10631, [w_LINEAR;w_A;w_SIGN;w_AB057]);
  (0x10632, [w_LINEAR;w_A;w_SIGN;w_AB058]);
  (0x10633, [w_LINEAR;w_A;w_SIGN;w_AB059]);
  (0x10634, [w_LINEAR;w_A;w_SIGN;w_AB060]);
  (0x10635, [w_LINEAR;w_A;w_SIGN;w_AB061]);
  (0x10636, [w_LINEAR;w_A;w_SIGN;w_AB065]);
  (0x10637, [w_LINEAR;w_A;w_SIGN;w_AB066]);
  (0x10638, [w_LINEAR;w_A;w_SIGN;w_AB067]);
  (0x10639, [w_LINEAR;w_A;w_SIGN;w_AB069]);
  (0x1063a, [w_LINEAR;w_A;w_SIGN;w_AB070]);
  (0x1063b, [w_LINEAR;w_A;w_SIGN;w_AB073]);
  (0x1063c, [w_LINEAR;w_A;w_SIGN;w_AB074])].

Definition NAMES_44 : list (N * (list str)) := [
  (0x1063d, [w_LINEAR;w_A;w_SIGN;w_AB076]);
  (0x1063e, [w_LINEAR;w_A;w_SIGN;w_AB077]);
  (0x1063f, [w_LINEAR;w_A;w_SIGN;w_AB078]);
  (0x10640, [w_LINEAR;w_A;w_SIGN;w_AB079]);
  (0x10641, [w_LINEAR;w_A;w_SIGN;w_AB080]);
  (0x10642, [w_LINEAR;w_A;w_SIGN;w_AB081]);
  (0x10643, [w_LINEAR;w_A;w_SIGN;w_AB082]);
  (0x10644, [w_LINEAR;w_A;w_SIGN;w_AB085]);
  (0x10645, [w_LINEAR;w_A;w_SIGN;w_AB086]);
  (0x10646, [w_LINEAR;w_A;w_SIGN;w_AB087]);
  (0x10647, [w_LINEAR;w_A;w_SIGN;w_A100_102]);
  (0x10648, [w_LINEAR;w_A;w_SIGN;w_AB118]);
  (0x10649, [w_LINEAR;w_A;w_SIGN;w_AB120]);
  (0x1064a, [w_LINEAR;w_A;w_SIGN;w_A120B]);
  (0x1064b, [w_LINEAR;w_A;w_SIGN;w_AB122]);
  (0x1064c, [w_LINEAR;w_A;w_SIGN;w_AB123]);
  (0x1064d, [w_LINEAR;w_A;w_SIGN;w_AB131A]);
  (0x1064e, [w_LINEAR;w_A;w_SIGN;w_AB131B]);
  (0x1064f, [w_LINEAR;w_A;w_SIGN;w_A131C]);
  (0x10650, [w_LINEAR;w_A;w_SIGN;w_AB164]);
  (0x10651, [w_LINEAR;w_A;w_SIGN;w_AB171]);
  (0x10652, [w_LINEAR;w_A;w_SIGN;w_AB180]);
  (0x10653, [w_LINEAR;w_A;w_SIGN;w_AB188]);
  (0x10654, [w_LINEAR;w_A;w_SIGN;w_AB191]);
  (0x10655, [w_LINEAR;w_A;w_SIGN;w_A301]);
  (0x10656, [w_LINEAR;w_A;w_SIGN;w_A302]);
  (0x10657, [w_LINEAR;w_A;w_SIGN;w_A303]);
  (0x10658, [w_LINEAR;w_A;w_SIGN;w_A304]);
  (0x10659, [w_LINEAR;w_A;w_SIGN;w_A305]);
  (0x1065a, [w_LINEAR;w_A;w_SIGN;w_A306]);
  (0x1065b, [w_LINEAR;w_A;w_SIGN;w_A307]);
  (0x1065c, [w_LINEAR;w_A;w_SIGN;w_A308]);
  (0x1065d, [w_LINEAR;w_A;w_SIGN;w_A309A]);
  (0x1065e, [w_LINEAR;w_A;w_SIGN;w_A309B]);
  (0x1065f, [w_LINEAR;w_A;w_SIGN;w_A309C]);
  (0x10660, [w_LINEAR;w_A;w_SIGN;w_A310]);
  (0x10661, [w_LINEAR;w_A;w_SIGN;w_A311]);
  (0x10662, [w_LINEAR;w_A;w_SIGN;w_A312]);
  (0x10663, [w_LINEAR;w_A;w_SIGN;w_A313A]);
  (0x10664, [w_LINEAR;w_A;w_SIGN;w_A313B]);
  (0x10665, [w_LINEAR;w_A;w_SIGN;w_A313C]);
  (0x10666, [w_LINEAR;w_A;w_SIGN;w_A314]);
  (0x10667, [w_LINEAR;w_A;w_SIGN;w_A315]);
  (0x10668, [w_LINEAR;w_A;w_SIGN;w_A316]);
  (0x10669, [w_LINEAR;w_A;w_SIGN;w_A317]);
  (0x1066a, [w_LINEAR;w_A;w_SIGN;w_A318]);
  (0x1066b, [w_LINEAR;w_A;w_SIGN;w_A319]);
  (0x1066c, [w_LINEAR;w_A;w_SIGN;w_A320]);
  (0x1066d, [w_LINEAR;w_A;w_SIGN;w_A321]);
  (0x1066e, [w_LINEAR;w_A;w_SIGN;w_A322]);
  (0x1066f, [w_LINEAR;w_A;w_SIGN;w_A323]);
  (0x10670, [w_LINEAR;w_A;w_SIGN;w_A324]);
  (0x10671, [w_LINEAR;w_A;w_SIGN;w_A325]);
  (0x10672, [w_LINEAR;w_A;w_SIGN;w_A326]);
  (0x10673, [w_LINEAR;w_A;w_SIGN;w_A327]);
  (0x10674, [w_LINEAR;w_A;w_SIGN;w_A328]);
  (0x10675, [w_LINEAR;w_A;w_SIGN;w_A329]);
  (0x10676, [w_LINEAR;w_A;w_SIGN;w_A330]);
  (0x10677, [w_LINEAR;w_A;w_SIGN;w_A331]);
  (0x10678, [w_LINEAR;w_A;w_SIGN;w_A332]);
  (0x10679, [w_LINEAR;w_A;w_SIGN;w_A333]);
  (0x1067a, [w_LINEAR;w_A;w_SIGN;w_A334]);
  (0x1067b, [w_LINEAR;w_A;w_SIGN;w_A335]);
  (0x1067c, [w_LINEAR;w_A;w_SIGN;w_A336]);
  (0x1067d, [w_LINEAR;w_A;w_SIGN;w_A337]);
  (0x1067e, [w_LINEAR;w_A;w_SIGN;w_A338]);
  (0x1067f, [w_LINEAR;w_A;w_SIGN;w_A339]);
  (0x10680, [w_LINEAR;w_A;w_SIGN;w_A340]);
  (0x10681, [w_LINEAR;w_A;w_SIGN;w_A341]);
  (0x10682, [w_LINEAR;w_A;w_SIGN;w_A342]);
  (0x10683, [w_LINEAR;w_A;w_SIGN;w_A343]);
  (0x10684, [w_LINEAR;w_A;w_SIGN;w_A344]);
  (0x10685, [w_LINEAR;w_A;w_SIGN;w_A345]);
  (0x10686, [w_LINEAR;w_A;w_SIGN;w_A346]);
  (0x10687, [w_LINEAR;w_A;w_SIGN;w_A347]);
  (0x10688, [w_LINEAR;w_A;w_SIGN;w_A348]);
  (0x10689, [w_LINEAR;w_A;w_SIGN;w_A349]);
  (0x1068a, [w_LINEAR;w_A;w_SIGN;w_A350]);
  (0x1068b, [w_LINEAR;w_A;w_SIGN;w_A351]);
  (0x1068c, [w_LINEAR;w_A;w_SIGN;w_A352]);
  (0x1068d, [w_LINEAR;w_A;w_SIGN;w_A353]);
  (0x1068e, [w_LINEAR;w_A;w_SIGN;w_A354]);
  (0x1068f, [w_LINEAR;w_A;w_SIGN;w_A355]);
  (0x10690, [w_LINEAR;w_A;w_SIGN;w_A356]);
  (0x10691, [w_LINEAR;w_A;w_SIGN;w_A357]);
  (0x10692, [w_LINEAR;w_A;w_SIGN;w_A358]);
  (0x10693, [w_LINEAR;w_A;w_SIGN;w_A359]);
  (0x10694, [w_LINEAR;w_A;w_SIGN;w_A360]);
  (0x10695, [w_LINEAR;w_A;w_SIGN;w_A361]);
  (0x10696, [w_LINEAR;w_A;w_SIGN;w_A362]);
  (0x10697, [w_LINEAR;w_A;w_SIGN;w_A363]);
  (0x10698, [w_LINEAR;w_A;w_SIGN;w_A364]);
  (0x10699, [w_LINEAR;w_A;w_SIGN;w_A365]);
  (0x1069a, [w_LINEAR;w_A;w_SIGN;w_A366]);
  (0x1069b, [w_LINEAR;w_A;w_SIGN;w_A367]);
  (0x1069c, [w_LINEAR;w_A;w_SIGN;w_A368]);
  (0x1069d, [w_LINEAR;w_A;w_SIGN;w_A369]);
  (0x1069e, [w_LINEAR;w_A;w_SIGN;w_A370]);
  (0x1069f, [w_LINEAR;w_A;w_SIGN;w_A371]);
  (0x106a0, [w_LINEAR;w_A;w_SIGN;w_A400_VAS]);
  (0x106a1, [w_LINEAR;w_A;w_SIGN;w_A401_VAS]);
  (0x106a2, [w_LINEAR;w_A;w_SIGN;w_A402_VAS]);
  (0x106a3, [w_LINEAR;w_A;w_SIGN;w_A403_VAS]);
  (0x106a4, [w_LINEAR;w_A;w_SIGN;w_A404_VAS]);
  (0x106a5, [w_LINEAR;w_A;w_SIGN;w_A405_VAS]);
  (0x106a6, [w_LINEAR;w_A;w_SIGN;w_A406_VAS]);
  (0x106a7, [w_LINEAR;w_A;w_SIGN;w_A407_VAS]);
  (0x106a8, [w_LINEAR;w_A;w_SIGN;w_A408_VAS]);
  (0x106a9, [w_LINEAR;w_A;w_SIGN;w_A409_VAS]);
  (0x106aa, [w_LINEAR;w_A;w_SIGN;w_A410_VAS]);
  (0x106ab, [w_LINEAR;w_A;w_SIGN;w_A411_VAS]);
  (0x106ac, [w_LINEAR;w_A;w_SIGN;w_A412_VAS]);
  (0x106ad, [w_LINEAR;w_A;w_SIGN;w_A413_VAS]);
  (0x106ae, [w_LINEAR;w_A;w_SIGN;w_A414_VAS]);
  (0x106af, [w_LINEAR;w_A;w_SIGN;w_A415_VAS]);
  (0x106b0, [w_LINEAR;w_A;w_SIGN;w_A416_VAS]);
  (0x106b1, [w_LINEAR;w_A;w_SIGN;w_A417_VAS]);
  (0x106b2, [w_LINEAR;w_A;w_SIGN;w_A418_VAS]);
  (0x106b3, [w_LINEAR;w_A;w_SIGN;w_A501]);
  (0x106b4, [w_LINEAR;w_A;w_SIGN;w_A502]);
  (0x106b5, [w_LINEAR;w_A;w_SIGN;w_A503]);
  (0x106b6, [w_LINEAR;w_A;w_SIGN;w_A504]);
  (0x106b7, [w_LINEAR;w_A;w_SIGN;w_A505]);
  (0x106b8, [w_LINEAR;w_A;w_SIGN;w_A506]);
  (0x106b9, [w_LINEAR;w_A;w_SIGN;w_A508]);
  (0x106ba, [w_LINEAR;w_A;w_SIGN;w_A509]);
  (0x106bb, [w_LINEAR;w_A;w_SIGN;w_A510]);
  (0x106bc, [w_LINEAR;w_A;w_SIGN;w_A511]);
  (0x106bd, [w_LINEAR;w_A;w_SIGN;w_A512]);
  (0x106be, [w_LINEAR;w_A;w_SIGN;w_A513]);
  (0x106bf, [w_LINEAR;w_A;w_SIGN;w_A515]);
  (0x106c0, [w_LINEAR;w_A;w_SIGN;w_A516]);
  (0x106c1, [w_LINEAR;w_A;w_SIGN;w_A520]);
  (0x106c2, [w_LINEAR;w_A;w_SIGN;w_A521]);
  (0x106c3, [w_LINEAR;w_A;w_SIGN;w_A523]);
  (0x106c4, [w_LINEAR;w_A;w_SIGN;w_A524]);
  (0x106c5, [w_LINEAR;w_A;w_SIGN;w_A525]);
  (0x106c6, [w_LINEAR;w_A;w_SIGN;w_A526]);
  (0x106c7, [w_LINEAR;w_A;w_SIGN;w_A527]);
  (0x106c8, [w_LINEAR;w_A;w_SIGN;w_A528]);
  (0x106c9, [w_LINEAR;w_A;w_SIGN;w_A529]);
  (0x106ca, [w_LINEAR;w_A;w_SIGN;w_A530]);
  (0x106cb, [w_LINEAR;w_A;w_SIGN;w_A531]);
  (0x106cc, [w_LINEAR;w_A;w_SIGN;w_A532]);
  (0x106cd, [w_LINEAR;w_A;w_SIGN;w_A534]);
  (0x106ce, [w_LINEAR;w_A;w_SIGN;w_A535]);
  (0x106cf, [w_LINEAR;w_A;w_SIGN;w_A536]);
  (0x106d0, [w_LINEAR;w_A;w_SIGN;w_A537]);
  (0x106d1, [w_LINEAR;w_A;w_SIGN;w_A538]);
  (0x106d2, [w_LINEAR;w_A;w_SIGN;w_A539]);
  (0x106d3, [w_LINEAR;w_A;w_SIGN;w_A540]);
  (0x106d4, [w_LINEAR;w_A;w_SIGN;w_A541]);
  (0x106d5, [w_LINEAR;w_A;w_SIGN;w_A542]);
  (0x106d6, [w_LINEAR;w_A;w_SIGN;w_A545]);
  (0x106d7, [w_LINEAR;w_A;w_SIGN;w_A547]);
  (0x106d8, [w_LINEAR;w_A;w_SIGN;w_A548]);
  (0x106d9, [w_LINEAR;w_A;w_SIGN;w_A549]);
  (0x106da, [w_LINEAR;w_A;w_SIGN;w_A550]);
  (0x106db, [w_LINEAR;w_A;w_SIGN;w_A551]);
  (0x106dc, [w_LINEAR;w_A;w_SIGN;w_A552]);
  (0x106dd, [w_LINEAR;w_A;w_SIGN;w_A553]);
  (0x106de, [w_LINEAR;w_A;w_SIGN;w_A554]);
  (0x106df, [w_LINEAR;w_A;w_SIGN;w_A555]);
  (0x106e0, [w_LINEAR;w_A;w_SIGN;w_A556]);
  (0x106e1, [w_LINEAR;w_A;w_SIGN;w_A557]);
  (0x106e2, [w_LINEAR;w_A;w_SIGN;w_A559]);
  (0x106e3, [w_LINEAR;w_A;w_SIGN;w_A563]);
  (0x106e4, [w_LINEAR;w_A;w_SIGN;w_A564]);
  (0x106e5, [w_LINEAR;w_A;w_SIGN;w_A565]);
  (0x106e6, [w_LINEAR;w_A;w_SIGN;w_A566]);
  (0x106e7, [w_LINEAR;w_A;w_SIGN;w_A568]);
  (0x106e8, [w_LINEAR;w_A;w_SIGN;w_A569]);
  (0x106e9, [w_LINEAR;w_A;w_SIGN;w_A570]);
  (0x106ea, [w_LINEAR;w_A;w_SIGN;w_A571]);
  (0x106eb, [w_LINEAR;w_A;w_SIGN;w_A572]);
  (0x106ec, [w_LINEAR;w_A;w_SIGN;w_A573]);
  (0x106ed, [w_LINEAR;w_A;w_SIGN;w_A574]);
  (0x106ee, [w_LINEAR;w_A;w_SIGN;w_A575]);
  (0x106ef, [w_LINEAR;w_A;w_SIGN;w_A576]);
  (0x106f0, [w_LINEAR;w_A;w_SIGN;w_A577]);
  (0x106f1, [w_LINEAR;w_A;w_SIGN;w_A578]);
  (0x106f2, [w_LINEAR;w_A;w_SIGN;w_A579]);
  (0x106f3, [w_LINEAR;w_A;w_SIGN;w_A580]);
  (0x106f4, [w_LINEAR;w_A;w_SIGN;w_A581]);
  (0x106f5, [w_LINEAR;w_A;w_SIGN;w_A582]);
  (0x106f6, [w_LINEAR;w_A;w_SIGN;w_A583]);
  (0x106f7, [w_LINEAR;w_A;w_SIGN;w_A584]);
  (0x106f8, [w_LINEAR;w_A;w_SIGN;w_A585]);
  (0x106f9, [w_LINEAR;w_A;w_SIGN;w_A586]);
  (0x106fa, [w_LINEAR;w_A;w_SIGN;w_A587]);
  (0x106fb, [w_LINEAR;w_A;w_SIGN;w_A588]);
  (0x106fc, [w_LINEAR;w_A;w_SIGN;w_A589]);
  (0x106fd, [w_LINEAR;w_A;w_SIGN;w_A591]);
  (0x106fe, [w_LINEAR;w_A;w_SIGN;w_A592]);
  (0x106ff, [w_LINEAR;w_A;w_SIGN;w_A594]);
  (0x10700, [w_LINEAR;w_A;w_SIGN;w_A595]);
  (0x10701, [w_LINEAR;w_A;w_SIGN;w_A596]);
  (0x10702, [w_LINEAR;w_A;w_SIGN;w_A598]);
  (0x10703, [w_LINEAR;w_A;w_SIGN;w_A600]);
  (0x10704, [w_LINEAR;w_A;w_SIGN;w_A601]);
  (0x10705, [w_LINEAR;w_A;w_SIGN;w_A602]);
  (0x10706, [w_LINEAR;w_A;w_SIGN;w_A603]);
  (0x10707, [w_LINEAR;w_A;w_SIGN;w_A604]);
  (0x10708, [w_LINEAR;w_A;w_SIGN;w_A606]);
  (0x10709, [w_LINEAR;w_A;w_SIGN;w_A608]);
  (0x1070a, [w_LINEAR;w_A;w_SIGN;w_A609]);
  (0x1070b, [w_LINEAR;w_A;w_SIGN;w_A610]);
  (0x1070c, [w_LINEAR;w_A;w_SIGN;w_A611]);
  (0x1070d, [w_LINEAR;w_A;w_SIGN;w_A612]);
  (0x1070e, [w_LINEAR;w_A;w_SIGN;w_A613]);
  (0x1070f, [w_LINEAR;w_A;w_SIGN;w_A614]);
  (0x10710, [w_LINEAR;w_A;w_SIGN;w_A615]);
  (0x10711, [w_LINEAR;w_A;w_SIGN;w_A616]);
  (0x10712, [w_LINEAR;w_A;w_SIGN;w_A617]);
  (0x10713, [w_LINEAR;w_A;w_SIGN;w_A618]);
  (0x10714, [w_LINEAR;w_A;w_SIGN;w_A619]);
  (0x10715, [w_LINEAR;w_A;w_SIGN;w_A620]);
  (0x10716, [w_LINEAR;w_A;w_SIGN;w_A621]);
  (0x10717, [w_LINEAR;w_A;w_SIGN;w_A622]);
  (0x10718, [w_LINEAR;w_A;w_SIGN;w_A623]);
  (0x10719, [w_LINEAR;w_A;w_SIGN;w_A624]);
  (0x1071a, [w_LINEAR;w_A;w_SIGN;w_A626]);
  (0x1071b, [w_LINEAR;w_A;w_SIGN;w_A627]);
  (0x1071c, [w_LINEAR;w_A;w_SIGN;w_A628]);
  (0x1071d, [w_LINEAR;w_A;w_SIGN;w_A629]);
  (0x1071e, [w_LINEAR;w_A;w_SIGN;w_A634]);
  (0x1071f, [w_LINEAR;w_A;w_SIGN;w_A637]);
  (0x10720, [w_LINEAR;w_A;w_SIGN;w_A638]);
  (0x10721, [w_LINEAR;w_A;w_SIGN;w_A640]);
  (0x10722, [w_LINEAR;w_A;w_SIGN;w_A642]);
  (0x10723, [w_LINEAR;w_A;w_SIGN;w_A643]);
  (0x10724, [w_LINEAR;w_A;w_SIGN;w_A644]);
  (0x10725, [w_LINEAR;w_A;w_SIGN;w_A645]);
  (0x10726, [w_LINEAR;w_A;w_SIGN;w_A646]);
  (0x10727, [w_LINEAR;w_A;w_SIGN;w_A648]);
  (0x10728, [w_LINEAR;w_A;w_SIGN;w_A649]);
  (0x10729, [w_LINEAR;w_A;w_SIGN;w_A651]);
  (0x1072a, [w_LINEAR;w_A;w_SIGN;w_A652]);
  (0x1072b, [w_LINEAR;w_A;w_SIGN;w_A653]);
  (0x1072c, [w_LINEAR;w_A;w_SIGN;w_A654]);
  (0x1072d, [w_LINEAR;w_A;w_SIGN;w_A655]);
  (0x1072e, [w_LINEAR;w_A;w_SIGN;w_A656]);
  (0x1072f, [w_LINEAR;w_A;w_SIGN;w_A657]);
  (0x10730, [w_LINEAR;w_A;w_SIGN;w_A658]);
  (0x10731, [w_LINEAR;w_A;w_SIGN;w_A659]);
  (0x10732, [w_LINEAR;w_A;w_SIGN;w_A660]);
  (0x10733, [w_LINEAR;w_A;w_SIGN;w_A661]);
  (0x10734, [w_LINEAR;w_A;w_SIGN;w_A662]);
  (0x10735, [w_LINEAR;w_A;w_SIGN;w_A663]);
  (0x10736, [w_LINEAR;w_A;w_SIGN;w_A664]);
  (0x10740, [w_LINEAR;w_A;w_SIGN;w_A701;w_A]);
  (0x10741, [w_LINEAR;w_A;w_SIGN;w_A702;w_B]);
  (0x10742, [w_LINEAR;w_A;w_SIGN;w_A703;w_D]);
  (0x10743, [w_LINEAR;w_A;w_SIGN;w_A704;w_E]);
  (0x10744, [w_LINEAR;w_A;w_SIGN;w_A705;w_F]);
  (0x10745, [w_LINEAR;w_A;w_SIGN;w_A706;w_H]);
  (0x10746, [w_LINEAR;w_A;w_SIGN;w_A707;w_J]);
  (0x10747, [w_LINEAR;w_A;w_SIGN;w_A708;w_K]);
  (0x10748, [w_LINEAR;w_A;w_SIGN;w_A709;w_L]);
  (0x10749, [w_LINEAR;w_A;w_SIGN;w_A709_2;w_L2]);
  (0x1074a, [w_LINEAR;w_A;w_SIGN;w_A709_3;w_L3]);
  (0x1074b, [w_LINEAR;w_A;w_SIGN;w_A709_4;w_L4]);
  (0x1074c, [w_LINEAR;w_A;w_SIGN;w_A709_6;w_L6]);
  (0x1074d, [w_LINEAR;w_A;w_SIGN;w_A710;w_W]);
  (0x1074e, [w_LINEAR;w_A;w_SIGN;w_A711;w_X]);
  (0x1074f, [w_LINEAR;w_A;w_SIGN;w_A712;w_Y]);
  (0x10750, [w_LINEAR;w_A;w_SIGN;w_A713;w_OMEGA]);
  (0x10751, [w_LINEAR;w_A;w_SIGN;w_A714;w_ABB]);
  (0x10752, [w_LINEAR;w_A;w_SIGN;w_A715;w_BB]);
  (0x10753, [w_LINEAR;w_A;w_SIGN;w_A717;w_DD]);
  (0x10754, [w_LINEAR;w_A;w_SIGN;w_A726;w_EYYY]);
  (0x10755, [w_LINEAR;w_A;w_SIGN;w_A732;w_JE]);
  (0x10760, [w_LINEAR;w_A;w_SIGN;w_A800]);
  (0x10761, [w_LINEAR;w_A;w_SIGN;w_A801]);
  (0x10762, [w_LINEAR;w_A;w_SIGN;w_A802]);
  (0x10763, [w_LINEAR;w_A;w_SIGN;w_A803]);
  (0x10764, [w_LINEAR;w_A;w_SIGN;w_A804]);
  (0x10765, [w_LINEAR;w_A;w_SIGN;w_A805]);
  (0x10766, [w_LINEAR;w_A;w_SIGN;w_A806]);
  (0x10767, [w_LINEAR;w_A;w_SIGN;w_A807]);
  (0x10800, [w_CYPRIOT;w_SYLLABLE;w_A]);
  (0x10801, [w_CYPRIOT;w_SYLLABLE;w_E]);
  (0x10802, [w_CYPRIOT;w_SYLLABLE;w_I]);
  (0x10803, [w_CYPRIOT;w_SYLLABLE;w_O]);
  (0x10804, [w_CYPRIOT;w_SYLLABLE;w_U]);
  (0x10805, [w_CYPRIOT;w_SYLLABLE;w_JA]);
  (0x10808, [w_CYPRIOT;w_SYLLABLE;w_JO]);
  (0x1080a, [w_CYPRIOT;w_SYLLABLE;w_KA]);
  (0x1080b, [w_CYPRIOT;w_SYLLABLE;w_KE]);
  (0x1080c, [w_CYPRIOT;w_SYLLABLE;w_KI]);
  (0x1080d, [w_CYPRIOT;w_SYLLABLE;w_KO]);
  (0x1080e, [w_CYPRIOT;w_SYLLABLE;w_KU]);
  (0x1080f, [w_CYPRIOT;w_SYLLABLE;w_LA]);
  (0x10810, [w_CYPRIOT;w_SYLLABLE;w_LE]);
  (0x10811, [w_CYPRIOT;w_SYLLABLE;w_LI]);
  (0x10812, [w_CYPRIOT;w_SYLLABLE;w_LO]);
  (0x10813, [w_CYPRIOT;w_SYLLABLE;w_LU]);
  (0x10814, [w_CYPRIOT;w_SYLLABLE;w_MA]);
  (0x10815, [w_CYPRIOT;w_SYLLABLE;w_ME]);
  (0x10816, [w_CYPRIOT;w_SYLLABLE;w_MI]);
  (0x10817, [w_CYPRIOT;w_SYLLABLE;w_MO]);
  (0x10818, [w_CYPRIOT;w_SYLLABLE;w_MU]);
  (0x10819, [w_CYPRIOT;w_SYLLABLE;w_NA]);
  (0x1081a, [w_CYPRIOT;w_SYLLABLE;w_NE]);
  (0x1081b, [w_CYPRIOT;w_SYLLABLE;w_NI]);
  (0x1081c, [w_CYPRIOT;w_SYLLABLE;w_NO]);
  (0x1081d, [w_CYPRIOT;w_SYLLABLE;w_NU]);
  (0x1081e, [w_CYPRIOT;w_SYLLABLE;w_PA]);
  (0x1081f, [w_CYPRIOT;w_SYLLABLE;w_PE]);
  (0x10820, [w_CYPRIOT;w_SYLLABLE;w_PI]);
  (0x10821, [w_CYPRIOT;w_SYLLABLE;w_PO]);
  (0x10822, [w_CYPRIOT;w_SYLLABLE;w_PU]);
  (0x10823, [w_CYPRIOT;w_SYLLABLE;w_RA]);
  (0x10824, [w_CYPRIOT;w_SYLLABLE;w_RE]);
  (0x10825, [w_CYPRIOT;w_SYLLABLE;w_RI]);
  (0x10826, [w_CYPRIOT;w_SYLLABLE;w_RO]);
  (0x10827, [w_CYPRIOT;w_SYLLABLE;w_RU]);
  (0x10828, [w_CYPRIOT;w_SYLLABLE;w_SA]);
  (0x10829, [w_CYPRIOT;w_SYLLABLE;w_SE]);
  (0x1082a, [w_CYPRIOT;w_SYLLABLE;w_SI]);
  (0x1082b, [w_CYPRIOT;w_SYLLABLE;w_SO]);
  (0x1082c, [w_CYPRIOT;w_SYLLABLE;w_SU]);
  (0x1082d, [w_CYPRIOT;w_SYLLABLE;w_TA]);
  (0x1082e, [w_CYPRIOT;w_SYLLABLE;w_TE]);
  (0x1082f, [w_CYPRIOT;w_SYLLABLE;w_TI]);
  (0x10830, [w_CYPRIOT;w_SYLLABLE;w_TO]);
  (0x10831, [w_CYPRIOT;w_SYLLABLE;w_TU]);
  (0x10832, [w_CYPRIOT;w_SYLLABLE;w_WA]);
  (0x10833, [w_CYPRIOT;w_SYLLABLE;w_WE]);
  (0x10834, [w_CYPRIOT;w_SYLLABLE;w_WI]);
  (0x10835, [w_CYPRIOT;w_SYLLABLE;w_WO]);
  (0x10837, [w_CYPRIOT;w_SYLLABLE;w_XA]);
  (0x10838, [w_CYPRIOT;w_SYLLABLE;w_XE]);
  (0x1083c, [w_CYPRIOT;w_SYLLABLE;w_ZA]);
  (0x1083f, [w_CYPRIOT;w_SYLLABLE;w_ZO]);
  (0x10840, [w_IMPERIAL;w_ARAMAIC;w_LETTER;w_ALEPH]);
  (0x10841, [w_IMPERIAL;w_ARAMAIC;w_LETTER;w_BETH]);
  (0x10842, [w_IMPERIAL;w_ARAMAIC;w_LETTER;w_GIMEL]);
  (0x10843, [w_IMPERIAL;w_ARAMAIC;w_LETTER;w_DALETH]);
  (0x10844, [w_IMPERIAL;w_ARAMAIC;w_LETTER;w_HE]);
  (0x10845, [w_IMPERIAL;w_ARAMAIC;w_LETTER;w_WAW]);
  (0x10846, [w_IMPERIAL;w_ARAMAIC;w_LETTER;w_ZAYIN]);
  (0x10847, [w_IMPERIAL;w_ARAMAIC;w_LETTER;w_HETH]);
  (0x10848, [w_IMPERIAL;w_ARAMAIC;w_LETTER;w_TETH]);
  (0x10849, [w_IMPERIAL;w_ARAMAIC;w_LETTER;w_YODH]);
  (0x1084a, [w_IMPERIAL;w_ARAMAIC;w_LETTER;w_KAPH]);
  (0x1084b, [w_IMPERIAL;w_ARAMAIC;w_LETTER;w_LAMEDH]);
  (0x1084c, [w_IMPERIAL;w_ARAMAIC;w_LETTER;w_MEM]);
  (0x1084d, [w_IMPERIAL;w_ARAMAIC;w_LETTER;w_NUN]);
  (0x1084e, [w_IMPERIAL;w_ARAMAIC;w_LETTER;w_SAMEKH]);
  (0x1084f, [w_IMPERIAL;w_ARAMAIC;w_LETTER;w_AYIN]);
  (0x10850, [w_IMPERIAL;w_ARAMAIC;w_LETTER;w_PE]);
  (0x10851, [w_IMPERIAL;w_ARAMAIC;w_LETTER;w_SADHE]);
  (0x10852, [w_IMPERIAL;w_ARAMAIC;w_LETTER;w_QOPH]);
  (0x10853, [w_IMPERIAL;w_ARAMAIC;w_LETTER;w_RESH]);
  (0x10854, [w_IMPERIAL;w_ARAMAIC;w_LETTER;w_SHIN]);
  (0x10855, [w_IMPERIAL;w_ARAMAIC;w_LETTER;w_TAW]);
  (0x10857, [w_IMPERIAL;w_ARAMAIC;w_SECTION;w_SIGN]);
  (0x10858, [w_IMPERIAL;w_ARAMAIC;w_NUMBER;w_ONE]);
  (0x10859, [w_IMPERIAL;w_ARAMAIC;w_NUMBER;w_TWO]);
  (0x1085a, [w_IMPERIAL;w_ARAMAIC;w_NUMBER;w_THREE]);
  (0x1085b, [w_IMPERIAL;w_ARAMAIC;w_NUMBER;w_TEN]);
  (0x1085c, [w_IMPERIAL;w_ARAMAIC;w_NUMBER;w_TWENTY]);
  (0x1085d, [w_IMPERIAL;w_ARAMAIC;w_NUMBER;w_ONE;w_HUNDRED]);
  (0x1085e, [w_IMPERIAL;w_ARAMAIC;w_NUMBER;w_ONE;w_THOUSAND]);
  (0x1085f, [w_IMPERIAL;w_ARAMAIC;w_NUMBER;w_TEN;w_THOUSAND]);
  (0x10860, [w_PALMYRENE;w_LETTER;w_ALEPH]);
  (0x10861, [w_PALMYRENE;w_LETTER;w_BETH]);
  (0x10862, [w_PALMYRENE;w_LETTER;w_GIMEL]);
  (0x10863, [w_PALMYRENE;w_LETTER;w_DALETH]);
  (0x10864, [w_PALMYRENE;w_LETTER;w_HE]);
  (0x10865, [w_PALMYRENE;w_LETTER;w_WAW]);
  (0x10866, [w_PALMYRENE;w_LETTER;w_ZAYIN]);
  (0x10867, [w_PALMYRENE;w_LETTER;w_HETH]);
  (0x10868, [w_PALMYRENE;w_LETTER;w_TETH]);
  (0x10869, [w_PALMYRENE;w_LETTER;w_YODH]);
  (0x1086a, [w_PALMYRENE;w_LETTER;w_KAPH]);
  (0x1086b, [w_PALMYRENE;w_LETTER;w_LAMEDH]);
  (0x1086c, [w_PALMYRENE;w_LETTER;w_MEM]);
  (0x1086d, [w_PALMYRENE;w_LETTER;w_FINAL;w_NUN]);
  (0x1086e, [w_PALMYRENE;w_LETTER;w_NUN]);
  (0x1086f, [w_PALMYRENE;w_LETTER;w_SAMEKH]);
  (0x10870, [w_PALMYRENE;w_LETTER;w_AYIN]);
  (0x10871, [w_PALMYRENE;w_LETTER;w_PE]);
  (0x10872, [w_PALMYRENE;w_LETTER;w_SADHE]);
  (0x10873, [w_PALMYRENE;w_LETTER;w_QOPH]);
  (0x10874, [w_PALMYRENE;w_LETTER;w_RESH]);
  (0x10875, [w_PALMYRENE;w_LETTER;w_SHIN]);
  (0x10876, [w_PALMYRENE;w_LETTER;w_TAW]);
  (0x10877, [w_PALMYRENE;w_LEFT_POINTING;w_FLEURON]);
  (0x10878, [w_PALMYRENE;w_RIGHT_POINTING;w_FLEURON]);
  (0x10879, [w_PALMYRENE;w_NUMBER;w_ONE]);
  (0x1087a, [w_PALMYRENE;w_NUMBER;w_TWO]);
  (0x1087b, [w_PALMYRENE;w_NUMBER;w_THREE]);
  (0x1087c, [w_PALMYRENE;w_NUMBER;w_FOUR]);
  (0x1087d, [w_PALMYRENE;w_NUMBER;w_FIVE]);
  (0x1087e, [w_PALMYRENE;w_NUMBER;w_TEN]);
  (0x1087f, [w_PALMYRENE;w_NUMBER;w_TWENTY]);
  (0x10880, [w_NABATAEAN;w_LETTER;w_FINAL;w_ALEPH]);
  (0x10881, [w_NABATAEAN;w_LETTER;w_ALEPH])].

Definition NAMES_45 : list (N * (list str)) := [
  (0x10882, [w_NABATAEAN;w_LETTER;w_FINAL;w_BETH]);
  (0x10883, [w_NABATAEAN;w_LETTER;w_BETH]);
  (0x10884, [w_NABATAEAN;w_LETTER;w_GIMEL]);
  (0x10885, [w_NABATAEAN;w_LETTER;w_DALETH]);
  (0x10886, [w_NABATAEAN;w_LETTER;w_FINAL;w_HE]);
  (0x10887, [w_NABATAEAN;w_LETTER;w_HE]);
  (0x10888, [w_NABATAEAN;w_LETTER;w_WAW]);
  (0x10889, [w_NABATAEAN;w_LETTER;w_ZAYIN]);
  (0x1088a, [w_NABATAEAN;w_LETTER;w_HETH]);
  (0x1088b, [w_NABATAEAN;w_LETTER;w_TETH]);
  (0x1088c, [w_NABATAEAN;w_LETTER;w_FINAL;w_YODH]);
  (0x1088d, [w_NABATAEAN;w_LETTER;w_YODH]);
  (0x1088e, [w_NABATAEAN;w_LETTER;w_FINAL;w_KAPH]);
  (0x1088f, [w_NABATAEAN;w_LETTER;w_KAPH]);
  (0x10890, [w_NABATAEAN;w_LETTER;w_FINAL;w_LAMEDH]);
  (0x10891, [w_NABATAEAN;w_LETTER;w_LAMEDH]);
  (0x10892, [w_NABATAEAN;w_LETTER;w_FINAL;w_MEM]);
  (0x10893, [w_NABATAEAN;w_LETTER;w_MEM]);
  (0x10894, [w_NABATAEAN;w_LETTER;w_FINAL;w_NUN]);
  (0x10895, [w_NABATAEAN;w_LETTER;w_NUN]);
  (0x10896, [w_NABATAEAN;w_LETTER;w_SAMEKH]);
  (0x10897, [w_NABATAEAN;w_LETTER;w_AYIN]);
  (0x10898, [w_NABATAEAN;w_LETTER;w_PE]);
  (0x10899, [w_NABATAEAN;w_LETTER;w_SADHE]);
  (0x1089a, [w_NABATAEAN;w_LETTER;w_QOPH]);
  (0x1089b, [w_NABATAEAN;w_LETTER;w_RESH]);
  (0x1089c, [w_NABATAEAN;w_LETTER;w_FINAL;w_SHIN]);
  (0x1089d, [w_NABATAEAN;w_LETTER;w_SHIN]);
  (0x1089e, [w_NABATAEAN;w_LETTER;w_TAW]);
  (0x108a7, [w_NABATAEAN;w_NUMBER;w_ONE]);
  (0x108a8, [w_NABATAEAN;w_NUMBER;w_TWO]);
  (0x108a9, [w_NABATAEAN;w_NUMBER;w_THREE]);
  (0x108aa, [w_NABATAEAN;w_NUMBER;w_FOUR]);
  (0x108ab, [w_NABATAEAN;w_CRUCIFORM;w_NUMBER;w_FOUR]);
  (0x108ac, [w_NABATAEAN;w_NUMBER;w_FIVE]);
  (0x108ad, [w_NABATAEAN;w_NUMBER;w_TEN]);
  (0x108ae, [w_NABATAEAN;w_NUMBER;w_TWENTY]);
  (0x108af, [w_NABATAEAN;w_NUMBER;w_ONE;w_HUNDRED]);
  (0x108e0, [w_HATRAN;w_LETTER;w_ALEPH]);
  (0x108e1, [w_HATRAN;w_LETTER;w_BETH]);
  (0x108e2, [w_HATRAN;w_LETTER;w_GIMEL]);
  (0x108e3, [w_HATRAN;w_LETTER;w_DALETH_RESH]);
  (0x108e4, [w_HATRAN;w_LETTER;w_HE]);
  (0x108e5, [w_HATRAN;w_LETTER;w_WAW]);
  (0x108e6, [w_HATRAN;w_LETTER;w_ZAYN]);
  (0x108e7, [w_HATRAN;w_LETTER;w_HETH]);
  (0x108e8, [w_HATRAN;w_LETTER;w_TETH]);
  (0x108e9, [w_HATRAN;w_LETTER;w_YODH]);
  (0x108ea, [w_HATRAN;w_LETTER;w_KAPH]);
  (0x108eb, [w_HATRAN;w_LETTER;w_LAMEDH]);
  (0x108ec, [w_HATRAN;w_LETTER;w_MEM]);
  (0x108ed, [w_HATRAN;w_LETTER;w_NUN]);
  (0x108ee, [w_HATRAN;w_LETTER;w_SAMEKH]);
  (0x108ef, [w_HATRAN;w_LETTER;w_AYN]);
  (0x108f0, [w_HATRAN;w_LETTER;w_PE]);
  (0x108f1, [w_HATRAN;w_LETTER;w_SADHE]);
  (0x108f2, [w_HATRAN;w_LETTER;w_QOPH]);
  (0x108f4, [w_HATRAN;w_LETTER;w_SHIN]);
  (0x108f5, [w_HATRAN;w_LETTER;w_TAW]);
  (0x108fb, [w_HATRAN;w_NUMBER;w_ONE]);
  (0x108fc, [w_HATRAN;w_NUMBER;w_FIVE]);
  (0x108fd, [w_HATRAN;w_NUMBER;w_TEN]);
  (0x108fe, [w_HATRAN;w_NUMBER;w_TWENTY]);
  (0x108ff, [w_HATRAN;w_NUMBER;w_ONE;w_HUNDRED]);
  (0x10900, [w_PHOENICIAN;w_LETTER;w_ALF]);
  (0x10901, [w_PHOENICIAN;w_LETTER;w_BET]);
  (0x10902, [w_PHOENICIAN;w_LETTER;w_GAML]);
  (0x10903, [w_PHOENICIAN;w_LETTER;w_DELT]);
  (0x10904, [w_PHOENICIAN;w_LETTER;w_HE]);
  (0x10905, [w_PHOENICIAN;w_LETTER;w_WAU]);
  (0x10906, [w_PHOENICIAN;w_LETTER;w_ZAI]);
  (0x10907, [w_PHOENICIAN;w_LETTER;w_HET]);
  (0x10908, [w_PHOENICIAN;w_LETTER;w_TET]);
  (0x10909, [w_PHOENICIAN;w_LETTER;w_YOD]);
  (0x1090a, [w_PHOENICIAN;w_LETTER;w_KAF]);
  (0x1090b, [w_PHOENICIAN;w_LETTER;w_LAMD]);
  (0x1090c, [w_PHOENICIAN;w_LETTER;w_MEM]);
  (0x1090d, [w_PHOENICIAN;w_LETTER;w_NUN]);
  (0x1090e, [w_PHOENICIAN;w_LETTER;w_SEMK]);
  (0x1090f, [w_PHOENICIAN;w_LETTER;w_AIN]);
  (0x10910, [w_PHOENICIAN;w_LETTER;w_PE]);
  (0x10911, [w_PHOENICIAN;w_LETTER;w_SADE]);
  (0x10912, [w_PHOENICIAN;w_LETTER;w_QOF]);
  (0x10913, [w_PHOENICIAN;w_LETTER;w_ROSH]);
  (0x10914, [w_PHOENICIAN;w_LETTER;w_SHIN]);
  (0x10915, [w_PHOENICIAN;w_LETTER;w_TAU]);
  (0x10916, [w_PHOENICIAN;w_NUMBER;w_ONE]);
  (0x10917, [w_PHOENICIAN;w_NUMBER;w_TEN]);
  (0x10918, [w_PHOENICIAN;w_NUMBER;w_TWENTY]);
  (0x10919, [w_PHOENICIAN;w_NUMBER;w_ONE;w_HUNDRED]);
  (0x1091a, [w_PHOENICIAN;w_NUMBER;w_TWO]);
  (0x1091b, [w_PHOENICIAN;w_NUMBER;w_THREE]);
  (0x1091f, [w_PHOENICIAN;w_WORD;w_SEPARATOR]);
  (0x10920, [w_LYDIAN;w_LETTER;w_A]);
  (0x10921, [w_LYDIAN;w_LETTER;w_B]);
  (0x10922, [w_LYDIAN;w_LETTER;w_G]);
  (0x10923, [w_LYDIAN;w_LETTER;w_D]);
  (0x10924, [w_LYDIAN;w_LETTER;w_E]);
  (0x10925, [w_LYDIAN;w_LETTER;w_V]);
  (0x10926, [w_LYDIAN;w_LETTER;w_I]);
  (0x10927, [w_LYDIAN;w_LETTER;w_Y]);
  (0x10928, [w_LYDIAN;w_LETTER;w_K]);
  (0x10929, [w_LYDIAN;w_LETTER;w_L]);
  (0x1092a, [w_LYDIAN;w_LETTER;w_M]);
  (0x1092b, [w_LYDIAN;w_LETTER;w_N]);
  (0x1092c, [w_LYDIAN;w_LETTER;w_O]);
  (0x1092d, [w_LYDIAN;w_LETTER;w_R]);
  (0x1092e, [w_LYDIAN;w_LETTER;w_SS]);
  (0x1092f, [w_LYDIAN;w_LETTER;w_T]);
  (0x10930, [w_LYDIAN;w_LETTER;w_U]);
  (0x10931, [w_LYDIAN;w_LETTER;w_F]);
  (0x10932, [w_LYDIAN;w_LETTER;w_Q]);
  (0x10933, [w_LYDIAN;w_LETTER;w_S]);
  (0x10934, [w_LYDIAN;w_LETTER;w_TT]);
  (0x10935, [w_LYDIAN;w_LETTER;w_AN]);
  (0x10936, [w_LYDIAN;w_LETTER;w_EN]);
  (0x10937, [w_LYDIAN;w_LETTER;w_LY]);
  (0x10938, [w_LYDIAN;w_LETTER;w_NN]);
  (0x10939, [w_LYDIAN;w_LETTER;w_C]);
  (0x1093f, [w_LYDIAN;w_TRIANGULAR;w_MARK]);
  (0x10980, [w_MEROITIC;w_HIEROGLYPHIC;w_LETTER;w_A]);
  (0x10981, [w_MEROITIC;w_HIEROGLYPHIC;w_LETTER;w_E]);
  (0x10982, [w_MEROITIC;w_HIEROGLYPHIC;w_LETTER;w_I]);
  (0x10983, [w_MEROITIC;w_HIEROGLYPHIC;w_LETTER;w_O]);
  (0x10984, [w_MEROITIC;w_HIEROGLYPHIC;w_LETTER;w_YA]);
  (0x10985, [w_MEROITIC;w_HIEROGLYPHIC;w_LETTER;w_WA]);
  (0x10986, [w_MEROITIC;w_HIEROGLYPHIC;w_LETTER;w_BA]);
  (0x10987, [w_MEROITIC;w_HIEROGLYPHIC;w_LETTER;w_BA_2]);
  (0x10988, [w_MEROITIC;w_HIEROGLYPHIC;w_LETTER;w_PA]);
  (0x10989, [w_MEROITIC;w_HIEROGLYPHIC;w_LETTER;w_MA]);
  (0x1098a, [w_MEROITIC;w_HIEROGLYPHIC;w_LETTER;w_NA]);
  (0x1098b, [w_MEROITIC;w_HIEROGLYPHIC;w_LETTER;w_NA_2]);
  (0x1098c, [w_MEROITIC;w_HIEROGLYPHIC;w_LETTER;w_NE]);
  (0x1098d, [w_MEROITIC;w_HIEROGLYPHIC;w_LETTER;w_NE_2]);
  (0x1098e, [w_MEROITIC;w_HIEROGLYPHIC;w_LETTER;w_RA]);
  (0x1098f, [w_MEROITIC;w_HIEROGLYPHIC;w_LETTER;w_RA_2]);
  (0x10990, [w_MEROITIC;w_HIEROGLYPHIC;w_LETTER;w_LA]);
  (0x10991, [w_MEROITIC;w_HIEROGLYPHIC;w_LETTER;w_KHA]);
  (0x10992, [w_MEROITIC;w_HIEROGLYPHIC;w_LETTER;w_HHA]);
  (0x10993, [w_MEROITIC;w_HIEROGLYPHIC;w_LETTER;w_SA]);
  (0x10994, [w_MEROITIC;w_HIEROGLYPHIC;w_LETTER;w_SA_2]);
  (0x10995, [w_MEROITIC;w_HIEROGLYPHIC;w_LETTER;w_SE]);
  (0x10996, [w_MEROITIC;w_HIEROGLYPHIC;w_LETTER;w_KA]);
  (0x10997, [w_MEROITIC;w_HIEROGLYPHIC;w_LETTER;w_QA]);
  (0x10998, [w_MEROITIC;w_HIEROGLYPHIC;w_LETTER;w_TA]);
  (0x10999, [w_MEROITIC;w_HIEROGLYPHIC;w_LETTER;w_TA_2]);
  (0x1099a, [w_MEROITIC;w_HIEROGLYPHIC;w_LETTER;w_TE]);
  (0x1099b, [w_MEROITIC;w_HIEROGLYPHIC;w_LETTER;w_TE_2]);
  (0x1099c, [w_MEROITIC;w_HIEROGLYPHIC;w_LETTER;w_TO]);
  (0x1099d, [w_MEROITIC;w_HIEROGLYPHIC;w_LETTER;w_DA]);
  (0x1099e, [w_MEROITIC;w_HIEROGLYPHIC;w_SYMBOL;w_VIDJ]);
  (0x1099f, [w_MEROITIC;w_HIEROGLYPHIC;w_SYMBOL;w_VIDJ_2]);
  (0x109a0, [w_MEROITIC;w_CURSIVE;w_LETTER;w_A]);
  (0x109a1, [w_MEROITIC;w_CURSIVE;w_LETTER;w_E]);
  (0x109a2, [w_MEROITIC;w_CURSIVE;w_LETTER;w_I]);
  (0x109a3, [w_MEROITIC;w_CURSIVE;w_LETTER;w_O]);
  (0x109a4, [w_MEROITIC;w_CURSIVE;w_LETTER;w_YA]);
  (0x109a5, [w_MEROITIC;w_CURSIVE;w_LETTER;w_WA]);
  (0x109a6, [w_MEROITIC;w_CURSIVE;w_LETTER;w_BA]);
  (0x109a7, [w_MEROITIC;w_CURSIVE;w_LETTER;w_PA]);
  (0x109a8, [w_MEROITIC;w_CURSIVE;w_LETTER;w_MA]);
  (0x109a9, [w_MEROITIC;w_CURSIVE;w_LETTER;w_NA]);
  (0x109aa, [w_MEROITIC;w_CURSIVE;w_LETTER;w_NE]);
  (0x109ab, [w_MEROITIC;w_CURSIVE;w_LETTER;w_RA]);
  (0x109ac, [w_MEROITIC;w_CURSIVE;w_LETTER;w_LA]);
  (0x109ad, [w_MEROITIC;w_CURSIVE;w_LETTER;w_KHA]);
  (0x109ae, [w_MEROITIC;w_CURSIVE;w_LETTER;w_HHA]);
  (0x109af, [w_MEROITIC;w_CURSIVE;w_LETTER;w_SA]);
  (0x109b0, [w_MEROITIC;w_CURSIVE;w_LETTER;w_ARCHAIC;w_SA]);
  (0x109b1, [w_MEROITIC;w_CURSIVE;w_LETTER;w_SE]);
  (0x109b2, [w_MEROITIC;w_CURSIVE;w_LETTER;w_KA]);
  (0x109b3, [w_MEROITIC;w_CURSIVE;w_LETTER;w_QA]);
  (0x109b4, [w_MEROITIC;w_CURSIVE;w_LETTER;w_TA]);
  (0x109b5, [w_MEROITIC;w_CURSIVE;w_LETTER;w_TE]);
  (0x109b6, [w_MEROITIC;w_CURSIVE;w_LETTER;w_TO]);
  (0x109b7, [w_MEROITIC;w_CURSIVE;w_LETTER;w_DA]);
  (0x109bc, [w_MEROITIC;w_CURSIVE;w_FRACTION;w_ELEVEN;w_TWELFTHS]);
  (0x109bd, [w_MEROITIC;w_CURSIVE;w_FRACTION;w_ONE;w_HALF]);
  (0x109be, [w_MEROITIC;w_CURSIVE;w_LOGOGRAM;w_RMT]);
  (0x109bf, [w_MEROITIC;w_CURSIVE;w_LOGOGRAM;w_IMN]);
  (0x109c0, [w_MEROITIC;w_CURSIVE;w_NUMBER;w_ONE]);
  (0x109c1, [w_MEROITIC;w_CURSIVE;w_NUMBER;w_TWO]);
  (0x109c2, [w_MEROITIC;w_CURSIVE;w_NUMBER;w_THREE]);
  (0x109c3, [w_MEROITIC;w_CURSIVE;w_NUMBER;w_FOUR]);
  (0x109c4, [w_MEROITIC;w_CURSIVE;w_NUMBER;w_FIVE]);
  (0x109c5, [w_MEROITIC;w_CURSIVE;w_NUMBER;w_SIX]);
  (0x109c6, [w_MEROITIC;w_CURSIVE;w_NUMBER;w_SEVEN]);
  (0x109c7, [w_MEROITIC;w_CURSIVE;w_NUMBER;w_EIGHT]);
  (0x109c8, [w_MEROITIC;w_CURSIVE;w_NUMBER;w_NINE]);
  (0x109c9, [w_MEROITIC;w_CURSIVE;w_NUMBER;w_TEN]);
  (0x109ca, [w_MEROITIC;w_CURSIVE;w_NUMBER;w_TWENTY]);
  (0x109cb, [w_MEROITIC;w_CURSIVE;w_NUMBER;w_THIRTY]);
  (0x109cc, [w_MEROITIC;w_CURSIVE;w_NUMBER;w_FORTY]);
  (0x109cd, [w_MEROITIC;w_CURSIVE;w_NUMBER;w_FIFTY]);
  (0x109ce, [w_MEROITIC;w_CURSIVE;w_NUMBER;w_SIXTY]);
  (0x109cf, [w_MEROITIC;w_CURSIVE;w_NUMBER;w_SEVENTY]);
  (0x109d2, [w_MEROITIC;w_CURSIVE;w_NUMBER;w_ONE;w_HUNDRED]);
  (0x109d3, [w_MEROITIC;w_CURSIVE;w_NUMBER;w_TWO;w_HUNDRED]);
  (0x109d4, [w_MEROITIC;w_CURSIVE;w_NUMBER;w_THREE;w_HUNDRED]);
  (0x109d5, [w_MEROITIC;w_CURSIVE;w_NUMBER;w_FOUR;w_HUNDRED]);
  (0x109d6, [w_MEROITIC;w_CURSIVE;w_NUMBER;w_FIVE;w_HUNDRED]);
  (0x109d7, [w_MEROITIC;w_CURSIVE;w_NUMBER;w_SIX;w_HUNDRED]);
  (0x109d8, [w_MEROITIC;w_CURSIVE;w_NUMBER;w_SEVEN;w_HUNDRED]);
  (0x109d9, [w_MEROITIC;w_CURSIVE;w_NUMBER;w_EIGHT;w_HUNDRED]);
  (0x109da, [w_MEROITIC;w_CURSIVE;w_NUMBER;w_NINE;w_HUNDRED]);
  (0x109db, [w_MEROITIC;w_CURSIVE;w_NUMBER;w_ONE;w_THOUSAND]);
  (0x109dc, [w_MEROITIC;w_CURSIVE;w_NUMBER;w_TWO;w_THOUSAND]);
  (0x109dd, [w_MEROITIC;w_CURSIVE;w_NUMBER;w_THREE;w_THOUSAND]);
  (0x109de, [w_MEROITIC;w_CURSIVE;w_NUMBER;w_FOUR;w_THOUSAND]);
  (0x109df, [w_MEROITIC;w_CURSIVE;w_NUMBER;w_FIVE;w_THOUSAND]);
  (0x109e0, [w_MEROITIC;w_CURSIVE;w_NUMBER;w_SIX;w_THOUSAND]);
  (0x109e1, [w_MEROITIC;w_CURSIVE;w_NUMBER;w_SEVEN;w_THOUSAND]);
  (0x109e2, [w_MEROITIC;w_CURSIVE;w_NUMBER;w_EIGHT;w_THOUSAND]);
  (0x109e3, [w_MEROITIC;w_CURSIVE;w_NUMBER;w_NINE;w_THOUSAND]);
  (0x109e4, [w_MEROITIC;w_CURSIVE;w_NUMBER;w_TEN;w_THOUSAND]);
  (0x109e5, [w_MEROITIC;w_CURSIVE;w_NUMBER;w_TWENTY;w_THOUSAND]);
  (0x109e6, [w_MEROITIC;w_CURSIVE;w_NUMBER;w_THIRTY;w_THOUSAND]);
  (0x109e7, [w_MEROITIC;w_CURSIVE;w_NUMBER;w_FORTY;w_THOUSAND]);
  (0x109e8, [w_MEROITIC;w_CURSIVE;w_NUMBER;w_FIFTY;w_THOUSAND]);
  (0x109e9, [w_MEROITIC;w_CURSIVE;w_NUMBER;w_SIXTY;w_THOUSAND]);
  (0x109ea, [w_MEROITIC;w_CURSIVE;w_NUMBER;w_SEVENTY;w_THOUSAND]);
  (0x109eb, [w_MEROITIC;w_CURSIVE;w_NUMBER;w_EIGHTY;w_THOUSAND]);
  (0x109ec, [w_MEROITIC;w_CURSIVE;w_NUMBER;w_NINETY;w_THOUSAND]);
  (0x109ed, [w_MEROITIC;w_CURSIVE;w_NUMBER;w_ONE;w_HUNDRED;w_THOUSAND]);
  (0x109ee, [w_MEROITIC;w_CURSIVE;w_NUMBER;w_TWO;w_HUNDRED;w_THOUSAND]);
  (0x109ef, [w_MEROITIC;w_CURSIVE;w_NUMBER;w_THREE;w_HUNDRED;w_THOUSAND]);
  (0x109f0, [w_MEROITIC;w_CURSIVE;w_NUMBER;w_FOUR;w_HUNDRED;w_THOUSAND]);
  (0x109f1, [w_MEROITIC;w_CURSIVE;w_NUMBER;w_FIVE;w_HUNDRED;w_THOUSAND]);
  (0x109f2, [w_MEROITIC;w_CURSIVE;w_NUMBER;w_SIX;w_HUNDRED;w_THOUSAND]);
  (0x109f3, [w_MEROITIC;w_CURSIVE;w_NUMBER;w_SEVEN;w_HUNDRED;w_THOUSAND]);
  (0x109f4, [w_MEROITIC;w_CURSIVE;w_NUMBER;w_EIGHT;w_HUNDRED;w_THOUSAND]);
  (0x109f5, [w_MEROITIC;w_CURSIVE;w_NUMBER;w_NINE;w_HUNDRED;w_THOUSAND]);
  (0x109f6, [w_MEROITIC;w_CURSIVE;w_FRACTION;w_ONE;w_TWELFTH]);
  (0x109f7, [w_MEROITIC;w_CURSIVE;w_FRACTION;w_TWO;w_TWELFTHS]);
  (0x109f8, [w_MEROITIC;w_CURSIVE;w_FRACTION;w_THREE;w_TWELFTHS]);
  (0x109f9, [w_MEROITIC;w_CURSIVE;w_FRACTION;w_FOUR;w_TWELFTHS]);
  (0x109fa, [w_MEROITIC;w_CURSIVE;w_FRACTION;w_FIVE;w_TWELFTHS]);
  (0x109fb, [w_MEROITIC;w_CURSIVE;w_FRACTION;w_SIX;w_TWELFTHS]);
  (0x109fc, [w_MEROITIC;w_CURSIVE;w_FRACTION;w_SEVEN;w_TWELFTHS]);
  (0x109fd, [w_MEROITIC;w_CURSIVE;w_FRACTION;w_EIGHT;w_TWELFTHS]);
  (0x109fe, [w_MEROITIC;w_CURSIVE;w_FRACTION;w_NINE;w_TWELFTHS]);
  (0x109ff, [w_MEROITIC;w_CURSIVE;w_FRACTION;w_TEN;w_TWELFTHS]);
  (0x10a00, [w_KHAROSHTHI;w_LETTER;w_A]);
  (0x10a01, [w_KHAROSHTHI;w_VOWEL;w_SIGN;w_I]);
  (0x10a02, [w_KHAROSHTHI;w_VOWEL;w_SIGN;w_U]);
  (0x10a03, [w_KHAROSHTHI;w_VOWEL;w_SIGN;w_VOCALIC;w_R]);
  (0x10a05, [w_KHAROSHTHI;w_VOWEL;w_SIGN;w_E]);
  (0x10a06, [w_KHAROSHTHI;w_VOWEL;w_SIGN;w_O]);
  (0x10a0c, [w_KHAROSHTHI;w_VOWEL;w_LENGTH;w_MARK]);
  (0x10a0d, [w_KHAROSHTHI;w_SIGN;w_DOUBLE;w_RING;w_BELOW]);
  (0x10a0e, [w_KHAROSHTHI;w_SIGN;w_ANUSVARA]);
  (0x10a0f, [w_KHAROSHTHI;w_SIGN;w_VISARGA]);
  (0x10a10, [w_KHAROSHTHI;w_LETTER;w_KA]);
  (0x10a11, [w_KHAROSHTHI;w_LETTER;w_KHA]);
  (0x10a12, [w_KHAROSHTHI;w_LETTER;w_GA]);
  (0x10a13, [w_KHAROSHTHI;w_LETTER;w_GHA]);
  (0x10a15, [w_KHAROSHTHI;w_LETTER;w_CA]);
  (0x10a16, [w_KHAROSHTHI;w_LETTER;w_CHA]);
  (0x10a17, [w_KHAROSHTHI;w_LETTER;w_JA]);
  (0x10a19, [w_KHAROSHTHI;w_LETTER;w_NYA]);
  (0x10a1a, [w_KHAROSHTHI;w_LETTER;w_TTA]);
  (0x10a1b, [w_KHAROSHTHI;w_LETTER;w_TTHA]);
  (0x10a1c, [w_KHAROSHTHI;w_LETTER;w_DDA]);
  (0x10a1d, [w_KHAROSHTHI;w_LETTER;w_DDHA]);
  (0x10a1e, [w_KHAROSHTHI;w_LETTER;w_NNA]);
  (0x10a1f, [w_KHAROSHTHI;w_LETTER;w_TA]);
  (0x10a20, [w_KHAROSHTHI;w_LETTER;w_THA]);
  (0x10a21, [w_KHAROSHTHI;w_LETTER;w_DA]);
  (0x10a22, [w_KHAROSHTHI;w_LETTER;w_DHA]);
  (0x10a23, [w_KHAROSHTHI;w_LETTER;w_NA]);
  (0x10a24, [w_KHAROSHTHI;w_LETTER;w_PA]);
  (0x10a25, [w_KHAROSHTHI;w_LETTER;w_PHA]);
  (0x10a26, [w_KHAROSHTHI;w_LETTER;w_BA]);
  (0x10a27, [w_KHAROSHTHI;w_LETTER;w_BHA]);
  (0x10a28, [w_KHAROSHTHI;w_LETTER;w_MA]);
  (0x10a29, [w_KHAROSHTHI;w_LETTER;w_YA]);
  (0x10a2a, [w_KHAROSHTHI;w_LETTER;w_RA]);
  (0x10a2b, [w_KHAROSHTHI;w_LETTER;w_LA]);
  (0x10a2c, [w_KHAROSHTHI;w_LETTER;w_VA]);
  (0x10a2d, [w_KHAROSHTHI;w_LETTER;w_SHA]);
  (0x10a2e, [w_KHAROSHTHI;w_LETTER;w_SSA]);
  (0x10a2f, [w_KHAROSHTHI;w_LETTER;w_SA]);
  (0x10a30, [w_KHAROSHTHI;w_LETTER;w_ZA]);
  (0x10a31, [w_KHAROSHTHI;w_LETTER;w_HA]);
  (0x10a32, [w_KHAROSHTHI;w_LETTER;w_KKA]);
  (0x10a33, [w_KHAROSHTHI;w_LETTER;w_TTTHA]);
  (0x10a38, [w_KHAROSHTHI;w_SIGN;w_BAR;w_ABOVE]);
  (0x10a39, [w_KHAROSHTHI;w_SIGN;w_CAUDA]);
  (0x10a3a, [w_KHAROSHTHI;w_SIGN;w_DOT;w_BELOW]);
  (0x10a3f, [w_KHAROSHTHI;w_VIRAMA]);
  (0x10a40, [w_KHAROSHTHI;w_DIGIT;w_ONE]);
  (0x10a41, [w_KHAROSHTHI;w_DIGIT;w_TWO]);
  (0x10a42, [w_KHAROSHTHI;w_DIGIT;w_THREE]);
  (0x10a43, [w_KHAROSHTHI;w_DIGIT;w_FOUR]);
  (0x10a44, [w_KHAROSHTHI;w_NUMBER;w_TEN]);
  (0x10a45, [w_KHAROSHTHI;w_NUMBER;w_TWENTY]);
  (0x10a46, [w_KHAROSHTHI;w_NUMBER;w_ONE;w_HUNDRED]);
  (0x10a47, [w_KHAROSHTHI;w_NUMBER;w_ONE;w_THOUSAND]);
  (0x10a50, [w_KHAROSHTHI;w_PUNCTUATION;w_DOT]);
  (0x10a51, [w_KHAROSHTHI;w_PUNCTUATION;w_SMALL;w_CIRCLE]);
  (0x10a52, [w_KHAROSHTHI;w_PUNCTUATION;w_CIRCLE]);
  (0x10a53, [w_KHAROSHTHI;w_PUNCTUATION;w_CRESCENT;w_BAR]);
  (0x10a54, [w_KHAROSHTHI;w_PUNCTUATION;w_MANGALAM]);
  (0x10a55, [w_KHAROSHTHI;w_PUNCTUATION;w_LOTUS]);
  (0x10a56, [w_KHAROSHTHI;w_PUNCTUATION;w_DANDA]);
  (0x10a57, [w_KHAROSHTHI;w_PUNCTUATION;w_DOUBLE;w_DANDA]);
  (0x10a58, [w_KHAROSHTHI;w_PUNCTUATION;w_LINES]);
  (0x10a60, [w_OLD;w_SOUTH;w_ARABIAN;w_LETTER;w_HE]);
  (0x10a61, [w_OLD;w_SOUTH;w_ARABIAN;w_LETTER;w_LAMEDH]);
  (0x10a62, [w_OLD;w_SOUTH;w_ARABIAN;w_LETTER;w_HETH]);
  (0x10a63, [w_OLD;w_SOUTH;w_ARABIAN;w_LETTER;w_MEM]);
  (0x10a64, [w_OLD;w_SOUTH;w_ARABIAN;w_LETTER;w_QOPH]);
  (0x10a65, [w_OLD;w_SOUTH;w_ARABIAN;w_LETTER;w_WAW]);
  (0x10a66, [w_OLD;w_SOUTH;w_ARABIAN;w_LETTER;w_SHIN]);
  (0x10a67, [w_OLD;w_SOUTH;w_ARABIAN;w_LETTER;w_RESH]);
  (0x10a68, [w_OLD;w_SOUTH;w_ARABIAN;w_LETTER;w_BETH]);
  (0x10a69, [w_OLD;w_SOUTH;w_ARABIAN;w_LETTER;w_TAW]);
  (0x10a6a, [w_OLD;w_SOUTH;w_ARABIAN;w_LETTER;w_SAT]);
  (0x10a6b, [w_OLD;w_SOUTH;w_ARABIAN;w_LETTER;w_KAPH]);
  (0x10a6c, [w_OLD;w_SOUTH;w_ARABIAN;w_LETTER;w_NUN]);
  (0x10a6d, [w_OLD;w_SOUTH;w_ARABIAN;w_LETTER;w_KHETH]);
  (0x10a6e, [w_OLD;w_SOUTH;w_ARABIAN;w_LETTER;w_SADHE]);
  (0x10a6f, [w_OLD;w_SOUTH;w_ARABIAN;w_LETTER;w_SAMEKH]);
  (0x10a70, [w_OLD;w_SOUTH;w_ARABIAN;w_LETTER;w_FE]);
  (0x10a71, [w_OLD;w_SOUTH;w_ARABIAN;w_LETTER;w_ALEF]);
  (0x10a72, [w_OLD;w_SOUTH;w_ARABIAN;w_LETTER;w_AYN]);
  (0x10a73, [w_OLD;w_SOUTH;w_ARABIAN;w_LETTER;w_DHADHE]);
  (0x10a74, [w_OLD;w_SOUTH;w_ARABIAN;w_LETTER;w_GIMEL]);
  (0x10a75, [w_OLD;w_SOUTH;w_ARABIAN;w_LETTER;w_DALETH]);
  (0x10a76, [w_OLD;w_SOUTH;w_ARABIAN;w_LETTER;w_GHAYN]);
  (0x10a77, [w_OLD;w_SOUTH;w_ARABIAN;w_LETTER;w_TETH]);
  (0x10a78, [w_OLD;w_SOUTH;w_ARABIAN;w_LETTER;w_ZAYN]);
  (0x10a79, [w_OLD;w_SOUTH;w_ARABIAN;w_LETTER;w_DHALETH]);
  (0x10a7a, [w_OLD;w_SOUTH;w_ARABIAN;w_LETTER;w_YODH]);
  (0x10a7b, [w_OLD;w_SOUTH;w_ARABIAN;w_LETTER;w_THAW]);
  (0x10a7c, [w_OLD;w_SOUTH;w_ARABIAN;w_LETTER;w_THETH]);
  (0x10a7d, [w_OLD;w_SOUTH;w_ARABIAN;w_NUMBER;w_ONE]);
  (0x10a7e, [w_OLD;w_SOUTH;w_ARABIAN;w_NUMBER;w_FIFTY]);
  (0x10a7f, [w_OLD;w_SOUTH;w_ARABIAN;w_NUMERIC;w_INDICATOR]);
  (0x10a80, [w_OLD;w_NORTH;w_ARABIAN;w_LETTER;w_HEH]);
  (0x10a81, [w_OLD;w_NORTH;w_ARABIAN;w_LETTER;w_LAM]);
  (0x10a82, [w_OLD;w_NORTH;w_ARABIAN;w_LETTER;w_HAH]);
  (0x10a83, [w_OLD;w_NORTH;w_ARABIAN;w_LETTER;w_MEEM]);
  (0x10a84, [w_OLD;w_NORTH;w_ARABIAN;w_LETTER;w_QAF]);
  (0x10a85, [w_OLD;w_NORTH;w_ARABIAN;w_LETTER;w_WAW]);
  (0x10a86, [w_OLD;w_NORTH;w_ARABIAN;w_LETTER;w_ES_2]);
  (0x10a87, [w_OLD;w_NORTH;w_ARABIAN;w_LETTER;w_REH]);
  (0x10a88, [w_OLD;w_NORTH;w_ARABIAN;w_LETTER;w_BEH]);
  (0x10a89, [w_OLD;w_NORTH;w_ARABIAN;w_LETTER;w_TEH]);
  (0x10a8a, [w_OLD;w_NORTH;w_ARABIAN;w_LETTER;w_ES_1]);
  (0x10a8b, [w_OLD;w_NORTH;w_ARABIAN;w_LETTER;w_KAF]);
  (0x10a8c, [w_OLD;w_NORTH;w_ARABIAN;w_LETTER;w_NOON]);
  (0x10a8d, [w_OLD;w_NORTH;w_ARABIAN;w_LETTER;w_KHAH]);
  (0x10a8e, [w_OLD;w_NORTH;w_ARABIAN;w_LETTER;w_SAD]);
  (0x10a8f, [w_OLD;w_NORTH;w_ARABIAN;w_LETTER;w_ES_3]);
  (0x10a90, [w_OLD;w_NORTH;w_ARABIAN;w_LETTER;w_FEH]);
  (0x10a91, [w_OLD;w_NORTH;w_ARABIAN;w_LETTER;w_ALEF]);
  (0x10a92, [w_OLD;w_NORTH;w_ARABIAN;w_LETTER;w_AIN]);
  (0x10a93, [w_OLD;w_NORTH;w_ARABIAN;w_LETTER;w_DAD]);
  (0x10a94, [w_OLD;w_NORTH;w_ARABIAN;w_LETTER;w_GEEM]);
  (0x10a95, [w_OLD;w_NORTH;w_ARABIAN;w_LETTER;w_DAL]);
  (0x10a96, [w_OLD;w_NORTH;w_ARABIAN;w_LETTER;w_GHAIN]);
  (0x10a97, [w_OLD;w_NORTH;w_ARABIAN;w_LETTER;w_TAH]);
  (0x10a98, [w_OLD;w_NORTH;w_ARABIAN;w_LETTER;w_ZAIN]);
  (0x10a99, [w_OLD;w_NORTH;w_ARABIAN;w_LETTER;w_THAL]);
  (0x10a9a, [w_OLD;w_NORTH;w_ARABIAN;w_LETTER;w_YEH]);
  (0x10a9b, [w_OLD;w_NORTH;w_ARABIAN;w_LETTER;w_THEH]);
  (0x10a9c, [w_OLD;w_NORTH;w_ARABIAN;w_LETTER;w_ZAH]);
  (0x10a9d, [w_OLD;w_NORTH;w_ARABIAN;w_NUMBER;w_ONE]);
  (0x10a9e, [w_OLD;w_NORTH;w_ARABIAN;w_NUMBER;w_TEN]);
  (0x10a9f, [w_OLD;w_NORTH;w_ARABIAN;w_NUMBER;w_TWENTY]);
  (0x10ac0, [w_MANICHAEAN;w_LETTER;w_ALEPH]);
  (0x10ac1, [w_MANICHAEAN;w_LETTER;w_BETH]);
  (0x10ac2, [w_MANICHAEAN;w_LETTER;w_BHETH]);
  (0x10ac3, [w_MANICHAEAN;w_LETTER;w_GIMEL]);
  (0x10ac4, [w_MANICHAEAN;w_LETTER;w_GHIMEL]);
  (0x10ac5, [w_MANICHAEAN;w_LETTER;w_DALETH]);
  (0x10ac6, [w_MANICHAEAN;w_LETTER;w_HE]);
  (0x10ac7, [w_MANICHAEAN;w_LETTER;w_WAW]);
  (0x10ac8, [w_MANICHAEAN;w_SIGN;w_UD]);
  (0x10ac9, [w_MANICHAEAN;w_LETTER;w_ZAYIN]);
  (0x10aca, [w_MANICHAEAN;w_LETTER;w_ZHAYIN]);
  (0x10acb, [w_MANICHAEAN;w_LETTER;w_JAYIN]);
  (0x10acc, [w_MANICHAEAN;w_LETTER;w_JHAYIN]);
  (0x10acd, [w_MANICHAEAN;w_LETTER;w_HETH]);
  (0x10ace, [w_MANICHAEAN;w_LETTER;w_TETH]);
  (0x10acf, [w_MANICHAEAN;w_LETTER;w_YODH]);
  (0x10ad0, [w_MANICHAEAN;w_LETTER;w_KAPH]);
  (0x10ad1, [w_MANICHAEAN;w_LETTER;w_XAPH]);
  (0x10ad2, [w_MANICHAEAN;w_LETTER;w_KHAPH]);
  (0x10ad3, [w_MANICHAEAN;w_LETTER;w_LAMEDH]);
  (0x10ad4, [w_MANICHAEAN;w_LETTER;w_DHAMEDH]);
  (0x10ad5, [w_MANICHAEAN;w_LETTER;w_THAMEDH]);
  (0x10ad6, [w_MANICHAEAN;w_LETTER;w_MEM]);
  (0x10ad7, [w_MANICHAEAN;w_LETTER;w_NUN]);
  (0x10ad8, [w_MANICHAEAN;w_LETTER;w_SAMEKH]);
  (0x10ad9, [w_MANICHAEAN;w_LETTER;w_AYIN]);
  (0x10ada, [w_MANICHAEAN;w_LETTER;w_AAYIN]);
  (0x10adb, [w_MANICHAEAN;w_LETTER;w_PE]);
  (0x10adc, [w_MANICHAEAN;w_LETTER;w_FE])].

Definition NAMES_46 : list (N * (list str)) := [
  (0x10add, [w_MANICHAEAN;w_LETTER;w_SADHE]);
  (0x10ade, [w_MANICHAEAN;w_LETTER;w_QOPH]);
  (0x10adf, [w_MANICHAEAN;w_LETTER;w_XOPH]);
  (0x10ae0, [w_MANICHAEAN;w_LETTER;w_QHOPH]);
  (0x10ae1, [w_MANICHAEAN;w_LETTER;w_RESH]);
  (0x10ae2, [w_MANICHAEAN;w_LETTER;w_SHIN]);
  (0x10ae3, [w_MANICHAEAN;w_LETTER;w_SSHIN]);
  (0x10ae4, [w_MANICHAEAN;w_LETTER;w_TAW]);
  (0x10ae5, [w_MANICHAEAN;w_ABBREVIATION;w_MARK;w_ABOVE]);
  (0x10ae6, [w_MANICHAEAN;w_ABBREVIATION;w_MARK;w_BELOW]);
  (0x10aeb, [w_MANICHAEAN;w_NUMBER;w_ONE]);
  (0x10aec, [w_MANICHAEAN;w_NUMBER;w_FIVE]);
  (0x10aed, [w_MANICHAEAN;w_NUMBER;w_TEN]);
  (0x10aee, [w_MANICHAEAN;w_NUMBER;w_TWENTY]);
  (0x10aef, [w_MANICHAEAN;w_NUMBER;w_ONE;w_HUNDRED]);
  (0x10af0, [w_MANICHAEAN;w_PUNCTUATION;w_STAR]);
  (0x10af1, [w_MANICHAEAN;w_PUNCTUATION;w_FLEURON]);
  (0x10af2, [w_MANICHAEAN;w_PUNCTUATION;w_DOUBLE;w_DOT;w_WITHIN;w_DOT]);
  (0x10af3, [w_MANICHAEAN;w_PUNCTUATION;w_DOT;w_WITHIN;w_DOT]);
  (0x10af4, [w_MANICHAEAN;w_PUNCTUATION;w_DOT]);
  (0x10af5, [w_MANICHAEAN;w_PUNCTUATION;w_TWO;w_DOTS]);
  (0x10af6, [w_MANICHAEAN;w_PUNCTUATION;w_LINE;w_FILLER]);
  (0x10b00, [w_AVESTAN;w_LETTER;w_A]);
  (0x10b01, [w_AVESTAN;w_LETTER;w_AA]);
  (0x10b02, [w_AVESTAN;w_LETTER;w_AO]);
  (0x10b03, [w_AVESTAN;w_LETTER;w_AAO]);
  (0x10b04, [w_AVESTAN;w_LETTER;w_AN]);
  (0x10b05, [w_AVESTAN;w_LETTER;w_AAN]);
  (0x10b06, [w_AVESTAN;w_LETTER;w_AE]);
  (0x10b07, [w_AVESTAN;w_LETTER;w_AEE]);
  (0x10b08, [w_AVESTAN;w_LETTER;w_E]);
  (0x10b09, [w_AVESTAN;w_LETTER;w_EE]);
  (0x10b0a, [w_AVESTAN;w_LETTER;w_O]);
  (0x10b0b, [w_AVESTAN;w_LETTER;w_OO]);
  (0x10b0c, [w_AVESTAN;w_LETTER;w_I]);
  (0x10b0d, [w_AVESTAN;w_LETTER;w_II]);
  (0x10b0e, [w_AVESTAN;w_LETTER;w_U]);
  (0x10b0f, [w_AVESTAN;w_LETTER;w_UU]);
  (0x10b10, [w_AVESTAN;w_LETTER;w_KE]);
  (0x10b11, [w_AVESTAN;w_LETTER;w_XE]);
  (0x10b12, [w_AVESTAN;w_LETTER;w_XYE]);
  (0x10b13, [w_AVESTAN;w_LETTER;w_XVE]);
  (0x10b14, [w_AVESTAN;w_LETTER;w_GE]);
  (0x10b15, [w_AVESTAN;w_LETTER;w_GGE]);
  (0x10b16, [w_AVESTAN;w_LETTER;w_GHE]);
  (0x10b17, [w_AVESTAN;w_LETTER;w_CE]);
  (0x10b18, [w_AVESTAN;w_LETTER;w_JE]);
  (0x10b19, [w_AVESTAN;w_LETTER;w_TE]);
  (0x10b1a, [w_AVESTAN;w_LETTER;w_THE]);
  (0x10b1b, [w_AVESTAN;w_LETTER;w_DE]);
  (0x10b1c, [w_AVESTAN;w_LETTER;w_DHE]);
  (0x10b1d, [w_AVESTAN;w_LETTER;w_TTE]);
  (0x10b1e, [w_AVESTAN;w_LETTER;w_PE]);
  (0x10b1f, [w_AVESTAN;w_LETTER;w_FE]);
  (0x10b20, [w_AVESTAN;w_LETTER;w_BE]);
  (0x10b21, [w_AVESTAN;w_LETTER;w_BHE]);
  (0x10b22, [w_AVESTAN;w_LETTER;w_NGE]);
  (0x10b23, [w_AVESTAN;w_LETTER;w_NGYE]);
  (0x10b24, [w_AVESTAN;w_LETTER;w_NGVE]);
  (0x10b25, [w_AVESTAN;w_LETTER;w_NE]);
  (0x10b26, [w_AVESTAN;w_LETTER;w_NYE]);
  (0x10b27, [w_AVESTAN;w_LETTER;w_NNE]);
  (0x10b28, [w_AVESTAN;w_LETTER;w_ME]);
  (0x10b29, [w_AVESTAN;w_LETTER;w_HME]);
  (0x10b2a, [w_AVESTAN;w_LETTER;w_YYE]);
  (0x10b2b, [w_AVESTAN;w_LETTER;w_YE]);
  (0x10b2c, [w_AVESTAN;w_LETTER;w_VE]);
  (0x10b2d, [w_AVESTAN;w_LETTER;w_RE]);
  (0x10b2e, [w_AVESTAN;w_LETTER;w_LE]);
  (0x10b2f, [w_AVESTAN;w_LETTER;w_SE]);
  (0x10b30, [w_AVESTAN;w_LETTER;w_ZE]);
  (0x10b31, [w_AVESTAN;w_LETTER;w_SHE]);
  (0x10b32, [w_AVESTAN;w_LETTER;w_ZHE]);
  (0x10b33, [w_AVESTAN;w_LETTER;w_SHYE]);
  (0x10b34, [w_AVESTAN;w_LETTER;w_SSHE]);
  (0x10b35, [w_AVESTAN;w_LETTER;w_HE]);
  (0x10b39, [w_AVESTAN;w_ABBREVIATION;w_MARK]);
  (0x10b3a, [w_TINY;w_TWO;w_DOTS;w_OVER;w_ONE;w_DOT;w_PUNCTUATION]);
  (0x10b3b, [w_SMALL;w_TWO;w_DOTS;w_OVER;w_ONE;w_DOT;w_PUNCTUATION]);
  (0x10b3c, [w_LARGE;w_TWO;w_DOTS;w_OVER;w_ONE;w_DOT;w_PUNCTUATION]);
  (0x10b3d, [w_LARGE;w_ONE;w_DOT;w_OVER;w_TWO;w_DOTS;w_PUNCTUATION]);
  (0x10b3e, [w_LARGE;w_TWO;w_RINGS;w_OVER;w_ONE;w_RING;w_PUNCTUATION]);
  (0x10b3f, [w_LARGE;w_ONE;w_RING;w_OVER;w_TWO;w_RINGS;w_PUNCTUATION]);
  (0x10b40, [w_INSCRIPTIONAL;w_PARTHIAN;w_LETTER;w_ALEPH]);
  (0x10b41, [w_INSCRIPTIONAL;w_PARTHIAN;w_LETTER;w_BETH]);
  (0x10b42, [w_INSCRIPTIONAL;w_PARTHIAN;w_LETTER;w_GIMEL]);
  (0x10b43, [w_INSCRIPTIONAL;w_PARTHIAN;w_LETTER;w_DALETH]);
  (0x10b44, [w_INSCRIPTIONAL;w_PARTHIAN;w_LETTER;w_HE]);
  (0x10b45, [w_INSCRIPTIONAL;w_PARTHIAN;w_LETTER;w_WAW]);
  (0x10b46, [w_INSCRIPTIONAL;w_PARTHIAN;w_LETTER;w_ZAYIN]);
  (0x10b47, [w_INSCRIPTIONAL;w_PARTHIAN;w_LETTER;w_HETH]);
  (0x10b48, [w_INSCRIPTIONAL;w_PARTHIAN;w_LETTER;w_TETH]);
  (0x10b49, [w_INSCRIPTIONAL;w_PARTHIAN;w_LETTER;w_YODH]);
  (0x10b4a, [w_INSCRIPTIONAL;w_PARTHIAN;w_LETTER;w_KAPH]);
  (0x10b4b, [w_INSCRIPTIONAL;w_PARTHIAN;w_LETTER;w_LAMEDH]);
  (0x10b4c, [w_INSCRIPTIONAL;w_PARTHIAN;w_LETTER;w_MEM]);
  (0x10b4d, [w_INSCRIPTIONAL;w_PARTHIAN;w_LETTER;w_NUN]);
  (0x10b4e, [w_INSCRIPTIONAL;w_PARTHIAN;w_LETTER;w_SAMEKH]);
  (0x10b4f, [w_INSCRIPTIONAL;w_PARTHIAN;w_LETTER;w_AYIN]);
  (0x10b50, [w_INSCRIPTIONAL;w_PARTHIAN;w_LETTER;w_PE]);
  (0x10b51, [w_INSCRIPTIONAL;w_PARTHIAN;w_LETTER;w_SADHE]);
  (0x10b52, [w_INSCRIPTIONAL;w_PARTHIAN;w_LETTER;w_QOPH]);
  (0x10b53, [w_INSCRIPTIONAL;w_PARTHIAN;w_LETTER;w_RESH]);
  (0x10b54, [w_INSCRIPTIONAL;w_PARTHIAN;w_LETTER;w_SHIN]);
  (0x10b55, [w_INSCRIPTIONAL;w_PARTHIAN;w_LETTER;w_TAW]);
  (0x10b58, [w_INSCRIPTIONAL;w_PARTHIAN;w_NUMBER;w_ONE]);
  (0x10b59, [w_INSCRIPTIONAL;w_PARTHIAN;w_NUMBER;w_TWO]);
  (0x10b5a, [w_INSCRIPTIONAL;w_PARTHIAN;w_NUMBER;w_THREE]);
  (0x10b5b, [w_INSCRIPTIONAL;w_PARTHIAN;w_NUMBER;w_FOUR]);
  (0x10b5c, [w_INSCRIPTIONAL;w_PARTHIAN;w_NUMBER;w_TEN]);
  (0x10b5d, [w_INSCRIPTIONAL;w_PARTHIAN;w_NUMBER;w_TWENTY]);
  (0x10b5e, [w_INSCRIPTIONAL;w_PARTHIAN;w_NUMBER;w_ONE;w_HUNDRED]);
  (0x10b5f, [w_INSCRIPTIONAL;w_PARTHIAN;w_NUMBER;w_ONE;w_THOUSAND]);
  (0x10b60, [w_INSCRIPTIONAL;w_PAHLAVI;w_LETTER;w_ALEPH]);
  (0x10b61, [w_INSCRIPTIONAL;w_PAHLAVI;w_LETTER;w_BETH]);
  (0x10b62, [w_INSCRIPTIONAL;w_PAHLAVI;w_LETTER;w_GIMEL]);
  (0x10b63, [w_INSCRIPTIONAL;w_PAHLAVI;w_LETTER;w_DALETH]);
  (0x10b64, [w_INSCRIPTIONAL;w_PAHLAVI;w_LETTER;w_HE]);
  (0x10b65, [w_INSCRIPTIONAL;w_PAHLAVI;w_LETTER;w_WAW_AYIN_RESH]);
  (0x10b66, [w_INSCRIPTIONAL;w_PAHLAVI;w_LETTER;w_ZAYIN]);
  (0x10b67, [w_INSCRIPTIONAL;w_PAHLAVI;w_LETTER;w_HETH]);
  (0x10b68, [w_INSCRIPTIONAL;w_PAHLAVI;w_LETTER;w_TETH]);
  (0x10b69, [w_INSCRIPTIONAL;w_PAHLAVI;w_LETTER;w_YODH]);
  (0x10b6a, [w_INSCRIPTIONAL;w_PAHLAVI;w_LETTER;w_KAPH]);
  (0x10b6b, [w_INSCRIPTIONAL;w_PAHLAVI;w_LETTER;w_LAMEDH]);
  (0x10b6c, [w_INSCRIPTIONAL;w_PAHLAVI;w_LETTER;w_MEM_QOPH]);
  (0x10b6d, [w_INSCRIPTIONAL;w_PAHLAVI;w_LETTER;w_NUN]);
  (0x10b6e, [w_INSCRIPTIONAL;w_PAHLAVI;w_LETTER;w_SAMEKH]);
  (0x10b6f, [w_INSCRIPTIONAL;w_PAHLAVI;w_LETTER;w_PE]);
  (0x10b70, [w_INSCRIPTIONAL;w_PAHLAVI;w_LETTER;w_SADHE]);
  (0x10b71, [w_INSCRIPTIONAL;w_PAHLAVI;w_LETTER;w_SHIN]);
  (0x10b72, [w_INSCRIPTIONAL;w_PAHLAVI;w_LETTER;w_TAW]);
  (0x10b78, [w_INSCRIPTIONAL;w_PAHLAVI;w_NUMBER;w_ONE]);
  (0x10b79, [w_INSCRIPTIONAL;w_PAHLAVI;w_NUMBER;w_TWO]);
  (0x10b7a, [w_INSCRIPTIONAL;w_PAHLAVI;w_NUMBER;w_THREE]);
  (0x10b7b, [w_INSCRIPTIONAL;w_PAHLAVI;w_NUMBER;w_FOUR]);
  (0x10b7c, [w_INSCRIPTIONAL;w_PAHLAVI;w_NUMBER;w_TEN]);
  (0x10b7d, [w_INSCRIPTIONAL;w_PAHLAVI;w_NUMBER;w_TWENTY]);
  (0x10b7e, [w_INSCRIPTIONAL;w_PAHLAVI;w_NUMBER;w_ONE;w_HUNDRED]);
  (0x10b7f, [w_INSCRIPTIONAL;w_PAHLAVI;w_NUMBER;w_ONE;w_THOUSAND]);
  (0x10b80, [w_PSALTER;w_PAHLAVI;w_LETTER;w_ALEPH]);
  (0x10b81, [w_PSALTER;w_PAHLAVI;w_LETTER;w_BETH]);
  (0x10b82, [w_PSALTER;w_PAHLAVI;w_LETTER;w_GIMEL]);
  (0x10b83, [w_PSALTER;w_PAHLAVI;w_LETTER;w_DALETH]);
  (0x10b84, [w_PSALTER;w_PAHLAVI;w_LETTER;w_HE]);
  (0x10b85, [w_PSALTER;w_PAHLAVI;w_LETTER;w_WAW_AYIN_RESH]);
  (0x10b86, [w_PSALTER;w_PAHLAVI;w_LETTER;w_ZAYIN]);
  (0x10b87, [w_PSALTER;w_PAHLAVI;w_LETTER;w_HETH]);
  (0x10b88, [w_PSALTER;w_PAHLAVI;w_LETTER;w_YODH]);
  (0x10b89, [w_PSALTER;w_PAHLAVI;w_LETTER;w_KAPH]);
  (0x10b8a, [w_PSALTER;w_PAHLAVI;w_LETTER;w_LAMEDH]);
  (0x10b8b, [w_PSALTER;w_PAHLAVI;w_LETTER;w_MEM_QOPH]);
  (0x10b8c, [w_PSALTER;w_PAHLAVI;w_LETTER;w_NUN]);
  (0x10b8d, [w_PSALTER;w_PAHLAVI;w_LETTER;w_SAMEKH]);
  (0x10b8e, [w_PSALTER;w_PAHLAVI;w_LETTER;w_PE]);
  (0x10b8f, [w_PSALTER;w_PAHLAVI;w_LETTER;w_SADHE]);
  (0x10b90, [w_PSALTER;w_PAHLAVI;w_LETTER;w_SHIN]);
  (0x10b91, [w_PSALTER;w_PAHLAVI;w_LETTER;w_TAW]);
  (0x10b99, [w_PSALTER;w_PAHLAVI;w_SECTION;w_MARK]);
  (0x10b9a, [w_PSALTER;w_PAHLAVI;w_TURNED;w_SECTION;w_MARK]);
  (0x10b9b, [w_PSALTER;w_PAHLAVI;w_FOUR;w_DOTS;w_WITH;w_CROSS]);
  (0x10b9c, [w_PSALTER;w_PAHLAVI;w_FOUR;w_DOTS;w_WITH;w_DOT]);
  (0x10ba9, [w_PSALTER;w_PAHLAVI;w_NUMBER;w_ONE]);
  (0x10baa, [w_PSALTER;w_PAHLAVI;w_NUMBER;w_TWO]);
  (0x10bab, [w_PSALTER;w_PAHLAVI;w_NUMBER;w_THREE]);
  (0x10bac, [w_PSALTER;w_PAHLAVI;w_NUMBER;w_FOUR]);
  (0x10bad, [w_PSALTER;w_PAHLAVI;w_NUMBER;w_TEN]);
  (0x10bae, [w_PSALTER;w_PAHLAVI;w_NUMBER;w_TWENTY]);
  (0x10baf, [w_PSALTER;w_PAHLAVI;w_NUMBER;w_ONE;w_HUNDRED]);
  (0x10c00, [w_OLD;w_TURKIC;w_LETTER;w_ORKHON;w_A]);
  (0x10c01, [w_OLD;w_TURKIC;w_LETTER;w_YENISEI;w_A]);
  (0x10c02, [w_OLD;w_TURKIC;w_LETTER;w_YENISEI;w_AE]);
  (0x10c03, [w_OLD;w_TURKIC;w_LETTER;w_ORKHON;w_I]);
  (0x10c04, [w_OLD;w_TURKIC;w_LETTER;w_YENISEI;w_I]);
  (0x10c05, [w_OLD;w_TURKIC;w_LETTER;w_YENISEI;w_E]);
  (0x10c06, [w_OLD;w_TURKIC;w_LETTER;w_ORKHON;w_O]);
  (0x10c07, [w_OLD;w_TURKIC;w_LETTER;w_ORKHON;w_OE]);
  (0x10c08, [w_OLD;w_TURKIC;w_LETTER;w_YENISEI;w_OE]);
  (0x10c09, [w_OLD;w_TURKIC;w_LETTER;w_ORKHON;w_AB]);
  (0x10c0a, [w_OLD;w_TURKIC;w_LETTER;w_YENISEI;w_AB]);
  (0x10c0b, [w_OLD;w_TURKIC;w_LETTER;w_ORKHON;w_AEB]);
  (0x10c0c, [w_OLD;w_TURKIC;w_LETTER;w_YENISEI;w_AEB]);
  (0x10c0d, [w_OLD;w_TURKIC;w_LETTER;w_ORKHON;w_AG]);
  (0x10c0e, [w_OLD;w_TURKIC;w_LETTER;w_YENISEI;w_AG]);
  (0x10c0f, [w_OLD;w_TURKIC;w_LETTER;w_ORKHON;w_AEG]);
  (0x10c10, [w_OLD;w_TURKIC;w_LETTER;w_YENISEI;w_AEG]);
  (0x10c11, [w_OLD;w_TURKIC;w_LETTER;w_ORKHON;w_AD]);
  (0x10c12, [w_OLD;w_TURKIC;w_LETTER;w_YENISEI;w_AD]);
  (0x10c13, [w_OLD;w_TURKIC;w_LETTER;w_ORKHON;w_AED]);
  (0x10c14, [w_OLD;w_TURKIC;w_LETTER;w_ORKHON;w_EZ]);
  (0x10c15, [w_OLD;w_TURKIC;w_LETTER;w_YENISEI;w_EZ]);
  (0x10c16, [w_OLD;w_TURKIC;w_LETTER;w_ORKHON;w_AY]);
  (0x10c17, [w_OLD;w_TURKIC;w_LETTER;w_YENISEI;w_AY]);
  (0x10c18, [w_OLD;w_TURKIC;w_LETTER;w_ORKHON;w_AEY]);
  (0x10c19, [w_OLD;w_TURKIC;w_LETTER;w_YENISEI;w_AEY]);
  (0x10c1a, [w_OLD;w_TURKIC;w_LETTER;w_ORKHON;w_AEK]);
  (0x10c1b, [w_OLD;w_TURKIC;w_LETTER;w_YENISEI;w_AEK]);
  (0x10c1c, [w_OLD;w_TURKIC;w_LETTER;w_ORKHON;w_OEK]);
  (0x10c1d, [w_OLD;w_TURKIC;w_LETTER;w_YENISEI;w_OEK]);
  (0x10c1e, [w_OLD;w_TURKIC;w_LETTER;w_ORKHON;w_AL]);
  (0x10c1f, [w_OLD;w_TURKIC;w_LETTER;w_YENISEI;w_AL]);
  (0x10c20, [w_OLD;w_TURKIC;w_LETTER;w_ORKHON;w_AEL]);
  (0x10c21, [w_OLD;w_TURKIC;w_LETTER;w_ORKHON;w_ELT]);
  (0x10c22, [w_OLD;w_TURKIC;w_LETTER;w_ORKHON;w_EM]);
  (0x10c23, [w_OLD;w_TURKIC;w_LETTER;w_ORKHON;w_AN]);
  (0x10c24, [w_OLD;w_TURKIC;w_LETTER;w_ORKHON;w_AEN]);
  (0x10c25, [w_OLD;w_TURKIC;w_LETTER;w_YENISEI;w_AEN]);
  (0x10c26, [w_OLD;w_TURKIC;w_LETTER;w_ORKHON;w_ENT]);
  (0x10c27, [w_OLD;w_TURKIC;w_LETTER;w_YENISEI;w_ENT]);
  (0x10c28, [w_OLD;w_TURKIC;w_LETTER;w_ORKHON;w_ENC]);
  (0x10c29, [w_OLD;w_TURKIC;w_LETTER;w_YENISEI;w_ENC]);
  (0x10c2a, [w_OLD;w_TURKIC;w_LETTER;w_ORKHON;w_ENY]);
  (0x10c2b, [w_OLD;w_TURKIC;w_LETTER;w_YENISEI;w_ENY]);
  (0x10c2c, [w_OLD;w_TURKIC;w_LETTER;w_YENISEI;w_ANG]);
  (0x10c2d, [w_OLD;w_TURKIC;w_LETTER;w_ORKHON;w_ENG]);
  (0x10c2e, [w_OLD;w_TURKIC;w_LETTER;w_YENISEI;w_AENG]);
  (0x10c2f, [w_OLD;w_TURKIC;w_LETTER;w_ORKHON;w_EP]);
  (0x10c30, [w_OLD;w_TURKIC;w_LETTER;w_ORKHON;w_OP]);
  (0x10c31, [w_OLD;w_TURKIC;w_LETTER;w_ORKHON;w_IC]);
  (0x10c32, [w_OLD;w_TURKIC;w_LETTER;w_ORKHON;w_EC]);
  (0x10c33, [w_OLD;w_TURKIC;w_LETTER;w_YENISEI;w_EC]);
  (0x10c34, [w_OLD;w_TURKIC;w_LETTER;w_ORKHON;w_AQ]);
  (0x10c35, [w_OLD;w_TURKIC;w_LETTER;w_YENISEI;w_AQ]);
  (0x10c36, [w_OLD;w_TURKIC;w_LETTER;w_ORKHON;w_IQ]);
  (0x10c37, [w_OLD;w_TURKIC;w_LETTER;w_YENISEI;w_IQ]);
  (0x10c38, [w_OLD;w_TURKIC;w_LETTER;w_ORKHON;w_OQ]);
  (0x10c39, [w_OLD;w_TURKIC;w_LETTER;w_YENISEI;w_OQ]);
  (0x10c3a, [w_OLD;w_TURKIC;w_LETTER;w_ORKHON;w_AR]);
  (0x10c3b, [w_OLD;w_TURKIC;w_LETTER;w_YENISEI;w_AR]);
  (0x10c3c, [w_OLD;w_TURKIC;w_LETTER;w_ORKHON;w_AER]);
  (0x10c3d, [w_OLD;w_TURKIC;w_LETTER;w_ORKHON;w_AS]);
  (0x10c3e, [w_OLD;w_TURKIC;w_LETTER;w_ORKHON;w_AES]);
  (0x10c3f, [w_OLD;w_TURKIC;w_LETTER;w_ORKHON;w_ASH]);
  (0x10c40, [w_OLD;w_TURKIC;w_LETTER;w_YENISEI;w_ASH]);
  (0x10c41, [w_OLD;w_TURKIC;w_LETTER;w_ORKHON;w_ESH]);
  (0x10c42, [w_OLD;w_TURKIC;w_LETTER;w_YENISEI;w_ESH]);
  (0x10c43, [w_OLD;w_TURKIC;w_LETTER;w_ORKHON;w_AT]);
  (0x10c44, [w_OLD;w_TURKIC;w_LETTER;w_YENISEI;w_AT]);
  (0x10c45, [w_OLD;w_TURKIC;w_LETTER;w_ORKHON;w_AET]);
  (0x10c46, [w_OLD;w_TURKIC;w_LETTER;w_YENISEI;w_AET]);
  (0x10c47, [w_OLD;w_TURKIC;w_LETTER;w_ORKHON;w_OT]);
  (0x10c48, [w_OLD;w_TURKIC;w_LETTER;w_ORKHON;w_BASH]);
  (0x10c80, [w_OLD;w_HUNGARIAN;w_CAPITAL;w_LETTER;w_A]);
  (0x10c81, [w_OLD;w_HUNGARIAN;w_CAPITAL;w_LETTER;w_AA]);
  (0x10c82, [w_OLD;w_HUNGARIAN;w_CAPITAL;w_LETTER;w_EB]);
  (0x10c83, [w_OLD;w_HUNGARIAN;w_CAPITAL;w_LETTER;w_AMB]);
  (0x10c84, [w_OLD;w_HUNGARIAN;w_CAPITAL;w_LETTER;w_EC]);
  (0x10c85, [w_OLD;w_HUNGARIAN;w_CAPITAL;w_LETTER;w_ENC]);
  (0x10c86, [w_OLD;w_HUNGARIAN;w_CAPITAL;w_LETTER;w_ECS]);
  (0x10c87, [w_OLD;w_HUNGARIAN;w_CAPITAL;w_LETTER;w_ED]);
  (0x10c88, [w_OLD;w_HUNGARIAN;w_CAPITAL;w_LETTER;w_AND]);
  (0x10c89, [w_OLD;w_HUNGARIAN;w_CAPITAL;w_LETTER;w_E]);
  (0x10c8a, [w_OLD;w_HUNGARIAN;w_CAPITAL;w_LETTER;w_CLOSE;w_E]);
  (0x10c8b, [w_OLD;w_HUNGARIAN;w_CAPITAL;w_LETTER;w_EE]);
  (0x10c8c, [w_OLD;w_HUNGARIAN;w_CAPITAL;w_LETTER;w_EF]);
  (0x10c8d, [w_OLD;w_HUNGARIAN;w_CAPITAL;w_LETTER;w_EG]);
  (0x10c8e, [w_OLD;w_HUNGARIAN;w_CAPITAL;w_LETTER;w_EGY]);
  (0x10c8f, [w_OLD;w_HUNGARIAN;w_CAPITAL;w_LETTER;w_EH]);
  (0x10c90, [w_OLD;w_HUNGARIAN;w_CAPITAL;w_LETTER;w_I]);
  (0x10c91, [w_OLD;w_HUNGARIAN;w_CAPITAL;w_LETTER;w_II]);
  (0x10c92, [w_OLD;w_HUNGARIAN;w_CAPITAL;w_LETTER;w_EJ]);
  (0x10c93, [w_OLD;w_HUNGARIAN;w_CAPITAL;w_LETTER;w_EK]);
  (0x10c94, [w_OLD;w_HUNGARIAN;w_CAPITAL;w_LETTER;w_AK]);
  (0x10c95, [w_OLD;w_HUNGARIAN;w_CAPITAL;w_LETTER;w_UNK]);
  (0x10c96, [w_OLD;w_HUNGARIAN;w_CAPITAL;w_LETTER;w_EL]);
  (0x10c97, [w_OLD;w_HUNGARIAN;w_CAPITAL;w_LETTER;w_ELY]);
  (0x10c98, [w_OLD;w_HUNGARIAN;w_CAPITAL;w_LETTER;w_EM]);
  (0x10c99, [w_OLD;w_HUNGARIAN;w_CAPITAL;w_LETTER;w_EN]);
  (0x10c9a, [w_OLD;w_HUNGARIAN;w_CAPITAL;w_LETTER;w_ENY]);
  (0x10c9b, [w_OLD;w_HUNGARIAN;w_CAPITAL;w_LETTER;w_O]);
  (0x10c9c, [w_OLD;w_HUNGARIAN;w_CAPITAL;w_LETTER;w_OO]);
  (0x10c9d, [w_OLD;w_HUNGARIAN;w_CAPITAL;w_LETTER;w_NIKOLSBURG;w_OE]);
  (0x10c9e, [w_OLD;w_HUNGARIAN;w_CAPITAL;w_LETTER;w_RUDIMENTA;w_OE]);
  (0x10c9f, [w_OLD;w_HUNGARIAN;w_CAPITAL;w_LETTER;w_OEE]);
  (0x10ca0, [w_OLD;w_HUNGARIAN;w_CAPITAL;w_LETTER;w_EP]);
  (0x10ca1, [w_OLD;w_HUNGARIAN;w_CAPITAL;w_LETTER;w_EMP]);
  (0x10ca2, [w_OLD;w_HUNGARIAN;w_CAPITAL;w_LETTER;w_ER]);
  (0x10ca3, [w_OLD;w_HUNGARIAN;w_CAPITAL;w_LETTER;w_SHORT;w_ER]);
  (0x10ca4, [w_OLD;w_HUNGARIAN;w_CAPITAL;w_LETTER;w_ES]);
  (0x10ca5, [w_OLD;w_HUNGARIAN;w_CAPITAL;w_LETTER;w_ESZ]);
  (0x10ca6, [w_OLD;w_HUNGARIAN;w_CAPITAL;w_LETTER;w_ET]);
  (0x10ca7, [w_OLD;w_HUNGARIAN;w_CAPITAL;w_LETTER;w_ENT]);
  (0x10ca8, [w_OLD;w_HUNGARIAN;w_CAPITAL;w_LETTER;w_ETY]);
  (0x10ca9, [w_OLD;w_HUNGARIAN;w_CAPITAL;w_LETTER;w_ECH]);
  (0x10caa, [w_OLD;w_HUNGARIAN;w_CAPITAL;w_LETTER;w_U]);
  (0x10cab, [w_OLD;w_HUNGARIAN;w_CAPITAL;w_LETTER;w_UU]);
  (0x10cac, [w_OLD;w_HUNGARIAN;w_CAPITAL;w_LETTER;w_NIKOLSBURG;w_UE]);
  (0x10cad, [w_OLD;w_HUNGARIAN;w_CAPITAL;w_LETTER;w_RUDIMENTA;w_UE]);
  (0x10cae, [w_OLD;w_HUNGARIAN;w_CAPITAL;w_LETTER;w_EV]);
  (0x10caf, [w_OLD;w_HUNGARIAN;w_CAPITAL;w_LETTER;w_EZ]);
  (0x10cb0, [w_OLD;w_HUNGARIAN;w_CAPITAL;w_LETTER;w_EZS]);
  (0x10cb1, [w_OLD;w_HUNGARIAN;w_CAPITAL;w_LETTER;w_ENT_SHAPED;w_SIGN]);
  (0x10cb2, [w_OLD;w_HUNGARIAN;w_CAPITAL;w_LETTER;w_US]);
  (0x10cc0, [w_OLD;w_HUNGARIAN;w_SMALL;w_LETTER;w_A]);
  (0x10cc1, [w_OLD;w_HUNGARIAN;w_SMALL;w_LETTER;w_AA]);
  (0x10cc2, [w_OLD;w_HUNGARIAN;w_SMALL;w_LETTER;w_EB]);
  (0x10cc3, [w_OLD;w_HUNGARIAN;w_SMALL;w_LETTER;w_AMB]);
  (0x10cc4, [w_OLD;w_HUNGARIAN;w_SMALL;w_LETTER;w_EC]);
  (0x10cc5, [w_OLD;w_HUNGARIAN;w_SMALL;w_LETTER;w_ENC]);
  (0x10cc6, [w_OLD;w_HUNGARIAN;w_SMALL;w_LETTER;w_ECS]);
  (0x10cc7, [w_OLD;w_HUNGARIAN;w_SMALL;w_LETTER;w_ED]);
  (0x10cc8, [w_OLD;w_HUNGARIAN;w_SMALL;w_LETTER;w_AND]);
  (0x10cc9, [w_OLD;w_HUNGARIAN;w_SMALL;w_LETTER;w_E]);
  (0x10cca, [w_OLD;w_HUNGARIAN;w_SMALL;w_LETTER;w_CLOSE;w_E]);
  (0x10ccb, [w_OLD;w_HUNGARIAN;w_SMALL;w_LETTER;w_EE]);
  (0x10ccc, [w_OLD;w_HUNGARIAN;w_SMALL;w_LETTER;w_EF]);
  (0x10ccd, [w_OLD;w_HUNGARIAN;w_SMALL;w_LETTER;w_EG]);
  (0x10cce, [w_OLD;w_HUNGARIAN;w_SMALL;w_LETTER;w_EGY]);
  (0x10ccf, [w_OLD;w_HUNGARIAN;w_SMALL;w_LETTER;w_EH]);
  (0x10cd0, [w_OLD;w_HUNGARIAN;w_SMALL;w_LETTER;w_I]);
  (0x10cd1, [w_OLD;w_HUNGARIAN;w_SMALL;w_LETTER;w_II]);
  (0x10cd2, [w_OLD;w_HUNGARIAN;w_SMALL;w_LETTER;w_EJ]);
  (0x10cd3, [w_OLD;w_HUNGARIAN;w_SMALL;w_LETTER;w_EK]);
  (0x10cd4, [w_OLD;w_HUNGARIAN;w_SMALL;w_LETTER;w_AK]);
  (0x10cd5, [w_OLD;w_HUNGARIAN;w_SMALL;w_LETTER;w_UNK]);
  (0x10cd6, [w_OLD;w_HUNGARIAN;w_SMALL;w_LETTER;w_EL]);
  (0x10cd7, [w_OLD;w_HUNGARIAN;w_SMALL;w_LETTER;w_ELY]);
  (0x10cd8, [w_OLD;w_HUNGARIAN;w_SMALL;w_LETTER;w_EM]);
  (0x10cd9, [w_OLD;w_HUNGARIAN;w_SMALL;w_LETTER;w_EN]);
  (0x10cda, [w_OLD;w_HUNGARIAN;w_SMALL;w_LETTER;w_ENY]);
  (0x10cdb, [w_OLD;w_HUNGARIAN;w_SMALL;w_LETTER;w_O]);
  (0x10cdc, [w_OLD;w_HUNGARIAN;w_SMALL;w_LETTER;w_OO]);
  (0x10cdd, [w_OLD;w_HUNGARIAN;w_SMALL;w_LETTER;w_NIKOLSBURG;w_OE]);
  (0x10cde, [w_OLD;w_HUNGARIAN;w_SMALL;w_LETTER;w_RUDIMENTA;w_OE]);
  (0x10cdf, [w_OLD;w_HUNGARIAN;w_SMALL;w_LETTER;w_OEE]);
  (0x10ce0, [w_OLD;w_HUNGARIAN;w_SMALL;w_LETTER;w_EP]);
  (0x10ce1, [w_OLD;w_HUNGARIAN;w_SMALL;w_LETTER;w_EMP]);
  (0x10ce2, [w_OLD;w_HUNGARIAN;w_SMALL;w_LETTER;w_ER]);
  (0x10ce3, [w_OLD;w_HUNGARIAN;w_SMALL;w_LETTER;w_SHORT;w_ER]);
  (0x10ce4, [w_OLD;w_HUNGARIAN;w_SMALL;w_LETTER;w_ES]);
  (0x10ce5, [w_OLD;w_HUNGARIAN;w_SMALL;w_LETTER;w_ESZ]);
  (0x10ce6, [w_OLD;w_HUNGARIAN;w_SMALL;w_LETTER;w_ET]);
  (0x10ce7, [w_OLD;w_HUNGARIAN;w_SMALL;w_LETTER;w_ENT]);
  (0x10ce8, [w_OLD;w_HUNGARIAN;w_SMALL;w_LETTER;w_ETY]);
  (0x10ce9, [w_OLD;w_HUNGARIAN;w_SMALL;w_LETTER;w_ECH]);
  (0x10cea, [w_OLD;w_HUNGARIAN;w_SMALL;w_LETTER;w_U]);
  (0x10ceb, [w_OLD;w_HUNGARIAN;w_SMALL;w_LETTER;w_UU]);
  (0x10cec, [w_OLD;w_HUNGARIAN;w_SMALL;w_LETTER;w_NIKOLSBURG;w_UE]);
  (0x10ced, [w_OLD;w_HUNGARIAN;w_SMALL;w_LETTER;w_RUDIMENTA;w_UE]);
  (0x10cee, [w_OLD;w_HUNGARIAN;w_SMALL;w_LETTER;w_EV]);
  (0x10cef, [w_OLD;w_HUNGARIAN;w_SMALL;w_LETTER;w_EZ]);
  (0x10cf0, [w_OLD;w_HUNGARIAN;w_SMALL;w_LETTER;w_EZS]);
  (0x10cf1, [w_OLD;w_HUNGARIAN;w_SMALL;w_LETTER;w_ENT_SHAPED;w_SIGN]);
  (0x10cf2, [w_OLD;w_HUNGARIAN;w_SMALL;w_LETTER;w_US]);
  (0x10cfa, [w_OLD;w_HUNGARIAN;w_NUMBER;w_ONE]);
  (0x10cfb, [w_OLD;w_HUNGARIAN;w_NUMBER;w_FIVE]);
  (0x10cfc, [w_OLD;w_HUNGARIAN;w_NUMBER;w_TEN]);
  (0x10cfd, [w_OLD;w_HUNGARIAN;w_NUMBER;w_FIFTY]);
  (0x10cfe, [w_OLD;w_HUNGARIAN;w_NUMBER;w_ONE;w_HUNDRED]);
  (0x10cff, [w_OLD;w_HUNGARIAN;w_NUMBER;w_ONE;w_THOUSAND]);
  (0x10e60, [w_RUMI;w_DIGIT;w_ONE]);
  (0x10e61, [w_RUMI;w_DIGIT;w_TWO]);
  (0x10e62, [w_RUMI;w_DIGIT;w_THREE]);
  (0x10e63, [w_RUMI;w_DIGIT;w_FOUR]);
  (0x10e64, [w_RUMI;w_DIGIT;w_FIVE]);
  (0x10e65, [w_RUMI;w_DIGIT;w_SIX]);
  (0x10e66, [w_RUMI;w_DIGIT;w_SEVEN]);
  (0x10e67, [w_RUMI;w_DIGIT;w_EIGHT]);
  (0x10e68, [w_RUMI;w_DIGIT;w_NINE]);
  (0x10e69, [w_RUMI;w_NUMBER;w_TEN]);
  (0x10e6a, [w_RUMI;w_NUMBER;w_TWENTY]);
  (0x10e6b, [w_RUMI;w_NUMBER;w_THIRTY]);
  (0x10e6c, [w_RUMI;w_NUMBER;w_FORTY]);
  (0x10e6d, [w_RUMI;w_NUMBER;w_FIFTY]);
  (0x10e6e, [w_RUMI;w_NUMBER;w_SIXTY]);
  (0x10e6f, [w_RUMI;w_NUMBER;w_SEVENTY]);
  (0x10e70, [w_RUMI;w_NUMBER;w_EIGHTY]);
  (0x10e71, [w_RUMI;w_NUMBER;w_NINETY]);
  (0x10e72, [w_RUMI;w_NUMBER;w_ONE;w_HUNDRED]);
  (0x10e73, [w_RUMI;w_NUMBER;w_TWO;w_HUNDRED]);
  (0x10e74, [w_RUMI;w_NUMBER;w_THREE;w_HUNDRED]);
  (0x10e75, [w_RUMI;w_NUMBER;w_FOUR;w_HUNDRED]);
  (0x10e76, [w_RUMI;w_NUMBER;w_FIVE;w_HUNDRED]);
  (0x10e77, [w_RUMI;w_NUMBER;w_SIX;w_HUNDRED]);
  (0x10e78, [w_RUMI;w_NUMBER;w_SEVEN;w_HUNDRED]);
  (0x10e79, [w_RUMI;w_NUMBER;w_EIGHT;w_HUNDRED]);
  (0x10e7a, [w_RUMI;w_NUMBER;w_NINE;w_HUNDRED]);
  (0x10e7b, [w_RUMI;w_FRACTION;w_ONE;w_HALF]);
  (0x10e7c, [w_RUMI;w_FRACTION;w_ONE;w_QUARTER]);
  (0x10e7d, [w_RUMI;w_FRACTION;w_ONE;w_THIRD]);
  (0x10e7e, [w_RUMI;w_FRACTION;w_TWO;w_THIRDS]);
  (0x11000, [w_BRAHMI;w_SIGN;w_CANDRABINDU]);
  (0x11001, [w_BRAHMI;w_SIGN;w_ANUSVARA]);
  (0x11002, [w_BRAHMI;w_SIGN;w_VISARGA]);
  (0x11003, [w_BRAHMI;w_SIGN;w_JIHVAMULIYA]);
  (0x11004, [w_BRAHMI;w_SIGN;w_UPADHMANIYA]);
  (0x11005, [w_BRAHMI;w_LETTER;w_A]);
  (0x11006, [w_BRAHMI;w_LETTER;w_AA]);
  (0x11007, [w_BRAHMI;w_LETTER;w_I]);
  (0x11008, [w_BRAHMI;w_LETTER;w_II]);
  (0x11009, [w_BRAHMI;w_LETTER;w_U]);
  (0x1100a, [w_BRAHMI;w_LETTER;w_UU]);
  (0x1100b, [w_BRAHMI;w_LETTER;w_VOCALIC;w_R]);
  (0x1100c, [w_BRAHMI;w_LETTER;w_VOCALIC;w_RR]);
  (0x1100d, [w_BRAHMI;w_LETTER;w_VOCALIC;w_L]);
  (0x1100e, [w_BRAHMI;w_LETTER;w_VOCALIC;w_LL]);
  (0x1100f, [w_BRAHMI;w_LETTER;w_E]);
  (0x11010, [w_BRAHMI;w_LETTER;w_AI]);
  (0x11011, [w_BRAHMI;w_LETTER;w_O]);
  (0x11012, [w_BRAHMI;w_LETTER;w_AU])].

Definition NAMES_47 : list (N * (list str)) := [
  (0x11013, [w_BRAHMI;w_LETTER;w_KA]);
  (0x11014, [w_BRAHMI;w_LETTER;w_KHA]);
  (0x11015, [w_BRAHMI;w_LETTER;w_GA]);
  (0x11016, [w_BRAHMI;w_LETTER;w_GHA]);
  (0x11017, [w_BRAHMI;w_LETTER;w_NGA]);
  (0x11018, [w_BRAHMI;w_LETTER;w_CA]);
  (0x11019, [w_BRAHMI;w_LETTER;w_CHA]);
  (0x1101a, [w_BRAHMI;w_LETTER;w_JA]);
  (0x1101b, [w_BRAHMI;w_LETTER;w_JHA]);
  (0x1101c, [w_BRAHMI;w_LETTER;w_NYA]);
  (0x1101d, [w_BRAHMI;w_LETTER;w_TTA]);
  (0x1101e, [w_BRAHMI;w_LETTER;w_TTHA]);
  (0x1101f, [w_BRAHMI;w_LETTER;w_DDA]);
  (0x11020, [w_BRAHMI;w_LETTER;w_DDHA]);
  (0x11021, [w_BRAHMI;w_LETTER;w_NNA]);
  (0x11022, [w_BRAHMI;w_LETTER;w_TA]);
  (0x11023, [w_BRAHMI;w_LETTER;w_THA]);
  (0x11024, [w_BRAHMI;w_LETTER;w_DA]);
  (0x11025, [w_BRAHMI;w_LETTER;w_DHA]);
  (0x11026, [w_BRAHMI;w_LETTER;w_NA]);
  (0x11027, [w_BRAHMI;w_LETTER;w_PA]);
  (0x11028, [w_BRAHMI;w_LETTER;w_PHA]);
  (0x11029, [w_BRAHMI;w_LETTER;w_BA]);
  (0x1102a, [w_BRAHMI;w_LETTER;w_BHA]);
  (0x1102b, [w_BRAHMI;w_LETTER;w_MA]);
  (0x1102c, [w_BRAHMI;w_LETTER;w_YA]);
  (0x1102d, [w_BRAHMI;w_LETTER;w_RA]);
  (0x1102e, [w_BRAHMI;w_LETTER;w_LA]);
  (0x1102f, [w_BRAHMI;w_LETTER;w_VA]);
  (0x11030, [w_BRAHMI;w_LETTER;w_SHA]);
  (0x11031, [w_BRAHMI;w_LETTER;w_SSA]);
  (0x11032, [w_BRAHMI;w_LETTER;w_SA]);
  (0x11033, [w_BRAHMI;w_LETTER;w_HA]);
  (0x11034, [w_BRAHMI;w_LETTER;w_LLA]);
  (0x11035, [w_BRAHMI;w_LETTER;w_OLD;w_TAMIL;w_LLLA]);
  (0x11036, [w_BRAHMI;w_LETTER;w_OLD;w_TAMIL;w_RRA]);
  (0x11037, [w_BRAHMI;w_LETTER;w_OLD;w_TAMIL;w_NNNA]);
  (0x11038, [w_BRAHMI;w_VOWEL;w_SIGN;w_AA]);
  (0x11039, [w_BRAHMI;w_VOWEL;w_SIGN;w_BHATTIPROLU;w_AA]);
  (0x1103a, [w_BRAHMI;w_VOWEL;w_SIGN;w_I]);
  (0x1103b, [w_BRAHMI;w_VOWEL;w_SIGN;w_II]);
  (0x1103c, [w_BRAHMI;w_VOWEL;w_SIGN;w_U]);
  (0x1103d, [w_BRAHMI;w_VOWEL;w_SIGN;w_UU]);
  (0x1103e, [w_BRAHMI;w_VOWEL;w_SIGN;w_VOCALIC;w_R]);
  (0x1103f, [w_BRAHMI;w_VOWEL;w_SIGN;w_VOCALIC;w_RR]);
  (0x11040, [w_BRAHMI;w_VOWEL;w_SIGN;w_VOCALIC;w_L]);
  (0x11041, [w_BRAHMI;w_VOWEL;w_SIGN;w_VOCALIC;w_LL]);
  (0x11042, [w_BRAHMI;w_VOWEL;w_SIGN;w_E]);
  (0x11043, [w_BRAHMI;w_VOWEL;w_SIGN;w_AI]);
  (0x11044, [w_BRAHMI;w_VOWEL;w_SIGN;w_O]);
  (0x11045, [w_BRAHMI;w_VOWEL;w_SIGN;w_AU]);
  (0x11046, [w_BRAHMI;w_VIRAMA]);
  (0x11047, [w_BRAHMI;w_DANDA]);
  (0x11048, [w_BRAHMI;w_DOUBLE;w_DANDA]);
  (0x11049, [w_BRAHMI;w_PUNCTUATION;w_DOT]);
  (0x1104a, [w_BRAHMI;w_PUNCTUATION;w_DOUBLE;w_DOT]);
  (0x1104b, [w_BRAHMI;w_PUNCTUATION;w_LINE]);
  (0x1104c, [w_BRAHMI;w_PUNCTUATION;w_CRESCENT;w_BAR]);
  (0x1104d, [w_BRAHMI;w_PUNCTUATION;w_LOTUS]);
  (0x11052, [w_BRAHMI;w_NUMBER;w_ONE]);
  (0x11053, [w_BRAHMI;w_NUMBER;w_TWO]);
  (0x11054, [w_BRAHMI;w_NUMBER;w_THREE]);
  (0x11055, [w_BRAHMI;w_NUMBER;w_FOUR]);
  (0x11056, [w_BRAHMI;w_NUMBER;w_FIVE]);
  (0x11057, [w_BRAHMI;w_NUMBER;w_SIX]);
  (0x11058, [w_BRAHMI;w_NUMBER;w_SEVEN]);
  (0x11059, [w_BRAHMI;w_NUMBER;w_EIGHT]);
  (0x1105a, [w_BRAHMI;w_NUMBER;w_NINE]);
  (0x1105b, [w_BRAHMI;w_NUMBER;w_TEN]);
  (0x1105c, [w_BRAHMI;w_NUMBER;w_TWENTY]);
  (0x1105d, [w_BRAHMI;w_NUMBER;w_THIRTY]);
  (0x1105e, [w_BRAHMI;w_NUMBER;w_FORTY]);
  (0x1105f, [w_BRAHMI;w_NUMBER;w_FIFTY]);
  (0x11060, [w_BRAHMI;w_NUMBER;w_SIXTY]);
  (0x11061, [w_BRAHMI;w_NUMBER;w_SEVENTY]);
  (0x11062, [w_BRAHMI;w_NUMBER;w_EIGHTY]);
  (0x11063, [w_BRAHMI;w_NUMBER;w_NINETY]);
  (0x11064, [w_BRAHMI;w_NUMBER;w_ONE;w_HUNDRED]);
  (0x11065, [w_BRAHMI;w_NUMBER;w_ONE;w_THOUSAND]);
  (0x11066, [w_BRAHMI;w_DIGIT;w_ZERO]);
  (0x11067, [w_BRAHMI;w_DIGIT;w_ONE]);
  (0x11068, [w_BRAHMI;w_DIGIT;w_TWO]);
  (0x11069, [w_BRAHMI;w_DIGIT;w_THREE]);
  (0x1106a, [w_BRAHMI;w_DIGIT;w_FOUR]);
  (0x1106b, [w_BRAHMI;w_DIGIT;w_FIVE]);
  (0x1106c, [w_BRAHMI;w_DIGIT;w_SIX]);
  (0x1106d, [w_BRAHMI;w_DIGIT;w_SEVEN]);
  (0x1106e, [w_BRAHMI;w_DIGIT;w_EIGHT]);
  (0x1106f, [w_BRAHMI;w_DIGIT;w_NINE]);
  (0x1107f, [w_BRAHMI;w_NUMBER;w_JOINER]);
  (0x11080, [w_KAITHI;w_SIGN;w_CANDRABINDU]);
  (0x11081, [w_KAITHI;w_SIGN;w_ANUSVARA]);
  (0x11082, [w_KAITHI;w_SIGN;w_VISARGA]);
  (0x11083, [w_KAITHI;w_LETTER;w_A]);
  (0x11084, [w_KAITHI;w_LETTER;w_AA]);
  (0x11085, [w_KAITHI;w_LETTER;w_I]);
  (0x11086, [w_KAITHI;w_LETTER;w_II]);
  (0x11087, [w_KAITHI;w_LETTER;w_U]);
  (0x11088, [w_KAITHI;w_LETTER;w_UU]);
  (0x11089, [w_KAITHI;w_LETTER;w_E]);
  (0x1108a, [w_KAITHI;w_LETTER;w_AI]);
  (0x1108b, [w_KAITHI;w_LETTER;w_O]);
  (0x1108c, [w_KAITHI;w_LETTER;w_AU]);
  (0x1108d, [w_KAITHI;w_LETTER;w_KA]);
  (0x1108e, [w_KAITHI;w_LETTER;w_KHA]);
  (0x1108f, [w_KAITHI;w_LETTER;w_GA]);
  (0x11090, [w_KAITHI;w_LETTER;w_GHA]);
  (0x11091, [w_KAITHI;w_LETTER;w_NGA]);
  (0x11092, [w_KAITHI;w_LETTER;w_CA]);
  (0x11093, [w_KAITHI;w_LETTER;w_CHA]);
  (0x11094, [w_KAITHI;w_LETTER;w_JA]);
  (0x11095, [w_KAITHI;w_LETTER;w_JHA]);
  (0x11096, [w_KAITHI;w_LETTER;w_NYA]);
  (0x11097, [w_KAITHI;w_LETTER;w_TTA]);
  (0x11098, [w_KAITHI;w_LETTER;w_TTHA]);
  (0x11099, [w_KAITHI;w_LETTER;w_DDA]);
  (0x1109a, [w_KAITHI;w_LETTER;w_DDDHA]);
  (0x1109b, [w_KAITHI;w_LETTER;w_DDHA]);
  (0x1109c, [w_KAITHI;w_LETTER;w_RHA]);
  (0x1109d, [w_KAITHI;w_LETTER;w_NNA]);
  (0x1109e, [w_KAITHI;w_LETTER;w_TA]);
  (0x1109f, [w_KAITHI;w_LETTER;w_THA]);
  (0x110a0, [w_KAITHI;w_LETTER;w_DA]);
  (0x110a1, [w_KAITHI;w_LETTER;w_DHA]);
  (0x110a2, [w_KAITHI;w_LETTER;w_NA]);
  (0x110a3, [w_KAITHI;w_LETTER;w_PA]);
  (0x110a4, [w_KAITHI;w_LETTER;w_PHA]);
  (0x110a5, [w_KAITHI;w_LETTER;w_BA]);
  (0x110a6, [w_KAITHI;w_LETTER;w_BHA]);
  (0x110a7, [w_KAITHI;w_LETTER;w_MA]);
  (0x110a8, [w_KAITHI;w_LETTER;w_YA]);
  (0x110a9, [w_KAITHI;w_LETTER;w_RA]);
  (0x110aa, [w_KAITHI;w_LETTER;w_LA]);
  (0x110ab, [w_KAITHI;w_LETTER;w_VA]);
  (0x110ac, [w_KAITHI;w_LETTER;w_SHA]);
  (0x110ad, [w_KAITHI;w_LETTER;w_SSA]);
  (0x110ae, [w_KAITHI;w_LETTER;w_SA]);
  (0x110af, [w_KAITHI;w_LETTER;w_HA]);
  (0x110b0, [w_KAITHI;w_VOWEL;w_SIGN;w_AA]);
  (0x110b1, [w_KAITHI;w_VOWEL;w_SIGN;w_I]);
  (0x110b2, [w_KAITHI;w_VOWEL;w_SIGN;w_II]);
  (0x110b3, [w_KAITHI;w_VOWEL;w_SIGN;w_U]);
  (0x110b4, [w_KAITHI;w_VOWEL;w_SIGN;w_UU]);
  (0x110b5, [w_KAITHI;w_VOWEL;w_SIGN;w_E]);
  (0x110b6, [w_KAITHI;w_VOWEL;w_SIGN;w_AI]);
  (0x110b7, [w_KAITHI;w_VOWEL;w_SIGN;w_O]);
  (0x110b8, [w_KAITHI;w_VOWEL;w_SIGN;w_AU]);
  (0x110b9, [w_KAITHI;w_SIGN;w_VIRAMA]);
  (0x110ba, [w_KAITHI;w_SIGN;w_NUKTA]);
  (0x110bb, [w_KAITHI;w_ABBREVIATION;w_SIGN]);
  (0x110bc, [w_KAITHI;w_ENUMERATION;w_SIGN]);
  (0x110bd, [w_KAITHI;w_NUMBER;w_SIGN]);
  (0x110be, [w_KAITHI;w_SECTION;w_MARK]);
  (0x110bf, [w_KAITHI;w_DOUBLE;w_SECTION;w_MARK]);
  (0x110c0, [w_KAITHI;w_DANDA]);
  (0x110c1, [w_KAITHI;w_DOUBLE;w_DANDA]);
  (0x110d0, [w_SORA;w_SOMPENG;w_LETTER;w_SAH]);
  (0x110d1, [w_SORA;w_SOMPENG;w_LETTER;w_TAH]);
  (0x110d2, [w_SORA;w_SOMPENG;w_LETTER;w_BAH]);
  (0x110d3, [w_SORA;w_SOMPENG;w_LETTER;w_CAH]);
  (0x110d4, [w_SORA;w_SOMPENG;w_LETTER;w_DAH]);
  (0x110d5, [w_SORA;w_SOMPENG;w_LETTER;w_GAH]);
  (0x110d6, [w_SORA;w_SOMPENG;w_LETTER;w_MAH]);
  (0x110d7, [w_SORA;w_SOMPENG;w_LETTER;w_NGAH]);
  (0x110d8, [w_SORA;w_SOMPENG;w_LETTER;w_LAH]);
  (0x110d9, [w_SORA;w_SOMPENG;w_LETTER;w_NAH]);
  (0x110da, [w_SORA;w_SOMPENG;w_LETTER;w_VAH]);
  (0x110db, [w_SORA;w_SOMPENG;w_LETTER;w_PAH]);
  (0x110dc, [w_SORA;w_SOMPENG;w_LETTER;w_YAH]);
  (0x110dd, [w_SORA;w_SOMPENG;w_LETTER;w_RAH]);
  (0x110de, [w_SORA;w_SOMPENG;w_LETTER;w_HAH]);
  (0x110df, [w_SORA;w_SOMPENG;w_LETTER;w_KAH]);
  (0x110e0, [w_SORA;w_SOMPENG;w_LETTER;w_JAH]);
  (0x110e1, [w_SORA;w_SOMPENG;w_LETTER;w_NYAH]);
  (0x110e2, [w_SORA;w_SOMPENG;w_LETTER;w_AH]);
  (0x110e3, [w_SORA;w_SOMPENG;w_LETTER;w_EEH]);
  (0x110e4, [w_SORA;w_SOMPENG;w_LETTER;w_IH]);
  (0x110e5, [w_SORA;w_SOMPENG;w_LETTER;w_UH]);
  (0x110e6, [w_SORA;w_SOMPENG;w_LETTER;w_OH]);
  (0x110e7, [w_SORA;w_SOMPENG;w_LETTER;w_EH]);
  (0x110e8, [w_SORA;w_SOMPENG;w_LETTER;w_MAE]);
  (0x110f0, [w_SORA;w_SOMPENG;w_DIGIT;w_ZERO]);
  (0x110f1, [w_SORA;w_SOMPENG;w_DIGIT;w_ONE]);
  (0x110f2, [w_SORA;w_SOMPENG;w_DIGIT;w_TWO]);
  (0x110f3, [w_SORA;w_SOMPENG;w_DIGIT;w_THREE]);
  (0x110f4, [w_SORA;w_SOMPENG;w_DIGIT;w_FOUR]);
  (0x110f5, [w_SORA;w_SOMPENG;w_DIGIT;w_FIVE]);
  (0x110f6, [w_SORA;w_SOMPENG;w_DIGIT;w_SIX]);
  (0x110f7, [w_SORA;w_SOMPENG;w_DIGIT;w_SEVEN]);
  (0x110f8, [w_SORA;w_SOMPENG;w_DIGIT;w_EIGHT]);
  (0x110f9, [w_SORA;w_SOMPENG;w_DIGIT;w_NINE]);
  (0x11100, [w_CHAKMA;w_SIGN;w_CANDRABINDU]);
  (0x11101, [w_CHAKMA;w_SIGN;w_ANUSVARA]);
  (0x11102, [w_CHAKMA;w_SIGN;w_VISARGA]);
  (0x11103, [w_CHAKMA;w_LETTER;w_AA]);
  (0x11104, [w_CHAKMA;w_LETTER;w_I]);
  (0x11105, [w_CHAKMA;w_LETTER;w_U]);
  (0x11106, [w_CHAKMA;w_LETTER;w_E]);
  (0x11107, [w_CHAKMA;w_LETTER;w_KAA]);
  (0x11108, [w_CHAKMA;w_LETTER;w_KHAA]);
  (0x11109, [w_CHAKMA;w_LETTER;w_GAA]);
  (0x1110a, [w_CHAKMA;w_LETTER;w_GHAA]);
  (0x1110b, [w_CHAKMA;w_LETTER;w_NGAA]);
  (0x1110c, [w_CHAKMA;w_LETTER;w_CAA]);
  (0x1110d, [w_CHAKMA;w_LETTER;w_CHAA]);
  (0x1110e, [w_CHAKMA;w_LETTER;w_JAA]);
  (0x1110f, [w_CHAKMA;w_LETTER;w_JHAA]);
  (0x11110, [w_CHAKMA;w_LETTER;w_NYAA]);
  (0x11111, [w_CHAKMA;w_LETTER;w_TTAA]);
  (0x11112, [w_CHAKMA;w_LETTER;w_TTHAA]);
  (0x11113, [w_CHAKMA;w_LETTER;w_DDAA]);
  (0x11114, [w_CHAKMA;w_LETTER;w_DDHAA]);
  (0x11115, [w_CHAKMA;w_LETTER;w_NNAA]);
  (0x11116, [w_CHAKMA;w_LETTER;w_TAA]);
  (0x11117, [w_CHAKMA;w_LETTER;w_THAA]);
  (0x11118, [w_CHAKMA;w_LETTER;w_DAA]);
  (0x11119, [w_CHAKMA;w_LETTER;w_DHAA]);
  (0x1111a, [w_CHAKMA;w_LETTER;w_NAA]);
  (0x1111b, [w_CHAKMA;w_LETTER;w_PAA]);
  (0x1111c, [w_CHAKMA;w_LETTER;w_PHAA]);
  (0x1111d, [w_CHAKMA;w_LETTER;w_BAA]);
  (0x1111e, [w_CHAKMA;w_LETTER;w_BHAA]);
  (0x1111f, [w_CHAKMA;w_LETTER;w_MAA]);
  (0x11120, [w_CHAKMA;w_LETTER;w_YYAA]);
  (0x11121, [w_CHAKMA;w_LETTER;w_YAA]);
  (0x11122, [w_CHAKMA;w_LETTER;w_RAA]);
  (0x11123, [w_CHAKMA;w_LETTER;w_LAA]);
  (0x11124, [w_CHAKMA;w_LETTER;w_WAA]);
  (0x11125, [w_CHAKMA;w_LETTER;w_SAA]);
  (0x11126, [w_CHAKMA;w_LETTER;w_HAA]);
  (0x11127, [w_CHAKMA;w_VOWEL;w_SIGN;w_A]);
  (0x11128, [w_CHAKMA;w_VOWEL;w_SIGN;w_I]);
  (0x11129, [w_CHAKMA;w_VOWEL;w_SIGN;w_II]);
  (0x1112a, [w_CHAKMA;w_VOWEL;w_SIGN;w_U]);
  (0x1112b, [w_CHAKMA;w_VOWEL;w_SIGN;w_UU]);
  (0x1112c, [w_CHAKMA;w_VOWEL;w_SIGN;w_E]);
  (0x1112d, [w_CHAKMA;w_VOWEL;w_SIGN;w_AI]);
  (0x1112e, [w_CHAKMA;w_VOWEL;w_SIGN;w_O]);
  (0x1112f, [w_CHAKMA;w_VOWEL;w_SIGN;w_AU]);
  (0x11130, [w_CHAKMA;w_VOWEL;w_SIGN;w_OI]);
  (0x11131, [w_CHAKMA;w_O;w_MARK]);
  (0x11132, [w_CHAKMA;w_AU;w_MARK]);
  (0x11133, [w_CHAKMA;w_VIRAMA]);
  (0x11134, [w_CHAKMA;w_MAAYYAA]);
  (0x11136, [w_CHAKMA;w_DIGIT;w_ZERO]);
  (0x11137, [w_CHAKMA;w_DIGIT;w_ONE]);
  (0x11138, [w_CHAKMA;w_DIGIT;w_TWO]);
  (0x11139, [w_CHAKMA;w_DIGIT;w_THREE]);
  (0x1113a, [w_CHAKMA;w_DIGIT;w_FOUR]);
  (0x1113b, [w_CHAKMA;w_DIGIT;w_FIVE]);
  (0x1113c, [w_CHAKMA;w_DIGIT;w_SIX]);
  (0x1113d, [w_CHAKMA;w_DIGIT;w_SEVEN]);
  (0x1113e, [w_CHAKMA;w_DIGIT;w_EIGHT]);
  (0x1113f, [w_CHAKMA;w_DIGIT;w_NINE]);
  (0x11140, [w_CHAKMA;w_SECTION;w_MARK]);
  (0x11141, [w_CHAKMA;w_DANDA]);
  (0x11142, [w_CHAKMA;w_DOUBLE;w_DANDA]);
  (0x11143, [w_CHAKMA;w_QUESTION;w_MARK]);
  (0x11150, [w_MAHAJANI;w_LETTER;w_A]);
  (0x11151, [w_MAHAJANI;w_LETTER;w_I]);
  (0x11152, [w_MAHAJANI;w_LETTER;w_U]);
  (0x11153, [w_MAHAJANI;w_LETTER;w_E]);
  (0x11154, [w_MAHAJANI;w_LETTER;w_O]);
  (0x11155, [w_MAHAJANI;w_LETTER;w_KA]);
  (0x11156, [w_MAHAJANI;w_LETTER;w_KHA]);
  (0x11157, [w_MAHAJANI;w_LETTER;w_GA]);
  (0x11158, [w_MAHAJANI;w_LETTER;w_GHA]);
  (0x11159, [w_MAHAJANI;w_LETTER;w_CA]);
  (0x1115a, [w_MAHAJANI;w_LETTER;w_CHA]);
  (0x1115b, [w_MAHAJANI;w_LETTER;w_JA]);
  (0x1115c, [w_MAHAJANI;w_LETTER;w_JHA]);
  (0x1115d, [w_MAHAJANI;w_LETTER;w_NYA]);
  (0x1115e, [w_MAHAJANI;w_LETTER;w_TTA]);
  (0x1115f, [w_MAHAJANI;w_LETTER;w_TTHA]);
  (0x11160, [w_MAHAJANI;w_LETTER;w_DDA]);
  (0x11161, [w_MAHAJANI;w_LETTER;w_DDHA]);
  (0x11162, [w_MAHAJANI;w_LETTER;w_NNA]);
  (0x11163, [w_MAHAJANI;w_LETTER;w_TA]);
  (0x11164, [w_MAHAJANI;w_LETTER;w_THA]);
  (0x11165, [w_MAHAJANI;w_LETTER;w_DA]);
  (0x11166, [w_MAHAJANI;w_LETTER;w_DHA]);
  (0x11167, [w_MAHAJANI;w_LETTER;w_NA]);
  (0x11168, [w_MAHAJANI;w_LETTER;w_PA]);
  (0x11169, [w_MAHAJANI;w_LETTER;w_PHA]);
  (0x1116a, [w_MAHAJANI;w_LETTER;w_BA]);
  (0x1116b, [w_MAHAJANI;w_LETTER;w_BHA]);
  (0x1116c, [w_MAHAJANI;w_LETTER;w_MA]);
  (0x1116d, [w_MAHAJANI;w_LETTER;w_RA]);
  (0x1116e, [w_MAHAJANI;w_LETTER;w_LA]);
  (0x1116f, [w_MAHAJANI;w_LETTER;w_VA]);
  (0x11170, [w_MAHAJANI;w_LETTER;w_SA]);
  (0x11171, [w_MAHAJANI;w_LETTER;w_HA]);
  (0x11172, [w_MAHAJANI;w_LETTER;w_RRA]);
  (0x11173, [w_MAHAJANI;w_SIGN;w_NUKTA]);
  (0x11174, [w_MAHAJANI;w_ABBREVIATION;w_SIGN]);
  (0x11175, [w_MAHAJANI;w_SECTION;w_MARK]);
  (0x11176, [w_MAHAJANI;w_LIGATURE;w_SHRI]);
  (0x11180, [w_SHARADA;w_SIGN;w_CANDRABINDU]);
  (0x11181, [w_SHARADA;w_SIGN;w_ANUSVARA]);
  (0x11182, [w_SHARADA;w_SIGN;w_VISARGA]);
  (0x11183, [w_SHARADA;w_LETTER;w_A]);
  (0x11184, [w_SHARADA;w_LETTER;w_AA]);
  (0x11185, [w_SHARADA;w_LETTER;w_I]);
  (0x11186, [w_SHARADA;w_LETTER;w_II]);
  (0x11187, [w_SHARADA;w_LETTER;w_U]);
  (0x11188, [w_SHARADA;w_LETTER;w_UU]);
  (0x11189, [w_SHARADA;w_LETTER;w_VOCALIC;w_R]);
  (0x1118a, [w_SHARADA;w_LETTER;w_VOCALIC;w_RR]);
  (0x1118b, [w_SHARADA;w_LETTER;w_VOCALIC;w_L]);
  (0x1118c, [w_SHARADA;w_LETTER;w_VOCALIC;w_LL]);
  (0x1118d, [w_SHARADA;w_LETTER;w_E]);
  (0x1118e, [w_SHARADA;w_LETTER;w_AI]);
  (0x1118f, [w_SHARADA;w_LETTER;w_O]);
  (0x11190, [w_SHARADA;w_LETTER;w_AU]);
  (0x11191, [w_SHARADA;w_LETTER;w_KA]);
  (0x11192, [w_SHARADA;w_LETTER;w_KHA]);
  (0x11193, [w_SHARADA;w_LETTER;w_GA]);
  (0x11194, [w_SHARADA;w_LETTER;w_GHA]);
  (0x11195, [w_SHARADA;w_LETTER;w_NGA]);
  (0x11196, [w_SHARADA;w_LETTER;w_CA]);
  (0x11197, [w_SHARADA;w_LETTER;w_CHA]);
  (0x11198, [w_SHARADA;w_LETTER;w_JA]);
  (0x11199, [w_SHARADA;w_LETTER;w_JHA]);
  (0x1119a, [w_SHARADA;w_LETTER;w_NYA]);
  (0x1119b, [w_SHARADA;w_LETTER;w_TTA]);
  (0x1119c, [w_SHARADA;w_LETTER;w_TTHA]);
  (0x1119d, [w_SHARADA;w_LETTER;w_DDA]);
  (0x1119e, [w_SHARADA;w_LETTER;w_DDHA]);
  (0x1119f, [w_SHARADA;w_LETTER;w_NNA]);
  (0x111a0, [w_SHARADA;w_LETTER;w_TA]);
  (0x111a1, [w_SHARADA;w_LETTER;w_THA]);
  (0x111a2, [w_SHARADA;w_LETTER;w_DA]);
  (0x111a3, [w_SHARADA;w_LETTER;w_DHA]);
  (0x111a4, [w_SHARADA;w_LETTER;w_NA]);
  (0x111a5, [w_SHARADA;w_LETTER;w_PA]);
  (0x111a6, [w_SHARADA;w_LETTER;w_PHA]);
  (0x111a7, [w_SHARADA;w_LETTER;w_BA]);
  (0x111a8, [w_SHARADA;w_LETTER;w_BHA]);
  (0x111a9, [w_SHARADA;w_LETTER;w_MA]);
  (0x111aa, [w_SHARADA;w_LETTER;w_YA]);
  (0x111ab, [w_SHARADA;w_LETTER;w_RA]);
  (0x111ac, [w_SHARADA;w_LETTER;w_LA]);
  (0x111ad, [w_SHARADA;w_LETTER;w_LLA]);
  (0x111ae, [w_SHARADA;w_LETTER;w_VA]);
  (0x111af, [w_SHARADA;w_LETTER;w_SHA]);
  (0x111b0, [w_SHARADA;w_LETTER;w_SSA]);
  (0x111b1, [w_SHARADA;w_LETTER;w_SA]);
  (0x111b2, [w_SHARADA;w_LETTER;w_HA]);
  (0x111b3, [w_SHARADA;w_VOWEL;w_SIGN;w_AA]);
  (0x111b4, [w_SHARADA;w_VOWEL;w_SIGN;w_I]);
  (0x111b5, [w_SHARADA;w_VOWEL;w_SIGN;w_II]);
  (0x111b6, [w_SHARADA;w_VOWEL;w_SIGN;w_U]);
  (0x111b7, [w_SHARADA;w_VOWEL;w_SIGN;w_UU]);
  (0x111b8, [w_SHARADA;w_VOWEL;w_SIGN;w_VOCALIC;w_R]);
  (0x111b9, [w_SHARADA;w_VOWEL;w_SIGN;w_VOCALIC;w_RR]);
  (0x111ba, [w_SHARADA;w_VOWEL;w_SIGN;w_VOCALIC;w_L]);
  (0x111bb, [w_SHARADA;w_VOWEL;w_SIGN;w_VOCALIC;w_LL]);
  (0x111bc, [w_SHARADA;w_VOWEL;w_SIGN;w_E]);
  (0x111bd, [w_SHARADA;w_VOWEL;w_SIGN;w_AI]);
  (0x111be, [w_SHARADA;w_VOWEL;w_SIGN;w_O]);
  (0x111bf, [w_SHARADA;w_VOWEL;w_SIGN;w_AU]);
  (0x111c0, [w_SHARADA;w_SIGN;w_VIRAMA]);
  (0x111c1, [w_SHARADA;w_SIGN;w_AVAGRAHA]);
  (0x111c2, [w_SHARADA;w_SIGN;w_JIHVAMULIYA]);
  (0x111c3, [w_SHARADA;w_SIGN;w_UPADHMANIYA]);
  (0x111c4, [w_SHARADA;w_OM]);
  (0x111c5, [w_SHARADA;w_DANDA]);
  (0x111c6, [w_SHARADA;w_DOUBLE;w_DANDA]);
  (0x111c7, [w_SHARADA;w_ABBREVIATION;w_SIGN]);
  (0x111c8, [w_SHARADA;w_SEPARATOR]);
  (0x111c9, [w_SHARADA;w_SANDHI;w_MARK]);
  (0x111ca, [w_SHARADA;w_SIGN;w_NUKTA]);
  (0x111cb, [w_SHARADA;w_VOWEL;w_MODIFIER;w_MARK]);
  (0x111cc, [w_SHARADA;w_EXTRA;w_SHORT;w_VOWEL;w_MARK]);
  (0x111cd, [w_SHARADA;w_SUTRA;w_MARK]);
  (0x111d0, [w_SHARADA;w_DIGIT;w_ZERO]);
  (0x111d1, [w_SHARADA;w_DIGIT;w_ONE]);
  (0x111d2, [w_SHARADA;w_DIGIT;w_TWO]);
  (0x111d3, [w_SHARADA;w_DIGIT;w_THREE]);
  (0x111d4, [w_SHARADA;w_DIGIT;w_FOUR]);
  (0x111d5, [w_SHARADA;w_DIGIT;w_FIVE]);
  (0x111d6, [w_SHARADA;w_DIGIT;w_SIX]);
  (0x111d7, [w_SHARADA;w_DIGIT;w_SEVEN]);
  (0x111d8, [w_SHARADA;w_DIGIT;w_EIGHT]);
  (0x111d9, [w_SHARADA;w_DIGIT;w_NINE]);
  (0x111da, [w_SHARADA;w_EKAM]);
  (0x111db, [w_SHARADA;w_SIGN;w_SIDDHAM]);
  (0x111dc, [w_SHARADA;w_HEADSTROKE]);
  (0x111dd, [w_SHARADA;w_CONTINUATION;w_SIGN]);
  (0x111de, [w_SHARADA;w_SECTION;w_MARK_1]);
  (0x111df, [w_SHARADA;w_SECTION;w_MARK_2]);
  (0x111e1, [w_SINHALA;w_ARCHAIC;w_DIGIT;w_ONE]);
  (0x111e2, [w_SINHALA;w_ARCHAIC;w_DIGIT;w_TWO]);
  (0x111e3, [w_SINHALA;w_ARCHAIC;w_DIGIT;w_THREE]);
  (0x111e4, [w_SINHALA;w_ARCHAIC;w_DIGIT;w_FOUR]);
  (0x111e5, [w_SINHALA;w_ARCHAIC;w_DIGIT;w_FIVE]);
  (0x111e6, [w_SINHALA;w_ARCHAIC;w_DIGIT;w_SIX]);
  (0x111e7, [w_SINHALA;w_ARCHAIC;w_DIGIT;w_SEVEN]);
  (0x111e8, [w_SINHALA;w_ARCHAIC;w_DIGIT;w_EIGHT]);
  (0x111e9, [w_SINHALA;w_ARCHAIC;w_DIGIT;w_NINE])].

Definition NAMES_48 : list (N * (list str)) := [
  (0x111ea, [w_SINHALA;w_ARCHAIC;w_NUMBER;w_TEN]);
  (0x111eb, [w_SINHALA;w_ARCHAIC;w_NUMBER;w_TWENTY]);
  (0x111ec, [w_SINHALA;w_ARCHAIC;w_NUMBER;w_THIRTY]);
  (0x111ed, [w_SINHALA;w_ARCHAIC;w_NUMBER;w_FORTY]);
  (0x111ee, [w_SINHALA;w_ARCHAIC;w_NUMBER;w_FIFTY]);
  (0x111ef, [w_SINHALA;w_ARCHAIC;w_NUMBER;w_SIXTY]);
  (0x111f0, [w_SINHALA;w_ARCHAIC;w_NUMBER;w_SEVENTY]);
  (0x111f1, [w_SINHALA;w_ARCHAIC;w_NUMBER;w_EIGHTY]);
  (0x111f2, [w_SINHALA;w_ARCHAIC;w_NUMBER;w_NINETY]);
  (0x111f3, [w_SINHALA;w_ARCHAIC;w_NUMBER;w_ONE;w_HUNDRED]);
  (0x111f4, [w_SINHALA;w_ARCHAIC;w_NUMBER;w_ONE;w_THOUSAND]);
  (0x11200, [w_KHOJKI;w_LETTER;w_A]);
  (0x11201, [w_KHOJKI;w_LETTER;w_AA]);
  (0x11202, [w_KHOJKI;w_LETTER;w_I]);
  (0x11203, [w_KHOJKI;w_LETTER;w_U]);
  (0x11204, [w_KHOJKI;w_LETTER;w_E]);
  (0x11205, [w_KHOJKI;w_LETTER;w_AI]);
  (0x11206, [w_KHOJKI;w_LETTER;w_O]);
  (0x11207, [w_KHOJKI;w_LETTER;w_AU]);
  (0x11208, [w_KHOJKI;w_LETTER;w_KA]);
  (0x11209, [w_KHOJKI;w_LETTER;w_KHA]);
  (0x1120a, [w_KHOJKI;w_LETTER;w_GA]);
  (0x1120b, [w_KHOJKI;w_LETTER;w_GGA]);
  (0x1120c, [w_KHOJKI;w_LETTER;w_GHA]);
  (0x1120d, [w_KHOJKI;w_LETTER;w_NGA]);
  (0x1120e, [w_KHOJKI;w_LETTER;w_CA]);
  (0x1120f, [w_KHOJKI;w_LETTER;w_CHA]);
  (0x11210, [w_KHOJKI;w_LETTER;w_JA]);
  (0x11211, [w_KHOJKI;w_LETTER;w_JJA]);
  (0x11213, [w_KHOJKI;w_LETTER;w_NYA]);
  (0x11214, [w_KHOJKI;w_LETTER;w_TTA]);
  (0x11215, [w_KHOJKI;w_LETTER;w_TTHA]);
  (0x11216, [w_KHOJKI;w_LETTER;w_DDA]);
  (0x11217, [w_KHOJKI;w_LETTER;w_DDHA]);
  (0x11218, [w_KHOJKI;w_LETTER;w_NNA]);
  (0x11219, [w_KHOJKI;w_LETTER;w_TA]);
  (0x1121a, [w_KHOJKI;w_LETTER;w_THA]);
  (0x1121b, [w_KHOJKI;w_LETTER;w_DA]);
  (0x1121c, [w_KHOJKI;w_LETTER;w_DDDA]);
  (0x1121d, [w_KHOJKI;w_LETTER;w_DHA]);
  (0x1121e, [w_KHOJKI;w_LETTER;w_NA]);
  (0x1121f, [w_KHOJKI;w_LETTER;w_PA]);
  (0x11220, [w_KHOJKI;w_LETTER;w_PHA]);
  (0x11221, [w_KHOJKI;w_LETTER;w_BA]);
  (0x11222, [w_KHOJKI;w_LETTER;w_BBA]);
  (0x11223, [w_KHOJKI;w_LETTER;w_BHA]);
  (0x11224, [w_KHOJKI;w_LETTER;w_MA]);
  (0x11225, [w_KHOJKI;w_LETTER;w_YA]);
  (0x11226, [w_KHOJKI;w_LETTER;w_RA]);
  (0x11227, [w_KHOJKI;w_LETTER;w_LA]);
  (0x11228, [w_KHOJKI;w_LETTER;w_VA]);
  (0x11229, [w_KHOJKI;w_LETTER;w_SA]);
  (0x1122a, [w_KHOJKI;w_LETTER;w_HA]);
  (0x1122b, [w_KHOJKI;w_LETTER;w_LLA]);
  (0x1122c, [w_KHOJKI;w_VOWEL;w_SIGN;w_AA]);
  (0x1122d, [w_KHOJKI;w_VOWEL;w_SIGN;w_I]);
  (0x1122e, [w_KHOJKI;w_VOWEL;w_SIGN;w_II]);
  (0x1122f, [w_KHOJKI;w_VOWEL;w_SIGN;w_U]);
  (0x11230, [w_KHOJKI;w_VOWEL;w_SIGN;w_E]);
  (0x11231, [w_KHOJKI;w_VOWEL;w_SIGN;w_AI]);
  (0x11232, [w_KHOJKI;w_VOWEL;w_SIGN;w_O]);
  (0x11233, [w_KHOJKI;w_VOWEL;w_SIGN;w_AU]);
  (0x11234, [w_KHOJKI;w_SIGN;w_ANUSVARA]);
  (0x11235, [w_KHOJKI;w_SIGN;w_VIRAMA]);
  (0x11236, [w_KHOJKI;w_SIGN;w_NUKTA]);
  (0x11237, [w_KHOJKI;w_SIGN;w_SHADDA]);
  (0x11238, [w_KHOJKI;w_DANDA]);
  (0x11239, [w_KHOJKI;w_DOUBLE;w_DANDA]);
  (0x1123a, [w_KHOJKI;w_WORD;w_SEPARATOR]);
  (0x1123b, [w_KHOJKI;w_SECTION;w_MARK]);
  (0x1123c, [w_KHOJKI;w_DOUBLE;w_SECTION;w_MARK]);
  (0x1123d, [w_KHOJKI;w_ABBREVIATION;w_SIGN]);
  (0x1123e, [w_KHOJKI;w_SIGN;w_SUKUN]);
  (0x11280, [w_MULTANI;w_LETTER;w_A]);
  (0x11281, [w_MULTANI;w_LETTER;w_I]);
  (0x11282, [w_MULTANI;w_LETTER;w_U]);
  (0x11283, [w_MULTANI;w_LETTER;w_E]);
  (0x11284, [w_MULTANI;w_LETTER;w_KA]);
  (0x11285, [w_MULTANI;w_LETTER;w_KHA]);
  (0x11286, [w_MULTANI;w_LETTER;w_GA]);
  (0x11288, [w_MULTANI;w_LETTER;w_GHA]);
  (0x1128a, [w_MULTANI;w_LETTER;w_CA]);
  (0x1128b, [w_MULTANI;w_LETTER;w_CHA]);
  (0x1128c, [w_MULTANI;w_LETTER;w_JA]);
  (0x1128d, [w_MULTANI;w_LETTER;w_JJA]);
  (0x1128f, [w_MULTANI;w_LETTER;w_NYA]);
  (0x11290, [w_MULTANI;w_LETTER;w_TTA]);
  (0x11291, [w_MULTANI;w_LETTER;w_TTHA]);
  (0x11292, [w_MULTANI;w_LETTER;w_DDA]);
  (0x11293, [w_MULTANI;w_LETTER;w_DDDA]);
  (0x11294, [w_MULTANI;w_LETTER;w_DDHA]);
  (0x11295, [w_MULTANI;w_LETTER;w_NNA]);
  (0x11296, [w_MULTANI;w_LETTER;w_TA]);
  (0x11297, [w_MULTANI;w_LETTER;w_THA]);
  (0x11298, [w_MULTANI;w_LETTER;w_DA]);
  (0x11299, [w_MULTANI;w_LETTER;w_DHA]);
  (0x1129a, [w_MULTANI;w_LETTER;w_NA]);
  (0x1129b, [w_MULTANI;w_LETTER;w_PA]);
  (0x1129c, [w_MULTANI;w_LETTER;w_PHA]);
  (0x1129d, [w_MULTANI;w_LETTER;w_BA]);
  (0x1129f, [w_MULTANI;w_LETTER;w_BHA]);
  (0x112a0, [w_MULTANI;w_LETTER;w_MA]);
  (0x112a1, [w_MULTANI;w_LETTER;w_YA]);
  (0x112a2, [w_MULTANI;w_LETTER;w_RA]);
  (0x112a3, [w_MULTANI;w_LETTER;w_LA]);
  (0x112a4, [w_MULTANI;w_LETTER;w_VA]);
  (0x112a5, [w_MULTANI;w_LETTER;w_SA]);
  (0x112a6, [w_MULTANI;w_LETTER;w_HA]);
  (0x112a7, [w_MULTANI;w_LETTER;w_RRA]);
  (0x112a8, [w_MULTANI;w_LETTER;w_RHA]);
  (0x112a9, [w_MULTANI;w_SECTION;w_MARK]);
  (0x112b0, [w_KHUDAWADI;w_LETTER;w_A]);
  (0x112b1, [w_KHUDAWADI;w_LETTER;w_AA]);
  (0x112b2, [w_KHUDAWADI;w_LETTER;w_I]);
  (0x112b3, [w_KHUDAWADI;w_LETTER;w_II]);
  (0x112b4, [w_KHUDAWADI;w_LETTER;w_U]);
  (0x112b5, [w_KHUDAWADI;w_LETTER;w_UU]);
  (0x112b6, [w_KHUDAWADI;w_LETTER;w_E]);
  (0x112b7, [w_KHUDAWADI;w_LETTER;w_AI]);
  (0x112b8, [w_KHUDAWADI;w_LETTER;w_O]);
  (0x112b9, [w_KHUDAWADI;w_LETTER;w_AU]);
  (0x112ba, [w_KHUDAWADI;w_LETTER;w_KA]);
  (0x112bb, [w_KHUDAWADI;w_LETTER;w_KHA]);
  (0x112bc, [w_KHUDAWADI;w_LETTER;w_GA]);
  (0x112bd, [w_KHUDAWADI;w_LETTER;w_GGA]);
  (0x112be, [w_KHUDAWADI;w_LETTER;w_GHA]);
  (0x112bf, [w_KHUDAWADI;w_LETTER;w_NGA]);
  (0x112c0, [w_KHUDAWADI;w_LETTER;w_CA]);
  (0x112c1, [w_KHUDAWADI;w_LETTER;w_CHA]);
  (0x112c2, [w_KHUDAWADI;w_LETTER;w_JA]);
  (0x112c3, [w_KHUDAWADI;w_LETTER;w_JJA]);
  (0x112c4, [w_KHUDAWADI;w_LETTER;w_JHA]);
  (0x112c5, [w_KHUDAWADI;w_LETTER;w_NYA]);
  (0x112c6, [w_KHUDAWADI;w_LETTER;w_TTA]);
  (0x112c7, [w_KHUDAWADI;w_LETTER;w_TTHA]);
  (0x112c8, [w_KHUDAWADI;w_LETTER;w_DDA]);
  (0x112c9, [w_KHUDAWADI;w_LETTER;w_DDDA]);
  (0x112ca, [w_KHUDAWADI;w_LETTER;w_RRA]);
  (0x112cb, [w_KHUDAWADI;w_LETTER;w_DDHA]);
  (0x112cc, [w_KHUDAWADI;w_LETTER;w_NNA]);
  (0x112cd, [w_KHUDAWADI;w_LETTER;w_TA]);
  (0x112ce, [w_KHUDAWADI;w_LETTER;w_THA]);
  (0x112cf, [w_KHUDAWADI;w_LETTER;w_DA]);
  (0x112d0, [w_KHUDAWADI;w_LETTER;w_DHA]);
  (0x112d1, [w_KHUDAWADI;w_LETTER;w_NA]);
  (0x112d2, [w_KHUDAWADI;w_LETTER;w_PA]);
  (0x112d3, [w_KHUDAWADI;w_LETTER;w_PHA]);
  (0x112d4, [w_KHUDAWADI;w_LETTER;w_BA]);
  (0x112d5, [w_KHUDAWADI;w_LETTER;w_BBA]);
  (0x112d6, [w_KHUDAWADI;w_LETTER;w_BHA]);
  (0x112d7, [w_KHUDAWADI;w_LETTER;w_MA]);
  (0x112d8, [w_KHUDAWADI;w_LETTER;w_YA]);
  (0x112d9, [w_KHUDAWADI;w_LETTER;w_RA]);
  (0x112da, [w_KHUDAWADI;w_LETTER;w_LA]);
  (0x112db, [w_KHUDAWADI;w_LETTER;w_VA]);
  (0x112dc, [w_KHUDAWADI;w_LETTER;w_SHA]);
  (0x112dd, [w_KHUDAWADI;w_LETTER;w_SA]);
  (0x112de, [w_KHUDAWADI;w_LETTER;w_HA]);
  (0x112df, [w_KHUDAWADI;w_SIGN;w_ANUSVARA]);
  (0x112e0, [w_KHUDAWADI;w_VOWEL;w_SIGN;w_AA]);
  (0x112e1, [w_KHUDAWADI;w_VOWEL;w_SIGN;w_I]);
  (0x112e2, [w_KHUDAWADI;w_VOWEL;w_SIGN;w_II]);
  (0x112e3, [w_KHUDAWADI;w_VOWEL;w_SIGN;w_U]);
  (0x112e4, [w_KHUDAWADI;w_VOWEL;w_SIGN;w_UU]);
  (0x112e5, [w_KHUDAWADI;w_VOWEL;w_SIGN;w_E]);
  (0x112e6, [w_KHUDAWADI;w_VOWEL;w_SIGN;w_AI]);
  (0x112e7, [w_KHUDAWADI;w_VOWEL;w_SIGN;w_O]);
  (0x112e8, [w_KHUDAWADI;w_VOWEL;w_SIGN;w_AU]);
  (0x112e9, [w_KHUDAWADI;w_SIGN;w_NUKTA]);
  (0x112ea, [w_KHUDAWADI;w_SIGN;w_VIRAMA]);
  (0x112f0, [w_KHUDAWADI;w_DIGIT;w_ZERO]);
  (0x112f1, [w_KHUDAWADI;w_DIGIT;w_ONE]);
  (0x112f2, [w_KHUDAWADI;w_DIGIT;w_TWO]);
  (0x112f3, [w_KHUDAWADI;w_DIGIT;w_THREE]);
  (0x112f4, [w_KHUDAWADI;w_DIGIT;w_FOUR]);
  (0x112f5, [w_KHUDAWADI;w_DIGIT;w_FIVE]);
  (0x112f6, [w_KHUDAWADI;w_DIGIT;w_SIX]);
  (0x112f7, [w_KHUDAWADI;w_DIGIT;w_SEVEN]);
  (0x112f8, [w_KHUDAWADI;w_DIGIT;w_EIGHT]);
  (0x112f9, [w_KHUDAWADI;w_DIGIT;w_NINE]);
  (0x11300, [w_GRANTHA;w_SIGN;w_COMBINING;w_ANUSVARA;w_ABOVE]);
  (0x11301, [w_GRANTHA;w_SIGN;w_CANDRABINDU]);
  (0x11302, [w_GRANTHA;w_SIGN;w_ANUSVARA]);
  (0x11303, [w_GRANTHA;w_SIGN;w_VISARGA]);
  (0x11305, [w_GRANTHA;w_LETTER;w_A]);
  (0x11306, [w_GRANTHA;w_LETTER;w_AA]);
  (0x11307, [w_GRANTHA;w_LETTER;w_I]);
  (0x11308, [w_GRANTHA;w_LETTER;w_II]);
  (0x11309, [w_GRANTHA;w_LETTER;w_U]);
  (0x1130a, [w_GRANTHA;w_LETTER;w_UU]);
  (0x1130b, [w_GRANTHA;w_LETTER;w_VOCALIC;w_R]);
  (0x1130c, [w_GRANTHA;w_LETTER;w_VOCALIC;w_L]);
  (0x1130f, [w_GRANTHA;w_LETTER;w_EE]);
  (0x11310, [w_GRANTHA;w_LETTER;w_AI]);
  (0x11313, [w_GRANTHA;w_LETTER;w_OO]);
  (0x11314, [w_GRANTHA;w_LETTER;w_AU]);
  (0x11315, [w_GRANTHA;w_LETTER;w_KA]);
  (0x11316, [w_GRANTHA;w_LETTER;w_KHA]);
  (0x11317, [w_GRANTHA;w_LETTER;w_GA]);
  (0x11318, [w_GRANTHA;w_LETTER;w_GHA]);
  (0x11319, [w_GRANTHA;w_LETTER;w_NGA]);
  (0x1131a, [w_GRANTHA;w_LETTER;w_CA]);
  (0x1131b, [w_GRANTHA;w_LETTER;w_CHA]);
  (0x1131c, [w_GRANTHA;w_LETTER;w_JA]);
  (0x1131d, [w_GRANTHA;w_LETTER;w_JHA]);
  (0x1131e, [w_GRANTHA;w_LETTER;w_NYA]);
  (0x1131f, [w_GRANTHA;w_LETTER;w_TTA]);
  (0x11320, [w_GRANTHA;w_LETTER;w_TTHA]);
  (0x11321, [w_GRANTHA;w_LETTER;w_DDA]);
  (0x11322, [w_GRANTHA;w_LETTER;w_DDHA]);
  (0x11323, [w_GRANTHA;w_LETTER;w_NNA]);
  (0x11324, [w_GRANTHA;w_LETTER;w_TA]);
  (0x11325, [w_GRANTHA;w_LETTER;w_THA]);
  (0x11326, [w_GRANTHA;w_LETTER;w_DA]);
  (0x11327, [w_GRANTHA;w_LETTER;w_DHA]);
  (0x11328, [w_GRANTHA;w_LETTER;w_NA]);
  (0x1132a, [w_GRANTHA;w_LETTER;w_PA]);
  (0x1132b, [w_GRANTHA;w_LETTER;w_PHA]);
  (0x1132c, [w_GRANTHA;w_LETTER;w_BA]);
  (0x1132d, [w_GRANTHA;w_LETTER;w_BHA]);
  (0x1132e, [w_GRANTHA;w_LETTER;w_MA]);
  (0x1132f, [w_GRANTHA;w_LETTER;w_YA]);
  (0x11330, [w_GRANTHA;w_LETTER;w_RA]);
  (0x11332, [w_GRANTHA;w_LETTER;w_LA]);
  (0x11333, [w_GRANTHA;w_LETTER;w_LLA]);
  (0x11335, [w_GRANTHA;w_LETTER;w_VA]);
  (0x11336, [w_GRANTHA;w_LETTER;w_SHA]);
  (0x11337, [w_GRANTHA;w_LETTER;w_SSA]);
  (0x11338, [w_GRANTHA;w_LETTER;w_SA]);
  (0x11339, [w_GRANTHA;w_LETTER;w_HA]);
  (0x1133c, [w_GRANTHA;w_SIGN;w_NUKTA]);
  (0x1133d, [w_GRANTHA;w_SIGN;w_AVAGRAHA]);
  (0x1133e, [w_GRANTHA;w_VOWEL;w_SIGN;w_AA]);
  (0x1133f, [w_GRANTHA;w_VOWEL;w_SIGN;w_I]);
  (0x11340, [w_GRANTHA;w_VOWEL;w_SIGN;w_II]);
  (0x11341, [w_GRANTHA;w_VOWEL;w_SIGN;w_U]);
  (0x11342, [w_GRANTHA;w_VOWEL;w_SIGN;w_UU]);
  (0x11343, [w_GRANTHA;w_VOWEL;w_SIGN;w_VOCALIC;w_R]);
  (0x11344, [w_GRANTHA;w_VOWEL;w_SIGN;w_VOCALIC;w_RR]);
  (0x11347, [w_GRANTHA;w_VOWEL;w_SIGN;w_EE]);
  (0x11348, [w_GRANTHA;w_VOWEL;w_SIGN;w_AI]);
  (0x1134b, [w_GRANTHA;w_VOWEL;w_SIGN;w_OO]);
  (0x1134c, [w_GRANTHA;w_VOWEL;w_SIGN;w_AU]);
  (0x1134d, [w_GRANTHA;w_SIGN;w_VIRAMA]);
  (0x11350, [w_GRANTHA;w_OM]);
  (0x11357, [w_GRANTHA;w_AU;w_LENGTH;w_MARK]);
  (0x1135d, [w_GRANTHA;w_SIGN;w_PLUTA]);
  (0x1135e, [w_GRANTHA;w_LETTER;w_VEDIC;w_ANUSVARA]);
  (0x1135f, [w_GRANTHA;w_LETTER;w_VEDIC;w_DOUBLE;w_ANUSVARA]);
  (0x11360, [w_GRANTHA;w_LETTER;w_VOCALIC;w_RR]);
  (0x11361, [w_GRANTHA;w_LETTER;w_VOCALIC;w_LL]);
  (0x11362, [w_GRANTHA;w_VOWEL;w_SIGN;w_VOCALIC;w_L]);
  (0x11363, [w_GRANTHA;w_VOWEL;w_SIGN;w_VOCALIC;w_LL]);
  (0x11366, [w_COMBINING;w_GRANTHA;w_DIGIT;w_ZERO]);
  (0x11367, [w_COMBINING;w_GRANTHA;w_DIGIT;w_ONE]);
  (0x11368, [w_COMBINING;w_GRANTHA;w_DIGIT;w_TWO]);
  (0x11369, [w_COMBINING;w_GRANTHA;w_DIGIT;w_THREE]);
  (0x1136a, [w_COMBINING;w_GRANTHA;w_DIGIT;w_FOUR]);
  (0x1136b, [w_COMBINING;w_GRANTHA;w_DIGIT;w_FIVE]);
  (0x1136c, [w_COMBINING;w_GRANTHA;w_DIGIT;w_SIX]);
  (0x11370, [w_COMBINING;w_GRANTHA;w_LETTER;w_A]);
  (0x11371, [w_COMBINING;w_GRANTHA;w_LETTER;w_KA]);
  (0x11372, [w_COMBINING;w_GRANTHA;w_LETTER;w_NA]);
  (0x11373, [w_COMBINING;w_GRANTHA;w_LETTER;w_VI]);
  (0x11374, [w_COMBINING;w_GRANTHA;w_LETTER;w_PA]);
  (0x11400, [w_NEWA;w_LETTER;w_A]);
  (0x11401, [w_NEWA;w_LETTER;w_AA]);
  (0x11402, [w_NEWA;w_LETTER;w_I]);
  (0x11403, [w_NEWA;w_LETTER;w_II]);
  (0x11404, [w_NEWA;w_LETTER;w_U]);
  (0x11405, [w_NEWA;w_LETTER;w_UU]);
  (0x11406, [w_NEWA;w_LETTER;w_VOCALIC;w_R]);
  (0x11407, [w_NEWA;w_LETTER;w_VOCALIC;w_RR]);
  (0x11408, [w_NEWA;w_LETTER;w_VOCALIC;w_L]);
  (0x11409, [w_NEWA;w_LETTER;w_VOCALIC;w_LL]);
  (0x1140a, [w_NEWA;w_LETTER;w_E]);
  (0x1140b, [w_NEWA;w_LETTER;w_AI]);
  (0x1140c, [w_NEWA;w_LETTER;w_O]);
  (0x1140d, [w_NEWA;w_LETTER;w_AU]);
  (0x1140e, [w_NEWA;w_LETTER;w_KA]);
  (0x1140f, [w_NEWA;w_LETTER;w_KHA]);
  (0x11410, [w_NEWA;w_LETTER;w_GA]);
  (0x11411, [w_NEWA;w_LETTER;w_GHA]);
  (0x11412, [w_NEWA;w_LETTER;w_NGA]);
  (0x11413, [w_NEWA;w_LETTER;w_NGHA]);
  (0x11414, [w_NEWA;w_LETTER;w_CA]);
  (0x11415, [w_NEWA;w_LETTER;w_CHA]);
  (0x11416, [w_NEWA;w_LETTER;w_JA]);
  (0x11417, [w_NEWA;w_LETTER;w_JHA]);
  (0x11418, [w_NEWA;w_LETTER;w_NYA]);
  (0x11419, [w_NEWA;w_LETTER;w_NYHA]);
  (0x1141a, [w_NEWA;w_LETTER;w_TTA]);
  (0x1141b, [w_NEWA;w_LETTER;w_TTHA]);
  (0x1141c, [w_NEWA;w_LETTER;w_DDA]);
  (0x1141d, [w_NEWA;w_LETTER;w_DDHA]);
  (0x1141e, [w_NEWA;w_LETTER;w_NNA]);
  (0x1141f, [w_NEWA;w_LETTER;w_TA]);
  (0x11420, [w_NEWA;w_LETTER;w_THA]);
  (0x11421, [w_NEWA;w_LETTER;w_DA]);
  (0x11422, [w_NEWA;w_LETTER;w_DHA]);
  (0x11423, [w_NEWA;w_LETTER;w_NA]);
  (0x11424, [w_NEWA;w_LETTER;w_NHA]);
  (0x11425, [w_NEWA;w_LETTER;w_PA]);
  (0x11426, [w_NEWA;w_LETTER;w_PHA]);
  (0x11427, [w_NEWA;w_LETTER;w_BA]);
  (0x11428, [w_NEWA;w_LETTER;w_BHA]);
  (0x11429, [w_NEWA;w_LETTER;w_MA]);
  (0x1142a, [w_NEWA;w_LETTER;w_MHA]);
  (0x1142b, [w_NEWA;w_LETTER;w_YA]);
  (0x1142c, [w_NEWA;w_LETTER;w_RA]);
  (0x1142d, [w_NEWA;w_LETTER;w_RHA]);
  (0x1142e, [w_NEWA;w_LETTER;w_LA]);
  (0x1142f, [w_NEWA;w_LETTER;w_LHA]);
  (0x11430, [w_NEWA;w_LETTER;w_WA]);
  (0x11431, [w_NEWA;w_LETTER;w_SHA]);
  (0x11432, [w_NEWA;w_LETTER;w_SSA]);
  (0x11433, [w_NEWA;w_LETTER;w_SA]);
  (0x11434, [w_NEWA;w_LETTER;w_HA]);
  (0x11435, [w_NEWA;w_VOWEL;w_SIGN;w_AA]);
  (0x11436, [w_NEWA;w_VOWEL;w_SIGN;w_I]);
  (0x11437, [w_NEWA;w_VOWEL;w_SIGN;w_II]);
  (0x11438, [w_NEWA;w_VOWEL;w_SIGN;w_U]);
  (0x11439, [w_NEWA;w_VOWEL;w_SIGN;w_UU]);
  (0x1143a, [w_NEWA;w_VOWEL;w_SIGN;w_VOCALIC;w_R]);
  (0x1143b, [w_NEWA;w_VOWEL;w_SIGN;w_VOCALIC;w_RR]);
  (0x1143c, [w_NEWA;w_VOWEL;w_SIGN;w_VOCALIC;w_L]);
  (0x1143d, [w_NEWA;w_VOWEL;w_SIGN;w_VOCALIC;w_LL]);
  (0x1143e, [w_NEWA;w_VOWEL;w_SIGN;w_E]);
  (0x1143f, [w_NEWA;w_VOWEL;w_SIGN;w_AI]);
  (0x11440, [w_NEWA;w_VOWEL;w_SIGN;w_O]);
  (0x11441, [w_NEWA;w_VOWEL;w_SIGN;w_AU]);
  (0x11442, [w_NEWA;w_SIGN;w_VIRAMA]);
  (0x11443, [w_NEWA;w_SIGN;w_CANDRABINDU]);
  (0x11444, [w_NEWA;w_SIGN;w_ANUSVARA]);
  (0x11445, [w_NEWA;w_SIGN;w_VISARGA]);
  (0x11446, [w_NEWA;w_SIGN;w_NUKTA]);
  (0x11447, [w_NEWA;w_SIGN;w_AVAGRAHA]);
  (0x11448, [w_NEWA;w_SIGN;w_FINAL;w_ANUSVARA]);
  (0x11449, [w_NEWA;w_OM]);
  (0x1144a, [w_NEWA;w_SIDDHI]);
  (0x1144b, [w_NEWA;w_DANDA]);
  (0x1144c, [w_NEWA;w_DOUBLE;w_DANDA]);
  (0x1144d, [w_NEWA;w_COMMA]);
  (0x1144e, [w_NEWA;w_GAP;w_FILLER]);
  (0x1144f, [w_NEWA;w_ABBREVIATION;w_SIGN]);
  (0x11450, [w_NEWA;w_DIGIT;w_ZERO]);
  (0x11451, [w_NEWA;w_DIGIT;w_ONE]);
  (0x11452, [w_NEWA;w_DIGIT;w_TWO]);
  (0x11453, [w_NEWA;w_DIGIT;w_THREE]);
  (0x11454, [w_NEWA;w_DIGIT;w_FOUR]);
  (0x11455, [w_NEWA;w_DIGIT;w_FIVE]);
  (0x11456, [w_NEWA;w_DIGIT;w_SIX]);
  (0x11457, [w_NEWA;w_DIGIT;w_SEVEN]);
  (0x11458, [w_NEWA;w_DIGIT;w_EIGHT]);
  (0x11459, [w_NEWA;w_DIGIT;w_NINE]);
  (0x1145b, [w_NEWA;w_PLACEHOLDER;w_MARK]);
  (0x1145d, [w_NEWA;w_INSERTION;w_SIGN]);
  (0x11480, [w_TIRHUTA;w_ANJI]);
  (0x11481, [w_TIRHUTA;w_LETTER;w_A]);
  (0x11482, [w_TIRHUTA;w_LETTER;w_AA]);
  (0x11483, [w_TIRHUTA;w_LETTER;w_I]);
  (0x11484, [w_TIRHUTA;w_LETTER;w_II]);
  (0x11485, [w_TIRHUTA;w_LETTER;w_U]);
  (0x11486, [w_TIRHUTA;w_LETTER;w_UU]);
  (0x11487, [w_TIRHUTA;w_LETTER;w_VOCALIC;w_R]);
  (0x11488, [w_TIRHUTA;w_LETTER;w_VOCALIC;w_RR]);
  (0x11489, [w_TIRHUTA;w_LETTER;w_VOCALIC;w_L]);
  (0x1148a, [w_TIRHUTA;w_LETTER;w_VOCALIC;w_LL]);
  (0x1148b, [w_TIRHUTA;w_LETTER;w_E]);
  (0x1148c, [w_TIRHUTA;w_LETTER;w_AI]);
  (0x1148d, [w_TIRHUTA;w_LETTER;w_O]);
  (0x1148e, [w_TIRHUTA;w_LETTER;w_AU]);
  (0x1148f, [w_TIRHUTA;w_LETTER;w_KA]);
  (0x11490, [w_TIRHUTA;w_LETTER;w_KHA]);
  (0x11491, [w_TIRHUTA;w_LETTER;w_GA]);
  (0x11492, [w_TIRHUTA;w_LETTER;w_GHA]);
  (0x11493, [w_TIRHUTA;w_LETTER;w_NGA]);
  (0x11494, [w_TIRHUTA;w_LETTER;w_CA]);
  (0x11495, [w_TIRHUTA;w_LETTER;w_CHA]);
  (0x11496, [w_TIRHUTA;w_LETTER;w_JA]);
  (0x11497, [w_TIRHUTA;w_LETTER;w_JHA]);
  (0x11498, [w_TIRHUTA;w_LETTER;w_NYA]);
  (0x11499, [w_TIRHUTA;w_LETTER;w_TTA]);
  (0x1149a, [w_TIRHUTA;w_LETTER;w_TTHA]);
  (0x1149b, [w_TIRHUTA;w_LETTER;w_DDA]);
  (0x1149c, [w_TIRHUTA;w_LETTER;w_DDHA]);
  (0x1149d, [w_TIRHUTA;w_LETTER;w_NNA]);
  (0x1149e, [w_TIRHUTA;w_LETTER;w_TA]);
  (0x1149f, [w_TIRHUTA;w_LETTER;w_THA]);
  (0x114a0, [w_TIRHUTA;w_LETTER;w_DA]);
  (0x114a1, [w_TIRHUTA;w_LETTER;w_DHA]);
  (0x114a2, [w_TIRHUTA;w_LETTER;w_NA]);
  (0x114a3, [w_TIRHUTA;w_LETTER;w_PA]);
  (0x114a4, [w_TIRHUTA;w_LETTER;w_PHA]);
  (0x114a5, [w_TIRHUTA;w_LETTER;w_BA]);
  (0x114a6, [w_TIRHUTA;w_LETTER;w_BHA]);
  (0x114a7, [w_TIRHUTA;w_LETTER;w_MA]);
  (0x114a8, [w_TIRHUTA;w_LETTER;w_YA]);
  (0x114a9, [w_TIRHUTA;w_LETTER;w_RA]);
  (0x114aa, [w_TIRHUTA;w_LETTER;w_LA])].

Definition NAMES_49 : list (N * (list str)) := [
  (0x114ab, [w_TIRHUTA;w_LETTER;w_VA]);
  (0x114ac, [w_TIRHUTA;w_LETTER;w_SHA]);
  (0x114ad, [w_TIRHUTA;w_LETTER;w_SSA]);
  (0x114ae, [w_TIRHUTA;w_LETTER;w_SA]);
  (0x114af, [w_TIRHUTA;w_LETTER;w_HA]);
  (0x114b0, [w_TIRHUTA;w_VOWEL;w_SIGN;w_AA]);
  (0x114b1, [w_TIRHUTA;w_VOWEL;w_SIGN;w_I]);
  (0x114b2, [w_TIRHUTA;w_VOWEL;w_SIGN;w_II]);
  (0x114b3, [w_TIRHUTA;w_VOWEL;w_SIGN;w_U]);
  (0x114b4, [w_TIRHUTA;w_VOWEL;w_SIGN;w_UU]);
  (0x114b5, [w_TIRHUTA;w_VOWEL;w_SIGN;w_VOCALIC;w_R]);
  (0x114b6, [w_TIRHUTA;w_VOWEL;w_SIGN;w_VOCALIC;w_RR]);
  (0x114b7, [w_TIRHUTA;w_VOWEL;w_SIGN;w_VOCALIC;w_L]);
  (0x114b8, [w_TIRHUTA;w_VOWEL;w_SIGN;w_VOCALIC;w_LL]);
  (0x114b9, [w_TIRHUTA;w_VOWEL;w_SIGN;w_E]);
  (0x114ba, [w_TIRHUTA;w_VOWEL;w_SIGN;w_SHORT;w_E]);
  (0x114bb, [w_TIRHUTA;w_VOWEL;w_SIGN;w_AI]);
  (0x114bc, [w_TIRHUTA;w_VOWEL;w_SIGN;w_O]);
  (0x114bd, [w_TIRHUTA;w_VOWEL;w_SIGN;w_SHORT;w_O]);
  (0x114be, [w_TIRHUTA;w_VOWEL;w_SIGN;w_AU]);
  (0x114bf, [w_TIRHUTA;w_SIGN;w_CANDRABINDU]);
  (0x114c0, [w_TIRHUTA;w_SIGN;w_ANUSVARA]);
  (0x114c1, [w_TIRHUTA;w_SIGN;w_VISARGA]);
  (0x114c2, [w_TIRHUTA;w_SIGN;w_VIRAMA]);
  (0x114c3, [w_TIRHUTA;w_SIGN;w_NUKTA]);
  (0x114c4, [w_TIRHUTA;w_SIGN;w_AVAGRAHA]);
  (0x114c5, [w_TIRHUTA;w_GVANG]);
  (0x114c6, [w_TIRHUTA;w_ABBREVIATION;w_SIGN]);
  (0x114c7, [w_TIRHUTA;w_OM]);
  (0x114d0, [w_TIRHUTA;w_DIGIT;w_ZERO]);
  (0x114d1, [w_TIRHUTA;w_DIGIT;w_ONE]);
  (0x114d2, [w_TIRHUTA;w_DIGIT;w_TWO]);
  (0x114d3, [w_TIRHUTA;w_DIGIT;w_THREE]);
  (0x114d4, [w_TIRHUTA;w_DIGIT;w_FOUR]);
  (0x114d5, [w_TIRHUTA;w_DIGIT;w_FIVE]);
  (0x114d6, [w_TIRHUTA;w_DIGIT;w_SIX]);
  (0x114d7, [w_TIRHUTA;w_DIGIT;w_SEVEN]);
  (0x114d8, [w_TIRHUTA;w_DIGIT;w_EIGHT]);
  (0x114d9, [w_TIRHUTA;w_DIGIT;w_NINE]);
  (0x11580, [w_SIDDHAM;w_LETTER;w_A]);
  (0x11581, [w_SIDDHAM;w_LETTER;w_AA]);
  (0x11582, [w_SIDDHAM;w_LETTER;w_I]);
  (0x11583, [w_SIDDHAM;w_LETTER;w_II]);
  (0x11584, [w_SIDDHAM;w_LETTER;w_U]);
  (0x11585, [w_SIDDHAM;w_LETTER;w_UU]);
  (0x11586, [w_SIDDHAM;w_LETTER;w_VOCALIC;w_R]);
  (0x11587, [w_SIDDHAM;w_LETTER;w_VOCALIC;w_RR]);
  (0x11588, [w_SIDDHAM;w_LETTER;w_VOCALIC;w_L]);
  (0x11589, [w_SIDDHAM;w_LETTER;w_VOCALIC;w_LL]);
  (0x1158a, [w_SIDDHAM;w_LETTER;w_E]);
  (0x1158b, [w_SIDDHAM;w_LETTER;w_AI]);
  (0x1158c, [w_SIDDHAM;w_LETTER;w_O]);
  (0x1158d, [w_SIDDHAM;w_LETTER;w_AU]);
  (0x1158e, [w_SIDDHAM;w_LETTER;w_KA]);
  (0x1158f, [w_SIDDHAM;w_LETTER;w_KHA]);
  (0x11590, [w_SIDDHAM;w_LETTER;w_GA]);
  (0x11591, [w_SIDDHAM;w_LETTER;w_GHA]);
  (0x11592, [w_SIDDHAM;w_LETTER;w_NGA]);
  (0x11593, [w_SIDDHAM;w_LETTER;w_CA]);
  (0x11594, [w_SIDDHAM;w_LETTER;w_CHA]);
  (0x11595, [w_SIDDHAM;w_LETTER;w_JA]);
  (0x11596, [w_SIDDHAM;w_LETTER;w_JHA]);
  (0x11597, [w_SIDDHAM;w_LETTER;w_NYA]);
  (0x11598, [w_SIDDHAM;w_LETTER;w_TTA]);
  (0x11599, [w_SIDDHAM;w_LETTER;w_TTHA]);
  (0x1159a, [w_SIDDHAM;w_LETTER;w_DDA]);
  (0x1159b, [w_SIDDHAM;w_LETTER;w_DDHA]);
  (0x1159c, [w_SIDDHAM;w_LETTER;w_NNA]);
  (0x1159d, [w_SIDDHAM;w_LETTER;w_TA]);
  (0x1159e, [w_SIDDHAM;w_LETTER;w_THA]);
  (0x1159f, [w_SIDDHAM;w_LETTER;w_DA]);
  (0x115a0, [w_SIDDHAM;w_LETTER;w_DHA]);
  (0x115a1, [w_SIDDHAM;w_LETTER;w_NA]);
  (0x115a2, [w_SIDDHAM;w_LETTER;w_PA]);
  (0x115a3, [w_SIDDHAM;w_LETTER;w_PHA]);
  (0x115a4, [w_SIDDHAM;w_LETTER;w_BA]);
  (0x115a5, [w_SIDDHAM;w_LETTER;w_BHA]);
  (0x115a6, [w_SIDDHAM;w_LETTER;w_MA]);
  (0x115a7, [w_SIDDHAM;w_LETTER;w_YA]);
  (0x115a8, [w_SIDDHAM;w_LETTER;w_RA]);
  (0x115a9, [w_SIDDHAM;w_LETTER;w_LA]);
  (0x115aa, [w_SIDDHAM;w_LETTER;w_VA]);
  (0x115ab, [w_SIDDHAM;w_LETTER;w_SHA]);
  (0x115ac, [w_SIDDHAM;w_LETTER;w_SSA]);
  (0x115ad, [w_SIDDHAM;w_LETTER;w_SA]);
  (0x115ae, [w_SIDDHAM;w_LETTER;w_HA]);
  (0x115af, [w_SIDDHAM;w_VOWEL;w_SIGN;w_AA]);
  (0x115b0, [w_SIDDHAM;w_VOWEL;w_SIGN;w_I]);
  (0x115b1, [w_SIDDHAM;w_VOWEL;w_SIGN;w_II]);
  (0x115b2, [w_SIDDHAM;w_VOWEL;w_SIGN;w_U]);
  (0x115b3, [w_SIDDHAM;w_VOWEL;w_SIGN;w_UU]);
  (0x115b4, [w_SIDDHAM;w_VOWEL;w_SIGN;w_VOCALIC;w_R]);
  (0x115b5, [w_SIDDHAM;w_VOWEL;w_SIGN;w_VOCALIC;w_RR]);
  (0x115b8, [w_SIDDHAM;w_VOWEL;w_SIGN;w_E]);
  (0x115b9, [w_SIDDHAM;w_VOWEL;w_SIGN;w_AI]);
  (0x115ba, [w_SIDDHAM;w_VOWEL;w_SIGN;w_O]);
  (0x115bb, [w_SIDDHAM;w_VOWEL;w_SIGN;w_AU]);
  (0x115bc, [w_SIDDHAM;w_SIGN;w_CANDRABINDU]);
  (0x115bd, [w_SIDDHAM;w_SIGN;w_ANUSVARA]);
  (0x115be, [w_SIDDHAM;w_SIGN;w_VISARGA]);
  (0x115bf, [w_SIDDHAM;w_SIGN;w_VIRAMA]);
  (0x115c0, [w_SIDDHAM;w_SIGN;w_NUKTA]);
  (0x115c1, [w_SIDDHAM;w_SIGN;w_SIDDHAM]);
  (0x115c2, [w_SIDDHAM;w_DANDA]);
  (0x115c3, [w_SIDDHAM;w_DOUBLE;w_DANDA]);
  (0x115c4, [w_SIDDHAM;w_SEPARATOR;w_DOT]);
  (0x115c5, [w_SIDDHAM;w_SEPARATOR;w_BAR]);
  (0x115c6, [w_SIDDHAM;w_REPETITION;w_MARK_1]);
  (0x115c7, [w_SIDDHAM;w_REPETITION;w_MARK_2]);
  (0x115c8, [w_SIDDHAM;w_REPETITION;w_MARK_3]);
  (0x115c9, [w_SIDDHAM;w_END;w_OF;w_TEXT;w_MARK]);
  (0x115ca, [w_SIDDHAM;w_SECTION;w_MARK;w_WITH;w_TRIDENT;w_AND;w_U_SHAPED;w_ORNAMENTS]);
  (0x115cb, [w_SIDDHAM;w_SECTION;w_MARK;w_WITH;w_TRIDENT;w_AND;w_DOTTED;w_CRESCENTS]);
  (0x115cc, [w_SIDDHAM;w_SECTION;w_MARK;w_WITH;w_RAYS;w_AND;w_DOTTED;w_CRESCENTS]);
  (0x115cd, [w_SIDDHAM;w_SECTION;w_MARK;w_WITH;w_RAYS;w_AND;w_DOTTED;w_DOUBLE;w_CRESCENTS]);
  (0x115ce, [w_SIDDHAM;w_SECTION;w_MARK;w_WITH;w_RAYS;w_AND;w_DOTTED;w_TRIPLE;w_CRESCENTS]);
  (0x115cf, [w_SIDDHAM;w_SECTION;w_MARK;w_DOUBLE;w_RING]);
  (0x115d0, [w_SIDDHAM;w_SECTION;w_MARK;w_DOUBLE;w_RING;w_WITH;w_RAYS]);
  (0x115d1, [w_SIDDHAM;w_SECTION;w_MARK;w_WITH;w_DOUBLE;w_CRESCENTS]);
  (0x115d2, [w_SIDDHAM;w_SECTION;w_MARK;w_WITH;w_TRIPLE;w_CRESCENTS]);
  (0x115d3, [w_SIDDHAM;w_SECTION;w_MARK;w_WITH;w_QUADRUPLE;w_CRESCENTS]);
  (0x115d4, [w_SIDDHAM;w_SECTION;w_MARK;w_WITH;w_SEPTUPLE;w_CRESCENTS]);
  (0x115d5, [w_SIDDHAM;w_SECTION;w_MARK;w_WITH;w_CIRCLES;w_AND;w_RAYS]);
  (0x115d6, [w_SIDDHAM;w_SECTION;w_MARK;w_WITH;w_CIRCLES;w_AND;w_TWO;w_ENCLOSURES]);
  (0x115d7, [w_SIDDHAM;w_SECTION;w_MARK;w_WITH;w_CIRCLES;w_AND;w_FOUR;w_ENCLOSURES]);
  (0x115d8, [w_SIDDHAM;w_LETTER;w_THREE_CIRCLE;w_ALTERNATE;w_I]);
  (0x115d9, [w_SIDDHAM;w_LETTER;w_TWO_CIRCLE;w_ALTERNATE;w_I]);
  (0x115da, [w_SIDDHAM;w_LETTER;w_TWO_CIRCLE;w_ALTERNATE;w_II]);
  (0x115db, [w_SIDDHAM;w_LETTER;w_ALTERNATE;w_U]);
  (0x115dc, [w_SIDDHAM;w_VOWEL;w_SIGN;w_ALTERNATE;w_U]);
  (0x115dd, [w_SIDDHAM;w_VOWEL;w_SIGN;w_ALTERNATE;w_UU]);
  (0x11600, [w_MODI;w_LETTER;w_A]);
  (0x11601, [w_MODI;w_LETTER;w_AA]);
  (0x11602, [w_MODI;w_LETTER;w_I]);
  (0x11603, [w_MODI;w_LETTER;w_II]);
  (0x11604, [w_MODI;w_LETTER;w_U]);
  (0x11605, [w_MODI;w_LETTER;w_UU]);
  (0x11606, [w_MODI;w_LETTER;w_VOCALIC;w_R]);
  (0x11607, [w_MODI;w_LETTER;w_VOCALIC;w_RR]);
  (0x11608, [w_MODI;w_LETTER;w_VOCALIC;w_L]);
  (0x11609, [w_MODI;w_LETTER;w_VOCALIC;w_LL]);
  (0x1160a, [w_MODI;w_LETTER;w_E]);
  (0x1160b, [w_MODI;w_LETTER;w_AI]);
  (0x1160c, [w_MODI;w_LETTER;w_O]);
  (0x1160d, [w_MODI;w_LETTER;w_AU]);
  (0x1160e, [w_MODI;w_LETTER;w_KA]);
  (0x1160f, [w_MODI;w_LETTER;w_KHA]);
  (0x11610, [w_MODI;w_LETTER;w_GA]);
  (0x11611, [w_MODI;w_LETTER;w_GHA]);
  (0x11612, [w_MODI;w_LETTER;w_NGA]);
  (0x11613, [w_MODI;w_LETTER;w_CA]);
  (0x11614, [w_MODI;w_LETTER;w_CHA]);
  (0x11615, [w_MODI;w_LETTER;w_JA]);
  (0x11616, [w_MODI;w_LETTER;w_JHA]);
  (0x11617, [w_MODI;w_LETTER;w_NYA]);
  (0x11618, [w_MODI;w_LETTER;w_TTA]);
  (0x11619, [w_MODI;w_LETTER;w_TTHA]);
  (0x1161a, [w_MODI;w_LETTER;w_DDA]);
  (0x1161b, [w_MODI;w_LETTER;w_DDHA]);
  (0x1161c, [w_MODI;w_LETTER;w_NNA]);
  (0x1161d, [w_MODI;w_LETTER;w_TA]);
  (0x1161e, [w_MODI;w_LETTER;w_THA]);
  (0x1161f, [w_MODI;w_LETTER;w_DA]);
  (0x11620, [w_MODI;w_LETTER;w_DHA]);
  (0x11621, [w_MODI;w_LETTER;w_NA]);
  (0x11622, [w_MODI;w_LETTER;w_PA]);
  (0x11623, [w_MODI;w_LETTER;w_PHA]);
  (0x11624, [w_MODI;w_LETTER;w_BA]);
  (0x11625, [w_MODI;w_LETTER;w_BHA]);
  (0x11626, [w_MODI;w_LETTER;w_MA]);
  (0x11627, [w_MODI;w_LETTER;w_YA]);
  (0x11628, [w_MODI;w_LETTER;w_RA]);
  (0x11629, [w_MODI;w_LETTER;w_LA]);
  (0x1162a, [w_MODI;w_LETTER;w_VA]);
  (0x1162b, [w_MODI;w_LETTER;w_SHA]);
  (0x1162c, [w_MODI;w_LETTER;w_SSA]);
  (0x1162d, [w_MODI;w_LETTER;w_SA]);
  (0x1162e, [w_MODI;w_LETTER;w_HA]);
  (0x1162f, [w_MODI;w_LETTER;w_LLA]);
  (0x11630, [w_MODI;w_VOWEL;w_SIGN;w_AA]);
  (0x11631, [w_MODI;w_VOWEL;w_SIGN;w_I]);
  (0x11632, [w_MODI;w_VOWEL;w_SIGN;w_II]);
  (0x11633, [w_MODI;w_VOWEL;w_SIGN;w_U]);
  (0x11634, [w_MODI;w_VOWEL;w_SIGN;w_UU]);
  (0x11635, [w_MODI;w_VOWEL;w_SIGN;w_VOCALIC;w_R]);
  (0x11636, [w_MODI;w_VOWEL;w_SIGN;w_VOCALIC;w_RR]);
  (0x11637, [w_MODI;w_VOWEL;w_SIGN;w_VOCALIC;w_L]);
  (0x11638, [w_MODI;w_VOWEL;w_SIGN;w_VOCALIC;w_LL]);
  (0x11639, [w_MODI;w_VOWEL;w_SIGN;w_E]);
  (0x1163a, [w_MODI;w_VOWEL;w_SIGN;w_AI]);
  (0x1163b, [w_MODI;w_VOWEL;w_SIGN;w_O]);
  (0x1163c, [w_MODI;w_VOWEL;w_SIGN;w_AU]);
  (0x1163d, [w_MODI;w_SIGN;w_ANUSVARA]);
  (0x1163e, [w_MODI;w_SIGN;w_VISARGA]);
  (0x1163f, [w_MODI;w_SIGN;w_VIRAMA]);
  (0x11640, [w_MODI;w_SIGN;w_ARDHACANDRA]);
  (0x11641, [w_MODI;w_DANDA]);
  (0x11642, [w_MODI;w_DOUBLE;w_DANDA]);
  (0x11643, [w_MODI;w_ABBREVIATION;w_SIGN]);
  (0x11644, [w_MODI;w_SIGN;w_HUVA]);
  (0x11650, [w_MODI;w_DIGIT;w_ZERO]);
  (0x11651, [w_MODI;w_DIGIT;w_ONE]);
  (0x11652, [w_MODI;w_DIGIT;w_TWO]);
  (0x11653, [w_MODI;w_DIGIT;w_THREE]);
  (0x11654, [w_MODI;w_DIGIT;w_FOUR]);
  (0x11655, [w_MODI;w_DIGIT;w_FIVE]);
  (0x11656, [w_MODI;w_DIGIT;w_SIX]);
  (0x11657, [w_MODI;w_DIGIT;w_SEVEN]);
  (0x11658, [w_MODI;w_DIGIT;w_EIGHT]);
  (0x11659, [w_MODI;w_DIGIT;w_NINE]);
  (0x11660, [w_MONGOLIAN;w_BIRGA;w_WITH;w_ORNAMENT]);
  (0x11661, [w_MONGOLIAN;w_ROTATED;w_BIRGA]);
  (0x11662, [w_MONGOLIAN;w_DOUBLE;w_BIRGA;w_WITH;w_ORNAMENT]);
  (0x11663, [w_MONGOLIAN;w_TRIPLE;w_BIRGA;w_WITH;w_ORNAMENT]);
  (0x11664, [w_MONGOLIAN;w_BIRGA;w_WITH;w_DOUBLE;w_ORNAMENT]);
  (0x11665, [w_MONGOLIAN;w_ROTATED;w_BIRGA;w_WITH;w_ORNAMENT]);
  (0x11666, [w_MONGOLIAN;w_ROTATED;w_BIRGA;w_WITH;w_DOUBLE;w_ORNAMENT]);
  (0x11667, [w_MONGOLIAN;w_INVERTED;w_BIRGA]);
  (0x11668, [w_MONGOLIAN;w_INVERTED;w_BIRGA;w_WITH;w_DOUBLE;w_ORNAMENT]);
  (0x11669, [w_MONGOLIAN;w_SWIRL;w_BIRGA]);
  (0x1166a, [w_MONGOLIAN;w_SWIRL;w_BIRGA;w_WITH;w_ORNAMENT]);
  (0x1166b, [w_MONGOLIAN;w_SWIRL;w_BIRGA;w_WITH;w_DOUBLE;w_ORNAMENT]);
  (0x1166c, [w_MONGOLIAN;w_TURNED;w_SWIRL;w_BIRGA;w_WITH;w_DOUBLE;w_ORNAMENT]);
  (0x11680, [w_TAKRI;w_LETTER;w_A]);
  (0x11681, [w_TAKRI;w_LETTER;w_AA]);
  (0x11682, [w_TAKRI;w_LETTER;w_I]);
  (0x11683, [w_TAKRI;w_LETTER;w_II]);
  (0x11684, [w_TAKRI;w_LETTER;w_U]);
  (0x11685, [w_TAKRI;w_LETTER;w_UU]);
  (0x11686, [w_TAKRI;w_LETTER;w_E]);
  (0x11687, [w_TAKRI;w_LETTER;w_AI]);
  (0x11688, [w_TAKRI;w_LETTER;w_O]);
  (0x11689, [w_TAKRI;w_LETTER;w_AU]);
  (0x1168a, [w_TAKRI;w_LETTER;w_KA]);
  (0x1168b, [w_TAKRI;w_LETTER;w_KHA]);
  (0x1168c, [w_TAKRI;w_LETTER;w_GA]);
  (0x1168d, [w_TAKRI;w_LETTER;w_GHA]);
  (0x1168e, [w_TAKRI;w_LETTER;w_NGA]);
  (0x1168f, [w_TAKRI;w_LETTER;w_CA]);
  (0x11690, [w_TAKRI;w_LETTER;w_CHA]);
  (0x11691, [w_TAKRI;w_LETTER;w_JA]);
  (0x11692, [w_TAKRI;w_LETTER;w_JHA]);
  (0x11693, [w_TAKRI;w_LETTER;w_NYA]);
  (0x11694, [w_TAKRI;w_LETTER;w_TTA]);
  (0x11695, [w_TAKRI;w_LETTER;w_TTHA]);
  (0x11696, [w_TAKRI;w_LETTER;w_DDA]);
  (0x11697, [w_TAKRI;w_LETTER;w_DDHA]);
  (0x11698, [w_TAKRI;w_LETTER;w_NNA]);
  (0x11699, [w_TAKRI;w_LETTER;w_TA]);
  (0x1169a, [w_TAKRI;w_LETTER;w_THA]);
  (0x1169b, [w_TAKRI;w_LETTER;w_DA]);
  (0x1169c, [w_TAKRI;w_LETTER;w_DHA]);
  (0x1169d, [w_TAKRI;w_LETTER;w_NA]);
  (0x1169e, [w_TAKRI;w_LETTER;w_PA]);
  (0x1169f, [w_TAKRI;w_LETTER;w_PHA]);
  (0x116a0, [w_TAKRI;w_LETTER;w_BA]);
  (0x116a1, [w_TAKRI;w_LETTER;w_BHA]);
  (0x116a2, [w_TAKRI;w_LETTER;w_MA]);
  (0x116a3, [w_TAKRI;w_LETTER;w_YA]);
  (0x116a4, [w_TAKRI;w_LETTER;w_RA]);
  (0x116a5, [w_TAKRI;w_LETTER;w_LA]);
  (0x116a6, [w_TAKRI;w_LETTER;w_VA]);
  (0x116a7, [w_TAKRI;w_LETTER;w_SHA]);
  (0x116a8, [w_TAKRI;w_LETTER;w_SA]);
  (0x116a9, [w_TAKRI;w_LETTER;w_HA]);
  (0x116aa, [w_TAKRI;w_LETTER;w_RRA]);
  (0x116ab, [w_TAKRI;w_SIGN;w_ANUSVARA]);
  (0x116ac, [w_TAKRI;w_SIGN;w_VISARGA]);
  (0x116ad, [w_TAKRI;w_VOWEL;w_SIGN;w_AA]);
  (0x116ae, [w_TAKRI;w_VOWEL;w_SIGN;w_I]);
  (0x116af, [w_TAKRI;w_VOWEL;w_SIGN;w_II]);
  (0x116b0, [w_TAKRI;w_VOWEL;w_SIGN;w_U]);
  (0x116b1, [w_TAKRI;w_VOWEL;w_SIGN;w_UU]);
  (0x116b2, [w_TAKRI;w_VOWEL;w_SIGN;w_E]);
  (0x116b3, [w_TAKRI;w_VOWEL;w_SIGN;w_AI]);
  (0x116b4, [w_TAKRI;w_VOWEL;w_SIGN;w_O]);
  (0x116b5, [w_TAKRI;w_VOWEL;w_SIGN;w_AU]);
  (0x116b6, [w_TAKRI;w_SIGN;w_VIRAMA]);
  (0x116b7, [w_TAKRI;w_SIGN;w_NUKTA]);
  (0x116c0, [w_TAKRI;w_DIGIT;w_ZERO]);
  (0x116c1, [w_TAKRI;w_DIGIT;w_ONE]);
  (0x116c2, [w_TAKRI;w_DIGIT;w_TWO]);
  (0x116c3, [w_TAKRI;w_DIGIT;w_THREE]);
  (0x116c4, [w_TAKRI;w_DIGIT;w_FOUR]);
  (0x116c5, [w_TAKRI;w_DIGIT;w_FIVE]);
  (0x116c6, [w_TAKRI;w_DIGIT;w_SIX]);
  (0x116c7, [w_TAKRI;w_DIGIT;w_SEVEN]);
  (0x116c8, [w_TAKRI;w_DIGIT;w_EIGHT]);
  (0x116c9, [w_TAKRI;w_DIGIT;w_NINE]);
  (0x11700, [w_AHOM;w_LETTER;w_KA]);
  (0x11701, [w_AHOM;w_LETTER;w_KHA]);
  (0x11702, [w_AHOM;w_LETTER;w_NGA]);
  (0x11703, [w_AHOM;w_LETTER;w_NA]);
  (0x11704, [w_AHOM;w_LETTER;w_TA]);
  (0x11705, [w_AHOM;w_LETTER;w_ALTERNATE;w_TA]);
  (0x11706, [w_AHOM;w_LETTER;w_PA]);
  (0x11707, [w_AHOM;w_LETTER;w_PHA]);
  (0x11708, [w_AHOM;w_LETTER;w_BA]);
  (0x11709, [w_AHOM;w_LETTER;w_MA]);
  (0x1170a, [w_AHOM;w_LETTER;w_JA]);
  (0x1170b, [w_AHOM;w_LETTER;w_CHA]);
  (0x1170c, [w_AHOM;w_LETTER;w_THA]);
  (0x1170d, [w_AHOM;w_LETTER;w_RA]);
  (0x1170e, [w_AHOM;w_LETTER;w_LA]);
  (0x1170f, [w_AHOM;w_LETTER;w_SA]);
  (0x11710, [w_AHOM;w_LETTER;w_NYA]);
  (0x11711, [w_AHOM;w_LETTER;w_HA]);
  (0x11712, [w_AHOM;w_LETTER;w_A]);
  (0x11713, [w_AHOM;w_LETTER;w_DA]);
  (0x11714, [w_AHOM;w_LETTER;w_DHA]);
  (0x11715, [w_AHOM;w_LETTER;w_GA]);
  (0x11716, [w_AHOM;w_LETTER;w_ALTERNATE;w_GA]);
  (0x11717, [w_AHOM;w_LETTER;w_GHA]);
  (0x11718, [w_AHOM;w_LETTER;w_BHA]);
  (0x11719, [w_AHOM;w_LETTER;w_JHA]);
  (0x1171d, [w_AHOM;w_CONSONANT;w_SIGN;w_MEDIAL;w_LA]);
  (0x1171e, [w_AHOM;w_CONSONANT;w_SIGN;w_MEDIAL;w_RA]);
  (0x1171f, [w_AHOM;w_CONSONANT;w_SIGN;w_MEDIAL;w_LIGATING;w_RA]);
  (0x11720, [w_AHOM;w_VOWEL;w_SIGN;w_A]);
  (0x11721, [w_AHOM;w_VOWEL;w_SIGN;w_AA]);
  (0x11722, [w_AHOM;w_VOWEL;w_SIGN;w_I]);
  (0x11723, [w_AHOM;w_VOWEL;w_SIGN;w_II]);
  (0x11724, [w_AHOM;w_VOWEL;w_SIGN;w_U]);
  (0x11725, [w_AHOM;w_VOWEL;w_SIGN;w_UU]);
  (0x11726, [w_AHOM;w_VOWEL;w_SIGN;w_E]);
  (0x11727, [w_AHOM;w_VOWEL;w_SIGN;w_AW]);
  (0x11728, [w_AHOM;w_VOWEL;w_SIGN;w_O]);
  (0x11729, [w_AHOM;w_VOWEL;w_SIGN;w_AI]);
  (0x1172a, [w_AHOM;w_VOWEL;w_SIGN;w_AM]);
  (0x1172b, [w_AHOM;w_SIGN;w_KILLER]);
  (0x11730, [w_AHOM;w_DIGIT;w_ZERO]);
  (0x11731, [w_AHOM;w_DIGIT;w_ONE]);
  (0x11732, [w_AHOM;w_DIGIT;w_TWO]);
  (0x11733, [w_AHOM;w_DIGIT;w_THREE]);
  (0x11734, [w_AHOM;w_DIGIT;w_FOUR]);
  (0x11735, [w_AHOM;w_DIGIT;w_FIVE]);
  (0x11736, [w_AHOM;w_DIGIT;w_SIX]);
  (0x11737, [w_AHOM;w_DIGIT;w_SEVEN]);
  (0x11738, [w_AHOM;w_DIGIT;w_EIGHT]);
  (0x11739, [w_AHOM;w_DIGIT;w_NINE]);
  (0x1173a, [w_AHOM;w_NUMBER;w_TEN]);
  (0x1173b, [w_AHOM;w_NUMBER;w_TWENTY]);
  (0x1173c, [w_AHOM;w_SIGN;w_SMALL;w_SECTION]);
  (0x1173d, [w_AHOM;w_SIGN;w_SECTION]);
  (0x1173e, [w_AHOM;w_SIGN;w_RULAI]);
  (0x1173f, [w_AHOM;w_SYMBOL;w_VI]);
  (0x118a0, [w_WARANG;w_CITI;w_CAPITAL;w_LETTER;w_NGAA]);
  (0x118a1, [w_WARANG;w_CITI;w_CAPITAL;w_LETTER;w_A]);
  (0x118a2, [w_WARANG;w_CITI;w_CAPITAL;w_LETTER;w_WI]);
  (0x118a3, [w_WARANG;w_CITI;w_CAPITAL;w_LETTER;w_YU]);
  (0x118a4, [w_WARANG;w_CITI;w_CAPITAL;w_LETTER;w_YA]);
  (0x118a5, [w_WARANG;w_CITI;w_CAPITAL;w_LETTER;w_YO]);
  (0x118a6, [w_WARANG;w_CITI;w_CAPITAL;w_LETTER;w_II]);
  (0x118a7, [w_WARANG;w_CITI;w_CAPITAL;w_LETTER;w_UU]);
  (0x118a8, [w_WARANG;w_CITI;w_CAPITAL;w_LETTER;w_E]);
  (0x118a9, [w_WARANG;w_CITI;w_CAPITAL;w_LETTER;w_O]);
  (0x118aa, [w_WARANG;w_CITI;w_CAPITAL;w_LETTER;w_ANG]);
  (0x118ab, [w_WARANG;w_CITI;w_CAPITAL;w_LETTER;w_GA]);
  (0x118ac, [w_WARANG;w_CITI;w_CAPITAL;w_LETTER;w_KO]);
  (0x118ad, [w_WARANG;w_CITI;w_CAPITAL;w_LETTER;w_ENY]);
  (0x118ae, [w_WARANG;w_CITI;w_CAPITAL;w_LETTER;w_YUJ]);
  (0x118af, [w_WARANG;w_CITI;w_CAPITAL;w_LETTER;w_UC]);
  (0x118b0, [w_WARANG;w_CITI;w_CAPITAL;w_LETTER;w_ENN]);
  (0x118b1, [w_WARANG;w_CITI;w_CAPITAL;w_LETTER;w_ODD]);
  (0x118b2, [w_WARANG;w_CITI;w_CAPITAL;w_LETTER;w_TTE]);
  (0x118b3, [w_WARANG;w_CITI;w_CAPITAL;w_LETTER;w_NUNG]);
  (0x118b4, [w_WARANG;w_CITI;w_CAPITAL;w_LETTER;w_DA]);
  (0x118b5, [w_WARANG;w_CITI;w_CAPITAL;w_LETTER;w_AT]);
  (0x118b6, [w_WARANG;w_CITI;w_CAPITAL;w_LETTER;w_AM]);
  (0x118b7, [w_WARANG;w_CITI;w_CAPITAL;w_LETTER;w_BU]);
  (0x118b8, [w_WARANG;w_CITI;w_CAPITAL;w_LETTER;w_PU]);
  (0x118b9, [w_WARANG;w_CITI;w_CAPITAL;w_LETTER;w_HIYO]);
  (0x118ba, [w_WARANG;w_CITI;w_CAPITAL;w_LETTER;w_HOLO]);
  (0x118bb, [w_WARANG;w_CITI;w_CAPITAL;w_LETTER;w_HORR]);
  (0x118bc, [w_WARANG;w_CITI;w_CAPITAL;w_LETTER;w_HAR]);
  (0x118bd, [w_WARANG;w_CITI;w_CAPITAL;w_LETTER;w_SSUU]);
  (0x118be, [w_WARANG;w_CITI;w_CAPITAL;w_LETTER;w_SII]);
  (0x118bf, [w_WARANG;w_CITI;w_CAPITAL;w_LETTER;w_VIYO]);
  (0x118c0, [w_WARANG;w_CITI;w_SMALL;w_LETTER;w_NGAA]);
  (0x118c1, [w_WARANG;w_CITI;w_SMALL;w_LETTER;w_A]);
  (0x118c2, [w_WARANG;w_CITI;w_SMALL;w_LETTER;w_WI]);
  (0x118c3, [w_WARANG;w_CITI;w_SMALL;w_LETTER;w_YU]);
  (0x118c4, [w_WARANG;w_CITI;w_SMALL;w_LETTER;w_YA]);
  (0x118c5, [w_WARANG;w_CITI;w_SMALL;w_LETTER;w_YO]);
  (0x118c6, [w_WARANG;w_CITI;w_SMALL;w_LETTER;w_II]);
  (0x118c7, [w_WARANG;w_CITI;w_SMALL;w_LETTER;w_UU]);
  (0x118c8, [w_WARANG;w_CITI;w_SMALL;w_LETTER;w_E]);
  (0x118c9, [w_WARANG;w_CITI;w_SMALL;w_LETTER;w_O]);
  (0x118ca, [w_WARANG;w_CITI;w_SMALL;w_LETTER;w_ANG]);
  (0x118cb, [w_WARANG;w_CITI;w_SMALL;w_LETTER;w_GA]);
  (0x118cc, [w_WARANG;w_CITI;w_SMALL;w_LETTER;w_KO]);
  (0x118cd, [w_WARANG;w_CITI;w_SMALL;w_LETTER;w_ENY]);
  (0x118ce, [w_WARANG;w_CITI;w_SMALL;w_LETTER;w_YUJ]);
  (0x118cf, [w_WARANG;w_CITI;w_SMALL;w_LETTER;w_UC]);
  (0x118d0, [w_WARANG;w_CITI;w_SMALL;w_LETTER;w_ENN]);
  (0x118d1, [w_WARANG;w_CITI;w_SMALL;w_LETTER;w_ODD]);
  (0x118d2, [w_WARANG;w_CITI;w_SMALL;w_LETTER;w_TTE]);
  (0x118d3, [w_WARANG;w_CITI;w_SMALL;w_LETTER;w_NUNG]);
  (0x118d4, [w_WARANG;w_CITI;w_SMALL;w_LETTER;w_DA]);
  (0x118d5, [w_WARANG;w_CITI;w_SMALL;w_LETTER;w_AT])].

Definition NAMES_50 : list (N * (list str)) := [
  (0x118d6, [w_WARANG;w_CITI;w_SMALL;w_LETTER;w_AM]);
  (0x118d7, [w_WARANG;w_CITI;w_SMALL;w_LETTER;w_BU]);
  (0x118d8, [w_WARANG;w_CITI;w_SMALL;w_LETTER;w_PU]);
  (0x118d9, [w_WARANG;w_CITI;w_SMALL;w_LETTER;w_HIYO]);
  (0x118da, [w_WARANG;w_CITI;w_SMALL;w_LETTER;w_HOLO]);
  (0x118db, [w_WARANG;w_CITI;w_SMALL;w_LETTER;w_HORR]);
  (0x118dc, [w_WARANG;w_CITI;w_SMALL;w_LETTER;w_HAR]);
  (0x118dd, [w_WARANG;w_CITI;w_SMALL;w_LETTER;w_SSUU]);
  (0x118de, [w_WARANG;w_CITI;w_SMALL;w_LETTER;w_SII]);
  (0x118df, [w_WARANG;w_CITI;w_SMALL;w_LETTER;w_VIYO]);
  (0x118e0, [w_WARANG;w_CITI;w_DIGIT;w_ZERO]);
  (0x118e1, [w_WARANG;w_CITI;w_DIGIT;w_ONE]);
  (0x118e2, [w_WARANG;w_CITI;w_DIGIT;w_TWO]);
  (0x118e3, [w_WARANG;w_CITI;w_DIGIT;w_THREE]);
  (0x118e4, [w_WARANG;w_CITI;w_DIGIT;w_FOUR]);
  (0x118e5, [w_WARANG;w_CITI;w_DIGIT;w_FIVE]);
  (0x118e6, [w_WARANG;w_CITI;w_DIGIT;w_SIX]);
  (0x118e7, [w_WARANG;w_CITI;w_DIGIT;w_SEVEN]);
  (0x118e8, [w_WARANG;w_CITI;w_DIGIT;w_EIGHT]);
  (0x118e9, [w_WARANG;w_CITI;w_DIGIT;w_NINE]);
  (0x118ea, [w_WARANG;w_CITI;w_NUMBER;w_TEN]);
  (0x118eb, [w_WARANG;w_CITI;w_NUMBER;w_TWENTY]);
  (0x118ec, [w_WARANG;w_CITI;w_NUMBER;w_THIRTY]);
  (0x118ed, [w_WARANG;w_CITI;w_NUMBER;w_FORTY]);
  (0x118ee, [w_WARANG;w_CITI;w_NUMBER;w_FIFTY]);
  (0x118ef, [w_WARANG;w_CITI;w_NUMBER;w_SIXTY]);
  (0x118f0, [w_WARANG;w_CITI;w_NUMBER;w_SEVENTY]);
  (0x118f1, [w_WARANG;w_CITI;w_NUMBER;w_EIGHTY]);
  (0x118f2, [w_WARANG;w_CITI;w_NUMBER;w_NINETY]);
  (0x118ff, [w_WARANG;w_CITI;w_OM]);
  (0x11a00, [w_ZANABAZAR;w_SQUARE;w_LETTER;w_A]);
  (0x11a01, [w_ZANABAZAR;w_SQUARE;w_VOWEL;w_SIGN;w_I]);
  (0x11a02, [w_ZANABAZAR;w_SQUARE;w_VOWEL;w_SIGN;w_UE]);
  (0x11a03, [w_ZANABAZAR;w_SQUARE;w_VOWEL;w_SIGN;w_U]);
  (0x11a04, [w_ZANABAZAR;w_SQUARE;w_VOWEL;w_SIGN;w_E]);
  (0x11a05, [w_ZANABAZAR;w_SQUARE;w_VOWEL;w_SIGN;w_OE]);
  (0x11a06, [w_ZANABAZAR;w_SQUARE;w_VOWEL;w_SIGN;w_O]);
  (0x11a07, [w_ZANABAZAR;w_SQUARE;w_VOWEL;w_SIGN;w_AI]);
  (0x11a08, [w_ZANABAZAR;w_SQUARE;w_VOWEL;w_SIGN;w_AU]);
  (0x11a09, [w_ZANABAZAR;w_SQUARE;w_VOWEL;w_SIGN;w_REVERSED;w_I]);
  (0x11a0a, [w_ZANABAZAR;w_SQUARE;w_VOWEL;w_LENGTH;w_MARK]);
  (0x11a0b, [w_ZANABAZAR;w_SQUARE;w_LETTER;w_KA]);
  (0x11a0c, [w_ZANABAZAR;w_SQUARE;w_LETTER;w_KHA]);
  (0x11a0d, [w_ZANABAZAR;w_SQUARE;w_LETTER;w_GA]);
  (0x11a0e, [w_ZANABAZAR;w_SQUARE;w_LETTER;w_GHA]);
  (0x11a0f, [w_ZANABAZAR;w_SQUARE;w_LETTER;w_NGA]);
  (0x11a10, [w_ZANABAZAR;w_SQUARE;w_LETTER;w_CA]);
  (0x11a11, [w_ZANABAZAR;w_SQUARE;w_LETTER;w_CHA]);
  (0x11a12, [w_ZANABAZAR;w_SQUARE;w_LETTER;w_JA]);
  (0x11a13, [w_ZANABAZAR;w_SQUARE;w_LETTER;w_NYA]);
  (0x11a14, [w_ZANABAZAR;w_SQUARE;w_LETTER;w_TTA]);
  (0x11a15, [w_ZANABAZAR;w_SQUARE;w_LETTER;w_TTHA]);
  (0x11a16, [w_ZANABAZAR;w_SQUARE;w_LETTER;w_DDA]);
  (0x11a17, [w_ZANABAZAR;w_SQUARE;w_LETTER;w_DDHA]);
  (0x11a18, [w_ZANABAZAR;w_SQUARE;w_LETTER;w_NNA]);
  (0x11a19, [w_ZANABAZAR;w_SQUARE;w_LETTER;w_TA]);
  (0x11a1a, [w_ZANABAZAR;w_SQUARE;w_LETTER;w_THA]);
  (0x11a1b, [w_ZANABAZAR;w_SQUARE;w_LETTER;w_DA]);
  (0x11a1c, [w_ZANABAZAR;w_SQUARE;w_LETTER;w_DHA]);
  (0x11a1d, [w_ZANABAZAR;w_SQUARE;w_LETTER;w_NA]);
  (0x11a1e, [w_ZANABAZAR;w_SQUARE;w_LETTER;w_PA]);
  (0x11a1f, [w_ZANABAZAR;w_SQUARE;w_LETTER;w_PHA]);
  (0x11a20, [w_ZANABAZAR;w_SQUARE;w_LETTER;w_BA]);
  (0x11a21, [w_ZANABAZAR;w_SQUARE;w_LETTER;w_BHA]);
  (0x11a22, [w_ZANABAZAR;w_SQUARE;w_LETTER;w_MA]);
  (0x11a23, [w_ZANABAZAR;w_SQUARE;w_LETTER;w_TSA]);
  (0x11a24, [w_ZANABAZAR;w_SQUARE;w_LETTER;w_TSHA]);
  (0x11a25, [w_ZANABAZAR;w_SQUARE;w_LETTER;w_DZA]);
  (0x11a26, [w_ZANABAZAR;w_SQUARE;w_LETTER;w_DZHA]);
  (0x11a27, [w_ZANABAZAR;w_SQUARE;w_LETTER;w_ZHA]);
  (0x11a28, [w_ZANABAZAR;w_SQUARE;w_LETTER;w_ZA]);
  (0x11a29, [w_ZANABAZAR;w_SQUARE;w_LETTER;w__A]);
  (0x11a2a, [w_ZANABAZAR;w_SQUARE;w_LETTER;w_YA]);
  (0x11a2b, [w_ZANABAZAR;w_SQUARE;w_LETTER;w_RA]);
  (0x11a2c, [w_ZANABAZAR;w_SQUARE;w_LETTER;w_LA]);
  (0x11a2d, [w_ZANABAZAR;w_SQUARE;w_LETTER;w_VA]);
  (0x11a2e, [w_ZANABAZAR;w_SQUARE;w_LETTER;w_SHA]);
  (0x11a2f, [w_ZANABAZAR;w_SQUARE;w_LETTER;w_SSA]);
  (0x11a30, [w_ZANABAZAR;w_SQUARE;w_LETTER;w_SA]);
  (0x11a31, [w_ZANABAZAR;w_SQUARE;w_LETTER;w_HA]);
  (0x11a32, [w_ZANABAZAR;w_SQUARE;w_LETTER;w_KSSA]);
  (0x11a33, [w_ZANABAZAR;w_SQUARE;w_FINAL;w_CONSONANT;w_MARK]);
  (0x11a34, [w_ZANABAZAR;w_SQUARE;w_SIGN;w_VIRAMA]);
  (0x11a35, [w_ZANABAZAR;w_SQUARE;w_SIGN;w_CANDRABINDU]);
  (0x11a36, [w_ZANABAZAR;w_SQUARE;w_SIGN;w_CANDRABINDU;w_WITH;w_ORNAMENT]);
  (0x11a37, [w_ZANABAZAR;w_SQUARE;w_SIGN;w_CANDRA;w_WITH;w_ORNAMENT]);
  (0x11a38, [w_ZANABAZAR;w_SQUARE;w_SIGN;w_ANUSVARA]);
  (0x11a39, [w_ZANABAZAR;w_SQUARE;w_SIGN;w_VISARGA]);
  (0x11a3a, [w_ZANABAZAR;w_SQUARE;w_CLUSTER_INITIAL;w_LETTER;w_RA]);
  (0x11a3b, [w_ZANABAZAR;w_SQUARE;w_CLUSTER_FINAL;w_LETTER;w_YA]);
  (0x11a3c, [w_ZANABAZAR;w_SQUARE;w_CLUSTER_FINAL;w_LETTER;w_RA]);
  (0x11a3d, [w_ZANABAZAR;w_SQUARE;w_CLUSTER_FINAL;w_LETTER;w_LA]);
  (0x11a3e, [w_ZANABAZAR;w_SQUARE;w_CLUSTER_FINAL;w_LETTER;w_VA]);
  (0x11a3f, [w_ZANABAZAR;w_SQUARE;w_INITIAL;w_HEAD;w_MARK]);
  (0x11a40, [w_ZANABAZAR;w_SQUARE;w_CLOSING;w_HEAD;w_MARK]);
  (0x11a41, [w_ZANABAZAR;w_SQUARE;w_MARK;w_TSHEG]);
  (0x11a42, [w_ZANABAZAR;w_SQUARE;w_MARK;w_SHAD]);
  (0x11a43, [w_ZANABAZAR;w_SQUARE;w_MARK;w_DOUBLE;w_SHAD]);
  (0x11a44, [w_ZANABAZAR;w_SQUARE;w_MARK;w_LONG;w_TSHEG]);
  (0x11a45, [w_ZANABAZAR;w_SQUARE;w_INITIAL;w_DOUBLE_LINED;w_HEAD;w_MARK]);
  (0x11a46, [w_ZANABAZAR;w_SQUARE;w_CLOSING;w_DOUBLE_LINED;w_HEAD;w_MARK]);
  (0x11a47, [w_ZANABAZAR;w_SQUARE;w_SUBJOINER]);
  (0x11a50, [w_SOYOMBO;w_LETTER;w_A]);
  (0x11a51, [w_SOYOMBO;w_VOWEL;w_SIGN;w_I]);
  (0x11a52, [w_SOYOMBO;w_VOWEL;w_SIGN;w_UE]);
  (0x11a53, [w_SOYOMBO;w_VOWEL;w_SIGN;w_U]);
  (0x11a54, [w_SOYOMBO;w_VOWEL;w_SIGN;w_E]);
  (0x11a55, [w_SOYOMBO;w_VOWEL;w_SIGN;w_O]);
  (0x11a56, [w_SOYOMBO;w_VOWEL;w_SIGN;w_OE]);
  (0x11a57, [w_SOYOMBO;w_VOWEL;w_SIGN;w_AI]);
  (0x11a58, [w_SOYOMBO;w_VOWEL;w_SIGN;w_AU]);
  (0x11a59, [w_SOYOMBO;w_VOWEL;w_SIGN;w_VOCALIC;w_R]);
  (0x11a5a, [w_SOYOMBO;w_VOWEL;w_SIGN;w_VOCALIC;w_L]);
  (0x11a5b, [w_SOYOMBO;w_VOWEL;w_LENGTH;w_MARK]);
  (0x11a5c, [w_SOYOMBO;w_LETTER;w_KA]);
  (0x11a5d, [w_SOYOMBO;w_LETTER;w_KHA]);
  (0x11a5e, [w_SOYOMBO;w_LETTER;w_GA]);
  (0x11a5f, [w_SOYOMBO;w_LETTER;w_GHA]);
  (0x11a60, [w_SOYOMBO;w_LETTER;w_NGA]);
  (0x11a61, [w_SOYOMBO;w_LETTER;w_CA]);
  (0x11a62, [w_SOYOMBO;w_LETTER;w_CHA]);
  (0x11a63, [w_SOYOMBO;w_LETTER;w_JA]);
  (0x11a64, [w_SOYOMBO;w_LETTER;w_JHA]);
  (0x11a65, [w_SOYOMBO;w_LETTER;w_NYA]);
  (0x11a66, [w_SOYOMBO;w_LETTER;w_TTA]);
  (0x11a67, [w_SOYOMBO;w_LETTER;w_TTHA]);
  (0x11a68, [w_SOYOMBO;w_LETTER;w_DDA]);
  (0x11a69, [w_SOYOMBO;w_LETTER;w_DDHA]);
  (0x11a6a, [w_SOYOMBO;w_LETTER;w_NNA]);
  (0x11a6b, [w_SOYOMBO;w_LETTER;w_TA]);
  (0x11a6c, [w_SOYOMBO;w_LETTER;w_THA]);
  (0x11a6d, [w_SOYOMBO;w_LETTER;w_DA]);
  (0x11a6e, [w_SOYOMBO;w_LETTER;w_DHA]);
  (0x11a6f, [w_SOYOMBO;w_LETTER;w_NA]);
  (0x11a70, [w_SOYOMBO;w_LETTER;w_PA]);
  (0x11a71, [w_SOYOMBO;w_LETTER;w_PHA]);
  (0x11a72, [w_SOYOMBO;w_LETTER;w_BA]);
  (0x11a73, [w_SOYOMBO;w_LETTER;w_BHA]);
  (0x11a74, [w_SOYOMBO;w_LETTER;w_MA]);
  (0x11a75, [w_SOYOMBO;w_LETTER;w_TSA]);
  (0x11a76, [w_SOYOMBO;w_LETTER;w_TSHA]);
  (0x11a77, [w_SOYOMBO;w_LETTER;w_DZA]);
  (0x11a78, [w_SOYOMBO;w_LETTER;w_ZHA]);
  (0x11a79, [w_SOYOMBO;w_LETTER;w_ZA]);
  (0x11a7a, [w_SOYOMBO;w_LETTER;w__A]);
  (0x11a7b, [w_SOYOMBO;w_LETTER;w_YA]);
  (0x11a7c, [w_SOYOMBO;w_LETTER;w_RA]);
  (0x11a7d, [w_SOYOMBO;w_LETTER;w_LA]);
  (0x11a7e, [w_SOYOMBO;w_LETTER;w_VA]);
  (0x11a7f, [w_SOYOMBO;w_LETTER;w_SHA]);
  (0x11a80, [w_SOYOMBO;w_LETTER;w_SSA]);
  (0x11a81, [w_SOYOMBO;w_LETTER;w_SA]);
  (0x11a82, [w_SOYOMBO;w_LETTER;w_HA]);
  (0x11a83, [w_SOYOMBO;w_LETTER;w_KSSA]);
  (0x11a86, [w_SOYOMBO;w_CLUSTER_INITIAL;w_LETTER;w_RA]);
  (0x11a87, [w_SOYOMBO;w_CLUSTER_INITIAL;w_LETTER;w_LA]);
  (0x11a88, [w_SOYOMBO;w_CLUSTER_INITIAL;w_LETTER;w_SHA]);
  (0x11a89, [w_SOYOMBO;w_CLUSTER_INITIAL;w_LETTER;w_SA]);
  (0x11a8a, [w_SOYOMBO;w_FINAL;w_CONSONANT;w_SIGN;w_G]);
  (0x11a8b, [w_SOYOMBO;w_FINAL;w_CONSONANT;w_SIGN;w_K]);
  (0x11a8c, [w_SOYOMBO;w_FINAL;w_CONSONANT;w_SIGN;w_NG]);
  (0x11a8d, [w_SOYOMBO;w_FINAL;w_CONSONANT;w_SIGN;w_D]);
  (0x11a8e, [w_SOYOMBO;w_FINAL;w_CONSONANT;w_SIGN;w_N]);
  (0x11a8f, [w_SOYOMBO;w_FINAL;w_CONSONANT;w_SIGN;w_B]);
  (0x11a90, [w_SOYOMBO;w_FINAL;w_CONSONANT;w_SIGN;w_M]);
  (0x11a91, [w_SOYOMBO;w_FINAL;w_CONSONANT;w_SIGN;w_R]);
  (0x11a92, [w_SOYOMBO;w_FINAL;w_CONSONANT;w_SIGN;w_L]);
  (0x11a93, [w_SOYOMBO;w_FINAL;w_CONSONANT;w_SIGN;w_SH]);
  (0x11a94, [w_SOYOMBO;w_FINAL;w_CONSONANT;w_SIGN;w_S]);
  (0x11a95, [w_SOYOMBO;w_FINAL;w_CONSONANT;w_SIGN;w__A]);
  (0x11a96, [w_SOYOMBO;w_SIGN;w_ANUSVARA]);
  (0x11a97, [w_SOYOMBO;w_SIGN;w_VISARGA]);
  (0x11a98, [w_SOYOMBO;w_GEMINATION;w_MARK]);
  (0x11a99, [w_SOYOMBO;w_SUBJOINER]);
  (0x11a9a, [w_SOYOMBO;w_MARK;w_TSHEG]);
  (0x11a9b, [w_SOYOMBO;w_MARK;w_SHAD]);
  (0x11a9c, [w_SOYOMBO;w_MARK;w_DOUBLE;w_SHAD]);
  (0x11a9e, [w_SOYOMBO;w_HEAD;w_MARK;w_WITH;w_MOON;w_AND;w_SUN;w_AND;w_TRIPLE;w_FLAME]);
  (0x11a9f, [w_SOYOMBO;w_HEAD;w_MARK;w_WITH;w_MOON;w_AND;w_SUN;w_AND;w_FLAME]);
  (0x11aa0, [w_SOYOMBO;w_HEAD;w_MARK;w_WITH;w_MOON;w_AND;w_SUN]);
  (0x11aa1, [w_SOYOMBO;w_TERMINAL;w_MARK_1]);
  (0x11aa2, [w_SOYOMBO;w_TERMINAL;w_MARK_2]);
  (0x11ac0, [w_PAU;w_CIN;w_HAU;w_LETTER;w_PA]);
  (0x11ac1, [w_PAU;w_CIN;w_HAU;w_LETTER;w_KA]);
  (0x11ac2, [w_PAU;w_CIN;w_HAU;w_LETTER;w_LA]);
  (0x11ac3, [w_PAU;w_CIN;w_HAU;w_LETTER;w_MA]);
  (0x11ac4, [w_PAU;w_CIN;w_HAU;w_LETTER;w_DA]);
  (0x11ac5, [w_PAU;w_CIN;w_HAU;w_LETTER;w_ZA]);
  (0x11ac6, [w_PAU;w_CIN;w_HAU;w_LETTER;w_VA]);
  (0x11ac7, [w_PAU;w_CIN;w_HAU;w_LETTER;w_NGA]);
  (0x11ac8, [w_PAU;w_CIN;w_HAU;w_LETTER;w_HA]);
  (0x11ac9, [w_PAU;w_CIN;w_HAU;w_LETTER;w_GA]);
  (0x11aca, [w_PAU;w_CIN;w_HAU;w_LETTER;w_KHA]);
  (0x11acb, [w_PAU;w_CIN;w_HAU;w_LETTER;w_SA]);
  (0x11acc, [w_PAU;w_CIN;w_HAU;w_LETTER;w_BA]);
  (0x11acd, [w_PAU;w_CIN;w_HAU;w_LETTER;w_CA]);
  (0x11ace, [w_PAU;w_CIN;w_HAU;w_LETTER;w_TA]);
  (0x11acf, [w_PAU;w_CIN;w_HAU;w_LETTER;w_THA]);
  (0x11ad0, [w_PAU;w_CIN;w_HAU;w_LETTER;w_NA]);
  (0x11ad1, [w_PAU;w_CIN;w_HAU;w_LETTER;w_PHA]);
  (0x11ad2, [w_PAU;w_CIN;w_HAU;w_LETTER;w_RA]);
  (0x11ad3, [w_PAU;w_CIN;w_HAU;w_LETTER;w_FA]);
  (0x11ad4, [w_PAU;w_CIN;w_HAU;w_LETTER;w_CHA]);
  (0x11ad5, [w_PAU;w_CIN;w_HAU;w_LETTER;w_A]);
  (0x11ad6, [w_PAU;w_CIN;w_HAU;w_LETTER;w_E]);
  (0x11ad7, [w_PAU;w_CIN;w_HAU;w_LETTER;w_I]);
  (0x11ad8, [w_PAU;w_CIN;w_HAU;w_LETTER;w_O]);
  (0x11ad9, [w_PAU;w_CIN;w_HAU;w_LETTER;w_U]);
  (0x11ada, [w_PAU;w_CIN;w_HAU;w_LETTER;w_UA]);
  (0x11adb, [w_PAU;w_CIN;w_HAU;w_LETTER;w_IA]);
  (0x11adc, [w_PAU;w_CIN;w_HAU;w_LETTER;w_FINAL;w_P]);
  (0x11add, [w_PAU;w_CIN;w_HAU;w_LETTER;w_FINAL;w_K]);
  (0x11ade, [w_PAU;w_CIN;w_HAU;w_LETTER;w_FINAL;w_T]);
  (0x11adf, [w_PAU;w_CIN;w_HAU;w_LETTER;w_FINAL;w_M]);
  (0x11ae0, [w_PAU;w_CIN;w_HAU;w_LETTER;w_FINAL;w_N]);
  (0x11ae1, [w_PAU;w_CIN;w_HAU;w_LETTER;w_FINAL;w_L]);
  (0x11ae2, [w_PAU;w_CIN;w_HAU;w_LETTER;w_FINAL;w_W]);
  (0x11ae3, [w_PAU;w_CIN;w_HAU;w_LETTER;w_FINAL;w_NG]);
  (0x11ae4, [w_PAU;w_CIN;w_HAU;w_LETTER;w_FINAL;w_Y]);
  (0x11ae5, [w_PAU;w_CIN;w_HAU;w_RISING;w_TONE;w_LONG]);
  (0x11ae6, [w_PAU;w_CIN;w_HAU;w_RISING;w_TONE]);
  (0x11ae7, [w_PAU;w_CIN;w_HAU;w_SANDHI;w_GLOTTAL;w_STOP]);
  (0x11ae8, [w_PAU;w_CIN;w_HAU;w_RISING;w_TONE;w_LONG;w_FINAL]);
  (0x11ae9, [w_PAU;w_CIN;w_HAU;w_RISING;w_TONE;w_FINAL]);
  (0x11aea, [w_PAU;w_CIN;w_HAU;w_SANDHI;w_GLOTTAL;w_STOP;w_FINAL]);
  (0x11aeb, [w_PAU;w_CIN;w_HAU;w_SANDHI;w_TONE;w_LONG]);
  (0x11aec, [w_PAU;w_CIN;w_HAU;w_SANDHI;w_TONE]);
  (0x11aed, [w_PAU;w_CIN;w_HAU;w_SANDHI;w_TONE;w_LONG;w_FINAL]);
  (0x11aee, [w_PAU;w_CIN;w_HAU;w_SANDHI;w_TONE;w_FINAL]);
  (0x11aef, [w_PAU;w_CIN;w_HAU;w_MID_LEVEL;w_TONE]);
  (0x11af0, [w_PAU;w_CIN;w_HAU;w_GLOTTAL;w_STOP;w_VARIANT]);
  (0x11af1, [w_PAU;w_CIN;w_HAU;w_MID_LEVEL;w_TONE;w_LONG;w_FINAL]);
  (0x11af2, [w_PAU;w_CIN;w_HAU;w_MID_LEVEL;w_TONE;w_FINAL]);
  (0x11af3, [w_PAU;w_CIN;w_HAU;w_LOW_FALLING;w_TONE;w_LONG]);
  (0x11af4, [w_PAU;w_CIN;w_HAU;w_LOW_FALLING;w_TONE]);
  (0x11af5, [w_PAU;w_CIN;w_HAU;w_GLOTTAL;w_STOP]);
  (0x11af6, [w_PAU;w_CIN;w_HAU;w_LOW_FALLING;w_TONE;w_LONG;w_FINAL]);
  (0x11af7, [w_PAU;w_CIN;w_HAU;w_LOW_FALLING;w_TONE;w_FINAL]);
  (0x11af8, [w_PAU;w_CIN;w_HAU;w_GLOTTAL;w_STOP;w_FINAL]);
  (0x11c00, [w_BHAIKSUKI;w_LETTER;w_A]);
  (0x11c01, [w_BHAIKSUKI;w_LETTER;w_AA]);
  (0x11c02, [w_BHAIKSUKI;w_LETTER;w_I]);
  (0x11c03, [w_BHAIKSUKI;w_LETTER;w_II]);
  (0x11c04, [w_BHAIKSUKI;w_LETTER;w_U]);
  (0x11c05, [w_BHAIKSUKI;w_LETTER;w_UU]);
  (0x11c06, [w_BHAIKSUKI;w_LETTER;w_VOCALIC;w_R]);
  (0x11c07, [w_BHAIKSUKI;w_LETTER;w_VOCALIC;w_RR]);
  (0x11c08, [w_BHAIKSUKI;w_LETTER;w_VOCALIC;w_L]);
  (0x11c0a, [w_BHAIKSUKI;w_LETTER;w_E]);
  (0x11c0b, [w_BHAIKSUKI;w_LETTER;w_AI]);
  (0x11c0c, [w_BHAIKSUKI;w_LETTER;w_O]);
  (0x11c0d, [w_BHAIKSUKI;w_LETTER;w_AU]);
  (0x11c0e, [w_BHAIKSUKI;w_LETTER;w_KA]);
  (0x11c0f, [w_BHAIKSUKI;w_LETTER;w_KHA]);
  (0x11c10, [w_BHAIKSUKI;w_LETTER;w_GA]);
  (0x11c11, [w_BHAIKSUKI;w_LETTER;w_GHA]);
  (0x11c12, [w_BHAIKSUKI;w_LETTER;w_NGA]);
  (0x11c13, [w_BHAIKSUKI;w_LETTER;w_CA]);
  (0x11c14, [w_BHAIKSUKI;w_LETTER;w_CHA]);
  (0x11c15, [w_BHAIKSUKI;w_LETTER;w_JA]);
  (0x11c16, [w_BHAIKSUKI;w_LETTER;w_JHA]);
  (0x11c17, [w_BHAIKSUKI;w_LETTER;w_NYA]);
  (0x11c18, [w_BHAIKSUKI;w_LETTER;w_TTA]);
  (0x11c19, [w_BHAIKSUKI;w_LETTER;w_TTHA]);
  (0x11c1a, [w_BHAIKSUKI;w_LETTER;w_DDA]);
  (0x11c1b, [w_BHAIKSUKI;w_LETTER;w_DDHA]);
  (0x11c1c, [w_BHAIKSUKI;w_LETTER;w_NNA]);
  (0x11c1d, [w_BHAIKSUKI;w_LETTER;w_TA]);
  (0x11c1e, [w_BHAIKSUKI;w_LETTER;w_THA]);
  (0x11c1f, [w_BHAIKSUKI;w_LETTER;w_DA]);
  (0x11c20, [w_BHAIKSUKI;w_LETTER;w_DHA]);
  (0x11c21, [w_BHAIKSUKI;w_LETTER;w_NA]);
  (0x11c22, [w_BHAIKSUKI;w_LETTER;w_PA]);
  (0x11c23, [w_BHAIKSUKI;w_LETTER;w_PHA]);
  (0x11c24, [w_BHAIKSUKI;w_LETTER;w_BA]);
  (0x11c25, [w_BHAIKSUKI;w_LETTER;w_BHA]);
  (0x11c26, [w_BHAIKSUKI;w_LETTER;w_MA]);
  (0x11c27, [w_BHAIKSUKI;w_LETTER;w_YA]);
  (0x11c28, [w_BHAIKSUKI;w_LETTER;w_RA]);
  (0x11c29, [w_BHAIKSUKI;w_LETTER;w_LA]);
  (0x11c2a, [w_BHAIKSUKI;w_LETTER;w_VA]);
  (0x11c2b, [w_BHAIKSUKI;w_LETTER;w_SHA]);
  (0x11c2c, [w_BHAIKSUKI;w_LETTER;w_SSA]);
  (0x11c2d, [w_BHAIKSUKI;w_LETTER;w_SA]);
  (0x11c2e, [w_BHAIKSUKI;w_LETTER;w_HA]);
  (0x11c2f, [w_BHAIKSUKI;w_VOWEL;w_SIGN;w_AA]);
  (0x11c30, [w_BHAIKSUKI;w_VOWEL;w_SIGN;w_I]);
  (0x11c31, [w_BHAIKSUKI;w_VOWEL;w_SIGN;w_II]);
  (0x11c32, [w_BHAIKSUKI;w_VOWEL;w_SIGN;w_U]);
  (0x11c33, [w_BHAIKSUKI;w_VOWEL;w_SIGN;w_UU]);
  (0x11c34, [w_BHAIKSUKI;w_VOWEL;w_SIGN;w_VOCALIC;w_R]);
  (0x11c35, [w_BHAIKSUKI;w_VOWEL;w_SIGN;w_VOCALIC;w_RR]);
  (0x11c36, [w_BHAIKSUKI;w_VOWEL;w_SIGN;w_VOCALIC;w_L]);
  (0x11c38, [w_BHAIKSUKI;w_VOWEL;w_SIGN;w_E]);
  (0x11c39, [w_BHAIKSUKI;w_VOWEL;w_SIGN;w_AI]);
  (0x11c3a, [w_BHAIKSUKI;w_VOWEL;w_SIGN;w_O]);
  (0x11c3b, [w_BHAIKSUKI;w_VOWEL;w_SIGN;w_AU]);
  (0x11c3c, [w_BHAIKSUKI;w_SIGN;w_CANDRABINDU]);
  (0x11c3d, [w_BHAIKSUKI;w_SIGN;w_ANUSVARA]);
  (0x11c3e, [w_BHAIKSUKI;w_SIGN;w_VISARGA]);
  (0x11c3f, [w_BHAIKSUKI;w_SIGN;w_VIRAMA]);
  (0x11c40, [w_BHAIKSUKI;w_SIGN;w_AVAGRAHA]);
  (0x11c41, [w_BHAIKSUKI;w_DANDA]);
  (0x11c42, [w_BHAIKSUKI;w_DOUBLE;w_DANDA]);
  (0x11c43, [w_BHAIKSUKI;w_WORD;w_SEPARATOR]);
  (0x11c44, [w_BHAIKSUKI;w_GAP;w_FILLER_1]);
  (0x11c45, [w_BHAIKSUKI;w_GAP;w_FILLER_2]);
  (0x11c50, [w_BHAIKSUKI;w_DIGIT;w_ZERO]);
  (0x11c51, [w_BHAIKSUKI;w_DIGIT;w_ONE]);
  (0x11c52, [w_BHAIKSUKI;w_DIGIT;w_TWO]);
  (0x11c53, [w_BHAIKSUKI;w_DIGIT;w_THREE]);
  (0x11c54, [w_BHAIKSUKI;w_DIGIT;w_FOUR]);
  (0x11c55, [w_BHAIKSUKI;w_DIGIT;w_FIVE]);
  (0x11c56, [w_BHAIKSUKI;w_DIGIT;w_SIX]);
  (0x11c57, [w_BHAIKSUKI;w_DIGIT;w_SEVEN]);
  (0x11c58, [w_BHAIKSUKI;w_DIGIT;w_EIGHT]);
  (0x11c59, [w_BHAIKSUKI;w_DIGIT;w_NINE]);
  (0x11c5a, [w_BHAIKSUKI;w_NUMBER;w_ONE]);
  (0x11c5b, [w_BHAIKSUKI;w_NUMBER;w_TWO]);
  (0x11c5c, [w_BHAIKSUKI;w_NUMBER;w_THREE]);
  (0x11c5d, [w_BHAIKSUKI;w_NUMBER;w_FOUR]);
  (0x11c5e, [w_BHAIKSUKI;w_NUMBER;w_FIVE]);
  (0x11c5f, [w_BHAIKSUKI;w_NUMBER;w_SIX]);
  (0x11c60, [w_BHAIKSUKI;w_NUMBER;w_SEVEN]);
  (0x11c61, [w_BHAIKSUKI;w_NUMBER;w_EIGHT]);
  (0x11c62, [w_BHAIKSUKI;w_NUMBER;w_NINE]);
  (0x11c63, [w_BHAIKSUKI;w_NUMBER;w_TEN]);
  (0x11c64, [w_BHAIKSUKI;w_NUMBER;w_TWENTY]);
  (0x11c65, [w_BHAIKSUKI;w_NUMBER;w_THIRTY]);
  (0x11c66, [w_BHAIKSUKI;w_NUMBER;w_FORTY]);
  (0x11c67, [w_BHAIKSUKI;w_NUMBER;w_FIFTY]);
  (0x11c68, [w_BHAIKSUKI;w_NUMBER;w_SIXTY]);
  (0x11c69, [w_BHAIKSUKI;w_NUMBER;w_SEVENTY]);
  (0x11c6a, [w_BHAIKSUKI;w_NUMBER;w_EIGHTY]);
  (0x11c6b, [w_BHAIKSUKI;w_NUMBER;w_NINETY]);
  (0x11c6c, [w_BHAIKSUKI;w_HUNDREDS;w_UNIT;w_MARK]);
  (0x11c70, [w_MARCHEN;w_HEAD;w_MARK]);
  (0x11c71, [w_MARCHEN;w_MARK;w_SHAD]);
  (0x11c72, [w_MARCHEN;w_LETTER;w_KA]);
  (0x11c73, [w_MARCHEN;w_LETTER;w_KHA]);
  (0x11c74, [w_MARCHEN;w_LETTER;w_GA]);
  (0x11c75, [w_MARCHEN;w_LETTER;w_NGA]);
  (0x11c76, [w_MARCHEN;w_LETTER;w_CA]);
  (0x11c77, [w_MARCHEN;w_LETTER;w_CHA]);
  (0x11c78, [w_MARCHEN;w_LETTER;w_JA]);
  (0x11c79, [w_MARCHEN;w_LETTER;w_NYA]);
  (0x11c7a, [w_MARCHEN;w_LETTER;w_TA]);
  (0x11c7b, [w_MARCHEN;w_LETTER;w_THA]);
  (0x11c7c, [w_MARCHEN;w_LETTER;w_DA]);
  (0x11c7d, [w_MARCHEN;w_LETTER;w_NA]);
  (0x11c7e, [w_MARCHEN;w_LETTER;w_PA]);
  (0x11c7f, [w_MARCHEN;w_LETTER;w_PHA]);
  (0x11c80, [w_MARCHEN;w_LETTER;w_BA]);
  (0x11c81, [w_MARCHEN;w_LETTER;w_MA]);
  (0x11c82, [w_MARCHEN;w_LETTER;w_TSA]);
  (0x11c83, [w_MARCHEN;w_LETTER;w_TSHA]);
  (0x11c84, [w_MARCHEN;w_LETTER;w_DZA]);
  (0x11c85, [w_MARCHEN;w_LETTER;w_WA]);
  (0x11c86, [w_MARCHEN;w_LETTER;w_ZHA]);
  (0x11c87, [w_MARCHEN;w_LETTER;w_ZA]);
  (0x11c88, [w_MARCHEN;w_LETTER;w__A]);
  (0x11c89, [w_MARCHEN;w_LETTER;w_YA]);
  (0x11c8a, [w_MARCHEN;w_LETTER;w_RA]);
  (0x11c8b, [w_MARCHEN;w_LETTER;w_LA]);
  (0x11c8c, [w_MARCHEN;w_LETTER;w_SHA]);
  (0x11c8d, [w_MARCHEN;w_LETTER;w_SA]);
  (0x11c8e, [w_MARCHEN;w_LETTER;w_HA]);
  (0x11c8f, [w_MARCHEN;w_LETTER;w_A]);
  (0x11c92, [w_MARCHEN;w_SUBJOINED;w_LETTER;w_KA]);
  (0x11c93, [w_MARCHEN;w_SUBJOINED;w_LETTER;w_KHA]);
  (0x11c94, [w_MARCHEN;w_SUBJOINED;w_LETTER;w_GA]);
  (0x11c95, [w_MARCHEN;w_SUBJOINED;w_LETTER;w_NGA]);
  (0x11c96, [w_MARCHEN;w_SUBJOINED;w_LETTER;w_CA]);
  (0x11c97, [w_MARCHEN;w_SUBJOINED;w_LETTER;w_CHA]);
  (0x11c98, [w_MARCHEN;w_SUBJOINED;w_LETTER;w_JA]);
  (0x11c99, [w_MARCHEN;w_SUBJOINED;w_LETTER;w_NYA]);
  (0x11c9a, [w_MARCHEN;w_SUBJOINED;w_LETTER;w_TA]);
  (0x11c9b, [w_MARCHEN;w_SUBJOINED;w_LETTER;w_THA]);
  (0x11c9c, [w_MARCHEN;w_SUBJOINED;w_LETTER;w_DA]);
  (0x11c9d, [w_MARCHEN;w_SUBJOINED;w_LETTER;w_NA]);
  (0x11c9e, [w_MARCHEN;w_SUBJOINED;w_LETTER;w_PA]);
  (0x11c9f, [w_MARCHEN;w_SUBJOINED;w_LETTER;w_PHA]);
  (0x11ca0, [w_MARCHEN;w_SUBJOINED;w_LETTER;w_BA]);
  (0x11ca1, [w_MARCHEN;w_SUBJOINED;w_LETTER;w_MA]);
  (0x11ca2, [w_MARCHEN;w_SUBJOINED;w_LETTER;w_TSA]);
  (0x11ca3, [w_MARCHEN;w_SUBJOINED;w_LETTER;w_TSHA]);
  (0x11ca4, [w_MARCHEN;w_SUBJOINED;w_LETTER;w_DZA]);
  (0x11ca5, [w_MARCHEN;w_SUBJOINED;w_LETTER;w_WA]);
  (0x11ca6, [w_MARCHEN;w_SUBJOINED;w_LETTER;w_ZHA]);
  (0x11ca7, [w_MARCHEN;w_SUBJOINED;w_LETTER;w_ZA]);
  (0x11ca9, [w_MARCHEN;w_SUBJOINED;w_LETTER;w_YA]);
  (0x11caa, [w_MARCHEN;w_SUBJOINED;w_LETTER;w_RA]);
  (0x11cab, [w_MARCHEN;w_SUBJOINED;w_LETTER;w_LA]);
  (0x11cac, [w_MARCHEN;w_SUBJOINED;w_LETTER;w_SHA]);
  (0x11cad, [w_MARCHEN;w_SUBJOINED;w_LETTER;w_SA]);
  (0x11cae, [w_MARCHEN;w_SUBJOINED;w_LETTER;w_HA]);
  (0x11caf, [w_MARCHEN;w_SUBJOINED;w_LETTER;w_A]);
  (0x11cb0, [w_MARCHEN;w_VOWEL;w_SIGN;w_AA]);
  (0x11cb1, [w_MARCHEN;w_VOWEL;w_SIGN;w_I]);
  (0x11cb2, [w_MARCHEN;w_VOWEL;w_SIGN;w_U])].

Definition NAMES_51 : list (N * (list str)) := [
  (0x11cb3, [w_MARCHEN;w_VOWEL;w_SIGN;w_E]);
  (0x11cb4, [w_MARCHEN;w_VOWEL;w_SIGN;w_O]);
  (0x11cb5, [w_MARCHEN;w_SIGN;w_ANUSVARA]);
  (0x11cb6, [w_MARCHEN;w_SIGN;w_CANDRABINDU]);
  (0x11d00, [w_MASARAM;w_GONDI;w_LETTER;w_A]);
  (0x11d01, [w_MASARAM;w_GONDI;w_LETTER;w_AA]);
  (0x11d02, [w_MASARAM;w_GONDI;w_LETTER;w_I]);
  (0x11d03, [w_MASARAM;w_GONDI;w_LETTER;w_II]);
  (0x11d04, [w_MASARAM;w_GONDI;w_LETTER;w_U]);
  (0x11d05, [w_MASARAM;w_GONDI;w_LETTER;w_UU]);
  (0x11d06, [w_MASARAM;w_GONDI;w_LETTER;w_E]);
  (0x11d08, [w_MASARAM;w_GONDI;w_LETTER;w_AI]);
  (0x11d09, [w_MASARAM;w_GONDI;w_LETTER;w_O]);
  (0x11d0b, [w_MASARAM;w_GONDI;w_LETTER;w_AU]);
  (0x11d0c, [w_MASARAM;w_GONDI;w_LETTER;w_KA]);
  (0x11d0d, [w_MASARAM;w_GONDI;w_LETTER;w_KHA]);
  (0x11d0e, [w_MASARAM;w_GONDI;w_LETTER;w_GA]);
  (0x11d0f, [w_MASARAM;w_GONDI;w_LETTER;w_GHA]);
  (0x11d10, [w_MASARAM;w_GONDI;w_LETTER;w_NGA]);
  (0x11d11, [w_MASARAM;w_GONDI;w_LETTER;w_CA]);
  (0x11d12, [w_MASARAM;w_GONDI;w_LETTER;w_CHA]);
  (0x11d13, [w_MASARAM;w_GONDI;w_LETTER;w_JA]);
  (0x11d14, [w_MASARAM;w_GONDI;w_LETTER;w_JHA]);
  (0x11d15, [w_MASARAM;w_GONDI;w_LETTER;w_NYA]);
  (0x11d16, [w_MASARAM;w_GONDI;w_LETTER;w_TTA]);
  (0x11d17, [w_MASARAM;w_GONDI;w_LETTER;w_TTHA]);
  (0x11d18, [w_MASARAM;w_GONDI;w_LETTER;w_DDA]);
  (0x11d19, [w_MASARAM;w_GONDI;w_LETTER;w_DDHA]);
  (0x11d1a, [w_MASARAM;w_GONDI;w_LETTER;w_NNA]);
  (0x11d1b, [w_MASARAM;w_GONDI;w_LETTER;w_TA]);
  (0x11d1c, [w_MASARAM;w_GONDI;w_LETTER;w_THA]);
  (0x11d1d, [w_MASARAM;w_GONDI;w_LETTER;w_DA]);
  (0x11d1e, [w_MASARAM;w_GONDI;w_LETTER;w_DHA]);
  (0x11d1f, [w_MASARAM;w_GONDI;w_LETTER;w_NA]);
  (0x11d20, [w_MASARAM;w_GONDI;w_LETTER;w_PA]);
  (0x11d21, [w_MASARAM;w_GONDI;w_LETTER;w_PHA]);
  (0x11d22, [w_MASARAM;w_GONDI;w_LETTER;w_BA]);
  (0x11d23, [w_MASARAM;w_GONDI;w_LETTER;w_BHA]);
  (0x11d24, [w_MASARAM;w_GONDI;w_LETTER;w_MA]);
  (0x11d25, [w_MASARAM;w_GONDI;w_LETTER;w_YA]);
  (0x11d26, [w_MASARAM;w_GONDI;w_LETTER;w_RA]);
  (0x11d27, [w_MASARAM;w_GONDI;w_LETTER;w_LA]);
  (0x11d28, [w_MASARAM;w_GONDI;w_LETTER;w_VA]);
  (0x11d29, [w_MASARAM;w_GONDI;w_LETTER;w_SHA]);
  (0x11d2a, [w_MASARAM;w_GONDI;w_LETTER;w_SSA]);
  (0x11d2b, [w_MASARAM;w_GONDI;w_LETTER;w_SA]);
  (0x11d2c, [w_MASARAM;w_GONDI;w_LETTER;w_HA]);
  (0x11d2d, [w_MASARAM;w_GONDI;w_LETTER;w_LLA]);
  (0x11d2e, [w_MASARAM;w_GONDI;w_LETTER;w_KSSA]);
  (0x11d2f, [w_MASARAM;w_GONDI;w_LETTER;w_JNYA]);
  (0x11d30, [w_MASARAM;w_GONDI;w_LETTER;w_TRA]);
  (0x11d31, [w_MASARAM;w_GONDI;w_VOWEL;w_SIGN;w_AA]);
  (0x11d32, [w_MASARAM;w_GONDI;w_VOWEL;w_SIGN;w_I]);
  (0x11d33, [w_MASARAM;w_GONDI;w_VOWEL;w_SIGN;w_II]);
  (0x11d34, [w_MASARAM;w_GONDI;w_VOWEL;w_SIGN;w_U]);
  (0x11d35, [w_MASARAM;w_GONDI;w_VOWEL;w_SIGN;w_UU]);
  (0x11d36, [w_MASARAM;w_GONDI;w_VOWEL;w_SIGN;w_VOCALIC;w_R]);
  (0x11d3a, [w_MASARAM;w_GONDI;w_VOWEL;w_SIGN;w_E]);
  (0x11d3c, [w_MASARAM;w_GONDI;w_VOWEL;w_SIGN;w_AI]);
  (0x11d3d, [w_MASARAM;w_GONDI;w_VOWEL;w_SIGN;w_O]);
  (0x11d3f, [w_MASARAM;w_GONDI;w_VOWEL;w_SIGN;w_AU]);
  (0x11d40, [w_MASARAM;w_GONDI;w_SIGN;w_ANUSVARA]);
  (0x11d41, [w_MASARAM;w_GONDI;w_SIGN;w_VISARGA]);
  (0x11d42, [w_MASARAM;w_GONDI;w_SIGN;w_NUKTA]);
  (0x11d43, [w_MASARAM;w_GONDI;w_SIGN;w_CANDRA]);
  (0x11d44, [w_MASARAM;w_GONDI;w_SIGN;w_HALANTA]);
  (0x11d45, [w_MASARAM;w_GONDI;w_VIRAMA]);
  (0x11d46, [w_MASARAM;w_GONDI;w_REPHA]);
  (0x11d47, [w_MASARAM;w_GONDI;w_RA_KARA]);
  (0x11d50, [w_MASARAM;w_GONDI;w_DIGIT;w_ZERO]);
  (0x11d51, [w_MASARAM;w_GONDI;w_DIGIT;w_ONE]);
  (0x11d52, [w_MASARAM;w_GONDI;w_DIGIT;w_TWO]);
  (0x11d53, [w_MASARAM;w_GONDI;w_DIGIT;w_THREE]);
  (0x11d54, [w_MASARAM;w_GONDI;w_DIGIT;w_FOUR]);
  (0x11d55, [w_MASARAM;w_GONDI;w_DIGIT;w_FIVE]);
  (0x11d56, [w_MASARAM;w_GONDI;w_DIGIT;w_SIX]);
  (0x11d57, [w_MASARAM;w_GONDI;w_DIGIT;w_SEVEN]);
  (0x11d58, [w_MASARAM;w_GONDI;w_DIGIT;w_EIGHT]);
  (0x11d59, [w_MASARAM;w_GONDI;w_DIGIT;w_NINE]);
  (0x12000, [w_CUNEIFORM;w_SIGN;w_A]);
  (0x12001, [w_CUNEIFORM;w_SIGN;w_A;w_TIMES;w_A]);
  (0x12002, [w_CUNEIFORM;w_SIGN;w_A;w_TIMES;w_BAD]);
  (0x12003, [w_CUNEIFORM;w_SIGN;w_A;w_TIMES;w_GAN2;w_TENU]);
  (0x12004, [w_CUNEIFORM;w_SIGN;w_A;w_TIMES;w_HA]);
  (0x12005, [w_CUNEIFORM;w_SIGN;w_A;w_TIMES;w_IGI]);
  (0x12006, [w_CUNEIFORM;w_SIGN;w_A;w_TIMES;w_LAGAR;w_GUNU]);
  (0x12007, [w_CUNEIFORM;w_SIGN;w_A;w_TIMES;w_MUSH]);
  (0x12008, [w_CUNEIFORM;w_SIGN;w_A;w_TIMES;w_SAG]);
  (0x12009, [w_CUNEIFORM;w_SIGN;w_A2]);
  (0x1200a, [w_CUNEIFORM;w_SIGN;w_AB]);
  (0x1200b, [w_CUNEIFORM;w_SIGN;w_AB;w_TIMES;w_ASH2]);
  (0x1200c, [w_CUNEIFORM;w_SIGN;w_AB;w_TIMES;w_DUN3;w_GUNU]);
  (0x1200d, [w_CUNEIFORM;w_SIGN;w_AB;w_TIMES;w_GAL]);
  (0x1200e, [w_CUNEIFORM;w_SIGN;w_AB;w_TIMES;w_GAN2;w_TENU]);
  (0x1200f, [w_CUNEIFORM;w_SIGN;w_AB;w_TIMES;w_HA]);
  (0x12010, [w_CUNEIFORM;w_SIGN;w_AB;w_TIMES;w_IGI;w_GUNU]);
  (0x12011, [w_CUNEIFORM;w_SIGN;w_AB;w_TIMES;w_IMIN]);
  (0x12012, [w_CUNEIFORM;w_SIGN;w_AB;w_TIMES;w_LAGAB]);
  (0x12013, [w_CUNEIFORM;w_SIGN;w_AB;w_TIMES;w_SHESH]);
  (0x12014, [w_CUNEIFORM;w_SIGN;w_AB;w_TIMES;w_U;w_PLUS;w_U;w_PLUS;w_U]);
  (0x12015, [w_CUNEIFORM;w_SIGN;w_AB;w_GUNU]);
  (0x12016, [w_CUNEIFORM;w_SIGN;w_AB2]);
  (0x12017, [w_CUNEIFORM;w_SIGN;w_AB2;w_TIMES;w_BALAG]);
  (0x12018, [w_CUNEIFORM;w_SIGN;w_AB2;w_TIMES;w_GAN2;w_TENU]);
  (0x12019, [w_CUNEIFORM;w_SIGN;w_AB2;w_TIMES;w_ME;w_PLUS;w_EN]);
  (0x1201a, [w_CUNEIFORM;w_SIGN;w_AB2;w_TIMES;w_SHA3]);
  (0x1201b, [w_CUNEIFORM;w_SIGN;w_AB2;w_TIMES;w_TAK4]);
  (0x1201c, [w_CUNEIFORM;w_SIGN;w_AD]);
  (0x1201d, [w_CUNEIFORM;w_SIGN;w_AK]);
  (0x1201e, [w_CUNEIFORM;w_SIGN;w_AK;w_TIMES;w_ERIN2]);
  (0x1201f, [w_CUNEIFORM;w_SIGN;w_AK;w_TIMES;w_SHITA;w_PLUS;w_GISH]);
  (0x12020, [w_CUNEIFORM;w_SIGN;w_AL]);
  (0x12021, [w_CUNEIFORM;w_SIGN;w_AL;w_TIMES;w_AL]);
  (0x12022, [w_CUNEIFORM;w_SIGN;w_AL;w_TIMES;w_DIM2]);
  (0x12023, [w_CUNEIFORM;w_SIGN;w_AL;w_TIMES;w_GISH]);
  (0x12024, [w_CUNEIFORM;w_SIGN;w_AL;w_TIMES;w_HA]);
  (0x12025, [w_CUNEIFORM;w_SIGN;w_AL;w_TIMES;w_KAD3]);
  (0x12026, [w_CUNEIFORM;w_SIGN;w_AL;w_TIMES;w_KI]);
  (0x12027, [w_CUNEIFORM;w_SIGN;w_AL;w_TIMES;w_SHE]);
  (0x12028, [w_CUNEIFORM;w_SIGN;w_AL;w_TIMES;w_USH]);
  (0x12029, [w_CUNEIFORM;w_SIGN;w_ALAN]);
  (0x1202a, [w_CUNEIFORM;w_SIGN;w_ALEPH]);
  (0x1202b, [w_CUNEIFORM;w_SIGN;w_AMAR]);
  (0x1202c, [w_CUNEIFORM;w_SIGN;w_AMAR;w_TIMES;w_SHE]);
  (0x1202d, [w_CUNEIFORM;w_SIGN;w_AN]);
  (0x1202e, [w_CUNEIFORM;w_SIGN;w_AN;w_OVER;w_AN]);
  (0x1202f, [w_CUNEIFORM;w_SIGN;w_AN;w_THREE;w_TIMES]);
  (0x12030, [w_CUNEIFORM;w_SIGN;w_AN;w_PLUS;w_NAGA;w_OPPOSING;w_AN;w_PLUS;w_NAGA]);
  (0x12031, [w_CUNEIFORM;w_SIGN;w_AN;w_PLUS;w_NAGA;w_SQUARED]);
  (0x12032, [w_CUNEIFORM;w_SIGN;w_ANSHE]);
  (0x12033, [w_CUNEIFORM;w_SIGN;w_APIN]);
  (0x12034, [w_CUNEIFORM;w_SIGN;w_ARAD]);
  (0x12035, [w_CUNEIFORM;w_SIGN;w_ARAD;w_TIMES;w_KUR]);
  (0x12036, [w_CUNEIFORM;w_SIGN;w_ARKAB]);
  (0x12037, [w_CUNEIFORM;w_SIGN;w_ASAL2]);
  (0x12038, [w_CUNEIFORM;w_SIGN;w_ASH]);
  (0x12039, [w_CUNEIFORM;w_SIGN;w_ASH;w_ZIDA;w_TENU]);
  (0x1203a, [w_CUNEIFORM;w_SIGN;w_ASH;w_KABA;w_TENU]);
  (0x1203b, [w_CUNEIFORM;w_SIGN;w_ASH;w_OVER;w_ASH;w_TUG2;w_OVER;w_TUG2;w_TUG2;w_OVER;w_TUG2;w_PAP]);
  (0x1203c, [w_CUNEIFORM;w_SIGN;w_ASH;w_OVER;w_ASH;w_OVER;w_ASH]);
  (0x1203d, [w_CUNEIFORM;w_SIGN;w_ASH;w_OVER;w_ASH;w_OVER;w_ASH;w_CROSSING;w_ASH;w_OVER;w_ASH;w_OVER;w_ASH]);
  (0x1203e, [w_CUNEIFORM;w_SIGN;w_ASH2]);
  (0x1203f, [w_CUNEIFORM;w_SIGN;w_ASHGAB]);
  (0x12040, [w_CUNEIFORM;w_SIGN;w_BA]);
  (0x12041, [w_CUNEIFORM;w_SIGN;w_BAD]);
  (0x12042, [w_CUNEIFORM;w_SIGN;w_BAG3]);
  (0x12043, [w_CUNEIFORM;w_SIGN;w_BAHAR2]);
  (0x12044, [w_CUNEIFORM;w_SIGN;w_BAL]);
  (0x12045, [w_CUNEIFORM;w_SIGN;w_BAL;w_OVER;w_BAL]);
  (0x12046, [w_CUNEIFORM;w_SIGN;w_BALAG]);
  (0x12047, [w_CUNEIFORM;w_SIGN;w_BAR]);
  (0x12048, [w_CUNEIFORM;w_SIGN;w_BARA2]);
  (0x12049, [w_CUNEIFORM;w_SIGN;w_BI]);
  (0x1204a, [w_CUNEIFORM;w_SIGN;w_BI;w_TIMES;w_A]);
  (0x1204b, [w_CUNEIFORM;w_SIGN;w_BI;w_TIMES;w_GAR]);
  (0x1204c, [w_CUNEIFORM;w_SIGN;w_BI;w_TIMES;w_IGI;w_GUNU]);
  (0x1204d, [w_CUNEIFORM;w_SIGN;w_BU]);
  (0x1204e, [w_CUNEIFORM;w_SIGN;w_BU;w_OVER;w_BU;w_AB]);
  (0x1204f, [w_CUNEIFORM;w_SIGN;w_BU;w_OVER;w_BU;w_UN]);
  (0x12050, [w_CUNEIFORM;w_SIGN;w_BU;w_CROSSING;w_BU]);
  (0x12051, [w_CUNEIFORM;w_SIGN;w_BULUG]);
  (0x12052, [w_CUNEIFORM;w_SIGN;w_BULUG;w_OVER;w_BULUG]);
  (0x12053, [w_CUNEIFORM;w_SIGN;w_BUR]);
  (0x12054, [w_CUNEIFORM;w_SIGN;w_BUR2]);
  (0x12055, [w_CUNEIFORM;w_SIGN;w_DA]);
  (0x12056, [w_CUNEIFORM;w_SIGN;w_DAG]);
  (0x12057, [w_CUNEIFORM;w_SIGN;w_DAG;w_KISIM5;w_TIMES;w_A;w_PLUS;w_MASH]);
  (0x12058, [w_CUNEIFORM;w_SIGN;w_DAG;w_KISIM5;w_TIMES;w_AMAR]);
  (0x12059, [w_CUNEIFORM;w_SIGN;w_DAG;w_KISIM5;w_TIMES;w_BALAG]);
  (0x1205a, [w_CUNEIFORM;w_SIGN;w_DAG;w_KISIM5;w_TIMES;w_BI]);
  (0x1205b, [w_CUNEIFORM;w_SIGN;w_DAG;w_KISIM5;w_TIMES;w_GA]);
  (0x1205c, [w_CUNEIFORM;w_SIGN;w_DAG;w_KISIM5;w_TIMES;w_GA;w_PLUS;w_MASH]);
  (0x1205d, [w_CUNEIFORM;w_SIGN;w_DAG;w_KISIM5;w_TIMES;w_GI]);
  (0x1205e, [w_CUNEIFORM;w_SIGN;w_DAG;w_KISIM5;w_TIMES;w_GIR2]);
  (0x1205f, [w_CUNEIFORM;w_SIGN;w_DAG;w_KISIM5;w_TIMES;w_GUD]);
  (0x12060, [w_CUNEIFORM;w_SIGN;w_DAG;w_KISIM5;w_TIMES;w_HA]);
  (0x12061, [w_CUNEIFORM;w_SIGN;w_DAG;w_KISIM5;w_TIMES;w_IR]);
  (0x12062, [w_CUNEIFORM;w_SIGN;w_DAG;w_KISIM5;w_TIMES;w_IR;w_PLUS;w_LU]);
  (0x12063, [w_CUNEIFORM;w_SIGN;w_DAG;w_KISIM5;w_TIMES;w_KAK]);
  (0x12064, [w_CUNEIFORM;w_SIGN;w_DAG;w_KISIM5;w_TIMES;w_LA]);
  (0x12065, [w_CUNEIFORM;w_SIGN;w_DAG;w_KISIM5;w_TIMES;w_LU]);
  (0x12066, [w_CUNEIFORM;w_SIGN;w_DAG;w_KISIM5;w_TIMES;w_LU;w_PLUS;w_MASH2]);
  (0x12067, [w_CUNEIFORM;w_SIGN;w_DAG;w_KISIM5;w_TIMES;w_LUM]);
  (0x12068, [w_CUNEIFORM;w_SIGN;w_DAG;w_KISIM5;w_TIMES;w_NE]);
  (0x12069, [w_CUNEIFORM;w_SIGN;w_DAG;w_KISIM5;w_TIMES;w_PAP;w_PLUS;w_PAP]);
  (0x1206a, [w_CUNEIFORM;w_SIGN;w_DAG;w_KISIM5;w_TIMES;w_SI]);
  (0x1206b, [w_CUNEIFORM;w_SIGN;w_DAG;w_KISIM5;w_TIMES;w_TAK4]);
  (0x1206c, [w_CUNEIFORM;w_SIGN;w_DAG;w_KISIM5;w_TIMES;w_U2;w_PLUS;w_GIR2]);
  (0x1206d, [w_CUNEIFORM;w_SIGN;w_DAG;w_KISIM5;w_TIMES;w_USH]);
  (0x1206e, [w_CUNEIFORM;w_SIGN;w_DAM]);
  (0x1206f, [w_CUNEIFORM;w_SIGN;w_DAR]);
  (0x12070, [w_CUNEIFORM;w_SIGN;w_DARA3]);
  (0x12071, [w_CUNEIFORM;w_SIGN;w_DARA4]);
  (0x12072, [w_CUNEIFORM;w_SIGN;w_DI]);
  (0x12073, [w_CUNEIFORM;w_SIGN;w_DIB]);
  (0x12074, [w_CUNEIFORM;w_SIGN;w_DIM]);
  (0x12075, [w_CUNEIFORM;w_SIGN;w_DIM;w_TIMES;w_SHE]);
  (0x12076, [w_CUNEIFORM;w_SIGN;w_DIM2]);
  (0x12077, [w_CUNEIFORM;w_SIGN;w_DIN]);
  (0x12078, [w_CUNEIFORM;w_SIGN;w_DIN;w_KASKAL;w_U;w_GUNU;w_DISH]);
  (0x12079, [w_CUNEIFORM;w_SIGN;w_DISH]);
  (0x1207a, [w_CUNEIFORM;w_SIGN;w_DU]);
  (0x1207b, [w_CUNEIFORM;w_SIGN;w_DU;w_OVER;w_DU]);
  (0x1207c, [w_CUNEIFORM;w_SIGN;w_DU;w_GUNU]);
  (0x1207d, [w_CUNEIFORM;w_SIGN;w_DU;w_SHESHIG]);
  (0x1207e, [w_CUNEIFORM;w_SIGN;w_DUB]);
  (0x1207f, [w_CUNEIFORM;w_SIGN;w_DUB;w_TIMES;w_ESH2]);
  (0x12080, [w_CUNEIFORM;w_SIGN;w_DUB2]);
  (0x12081, [w_CUNEIFORM;w_SIGN;w_DUG]);
  (0x12082, [w_CUNEIFORM;w_SIGN;w_DUGUD]);
  (0x12083, [w_CUNEIFORM;w_SIGN;w_DUH]);
  (0x12084, [w_CUNEIFORM;w_SIGN;w_DUN]);
  (0x12085, [w_CUNEIFORM;w_SIGN;w_DUN3]);
  (0x12086, [w_CUNEIFORM;w_SIGN;w_DUN3;w_GUNU]);
  (0x12087, [w_CUNEIFORM;w_SIGN;w_DUN3;w_GUNU;w_GUNU]);
  (0x12088, [w_CUNEIFORM;w_SIGN;w_DUN4]);
  (0x12089, [w_CUNEIFORM;w_SIGN;w_DUR2]);
  (0x1208a, [w_CUNEIFORM;w_SIGN;w_E]);
  (0x1208b, [w_CUNEIFORM;w_SIGN;w_E;w_TIMES;w_PAP]);
  (0x1208c, [w_CUNEIFORM;w_SIGN;w_E;w_OVER;w_E;w_NUN;w_OVER;w_NUN]);
  (0x1208d, [w_CUNEIFORM;w_SIGN;w_E2]);
  (0x1208e, [w_CUNEIFORM;w_SIGN;w_E2;w_TIMES;w_A;w_PLUS;w_HA;w_PLUS;w_DA]);
  (0x1208f, [w_CUNEIFORM;w_SIGN;w_E2;w_TIMES;w_GAR]);
  (0x12090, [w_CUNEIFORM;w_SIGN;w_E2;w_TIMES;w_MI]);
  (0x12091, [w_CUNEIFORM;w_SIGN;w_E2;w_TIMES;w_SAL]);
  (0x12092, [w_CUNEIFORM;w_SIGN;w_E2;w_TIMES;w_SHE]);
  (0x12093, [w_CUNEIFORM;w_SIGN;w_E2;w_TIMES;w_U]);
  (0x12094, [w_CUNEIFORM;w_SIGN;w_EDIN]);
  (0x12095, [w_CUNEIFORM;w_SIGN;w_EGIR]);
  (0x12096, [w_CUNEIFORM;w_SIGN;w_EL]);
  (0x12097, [w_CUNEIFORM;w_SIGN;w_EN]);
  (0x12098, [w_CUNEIFORM;w_SIGN;w_EN;w_TIMES;w_GAN2]);
  (0x12099, [w_CUNEIFORM;w_SIGN;w_EN;w_TIMES;w_GAN2;w_TENU]);
  (0x1209a, [w_CUNEIFORM;w_SIGN;w_EN;w_TIMES;w_ME]);
  (0x1209b, [w_CUNEIFORM;w_SIGN;w_EN;w_CROSSING;w_EN]);
  (0x1209c, [w_CUNEIFORM;w_SIGN;w_EN;w_OPPOSING;w_EN]);
  (0x1209d, [w_CUNEIFORM;w_SIGN;w_EN;w_SQUARED]);
  (0x1209e, [w_CUNEIFORM;w_SIGN;w_EREN]);
  (0x1209f, [w_CUNEIFORM;w_SIGN;w_ERIN2]);
  (0x120a0, [w_CUNEIFORM;w_SIGN;w_ESH2]);
  (0x120a1, [w_CUNEIFORM;w_SIGN;w_EZEN]);
  (0x120a2, [w_CUNEIFORM;w_SIGN;w_EZEN;w_TIMES;w_A]);
  (0x120a3, [w_CUNEIFORM;w_SIGN;w_EZEN;w_TIMES;w_A;w_PLUS;w_LAL]);
  (0x120a4, [w_CUNEIFORM;w_SIGN;w_EZEN;w_TIMES;w_A;w_PLUS;w_LAL;w_TIMES;w_LAL]);
  (0x120a5, [w_CUNEIFORM;w_SIGN;w_EZEN;w_TIMES;w_AN]);
  (0x120a6, [w_CUNEIFORM;w_SIGN;w_EZEN;w_TIMES;w_BAD]);
  (0x120a7, [w_CUNEIFORM;w_SIGN;w_EZEN;w_TIMES;w_DUN3;w_GUNU]);
  (0x120a8, [w_CUNEIFORM;w_SIGN;w_EZEN;w_TIMES;w_DUN3;w_GUNU;w_GUNU]);
  (0x120a9, [w_CUNEIFORM;w_SIGN;w_EZEN;w_TIMES;w_HA]);
  (0x120aa, [w_CUNEIFORM;w_SIGN;w_EZEN;w_TIMES;w_HA;w_GUNU]);
  (0x120ab, [w_CUNEIFORM;w_SIGN;w_EZEN;w_TIMES;w_IGI;w_GUNU]);
  (0x120ac, [w_CUNEIFORM;w_SIGN;w_EZEN;w_TIMES;w_KASKAL]);
  (0x120ad, [w_CUNEIFORM;w_SIGN;w_EZEN;w_TIMES;w_KASKAL;w_SQUARED]);
  (0x120ae, [w_CUNEIFORM;w_SIGN;w_EZEN;w_TIMES;w_KU3]);
  (0x120af, [w_CUNEIFORM;w_SIGN;w_EZEN;w_TIMES;w_LA]);
  (0x120b0, [w_CUNEIFORM;w_SIGN;w_EZEN;w_TIMES;w_LAL;w_TIMES;w_LAL]);
  (0x120b1, [w_CUNEIFORM;w_SIGN;w_EZEN;w_TIMES;w_LI]);
  (0x120b2, [w_CUNEIFORM;w_SIGN;w_EZEN;w_TIMES;w_LU]);
  (0x120b3, [w_CUNEIFORM;w_SIGN;w_EZEN;w_TIMES;w_U2]);
  (0x120b4, [w_CUNEIFORM;w_SIGN;w_EZEN;w_TIMES;w_UD]);
  (0x120b5, [w_CUNEIFORM;w_SIGN;w_GA]);
  (0x120b6, [w_CUNEIFORM;w_SIGN;w_GA;w_GUNU]);
  (0x120b7, [w_CUNEIFORM;w_SIGN;w_GA2]);
  (0x120b8, [w_CUNEIFORM;w_SIGN;w_GA2;w_TIMES;w_A;w_PLUS;w_DA;w_PLUS;w_HA]);
  (0x120b9, [w_CUNEIFORM;w_SIGN;w_GA2;w_TIMES;w_A;w_PLUS;w_HA]);
  (0x120ba, [w_CUNEIFORM;w_SIGN;w_GA2;w_TIMES;w_A;w_PLUS;w_IGI]);
  (0x120bb, [w_CUNEIFORM;w_SIGN;w_GA2;w_TIMES;w_AB2;w_TENU;w_PLUS;w_TAB]);
  (0x120bc, [w_CUNEIFORM;w_SIGN;w_GA2;w_TIMES;w_AN]);
  (0x120bd, [w_CUNEIFORM;w_SIGN;w_GA2;w_TIMES;w_ASH]);
  (0x120be, [w_CUNEIFORM;w_SIGN;w_GA2;w_TIMES;w_ASH2;w_PLUS;w_GAL]);
  (0x120bf, [w_CUNEIFORM;w_SIGN;w_GA2;w_TIMES;w_BAD]);
  (0x120c0, [w_CUNEIFORM;w_SIGN;w_GA2;w_TIMES;w_BAR;w_PLUS;w_RA]);
  (0x120c1, [w_CUNEIFORM;w_SIGN;w_GA2;w_TIMES;w_BUR]);
  (0x120c2, [w_CUNEIFORM;w_SIGN;w_GA2;w_TIMES;w_BUR;w_PLUS;w_RA]);
  (0x120c3, [w_CUNEIFORM;w_SIGN;w_GA2;w_TIMES;w_DA]);
  (0x120c4, [w_CUNEIFORM;w_SIGN;w_GA2;w_TIMES;w_DI]);
  (0x120c5, [w_CUNEIFORM;w_SIGN;w_GA2;w_TIMES;w_DIM;w_TIMES;w_SHE]);
  (0x120c6, [w_CUNEIFORM;w_SIGN;w_GA2;w_TIMES;w_DUB]);
  (0x120c7, [w_CUNEIFORM;w_SIGN;w_GA2;w_TIMES;w_EL]);
  (0x120c8, [w_CUNEIFORM;w_SIGN;w_GA2;w_TIMES;w_EL;w_PLUS;w_LA]);
  (0x120c9, [w_CUNEIFORM;w_SIGN;w_GA2;w_TIMES;w_EN]);
  (0x120ca, [w_CUNEIFORM;w_SIGN;w_GA2;w_TIMES;w_EN;w_TIMES;w_GAN2;w_TENU]);
  (0x120cb, [w_CUNEIFORM;w_SIGN;w_GA2;w_TIMES;w_GAN2;w_TENU]);
  (0x120cc, [w_CUNEIFORM;w_SIGN;w_GA2;w_TIMES;w_GAR]);
  (0x120cd, [w_CUNEIFORM;w_SIGN;w_GA2;w_TIMES;w_GI]);
  (0x120ce, [w_CUNEIFORM;w_SIGN;w_GA2;w_TIMES;w_GI4]);
  (0x120cf, [w_CUNEIFORM;w_SIGN;w_GA2;w_TIMES;w_GI4;w_PLUS;w_A]);
  (0x120d0, [w_CUNEIFORM;w_SIGN;w_GA2;w_TIMES;w_GIR2;w_PLUS;w_SU]);
  (0x120d1, [w_CUNEIFORM;w_SIGN;w_GA2;w_TIMES;w_HA;w_PLUS;w_LU;w_PLUS;w_ESH2]);
  (0x120d2, [w_CUNEIFORM;w_SIGN;w_GA2;w_TIMES;w_HAL]);
  (0x120d3, [w_CUNEIFORM;w_SIGN;w_GA2;w_TIMES;w_HAL;w_PLUS;w_LA]);
  (0x120d4, [w_CUNEIFORM;w_SIGN;w_GA2;w_TIMES;w_HI;w_PLUS;w_LI]);
  (0x120d5, [w_CUNEIFORM;w_SIGN;w_GA2;w_TIMES;w_HUB2]);
  (0x120d6, [w_CUNEIFORM;w_SIGN;w_GA2;w_TIMES;w_IGI;w_GUNU]);
  (0x120d7, [w_CUNEIFORM;w_SIGN;w_GA2;w_TIMES;w_ISH;w_PLUS;w_HU;w_PLUS;w_ASH]);
  (0x120d8, [w_CUNEIFORM;w_SIGN;w_GA2;w_TIMES;w_KAK]);
  (0x120d9, [w_CUNEIFORM;w_SIGN;w_GA2;w_TIMES;w_KASKAL]);
  (0x120da, [w_CUNEIFORM;w_SIGN;w_GA2;w_TIMES;w_KID]);
  (0x120db, [w_CUNEIFORM;w_SIGN;w_GA2;w_TIMES;w_KID;w_PLUS;w_LAL]);
  (0x120dc, [w_CUNEIFORM;w_SIGN;w_GA2;w_TIMES;w_KU3;w_PLUS;w_AN]);
  (0x120dd, [w_CUNEIFORM;w_SIGN;w_GA2;w_TIMES;w_LA]);
  (0x120de, [w_CUNEIFORM;w_SIGN;w_GA2;w_TIMES;w_ME;w_PLUS;w_EN]);
  (0x120df, [w_CUNEIFORM;w_SIGN;w_GA2;w_TIMES;w_MI]);
  (0x120e0, [w_CUNEIFORM;w_SIGN;w_GA2;w_TIMES;w_NUN]);
  (0x120e1, [w_CUNEIFORM;w_SIGN;w_GA2;w_TIMES;w_NUN;w_OVER;w_NUN]);
  (0x120e2, [w_CUNEIFORM;w_SIGN;w_GA2;w_TIMES;w_PA]);
  (0x120e3, [w_CUNEIFORM;w_SIGN;w_GA2;w_TIMES;w_SAL]);
  (0x120e4, [w_CUNEIFORM;w_SIGN;w_GA2;w_TIMES;w_SAR]);
  (0x120e5, [w_CUNEIFORM;w_SIGN;w_GA2;w_TIMES;w_SHE]);
  (0x120e6, [w_CUNEIFORM;w_SIGN;w_GA2;w_TIMES;w_SHE;w_PLUS;w_TUR]);
  (0x120e7, [w_CUNEIFORM;w_SIGN;w_GA2;w_TIMES;w_SHID]);
  (0x120e8, [w_CUNEIFORM;w_SIGN;w_GA2;w_TIMES;w_SUM]);
  (0x120e9, [w_CUNEIFORM;w_SIGN;w_GA2;w_TIMES;w_TAK4]);
  (0x120ea, [w_CUNEIFORM;w_SIGN;w_GA2;w_TIMES;w_U]);
  (0x120eb, [w_CUNEIFORM;w_SIGN;w_GA2;w_TIMES;w_UD]);
  (0x120ec, [w_CUNEIFORM;w_SIGN;w_GA2;w_TIMES;w_UD;w_PLUS;w_DU]);
  (0x120ed, [w_CUNEIFORM;w_SIGN;w_GA2;w_OVER;w_GA2]);
  (0x120ee, [w_CUNEIFORM;w_SIGN;w_GABA]);
  (0x120ef, [w_CUNEIFORM;w_SIGN;w_GABA;w_CROSSING;w_GABA]);
  (0x120f0, [w_CUNEIFORM;w_SIGN;w_GAD]);
  (0x120f1, [w_CUNEIFORM;w_SIGN;w_GAD;w_OVER;w_GAD;w_GAR;w_OVER;w_GAR]);
  (0x120f2, [w_CUNEIFORM;w_SIGN;w_GAL]);
  (0x120f3, [w_CUNEIFORM;w_SIGN;w_GAL;w_GAD;w_OVER;w_GAD;w_GAR;w_OVER;w_GAR]);
  (0x120f4, [w_CUNEIFORM;w_SIGN;w_GALAM]);
  (0x120f5, [w_CUNEIFORM;w_SIGN;w_GAM]);
  (0x120f6, [w_CUNEIFORM;w_SIGN;w_GAN]);
  (0x120f7, [w_CUNEIFORM;w_SIGN;w_GAN2]);
  (0x120f8, [w_CUNEIFORM;w_SIGN;w_GAN2;w_TENU]);
  (0x120f9, [w_CUNEIFORM;w_SIGN;w_GAN2;w_OVER;w_GAN2]);
  (0x120fa, [w_CUNEIFORM;w_SIGN;w_GAN2;w_CROSSING;w_GAN2]);
  (0x120fb, [w_CUNEIFORM;w_SIGN;w_GAR]);
  (0x120fc, [w_CUNEIFORM;w_SIGN;w_GAR3]);
  (0x120fd, [w_CUNEIFORM;w_SIGN;w_GASHAN]);
  (0x120fe, [w_CUNEIFORM;w_SIGN;w_GESHTIN]);
  (0x120ff, [w_CUNEIFORM;w_SIGN;w_GESHTIN;w_TIMES;w_KUR]);
  (0x12100, [w_CUNEIFORM;w_SIGN;w_GI]);
  (0x12101, [w_CUNEIFORM;w_SIGN;w_GI;w_TIMES;w_E]);
  (0x12102, [w_CUNEIFORM;w_SIGN;w_GI;w_TIMES;w_U]);
  (0x12103, [w_CUNEIFORM;w_SIGN;w_GI;w_CROSSING;w_GI]);
  (0x12104, [w_CUNEIFORM;w_SIGN;w_GI4]);
  (0x12105, [w_CUNEIFORM;w_SIGN;w_GI4;w_OVER;w_GI4]);
  (0x12106, [w_CUNEIFORM;w_SIGN;w_GI4;w_CROSSING;w_GI4]);
  (0x12107, [w_CUNEIFORM;w_SIGN;w_GIDIM]);
  (0x12108, [w_CUNEIFORM;w_SIGN;w_GIR2]);
  (0x12109, [w_CUNEIFORM;w_SIGN;w_GIR2;w_GUNU]);
  (0x1210a, [w_CUNEIFORM;w_SIGN;w_GIR3]);
  (0x1210b, [w_CUNEIFORM;w_SIGN;w_GIR3;w_TIMES;w_A;w_PLUS;w_IGI]);
  (0x1210c, [w_CUNEIFORM;w_SIGN;w_GIR3;w_TIMES;w_GAN2;w_TENU]);
  (0x1210d, [w_CUNEIFORM;w_SIGN;w_GIR3;w_TIMES;w_IGI]);
  (0x1210e, [w_CUNEIFORM;w_SIGN;w_GIR3;w_TIMES;w_LU;w_PLUS;w_IGI]);
  (0x1210f, [w_CUNEIFORM;w_SIGN;w_GIR3;w_TIMES;w_PA]);
  (0x12110, [w_CUNEIFORM;w_SIGN;w_GISAL]);
  (0x12111, [w_CUNEIFORM;w_SIGN;w_GISH]);
  (0x12112, [w_CUNEIFORM;w_SIGN;w_GISH;w_CROSSING;w_GISH]);
  (0x12113, [w_CUNEIFORM;w_SIGN;w_GISH;w_TIMES;w_BAD]);
  (0x12114, [w_CUNEIFORM;w_SIGN;w_GISH;w_TIMES;w_TAK4]);
  (0x12115, [w_CUNEIFORM;w_SIGN;w_GISH;w_TENU]);
  (0x12116, [w_CUNEIFORM;w_SIGN;w_GU]);
  (0x12117, [w_CUNEIFORM;w_SIGN;w_GU;w_CROSSING;w_GU]);
  (0x12118, [w_CUNEIFORM;w_SIGN;w_GU2]);
  (0x12119, [w_CUNEIFORM;w_SIGN;w_GU2;w_TIMES;w_KAK]);
  (0x1211a, [w_CUNEIFORM;w_SIGN;w_GU2;w_TIMES;w_KAK;w_TIMES;w_IGI;w_GUNU]);
  (0x1211b, [w_CUNEIFORM;w_SIGN;w_GU2;w_TIMES;w_NUN]);
  (0x1211c, [w_CUNEIFORM;w_SIGN;w_GU2;w_TIMES;w_SAL;w_PLUS;w_TUG2]);
  (0x1211d, [w_CUNEIFORM;w_SIGN;w_GU2;w_GUNU]);
  (0x1211e, [w_CUNEIFORM;w_SIGN;w_GUD]);
  (0x1211f, [w_CUNEIFORM;w_SIGN;w_GUD;w_TIMES;w_A;w_PLUS;w_KUR]);
  (0x12120, [w_CUNEIFORM;w_SIGN;w_GUD;w_TIMES;w_KUR]);
  (0x12121, [w_CUNEIFORM;w_SIGN;w_GUD;w_OVER;w_GUD;w_LUGAL]);
  (0x12122, [w_CUNEIFORM;w_SIGN;w_GUL]);
  (0x12123, [w_CUNEIFORM;w_SIGN;w_GUM]);
  (0x12124, [w_CUNEIFORM;w_SIGN;w_GUM;w_TIMES;w_SHE]);
  (0x12125, [w_CUNEIFORM;w_SIGN;w_GUR]);
  (0x12126, [w_CUNEIFORM;w_SIGN;w_GUR7]);
  (0x12127, [w_CUNEIFORM;w_SIGN;w_GURUN]);
  (0x12128, [w_CUNEIFORM;w_SIGN;w_GURUSH]);
  (0x12129, [w_CUNEIFORM;w_SIGN;w_HA]);
  (0x1212a, [w_CUNEIFORM;w_SIGN;w_HA;w_TENU]);
  (0x1212b, [w_CUNEIFORM;w_SIGN;w_HA;w_GUNU]);
  (0x1212c, [w_CUNEIFORM;w_SIGN;w_HAL]);
  (0x1212d, [w_CUNEIFORM;w_SIGN;w_HI]);
  (0x1212e, [w_CUNEIFORM;w_SIGN;w_HI;w_TIMES;w_ASH]);
  (0x1212f, [w_CUNEIFORM;w_SIGN;w_HI;w_TIMES;w_ASH2]);
  (0x12130, [w_CUNEIFORM;w_SIGN;w_HI;w_TIMES;w_BAD]);
  (0x12131, [w_CUNEIFORM;w_SIGN;w_HI;w_TIMES;w_DISH]);
  (0x12132, [w_CUNEIFORM;w_SIGN;w_HI;w_TIMES;w_GAD]);
  (0x12133, [w_CUNEIFORM;w_SIGN;w_HI;w_TIMES;w_KIN]);
  (0x12134, [w_CUNEIFORM;w_SIGN;w_HI;w_TIMES;w_NUN]);
  (0x12135, [w_CUNEIFORM;w_SIGN;w_HI;w_TIMES;w_SHE]);
  (0x12136, [w_CUNEIFORM;w_SIGN;w_HI;w_TIMES;w_U]);
  (0x12137, [w_CUNEIFORM;w_SIGN;w_HU]);
  (0x12138, [w_CUNEIFORM;w_SIGN;w_HUB2]);
  (0x12139, [w_CUNEIFORM;w_SIGN;w_HUB2;w_TIMES;w_AN]);
  (0x1213a, [w_CUNEIFORM;w_SIGN;w_HUB2;w_TIMES;w_HAL]);
  (0x1213b, [w_CUNEIFORM;w_SIGN;w_HUB2;w_TIMES;w_KASKAL]);
  (0x1213c, [w_CUNEIFORM;w_SIGN;w_HUB2;w_TIMES;w_LISH]);
  (0x1213d, [w_CUNEIFORM;w_SIGN;w_HUB2;w_TIMES;w_UD]);
  (0x1213e, [w_CUNEIFORM;w_SIGN;w_HUL2]);
  (0x1213f, [w_CUNEIFORM;w_SIGN;w_I]);
  (0x12140, [w_CUNEIFORM;w_SIGN;w_I;w_A])].

Definition NAMES_52 : list (N * (list str)) := [
  (0x12141, [w_CUNEIFORM;w_SIGN;w_IB]);
  (0x12142, [w_CUNEIFORM;w_SIGN;w_IDIM]);
  (0x12143, [w_CUNEIFORM;w_SIGN;w_IDIM;w_OVER;w_IDIM;w_BUR]);
  (0x12144, [w_CUNEIFORM;w_SIGN;w_IDIM;w_OVER;w_IDIM;w_SQUARED]);
  (0x12145, [w_CUNEIFORM;w_SIGN;w_IG]);
  (0x12146, [w_CUNEIFORM;w_SIGN;w_IGI]);
  (0x12147, [w_CUNEIFORM;w_SIGN;w_IGI;w_DIB]);
  (0x12148, [w_CUNEIFORM;w_SIGN;w_IGI;w_RI]);
  (0x12149, [w_CUNEIFORM;w_SIGN;w_IGI;w_OVER;w_IGI;w_SHIR;w_OVER;w_SHIR;w_UD;w_OVER;w_UD]);
  (0x1214a, [w_CUNEIFORM;w_SIGN;w_IGI;w_GUNU]);
  (0x1214b, [w_CUNEIFORM;w_SIGN;w_IL]);
  (0x1214c, [w_CUNEIFORM;w_SIGN;w_IL;w_TIMES;w_GAN2;w_TENU]);
  (0x1214d, [w_CUNEIFORM;w_SIGN;w_IL2]);
  (0x1214e, [w_CUNEIFORM;w_SIGN;w_IM]);
  (0x1214f, [w_CUNEIFORM;w_SIGN;w_IM;w_TIMES;w_TAK4]);
  (0x12150, [w_CUNEIFORM;w_SIGN;w_IM;w_CROSSING;w_IM]);
  (0x12151, [w_CUNEIFORM;w_SIGN;w_IM;w_OPPOSING;w_IM]);
  (0x12152, [w_CUNEIFORM;w_SIGN;w_IM;w_SQUARED]);
  (0x12153, [w_CUNEIFORM;w_SIGN;w_IMIN]);
  (0x12154, [w_CUNEIFORM;w_SIGN;w_IN]);
  (0x12155, [w_CUNEIFORM;w_SIGN;w_IR]);
  (0x12156, [w_CUNEIFORM;w_SIGN;w_ISH]);
  (0x12157, [w_CUNEIFORM;w_SIGN;w_KA]);
  (0x12158, [w_CUNEIFORM;w_SIGN;w_KA;w_TIMES;w_A]);
  (0x12159, [w_CUNEIFORM;w_SIGN;w_KA;w_TIMES;w_AD]);
  (0x1215a, [w_CUNEIFORM;w_SIGN;w_KA;w_TIMES;w_AD;w_PLUS;w_KU3]);
  (0x1215b, [w_CUNEIFORM;w_SIGN;w_KA;w_TIMES;w_ASH2]);
  (0x1215c, [w_CUNEIFORM;w_SIGN;w_KA;w_TIMES;w_BAD]);
  (0x1215d, [w_CUNEIFORM;w_SIGN;w_KA;w_TIMES;w_BALAG]);
  (0x1215e, [w_CUNEIFORM;w_SIGN;w_KA;w_TIMES;w_BAR]);
  (0x1215f, [w_CUNEIFORM;w_SIGN;w_KA;w_TIMES;w_BI]);
  (0x12160, [w_CUNEIFORM;w_SIGN;w_KA;w_TIMES;w_ERIN2]);
  (0x12161, [w_CUNEIFORM;w_SIGN;w_KA;w_TIMES;w_ESH2]);
  (0x12162, [w_CUNEIFORM;w_SIGN;w_KA;w_TIMES;w_GA]);
  (0x12163, [w_CUNEIFORM;w_SIGN;w_KA;w_TIMES;w_GAL]);
  (0x12164, [w_CUNEIFORM;w_SIGN;w_KA;w_TIMES;w_GAN2;w_TENU]);
  (0x12165, [w_CUNEIFORM;w_SIGN;w_KA;w_TIMES;w_GAR]);
  (0x12166, [w_CUNEIFORM;w_SIGN;w_KA;w_TIMES;w_GAR;w_PLUS;w_SHA3;w_PLUS;w_A]);
  (0x12167, [w_CUNEIFORM;w_SIGN;w_KA;w_TIMES;w_GI]);
  (0x12168, [w_CUNEIFORM;w_SIGN;w_KA;w_TIMES;w_GIR2]);
  (0x12169, [w_CUNEIFORM;w_SIGN;w_KA;w_TIMES;w_GISH;w_PLUS;w_SAR]);
  (0x1216a, [w_CUNEIFORM;w_SIGN;w_KA;w_TIMES;w_GISH;w_CROSSING;w_GISH]);
  (0x1216b, [w_CUNEIFORM;w_SIGN;w_KA;w_TIMES;w_GU]);
  (0x1216c, [w_CUNEIFORM;w_SIGN;w_KA;w_TIMES;w_GUR7]);
  (0x1216d, [w_CUNEIFORM;w_SIGN;w_KA;w_TIMES;w_IGI]);
  (0x1216e, [w_CUNEIFORM;w_SIGN;w_KA;w_TIMES;w_IM]);
  (0x1216f, [w_CUNEIFORM;w_SIGN;w_KA;w_TIMES;w_KAK]);
  (0x12170, [w_CUNEIFORM;w_SIGN;w_KA;w_TIMES;w_KI]);
  (0x12171, [w_CUNEIFORM;w_SIGN;w_KA;w_TIMES;w_KID]);
  (0x12172, [w_CUNEIFORM;w_SIGN;w_KA;w_TIMES;w_LI]);
  (0x12173, [w_CUNEIFORM;w_SIGN;w_KA;w_TIMES;w_LU]);
  (0x12174, [w_CUNEIFORM;w_SIGN;w_KA;w_TIMES;w_ME]);
  (0x12175, [w_CUNEIFORM;w_SIGN;w_KA;w_TIMES;w_ME;w_PLUS;w_DU]);
  (0x12176, [w_CUNEIFORM;w_SIGN;w_KA;w_TIMES;w_ME;w_PLUS;w_GI]);
  (0x12177, [w_CUNEIFORM;w_SIGN;w_KA;w_TIMES;w_ME;w_PLUS;w_TE]);
  (0x12178, [w_CUNEIFORM;w_SIGN;w_KA;w_TIMES;w_MI]);
  (0x12179, [w_CUNEIFORM;w_SIGN;w_KA;w_TIMES;w_MI;w_PLUS;w_NUNUZ]);
  (0x1217a, [w_CUNEIFORM;w_SIGN;w_KA;w_TIMES;w_NE]);
  (0x1217b, [w_CUNEIFORM;w_SIGN;w_KA;w_TIMES;w_NUN]);
  (0x1217c, [w_CUNEIFORM;w_SIGN;w_KA;w_TIMES;w_PI]);
  (0x1217d, [w_CUNEIFORM;w_SIGN;w_KA;w_TIMES;w_RU]);
  (0x1217e, [w_CUNEIFORM;w_SIGN;w_KA;w_TIMES;w_SA]);
  (0x1217f, [w_CUNEIFORM;w_SIGN;w_KA;w_TIMES;w_SAR]);
  (0x12180, [w_CUNEIFORM;w_SIGN;w_KA;w_TIMES;w_SHA]);
  (0x12181, [w_CUNEIFORM;w_SIGN;w_KA;w_TIMES;w_SHE]);
  (0x12182, [w_CUNEIFORM;w_SIGN;w_KA;w_TIMES;w_SHID]);
  (0x12183, [w_CUNEIFORM;w_SIGN;w_KA;w_TIMES;w_SHU]);
  (0x12184, [w_CUNEIFORM;w_SIGN;w_KA;w_TIMES;w_SIG]);
  (0x12185, [w_CUNEIFORM;w_SIGN;w_KA;w_TIMES;w_SUHUR]);
  (0x12186, [w_CUNEIFORM;w_SIGN;w_KA;w_TIMES;w_TAR]);
  (0x12187, [w_CUNEIFORM;w_SIGN;w_KA;w_TIMES;w_U]);
  (0x12188, [w_CUNEIFORM;w_SIGN;w_KA;w_TIMES;w_U2]);
  (0x12189, [w_CUNEIFORM;w_SIGN;w_KA;w_TIMES;w_UD]);
  (0x1218a, [w_CUNEIFORM;w_SIGN;w_KA;w_TIMES;w_UMUM;w_TIMES;w_PA]);
  (0x1218b, [w_CUNEIFORM;w_SIGN;w_KA;w_TIMES;w_USH]);
  (0x1218c, [w_CUNEIFORM;w_SIGN;w_KA;w_TIMES;w_ZI]);
  (0x1218d, [w_CUNEIFORM;w_SIGN;w_KA2]);
  (0x1218e, [w_CUNEIFORM;w_SIGN;w_KA2;w_CROSSING;w_KA2]);
  (0x1218f, [w_CUNEIFORM;w_SIGN;w_KAB]);
  (0x12190, [w_CUNEIFORM;w_SIGN;w_KAD2]);
  (0x12191, [w_CUNEIFORM;w_SIGN;w_KAD3]);
  (0x12192, [w_CUNEIFORM;w_SIGN;w_KAD4]);
  (0x12193, [w_CUNEIFORM;w_SIGN;w_KAD5]);
  (0x12194, [w_CUNEIFORM;w_SIGN;w_KAD5;w_OVER;w_KAD5]);
  (0x12195, [w_CUNEIFORM;w_SIGN;w_KAK]);
  (0x12196, [w_CUNEIFORM;w_SIGN;w_KAK;w_TIMES;w_IGI;w_GUNU]);
  (0x12197, [w_CUNEIFORM;w_SIGN;w_KAL]);
  (0x12198, [w_CUNEIFORM;w_SIGN;w_KAL;w_TIMES;w_BAD]);
  (0x12199, [w_CUNEIFORM;w_SIGN;w_KAL;w_CROSSING;w_KAL]);
  (0x1219a, [w_CUNEIFORM;w_SIGN;w_KAM2]);
  (0x1219b, [w_CUNEIFORM;w_SIGN;w_KAM4]);
  (0x1219c, [w_CUNEIFORM;w_SIGN;w_KASKAL]);
  (0x1219d, [w_CUNEIFORM;w_SIGN;w_KASKAL;w_LAGAB;w_TIMES;w_U;w_OVER;w_LAGAB;w_TIMES;w_U]);
  (0x1219e, [w_CUNEIFORM;w_SIGN;w_KASKAL;w_OVER;w_KASKAL;w_LAGAB;w_TIMES;w_U;w_OVER;w_LAGAB;w_TIMES;w_U]);
  (0x1219f, [w_CUNEIFORM;w_SIGN;w_KESH2]);
  (0x121a0, [w_CUNEIFORM;w_SIGN;w_KI]);
  (0x121a1, [w_CUNEIFORM;w_SIGN;w_KI;w_TIMES;w_BAD]);
  (0x121a2, [w_CUNEIFORM;w_SIGN;w_KI;w_TIMES;w_U]);
  (0x121a3, [w_CUNEIFORM;w_SIGN;w_KI;w_TIMES;w_UD]);
  (0x121a4, [w_CUNEIFORM;w_SIGN;w_KID]);
  (0x121a5, [w_CUNEIFORM;w_SIGN;w_KIN]);
  (0x121a6, [w_CUNEIFORM;w_SIGN;w_KISAL]);
  (0x121a7, [w_CUNEIFORM;w_SIGN;w_KISH]);
  (0x121a8, [w_CUNEIFORM;w_SIGN;w_KISIM5]);
  (0x121a9, [w_CUNEIFORM;w_SIGN;w_KISIM5;w_OVER;w_KISIM5]);
  (0x121aa, [w_CUNEIFORM;w_SIGN;w_KU]);
  (0x121ab, [w_CUNEIFORM;w_SIGN;w_KU;w_OVER;w_HI;w_TIMES;w_ASH2;w_KU;w_OVER;w_HI;w_TIMES;w_ASH2]);
  (0x121ac, [w_CUNEIFORM;w_SIGN;w_KU3]);
  (0x121ad, [w_CUNEIFORM;w_SIGN;w_KU4]);
  (0x121ae, [w_CUNEIFORM;w_SIGN;w_KU4;w_VARIANT;w_FORM]);
  (0x121af, [w_CUNEIFORM;w_SIGN;w_KU7]);
  (0x121b0, [w_CUNEIFORM;w_SIGN;w_KUL]);
  (0x121b1, [w_CUNEIFORM;w_SIGN;w_KUL;w_GUNU]);
  (0x121b2, [w_CUNEIFORM;w_SIGN;w_KUN]);
  (0x121b3, [w_CUNEIFORM;w_SIGN;w_KUR]);
  (0x121b4, [w_CUNEIFORM;w_SIGN;w_KUR;w_OPPOSING;w_KUR]);
  (0x121b5, [w_CUNEIFORM;w_SIGN;w_KUSHU2]);
  (0x121b6, [w_CUNEIFORM;w_SIGN;w_KWU318]);
  (0x121b7, [w_CUNEIFORM;w_SIGN;w_LA]);
  (0x121b8, [w_CUNEIFORM;w_SIGN;w_LAGAB]);
  (0x121b9, [w_CUNEIFORM;w_SIGN;w_LAGAB;w_TIMES;w_A]);
  (0x121ba, [w_CUNEIFORM;w_SIGN;w_LAGAB;w_TIMES;w_A;w_PLUS;w_DA;w_PLUS;w_HA]);
  (0x121bb, [w_CUNEIFORM;w_SIGN;w_LAGAB;w_TIMES;w_A;w_PLUS;w_GAR]);
  (0x121bc, [w_CUNEIFORM;w_SIGN;w_LAGAB;w_TIMES;w_A;w_PLUS;w_LAL]);
  (0x121bd, [w_CUNEIFORM;w_SIGN;w_LAGAB;w_TIMES;w_AL]);
  (0x121be, [w_CUNEIFORM;w_SIGN;w_LAGAB;w_TIMES;w_AN]);
  (0x121bf, [w_CUNEIFORM;w_SIGN;w_LAGAB;w_TIMES;w_ASH;w_ZIDA;w_TENU]);
  (0x121c0, [w_CUNEIFORM;w_SIGN;w_LAGAB;w_TIMES;w_BAD]);
  (0x121c1, [w_CUNEIFORM;w_SIGN;w_LAGAB;w_TIMES;w_BI]);
  (0x121c2, [w_CUNEIFORM;w_SIGN;w_LAGAB;w_TIMES;w_DAR]);
  (0x121c3, [w_CUNEIFORM;w_SIGN;w_LAGAB;w_TIMES;w_EN]);
  (0x121c4, [w_CUNEIFORM;w_SIGN;w_LAGAB;w_TIMES;w_GA]);
  (0x121c5, [w_CUNEIFORM;w_SIGN;w_LAGAB;w_TIMES;w_GAR]);
  (0x121c6, [w_CUNEIFORM;w_SIGN;w_LAGAB;w_TIMES;w_GUD]);
  (0x121c7, [w_CUNEIFORM;w_SIGN;w_LAGAB;w_TIMES;w_GUD;w_PLUS;w_GUD]);
  (0x121c8, [w_CUNEIFORM;w_SIGN;w_LAGAB;w_TIMES;w_HA]);
  (0x121c9, [w_CUNEIFORM;w_SIGN;w_LAGAB;w_TIMES;w_HAL]);
  (0x121ca, [w_CUNEIFORM;w_SIGN;w_LAGAB;w_TIMES;w_HI;w_TIMES;w_NUN]);
  (0x121cb, [w_CUNEIFORM;w_SIGN;w_LAGAB;w_TIMES;w_IGI;w_GUNU]);
  (0x121cc, [w_CUNEIFORM;w_SIGN;w_LAGAB;w_TIMES;w_IM]);
  (0x121cd, [w_CUNEIFORM;w_SIGN;w_LAGAB;w_TIMES;w_IM;w_PLUS;w_HA]);
  (0x121ce, [w_CUNEIFORM;w_SIGN;w_LAGAB;w_TIMES;w_IM;w_PLUS;w_LU]);
  (0x121cf, [w_CUNEIFORM;w_SIGN;w_LAGAB;w_TIMES;w_KI]);
  (0x121d0, [w_CUNEIFORM;w_SIGN;w_LAGAB;w_TIMES;w_KIN]);
  (0x121d1, [w_CUNEIFORM;w_SIGN;w_LAGAB;w_TIMES;w_KU3]);
  (0x121d2, [w_CUNEIFORM;w_SIGN;w_LAGAB;w_TIMES;w_KUL]);
  (0x121d3, [w_CUNEIFORM;w_SIGN;w_LAGAB;w_TIMES;w_KUL;w_PLUS;w_HI;w_PLUS;w_A]);
  (0x121d4, [w_CUNEIFORM;w_SIGN;w_LAGAB;w_TIMES;w_LAGAB]);
  (0x121d5, [w_CUNEIFORM;w_SIGN;w_LAGAB;w_TIMES;w_LISH]);
  (0x121d6, [w_CUNEIFORM;w_SIGN;w_LAGAB;w_TIMES;w_LU]);
  (0x121d7, [w_CUNEIFORM;w_SIGN;w_LAGAB;w_TIMES;w_LUL]);
  (0x121d8, [w_CUNEIFORM;w_SIGN;w_LAGAB;w_TIMES;w_ME]);
  (0x121d9, [w_CUNEIFORM;w_SIGN;w_LAGAB;w_TIMES;w_ME;w_PLUS;w_EN]);
  (0x121da, [w_CUNEIFORM;w_SIGN;w_LAGAB;w_TIMES;w_MUSH]);
  (0x121db, [w_CUNEIFORM;w_SIGN;w_LAGAB;w_TIMES;w_NE]);
  (0x121dc, [w_CUNEIFORM;w_SIGN;w_LAGAB;w_TIMES;w_SHE;w_PLUS;w_SUM]);
  (0x121dd, [w_CUNEIFORM;w_SIGN;w_LAGAB;w_TIMES;w_SHITA;w_PLUS;w_GISH;w_PLUS;w_ERIN2]);
  (0x121de, [w_CUNEIFORM;w_SIGN;w_LAGAB;w_TIMES;w_SHITA;w_PLUS;w_GISH;w_TENU]);
  (0x121df, [w_CUNEIFORM;w_SIGN;w_LAGAB;w_TIMES;w_SHU2]);
  (0x121e0, [w_CUNEIFORM;w_SIGN;w_LAGAB;w_TIMES;w_SHU2;w_PLUS;w_SHU2]);
  (0x121e1, [w_CUNEIFORM;w_SIGN;w_LAGAB;w_TIMES;w_SUM]);
  (0x121e2, [w_CUNEIFORM;w_SIGN;w_LAGAB;w_TIMES;w_TAG]);
  (0x121e3, [w_CUNEIFORM;w_SIGN;w_LAGAB;w_TIMES;w_TAK4]);
  (0x121e4, [w_CUNEIFORM;w_SIGN;w_LAGAB;w_TIMES;w_TE;w_PLUS;w_A;w_PLUS;w_SU;w_PLUS;w_NA]);
  (0x121e5, [w_CUNEIFORM;w_SIGN;w_LAGAB;w_TIMES;w_U]);
  (0x121e6, [w_CUNEIFORM;w_SIGN;w_LAGAB;w_TIMES;w_U;w_PLUS;w_A]);
  (0x121e7, [w_CUNEIFORM;w_SIGN;w_LAGAB;w_TIMES;w_U;w_PLUS;w_U;w_PLUS;w_U]);
  (0x121e8, [w_CUNEIFORM;w_SIGN;w_LAGAB;w_TIMES;w_U2;w_PLUS;w_ASH]);
  (0x121e9, [w_CUNEIFORM;w_SIGN;w_LAGAB;w_TIMES;w_UD]);
  (0x121ea, [w_CUNEIFORM;w_SIGN;w_LAGAB;w_TIMES;w_USH]);
  (0x121eb, [w_CUNEIFORM;w_SIGN;w_LAGAB;w_SQUARED]);
  (0x121ec, [w_CUNEIFORM;w_SIGN;w_LAGAR]);
  (0x121ed, [w_CUNEIFORM;w_SIGN;w_LAGAR;w_TIMES;w_SHE]);
  (0x121ee, [w_CUNEIFORM;w_SIGN;w_LAGAR;w_TIMES;w_SHE;w_PLUS;w_SUM]);
  (0x121ef, [w_CUNEIFORM;w_SIGN;w_LAGAR;w_GUNU]);
  (0x121f0, [w_CUNEIFORM;w_SIGN;w_LAGAR;w_GUNU;w_OVER;w_LAGAR;w_GUNU;w_SHE]);
  (0x121f1, [w_CUNEIFORM;w_SIGN;w_LAHSHU]);
  (0x121f2, [w_CUNEIFORM;w_SIGN;w_LAL]);
  (0x121f3, [w_CUNEIFORM;w_SIGN;w_LAL;w_TIMES;w_LAL]);
  (0x121f4, [w_CUNEIFORM;w_SIGN;w_LAM]);
  (0x121f5, [w_CUNEIFORM;w_SIGN;w_LAM;w_TIMES;w_KUR]);
  (0x121f6, [w_CUNEIFORM;w_SIGN;w_LAM;w_TIMES;w_KUR;w_PLUS;w_RU]);
  (0x121f7, [w_CUNEIFORM;w_SIGN;w_LI]);
  (0x121f8, [w_CUNEIFORM;w_SIGN;w_LIL]);
  (0x121f9, [w_CUNEIFORM;w_SIGN;w_LIMMU2]);
  (0x121fa, [w_CUNEIFORM;w_SIGN;w_LISH]);
  (0x121fb, [w_CUNEIFORM;w_SIGN;w_LU]);
  (0x121fc, [w_CUNEIFORM;w_SIGN;w_LU;w_TIMES;w_BAD]);
  (0x121fd, [w_CUNEIFORM;w_SIGN;w_LU2]);
  (0x121fe, [w_CUNEIFORM;w_SIGN;w_LU2;w_TIMES;w_AL]);
  (0x121ff, [w_CUNEIFORM;w_SIGN;w_LU2;w_TIMES;w_BAD]);
  (0x12200, [w_CUNEIFORM;w_SIGN;w_LU2;w_TIMES;w_ESH2]);
  (0x12201, [w_CUNEIFORM;w_SIGN;w_LU2;w_TIMES;w_ESH2;w_TENU]);
  (0x12202, [w_CUNEIFORM;w_SIGN;w_LU2;w_TIMES;w_GAN2;w_TENU]);
  (0x12203, [w_CUNEIFORM;w_SIGN;w_LU2;w_TIMES;w_HI;w_TIMES;w_BAD]);
  (0x12204, [w_CUNEIFORM;w_SIGN;w_LU2;w_TIMES;w_IM]);
  (0x12205, [w_CUNEIFORM;w_SIGN;w_LU2;w_TIMES;w_KAD2]);
  (0x12206, [w_CUNEIFORM;w_SIGN;w_LU2;w_TIMES;w_KAD3]);
  (0x12207, [w_CUNEIFORM;w_SIGN;w_LU2;w_TIMES;w_KAD3;w_PLUS;w_ASH]);
  (0x12208, [w_CUNEIFORM;w_SIGN;w_LU2;w_TIMES;w_KI]);
  (0x12209, [w_CUNEIFORM;w_SIGN;w_LU2;w_TIMES;w_LA;w_PLUS;w_ASH]);
  (0x1220a, [w_CUNEIFORM;w_SIGN;w_LU2;w_TIMES;w_LAGAB]);
  (0x1220b, [w_CUNEIFORM;w_SIGN;w_LU2;w_TIMES;w_ME;w_PLUS;w_EN]);
  (0x1220c, [w_CUNEIFORM;w_SIGN;w_LU2;w_TIMES;w_NE]);
  (0x1220d, [w_CUNEIFORM;w_SIGN;w_LU2;w_TIMES;w_NU]);
  (0x1220e, [w_CUNEIFORM;w_SIGN;w_LU2;w_TIMES;w_SI;w_PLUS;w_ASH]);
  (0x1220f, [w_CUNEIFORM;w_SIGN;w_LU2;w_TIMES;w_SIK2;w_PLUS;w_BU]);
  (0x12210, [w_CUNEIFORM;w_SIGN;w_LU2;w_TIMES;w_TUG2]);
  (0x12211, [w_CUNEIFORM;w_SIGN;w_LU2;w_TENU]);
  (0x12212, [w_CUNEIFORM;w_SIGN;w_LU2;w_CROSSING;w_LU2]);
  (0x12213, [w_CUNEIFORM;w_SIGN;w_LU2;w_OPPOSING;w_LU2]);
  (0x12214, [w_CUNEIFORM;w_SIGN;w_LU2;w_SQUARED]);
  (0x12215, [w_CUNEIFORM;w_SIGN;w_LU2;w_SHESHIG]);
  (0x12216, [w_CUNEIFORM;w_SIGN;w_LU3]);
  (0x12217, [w_CUNEIFORM;w_SIGN;w_LUGAL]);
  (0x12218, [w_CUNEIFORM;w_SIGN;w_LUGAL;w_OVER;w_LUGAL]);
  (0x12219, [w_CUNEIFORM;w_SIGN;w_LUGAL;w_OPPOSING;w_LUGAL]);
  (0x1221a, [w_CUNEIFORM;w_SIGN;w_LUGAL;w_SHESHIG]);
  (0x1221b, [w_CUNEIFORM;w_SIGN;w_LUH]);
  (0x1221c, [w_CUNEIFORM;w_SIGN;w_LUL]);
  (0x1221d, [w_CUNEIFORM;w_SIGN;w_LUM]);
  (0x1221e, [w_CUNEIFORM;w_SIGN;w_LUM;w_OVER;w_LUM]);
  (0x1221f, [w_CUNEIFORM;w_SIGN;w_LUM;w_OVER;w_LUM;w_GAR;w_OVER;w_GAR]);
  (0x12220, [w_CUNEIFORM;w_SIGN;w_MA]);
  (0x12221, [w_CUNEIFORM;w_SIGN;w_MA;w_TIMES;w_TAK4]);
  (0x12222, [w_CUNEIFORM;w_SIGN;w_MA;w_GUNU]);
  (0x12223, [w_CUNEIFORM;w_SIGN;w_MA2]);
  (0x12224, [w_CUNEIFORM;w_SIGN;w_MAH]);
  (0x12225, [w_CUNEIFORM;w_SIGN;w_MAR]);
  (0x12226, [w_CUNEIFORM;w_SIGN;w_MASH]);
  (0x12227, [w_CUNEIFORM;w_SIGN;w_MASH2]);
  (0x12228, [w_CUNEIFORM;w_SIGN;w_ME]);
  (0x12229, [w_CUNEIFORM;w_SIGN;w_MES]);
  (0x1222a, [w_CUNEIFORM;w_SIGN;w_MI]);
  (0x1222b, [w_CUNEIFORM;w_SIGN;w_MIN]);
  (0x1222c, [w_CUNEIFORM;w_SIGN;w_MU]);
  (0x1222d, [w_CUNEIFORM;w_SIGN;w_MU;w_OVER;w_MU]);
  (0x1222e, [w_CUNEIFORM;w_SIGN;w_MUG]);
  (0x1222f, [w_CUNEIFORM;w_SIGN;w_MUG;w_GUNU]);
  (0x12230, [w_CUNEIFORM;w_SIGN;w_MUNSUB]);
  (0x12231, [w_CUNEIFORM;w_SIGN;w_MURGU2]);
  (0x12232, [w_CUNEIFORM;w_SIGN;w_MUSH]);
  (0x12233, [w_CUNEIFORM;w_SIGN;w_MUSH;w_TIMES;w_A]);
  (0x12234, [w_CUNEIFORM;w_SIGN;w_MUSH;w_TIMES;w_KUR]);
  (0x12235, [w_CUNEIFORM;w_SIGN;w_MUSH;w_TIMES;w_ZA]);
  (0x12236, [w_CUNEIFORM;w_SIGN;w_MUSH;w_OVER;w_MUSH]);
  (0x12237, [w_CUNEIFORM;w_SIGN;w_MUSH;w_OVER;w_MUSH;w_TIMES;w_A;w_PLUS;w_NA]);
  (0x12238, [w_CUNEIFORM;w_SIGN;w_MUSH;w_CROSSING;w_MUSH]);
  (0x12239, [w_CUNEIFORM;w_SIGN;w_MUSH3]);
  (0x1223a, [w_CUNEIFORM;w_SIGN;w_MUSH3;w_TIMES;w_A]);
  (0x1223b, [w_CUNEIFORM;w_SIGN;w_MUSH3;w_TIMES;w_A;w_PLUS;w_DI]);
  (0x1223c, [w_CUNEIFORM;w_SIGN;w_MUSH3;w_TIMES;w_DI]);
  (0x1223d, [w_CUNEIFORM;w_SIGN;w_MUSH3;w_GUNU]);
  (0x1223e, [w_CUNEIFORM;w_SIGN;w_NA]);
  (0x1223f, [w_CUNEIFORM;w_SIGN;w_NA2]);
  (0x12240, [w_CUNEIFORM;w_SIGN;w_NAGA]);
  (0x12241, [w_CUNEIFORM;w_SIGN;w_NAGA;w_INVERTED]);
  (0x12242, [w_CUNEIFORM;w_SIGN;w_NAGA;w_TIMES;w_SHU;w_TENU]);
  (0x12243, [w_CUNEIFORM;w_SIGN;w_NAGA;w_OPPOSING;w_NAGA]);
  (0x12244, [w_CUNEIFORM;w_SIGN;w_NAGAR]);
  (0x12245, [w_CUNEIFORM;w_SIGN;w_NAM;w_NUTILLU]);
  (0x12246, [w_CUNEIFORM;w_SIGN;w_NAM]);
  (0x12247, [w_CUNEIFORM;w_SIGN;w_NAM2]);
  (0x12248, [w_CUNEIFORM;w_SIGN;w_NE]);
  (0x12249, [w_CUNEIFORM;w_SIGN;w_NE;w_TIMES;w_A]);
  (0x1224a, [w_CUNEIFORM;w_SIGN;w_NE;w_TIMES;w_UD]);
  (0x1224b, [w_CUNEIFORM;w_SIGN;w_NE;w_SHESHIG]);
  (0x1224c, [w_CUNEIFORM;w_SIGN;w_NI]);
  (0x1224d, [w_CUNEIFORM;w_SIGN;w_NI;w_TIMES;w_E]);
  (0x1224e, [w_CUNEIFORM;w_SIGN;w_NI2]);
  (0x1224f, [w_CUNEIFORM;w_SIGN;w_NIM]);
  (0x12250, [w_CUNEIFORM;w_SIGN;w_NIM;w_TIMES;w_GAN2;w_TENU]);
  (0x12251, [w_CUNEIFORM;w_SIGN;w_NIM;w_TIMES;w_GAR;w_PLUS;w_GAN2;w_TENU]);
  (0x12252, [w_CUNEIFORM;w_SIGN;w_NINDA2]);
  (0x12253, [w_CUNEIFORM;w_SIGN;w_NINDA2;w_TIMES;w_AN]);
  (0x12254, [w_CUNEIFORM;w_SIGN;w_NINDA2;w_TIMES;w_ASH]);
  (0x12255, [w_CUNEIFORM;w_SIGN;w_NINDA2;w_TIMES;w_ASH;w_PLUS;w_ASH]);
  (0x12256, [w_CUNEIFORM;w_SIGN;w_NINDA2;w_TIMES;w_GUD]);
  (0x12257, [w_CUNEIFORM;w_SIGN;w_NINDA2;w_TIMES;w_ME;w_PLUS;w_GAN2;w_TENU]);
  (0x12258, [w_CUNEIFORM;w_SIGN;w_NINDA2;w_TIMES;w_NE]);
  (0x12259, [w_CUNEIFORM;w_SIGN;w_NINDA2;w_TIMES;w_NUN]);
  (0x1225a, [w_CUNEIFORM;w_SIGN;w_NINDA2;w_TIMES;w_SHE]);
  (0x1225b, [w_CUNEIFORM;w_SIGN;w_NINDA2;w_TIMES;w_SHE;w_PLUS;w_A;w_AN]);
  (0x1225c, [w_CUNEIFORM;w_SIGN;w_NINDA2;w_TIMES;w_SHE;w_PLUS;w_ASH]);
  (0x1225d, [w_CUNEIFORM;w_SIGN;w_NINDA2;w_TIMES;w_SHE;w_PLUS;w_ASH;w_PLUS;w_ASH]);
  (0x1225e, [w_CUNEIFORM;w_SIGN;w_NINDA2;w_TIMES;w_U2;w_PLUS;w_ASH]);
  (0x1225f, [w_CUNEIFORM;w_SIGN;w_NINDA2;w_TIMES;w_USH]);
  (0x12260, [w_CUNEIFORM;w_SIGN;w_NISAG]);
  (0x12261, [w_CUNEIFORM;w_SIGN;w_NU]);
  (0x12262, [w_CUNEIFORM;w_SIGN;w_NU11]);
  (0x12263, [w_CUNEIFORM;w_SIGN;w_NUN]);
  (0x12264, [w_CUNEIFORM;w_SIGN;w_NUN;w_LAGAR;w_TIMES;w_GAR]);
  (0x12265, [w_CUNEIFORM;w_SIGN;w_NUN;w_LAGAR;w_TIMES;w_MASH]);
  (0x12266, [w_CUNEIFORM;w_SIGN;w_NUN;w_LAGAR;w_TIMES;w_SAL]);
  (0x12267, [w_CUNEIFORM;w_SIGN;w_NUN;w_LAGAR;w_TIMES;w_SAL;w_OVER;w_NUN;w_LAGAR;w_TIMES;w_SAL]);
  (0x12268, [w_CUNEIFORM;w_SIGN;w_NUN;w_LAGAR;w_TIMES;w_USH]);
  (0x12269, [w_CUNEIFORM;w_SIGN;w_NUN;w_TENU]);
  (0x1226a, [w_CUNEIFORM;w_SIGN;w_NUN;w_OVER;w_NUN]);
  (0x1226b, [w_CUNEIFORM;w_SIGN;w_NUN;w_CROSSING;w_NUN]);
  (0x1226c, [w_CUNEIFORM;w_SIGN;w_NUN;w_CROSSING;w_NUN;w_LAGAR;w_OVER;w_LAGAR]);
  (0x1226d, [w_CUNEIFORM;w_SIGN;w_NUNUZ]);
  (0x1226e, [w_CUNEIFORM;w_SIGN;w_NUNUZ;w_AB2;w_TIMES;w_ASHGAB]);
  (0x1226f, [w_CUNEIFORM;w_SIGN;w_NUNUZ;w_AB2;w_TIMES;w_BI]);
  (0x12270, [w_CUNEIFORM;w_SIGN;w_NUNUZ;w_AB2;w_TIMES;w_DUG]);
  (0x12271, [w_CUNEIFORM;w_SIGN;w_NUNUZ;w_AB2;w_TIMES;w_GUD]);
  (0x12272, [w_CUNEIFORM;w_SIGN;w_NUNUZ;w_AB2;w_TIMES;w_IGI;w_GUNU]);
  (0x12273, [w_CUNEIFORM;w_SIGN;w_NUNUZ;w_AB2;w_TIMES;w_KAD3]);
  (0x12274, [w_CUNEIFORM;w_SIGN;w_NUNUZ;w_AB2;w_TIMES;w_LA]);
  (0x12275, [w_CUNEIFORM;w_SIGN;w_NUNUZ;w_AB2;w_TIMES;w_NE]);
  (0x12276, [w_CUNEIFORM;w_SIGN;w_NUNUZ;w_AB2;w_TIMES;w_SILA3]);
  (0x12277, [w_CUNEIFORM;w_SIGN;w_NUNUZ;w_AB2;w_TIMES;w_U2]);
  (0x12278, [w_CUNEIFORM;w_SIGN;w_NUNUZ;w_KISIM5;w_TIMES;w_BI]);
  (0x12279, [w_CUNEIFORM;w_SIGN;w_NUNUZ;w_KISIM5;w_TIMES;w_BI;w_U]);
  (0x1227a, [w_CUNEIFORM;w_SIGN;w_PA]);
  (0x1227b, [w_CUNEIFORM;w_SIGN;w_PAD]);
  (0x1227c, [w_CUNEIFORM;w_SIGN;w_PAN]);
  (0x1227d, [w_CUNEIFORM;w_SIGN;w_PAP]);
  (0x1227e, [w_CUNEIFORM;w_SIGN;w_PESH2]);
  (0x1227f, [w_CUNEIFORM;w_SIGN;w_PI]);
  (0x12280, [w_CUNEIFORM;w_SIGN;w_PI;w_TIMES;w_A]);
  (0x12281, [w_CUNEIFORM;w_SIGN;w_PI;w_TIMES;w_AB]);
  (0x12282, [w_CUNEIFORM;w_SIGN;w_PI;w_TIMES;w_BI]);
  (0x12283, [w_CUNEIFORM;w_SIGN;w_PI;w_TIMES;w_BU]);
  (0x12284, [w_CUNEIFORM;w_SIGN;w_PI;w_TIMES;w_E]);
  (0x12285, [w_CUNEIFORM;w_SIGN;w_PI;w_TIMES;w_I]);
  (0x12286, [w_CUNEIFORM;w_SIGN;w_PI;w_TIMES;w_IB]);
  (0x12287, [w_CUNEIFORM;w_SIGN;w_PI;w_TIMES;w_U]);
  (0x12288, [w_CUNEIFORM;w_SIGN;w_PI;w_TIMES;w_U2]);
  (0x12289, [w_CUNEIFORM;w_SIGN;w_PI;w_CROSSING;w_PI]);
  (0x1228a, [w_CUNEIFORM;w_SIGN;w_PIRIG]);
  (0x1228b, [w_CUNEIFORM;w_SIGN;w_PIRIG;w_TIMES;w_KAL]);
  (0x1228c, [w_CUNEIFORM;w_SIGN;w_PIRIG;w_TIMES;w_UD]);
  (0x1228d, [w_CUNEIFORM;w_SIGN;w_PIRIG;w_TIMES;w_ZA]);
  (0x1228e, [w_CUNEIFORM;w_SIGN;w_PIRIG;w_OPPOSING;w_PIRIG]);
  (0x1228f, [w_CUNEIFORM;w_SIGN;w_RA]);
  (0x12290, [w_CUNEIFORM;w_SIGN;w_RAB]);
  (0x12291, [w_CUNEIFORM;w_SIGN;w_RI]);
  (0x12292, [w_CUNEIFORM;w_SIGN;w_RU]);
  (0x12293, [w_CUNEIFORM;w_SIGN;w_SA]);
  (0x12294, [w_CUNEIFORM;w_SIGN;w_SAG;w_NUTILLU]);
  (0x12295, [w_CUNEIFORM;w_SIGN;w_SAG]);
  (0x12296, [w_CUNEIFORM;w_SIGN;w_SAG;w_TIMES;w_A]);
  (0x12297, [w_CUNEIFORM;w_SIGN;w_SAG;w_TIMES;w_DU]);
  (0x12298, [w_CUNEIFORM;w_SIGN;w_SAG;w_TIMES;w_DUB]);
  (0x12299, [w_CUNEIFORM;w_SIGN;w_SAG;w_TIMES;w_HA]);
  (0x1229a, [w_CUNEIFORM;w_SIGN;w_SAG;w_TIMES;w_KAK]);
  (0x1229b, [w_CUNEIFORM;w_SIGN;w_SAG;w_TIMES;w_KUR]);
  (0x1229c, [w_CUNEIFORM;w_SIGN;w_SAG;w_TIMES;w_LUM]);
  (0x1229d, [w_CUNEIFORM;w_SIGN;w_SAG;w_TIMES;w_MI]);
  (0x1229e, [w_CUNEIFORM;w_SIGN;w_SAG;w_TIMES;w_NUN]);
  (0x1229f, [w_CUNEIFORM;w_SIGN;w_SAG;w_TIMES;w_SAL]);
  (0x122a0, [w_CUNEIFORM;w_SIGN;w_SAG;w_TIMES;w_SHID]);
  (0x122a1, [w_CUNEIFORM;w_SIGN;w_SAG;w_TIMES;w_TAB]);
  (0x122a2, [w_CUNEIFORM;w_SIGN;w_SAG;w_TIMES;w_U2]);
  (0x122a3, [w_CUNEIFORM;w_SIGN;w_SAG;w_TIMES;w_UB]);
  (0x122a4, [w_CUNEIFORM;w_SIGN;w_SAG;w_TIMES;w_UM]);
  (0x122a5, [w_CUNEIFORM;w_SIGN;w_SAG;w_TIMES;w_UR]);
  (0x122a6, [w_CUNEIFORM;w_SIGN;w_SAG;w_TIMES;w_USH]);
  (0x122a7, [w_CUNEIFORM;w_SIGN;w_SAG;w_OVER;w_SAG]);
  (0x122a8, [w_CUNEIFORM;w_SIGN;w_SAG;w_GUNU]);
  (0x122a9, [w_CUNEIFORM;w_SIGN;w_SAL]);
  (0x122aa, [w_CUNEIFORM;w_SIGN;w_SAL;w_LAGAB;w_TIMES;w_ASH2]);
  (0x122ab, [w_CUNEIFORM;w_SIGN;w_SANGA2]);
  (0x122ac, [w_CUNEIFORM;w_SIGN;w_SAR]);
  (0x122ad, [w_CUNEIFORM;w_SIGN;w_SHA]);
  (0x122ae, [w_CUNEIFORM;w_SIGN;w_SHA3]);
  (0x122af, [w_CUNEIFORM;w_SIGN;w_SHA3;w_TIMES;w_A]);
  (0x122b0, [w_CUNEIFORM;w_SIGN;w_SHA3;w_TIMES;w_BAD]);
  (0x122b1, [w_CUNEIFORM;w_SIGN;w_SHA3;w_TIMES;w_GISH]);
  (0x122b2, [w_CUNEIFORM;w_SIGN;w_SHA3;w_TIMES;w_NE]);
  (0x122b3, [w_CUNEIFORM;w_SIGN;w_SHA3;w_TIMES;w_SHU2]);
  (0x122b4, [w_CUNEIFORM;w_SIGN;w_SHA3;w_TIMES;w_TUR]);
  (0x122b5, [w_CUNEIFORM;w_SIGN;w_SHA3;w_TIMES;w_U]);
  (0x122b6, [w_CUNEIFORM;w_SIGN;w_SHA3;w_TIMES;w_U;w_PLUS;w_A]);
  (0x122b7, [w_CUNEIFORM;w_SIGN;w_SHA6]);
  (0x122b8, [w_CUNEIFORM;w_SIGN;w_SHAB6]);
  (0x122b9, [w_CUNEIFORM;w_SIGN;w_SHAR2]);
  (0x122ba, [w_CUNEIFORM;w_SIGN;w_SHE]);
  (0x122bb, [w_CUNEIFORM;w_SIGN;w_SHE;w_HU]);
  (0x122bc, [w_CUNEIFORM;w_SIGN;w_SHE;w_OVER;w_SHE;w_GAD;w_OVER;w_GAD;w_GAR;w_OVER;w_GAR]);
  (0x122bd, [w_CUNEIFORM;w_SIGN;w_SHE;w_OVER;w_SHE;w_TAB;w_OVER;w_TAB;w_GAR;w_OVER;w_GAR]);
  (0x122be, [w_CUNEIFORM;w_SIGN;w_SHEG9]);
  (0x122bf, [w_CUNEIFORM;w_SIGN;w_SHEN]);
  (0x122c0, [w_CUNEIFORM;w_SIGN;w_SHESH]);
  (0x122c1, [w_CUNEIFORM;w_SIGN;w_SHESH2]);
  (0x122c2, [w_CUNEIFORM;w_SIGN;w_SHESHLAM]);
  (0x122c3, [w_CUNEIFORM;w_SIGN;w_SHID]);
  (0x122c4, [w_CUNEIFORM;w_SIGN;w_SHID;w_TIMES;w_A]);
  (0x122c5, [w_CUNEIFORM;w_SIGN;w_SHID;w_TIMES;w_IM]);
  (0x122c6, [w_CUNEIFORM;w_SIGN;w_SHIM]);
  (0x122c7, [w_CUNEIFORM;w_SIGN;w_SHIM;w_TIMES;w_A]);
  (0x122c8, [w_CUNEIFORM;w_SIGN;w_SHIM;w_TIMES;w_BAL]);
  (0x122c9, [w_CUNEIFORM;w_SIGN;w_SHIM;w_TIMES;w_BULUG]);
  (0x122ca, [w_CUNEIFORM;w_SIGN;w_SHIM;w_TIMES;w_DIN]);
  (0x122cb, [w_CUNEIFORM;w_SIGN;w_SHIM;w_TIMES;w_GAR]);
  (0x122cc, [w_CUNEIFORM;w_SIGN;w_SHIM;w_TIMES;w_IGI]);
  (0x122cd, [w_CUNEIFORM;w_SIGN;w_SHIM;w_TIMES;w_IGI;w_GUNU]);
  (0x122ce, [w_CUNEIFORM;w_SIGN;w_SHIM;w_TIMES;w_KUSHU2]);
  (0x122cf, [w_CUNEIFORM;w_SIGN;w_SHIM;w_TIMES;w_LUL]);
  (0x122d0, [w_CUNEIFORM;w_SIGN;w_SHIM;w_TIMES;w_MUG])].

Definition NAMES_53 : list (N * (list str)) := [
  (0x122d1, [w_CUNEIFORM;w_SIGN;w_SHIM;w_TIMES;w_SAL]);
  (0x122d2, [w_CUNEIFORM;w_SIGN;w_SHINIG]);
  (0x122d3, [w_CUNEIFORM;w_SIGN;w_SHIR]);
  (0x122d4, [w_CUNEIFORM;w_SIGN;w_SHIR;w_TENU]);
  (0x122d5, [w_CUNEIFORM;w_SIGN;w_SHIR;w_OVER;w_SHIR;w_BUR;w_OVER;w_BUR]);
  (0x122d6, [w_CUNEIFORM;w_SIGN;w_SHITA]);
  (0x122d7, [w_CUNEIFORM;w_SIGN;w_SHU]);
  (0x122d8, [w_CUNEIFORM;w_SIGN;w_SHU;w_OVER;w_INVERTED;w_SHU]);
  (0x122d9, [w_CUNEIFORM;w_SIGN;w_SHU2]);
  (0x122da, [w_CUNEIFORM;w_SIGN;w_SHUBUR]);
  (0x122db, [w_CUNEIFORM;w_SIGN;w_SI]);
  (0x122dc, [w_CUNEIFORM;w_SIGN;w_SI;w_GUNU]);
  (0x122dd, [w_CUNEIFORM;w_SIGN;w_SIG]);
  (0x122de, [w_CUNEIFORM;w_SIGN;w_SIG4]);
  (0x122df, [w_CUNEIFORM;w_SIGN;w_SIG4;w_OVER;w_SIG4;w_SHU2]);
  (0x122e0, [w_CUNEIFORM;w_SIGN;w_SIK2]);
  (0x122e1, [w_CUNEIFORM;w_SIGN;w_SILA3]);
  (0x122e2, [w_CUNEIFORM;w_SIGN;w_SU]);
  (0x122e3, [w_CUNEIFORM;w_SIGN;w_SU;w_OVER;w_SU]);
  (0x122e4, [w_CUNEIFORM;w_SIGN;w_SUD]);
  (0x122e5, [w_CUNEIFORM;w_SIGN;w_SUD2]);
  (0x122e6, [w_CUNEIFORM;w_SIGN;w_SUHUR]);
  (0x122e7, [w_CUNEIFORM;w_SIGN;w_SUM]);
  (0x122e8, [w_CUNEIFORM;w_SIGN;w_SUMASH]);
  (0x122e9, [w_CUNEIFORM;w_SIGN;w_SUR]);
  (0x122ea, [w_CUNEIFORM;w_SIGN;w_SUR9]);
  (0x122eb, [w_CUNEIFORM;w_SIGN;w_TA]);
  (0x122ec, [w_CUNEIFORM;w_SIGN;w_TA;w_ASTERISK]);
  (0x122ed, [w_CUNEIFORM;w_SIGN;w_TA;w_TIMES;w_HI]);
  (0x122ee, [w_CUNEIFORM;w_SIGN;w_TA;w_TIMES;w_MI]);
  (0x122ef, [w_CUNEIFORM;w_SIGN;w_TA;w_GUNU]);
  (0x122f0, [w_CUNEIFORM;w_SIGN;w_TAB]);
  (0x122f1, [w_CUNEIFORM;w_SIGN;w_TAB;w_OVER;w_TAB;w_NI;w_OVER;w_NI;w_DISH;w_OVER;w_DISH]);
  (0x122f2, [w_CUNEIFORM;w_SIGN;w_TAB;w_SQUARED]);
  (0x122f3, [w_CUNEIFORM;w_SIGN;w_TAG]);
  (0x122f4, [w_CUNEIFORM;w_SIGN;w_TAG;w_TIMES;w_BI]);
  (0x122f5, [w_CUNEIFORM;w_SIGN;w_TAG;w_TIMES;w_GUD]);
  (0x122f6, [w_CUNEIFORM;w_SIGN;w_TAG;w_TIMES;w_SHE]);
  (0x122f7, [w_CUNEIFORM;w_SIGN;w_TAG;w_TIMES;w_SHU]);
  (0x122f8, [w_CUNEIFORM;w_SIGN;w_TAG;w_TIMES;w_TUG2]);
  (0x122f9, [w_CUNEIFORM;w_SIGN;w_TAG;w_TIMES;w_UD]);
  (0x122fa, [w_CUNEIFORM;w_SIGN;w_TAK4]);
  (0x122fb, [w_CUNEIFORM;w_SIGN;w_TAR]);
  (0x122fc, [w_CUNEIFORM;w_SIGN;w_TE]);
  (0x122fd, [w_CUNEIFORM;w_SIGN;w_TE;w_GUNU]);
  (0x122fe, [w_CUNEIFORM;w_SIGN;w_TI]);
  (0x122ff, [w_CUNEIFORM;w_SIGN;w_TI;w_TENU]);
  (0x12300, [w_CUNEIFORM;w_SIGN;w_TIL]);
  (0x12301, [w_CUNEIFORM;w_SIGN;w_TIR]);
  (0x12302, [w_CUNEIFORM;w_SIGN;w_TIR;w_TIMES;w_TAK4]);
  (0x12303, [w_CUNEIFORM;w_SIGN;w_TIR;w_OVER;w_TIR]);
  (0x12304, [w_CUNEIFORM;w_SIGN;w_TIR;w_OVER;w_TIR;w_GAD;w_OVER;w_GAD;w_GAR;w_OVER;w_GAR]);
  (0x12305, [w_CUNEIFORM;w_SIGN;w_TU]);
  (0x12306, [w_CUNEIFORM;w_SIGN;w_TUG2]);
  (0x12307, [w_CUNEIFORM;w_SIGN;w_TUK]);
  (0x12308, [w_CUNEIFORM;w_SIGN;w_TUM]);
  (0x12309, [w_CUNEIFORM;w_SIGN;w_TUR]);
  (0x1230a, [w_CUNEIFORM;w_SIGN;w_TUR;w_OVER;w_TUR;w_ZA;w_OVER;w_ZA]);
  (0x1230b, [w_CUNEIFORM;w_SIGN;w_U]);
  (0x1230c, [w_CUNEIFORM;w_SIGN;w_U;w_GUD]);
  (0x1230d, [w_CUNEIFORM;w_SIGN;w_U;w_U;w_U]);
  (0x1230e, [w_CUNEIFORM;w_SIGN;w_U;w_OVER;w_U;w_PA;w_OVER;w_PA;w_GAR;w_OVER;w_GAR]);
  (0x1230f, [w_CUNEIFORM;w_SIGN;w_U;w_OVER;w_U;w_SUR;w_OVER;w_SUR]);
  (0x12310, [w_CUNEIFORM;w_SIGN;w_U;w_OVER;w_U;w_U;w_REVERSED;w_OVER;w_U;w_REVERSED]);
  (0x12311, [w_CUNEIFORM;w_SIGN;w_U2]);
  (0x12312, [w_CUNEIFORM;w_SIGN;w_UB]);
  (0x12313, [w_CUNEIFORM;w_SIGN;w_UD]);
  (0x12314, [w_CUNEIFORM;w_SIGN;w_UD;w_KUSHU2]);
  (0x12315, [w_CUNEIFORM;w_SIGN;w_UD;w_TIMES;w_BAD]);
  (0x12316, [w_CUNEIFORM;w_SIGN;w_UD;w_TIMES;w_MI]);
  (0x12317, [w_CUNEIFORM;w_SIGN;w_UD;w_TIMES;w_U;w_PLUS;w_U;w_PLUS;w_U]);
  (0x12318, [w_CUNEIFORM;w_SIGN;w_UD;w_TIMES;w_U;w_PLUS;w_U;w_PLUS;w_U;w_GUNU]);
  (0x12319, [w_CUNEIFORM;w_SIGN;w_UD;w_GUNU]);
  (0x1231a, [w_CUNEIFORM;w_SIGN;w_UD;w_SHESHIG]);
  (0x1231b, [w_CUNEIFORM;w_SIGN;w_UD;w_SHESHIG;w_TIMES;w_BAD]);
  (0x1231c, [w_CUNEIFORM;w_SIGN;w_UDUG]);
  (0x1231d, [w_CUNEIFORM;w_SIGN;w_UM]);
  (0x1231e, [w_CUNEIFORM;w_SIGN;w_UM;w_TIMES;w_LAGAB]);
  (0x1231f, [w_CUNEIFORM;w_SIGN;w_UM;w_TIMES;w_ME;w_PLUS;w_DA]);
  (0x12320, [w_CUNEIFORM;w_SIGN;w_UM;w_TIMES;w_SHA3]);
  (0x12321, [w_CUNEIFORM;w_SIGN;w_UM;w_TIMES;w_U]);
  (0x12322, [w_CUNEIFORM;w_SIGN;w_UMBIN]);
  (0x12323, [w_CUNEIFORM;w_SIGN;w_UMUM]);
  (0x12324, [w_CUNEIFORM;w_SIGN;w_UMUM;w_TIMES;w_KASKAL]);
  (0x12325, [w_CUNEIFORM;w_SIGN;w_UMUM;w_TIMES;w_PA]);
  (0x12326, [w_CUNEIFORM;w_SIGN;w_UN]);
  (0x12327, [w_CUNEIFORM;w_SIGN;w_UN;w_GUNU]);
  (0x12328, [w_CUNEIFORM;w_SIGN;w_UR]);
  (0x12329, [w_CUNEIFORM;w_SIGN;w_UR;w_CROSSING;w_UR]);
  (0x1232a, [w_CUNEIFORM;w_SIGN;w_UR;w_SHESHIG]);
  (0x1232b, [w_CUNEIFORM;w_SIGN;w_UR2]);
  (0x1232c, [w_CUNEIFORM;w_SIGN;w_UR2;w_TIMES;w_A;w_PLUS;w_HA]);
  (0x1232d, [w_CUNEIFORM;w_SIGN;w_UR2;w_TIMES;w_A;w_PLUS;w_NA]);
  (0x1232e, [w_CUNEIFORM;w_SIGN;w_UR2;w_TIMES;w_AL]);
  (0x1232f, [w_CUNEIFORM;w_SIGN;w_UR2;w_TIMES;w_HA]);
  (0x12330, [w_CUNEIFORM;w_SIGN;w_UR2;w_TIMES;w_NUN]);
  (0x12331, [w_CUNEIFORM;w_SIGN;w_UR2;w_TIMES;w_U2]);
  (0x12332, [w_CUNEIFORM;w_SIGN;w_UR2;w_TIMES;w_U2;w_PLUS;w_ASH]);
  (0x12333, [w_CUNEIFORM;w_SIGN;w_UR2;w_TIMES;w_U2;w_PLUS;w_BI]);
  (0x12334, [w_CUNEIFORM;w_SIGN;w_UR4]);
  (0x12335, [w_CUNEIFORM;w_SIGN;w_URI]);
  (0x12336, [w_CUNEIFORM;w_SIGN;w_URI3]);
  (0x12337, [w_CUNEIFORM;w_SIGN;w_URU]);
  (0x12338, [w_CUNEIFORM;w_SIGN;w_URU;w_TIMES;w_A]);
  (0x12339, [w_CUNEIFORM;w_SIGN;w_URU;w_TIMES;w_ASHGAB]);
  (0x1233a, [w_CUNEIFORM;w_SIGN;w_URU;w_TIMES;w_BAR]);
  (0x1233b, [w_CUNEIFORM;w_SIGN;w_URU;w_TIMES;w_DUN]);
  (0x1233c, [w_CUNEIFORM;w_SIGN;w_URU;w_TIMES;w_GA]);
  (0x1233d, [w_CUNEIFORM;w_SIGN;w_URU;w_TIMES;w_GAL]);
  (0x1233e, [w_CUNEIFORM;w_SIGN;w_URU;w_TIMES;w_GAN2;w_TENU]);
  (0x1233f, [w_CUNEIFORM;w_SIGN;w_URU;w_TIMES;w_GAR]);
  (0x12340, [w_CUNEIFORM;w_SIGN;w_URU;w_TIMES;w_GU]);
  (0x12341, [w_CUNEIFORM;w_SIGN;w_URU;w_TIMES;w_HA]);
  (0x12342, [w_CUNEIFORM;w_SIGN;w_URU;w_TIMES;w_IGI]);
  (0x12343, [w_CUNEIFORM;w_SIGN;w_URU;w_TIMES;w_IM]);
  (0x12344, [w_CUNEIFORM;w_SIGN;w_URU;w_TIMES;w_ISH]);
  (0x12345, [w_CUNEIFORM;w_SIGN;w_URU;w_TIMES;w_KI]);
  (0x12346, [w_CUNEIFORM;w_SIGN;w_URU;w_TIMES;w_LUM]);
  (0x12347, [w_CUNEIFORM;w_SIGN;w_URU;w_TIMES;w_MIN]);
  (0x12348, [w_CUNEIFORM;w_SIGN;w_URU;w_TIMES;w_PA]);
  (0x12349, [w_CUNEIFORM;w_SIGN;w_URU;w_TIMES;w_SHE]);
  (0x1234a, [w_CUNEIFORM;w_SIGN;w_URU;w_TIMES;w_SIG4]);
  (0x1234b, [w_CUNEIFORM;w_SIGN;w_URU;w_TIMES;w_TU]);
  (0x1234c, [w_CUNEIFORM;w_SIGN;w_URU;w_TIMES;w_U;w_PLUS;w_GUD]);
  (0x1234d, [w_CUNEIFORM;w_SIGN;w_URU;w_TIMES;w_UD]);
  (0x1234e, [w_CUNEIFORM;w_SIGN;w_URU;w_TIMES;w_URUDA]);
  (0x1234f, [w_CUNEIFORM;w_SIGN;w_URUDA]);
  (0x12350, [w_CUNEIFORM;w_SIGN;w_URUDA;w_TIMES;w_U]);
  (0x12351, [w_CUNEIFORM;w_SIGN;w_USH]);
  (0x12352, [w_CUNEIFORM;w_SIGN;w_USH;w_TIMES;w_A]);
  (0x12353, [w_CUNEIFORM;w_SIGN;w_USH;w_TIMES;w_KU]);
  (0x12354, [w_CUNEIFORM;w_SIGN;w_USH;w_TIMES;w_KUR]);
  (0x12355, [w_CUNEIFORM;w_SIGN;w_USH;w_TIMES;w_TAK4]);
  (0x12356, [w_CUNEIFORM;w_SIGN;w_USHX]);
  (0x12357, [w_CUNEIFORM;w_SIGN;w_USH2]);
  (0x12358, [w_CUNEIFORM;w_SIGN;w_USHUMX]);
  (0x12359, [w_CUNEIFORM;w_SIGN;w_UTUKI]);
  (0x1235a, [w_CUNEIFORM;w_SIGN;w_UZ3]);
  (0x1235b, [w_CUNEIFORM;w_SIGN;w_UZ3;w_TIMES;w_KASKAL]);
  (0x1235c, [w_CUNEIFORM;w_SIGN;w_UZU]);
  (0x1235d, [w_CUNEIFORM;w_SIGN;w_ZA]);
  (0x1235e, [w_CUNEIFORM;w_SIGN;w_ZA;w_TENU]);
  (0x1235f, [w_CUNEIFORM;w_SIGN;w_ZA;w_SQUARED;w_TIMES;w_KUR]);
  (0x12360, [w_CUNEIFORM;w_SIGN;w_ZAG]);
  (0x12361, [w_CUNEIFORM;w_SIGN;w_ZAMX]);
  (0x12362, [w_CUNEIFORM;w_SIGN;w_ZE2]);
  (0x12363, [w_CUNEIFORM;w_SIGN;w_ZI]);
  (0x12364, [w_CUNEIFORM;w_SIGN;w_ZI;w_OVER;w_ZI]);
  (0x12365, [w_CUNEIFORM;w_SIGN;w_ZI3]);
  (0x12366, [w_CUNEIFORM;w_SIGN;w_ZIB]);
  (0x12367, [w_CUNEIFORM;w_SIGN;w_ZIB;w_KABA;w_TENU]);
  (0x12368, [w_CUNEIFORM;w_SIGN;w_ZIG]);
  (0x12369, [w_CUNEIFORM;w_SIGN;w_ZIZ2]);
  (0x1236a, [w_CUNEIFORM;w_SIGN;w_ZU]);
  (0x1236b, [w_CUNEIFORM;w_SIGN;w_ZU5]);
  (0x1236c, [w_CUNEIFORM;w_SIGN;w_ZU5;w_TIMES;w_A]);
  (0x1236d, [w_CUNEIFORM;w_SIGN;w_ZUBUR]);
  (0x1236e, [w_CUNEIFORM;w_SIGN;w_ZUM]);
  (0x1236f, [w_CUNEIFORM;w_SIGN;w_KAP;w_ELAMITE]);
  (0x12370, [w_CUNEIFORM;w_SIGN;w_AB;w_TIMES;w_NUN]);
  (0x12371, [w_CUNEIFORM;w_SIGN;w_AB2;w_TIMES;w_A]);
  (0x12372, [w_CUNEIFORM;w_SIGN;w_AMAR;w_TIMES;w_KUG]);
  (0x12373, [w_CUNEIFORM;w_SIGN;w_DAG;w_KISIM5;w_TIMES;w_U2;w_PLUS;w_MASH]);
  (0x12374, [w_CUNEIFORM;w_SIGN;w_DAG3]);
  (0x12375, [w_CUNEIFORM;w_SIGN;w_DISH;w_PLUS;w_SHU]);
  (0x12376, [w_CUNEIFORM;w_SIGN;w_DUB;w_TIMES;w_SHE]);
  (0x12377, [w_CUNEIFORM;w_SIGN;w_EZEN;w_TIMES;w_GUD]);
  (0x12378, [w_CUNEIFORM;w_SIGN;w_EZEN;w_TIMES;w_SHE]);
  (0x12379, [w_CUNEIFORM;w_SIGN;w_GA2;w_TIMES;w_AN;w_PLUS;w_KAK;w_PLUS;w_A]);
  (0x1237a, [w_CUNEIFORM;w_SIGN;w_GA2;w_TIMES;w_ASH2]);
  (0x1237b, [w_CUNEIFORM;w_SIGN;w_GE22]);
  (0x1237c, [w_CUNEIFORM;w_SIGN;w_GIG]);
  (0x1237d, [w_CUNEIFORM;w_SIGN;w_HUSH]);
  (0x1237e, [w_CUNEIFORM;w_SIGN;w_KA;w_TIMES;w_ANSHE]);
  (0x1237f, [w_CUNEIFORM;w_SIGN;w_KA;w_TIMES;w_ASH3]);
  (0x12380, [w_CUNEIFORM;w_SIGN;w_KA;w_TIMES;w_GISH]);
  (0x12381, [w_CUNEIFORM;w_SIGN;w_KA;w_TIMES;w_GUD]);
  (0x12382, [w_CUNEIFORM;w_SIGN;w_KA;w_TIMES;w_HI;w_TIMES;w_ASH2]);
  (0x12383, [w_CUNEIFORM;w_SIGN;w_KA;w_TIMES;w_LUM]);
  (0x12384, [w_CUNEIFORM;w_SIGN;w_KA;w_TIMES;w_PA]);
  (0x12385, [w_CUNEIFORM;w_SIGN;w_KA;w_TIMES;w_SHUL]);
  (0x12386, [w_CUNEIFORM;w_SIGN;w_KA;w_TIMES;w_TU]);
  (0x12387, [w_CUNEIFORM;w_SIGN;w_KA;w_TIMES;w_UR2]);
  (0x12388, [w_CUNEIFORM;w_SIGN;w_LAGAB;w_TIMES;w_GI]);
  (0x12389, [w_CUNEIFORM;w_SIGN;w_LU2;w_SHESHIG;w_TIMES;w_BAD]);
  (0x1238a, [w_CUNEIFORM;w_SIGN;w_LU2;w_TIMES;w_ESH2;w_PLUS;w_LAL]);
  (0x1238b, [w_CUNEIFORM;w_SIGN;w_LU2;w_TIMES;w_SHU]);
  (0x1238c, [w_CUNEIFORM;w_SIGN;w_MESH]);
  (0x1238d, [w_CUNEIFORM;w_SIGN;w_MUSH3;w_TIMES;w_ZA]);
  (0x1238e, [w_CUNEIFORM;w_SIGN;w_NA4]);
  (0x1238f, [w_CUNEIFORM;w_SIGN;w_NIN]);
  (0x12390, [w_CUNEIFORM;w_SIGN;w_NIN9]);
  (0x12391, [w_CUNEIFORM;w_SIGN;w_NINDA2;w_TIMES;w_BAL]);
  (0x12392, [w_CUNEIFORM;w_SIGN;w_NINDA2;w_TIMES;w_GI]);
  (0x12393, [w_CUNEIFORM;w_SIGN;w_NU11;w_ROTATED;w_NINETY;w_DEGREES]);
  (0x12394, [w_CUNEIFORM;w_SIGN;w_PESH2;w_ASTERISK]);
  (0x12395, [w_CUNEIFORM;w_SIGN;w_PIR2]);
  (0x12396, [w_CUNEIFORM;w_SIGN;w_SAG;w_TIMES;w_IGI;w_GUNU]);
  (0x12397, [w_CUNEIFORM;w_SIGN;w_TI2]);
  (0x12398, [w_CUNEIFORM;w_SIGN;w_UM;w_TIMES;w_ME]);
  (0x12399, [w_CUNEIFORM;w_SIGN;w_U;w_U]);
  (0x12400, [w_CUNEIFORM;w_NUMERIC;w_SIGN;w_TWO;w_ASH]);
  (0x12401, [w_CUNEIFORM;w_NUMERIC;w_SIGN;w_THREE;w_ASH]);
  (0x12402, [w_CUNEIFORM;w_NUMERIC;w_SIGN;w_FOUR;w_ASH]);
  (0x12403, [w_CUNEIFORM;w_NUMERIC;w_SIGN;w_FIVE;w_ASH]);
  (0x12404, [w_CUNEIFORM;w_NUMERIC;w_SIGN;w_SIX;w_ASH]);
  (0x12405, [w_CUNEIFORM;w_NUMERIC;w_SIGN;w_SEVEN;w_ASH]);
  (0x12406, [w_CUNEIFORM;w_NUMERIC;w_SIGN;w_EIGHT;w_ASH]);
  (0x12407, [w_CUNEIFORM;w_NUMERIC;w_SIGN;w_NINE;w_ASH]);
  (0x12408, [w_CUNEIFORM;w_NUMERIC;w_SIGN;w_THREE;w_DISH]);
  (0x12409, [w_CUNEIFORM;w_NUMERIC;w_SIGN;w_FOUR;w_DISH]);
  (0x1240a, [w_CUNEIFORM;w_NUMERIC;w_SIGN;w_FIVE;w_DISH]);
  (0x1240b, [w_CUNEIFORM;w_NUMERIC;w_SIGN;w_SIX;w_DISH]);
  (0x1240c, [w_CUNEIFORM;w_NUMERIC;w_SIGN;w_SEVEN;w_DISH]);
  (0x1240d, [w_CUNEIFORM;w_NUMERIC;w_SIGN;w_EIGHT;w_DISH]);
  (0x1240e, [w_CUNEIFORM;w_NUMERIC;w_SIGN;w_NINE;w_DISH]);
  (0x1240f, [w_CUNEIFORM;w_NUMERIC;w_SIGN;w_FOUR;w_U]);
  (0x12410, [w_CUNEIFORM;w_NUMERIC;w_SIGN;w_FIVE;w_U]);
  (0x12411, [w_CUNEIFORM;w_NUMERIC;w_SIGN;w_SIX;w_U]);
  (0x12412, [w_CUNEIFORM;w_NUMERIC;w_SIGN;w_SEVEN;w_U]);
  (0x12413, [w_CUNEIFORM;w_NUMERIC;w_SIGN;w_EIGHT;w_U]);
  (0x12414, [w_CUNEIFORM;w_NUMERIC;w_SIGN;w_NINE;w_U]);
  (0x12415, [w_CUNEIFORM;w_NUMERIC;w_SIGN;w_ONE;w_GESH2]);
  (0x12416, [w_CUNEIFORM;w_NUMERIC;w_SIGN;w_TWO;w_GESH2]);
  (0x12417, [w_CUNEIFORM;w_NUMERIC;w_SIGN;w_THREE;w_GESH2]);
  (0x12418, [w_CUNEIFORM;w_NUMERIC;w_SIGN;w_FOUR;w_GESH2]);
  (0x12419, [w_CUNEIFORM;w_NUMERIC;w_SIGN;w_FIVE;w_GESH2]);
  (0x1241a, [w_CUNEIFORM;w_NUMERIC;w_SIGN;w_SIX;w_GESH2]);
  (0x1241b, [w_CUNEIFORM;w_NUMERIC;w_SIGN;w_SEVEN;w_GESH2]);
  (0x1241c, [w_CUNEIFORM;w_NUMERIC;w_SIGN;w_EIGHT;w_GESH2]);
  (0x1241d, [w_CUNEIFORM;w_NUMERIC;w_SIGN;w_NINE;w_GESH2]);
  (0x1241e, [w_CUNEIFORM;w_NUMERIC;w_SIGN;w_ONE;w_GESHU]);
  (0x1241f, [w_CUNEIFORM;w_NUMERIC;w_SIGN;w_TWO;w_GESHU]);
  (0x12420, [w_CUNEIFORM;w_NUMERIC;w_SIGN;w_THREE;w_GESHU]);
  (0x12421, [w_CUNEIFORM;w_NUMERIC;w_SIGN;w_FOUR;w_GESHU]);
  (0x12422, [w_CUNEIFORM;w_NUMERIC;w_SIGN;w_FIVE;w_GESHU]);
  (0x12423, [w_CUNEIFORM;w_NUMERIC;w_SIGN;w_TWO;w_SHAR2]);
  (0x12424, [w_CUNEIFORM;w_NUMERIC;w_SIGN;w_THREE;w_SHAR2]);
  (0x12425, [w_CUNEIFORM;w_NUMERIC;w_SIGN;w_THREE;w_SHAR2;w_VARIANT;w_FORM]);
  (0x12426, [w_CUNEIFORM;w_NUMERIC;w_SIGN;w_FOUR;w_SHAR2]);
  (0x12427, [w_CUNEIFORM;w_NUMERIC;w_SIGN;w_FIVE;w_SHAR2]);
  (0x12428, [w_CUNEIFORM;w_NUMERIC;w_SIGN;w_SIX;w_SHAR2]);
  (0x12429, [w_CUNEIFORM;w_NUMERIC;w_SIGN;w_SEVEN;w_SHAR2]);
  (0x1242a, [w_CUNEIFORM;w_NUMERIC;w_SIGN;w_EIGHT;w_SHAR2]);
  (0x1242b, [w_CUNEIFORM;w_NUMERIC;w_SIGN;w_NINE;w_SHAR2]);
  (0x1242c, [w_CUNEIFORM;w_NUMERIC;w_SIGN;w_ONE;w_SHARU]);
  (0x1242d, [w_CUNEIFORM;w_NUMERIC;w_SIGN;w_TWO;w_SHARU]);
  (0x1242e, [w_CUNEIFORM;w_NUMERIC;w_SIGN;w_THREE;w_SHARU]);
  (0x1242f, [w_CUNEIFORM;w_NUMERIC;w_SIGN;w_THREE;w_SHARU;w_VARIANT;w_FORM]);
  (0x12430, [w_CUNEIFORM;w_NUMERIC;w_SIGN;w_FOUR;w_SHARU]);
  (0x12431, [w_CUNEIFORM;w_NUMERIC;w_SIGN;w_FIVE;w_SHARU]);
  (0x12432, [w_CUNEIFORM;w_NUMERIC;w_SIGN;w_SHAR2;w_TIMES;w_GAL;w_PLUS;w_DISH]);
  (0x12433, [w_CUNEIFORM;w_NUMERIC;w_SIGN;w_SHAR2;w_TIMES;w_GAL;w_PLUS;w_MIN]);
  (0x12434, [w_CUNEIFORM;w_NUMERIC;w_SIGN;w_ONE;w_BURU]);
  (0x12435, [w_CUNEIFORM;w_NUMERIC;w_SIGN;w_TWO;w_BURU]);
  (0x12436, [w_CUNEIFORM;w_NUMERIC;w_SIGN;w_THREE;w_BURU]);
  (0x12437, [w_CUNEIFORM;w_NUMERIC;w_SIGN;w_THREE;w_BURU;w_VARIANT;w_FORM]);
  (0x12438, [w_CUNEIFORM;w_NUMERIC;w_SIGN;w_FOUR;w_BURU]);
  (0x12439, [w_CUNEIFORM;w_NUMERIC;w_SIGN;w_FIVE;w_BURU]);
  (0x1243a, [w_CUNEIFORM;w_NUMERIC;w_SIGN;w_THREE;w_VARIANT;w_FORM;w_ESH16]);
  (0x1243b, [w_CUNEIFORM;w_NUMERIC;w_SIGN;w_THREE;w_VARIANT;w_FORM;w_ESH21]);
  (0x1243c, [w_CUNEIFORM;w_NUMERIC;w_SIGN;w_FOUR;w_VARIANT;w_FORM;w_LIMMU]);
  (0x1243d, [w_CUNEIFORM;w_NUMERIC;w_SIGN;w_FOUR;w_VARIANT;w_FORM;w_LIMMU4]);
  (0x1243e, [w_CUNEIFORM;w_NUMERIC;w_SIGN;w_FOUR;w_VARIANT;w_FORM;w_LIMMU;w_A]);
  (0x1243f, [w_CUNEIFORM;w_NUMERIC;w_SIGN;w_FOUR;w_VARIANT;w_FORM;w_LIMMU;w_B]);
  (0x12440, [w_CUNEIFORM;w_NUMERIC;w_SIGN;w_SIX;w_VARIANT;w_FORM;w_ASH9]);
  (0x12441, [w_CUNEIFORM;w_NUMERIC;w_SIGN;w_SEVEN;w_VARIANT;w_FORM;w_IMIN3]);
  (0x12442, [w_CUNEIFORM;w_NUMERIC;w_SIGN;w_SEVEN;w_VARIANT;w_FORM;w_IMIN;w_A]);
  (0x12443, [w_CUNEIFORM;w_NUMERIC;w_SIGN;w_SEVEN;w_VARIANT;w_FORM;w_IMIN;w_B]);
  (0x12444, [w_CUNEIFORM;w_NUMERIC;w_SIGN;w_EIGHT;w_VARIANT;w_FORM;w_USSU]);
  (0x12445, [w_CUNEIFORM;w_NUMERIC;w_SIGN;w_EIGHT;w_VARIANT;w_FORM;w_USSU3]);
  (0x12446, [w_CUNEIFORM;w_NUMERIC;w_SIGN;w_NINE;w_VARIANT;w_FORM;w_ILIMMU]);
  (0x12447, [w_CUNEIFORM;w_NUMERIC;w_SIGN;w_NINE;w_VARIANT;w_FORM;w_ILIMMU3]);
  (0x12448, [w_CUNEIFORM;w_NUMERIC;w_SIGN;w_NINE;w_VARIANT;w_FORM;w_ILIMMU4]);
  (0x12449, [w_CUNEIFORM;w_NUMERIC;w_SIGN;w_NINE;w_VARIANT;w_FORM;w_ILIMMU;w_A]);
  (0x1244a, [w_CUNEIFORM;w_NUMERIC;w_SIGN;w_TWO;w_ASH;w_TENU]);
  (0x1244b, [w_CUNEIFORM;w_NUMERIC;w_SIGN;w_THREE;w_ASH;w_TENU]);
  (0x1244c, [w_CUNEIFORM;w_NUMERIC;w_SIGN;w_FOUR;w_ASH;w_TENU]);
  (0x1244d, [w_CUNEIFORM;w_NUMERIC;w_SIGN;w_FIVE;w_ASH;w_TENU]);
  (0x1244e, [w_CUNEIFORM;w_NUMERIC;w_SIGN;w_SIX;w_ASH;w_TENU]);
  (0x1244f, [w_CUNEIFORM;w_NUMERIC;w_SIGN;w_ONE;w_BAN2]);
  (0x12450, [w_CUNEIFORM;w_NUMERIC;w_SIGN;w_TWO;w_BAN2]);
  (0x12451, [w_CUNEIFORM;w_NUMERIC;w_SIGN;w_THREE;w_BAN2]);
  (0x12452, [w_CUNEIFORM;w_NUMERIC;w_SIGN;w_FOUR;w_BAN2]);
  (0x12453, [w_CUNEIFORM;w_NUMERIC;w_SIGN;w_FOUR;w_BAN2;w_VARIANT;w_FORM]);
  (0x12454, [w_CUNEIFORM;w_NUMERIC;w_SIGN;w_FIVE;w_BAN2]);
  (0x12455, [w_CUNEIFORM;w_NUMERIC;w_SIGN;w_FIVE;w_BAN2;w_VARIANT;w_FORM]);
  (0x12456, [w_CUNEIFORM;w_NUMERIC;w_SIGN;w_NIGIDAMIN]);
  (0x12457, [w_CUNEIFORM;w_NUMERIC;w_SIGN;w_NIGIDAESH]);
  (0x12458, [w_CUNEIFORM;w_NUMERIC;w_SIGN;w_ONE;w_ESHE3]);
  (0x12459, [w_CUNEIFORM;w_NUMERIC;w_SIGN;w_TWO;w_ESHE3]);
  (0x1245a, [w_CUNEIFORM;w_NUMERIC;w_SIGN;w_ONE;w_THIRD;w_DISH]);
  (0x1245b, [w_CUNEIFORM;w_NUMERIC;w_SIGN;w_TWO;w_THIRDS;w_DISH]);
  (0x1245c, [w_CUNEIFORM;w_NUMERIC;w_SIGN;w_FIVE;w_SIXTHS;w_DISH]);
  (0x1245d, [w_CUNEIFORM;w_NUMERIC;w_SIGN;w_ONE;w_THIRD;w_VARIANT;w_FORM;w_A]);
  (0x1245e, [w_CUNEIFORM;w_NUMERIC;w_SIGN;w_TWO;w_THIRDS;w_VARIANT;w_FORM;w_A]);
  (0x1245f, [w_CUNEIFORM;w_NUMERIC;w_SIGN;w_ONE;w_EIGHTH;w_ASH]);
  (0x12460, [w_CUNEIFORM;w_NUMERIC;w_SIGN;w_ONE;w_QUARTER;w_ASH]);
  (0x12461, [w_CUNEIFORM;w_NUMERIC;w_SIGN;w_OLD;w_ASSYRIAN;w_ONE;w_SIXTH]);
  (0x12462, [w_CUNEIFORM;w_NUMERIC;w_SIGN;w_OLD;w_ASSYRIAN;w_ONE;w_QUARTER]);
  (0x12463, [w_CUNEIFORM;w_NUMERIC;w_SIGN;w_ONE;w_QUARTER;w_GUR]);
  (0x12464, [w_CUNEIFORM;w_NUMERIC;w_SIGN;w_ONE;w_HALF;w_GUR]);
  (0x12465, [w_CUNEIFORM;w_NUMERIC;w_SIGN;w_ELAMITE;w_ONE;w_THIRD]);
  (0x12466, [w_CUNEIFORM;w_NUMERIC;w_SIGN;w_ELAMITE;w_TWO;w_THIRDS]);
  (0x12467, [w_CUNEIFORM;w_NUMERIC;w_SIGN;w_ELAMITE;w_FORTY]);
  (0x12468, [w_CUNEIFORM;w_NUMERIC;w_SIGN;w_ELAMITE;w_FIFTY]);
  (0x12469, [w_CUNEIFORM;w_NUMERIC;w_SIGN;w_FOUR;w_U;w_VARIANT;w_FORM]);
  (0x1246a, [w_CUNEIFORM;w_NUMERIC;w_SIGN;w_FIVE;w_U;w_VARIANT;w_FORM]);
  (0x1246b, [w_CUNEIFORM;w_NUMERIC;w_SIGN;w_SIX;w_U;w_VARIANT;w_FORM]);
  (0x1246c, [w_CUNEIFORM;w_NUMERIC;w_SIGN;w_SEVEN;w_U;w_VARIANT;w_FORM]);
  (0x1246d, [w_CUNEIFORM;w_NUMERIC;w_SIGN;w_EIGHT;w_U;w_VARIANT;w_FORM]);
  (0x1246e, [w_CUNEIFORM;w_NUMERIC;w_SIGN;w_NINE;w_U;w_VARIANT;w_FORM]);
  (0x12470, [w_CUNEIFORM;w_PUNCTUATION;w_SIGN;w_OLD;w_ASSYRIAN;w_WORD;w_DIVIDER]);
  (0x12471, [w_CUNEIFORM;w_PUNCTUATION;w_SIGN;w_VERTICAL;w_COLON]);
  (0x12472, [w_CUNEIFORM;w_PUNCTUATION;w_SIGN;w_DIAGONAL;w_COLON]);
  (0x12473, [w_CUNEIFORM;w_PUNCTUATION;w_SIGN;w_DIAGONAL;w_TRICOLON]);
  (0x12474, [w_CUNEIFORM;w_PUNCTUATION;w_SIGN;w_DIAGONAL;w_QUADCOLON]);
  (0x12480, [w_CUNEIFORM;w_SIGN;w_AB;w_TIMES;w_NUN;w_TENU]);
  (0x12481, [w_CUNEIFORM;w_SIGN;w_AB;w_TIMES;w_SHU2]);
  (0x12482, [w_CUNEIFORM;w_SIGN;w_AD;w_TIMES;w_ESH2]);
  (0x12483, [w_CUNEIFORM;w_SIGN;w_BAD;w_TIMES;w_DISH;w_TENU]);
  (0x12484, [w_CUNEIFORM;w_SIGN;w_BAHAR2;w_TIMES;w_AB2]);
  (0x12485, [w_CUNEIFORM;w_SIGN;w_BAHAR2;w_TIMES;w_NI]);
  (0x12486, [w_CUNEIFORM;w_SIGN;w_BAHAR2;w_TIMES;w_ZA]);
  (0x12487, [w_CUNEIFORM;w_SIGN;w_BU;w_OVER;w_BU;w_TIMES;w_NA2]);
  (0x12488, [w_CUNEIFORM;w_SIGN;w_DA;w_TIMES;w_TAK4]);
  (0x12489, [w_CUNEIFORM;w_SIGN;w_DAG;w_TIMES;w_KUR]);
  (0x1248a, [w_CUNEIFORM;w_SIGN;w_DIM;w_TIMES;w_IGI]);
  (0x1248b, [w_CUNEIFORM;w_SIGN;w_DIM;w_TIMES;w_U;w_U;w_U]);
  (0x1248c, [w_CUNEIFORM;w_SIGN;w_DIM2;w_TIMES;w_UD]);
  (0x1248d, [w_CUNEIFORM;w_SIGN;w_DUG;w_TIMES;w_ANSHE]);
  (0x1248e, [w_CUNEIFORM;w_SIGN;w_DUG;w_TIMES;w_ASH]);
  (0x1248f, [w_CUNEIFORM;w_SIGN;w_DUG;w_TIMES;w_ASH;w_AT;w_LEFT]);
  (0x12490, [w_CUNEIFORM;w_SIGN;w_DUG;w_TIMES;w_DIN]);
  (0x12491, [w_CUNEIFORM;w_SIGN;w_DUG;w_TIMES;w_DUN]);
  (0x12492, [w_CUNEIFORM;w_SIGN;w_DUG;w_TIMES;w_ERIN2]);
  (0x12493, [w_CUNEIFORM;w_SIGN;w_DUG;w_TIMES;w_GA]);
  (0x12494, [w_CUNEIFORM;w_SIGN;w_DUG;w_TIMES;w_GI]);
  (0x12495, [w_CUNEIFORM;w_SIGN;w_DUG;w_TIMES;w_GIR2;w_GUNU]);
  (0x12496, [w_CUNEIFORM;w_SIGN;w_DUG;w_TIMES;w_GISH]);
  (0x12497, [w_CUNEIFORM;w_SIGN;w_DUG;w_TIMES;w_HA]);
  (0x12498, [w_CUNEIFORM;w_SIGN;w_DUG;w_TIMES;w_HI]);
  (0x12499, [w_CUNEIFORM;w_SIGN;w_DUG;w_TIMES;w_IGI;w_GUNU]);
  (0x1249a, [w_CUNEIFORM;w_SIGN;w_DUG;w_TIMES;w_KASKAL]);
  (0x1249b, [w_CUNEIFORM;w_SIGN;w_DUG;w_TIMES;w_KUR]);
  (0x1249c, [w_CUNEIFORM;w_SIGN;w_DUG;w_TIMES;w_KUSHU2]);
  (0x1249d, [w_CUNEIFORM;w_SIGN;w_DUG;w_TIMES;w_KUSHU2;w_PLUS;w_KASKAL]);
  (0x1249e, [w_CUNEIFORM;w_SIGN;w_DUG;w_TIMES;w_LAK_020]);
  (0x1249f, [w_CUNEIFORM;w_SIGN;w_DUG;w_TIMES;w_LAM]);
  (0x124a0, [w_CUNEIFORM;w_SIGN;w_DUG;w_TIMES;w_LAM;w_TIMES;w_KUR]);
  (0x124a1, [w_CUNEIFORM;w_SIGN;w_DUG;w_TIMES;w_LUH;w_PLUS;w_GISH]);
  (0x124a2, [w_CUNEIFORM;w_SIGN;w_DUG;w_TIMES;w_MASH]);
  (0x124a3, [w_CUNEIFORM;w_SIGN;w_DUG;w_TIMES;w_MES]);
  (0x124a4, [w_CUNEIFORM;w_SIGN;w_DUG;w_TIMES;w_MI]);
  (0x124a5, [w_CUNEIFORM;w_SIGN;w_DUG;w_TIMES;w_NI]);
  (0x124a6, [w_CUNEIFORM;w_SIGN;w_DUG;w_TIMES;w_PI]);
  (0x124a7, [w_CUNEIFORM;w_SIGN;w_DUG;w_TIMES;w_SHE]);
  (0x124a8, [w_CUNEIFORM;w_SIGN;w_DUG;w_TIMES;w_SI;w_GUNU]);
  (0x124a9, [w_CUNEIFORM;w_SIGN;w_E2;w_TIMES;w_KUR]);
  (0x124aa, [w_CUNEIFORM;w_SIGN;w_E2;w_TIMES;w_PAP]);
  (0x124ab, [w_CUNEIFORM;w_SIGN;w_ERIN2;w_X]);
  (0x124ac, [w_CUNEIFORM;w_SIGN;w_ESH2;w_CROSSING;w_ESH2]);
  (0x124ad, [w_CUNEIFORM;w_SIGN;w_EZEN;w_SHESHIG;w_TIMES;w_ASH]);
  (0x124ae, [w_CUNEIFORM;w_SIGN;w_EZEN;w_SHESHIG;w_TIMES;w_HI]);
  (0x124af, [w_CUNEIFORM;w_SIGN;w_EZEN;w_SHESHIG;w_TIMES;w_IGI;w_GUNU]);
  (0x124b0, [w_CUNEIFORM;w_SIGN;w_EZEN;w_SHESHIG;w_TIMES;w_LA]);
  (0x124b1, [w_CUNEIFORM;w_SIGN;w_EZEN;w_SHESHIG;w_TIMES;w_LAL]);
  (0x124b2, [w_CUNEIFORM;w_SIGN;w_EZEN;w_SHESHIG;w_TIMES;w_ME]);
  (0x124b3, [w_CUNEIFORM;w_SIGN;w_EZEN;w_SHESHIG;w_TIMES;w_MES]);
  (0x124b4, [w_CUNEIFORM;w_SIGN;w_EZEN;w_SHESHIG;w_TIMES;w_SU]);
  (0x124b5, [w_CUNEIFORM;w_SIGN;w_EZEN;w_TIMES;w_SU]);
  (0x124b6, [w_CUNEIFORM;w_SIGN;w_GA2;w_TIMES;w_BAHAR2]);
  (0x124b7, [w_CUNEIFORM;w_SIGN;w_GA2;w_TIMES;w_DIM;w_GUNU]);
  (0x124b8, [w_CUNEIFORM;w_SIGN;w_GA2;w_TIMES;w_DUG;w_TIMES;w_IGI;w_GUNU]);
  (0x124b9, [w_CUNEIFORM;w_SIGN;w_GA2;w_TIMES;w_DUG;w_TIMES;w_KASKAL]);
  (0x124ba, [w_CUNEIFORM;w_SIGN;w_GA2;w_TIMES;w_EREN]);
  (0x124bb, [w_CUNEIFORM;w_SIGN;w_GA2;w_TIMES;w_GA]);
  (0x124bc, [w_CUNEIFORM;w_SIGN;w_GA2;w_TIMES;w_GAR;w_PLUS;w_DI]);
  (0x124bd, [w_CUNEIFORM;w_SIGN;w_GA2;w_TIMES;w_GAR;w_PLUS;w_NE]);
  (0x124be, [w_CUNEIFORM;w_SIGN;w_GA2;w_TIMES;w_HA;w_PLUS;w_A]);
  (0x124bf, [w_CUNEIFORM;w_SIGN;w_GA2;w_TIMES;w_KUSHU2;w_PLUS;w_KASKAL]);
  (0x124c0, [w_CUNEIFORM;w_SIGN;w_GA2;w_TIMES;w_LAM]);
  (0x124c1, [w_CUNEIFORM;w_SIGN;w_GA2;w_TIMES;w_LAM;w_TIMES;w_KUR]);
  (0x124c2, [w_CUNEIFORM;w_SIGN;w_GA2;w_TIMES;w_LUH]);
  (0x124c3, [w_CUNEIFORM;w_SIGN;w_GA2;w_TIMES;w_MUSH]);
  (0x124c4, [w_CUNEIFORM;w_SIGN;w_GA2;w_TIMES;w_NE]);
  (0x124c5, [w_CUNEIFORM;w_SIGN;w_GA2;w_TIMES;w_NE;w_PLUS;w_E2]);
  (0x124c6, [w_CUNEIFORM;w_SIGN;w_GA2;w_TIMES;w_NE;w_PLUS;w_GI]);
  (0x124c7, [w_CUNEIFORM;w_SIGN;w_GA2;w_TIMES;w_SHIM]);
  (0x124c8, [w_CUNEIFORM;w_SIGN;w_GA2;w_TIMES;w_ZIZ2]);
  (0x124c9, [w_CUNEIFORM;w_SIGN;w_GABA;w_ROTATED;w_NINETY;w_DEGREES]);
  (0x124ca, [w_CUNEIFORM;w_SIGN;w_GESHTIN;w_TIMES;w_U]);
  (0x124cb, [w_CUNEIFORM;w_SIGN;w_GISH;w_TIMES;w_GISH;w_CROSSING;w_GISH]);
  (0x124cc, [w_CUNEIFORM;w_SIGN;w_GU2;w_TIMES;w_IGI;w_GUNU]);
  (0x124cd, [w_CUNEIFORM;w_SIGN;w_GUD;w_PLUS;w_GISH;w_TIMES;w_TAK4]);
  (0x124ce, [w_CUNEIFORM;w_SIGN;w_HA;w_TENU;w_GUNU]);
  (0x124cf, [w_CUNEIFORM;w_SIGN;w_HI;w_TIMES;w_ASH;w_OVER;w_HI;w_TIMES;w_ASH]);
  (0x124d0, [w_CUNEIFORM;w_SIGN;w_KA;w_TIMES;w_BU]);
  (0x124d1, [w_CUNEIFORM;w_SIGN;w_KA;w_TIMES;w_KA]);
  (0x124d2, [w_CUNEIFORM;w_SIGN;w_KA;w_TIMES;w_U;w_U;w_U])].

Definition NAMES_54 : list (N * (list str)) := [
  (0x124d3, [w_CUNEIFORM;w_SIGN;w_KA;w_TIMES;w_UR]);
  (0x124d4, [w_CUNEIFORM;w_SIGN;w_LAGAB;w_TIMES;w_ZU;w_OVER;w_ZU]);
  (0x124d5, [w_CUNEIFORM;w_SIGN;w_LAK_003]);
  (0x124d6, [w_CUNEIFORM;w_SIGN;w_LAK_021]);
  (0x124d7, [w_CUNEIFORM;w_SIGN;w_LAK_025]);
  (0x124d8, [w_CUNEIFORM;w_SIGN;w_LAK_030]);
  (0x124d9, [w_CUNEIFORM;w_SIGN;w_LAK_050]);
  (0x124da, [w_CUNEIFORM;w_SIGN;w_LAK_051]);
  (0x124db, [w_CUNEIFORM;w_SIGN;w_LAK_062]);
  (0x124dc, [w_CUNEIFORM;w_SIGN;w_LAK_079;w_OVER;w_LAK_079;w_GUNU]);
  (0x124dd, [w_CUNEIFORM;w_SIGN;w_LAK_080]);
  (0x124de, [w_CUNEIFORM;w_SIGN;w_LAK_081;w_OVER;w_LAK_081]);
  (0x124df, [w_CUNEIFORM;w_SIGN;w_LAK_092]);
  (0x124e0, [w_CUNEIFORM;w_SIGN;w_LAK_130]);
  (0x124e1, [w_CUNEIFORM;w_SIGN;w_LAK_142]);
  (0x124e2, [w_CUNEIFORM;w_SIGN;w_LAK_210]);
  (0x124e3, [w_CUNEIFORM;w_SIGN;w_LAK_219]);
  (0x124e4, [w_CUNEIFORM;w_SIGN;w_LAK_220]);
  (0x124e5, [w_CUNEIFORM;w_SIGN;w_LAK_225]);
  (0x124e6, [w_CUNEIFORM;w_SIGN;w_LAK_228]);
  (0x124e7, [w_CUNEIFORM;w_SIGN;w_LAK_238]);
  (0x124e8, [w_CUNEIFORM;w_SIGN;w_LAK_265]);
  (0x124e9, [w_CUNEIFORM;w_SIGN;w_LAK_266]);
  (0x124ea, [w_CUNEIFORM;w_SIGN;w_LAK_343]);
  (0x124eb, [w_CUNEIFORM;w_SIGN;w_LAK_347]);
  (0x124ec, [w_CUNEIFORM;w_SIGN;w_LAK_348]);
  (0x124ed, [w_CUNEIFORM;w_SIGN;w_LAK_383]);
  (0x124ee, [w_CUNEIFORM;w_SIGN;w_LAK_384]);
  (0x124ef, [w_CUNEIFORM;w_SIGN;w_LAK_390]);
  (0x124f0, [w_CUNEIFORM;w_SIGN;w_LAK_441]);
  (0x124f1, [w_CUNEIFORM;w_SIGN;w_LAK_449]);
  (0x124f2, [w_CUNEIFORM;w_SIGN;w_LAK_449;w_TIMES;w_GU]);
  (0x124f3, [w_CUNEIFORM;w_SIGN;w_LAK_449;w_TIMES;w_IGI]);
  (0x124f4, [w_CUNEIFORM;w_SIGN;w_LAK_449;w_TIMES;w_PAP;w_PLUS;w_LU3]);
  (0x124f5, [w_CUNEIFORM;w_SIGN;w_LAK_449;w_TIMES;w_PAP;w_PLUS;w_PAP;w_PLUS;w_LU3]);
  (0x124f6, [w_CUNEIFORM;w_SIGN;w_LAK_449;w_TIMES;w_U2;w_PLUS;w_BA]);
  (0x124f7, [w_CUNEIFORM;w_SIGN;w_LAK_450]);
  (0x124f8, [w_CUNEIFORM;w_SIGN;w_LAK_457]);
  (0x124f9, [w_CUNEIFORM;w_SIGN;w_LAK_470]);
  (0x124fa, [w_CUNEIFORM;w_SIGN;w_LAK_483]);
  (0x124fb, [w_CUNEIFORM;w_SIGN;w_LAK_490]);
  (0x124fc, [w_CUNEIFORM;w_SIGN;w_LAK_492]);
  (0x124fd, [w_CUNEIFORM;w_SIGN;w_LAK_493]);
  (0x124fe, [w_CUNEIFORM;w_SIGN;w_LAK_495]);
  (0x124ff, [w_CUNEIFORM;w_SIGN;w_LAK_550]);
  (0x12500, [w_CUNEIFORM;w_SIGN;w_LAK_608]);
  (0x12501, [w_CUNEIFORM;w_SIGN;w_LAK_617]);
  (0x12502, [w_CUNEIFORM;w_SIGN;w_LAK_617;w_TIMES;w_ASH]);
  (0x12503, [w_CUNEIFORM;w_SIGN;w_LAK_617;w_TIMES;w_BAD]);
  (0x12504, [w_CUNEIFORM;w_SIGN;w_LAK_617;w_TIMES;w_DUN3;w_GUNU;w_GUNU]);
  (0x12505, [w_CUNEIFORM;w_SIGN;w_LAK_617;w_TIMES;w_KU3]);
  (0x12506, [w_CUNEIFORM;w_SIGN;w_LAK_617;w_TIMES;w_LA]);
  (0x12507, [w_CUNEIFORM;w_SIGN;w_LAK_617;w_TIMES;w_TAR]);
  (0x12508, [w_CUNEIFORM;w_SIGN;w_LAK_617;w_TIMES;w_TE]);
  (0x12509, [w_CUNEIFORM;w_SIGN;w_LAK_617;w_TIMES;w_U2]);
  (0x1250a, [w_CUNEIFORM;w_SIGN;w_LAK_617;w_TIMES;w_UD]);
  (0x1250b, [w_CUNEIFORM;w_SIGN;w_LAK_617;w_TIMES;w_URUDA]);
  (0x1250c, [w_CUNEIFORM;w_SIGN;w_LAK_636]);
  (0x1250d, [w_CUNEIFORM;w_SIGN;w_LAK_648]);
  (0x1250e, [w_CUNEIFORM;w_SIGN;w_LAK_648;w_TIMES;w_DUB]);
  (0x1250f, [w_CUNEIFORM;w_SIGN;w_LAK_648;w_TIMES;w_GA]);
  (0x12510, [w_CUNEIFORM;w_SIGN;w_LAK_648;w_TIMES;w_IGI]);
  (0x12511, [w_CUNEIFORM;w_SIGN;w_LAK_648;w_TIMES;w_IGI;w_GUNU]);
  (0x12512, [w_CUNEIFORM;w_SIGN;w_LAK_648;w_TIMES;w_NI]);
  (0x12513, [w_CUNEIFORM;w_SIGN;w_LAK_648;w_TIMES;w_PAP;w_PLUS;w_PAP;w_PLUS;w_LU3]);
  (0x12514, [w_CUNEIFORM;w_SIGN;w_LAK_648;w_TIMES;w_SHESH;w_PLUS;w_KI]);
  (0x12515, [w_CUNEIFORM;w_SIGN;w_LAK_648;w_TIMES;w_UD]);
  (0x12516, [w_CUNEIFORM;w_SIGN;w_LAK_648;w_TIMES;w_URUDA]);
  (0x12517, [w_CUNEIFORM;w_SIGN;w_LAK_724]);
  (0x12518, [w_CUNEIFORM;w_SIGN;w_LAK_749]);
  (0x12519, [w_CUNEIFORM;w_SIGN;w_LU2;w_GUNU;w_TIMES;w_ASH]);
  (0x1251a, [w_CUNEIFORM;w_SIGN;w_LU2;w_TIMES;w_DISH]);
  (0x1251b, [w_CUNEIFORM;w_SIGN;w_LU2;w_TIMES;w_HAL]);
  (0x1251c, [w_CUNEIFORM;w_SIGN;w_LU2;w_TIMES;w_PAP]);
  (0x1251d, [w_CUNEIFORM;w_SIGN;w_LU2;w_TIMES;w_PAP;w_PLUS;w_PAP;w_PLUS;w_LU3]);
  (0x1251e, [w_CUNEIFORM;w_SIGN;w_LU2;w_TIMES;w_TAK4]);
  (0x1251f, [w_CUNEIFORM;w_SIGN;w_MI;w_PLUS;w_ZA7]);
  (0x12520, [w_CUNEIFORM;w_SIGN;w_MUSH;w_OVER;w_MUSH;w_TIMES;w_GA]);
  (0x12521, [w_CUNEIFORM;w_SIGN;w_MUSH;w_OVER;w_MUSH;w_TIMES;w_KAK]);
  (0x12522, [w_CUNEIFORM;w_SIGN;w_NINDA2;w_TIMES;w_DIM;w_GUNU]);
  (0x12523, [w_CUNEIFORM;w_SIGN;w_NINDA2;w_TIMES;w_GISH]);
  (0x12524, [w_CUNEIFORM;w_SIGN;w_NINDA2;w_TIMES;w_GUL]);
  (0x12525, [w_CUNEIFORM;w_SIGN;w_NINDA2;w_TIMES;w_HI]);
  (0x12526, [w_CUNEIFORM;w_SIGN;w_NINDA2;w_TIMES;w_KESH2]);
  (0x12527, [w_CUNEIFORM;w_SIGN;w_NINDA2;w_TIMES;w_LAK_050]);
  (0x12528, [w_CUNEIFORM;w_SIGN;w_NINDA2;w_TIMES;w_MASH]);
  (0x12529, [w_CUNEIFORM;w_SIGN;w_NINDA2;w_TIMES;w_PAP;w_PLUS;w_PAP]);
  (0x1252a, [w_CUNEIFORM;w_SIGN;w_NINDA2;w_TIMES;w_U]);
  (0x1252b, [w_CUNEIFORM;w_SIGN;w_NINDA2;w_TIMES;w_U;w_PLUS;w_U]);
  (0x1252c, [w_CUNEIFORM;w_SIGN;w_NINDA2;w_TIMES;w_URUDA]);
  (0x1252d, [w_CUNEIFORM;w_SIGN;w_SAG;w_GUNU;w_TIMES;w_HA]);
  (0x1252e, [w_CUNEIFORM;w_SIGN;w_SAG;w_TIMES;w_EN]);
  (0x1252f, [w_CUNEIFORM;w_SIGN;w_SAG;w_TIMES;w_SHE;w_AT;w_LEFT]);
  (0x12530, [w_CUNEIFORM;w_SIGN;w_SAG;w_TIMES;w_TAK4]);
  (0x12531, [w_CUNEIFORM;w_SIGN;w_SHA6;w_TENU]);
  (0x12532, [w_CUNEIFORM;w_SIGN;w_SHE;w_OVER;w_SHE]);
  (0x12533, [w_CUNEIFORM;w_SIGN;w_SHE;w_PLUS;w_HUB2]);
  (0x12534, [w_CUNEIFORM;w_SIGN;w_SHE;w_PLUS;w_NAM2]);
  (0x12535, [w_CUNEIFORM;w_SIGN;w_SHE;w_PLUS;w_SAR]);
  (0x12536, [w_CUNEIFORM;w_SIGN;w_SHU2;w_PLUS;w_DUG;w_TIMES;w_NI]);
  (0x12537, [w_CUNEIFORM;w_SIGN;w_SHU2;w_PLUS;w_E2;w_TIMES;w_AN]);
  (0x12538, [w_CUNEIFORM;w_SIGN;w_SI;w_TIMES;w_TAK4]);
  (0x12539, [w_CUNEIFORM;w_SIGN;w_TAK4;w_PLUS;w_SAG]);
  (0x1253a, [w_CUNEIFORM;w_SIGN;w_TUM;w_TIMES;w_GAN2;w_TENU]);
  (0x1253b, [w_CUNEIFORM;w_SIGN;w_TUM;w_TIMES;w_THREE;w_DISH]);
  (0x1253c, [w_CUNEIFORM;w_SIGN;w_UR2;w_INVERTED]);
  (0x1253d, [w_CUNEIFORM;w_SIGN;w_UR2;w_TIMES;w_UD]);
  (0x1253e, [w_CUNEIFORM;w_SIGN;w_URU;w_TIMES;w_DARA3]);
  (0x1253f, [w_CUNEIFORM;w_SIGN;w_URU;w_TIMES;w_LAK_668]);
  (0x12540, [w_CUNEIFORM;w_SIGN;w_URU;w_TIMES;w_LU3]);
  (0x12541, [w_CUNEIFORM;w_SIGN;w_ZA7]);
  (0x12542, [w_CUNEIFORM;w_SIGN;w_ZU;w_OVER;w_ZU;w_PLUS;w_SAR]);
  (0x12543, [w_CUNEIFORM;w_SIGN;w_ZU5;w_TIMES;w_THREE;w_DISH;w_TENU]);
  (0x13000, [w_EGYPTIAN;w_HIEROGLYPH;w_A001]);
  (0x13001, [w_EGYPTIAN;w_HIEROGLYPH;w_A002]);
  (0x13002, [w_EGYPTIAN;w_HIEROGLYPH;w_A003]);
  (0x13003, [w_EGYPTIAN;w_HIEROGLYPH;w_A004]);
  (0x13004, [w_EGYPTIAN;w_HIEROGLYPH;w_A005]);
  (0x13005, [w_EGYPTIAN;w_HIEROGLYPH;w_A005A]);
  (0x13006, [w_EGYPTIAN;w_HIEROGLYPH;w_A006]);
  (0x13007, [w_EGYPTIAN;w_HIEROGLYPH;w_A006A]);
  (0x13008, [w_EGYPTIAN;w_HIEROGLYPH;w_A006B]);
  (0x13009, [w_EGYPTIAN;w_HIEROGLYPH;w_A007]);
  (0x1300a, [w_EGYPTIAN;w_HIEROGLYPH;w_A008]);
  (0x1300b, [w_EGYPTIAN;w_HIEROGLYPH;w_A009]);
  (0x1300c, [w_EGYPTIAN;w_HIEROGLYPH;w_A010]);
  (0x1300d, [w_EGYPTIAN;w_HIEROGLYPH;w_A011]);
  (0x1300e, [w_EGYPTIAN;w_HIEROGLYPH;w_A012]);
  (0x1300f, [w_EGYPTIAN;w_HIEROGLYPH;w_A013]);
  (0x13010, [w_EGYPTIAN;w_HIEROGLYPH;w_A014]);
  (0x13011, [w_EGYPTIAN;w_HIEROGLYPH;w_A014A]);
  (0x13012, [w_EGYPTIAN;w_HIEROGLYPH;w_A015]);
  (0x13013, [w_EGYPTIAN;w_HIEROGLYPH;w_A016]);
  (0x13014, [w_EGYPTIAN;w_HIEROGLYPH;w_A017]);
  (0x13015, [w_EGYPTIAN;w_HIEROGLYPH;w_A017A]);
  (0x13016, [w_EGYPTIAN;w_HIEROGLYPH;w_A018]);
  (0x13017, [w_EGYPTIAN;w_HIEROGLYPH;w_A019]);
  (0x13018, [w_EGYPTIAN;w_HIEROGLYPH;w_A020]);
  (0x13019, [w_EGYPTIAN;w_HIEROGLYPH;w_A021]);
  (0x1301a, [w_EGYPTIAN;w_HIEROGLYPH;w_A022]);
  (0x1301b, [w_EGYPTIAN;w_HIEROGLYPH;w_A023]);
  (0x1301c, [w_EGYPTIAN;w_HIEROGLYPH;w_A024]);
  (0x1301d, [w_EGYPTIAN;w_HIEROGLYPH;w_A025]);
  (0x1301e, [w_EGYPTIAN;w_HIEROGLYPH;w_A026]);
  (0x1301f, [w_EGYPTIAN;w_HIEROGLYPH;w_A027]);
  (0x13020, [w_EGYPTIAN;w_HIEROGLYPH;w_A028]);
  (0x13021, [w_EGYPTIAN;w_HIEROGLYPH;w_A029]);
  (0x13022, [w_EGYPTIAN;w_HIEROGLYPH;w_A030]);
  (0x13023, [w_EGYPTIAN;w_HIEROGLYPH;w_A031]);
  (0x13024, [w_EGYPTIAN;w_HIEROGLYPH;w_A032]);
  (0x13025, [w_EGYPTIAN;w_HIEROGLYPH;w_A032A]);
  (0x13026, [w_EGYPTIAN;w_HIEROGLYPH;w_A033]);
  (0x13027, [w_EGYPTIAN;w_HIEROGLYPH;w_A034]);
  (0x13028, [w_EGYPTIAN;w_HIEROGLYPH;w_A035]);
  (0x13029, [w_EGYPTIAN;w_HIEROGLYPH;w_A036]);
  (0x1302a, [w_EGYPTIAN;w_HIEROGLYPH;w_A037]);
  (0x1302b, [w_EGYPTIAN;w_HIEROGLYPH;w_A038]);
  (0x1302c, [w_EGYPTIAN;w_HIEROGLYPH;w_A039]);
  (0x1302d, [w_EGYPTIAN;w_HIEROGLYPH;w_A040]);
  (0x1302e, [w_EGYPTIAN;w_HIEROGLYPH;w_A040A]);
  (0x1302f, [w_EGYPTIAN;w_HIEROGLYPH;w_A041]);
  (0x13030, [w_EGYPTIAN;w_HIEROGLYPH;w_A042]);
  (0x13031, [w_EGYPTIAN;w_HIEROGLYPH;w_A042A]);
  (0x13032, [w_EGYPTIAN;w_HIEROGLYPH;w_A043]);
  (0x13033, [w_EGYPTIAN;w_HIEROGLYPH;w_A043A]);
  (0x13034, [w_EGYPTIAN;w_HIEROGLYPH;w_A044]);
  (0x13035, [w_EGYPTIAN;w_HIEROGLYPH;w_A045]);
  (0x13036, [w_EGYPTIAN;w_HIEROGLYPH;w_A045A]);
  (0x13037, [w_EGYPTIAN;w_HIEROGLYPH;w_A046]);
  (0x13038, [w_EGYPTIAN;w_HIEROGLYPH;w_A047]);
  (0x13039, [w_EGYPTIAN;w_HIEROGLYPH;w_A048]);
  (0x1303a, [w_EGYPTIAN;w_HIEROGLYPH;w_A049]);
  (0x1303b, [w_EGYPTIAN;w_HIEROGLYPH;w_A050]);
  (0x1303c, [w_EGYPTIAN;w_HIEROGLYPH;w_A051]);
  (0x1303d, [w_EGYPTIAN;w_HIEROGLYPH;w_A052]);
  (0x1303e, [w_EGYPTIAN;w_HIEROGLYPH;w_A053]);
  (0x1303f, [w_EGYPTIAN;w_HIEROGLYPH;w_A054]);
  (0x13040, [w_EGYPTIAN;w_HIEROGLYPH;w_A055]);
  (0x13041, [w_EGYPTIAN;w_HIEROGLYPH;w_A056]);
  (0x13042, [w_EGYPTIAN;w_HIEROGLYPH;w_A057]);
  (0x13043, [w_EGYPTIAN;w_HIEROGLYPH;w_A058]);
  (0x13044, [w_EGYPTIAN;w_HIEROGLYPH;w_A059]);
  (0x13045, [w_EGYPTIAN;w_HIEROGLYPH;w_A060]);
  (0x13046, [w_EGYPTIAN;w_HIEROGLYPH;w_A061]);
  (0x13047, [w_EGYPTIAN;w_HIEROGLYPH;w_A062]);
  (0x13048, [w_EGYPTIAN;w_HIEROGLYPH;w_A063]);
  (0x13049, [w_EGYPTIAN;w_HIEROGLYPH;w_A064]);
  (0x1304a, [w_EGYPTIAN;w_HIEROGLYPH;w_A065]);
  (0x1304b, [w_EGYPTIAN;w_HIEROGLYPH;w_A066]);
  (0x1304c, [w_EGYPTIAN;w_HIEROGLYPH;w_A067]);
  (0x1304d, [w_EGYPTIAN;w_HIEROGLYPH;w_A068]);
  (0x1304e, [w_EGYPTIAN;w_HIEROGLYPH;w_A069]);
  (0x1304f, [w_EGYPTIAN;w_HIEROGLYPH;w_A070]);
  (0x13050, [w_EGYPTIAN;w_HIEROGLYPH;w_B001]);
  (0x13051, [w_EGYPTIAN;w_HIEROGLYPH;w_B002]);
  (0x13052, [w_EGYPTIAN;w_HIEROGLYPH;w_B003]);
  (0x13053, [w_EGYPTIAN;w_HIEROGLYPH;w_B004]);
  (0x13054, [w_EGYPTIAN;w_HIEROGLYPH;w_B005]);
  (0x13055, [w_EGYPTIAN;w_HIEROGLYPH;w_B005A]);
  (0x13056, [w_EGYPTIAN;w_HIEROGLYPH;w_B006]);
  (0x13057, [w_EGYPTIAN;w_HIEROGLYPH;w_B007]);
  (0x13058, [w_EGYPTIAN;w_HIEROGLYPH;w_B008]);
  (0x13059, [w_EGYPTIAN;w_HIEROGLYPH;w_B009]);
  (0x1305a, [w_EGYPTIAN;w_HIEROGLYPH;w_C001]);
  (0x1305b, [w_EGYPTIAN;w_HIEROGLYPH;w_C002]);
  (0x1305c, [w_EGYPTIAN;w_HIEROGLYPH;w_C002A]);
  (0x1305d, [w_EGYPTIAN;w_HIEROGLYPH;w_C002B]);
  (0x1305e, [w_EGYPTIAN;w_HIEROGLYPH;w_C002C]);
  (0x1305f, [w_EGYPTIAN;w_HIEROGLYPH;w_C003]);
  (0x13060, [w_EGYPTIAN;w_HIEROGLYPH;w_C004]);
  (0x13061, [w_EGYPTIAN;w_HIEROGLYPH;w_C005]);
  (0x13062, [w_EGYPTIAN;w_HIEROGLYPH;w_C006]);
  (0x13063, [w_EGYPTIAN;w_HIEROGLYPH;w_C007]);
  (0x13064, [w_EGYPTIAN;w_HIEROGLYPH;w_C008]);
  (0x13065, [w_EGYPTIAN;w_HIEROGLYPH;w_C009]);
  (0x13066, [w_EGYPTIAN;w_HIEROGLYPH;w_C010]);
  (0x13067, [w_EGYPTIAN;w_HIEROGLYPH;w_C010A]);
  (0x13068, [w_EGYPTIAN;w_HIEROGLYPH;w_C011]);
  (0x13069, [w_EGYPTIAN;w_HIEROGLYPH;w_C012]);
  (0x1306a, [w_EGYPTIAN;w_HIEROGLYPH;w_C013]);
  (0x1306b, [w_EGYPTIAN;w_HIEROGLYPH;w_C014]);
  (0x1306c, [w_EGYPTIAN;w_HIEROGLYPH;w_C015]);
  (0x1306d, [w_EGYPTIAN;w_HIEROGLYPH;w_C016]);
  (0x1306e, [w_EGYPTIAN;w_HIEROGLYPH;w_C017]);
  (0x1306f, [w_EGYPTIAN;w_HIEROGLYPH;w_C018]);
  (0x13070, [w_EGYPTIAN;w_HIEROGLYPH;w_C019]);
  (0x13071, [w_EGYPTIAN;w_HIEROGLYPH;w_C020]);
  (0x13072, [w_EGYPTIAN;w_HIEROGLYPH;w_C021]);
  (0x13073, [w_EGYPTIAN;w_HIEROGLYPH;w_C022]);
  (0x13074, [w_EGYPTIAN;w_HIEROGLYPH;w_C023]);
  (0x13075, [w_EGYPTIAN;w_HIEROGLYPH;w_C024]);
  (0x13076, [w_EGYPTIAN;w_HIEROGLYPH;w_D001]);
  (0x13077, [w_EGYPTIAN;w_HIEROGLYPH;w_D002]);
  (0x13078, [w_EGYPTIAN;w_HIEROGLYPH;w_D003]);
  (0x13079, [w_EGYPTIAN;w_HIEROGLYPH;w_D004]);
  (0x1307a, [w_EGYPTIAN;w_HIEROGLYPH;w_D005]);
  (0x1307b, [w_EGYPTIAN;w_HIEROGLYPH;w_D006]);
  (0x1307c, [w_EGYPTIAN;w_HIEROGLYPH;w_D007]);
  (0x1307d, [w_EGYPTIAN;w_HIEROGLYPH;w_D008]);
  (0x1307e, [w_EGYPTIAN;w_HIEROGLYPH;w_D008A]);
  (0x1307f, [w_EGYPTIAN;w_HIEROGLYPH;w_D009]);
  (0x13080, [w_EGYPTIAN;w_HIEROGLYPH;w_D010]);
  (0x13081, [w_EGYPTIAN;w_HIEROGLYPH;w_D011]);
  (0x13082, [w_EGYPTIAN;w_HIEROGLYPH;w_D012]);
  (0x13083, [w_EGYPTIAN;w_HIEROGLYPH;w_D013]);
  (0x13084, [w_EGYPTIAN;w_HIEROGLYPH;w_D014]);
  (0x13085, [w_EGYPTIAN;w_HIEROGLYPH;w_D015]);
  (0x13086, [w_EGYPTIAN;w_HIEROGLYPH;w_D016]);
  (0x13087, [w_EGYPTIAN;w_HIEROGLYPH;w_D017]);
  (0x13088, [w_EGYPTIAN;w_HIEROGLYPH;w_D018]);
  (0x13089, [w_EGYPTIAN;w_HIEROGLYPH;w_D019]);
  (0x1308a, [w_EGYPTIAN;w_HIEROGLYPH;w_D020]);
  (0x1308b, [w_EGYPTIAN;w_HIEROGLYPH;w_D021]);
  (0x1308c, [w_EGYPTIAN;w_HIEROGLYPH;w_D022]);
  (0x1308d, [w_EGYPTIAN;w_HIEROGLYPH;w_D023]);
  (0x1308e, [w_EGYPTIAN;w_HIEROGLYPH;w_D024]);
  (0x1308f, [w_EGYPTIAN;w_HIEROGLYPH;w_D025]);
  (0x13090, [w_EGYPTIAN;w_HIEROGLYPH;w_D026]);
  (0x13091, [w_EGYPTIAN;w_HIEROGLYPH;w_D027]);
  (0x13092, [w_EGYPTIAN;w_HIEROGLYPH;w_D027A]);
  (0x13093, [w_EGYPTIAN;w_HIEROGLYPH;w_D028]);
  (0x13094, [w_EGYPTIAN;w_HIEROGLYPH;w_D029]);
  (0x13095, [w_EGYPTIAN;w_HIEROGLYPH;w_D030]);
  (0x13096, [w_EGYPTIAN;w_HIEROGLYPH;w_D031]);
  (0x13097, [w_EGYPTIAN;w_HIEROGLYPH;w_D031A]);
  (0x13098, [w_EGYPTIAN;w_HIEROGLYPH;w_D032]);
  (0x13099, [w_EGYPTIAN;w_HIEROGLYPH;w_D033]);
  (0x1309a, [w_EGYPTIAN;w_HIEROGLYPH;w_D034]);
  (0x1309b, [w_EGYPTIAN;w_HIEROGLYPH;w_D034A]);
  (0x1309c, [w_EGYPTIAN;w_HIEROGLYPH;w_D035]);
  (0x1309d, [w_EGYPTIAN;w_HIEROGLYPH;w_D036]);
  (0x1309e, [w_EGYPTIAN;w_HIEROGLYPH;w_D037]);
  (0x1309f, [w_EGYPTIAN;w_HIEROGLYPH;w_D038]);
  (0x130a0, [w_EGYPTIAN;w_HIEROGLYPH;w_D039]);
  (0x130a1, [w_EGYPTIAN;w_HIEROGLYPH;w_D040]);
  (0x130a2, [w_EGYPTIAN;w_HIEROGLYPH;w_D041]);
  (0x130a3, [w_EGYPTIAN;w_HIEROGLYPH;w_D042]);
  (0x130a4, [w_EGYPTIAN;w_HIEROGLYPH;w_D043]);
  (0x130a5, [w_EGYPTIAN;w_HIEROGLYPH;w_D044]);
  (0x130a6, [w_EGYPTIAN;w_HIEROGLYPH;w_D045]);
  (0x130a7, [w_EGYPTIAN;w_HIEROGLYPH;w_D046]);
  (0x130a8, [w_EGYPTIAN;w_HIEROGLYPH;w_D046A]);
  (0x130a9, [w_EGYPTIAN;w_HIEROGLYPH;w_D047]);
  (0x130aa, [w_EGYPTIAN;w_HIEROGLYPH;w_D048]);
  (0x130ab, [w_EGYPTIAN;w_HIEROGLYPH;w_D048A]);
  (0x130ac, [w_EGYPTIAN;w_HIEROGLYPH;w_D049]);
  (0x130ad, [w_EGYPTIAN;w_HIEROGLYPH;w_D050]);
  (0x130ae, [w_EGYPTIAN;w_HIEROGLYPH;w_D050A]);
  (0x130af, [w_EGYPTIAN;w_HIEROGLYPH;w_D050B]);
  (0x130b0, [w_EGYPTIAN;w_HIEROGLYPH;w_D050C]);
  (0x130b1, [w_EGYPTIAN;w_HIEROGLYPH;w_D050D]);
  (0x130b2, [w_EGYPTIAN;w_HIEROGLYPH;w_D050E]);
  (0x130b3, [w_EGYPTIAN;w_HIEROGLYPH;w_D050F]);
  (0x130b4, [w_EGYPTIAN;w_HIEROGLYPH;w_D050G]);
  (0x130b5, [w_EGYPTIAN;w_HIEROGLYPH;w_D050H]);
  (0x130b6, [w_EGYPTIAN;w_HIEROGLYPH;w_D050I]);
  (0x130b7, [w_EGYPTIAN;w_HIEROGLYPH;w_D051]);
  (0x130b8, [w_EGYPTIAN;w_HIEROGLYPH;w_D052]);
  (0x130b9, [w_EGYPTIAN;w_HIEROGLYPH;w_D052A]);
  (0x130ba, [w_EGYPTIAN;w_HIEROGLYPH;w_D053]);
  (0x130bb, [w_EGYPTIAN;w_HIEROGLYPH;w_D054]);
  (0x130bc, [w_EGYPTIAN;w_HIEROGLYPH;w_D054A]);
  (0x130bd, [w_EGYPTIAN;w_HIEROGLYPH;w_D055]);
  (0x130be, [w_EGYPTIAN;w_HIEROGLYPH;w_D056]);
  (0x130bf, [w_EGYPTIAN;w_HIEROGLYPH;w_D057]);
  (0x130c0, [w_EGYPTIAN;w_HIEROGLYPH;w_D058]);
  (0x130c1, [w_EGYPTIAN;w_HIEROGLYPH;w_D059]);
  (0x130c2, [w_EGYPTIAN;w_HIEROGLYPH;w_D060]);
  (0x130c3, [w_EGYPTIAN;w_HIEROGLYPH;w_D061]);
  (0x130c4, [w_EGYPTIAN;w_HIEROGLYPH;w_D062]);
  (0x130c5, [w_EGYPTIAN;w_HIEROGLYPH;w_D063]);
  (0x130c6, [w_EGYPTIAN;w_HIEROGLYPH;w_D064]);
  (0x130c7, [w_EGYPTIAN;w_HIEROGLYPH;w_D065]);
  (0x130c8, [w_EGYPTIAN;w_HIEROGLYPH;w_D066]);
  (0x130c9, [w_EGYPTIAN;w_HIEROGLYPH;w_D067]);
  (0x130ca, [w_EGYPTIAN;w_HIEROGLYPH;w_D067A]);
  (0x130cb, [w_EGYPTIAN;w_HIEROGLYPH;w_D067B]);
  (0x130cc, [w_EGYPTIAN;w_HIEROGLYPH;w_D067C]);
  (0x130cd, [w_EGYPTIAN;w_HIEROGLYPH;w_D067D]);
  (0x130ce, [w_EGYPTIAN;w_HIEROGLYPH;w_D067E]);
  (0x130cf, [w_EGYPTIAN;w_HIEROGLYPH;w_D067F]);
  (0x130d0, [w_EGYPTIAN;w_HIEROGLYPH;w_D067G]);
  (0x130d1, [w_EGYPTIAN;w_HIEROGLYPH;w_D067H]);
  (0x130d2, [w_EGYPTIAN;w_HIEROGLYPH;w_E001]);
  (0x130d3, [w_EGYPTIAN;w_HIEROGLYPH;w_E002]);
  (0x130d4, [w_EGYPTIAN;w_HIEROGLYPH;w_E003]);
  (0x130d5, [w_EGYPTIAN;w_HIEROGLYPH;w_E004]);
  (0x130d6, [w_EGYPTIAN;w_HIEROGLYPH;w_E005]);
  (0x130d7, [w_EGYPTIAN;w_HIEROGLYPH;w_E006]);
  (0x130d8, [w_EGYPTIAN;w_HIEROGLYPH;w_E007]);
  (0x130d9, [w_EGYPTIAN;w_HIEROGLYPH;w_E008]);
  (0x130da, [w_EGYPTIAN;w_HIEROGLYPH;w_E008A]);
  (0x130db, [w_EGYPTIAN;w_HIEROGLYPH;w_E009]);
  (0x130dc, [w_EGYPTIAN;w_HIEROGLYPH;w_E009A]);
  (0x130dd, [w_EGYPTIAN;w_HIEROGLYPH;w_E010]);
  (0x130de, [w_EGYPTIAN;w_HIEROGLYPH;w_E011]);
  (0x130df, [w_EGYPTIAN;w_HIEROGLYPH;w_E012]);
  (0x130e0, [w_EGYPTIAN;w_HIEROGLYPH;w_E013]);
  (0x130e1, [w_EGYPTIAN;w_HIEROGLYPH;w_E014]);
  (0x130e2, [w_EGYPTIAN;w_HIEROGLYPH;w_E015]);
  (0x130e3, [w_EGYPTIAN;w_HIEROGLYPH;w_E016]);
  (0x130e4, [w_EGYPTIAN;w_HIEROGLYPH;w_E016A]);
  (0x130e5, [w_EGYPTIAN;w_HIEROGLYPH;w_E017]);
  (0x130e6, [w_EGYPTIAN;w_HIEROGLYPH;w_E017A]);
  (0x130e7, [w_EGYPTIAN;w_HIEROGLYPH;w_E018]);
  (0x130e8, [w_EGYPTIAN;w_HIEROGLYPH;w_E019]);
  (0x130e9, [w_EGYPTIAN;w_HIEROGLYPH;w_E020]);
  (0x130ea, [w_EGYPTIAN;w_HIEROGLYPH;w_E020A]);
  (0x130eb, [w_EGYPTIAN;w_HIEROGLYPH;w_E021]);
  (0x130ec, [w_EGYPTIAN;w_HIEROGLYPH;w_E022]);
  (0x130ed, [w_EGYPTIAN;w_HIEROGLYPH;w_E023]);
  (0x130ee, [w_EGYPTIAN;w_HIEROGLYPH;w_E024]);
  (0x130ef, [w_EGYPTIAN;w_HIEROGLYPH;w_E025]);
  (0x130f0, [w_EGYPTIAN;w_HIEROGLYPH;w_E026]);
  (0x130f1, [w_EGYPTIAN;w_HIEROGLYPH;w_E027]);
  (0x130f2, [w_EGYPTIAN;w_HIEROGLYPH;w_E028]);
  (0x130f3, [w_EGYPTIAN;w_HIEROGLYPH;w_E028A]);
  (0x130f4, [w_EGYPTIAN;w_HIEROGLYPH;w_E029]);
  (0x130f5, [w_EGYPTIAN;w_HIEROGLYPH;w_E030]);
  (0x130f6, [w_EGYPTIAN;w_HIEROGLYPH;w_E031]);
  (0x130f7, [w_EGYPTIAN;w_HIEROGLYPH;w_E032]);
  (0x130f8, [w_EGYPTIAN;w_HIEROGLYPH;w_E033]);
  (0x130f9, [w_EGYPTIAN;w_HIEROGLYPH;w_E034]);
  (0x130fa, [w_EGYPTIAN;w_HIEROGLYPH;w_E034A]);
  (0x130fb, [w_EGYPTIAN;w_HIEROGLYPH;w_E036]);
  (0x130fc, [w_EGYPTIAN;w_HIEROGLYPH;w_E037]);
  (0x130fd, [w_EGYPTIAN;w_HIEROGLYPH;w_E038]);
  (0x130fe, [w_EGYPTIAN;w_HIEROGLYPH;w_F001]);
  (0x130ff, [w_EGYPTIAN;w_HIEROGLYPH;w_F001A]);
  (0x13100, [w_EGYPTIAN;w_HIEROGLYPH;w_F002]);
  (0x13101, [w_EGYPTIAN;w_HIEROGLYPH;w_F003]);
  (0x13102, [w_EGYPTIAN;w_HIEROGLYPH;w_F004]);
  (0x13103, [w_EGYPTIAN;w_HIEROGLYPH;w_F005]);
  (0x13104, [w_EGYPTIAN;w_HIEROGLYPH;w_F006]);
  (0x13105, [w_EGYPTIAN;w_HIEROGLYPH;w_F007]);
  (0x13106, [w_EGYPTIAN;w_HIEROGLYPH;w_F008]);
  (0x13107, [w_EGYPTIAN;w_HIEROGLYPH;w_F009]);
  (0x13108, [w_EGYPTIAN;w_HIEROGLYPH;w_F010]);
  (0x13109, [w_EGYPTIAN;w_HIEROGLYPH;w_F011]);
  (0x1310a, [w_EGYPTIAN;w_HIEROGLYPH;w_F012]);
  (0x1310b, [w_EGYPTIAN;w_HIEROGLYPH;w_F013]);
  (0x1310c, [w_EGYPTIAN;w_HIEROGLYPH;w_F013A]);
  (0x1310d, [w_EGYPTIAN;w_HIEROGLYPH;w_F014]);
  (0x1310e, [w_EGYPTIAN;w_HIEROGLYPH;w_F015]);
  (0x1310f, [w_EGYPTIAN;w_HIEROGLYPH;w_F016]);
  (0x13110, [w_EGYPTIAN;w_HIEROGLYPH;w_F017]);
  (0x13111, [w_EGYPTIAN;w_HIEROGLYPH;w_F018]);
  (0x13112, [w_EGYPTIAN;w_HIEROGLYPH;w_F019]);
  (0x13113, [w_EGYPTIAN;w_HIEROGLYPH;w_F020]);
  (0x13114, [w_EGYPTIAN;w_HIEROGLYPH;w_F021]);
  (0x13115, [w_EGYPTIAN;w_HIEROGLYPH;w_F021A]);
  (0x13116, [w_EGYPTIAN;w_HIEROGLYPH;w_F022]);
  (0x13117, [w_EGYPTIAN;w_HIEROGLYPH;w_F023]);
  (0x13118, [w_EGYPTIAN;w_HIEROGLYPH;w_F024]);
  (0x13119, [w_EGYPTIAN;w_HIEROGLYPH;w_F025]);
  (0x1311a, [w_EGYPTIAN;w_HIEROGLYPH;w_F026]);
  (0x1311b, [w_EGYPTIAN;w_HIEROGLYPH;w_F027]);
  (0x1311c, [w_EGYPTIAN;w_HIEROGLYPH;w_F028]);
  (0x1311d, [w_EGYPTIAN;w_HIEROGLYPH;w_F029]);
  (0x1311e, [w_EGYPTIAN;w_HIEROGLYPH;w_F030])].

Definition NAMES_55 : list (N * (list str)) := [
  (0x1311f, [w_EGYPTIAN;w_HIEROGLYPH;w_F031]);
  (0x13120, [w_EGYPTIAN;w_HIEROGLYPH;w_F031A]);
  (0x13121, [w_EGYPTIAN;w_HIEROGLYPH;w_F032]);
  (0x13122, [w_EGYPTIAN;w_HIEROGLYPH;w_F033]);
  (0x13123, [w_EGYPTIAN;w_HIEROGLYPH;w_F034]);
  (0x13124, [w_EGYPTIAN;w_HIEROGLYPH;w_F035]);
  (0x13125, [w_EGYPTIAN;w_HIEROGLYPH;w_F036]);
  (0x13126, [w_EGYPTIAN;w_HIEROGLYPH;w_F037]);
  (0x13127, [w_EGYPTIAN;w_HIEROGLYPH;w_F037A]);
  (0x13128, [w_EGYPTIAN;w_HIEROGLYPH;w_F038]);
  (0x13129, [w_EGYPTIAN;w_HIEROGLYPH;w_F038A]);
  (0x1312a, [w_EGYPTIAN;w_HIEROGLYPH;w_F039]);
  (0x1312b, [w_EGYPTIAN;w_HIEROGLYPH;w_F040]);
  (0x1312c, [w_EGYPTIAN;w_HIEROGLYPH;w_F041]);
  (0x1312d, [w_EGYPTIAN;w_HIEROGLYPH;w_F042]);
  (0x1312e, [w_EGYPTIAN;w_HIEROGLYPH;w_F043]);
  (0x1312f, [w_EGYPTIAN;w_HIEROGLYPH;w_F044]);
  (0x13130, [w_EGYPTIAN;w_HIEROGLYPH;w_F045]);
  (0x13131, [w_EGYPTIAN;w_HIEROGLYPH;w_F045A]);
  (0x13132, [w_EGYPTIAN;w_HIEROGLYPH;w_F046]);
  (0x13133, [w_EGYPTIAN;w_HIEROGLYPH;w_F046A]);
  (0x13134, [w_EGYPTIAN;w_HIEROGLYPH;w_F047]);
  (0x13135, [w_EGYPTIAN;w_HIEROGLYPH;w_F047A]);
  (0x13136, [w_EGYPTIAN;w_HIEROGLYPH;w_F048]);
  (0x13137, [w_EGYPTIAN;w_HIEROGLYPH;w_F049]);
  (0x13138, [w_EGYPTIAN;w_HIEROGLYPH;w_F050]);
  (0x13139, [w_EGYPTIAN;w_HIEROGLYPH;w_F051]);
  (0x1313a, [w_EGYPTIAN;w_HIEROGLYPH;w_F051A]);
  (0x1313b, [w_EGYPTIAN;w_HIEROGLYPH;w_F051B]);
  (0x1313c, [w_EGYPTIAN;w_HIEROGLYPH;w_F051C]);
  (0x1313d, [w_EGYPTIAN;w_HIEROGLYPH;w_F052]);
  (0x1313e, [w_EGYPTIAN;w_HIEROGLYPH;w_F053]);
  (0x1313f, [w_EGYPTIAN;w_HIEROGLYPH;w_G001]);
  (0x13140, [w_EGYPTIAN;w_HIEROGLYPH;w_G002]);
  (0x13141, [w_EGYPTIAN;w_HIEROGLYPH;w_G003]);
  (0x13142, [w_EGYPTIAN;w_HIEROGLYPH;w_G004]);
  (0x13143, [w_EGYPTIAN;w_HIEROGLYPH;w_G005]);
  (0x13144, [w_EGYPTIAN;w_HIEROGLYPH;w_G006]);
  (0x13145, [w_EGYPTIAN;w_HIEROGLYPH;w_G006A]);
  (0x13146, [w_EGYPTIAN;w_HIEROGLYPH;w_G007]);
  (0x13147, [w_EGYPTIAN;w_HIEROGLYPH;w_G007A]);
  (0x13148, [w_EGYPTIAN;w_HIEROGLYPH;w_G007B]);
  (0x13149, [w_EGYPTIAN;w_HIEROGLYPH;w_G008]);
  (0x1314a, [w_EGYPTIAN;w_HIEROGLYPH;w_G009]);
  (0x1314b, [w_EGYPTIAN;w_HIEROGLYPH;w_G010]);
  (0x1314c, [w_EGYPTIAN;w_HIEROGLYPH;w_G011]);
  (0x1314d, [w_EGYPTIAN;w_HIEROGLYPH;w_G011A]);
  (0x1314e, [w_EGYPTIAN;w_HIEROGLYPH;w_G012]);
  (0x1314f, [w_EGYPTIAN;w_HIEROGLYPH;w_G013]);
  (0x13150, [w_EGYPTIAN;w_HIEROGLYPH;w_G014]);
  (0x13151, [w_EGYPTIAN;w_HIEROGLYPH;w_G015]);
  (0x13152, [w_EGYPTIAN;w_HIEROGLYPH;w_G016]);
  (0x13153, [w_EGYPTIAN;w_HIEROGLYPH;w_G017]);
  (0x13154, [w_EGYPTIAN;w_HIEROGLYPH;w_G018]);
  (0x13155, [w_EGYPTIAN;w_HIEROGLYPH;w_G019]);
  (0x13156, [w_EGYPTIAN;w_HIEROGLYPH;w_G020]);
  (0x13157, [w_EGYPTIAN;w_HIEROGLYPH;w_G020A]);
  (0x13158, [w_EGYPTIAN;w_HIEROGLYPH;w_G021]);
  (0x13159, [w_EGYPTIAN;w_HIEROGLYPH;w_G022]);
  (0x1315a, [w_EGYPTIAN;w_HIEROGLYPH;w_G023]);
  (0x1315b, [w_EGYPTIAN;w_HIEROGLYPH;w_G024]);
  (0x1315c, [w_EGYPTIAN;w_HIEROGLYPH;w_G025]);
  (0x1315d, [w_EGYPTIAN;w_HIEROGLYPH;w_G026]);
  (0x1315e, [w_EGYPTIAN;w_HIEROGLYPH;w_G026A]);
  (0x1315f, [w_EGYPTIAN;w_HIEROGLYPH;w_G027]);
  (0x13160, [w_EGYPTIAN;w_HIEROGLYPH;w_G028]);
  (0x13161, [w_EGYPTIAN;w_HIEROGLYPH;w_G029]);
  (0x13162, [w_EGYPTIAN;w_HIEROGLYPH;w_G030]);
  (0x13163, [w_EGYPTIAN;w_HIEROGLYPH;w_G031]);
  (0x13164, [w_EGYPTIAN;w_HIEROGLYPH;w_G032]);
  (0x13165, [w_EGYPTIAN;w_HIEROGLYPH;w_G033]);
  (0x13166, [w_EGYPTIAN;w_HIEROGLYPH;w_G034]);
  (0x13167, [w_EGYPTIAN;w_HIEROGLYPH;w_G035]);
  (0x13168, [w_EGYPTIAN;w_HIEROGLYPH;w_G036]);
  (0x13169, [w_EGYPTIAN;w_HIEROGLYPH;w_G036A]);
  (0x1316a, [w_EGYPTIAN;w_HIEROGLYPH;w_G037]);
  (0x1316b, [w_EGYPTIAN;w_HIEROGLYPH;w_G037A]);
  (0x1316c, [w_EGYPTIAN;w_HIEROGLYPH;w_G038]);
  (0x1316d, [w_EGYPTIAN;w_HIEROGLYPH;w_G039]);
  (0x1316e, [w_EGYPTIAN;w_HIEROGLYPH;w_G040]);
  (0x1316f, [w_EGYPTIAN;w_HIEROGLYPH;w_G041]);
  (0x13170, [w_EGYPTIAN;w_HIEROGLYPH;w_G042]);
  (0x13171, [w_EGYPTIAN;w_HIEROGLYPH;w_G043]);
  (0x13172, [w_EGYPTIAN;w_HIEROGLYPH;w_G043A]);
  (0x13173, [w_EGYPTIAN;w_HIEROGLYPH;w_G044]);
  (0x13174, [w_EGYPTIAN;w_HIEROGLYPH;w_G045]);
  (0x13175, [w_EGYPTIAN;w_HIEROGLYPH;w_G045A]);
  (0x13176, [w_EGYPTIAN;w_HIEROGLYPH;w_G046]);
  (0x13177, [w_EGYPTIAN;w_HIEROGLYPH;w_G047]);
  (0x13178, [w_EGYPTIAN;w_HIEROGLYPH;w_G048]);
  (0x13179, [w_EGYPTIAN;w_HIEROGLYPH;w_G049]);
  (0x1317a, [w_EGYPTIAN;w_HIEROGLYPH;w_G050]);
  (0x1317b, [w_EGYPTIAN;w_HIEROGLYPH;w_G051]);
  (0x1317c, [w_EGYPTIAN;w_HIEROGLYPH;w_G052]);
  (0x1317d, [w_EGYPTIAN;w_HIEROGLYPH;w_G053]);
  (0x1317e, [w_EGYPTIAN;w_HIEROGLYPH;w_G054]);
  (0x1317f, [w_EGYPTIAN;w_HIEROGLYPH;w_H001]);
  (0x13180, [w_EGYPTIAN;w_HIEROGLYPH;w_H002]);
  (0x13181, [w_EGYPTIAN;w_HIEROGLYPH;w_H003]);
  (0x13182, [w_EGYPTIAN;w_HIEROGLYPH;w_H004]);
  (0x13183, [w_EGYPTIAN;w_HIEROGLYPH;w_H005]);
  (0x13184, [w_EGYPTIAN;w_HIEROGLYPH;w_H006]);
  (0x13185, [w_EGYPTIAN;w_HIEROGLYPH;w_H006A]);
  (0x13186, [w_EGYPTIAN;w_HIEROGLYPH;w_H007]);
  (0x13187, [w_EGYPTIAN;w_HIEROGLYPH;w_H008]);
  (0x13188, [w_EGYPTIAN;w_HIEROGLYPH;w_I001]);
  (0x13189, [w_EGYPTIAN;w_HIEROGLYPH;w_I002]);
  (0x1318a, [w_EGYPTIAN;w_HIEROGLYPH;w_I003]);
  (0x1318b, [w_EGYPTIAN;w_HIEROGLYPH;w_I004]);
  (0x1318c, [w_EGYPTIAN;w_HIEROGLYPH;w_I005]);
  (0x1318d, [w_EGYPTIAN;w_HIEROGLYPH;w_I005A]);
  (0x1318e, [w_EGYPTIAN;w_HIEROGLYPH;w_I006]);
  (0x1318f, [w_EGYPTIAN;w_HIEROGLYPH;w_I007]);
  (0x13190, [w_EGYPTIAN;w_HIEROGLYPH;w_I008]);
  (0x13191, [w_EGYPTIAN;w_HIEROGLYPH;w_I009]);
  (0x13192, [w_EGYPTIAN;w_HIEROGLYPH;w_I009A]);
  (0x13193, [w_EGYPTIAN;w_HIEROGLYPH;w_I010]);
  (0x13194, [w_EGYPTIAN;w_HIEROGLYPH;w_I010A]);
  (0x13195, [w_EGYPTIAN;w_HIEROGLYPH;w_I011]);
  (0x13196, [w_EGYPTIAN;w_HIEROGLYPH;w_I011A]);
  (0x13197, [w_EGYPTIAN;w_HIEROGLYPH;w_I012]);
  (0x13198, [w_EGYPTIAN;w_HIEROGLYPH;w_I013]);
  (0x13199, [w_EGYPTIAN;w_HIEROGLYPH;w_I014]);
  (0x1319a, [w_EGYPTIAN;w_HIEROGLYPH;w_I015]);
  (0x1319b, [w_EGYPTIAN;w_HIEROGLYPH;w_K001]);
  (0x1319c, [w_EGYPTIAN;w_HIEROGLYPH;w_K002]);
  (0x1319d, [w_EGYPTIAN;w_HIEROGLYPH;w_K003]);
  (0x1319e, [w_EGYPTIAN;w_HIEROGLYPH;w_K004]);
  (0x1319f, [w_EGYPTIAN;w_HIEROGLYPH;w_K005]);
  (0x131a0, [w_EGYPTIAN;w_HIEROGLYPH;w_K006]);
  (0x131a1, [w_EGYPTIAN;w_HIEROGLYPH;w_K007]);
  (0x131a2, [w_EGYPTIAN;w_HIEROGLYPH;w_K008]);
  (0x131a3, [w_EGYPTIAN;w_HIEROGLYPH;w_L001]);
  (0x131a4, [w_EGYPTIAN;w_HIEROGLYPH;w_L002]);
  (0x131a5, [w_EGYPTIAN;w_HIEROGLYPH;w_L002A]);
  (0x131a6, [w_EGYPTIAN;w_HIEROGLYPH;w_L003]);
  (0x131a7, [w_EGYPTIAN;w_HIEROGLYPH;w_L004]);
  (0x131a8, [w_EGYPTIAN;w_HIEROGLYPH;w_L005]);
  (0x131a9, [w_EGYPTIAN;w_HIEROGLYPH;w_L006]);
  (0x131aa, [w_EGYPTIAN;w_HIEROGLYPH;w_L006A]);
  (0x131ab, [w_EGYPTIAN;w_HIEROGLYPH;w_L007]);
  (0x131ac, [w_EGYPTIAN;w_HIEROGLYPH;w_L008]);
  (0x131ad, [w_EGYPTIAN;w_HIEROGLYPH;w_M001]);
  (0x131ae, [w_EGYPTIAN;w_HIEROGLYPH;w_M001A]);
  (0x131af, [w_EGYPTIAN;w_HIEROGLYPH;w_M001B]);
  (0x131b0, [w_EGYPTIAN;w_HIEROGLYPH;w_M002]);
  (0x131b1, [w_EGYPTIAN;w_HIEROGLYPH;w_M003]);
  (0x131b2, [w_EGYPTIAN;w_HIEROGLYPH;w_M003A]);
  (0x131b3, [w_EGYPTIAN;w_HIEROGLYPH;w_M004]);
  (0x131b4, [w_EGYPTIAN;w_HIEROGLYPH;w_M005]);
  (0x131b5, [w_EGYPTIAN;w_HIEROGLYPH;w_M006]);
  (0x131b6, [w_EGYPTIAN;w_HIEROGLYPH;w_M007]);
  (0x131b7, [w_EGYPTIAN;w_HIEROGLYPH;w_M008]);
  (0x131b8, [w_EGYPTIAN;w_HIEROGLYPH;w_M009]);
  (0x131b9, [w_EGYPTIAN;w_HIEROGLYPH;w_M010]);
  (0x131ba, [w_EGYPTIAN;w_HIEROGLYPH;w_M010A]);
  (0x131bb, [w_EGYPTIAN;w_HIEROGLYPH;w_M011]);
  (0x131bc, [w_EGYPTIAN;w_HIEROGLYPH;w_M012]);
  (0x131bd, [w_EGYPTIAN;w_HIEROGLYPH;w_M012A]);
  (0x131be, [w_EGYPTIAN;w_HIEROGLYPH;w_M012B]);
  (0x131bf, [w_EGYPTIAN;w_HIEROGLYPH;w_M012C]);
  (0x131c0, [w_EGYPTIAN;w_HIEROGLYPH;w_M012D]);
  (0x131c1, [w_EGYPTIAN;w_HIEROGLYPH;w_M012E]);
  (0x131c2, [w_EGYPTIAN;w_HIEROGLYPH;w_M012F]);
  (0x131c3, [w_EGYPTIAN;w_HIEROGLYPH;w_M012G]);
  (0x131c4, [w_EGYPTIAN;w_HIEROGLYPH;w_M012H]);
  (0x131c5, [w_EGYPTIAN;w_HIEROGLYPH;w_M013]);
  (0x131c6, [w_EGYPTIAN;w_HIEROGLYPH;w_M014]);
  (0x131c7, [w_EGYPTIAN;w_HIEROGLYPH;w_M015]);
  (0x131c8, [w_EGYPTIAN;w_HIEROGLYPH;w_M015A]);
  (0x131c9, [w_EGYPTIAN;w_HIEROGLYPH;w_M016]);
  (0x131ca, [w_EGYPTIAN;w_HIEROGLYPH;w_M016A]);
  (0x131cb, [w_EGYPTIAN;w_HIEROGLYPH;w_M017]);
  (0x131cc, [w_EGYPTIAN;w_HIEROGLYPH;w_M017A]);
  (0x131cd, [w_EGYPTIAN;w_HIEROGLYPH;w_M018]);
  (0x131ce, [w_EGYPTIAN;w_HIEROGLYPH;w_M019]);
  (0x131cf, [w_EGYPTIAN;w_HIEROGLYPH;w_M020]);
  (0x131d0, [w_EGYPTIAN;w_HIEROGLYPH;w_M021]);
  (0x131d1, [w_EGYPTIAN;w_HIEROGLYPH;w_M022]);
  (0x131d2, [w_EGYPTIAN;w_HIEROGLYPH;w_M022A]);
  (0x131d3, [w_EGYPTIAN;w_HIEROGLYPH;w_M023]);
  (0x131d4, [w_EGYPTIAN;w_HIEROGLYPH;w_M024]);
  (0x131d5, [w_EGYPTIAN;w_HIEROGLYPH;w_M024A]);
  (0x131d6, [w_EGYPTIAN;w_HIEROGLYPH;w_M025]);
  (0x131d7, [w_EGYPTIAN;w_HIEROGLYPH;w_M026]);
  (0x131d8, [w_EGYPTIAN;w_HIEROGLYPH;w_M027]);
  (0x131d9, [w_EGYPTIAN;w_HIEROGLYPH;w_M028]);
  (0x131da, [w_EGYPTIAN;w_HIEROGLYPH;w_M028A]);
  (0x131db, [w_EGYPTIAN;w_HIEROGLYPH;w_M029]);
  (0x131dc, [w_EGYPTIAN;w_HIEROGLYPH;w_M030]);
  (0x131dd, [w_EGYPTIAN;w_HIEROGLYPH;w_M031]);
  (0x131de, [w_EGYPTIAN;w_HIEROGLYPH;w_M031A]);
  (0x131df, [w_EGYPTIAN;w_HIEROGLYPH;w_M032]);
  (0x131e0, [w_EGYPTIAN;w_HIEROGLYPH;w_M033]);
  (0x131e1, [w_EGYPTIAN;w_HIEROGLYPH;w_M033A]);
  (0x131e2, [w_EGYPTIAN;w_HIEROGLYPH;w_M033B]);
  (0x131e3, [w_EGYPTIAN;w_HIEROGLYPH;w_M034]);
  (0x131e4, [w_EGYPTIAN;w_HIEROGLYPH;w_M035]);
  (0x131e5, [w_EGYPTIAN;w_HIEROGLYPH;w_M036]);
  (0x131e6, [w_EGYPTIAN;w_HIEROGLYPH;w_M037]);
  (0x131e7, [w_EGYPTIAN;w_HIEROGLYPH;w_M038]);
  (0x131e8, [w_EGYPTIAN;w_HIEROGLYPH;w_M039]);
  (0x131e9, [w_EGYPTIAN;w_HIEROGLYPH;w_M040]);
  (0x131ea, [w_EGYPTIAN;w_HIEROGLYPH;w_M040A]);
  (0x131eb, [w_EGYPTIAN;w_HIEROGLYPH;w_M041]);
  (0x131ec, [w_EGYPTIAN;w_HIEROGLYPH;w_M042]);
  (0x131ed, [w_EGYPTIAN;w_HIEROGLYPH;w_M043]);
  (0x131ee, [w_EGYPTIAN;w_HIEROGLYPH;w_M044]);
  (0x131ef, [w_EGYPTIAN;w_HIEROGLYPH;w_N001]);
  (0x131f0, [w_EGYPTIAN;w_HIEROGLYPH;w_N002]);
  (0x131f1, [w_EGYPTIAN;w_HIEROGLYPH;w_N003]);
  (0x131f2, [w_EGYPTIAN;w_HIEROGLYPH;w_N004]);
  (0x131f3, [w_EGYPTIAN;w_HIEROGLYPH;w_N005]);
  (0x131f4, [w_EGYPTIAN;w_HIEROGLYPH;w_N006]);
  (0x131f5, [w_EGYPTIAN;w_HIEROGLYPH;w_N007]);
  (0x131f6, [w_EGYPTIAN;w_HIEROGLYPH;w_N008]);
  (0x131f7, [w_EGYPTIAN;w_HIEROGLYPH;w_N009]);
  (0x131f8, [w_EGYPTIAN;w_HIEROGLYPH;w_N010]);
  (0x131f9, [w_EGYPTIAN;w_HIEROGLYPH;w_N011]);
  (0x131fa, [w_EGYPTIAN;w_HIEROGLYPH;w_N012]);
  (0x131fb, [w_EGYPTIAN;w_HIEROGLYPH;w_N013]);
  (0x131fc, [w_EGYPTIAN;w_HIEROGLYPH;w_N014]);
  (0x131fd, [w_EGYPTIAN;w_HIEROGLYPH;w_N015]);
  (0x131fe, [w_EGYPTIAN;w_HIEROGLYPH;w_N016]);
  (0x131ff, [w_EGYPTIAN;w_HIEROGLYPH;w_N017]);
  (0x13200, [w_EGYPTIAN;w_HIEROGLYPH;w_N018]);
  (0x13201, [w_EGYPTIAN;w_HIEROGLYPH;w_N018A]);
  (0x13202, [w_EGYPTIAN;w_HIEROGLYPH;w_N018B]);
  (0x13203, [w_EGYPTIAN;w_HIEROGLYPH;w_N019]);
  (0x13204, [w_EGYPTIAN;w_HIEROGLYPH;w_N020]);
  (0x13205, [w_EGYPTIAN;w_HIEROGLYPH;w_N021]);
  (0x13206, [w_EGYPTIAN;w_HIEROGLYPH;w_N022]);
  (0x13207, [w_EGYPTIAN;w_HIEROGLYPH;w_N023]);
  (0x13208, [w_EGYPTIAN;w_HIEROGLYPH;w_N024]);
  (0x13209, [w_EGYPTIAN;w_HIEROGLYPH;w_N025]);
  (0x1320a, [w_EGYPTIAN;w_HIEROGLYPH;w_N025A]);
  (0x1320b, [w_EGYPTIAN;w_HIEROGLYPH;w_N026]);
  (0x1320c, [w_EGYPTIAN;w_HIEROGLYPH;w_N027]);
  (0x1320d, [w_EGYPTIAN;w_HIEROGLYPH;w_N028]);
  (0x1320e, [w_EGYPTIAN;w_HIEROGLYPH;w_N029]);
  (0x1320f, [w_EGYPTIAN;w_HIEROGLYPH;w_N030]);
  (0x13210, [w_EGYPTIAN;w_HIEROGLYPH;w_N031]);
  (0x13211, [w_EGYPTIAN;w_HIEROGLYPH;w_N032]);
  (0x13212, [w_EGYPTIAN;w_HIEROGLYPH;w_N033]);
  (0x13213, [w_EGYPTIAN;w_HIEROGLYPH;w_N033A]);
  (0x13214, [w_EGYPTIAN;w_HIEROGLYPH;w_N034]);
  (0x13215, [w_EGYPTIAN;w_HIEROGLYPH;w_N034A]);
  (0x13216, [w_EGYPTIAN;w_HIEROGLYPH;w_N035]);
  (0x13217, [w_EGYPTIAN;w_HIEROGLYPH;w_N035A]);
  (0x13218, [w_EGYPTIAN;w_HIEROGLYPH;w_N036]);
  (0x13219, [w_EGYPTIAN;w_HIEROGLYPH;w_N037]);
  (0x1321a, [w_EGYPTIAN;w_HIEROGLYPH;w_N037A]);
  (0x1321b, [w_EGYPTIAN;w_HIEROGLYPH;w_N038]);
  (0x1321c, [w_EGYPTIAN;w_HIEROGLYPH;w_N039]);
  (0x1321d, [w_EGYPTIAN;w_HIEROGLYPH;w_N040]);
  (0x1321e, [w_EGYPTIAN;w_HIEROGLYPH;w_N041]);
  (0x1321f, [w_EGYPTIAN;w_HIEROGLYPH;w_N042]);
  (0x13220, [w_EGYPTIAN;w_HIEROGLYPH;w_NL001]);
  (0x13221, [w_EGYPTIAN;w_HIEROGLYPH;w_NL002]);
  (0x13222, [w_EGYPTIAN;w_HIEROGLYPH;w_NL003]);
  (0x13223, [w_EGYPTIAN;w_HIEROGLYPH;w_NL004]);
  (0x13224, [w_EGYPTIAN;w_HIEROGLYPH;w_NL005]);
  (0x13225, [w_EGYPTIAN;w_HIEROGLYPH;w_NL005A]);
  (0x13226, [w_EGYPTIAN;w_HIEROGLYPH;w_NL006]);
  (0x13227, [w_EGYPTIAN;w_HIEROGLYPH;w_NL007]);
  (0x13228, [w_EGYPTIAN;w_HIEROGLYPH;w_NL008]);
  (0x13229, [w_EGYPTIAN;w_HIEROGLYPH;w_NL009]);
  (0x1322a, [w_EGYPTIAN;w_HIEROGLYPH;w_NL010]);
  (0x1322b, [w_EGYPTIAN;w_HIEROGLYPH;w_NL011]);
  (0x1322c, [w_EGYPTIAN;w_HIEROGLYPH;w_NL012]);
  (0x1322d, [w_EGYPTIAN;w_HIEROGLYPH;w_NL013]);
  (0x1322e, [w_EGYPTIAN;w_HIEROGLYPH;w_NL014]);
  (0x1322f, [w_EGYPTIAN;w_HIEROGLYPH;w_NL015]);
  (0x13230, [w_EGYPTIAN;w_HIEROGLYPH;w_NL016]);
  (0x13231, [w_EGYPTIAN;w_HIEROGLYPH;w_NL017]);
  (0x13232, [w_EGYPTIAN;w_HIEROGLYPH;w_NL017A]);
  (0x13233, [w_EGYPTIAN;w_HIEROGLYPH;w_NL018]);
  (0x13234, [w_EGYPTIAN;w_HIEROGLYPH;w_NL019]);
  (0x13235, [w_EGYPTIAN;w_HIEROGLYPH;w_NL020]);
  (0x13236, [w_EGYPTIAN;w_HIEROGLYPH;w_NU001]);
  (0x13237, [w_EGYPTIAN;w_HIEROGLYPH;w_NU002]);
  (0x13238, [w_EGYPTIAN;w_HIEROGLYPH;w_NU003]);
  (0x13239, [w_EGYPTIAN;w_HIEROGLYPH;w_NU004]);
  (0x1323a, [w_EGYPTIAN;w_HIEROGLYPH;w_NU005]);
  (0x1323b, [w_EGYPTIAN;w_HIEROGLYPH;w_NU006]);
  (0x1323c, [w_EGYPTIAN;w_HIEROGLYPH;w_NU007]);
  (0x1323d, [w_EGYPTIAN;w_HIEROGLYPH;w_NU008]);
  (0x1323e, [w_EGYPTIAN;w_HIEROGLYPH;w_NU009]);
  (0x1323f, [w_EGYPTIAN;w_HIEROGLYPH;w_NU010]);
  (0x13240, [w_EGYPTIAN;w_HIEROGLYPH;w_NU010A]);
  (0x13241, [w_EGYPTIAN;w_HIEROGLYPH;w_NU011]);
  (0x13242, [w_EGYPTIAN;w_HIEROGLYPH;w_NU011A]);
  (0x13243, [w_EGYPTIAN;w_HIEROGLYPH;w_NU012]);
  (0x13244, [w_EGYPTIAN;w_HIEROGLYPH;w_NU013]);
  (0x13245, [w_EGYPTIAN;w_HIEROGLYPH;w_NU014]);
  (0x13246, [w_EGYPTIAN;w_HIEROGLYPH;w_NU015]);
  (0x13247, [w_EGYPTIAN;w_HIEROGLYPH;w_NU016]);
  (0x13248, [w_EGYPTIAN;w_HIEROGLYPH;w_NU017]);
  (0x13249, [w_EGYPTIAN;w_HIEROGLYPH;w_NU018]);
  (0x1324a, [w_EGYPTIAN;w_HIEROGLYPH;w_NU018A]);
  (0x1324b, [w_EGYPTIAN;w_HIEROGLYPH;w_NU019]);
  (0x1324c, [w_EGYPTIAN;w_HIEROGLYPH;w_NU020]);
  (0x1324d, [w_EGYPTIAN;w_HIEROGLYPH;w_NU021]);
  (0x1324e, [w_EGYPTIAN;w_HIEROGLYPH;w_NU022]);
  (0x1324f, [w_EGYPTIAN;w_HIEROGLYPH;w_NU022A]);
  (0x13250, [w_EGYPTIAN;w_HIEROGLYPH;w_O001]);
  (0x13251, [w_EGYPTIAN;w_HIEROGLYPH;w_O001A]);
  (0x13252, [w_EGYPTIAN;w_HIEROGLYPH;w_O002]);
  (0x13253, [w_EGYPTIAN;w_HIEROGLYPH;w_O003]);
  (0x13254, [w_EGYPTIAN;w_HIEROGLYPH;w_O004]);
  (0x13255, [w_EGYPTIAN;w_HIEROGLYPH;w_O005]);
  (0x13256, [w_EGYPTIAN;w_HIEROGLYPH;w_O005A]);
  (0x13257, [w_EGYPTIAN;w_HIEROGLYPH;w_O006]);
  (0x13258, [w_EGYPTIAN;w_HIEROGLYPH;w_O006A]);
  (0x13259, [w_EGYPTIAN;w_HIEROGLYPH;w_O006B]);
  (0x1325a, [w_EGYPTIAN;w_HIEROGLYPH;w_O006C]);
  (0x1325b, [w_EGYPTIAN;w_HIEROGLYPH;w_O006D]);
  (0x1325c, [w_EGYPTIAN;w_HIEROGLYPH;w_O006E]);
  (0x1325d, [w_EGYPTIAN;w_HIEROGLYPH;w_O006F]);
  (0x1325e, [w_EGYPTIAN;w_HIEROGLYPH;w_O007]);
  (0x1325f, [w_EGYPTIAN;w_HIEROGLYPH;w_O008]);
  (0x13260, [w_EGYPTIAN;w_HIEROGLYPH;w_O009]);
  (0x13261, [w_EGYPTIAN;w_HIEROGLYPH;w_O010]);
  (0x13262, [w_EGYPTIAN;w_HIEROGLYPH;w_O010A]);
  (0x13263, [w_EGYPTIAN;w_HIEROGLYPH;w_O010B]);
  (0x13264, [w_EGYPTIAN;w_HIEROGLYPH;w_O010C]);
  (0x13265, [w_EGYPTIAN;w_HIEROGLYPH;w_O011]);
  (0x13266, [w_EGYPTIAN;w_HIEROGLYPH;w_O012]);
  (0x13267, [w_EGYPTIAN;w_HIEROGLYPH;w_O013]);
  (0x13268, [w_EGYPTIAN;w_HIEROGLYPH;w_O014]);
  (0x13269, [w_EGYPTIAN;w_HIEROGLYPH;w_O015]);
  (0x1326a, [w_EGYPTIAN;w_HIEROGLYPH;w_O016]);
  (0x1326b, [w_EGYPTIAN;w_HIEROGLYPH;w_O017]);
  (0x1326c, [w_EGYPTIAN;w_HIEROGLYPH;w_O018]);
  (0x1326d, [w_EGYPTIAN;w_HIEROGLYPH;w_O019]);
  (0x1326e, [w_EGYPTIAN;w_HIEROGLYPH;w_O019A]);
  (0x1326f, [w_EGYPTIAN;w_HIEROGLYPH;w_O020]);
  (0x13270, [w_EGYPTIAN;w_HIEROGLYPH;w_O020A]);
  (0x13271, [w_EGYPTIAN;w_HIEROGLYPH;w_O021]);
  (0x13272, [w_EGYPTIAN;w_HIEROGLYPH;w_O022]);
  (0x13273, [w_EGYPTIAN;w_HIEROGLYPH;w_O023]);
  (0x13274, [w_EGYPTIAN;w_HIEROGLYPH;w_O024]);
  (0x13275, [w_EGYPTIAN;w_HIEROGLYPH;w_O024A]);
  (0x13276, [w_EGYPTIAN;w_HIEROGLYPH;w_O025]);
  (0x13277, [w_EGYPTIAN;w_HIEROGLYPH;w_O025A]);
  (0x13278, [w_EGYPTIAN;w_HIEROGLYPH;w_O026]);
  (0x13279, [w_EGYPTIAN;w_HIEROGLYPH;w_O027]);
  (0x1327a, [w_EGYPTIAN;w_HIEROGLYPH;w_O028]);
  (0x1327b, [w_EGYPTIAN;w_HIEROGLYPH;w_O029]);
  (0x1327c, [w_EGYPTIAN;w_HIEROGLYPH;w_O029A]);
  (0x1327d, [w_EGYPTIAN;w_HIEROGLYPH;w_O030]);
  (0x1327e, [w_EGYPTIAN;w_HIEROGLYPH;w_O030A]);
  (0x1327f, [w_EGYPTIAN;w_HIEROGLYPH;w_O031]);
  (0x13280, [w_EGYPTIAN;w_HIEROGLYPH;w_O032]);
  (0x13281, [w_EGYPTIAN;w_HIEROGLYPH;w_O033]);
  (0x13282, [w_EGYPTIAN;w_HIEROGLYPH;w_O033A]);
  (0x13283, [w_EGYPTIAN;w_HIEROGLYPH;w_O034]);
  (0x13284, [w_EGYPTIAN;w_HIEROGLYPH;w_O035]);
  (0x13285, [w_EGYPTIAN;w_HIEROGLYPH;w_O036]);
  (0x13286, [w_EGYPTIAN;w_HIEROGLYPH;w_O036A]);
  (0x13287, [w_EGYPTIAN;w_HIEROGLYPH;w_O036B]);
  (0x13288, [w_EGYPTIAN;w_HIEROGLYPH;w_O036C]);
  (0x13289, [w_EGYPTIAN;w_HIEROGLYPH;w_O036D]);
  (0x1328a, [w_EGYPTIAN;w_HIEROGLYPH;w_O037]);
  (0x1328b, [w_EGYPTIAN;w_HIEROGLYPH;w_O038]);
  (0x1328c, [w_EGYPTIAN;w_HIEROGLYPH;w_O039]);
  (0x1328d, [w_EGYPTIAN;w_HIEROGLYPH;w_O040]);
  (0x1328e, [w_EGYPTIAN;w_HIEROGLYPH;w_O041]);
  (0x1328f, [w_EGYPTIAN;w_HIEROGLYPH;w_O042]);
  (0x13290, [w_EGYPTIAN;w_HIEROGLYPH;w_O043]);
  (0x13291, [w_EGYPTIAN;w_HIEROGLYPH;w_O044]);
  (0x13292, [w_EGYPTIAN;w_HIEROGLYPH;w_O045]);
  (0x13293, [w_EGYPTIAN;w_HIEROGLYPH;w_O046]);
  (0x13294, [w_EGYPTIAN;w_HIEROGLYPH;w_O047]);
  (0x13295, [w_EGYPTIAN;w_HIEROGLYPH;w_O048]);
  (0x13296, [w_EGYPTIAN;w_HIEROGLYPH;w_O049]);
  (0x13297, [w_EGYPTIAN;w_HIEROGLYPH;w_O050]);
  (0x13298, [w_EGYPTIAN;w_HIEROGLYPH;w_O050A]);
  (0x13299, [w_EGYPTIAN;w_HIEROGLYPH;w_O050B]);
  (0x1329a, [w_EGYPTIAN;w_HIEROGLYPH;w_O051]);
  (0x1329b, [w_EGYPTIAN;w_HIEROGLYPH;w_P001]);
  (0x1329c, [w_EGYPTIAN;w_HIEROGLYPH;w_P001A]);
  (0x1329d, [w_EGYPTIAN;w_HIEROGLYPH;w_P002]);
  (0x1329e, [w_EGYPTIAN;w_HIEROGLYPH;w_P003]);
  (0x1329f, [w_EGYPTIAN;w_HIEROGLYPH;w_P003A]);
  (0x132a0, [w_EGYPTIAN;w_HIEROGLYPH;w_P004]);
  (0x132a1, [w_EGYPTIAN;w_HIEROGLYPH;w_P005]);
  (0x132a2, [w_EGYPTIAN;w_HIEROGLYPH;w_P006]);
  (0x132a3, [w_EGYPTIAN;w_HIEROGLYPH;w_P007]);
  (0x132a4, [w_EGYPTIAN;w_HIEROGLYPH;w_P008]);
  (0x132a5, [w_EGYPTIAN;w_HIEROGLYPH;w_P009]);
  (0x132a6, [w_EGYPTIAN;w_HIEROGLYPH;w_P010]);
  (0x132a7, [w_EGYPTIAN;w_HIEROGLYPH;w_P011]);
  (0x132a8, [w_EGYPTIAN;w_HIEROGLYPH;w_Q001]);
  (0x132a9, [w_EGYPTIAN;w_HIEROGLYPH;w_Q002]);
  (0x132aa, [w_EGYPTIAN;w_HIEROGLYPH;w_Q003]);
  (0x132ab, [w_EGYPTIAN;w_HIEROGLYPH;w_Q004]);
  (0x132ac, [w_EGYPTIAN;w_HIEROGLYPH;w_Q005]);
  (0x132ad, [w_EGYPTIAN;w_HIEROGLYPH;w_Q006]);
  (0x132ae, [w_EGYPTIAN;w_HIEROGLYPH;w_Q007])].

Definition NAMES_56 : list (N * (list str)) := [
  (0x132af, [w_EGYPTIAN;w_HIEROGLYPH;w_R001]);
  (0x132b0, [w_EGYPTIAN;w_HIEROGLYPH;w_R002]);
  (0x132b1, [w_EGYPTIAN;w_HIEROGLYPH;w_R002A]);
  (0x132b2, [w_EGYPTIAN;w_HIEROGLYPH;w_R003]);
  (0x132b3, [w_EGYPTIAN;w_HIEROGLYPH;w_R003A]);
  (0x132b4, [w_EGYPTIAN;w_HIEROGLYPH;w_R003B]);
  (0x132b5, [w_EGYPTIAN;w_HIEROGLYPH;w_R004]);
  (0x132b6, [w_EGYPTIAN;w_HIEROGLYPH;w_R005]);
  (0x132b7, [w_EGYPTIAN;w_HIEROGLYPH;w_R006]);
  (0x132b8, [w_EGYPTIAN;w_HIEROGLYPH;w_R007]);
  (0x132b9, [w_EGYPTIAN;w_HIEROGLYPH;w_R008]);
  (0x132ba, [w_EGYPTIAN;w_HIEROGLYPH;w_R009]);
  (0x132bb, [w_EGYPTIAN;w_HIEROGLYPH;w_R010]);
  (0x132bc, [w_EGYPTIAN;w_HIEROGLYPH;w_R010A]);
  (0x132bd, [w_EGYPTIAN;w_HIEROGLYPH;w_R011]);
  (0x132be, [w_EGYPTIAN;w_HIEROGLYPH;w_R012]);
  (0x132bf, [w_EGYPTIAN;w_HIEROGLYPH;w_R013]);
  (0x132c0, [w_EGYPTIAN;w_HIEROGLYPH;w_R014]);
  (0x132c1, [w_EGYPTIAN;w_HIEROGLYPH;w_R015]);
  (0x132c2, [w_EGYPTIAN;w_HIEROGLYPH;w_R016]);
  (0x132c3, [w_EGYPTIAN;w_HIEROGLYPH;w_R016A]);
  (0x132c4, [w_EGYPTIAN;w_HIEROGLYPH;w_R017]);
  (0x132c5, [w_EGYPTIAN;w_HIEROGLYPH;w_R018]);
  (0x132c6, [w_EGYPTIAN;w_HIEROGLYPH;w_R019]);
  (0x132c7, [w_EGYPTIAN;w_HIEROGLYPH;w_R020]);
  (0x132c8, [w_EGYPTIAN;w_HIEROGLYPH;w_R021]);
  (0x132c9, [w_EGYPTIAN;w_HIEROGLYPH;w_R022]);
  (0x132ca, [w_EGYPTIAN;w_HIEROGLYPH;w_R023]);
  (0x132cb, [w_EGYPTIAN;w_HIEROGLYPH;w_R024]);
  (0x132cc, [w_EGYPTIAN;w_HIEROGLYPH;w_R025]);
  (0x132cd, [w_EGYPTIAN;w_HIEROGLYPH;w_R026]);
  (0x132ce, [w_EGYPTIAN;w_HIEROGLYPH;w_R027]);
  (0x132cf, [w_EGYPTIAN;w_HIEROGLYPH;w_R028]);
  (0x132d0, [w_EGYPTIAN;w_HIEROGLYPH;w_R029]);
  (0x132d1, [w_EGYPTIAN;w_HIEROGLYPH;w_S001]);
  (0x132d2, [w_EGYPTIAN;w_HIEROGLYPH;w_S002]);
  (0x132d3, [w_EGYPTIAN;w_HIEROGLYPH;w_S002A]);
  (0x132d4, [w_EGYPTIAN;w_HIEROGLYPH;w_S003]);
  (0x132d5, [w_EGYPTIAN;w_HIEROGLYPH;w_S004]);
  (0x132d6, [w_EGYPTIAN;w_HIEROGLYPH;w_S005]);
  (0x132d7, [w_EGYPTIAN;w_HIEROGLYPH;w_S006]);
  (0x132d8, [w_EGYPTIAN;w_HIEROGLYPH;w_S006A]);
  (0x132d9, [w_EGYPTIAN;w_HIEROGLYPH;w_S007]);
  (0x132da, [w_EGYPTIAN;w_HIEROGLYPH;w_S008]);
  (0x132db, [w_EGYPTIAN;w_HIEROGLYPH;w_S009]);
  (0x132dc, [w_EGYPTIAN;w_HIEROGLYPH;w_S010]);
  (0x132dd, [w_EGYPTIAN;w_HIEROGLYPH;w_S011]);
  (0x132de, [w_EGYPTIAN;w_HIEROGLYPH;w_S012]);
  (0x132df, [w_EGYPTIAN;w_HIEROGLYPH;w_S013]);
  (0x132e0, [w_EGYPTIAN;w_HIEROGLYPH;w_S014]);
  (0x132e1, [w_EGYPTIAN;w_HIEROGLYPH;w_S014A]);
  (0x132e2, [w_EGYPTIAN;w_HIEROGLYPH;w_S014B]);
  (0x132e3, [w_EGYPTIAN;w_HIEROGLYPH;w_S015]);
  (0x132e4, [w_EGYPTIAN;w_HIEROGLYPH;w_S016]);
  (0x132e5, [w_EGYPTIAN;w_HIEROGLYPH;w_S017]);
  (0x132e6, [w_EGYPTIAN;w_HIEROGLYPH;w_S017A]);
  (0x132e7, [w_EGYPTIAN;w_HIEROGLYPH;w_S018]);
  (0x132e8, [w_EGYPTIAN;w_HIEROGLYPH;w_S019]);
  (0x132e9, [w_EGYPTIAN;w_HIEROGLYPH;w_S020]);
  (0x132ea, [w_EGYPTIAN;w_HIEROGLYPH;w_S021]);
  (0x132eb, [w_EGYPTIAN;w_HIEROGLYPH;w_S022]);
  (0x132ec, [w_EGYPTIAN;w_HIEROGLYPH;w_S023]);
  (0x132ed, [w_EGYPTIAN;w_HIEROGLYPH;w_S024]);
  (0x132ee, [w_EGYPTIAN;w_HIEROGLYPH;w_S025]);
  (0x132ef, [w_EGYPTIAN;w_HIEROGLYPH;w_S026]);
  (0x132f0, [w_EGYPTIAN;w_HIEROGLYPH;w_S026A]);
  (0x132f1, [w_EGYPTIAN;w_HIEROGLYPH;w_S026B]);
  (0x132f2, [w_EGYPTIAN;w_HIEROGLYPH;w_S027]);
  (0x132f3, [w_EGYPTIAN;w_HIEROGLYPH;w_S028]);
  (0x132f4, [w_EGYPTIAN;w_HIEROGLYPH;w_S029]);
  (0x132f5, [w_EGYPTIAN;w_HIEROGLYPH;w_S030]);
  (0x132f6, [w_EGYPTIAN;w_HIEROGLYPH;w_S031]);
  (0x132f7, [w_EGYPTIAN;w_HIEROGLYPH;w_S032]);
  (0x132f8, [w_EGYPTIAN;w_HIEROGLYPH;w_S033]);
  (0x132f9, [w_EGYPTIAN;w_HIEROGLYPH;w_S034]);
  (0x132fa, [w_EGYPTIAN;w_HIEROGLYPH;w_S035]);
  (0x132fb, [w_EGYPTIAN;w_HIEROGLYPH;w_S035A]);
  (0x132fc, [w_EGYPTIAN;w_HIEROGLYPH;w_S036]);
  (0x132fd, [w_EGYPTIAN;w_HIEROGLYPH;w_S037]);
  (0x132fe, [w_EGYPTIAN;w_HIEROGLYPH;w_S038]);
  (0x132ff, [w_EGYPTIAN;w_HIEROGLYPH;w_S039]);
  (0x13300, [w_EGYPTIAN;w_HIEROGLYPH;w_S040]);
  (0x13301, [w_EGYPTIAN;w_HIEROGLYPH;w_S041]);
  (0x13302, [w_EGYPTIAN;w_HIEROGLYPH;w_S042]);
  (0x13303, [w_EGYPTIAN;w_HIEROGLYPH;w_S043]);
  (0x13304, [w_EGYPTIAN;w_HIEROGLYPH;w_S044]);
  (0x13305, [w_EGYPTIAN;w_HIEROGLYPH;w_S045]);
  (0x13306, [w_EGYPTIAN;w_HIEROGLYPH;w_S046]);
  (0x13307, [w_EGYPTIAN;w_HIEROGLYPH;w_T001]);
  (0x13308, [w_EGYPTIAN;w_HIEROGLYPH;w_T002]);
  (0x13309, [w_EGYPTIAN;w_HIEROGLYPH;w_T003]);
  (0x1330a, [w_EGYPTIAN;w_HIEROGLYPH;w_T003A]);
  (0x1330b, [w_EGYPTIAN;w_HIEROGLYPH;w_T004]);
  (0x1330c, [w_EGYPTIAN;w_HIEROGLYPH;w_T005]);
  (0x1330d, [w_EGYPTIAN;w_HIEROGLYPH;w_T006]);
  (0x1330e, [w_EGYPTIAN;w_HIEROGLYPH;w_T007]);
  (0x1330f, [w_EGYPTIAN;w_HIEROGLYPH;w_T007A]);
  (0x13310, [w_EGYPTIAN;w_HIEROGLYPH;w_T008]);
  (0x13311, [w_EGYPTIAN;w_HIEROGLYPH;w_T008A]);
  (0x13312, [w_EGYPTIAN;w_HIEROGLYPH;w_T009]);
  (0x13313, [w_EGYPTIAN;w_HIEROGLYPH;w_T009A]);
  (0x13314, [w_EGYPTIAN;w_HIEROGLYPH;w_T010]);
  (0x13315, [w_EGYPTIAN;w_HIEROGLYPH;w_T011]);
  (0x13316, [w_EGYPTIAN;w_HIEROGLYPH;w_T011A]);
  (0x13317, [w_EGYPTIAN;w_HIEROGLYPH;w_T012]);
  (0x13318, [w_EGYPTIAN;w_HIEROGLYPH;w_T013]);
  (0x13319, [w_EGYPTIAN;w_HIEROGLYPH;w_T014]);
  (0x1331a, [w_EGYPTIAN;w_HIEROGLYPH;w_T015]);
  (0x1331b, [w_EGYPTIAN;w_HIEROGLYPH;w_T016]);
  (0x1331c, [w_EGYPTIAN;w_HIEROGLYPH;w_T016A]);
  (0x1331d, [w_EGYPTIAN;w_HIEROGLYPH;w_T017]);
  (0x1331e, [w_EGYPTIAN;w_HIEROGLYPH;w_T018]);
  (0x1331f, [w_EGYPTIAN;w_HIEROGLYPH;w_T019]);
  (0x13320, [w_EGYPTIAN;w_HIEROGLYPH;w_T020]);
  (0x13321, [w_EGYPTIAN;w_HIEROGLYPH;w_T021]);
  (0x13322, [w_EGYPTIAN;w_HIEROGLYPH;w_T022]);
  (0x13323, [w_EGYPTIAN;w_HIEROGLYPH;w_T023]);
  (0x13324, [w_EGYPTIAN;w_HIEROGLYPH;w_T024]);
  (0x13325, [w_EGYPTIAN;w_HIEROGLYPH;w_T025]);
  (0x13326, [w_EGYPTIAN;w_HIEROGLYPH;w_T026]);
  (0x13327, [w_EGYPTIAN;w_HIEROGLYPH;w_T027]);
  (0x13328, [w_EGYPTIAN;w_HIEROGLYPH;w_T028]);
  (0x13329, [w_EGYPTIAN;w_HIEROGLYPH;w_T029]);
  (0x1332a, [w_EGYPTIAN;w_HIEROGLYPH;w_T030]);
  (0x1332b, [w_EGYPTIAN;w_HIEROGLYPH;w_T031]);
  (0x1332c, [w_EGYPTIAN;w_HIEROGLYPH;w_T032]);
  (0x1332d, [w_EGYPTIAN;w_HIEROGLYPH;w_T032A]);
  (0x1332e, [w_EGYPTIAN;w_HIEROGLYPH;w_T033]);
  (0x1332f, [w_EGYPTIAN;w_HIEROGLYPH;w_T033A]);
  (0x13330, [w_EGYPTIAN;w_HIEROGLYPH;w_T034]);
  (0x13331, [w_EGYPTIAN;w_HIEROGLYPH;w_T035]);
  (0x13332, [w_EGYPTIAN;w_HIEROGLYPH;w_T036]);
  (0x13333, [w_EGYPTIAN;w_HIEROGLYPH;w_U001]);
  (0x13334, [w_EGYPTIAN;w_HIEROGLYPH;w_U002]);
  (0x13335, [w_EGYPTIAN;w_HIEROGLYPH;w_U003]);
  (0x13336, [w_EGYPTIAN;w_HIEROGLYPH;w_U004]);
  (0x13337, [w_EGYPTIAN;w_HIEROGLYPH;w_U005]);
  (0x13338, [w_EGYPTIAN;w_HIEROGLYPH;w_U006]);
  (0x13339, [w_EGYPTIAN;w_HIEROGLYPH;w_U006A]);
  (0x1333a, [w_EGYPTIAN;w_HIEROGLYPH;w_U006B]);
  (0x1333b, [w_EGYPTIAN;w_HIEROGLYPH;w_U007]);
  (0x1333c, [w_EGYPTIAN;w_HIEROGLYPH;w_U008]);
  (0x1333d, [w_EGYPTIAN;w_HIEROGLYPH;w_U009]);
  (0x1333e, [w_EGYPTIAN;w_HIEROGLYPH;w_U010]);
  (0x1333f, [w_EGYPTIAN;w_HIEROGLYPH;w_U011]);
  (0x13340, [w_EGYPTIAN;w_HIEROGLYPH;w_U012]);
  (0x13341, [w_EGYPTIAN;w_HIEROGLYPH;w_U013]);
  (0x13342, [w_EGYPTIAN;w_HIEROGLYPH;w_U014]);
  (0x13343, [w_EGYPTIAN;w_HIEROGLYPH;w_U015]);
  (0x13344, [w_EGYPTIAN;w_HIEROGLYPH;w_U016]);
  (0x13345, [w_EGYPTIAN;w_HIEROGLYPH;w_U017]);
  (0x13346, [w_EGYPTIAN;w_HIEROGLYPH;w_U018]);
  (0x13347, [w_EGYPTIAN;w_HIEROGLYPH;w_U019]);
  (0x13348, [w_EGYPTIAN;w_HIEROGLYPH;w_U020]);
  (0x13349, [w_EGYPTIAN;w_HIEROGLYPH;w_U021]);
  (0x1334a, [w_EGYPTIAN;w_HIEROGLYPH;w_U022]);
  (0x1334b, [w_EGYPTIAN;w_HIEROGLYPH;w_U023]);
  (0x1334c, [w_EGYPTIAN;w_HIEROGLYPH;w_U023A]);
  (0x1334d, [w_EGYPTIAN;w_HIEROGLYPH;w_U024]);
  (0x1334e, [w_EGYPTIAN;w_HIEROGLYPH;w_U025]);
  (0x1334f, [w_EGYPTIAN;w_HIEROGLYPH;w_U026]);
  (0x13350, [w_EGYPTIAN;w_HIEROGLYPH;w_U027]);
  (0x13351, [w_EGYPTIAN;w_HIEROGLYPH;w_U028]);
  (0x13352, [w_EGYPTIAN;w_HIEROGLYPH;w_U029]);
  (0x13353, [w_EGYPTIAN;w_HIEROGLYPH;w_U029A]);
  (0x13354, [w_EGYPTIAN;w_HIEROGLYPH;w_U030]);
  (0x13355, [w_EGYPTIAN;w_HIEROGLYPH;w_U031]);
  (0x13356, [w_EGYPTIAN;w_HIEROGLYPH;w_U032]);
  (0x13357, [w_EGYPTIAN;w_HIEROGLYPH;w_U032A]);
  (0x13358, [w_EGYPTIAN;w_HIEROGLYPH;w_U033]);
  (0x13359, [w_EGYPTIAN;w_HIEROGLYPH;w_U034]);
  (0x1335a, [w_EGYPTIAN;w_HIEROGLYPH;w_U035]);
  (0x1335b, [w_EGYPTIAN;w_HIEROGLYPH;w_U036]);
  (0x1335c, [w_EGYPTIAN;w_HIEROGLYPH;w_U037]);
  (0x1335d, [w_EGYPTIAN;w_HIEROGLYPH;w_U038]);
  (0x1335e, [w_EGYPTIAN;w_HIEROGLYPH;w_U039]);
  (0x1335f, [w_EGYPTIAN;w_HIEROGLYPH;w_U040]);
  (0x13360, [w_EGYPTIAN;w_HIEROGLYPH;w_U041]);
  (0x13361, [w_EGYPTIAN;w_HIEROGLYPH;w_U042]);
  (0x13362, [w_EGYPTIAN;w_HIEROGLYPH;w_V001]);
  (0x13363, [w_EGYPTIAN;w_HIEROGLYPH;w_V001A]);
  (0x13364, [w_EGYPTIAN;w_HIEROGLYPH;w_V001B]);
  (0x13365, [w_EGYPTIAN;w_HIEROGLYPH;w_V001C]);
  (0x13366, [w_EGYPTIAN;w_HIEROGLYPH;w_V001D]);
  (0x13367, [w_EGYPTIAN;w_HIEROGLYPH;w_V001E]);
  (0x13368, [w_EGYPTIAN;w_HIEROGLYPH;w_V001F]);
  (0x13369, [w_EGYPTIAN;w_HIEROGLYPH;w_V001G]);
  (0x1336a, [w_EGYPTIAN;w_HIEROGLYPH;w_V001H]);
  (0x1336b, [w_EGYPTIAN;w_HIEROGLYPH;w_V001I]);
  (0x1336c, [w_EGYPTIAN;w_HIEROGLYPH;w_V002]);
  (0x1336d, [w_EGYPTIAN;w_HIEROGLYPH;w_V002A]);
  (0x1336e, [w_EGYPTIAN;w_HIEROGLYPH;w_V003]);
  (0x1336f, [w_EGYPTIAN;w_HIEROGLYPH;w_V004]);
  (0x13370, [w_EGYPTIAN;w_HIEROGLYPH;w_V005]);
  (0x13371, [w_EGYPTIAN;w_HIEROGLYPH;w_V006]);
  (0x13372, [w_EGYPTIAN;w_HIEROGLYPH;w_V007]);
  (0x13373, [w_EGYPTIAN;w_HIEROGLYPH;w_V007A]);
  (0x13374, [w_EGYPTIAN;w_HIEROGLYPH;w_V007B]);
  (0x13375, [w_EGYPTIAN;w_HIEROGLYPH;w_V008]);
  (0x13376, [w_EGYPTIAN;w_HIEROGLYPH;w_V009]);
  (0x13377, [w_EGYPTIAN;w_HIEROGLYPH;w_V010]);
  (0x13378, [w_EGYPTIAN;w_HIEROGLYPH;w_V011]);
  (0x13379, [w_EGYPTIAN;w_HIEROGLYPH;w_V011A]);
  (0x1337a, [w_EGYPTIAN;w_HIEROGLYPH;w_V011B]);
  (0x1337b, [w_EGYPTIAN;w_HIEROGLYPH;w_V011C]);
  (0x1337c, [w_EGYPTIAN;w_HIEROGLYPH;w_V012]);
  (0x1337d, [w_EGYPTIAN;w_HIEROGLYPH;w_V012A]);
  (0x1337e, [w_EGYPTIAN;w_HIEROGLYPH;w_V012B]);
  (0x1337f, [w_EGYPTIAN;w_HIEROGLYPH;w_V013]);
  (0x13380, [w_EGYPTIAN;w_HIEROGLYPH;w_V014]);
  (0x13381, [w_EGYPTIAN;w_HIEROGLYPH;w_V015]);
  (0x13382, [w_EGYPTIAN;w_HIEROGLYPH;w_V016]);
  (0x13383, [w_EGYPTIAN;w_HIEROGLYPH;w_V017]);
  (0x13384, [w_EGYPTIAN;w_HIEROGLYPH;w_V018]);
  (0x13385, [w_EGYPTIAN;w_HIEROGLYPH;w_V019]);
  (0x13386, [w_EGYPTIAN;w_HIEROGLYPH;w_V020]);
  (0x13387, [w_EGYPTIAN;w_HIEROGLYPH;w_V020A]);
  (0x13388, [w_EGYPTIAN;w_HIEROGLYPH;w_V020B]);
  (0x13389, [w_EGYPTIAN;w_HIEROGLYPH;w_V020C]);
  (0x1338a, [w_EGYPTIAN;w_HIEROGLYPH;w_V020D]);
  (0x1338b, [w_EGYPTIAN;w_HIEROGLYPH;w_V020E]);
  (0x1338c, [w_EGYPTIAN;w_HIEROGLYPH;w_V020F]);
  (0x1338d, [w_EGYPTIAN;w_HIEROGLYPH;w_V020G]);
  (0x1338e, [w_EGYPTIAN;w_HIEROGLYPH;w_V020H]);
  (0x1338f, [w_EGYPTIAN;w_HIEROGLYPH;w_V020I]);
  (0x13390, [w_EGYPTIAN;w_HIEROGLYPH;w_V020J]);
  (0x13391, [w_EGYPTIAN;w_HIEROGLYPH;w_V020K]);
  (0x13392, [w_EGYPTIAN;w_HIEROGLYPH;w_V020L]);
  (0x13393, [w_EGYPTIAN;w_HIEROGLYPH;w_V021]);
  (0x13394, [w_EGYPTIAN;w_HIEROGLYPH;w_V022]);
  (0x13395, [w_EGYPTIAN;w_HIEROGLYPH;w_V023]);
  (0x13396, [w_EGYPTIAN;w_HIEROGLYPH;w_V023A]);
  (0x13397, [w_EGYPTIAN;w_HIEROGLYPH;w_V024]);
  (0x13398, [w_EGYPTIAN;w_HIEROGLYPH;w_V025]);
  (0x13399, [w_EGYPTIAN;w_HIEROGLYPH;w_V026]);
  (0x1339a, [w_EGYPTIAN;w_HIEROGLYPH;w_V027]);
  (0x1339b, [w_EGYPTIAN;w_HIEROGLYPH;w_V028]);
  (0x1339c, [w_EGYPTIAN;w_HIEROGLYPH;w_V028A]);
  (0x1339d, [w_EGYPTIAN;w_HIEROGLYPH;w_V029]);
  (0x1339e, [w_EGYPTIAN;w_HIEROGLYPH;w_V029A]);
  (0x1339f, [w_EGYPTIAN;w_HIEROGLYPH;w_V030]);
  (0x133a0, [w_EGYPTIAN;w_HIEROGLYPH;w_V030A]);
  (0x133a1, [w_EGYPTIAN;w_HIEROGLYPH;w_V031]);
  (0x133a2, [w_EGYPTIAN;w_HIEROGLYPH;w_V031A]);
  (0x133a3, [w_EGYPTIAN;w_HIEROGLYPH;w_V032]);
  (0x133a4, [w_EGYPTIAN;w_HIEROGLYPH;w_V033]);
  (0x133a5, [w_EGYPTIAN;w_HIEROGLYPH;w_V033A]);
  (0x133a6, [w_EGYPTIAN;w_HIEROGLYPH;w_V034]);
  (0x133a7, [w_EGYPTIAN;w_HIEROGLYPH;w_V035]);
  (0x133a8, [w_EGYPTIAN;w_HIEROGLYPH;w_V036]);
  (0x133a9, [w_EGYPTIAN;w_HIEROGLYPH;w_V037]);
  (0x133aa, [w_EGYPTIAN;w_HIEROGLYPH;w_V037A]);
  (0x133ab, [w_EGYPTIAN;w_HIEROGLYPH;w_V038]);
  (0x133ac, [w_EGYPTIAN;w_HIEROGLYPH;w_V039]);
  (0x133ad, [w_EGYPTIAN;w_HIEROGLYPH;w_V040]);
  (0x133ae, [w_EGYPTIAN;w_HIEROGLYPH;w_V040A]);
  (0x133af, [w_EGYPTIAN;w_HIEROGLYPH;w_W001]);
  (0x133b0, [w_EGYPTIAN;w_HIEROGLYPH;w_W002]);
  (0x133b1, [w_EGYPTIAN;w_HIEROGLYPH;w_W003]);
  (0x133b2, [w_EGYPTIAN;w_HIEROGLYPH;w_W003A]);
  (0x133b3, [w_EGYPTIAN;w_HIEROGLYPH;w_W004]);
  (0x133b4, [w_EGYPTIAN;w_HIEROGLYPH;w_W005]);
  (0x133b5, [w_EGYPTIAN;w_HIEROGLYPH;w_W006]);
  (0x133b6, [w_EGYPTIAN;w_HIEROGLYPH;w_W007]);
  (0x133b7, [w_EGYPTIAN;w_HIEROGLYPH;w_W008]);
  (0x133b8, [w_EGYPTIAN;w_HIEROGLYPH;w_W009]);
  (0x133b9, [w_EGYPTIAN;w_HIEROGLYPH;w_W009A]);
  (0x133ba, [w_EGYPTIAN;w_HIEROGLYPH;w_W010]);
  (0x133bb, [w_EGYPTIAN;w_HIEROGLYPH;w_W010A]);
  (0x133bc, [w_EGYPTIAN;w_HIEROGLYPH;w_W011]);
  (0x133bd, [w_EGYPTIAN;w_HIEROGLYPH;w_W012]);
  (0x133be, [w_EGYPTIAN;w_HIEROGLYPH;w_W013]);
  (0x133bf, [w_EGYPTIAN;w_HIEROGLYPH;w_W014]);
  (0x133c0, [w_EGYPTIAN;w_HIEROGLYPH;w_W014A]);
  (0x133c1, [w_EGYPTIAN;w_HIEROGLYPH;w_W015]);
  (0x133c2, [w_EGYPTIAN;w_HIEROGLYPH;w_W016]);
  (0x133c3, [w_EGYPTIAN;w_HIEROGLYPH;w_W017]);
  (0x133c4, [w_EGYPTIAN;w_HIEROGLYPH;w_W017A]);
  (0x133c5, [w_EGYPTIAN;w_HIEROGLYPH;w_W018]);
  (0x133c6, [w_EGYPTIAN;w_HIEROGLYPH;w_W018A]);
  (0x133c7, [w_EGYPTIAN;w_HIEROGLYPH;w_W019]);
  (0x133c8, [w_EGYPTIAN;w_HIEROGLYPH;w_W020]);
  (0x133c9, [w_EGYPTIAN;w_HIEROGLYPH;w_W021]);
  (0x133ca, [w_EGYPTIAN;w_HIEROGLYPH;w_W022]);
  (0x133cb, [w_EGYPTIAN;w_HIEROGLYPH;w_W023]);
  (0x133cc, [w_EGYPTIAN;w_HIEROGLYPH;w_W024]);
  (0x133cd, [w_EGYPTIAN;w_HIEROGLYPH;w_W024A]);
  (0x133ce, [w_EGYPTIAN;w_HIEROGLYPH;w_W025]);
  (0x133cf, [w_EGYPTIAN;w_HIEROGLYPH;w_X001]);
  (0x133d0, [w_EGYPTIAN;w_HIEROGLYPH;w_X002]);
  (0x133d1, [w_EGYPTIAN;w_HIEROGLYPH;w_X003]);
  (0x133d2, [w_EGYPTIAN;w_HIEROGLYPH;w_X004]);
  (0x133d3, [w_EGYPTIAN;w_HIEROGLYPH;w_X004A]);
  (0x133d4, [w_EGYPTIAN;w_HIEROGLYPH;w_X004B]);
  (0x133d5, [w_EGYPTIAN;w_HIEROGLYPH;w_X005]);
  (0x133d6, [w_EGYPTIAN;w_HIEROGLYPH;w_X006]);
  (0x133d7, [w_EGYPTIAN;w_HIEROGLYPH;w_X006A]);
  (0x133d8, [w_EGYPTIAN;w_HIEROGLYPH;w_X007]);
  (0x133d9, [w_EGYPTIAN;w_HIEROGLYPH;w_X008]);
  (0x133da, [w_EGYPTIAN;w_HIEROGLYPH;w_X008A]);
  (0x133db, [w_EGYPTIAN;w_HIEROGLYPH;w_Y001]);
  (0x133dc, [w_EGYPTIAN;w_HIEROGLYPH;w_Y001A]);
  (0x133dd, [w_EGYPTIAN;w_HIEROGLYPH;w_Y002]);
  (0x133de, [w_EGYPTIAN;w_HIEROGLYPH;w_Y003]);
  (0x133df, [w_EGYPTIAN;w_HIEROGLYPH;w_Y004]);
  (0x133e0, [w_EGYPTIAN;w_HIEROGLYPH;w_Y005]);
  (0x133e1, [w_EGYPTIAN;w_HIEROGLYPH;w_Y006]);
  (0x133e2, [w_EGYPTIAN;w_HIEROGLYPH;w_Y007]);
  (0x133e3, [w_EGYPTIAN;w_HIEROGLYPH;w_Y008]);
  (0x133e4, [w_EGYPTIAN;w_HIEROGLYPH;w_Z001]);
  (0x133e5, [w_EGYPTIAN;w_HIEROGLYPH;w_Z002]);
  (0x133e6, [w_EGYPTIAN;w_HIEROGLYPH;w_Z002A]);
  (0x133e7, [w_EGYPTIAN;w_HIEROGLYPH;w_Z002B]);
  (0x133e8, [w_EGYPTIAN;w_HIEROGLYPH;w_Z002C]);
  (0x133e9, [w_EGYPTIAN;w_HIEROGLYPH;w_Z002D]);
  (0x133ea, [w_EGYPTIAN;w_HIEROGLYPH;w_Z003]);
  (0x133eb, [w_EGYPTIAN;w_HIEROGLYPH;w_Z003A]);
  (0x133ec, [w_EGYPTIAN;w_HIEROGLYPH;w_Z003B]);
  (0x133ed, [w_EGYPTIAN;w_HIEROGLYPH;w_Z004]);
  (0x133ee, [w_EGYPTIAN;w_HIEROGLYPH;w_Z004A]);
  (0x133ef, [w_EGYPTIAN;w_HIEROGLYPH;w_Z005]);
  (0x133f0, [w_EGYPTIAN;w_HIEROGLYPH;w_Z005A]);
  (0x133f1, [w_EGYPTIAN;w_HIEROGLYPH;w_Z006]);
  (0x133f2, [w_EGYPTIAN;w_HIEROGLYPH;w_Z007]);
  (0x133f3, [w_EGYPTIAN;w_HIEROGLYPH;w_Z008]);
  (0x133f4, [w_EGYPTIAN;w_HIEROGLYPH;w_Z009]);
  (0x133f5, [w_EGYPTIAN;w_HIEROGLYPH;w_Z010]);
  (0x133f6, [w_EGYPTIAN;w_HIEROGLYPH;w_Z011]);
  (0x133f7, [w_EGYPTIAN;w_HIEROGLYPH;w_Z012]);
  (0x133f8, [w_EGYPTIAN;w_HIEROGLYPH;w_Z013]);
  (0x133f9, [w_EGYPTIAN;w_HIEROGLYPH;w_Z014]);
  (0x133fa, [w_EGYPTIAN;w_HIEROGLYPH;w_Z015]);
  (0x133fb, [w_EGYPTIAN;w_HIEROGLYPH;w_Z015A]);
  (0x133fc, [w_EGYPTIAN;w_HIEROGLYPH;w_Z015B]);
  (0x133fd, [w_EGYPTIAN;w_HIEROGLYPH;w_Z015C]);
  (0x133fe, [w_EGYPTIAN;w_HIEROGLYPH;w_Z015D]);
  (0x133ff, [w_EGYPTIAN;w_HIEROGLYPH;w_Z015E]);
  (0x13400, [w_EGYPTIAN;w_HIEROGLYPH;w_Z015F]);
  (0x13401, [w_EGYPTIAN;w_HIEROGLYPH;w_Z015G]);
  (0x13402, [w_EGYPTIAN;w_HIEROGLYPH;w_Z015H]);
  (0x13403, [w_EGYPTIAN;w_HIEROGLYPH;w_Z015I]);
  (0x13404, [w_EGYPTIAN;w_HIEROGLYPH;w_Z016]);
  (0x13405, [w_EGYPTIAN;w_HIEROGLYPH;w_Z016A]);
  (0x13406, [w_EGYPTIAN;w_HIEROGLYPH;w_Z016B]);
  (0x13407, [w_EGYPTIAN;w_HIEROGLYPH;w_Z016C]);
  (0x13408, [w_EGYPTIAN;w_HIEROGLYPH;w_Z016D]);
  (0x13409, [w_EGYPTIAN;w_HIEROGLYPH;w_Z016E]);
  (0x1340a, [w_EGYPTIAN;w_HIEROGLYPH;w_Z016F]);
  (0x1340b, [w_EGYPTIAN;w_HIEROGLYPH;w_Z016G]);
  (0x1340c, [w_EGYPTIAN;w_HIEROGLYPH;w_Z016H]);
  (0x1340d, [w_EGYPTIAN;w_HIEROGLYPH;w_AA001]);
  (0x1340e, [w_EGYPTIAN;w_HIEROGLYPH;w_AA002]);
  (0x1340f, [w_EGYPTIAN;w_HIEROGLYPH;w_AA003]);
  (0x13410, [w_EGYPTIAN;w_HIEROGLYPH;w_AA004]);
  (0x13411, [w_EGYPTIAN;w_HIEROGLYPH;w_AA005]);
  (0x13412, [w_EGYPTIAN;w_HIEROGLYPH;w_AA006]);
  (0x13413, [w_EGYPTIAN;w_HIEROGLYPH;w_AA007]);
  (0x13414, [w_EGYPTIAN;w_HIEROGLYPH;w_AA007A]);
  (0x13415, [w_EGYPTIAN;w_HIEROGLYPH;w_AA007B]);
  (0x13416, [w_EGYPTIAN;w_HIEROGLYPH;w_AA008]);
  (0x13417, [w_EGYPTIAN;w_HIEROGLYPH;w_AA009]);
  (0x13418, [w_EGYPTIAN;w_HIEROGLYPH;w_AA010]);
  (0x13419, [w_EGYPTIAN;w_HIEROGLYPH;w_AA011]);
  (0x1341a, [w_EGYPTIAN;w_HIEROGLYPH;w_AA012]);
  (0x1341b, [w_EGYPTIAN;w_HIEROGLYPH;w_AA013]);
  (0x1341c, [w_EGYPTIAN;w_HIEROGLYPH;w_AA014]);
  (0x1341d, [w_EGYPTIAN;w_HIEROGLYPH;w_AA015]);
  (0x1341e, [w_EGYPTIAN;w_HIEROGLYPH;w_AA016]);
  (0x1341f, [w_EGYPTIAN;w_HIEROGLYPH;w_AA017]);
  (0x13420, [w_EGYPTIAN;w_HIEROGLYPH;w_AA018]);
  (0x13421, [w_EGYPTIAN;w_HIEROGLYPH;w_AA019]);
  (0x13422, [w_EGYPTIAN;w_HIEROGLYPH;w_AA020]);
  (0x13423, [w_EGYPTIAN;w_HIEROGLYPH;w_AA021]);
  (0x13424, [w_EGYPTIAN;w_HIEROGLYPH;w_AA022]);
  (0x13425, [w_EGYPTIAN;w_HIEROGLYPH;w_AA023]);
  (0x13426, [w_EGYPTIAN;w_HIEROGLYPH;w_AA024]);
  (0x13427, [w_EGYPTIAN;w_HIEROGLYPH;w_AA025]);
  (0x13428, [w_EGYPTIAN;w_HIEROGLYPH;w_AA026]);
  (0x13429, [w_EGYPTIAN;w_HIEROGLYPH;w_AA027]);
  (0x1342a, [w_EGYPTIAN;w_HIEROGLYPH;w_AA028]);
  (0x1342b, [w_EGYPTIAN;w_HIEROGLYPH;w_AA029]);
  (0x1342c, [w_EGYPTIAN;w_HIEROGLYPH;w_AA030]);
  (0x1342d, [w_EGYPTIAN;w_HIEROGLYPH;w_AA031]);
  (0x1342e, [w_EGYPTIAN;w_HIEROGLYPH;w_AA032]);
  (0x14400, [w_ANATOLIAN;w_HIEROGLYPH;w_A001]);
  (0x14401, [w_ANATOLIAN;w_HIEROGLYPH;w_A002]);
  (0x14402, [w_ANATOLIAN;w_HIEROGLYPH;w_A003]);
  (0x14403, [w_ANATOLIAN;w_HIEROGLYPH;w_A004]);
  (0x14404, [w_ANATOLIAN;w_HIEROGLYPH;w_A005]);
  (0x14405, [w_ANATOLIAN;w_HIEROGLYPH;w_A006]);
  (0x14406, [w_ANATOLIAN;w_HIEROGLYPH;w_A007]);
  (0x14407, [w_ANATOLIAN;w_HIEROGLYPH;w_A008]);
  (0x14408, [w_ANATOLIAN;w_HIEROGLYPH;w_A009]);
  (0x14409, [w_ANATOLIAN;w_HIEROGLYPH;w_A010]);
  (0x1440a, [w_ANATOLIAN;w_HIEROGLYPH;w_A010A]);
  (0x1440b, [w_ANATOLIAN;w_HIEROGLYPH;w_A011]);
  (0x1440c, [w_ANATOLIAN;w_HIEROGLYPH;w_A012]);
  (0x1440d, [w_ANATOLIAN;w_HIEROGLYPH;w_A013]);
  (0x1440e, [w_ANATOLIAN;w_HIEROGLYPH;w_A014]);
  (0x1440f, [w_ANATOLIAN;w_HIEROGLYPH;w_A015])].

Definition NAMES_57 : list (N * (list str)) := [
  (0x14410, [w_ANATOLIAN;w_HIEROGLYPH;w_A016]);
  (0x14411, [w_ANATOLIAN;w_HIEROGLYPH;w_A017]);
  (0x14412, [w_ANATOLIAN;w_HIEROGLYPH;w_A018]);
  (0x14413, [w_ANATOLIAN;w_HIEROGLYPH;w_A019]);
  (0x14414, [w_ANATOLIAN;w_HIEROGLYPH;w_A020]);
  (0x14415, [w_ANATOLIAN;w_HIEROGLYPH;w_A021]);
  (0x14416, [w_ANATOLIAN;w_HIEROGLYPH;w_A022]);
  (0x14417, [w_ANATOLIAN;w_HIEROGLYPH;w_A023]);
  (0x14418, [w_ANATOLIAN;w_HIEROGLYPH;w_A024]);
  (0x14419, [w_ANATOLIAN;w_HIEROGLYPH;w_A025]);
  (0x1441a, [w_ANATOLIAN;w_HIEROGLYPH;w_A026]);
  (0x1441b, [w_ANATOLIAN;w_HIEROGLYPH;w_A026A]);
  (0x1441c, [w_ANATOLIAN;w_HIEROGLYPH;w_A027]);
  (0x1441d, [w_ANATOLIAN;w_HIEROGLYPH;w_A028]);
  (0x1441e, [w_ANATOLIAN;w_HIEROGLYPH;w_A029]);
  (0x1441f, [w_ANATOLIAN;w_HIEROGLYPH;w_A030]);
  (0x14420, [w_ANATOLIAN;w_HIEROGLYPH;w_A031]);
  (0x14421, [w_ANATOLIAN;w_HIEROGLYPH;w_A032]);
  (0x14422, [w_ANATOLIAN;w_HIEROGLYPH;w_A033]);
  (0x14423, [w_ANATOLIAN;w_HIEROGLYPH;w_A034]);
  (0x14424, [w_ANATOLIAN;w_HIEROGLYPH;w_A035]);
  (0x14425, [w_ANATOLIAN;w_HIEROGLYPH;w_A036]);
  (0x14426, [w_ANATOLIAN;w_HIEROGLYPH;w_A037]);
  (0x14427, [w_ANATOLIAN;w_HIEROGLYPH;w_A038]);
  (0x14428, [w_ANATOLIAN;w_HIEROGLYPH;w_A039]);
  (0x14429, [w_ANATOLIAN;w_HIEROGLYPH;w_A039A]);
  (0x1442a, [w_ANATOLIAN;w_HIEROGLYPH;w_A040]);
  (0x1442b, [w_ANATOLIAN;w_HIEROGLYPH;w_A041]);
  (0x1442c, [w_ANATOLIAN;w_HIEROGLYPH;w_A041A]);
  (0x1442d, [w_ANATOLIAN;w_HIEROGLYPH;w_A042]);
  (0x1442e, [w_ANATOLIAN;w_HIEROGLYPH;w_A043]);
  (0x1442f, [w_ANATOLIAN;w_HIEROGLYPH;w_A044]);
  (0x14430, [w_ANATOLIAN;w_HIEROGLYPH;w_A045]);
  (0x14431, [w_ANATOLIAN;w_HIEROGLYPH;w_A045A]);
  (0x14432, [w_ANATOLIAN;w_HIEROGLYPH;w_A046]);
  (0x14433, [w_ANATOLIAN;w_HIEROGLYPH;w_A046A]);
  (0x14434, [w_ANATOLIAN;w_HIEROGLYPH;w_A046B]);
  (0x14435, [w_ANATOLIAN;w_HIEROGLYPH;w_A047]);
  (0x14436, [w_ANATOLIAN;w_HIEROGLYPH;w_A048]);
  (0x14437, [w_ANATOLIAN;w_HIEROGLYPH;w_A049]);
  (0x14438, [w_ANATOLIAN;w_HIEROGLYPH;w_A050]);
  (0x14439, [w_ANATOLIAN;w_HIEROGLYPH;w_A051]);
  (0x1443a, [w_ANATOLIAN;w_HIEROGLYPH;w_A052]);
  (0x1443b, [w_ANATOLIAN;w_HIEROGLYPH;w_A053]);
  (0x1443c, [w_ANATOLIAN;w_HIEROGLYPH;w_A054]);
  (0x1443d, [w_ANATOLIAN;w_HIEROGLYPH;w_A055]);
  (0x1443e, [w_ANATOLIAN;w_HIEROGLYPH;w_A056]);
  (0x1443f, [w_ANATOLIAN;w_HIEROGLYPH;w_A057]);
  (0x14440, [w_ANATOLIAN;w_HIEROGLYPH;w_A058]);
  (0x14441, [w_ANATOLIAN;w_HIEROGLYPH;w_A059]);
  (0x14442, [w_ANATOLIAN;w_HIEROGLYPH;w_A060]);
  (0x14443, [w_ANATOLIAN;w_HIEROGLYPH;w_A061]);
  (0x14444, [w_ANATOLIAN;w_HIEROGLYPH;w_A062]);
  (0x14445, [w_ANATOLIAN;w_HIEROGLYPH;w_A063]);
  (0x14446, [w_ANATOLIAN;w_HIEROGLYPH;w_A064]);
  (0x14447, [w_ANATOLIAN;w_HIEROGLYPH;w_A065]);
  (0x14448, [w_ANATOLIAN;w_HIEROGLYPH;w_A066]);
  (0x14449, [w_ANATOLIAN;w_HIEROGLYPH;w_A066A]);
  (0x1444a, [w_ANATOLIAN;w_HIEROGLYPH;w_A066B]);
  (0x1444b, [w_ANATOLIAN;w_HIEROGLYPH;w_A066C]);
  (0x1444c, [w_ANATOLIAN;w_HIEROGLYPH;w_A067]);
  (0x1444d, [w_ANATOLIAN;w_HIEROGLYPH;w_A068]);
  (0x1444e, [w_ANATOLIAN;w_HIEROGLYPH;w_A069]);
  (0x1444f, [w_ANATOLIAN;w_HIEROGLYPH;w_A070]);
  (0x14450, [w_ANATOLIAN;w_HIEROGLYPH;w_A071]);
  (0x14451, [w_ANATOLIAN;w_HIEROGLYPH;w_A072]);
  (0x14452, [w_ANATOLIAN;w_HIEROGLYPH;w_A073]);
  (0x14453, [w_ANATOLIAN;w_HIEROGLYPH;w_A074]);
  (0x14454, [w_ANATOLIAN;w_HIEROGLYPH;w_A075]);
  (0x14455, [w_ANATOLIAN;w_HIEROGLYPH;w_A076]);
  (0x14456, [w_ANATOLIAN;w_HIEROGLYPH;w_A077]);
  (0x14457, [w_ANATOLIAN;w_HIEROGLYPH;w_A078]);
  (0x14458, [w_ANATOLIAN;w_HIEROGLYPH;w_A079]);
  (0x14459, [w_ANATOLIAN;w_HIEROGLYPH;w_A080]);
  (0x1445a, [w_ANATOLIAN;w_HIEROGLYPH;w_A081]);
  (0x1445b, [w_ANATOLIAN;w_HIEROGLYPH;w_A082]);
  (0x1445c, [w_ANATOLIAN;w_HIEROGLYPH;w_A083]);
  (0x1445d, [w_ANATOLIAN;w_HIEROGLYPH;w_A084]);
  (0x1445e, [w_ANATOLIAN;w_HIEROGLYPH;w_A085]);
  (0x1445f, [w_ANATOLIAN;w_HIEROGLYPH;w_A086]);
  (0x14460, [w_ANATOLIAN;w_HIEROGLYPH;w_A087]);
  (0x14461, [w_ANATOLIAN;w_HIEROGLYPH;w_A088]);
  (0x14462, [w_ANATOLIAN;w_HIEROGLYPH;w_A089]);
  (0x14463, [w_ANATOLIAN;w_HIEROGLYPH;w_A090]);
  (0x14464, [w_ANATOLIAN;w_HIEROGLYPH;w_A091]);
  (0x14465, [w_ANATOLIAN;w_HIEROGLYPH;w_A092]);
  (0x14466, [w_ANATOLIAN;w_HIEROGLYPH;w_A093]);
  (0x14467, [w_ANATOLIAN;w_HIEROGLYPH;w_A094]);
  (0x14468, [w_ANATOLIAN;w_HIEROGLYPH;w_A095]);
  (0x14469, [w_ANATOLIAN;w_HIEROGLYPH;w_A096]);
  (0x1446a, [w_ANATOLIAN;w_HIEROGLYPH;w_A097]);
  (0x1446b, [w_ANATOLIAN;w_HIEROGLYPH;w_A097A]);
  (0x1446c, [w_ANATOLIAN;w_HIEROGLYPH;w_A098]);
  (0x1446d, [w_ANATOLIAN;w_HIEROGLYPH;w_A098A]);
  (0x1446e, [w_ANATOLIAN;w_HIEROGLYPH;w_A099]);
  (0x1446f, [w_ANATOLIAN;w_HIEROGLYPH;w_A100]);
  (0x14470, [w_ANATOLIAN;w_HIEROGLYPH;w_A100A]);
  (0x14471, [w_ANATOLIAN;w_HIEROGLYPH;w_A101]);
  (0x14472, [w_ANATOLIAN;w_HIEROGLYPH;w_A101A]);
  (0x14473, [w_ANATOLIAN;w_HIEROGLYPH;w_A102]);
  (0x14474, [w_ANATOLIAN;w_HIEROGLYPH;w_A102A]);
  (0x14475, [w_ANATOLIAN;w_HIEROGLYPH;w_A103]);
  (0x14476, [w_ANATOLIAN;w_HIEROGLYPH;w_A104]);
  (0x14477, [w_ANATOLIAN;w_HIEROGLYPH;w_A104A]);
  (0x14478, [w_ANATOLIAN;w_HIEROGLYPH;w_A104B]);
  (0x14479, [w_ANATOLIAN;w_HIEROGLYPH;w_A104C]);
  (0x1447a, [w_ANATOLIAN;w_HIEROGLYPH;w_A105]);
  (0x1447b, [w_ANATOLIAN;w_HIEROGLYPH;w_A105A]);
  (0x1447c, [w_ANATOLIAN;w_HIEROGLYPH;w_A105B]);
  (0x1447d, [w_ANATOLIAN;w_HIEROGLYPH;w_A106]);
  (0x1447e, [w_ANATOLIAN;w_HIEROGLYPH;w_A107]);
  (0x1447f, [w_ANATOLIAN;w_HIEROGLYPH;w_A107A]);
  (0x14480, [w_ANATOLIAN;w_HIEROGLYPH;w_A107B]);
  (0x14481, [w_ANATOLIAN;w_HIEROGLYPH;w_A107C]);
  (0x14482, [w_ANATOLIAN;w_HIEROGLYPH;w_A108]);
  (0x14483, [w_ANATOLIAN;w_HIEROGLYPH;w_A109]);
  (0x14484, [w_ANATOLIAN;w_HIEROGLYPH;w_A110]);
  (0x14485, [w_ANATOLIAN;w_HIEROGLYPH;w_A110A]);
  (0x14486, [w_ANATOLIAN;w_HIEROGLYPH;w_A110B]);
  (0x14487, [w_ANATOLIAN;w_HIEROGLYPH;w_A111]);
  (0x14488, [w_ANATOLIAN;w_HIEROGLYPH;w_A112]);
  (0x14489, [w_ANATOLIAN;w_HIEROGLYPH;w_A113]);
  (0x1448a, [w_ANATOLIAN;w_HIEROGLYPH;w_A114]);
  (0x1448b, [w_ANATOLIAN;w_HIEROGLYPH;w_A115]);
  (0x1448c, [w_ANATOLIAN;w_HIEROGLYPH;w_A115A]);
  (0x1448d, [w_ANATOLIAN;w_HIEROGLYPH;w_A116]);
  (0x1448e, [w_ANATOLIAN;w_HIEROGLYPH;w_A117]);
  (0x1448f, [w_ANATOLIAN;w_HIEROGLYPH;w_A118]);
  (0x14490, [w_ANATOLIAN;w_HIEROGLYPH;w_A119]);
  (0x14491, [w_ANATOLIAN;w_HIEROGLYPH;w_A120]);
  (0x14492, [w_ANATOLIAN;w_HIEROGLYPH;w_A121]);
  (0x14493, [w_ANATOLIAN;w_HIEROGLYPH;w_A122]);
  (0x14494, [w_ANATOLIAN;w_HIEROGLYPH;w_A123]);
  (0x14495, [w_ANATOLIAN;w_HIEROGLYPH;w_A124]);
  (0x14496, [w_ANATOLIAN;w_HIEROGLYPH;w_A125]);
  (0x14497, [w_ANATOLIAN;w_HIEROGLYPH;w_A125A]);
  (0x14498, [w_ANATOLIAN;w_HIEROGLYPH;w_A126]);
  (0x14499, [w_ANATOLIAN;w_HIEROGLYPH;w_A127]);
  (0x1449a, [w_ANATOLIAN;w_HIEROGLYPH;w_A128]);
  (0x1449b, [w_ANATOLIAN;w_HIEROGLYPH;w_A129]);
  (0x1449c, [w_ANATOLIAN;w_HIEROGLYPH;w_A130]);
  (0x1449d, [w_ANATOLIAN;w_HIEROGLYPH;w_A131]);
  (0x1449e, [w_ANATOLIAN;w_HIEROGLYPH;w_A132]);
  (0x1449f, [w_ANATOLIAN;w_HIEROGLYPH;w_A133]);
  (0x144a0, [w_ANATOLIAN;w_HIEROGLYPH;w_A134]);
  (0x144a1, [w_ANATOLIAN;w_HIEROGLYPH;w_A135]);
  (0x144a2, [w_ANATOLIAN;w_HIEROGLYPH;w_A135A]);
  (0x144a3, [w_ANATOLIAN;w_HIEROGLYPH;w_A136]);
  (0x144a4, [w_ANATOLIAN;w_HIEROGLYPH;w_A137]);
  (0x144a5, [w_ANATOLIAN;w_HIEROGLYPH;w_A138]);
  (0x144a6, [w_ANATOLIAN;w_HIEROGLYPH;w_A139]);
  (0x144a7, [w_ANATOLIAN;w_HIEROGLYPH;w_A140]);
  (0x144a8, [w_ANATOLIAN;w_HIEROGLYPH;w_A141]);
  (0x144a9, [w_ANATOLIAN;w_HIEROGLYPH;w_A142]);
  (0x144aa, [w_ANATOLIAN;w_HIEROGLYPH;w_A143]);
  (0x144ab, [w_ANATOLIAN;w_HIEROGLYPH;w_A144]);
  (0x144ac, [w_ANATOLIAN;w_HIEROGLYPH;w_A145]);
  (0x144ad, [w_ANATOLIAN;w_HIEROGLYPH;w_A146]);
  (0x144ae, [w_ANATOLIAN;w_HIEROGLYPH;w_A147]);
  (0x144af, [w_ANATOLIAN;w_HIEROGLYPH;w_A148]);
  (0x144b0, [w_ANATOLIAN;w_HIEROGLYPH;w_A149]);
  (0x144b1, [w_ANATOLIAN;w_HIEROGLYPH;w_A150]);
  (0x144b2, [w_ANATOLIAN;w_HIEROGLYPH;w_A151]);
  (0x144b3, [w_ANATOLIAN;w_HIEROGLYPH;w_A152]);
  (0x144b4, [w_ANATOLIAN;w_HIEROGLYPH;w_A153]);
  (0x144b5, [w_ANATOLIAN;w_HIEROGLYPH;w_A154]);
  (0x144b6, [w_ANATOLIAN;w_HIEROGLYPH;w_A155]);
  (0x144b7, [w_ANATOLIAN;w_HIEROGLYPH;w_A156]);
  (0x144b8, [w_ANATOLIAN;w_HIEROGLYPH;w_A157]);
  (0x144b9, [w_ANATOLIAN;w_HIEROGLYPH;w_A158]);
  (0x144ba, [w_ANATOLIAN;w_HIEROGLYPH;w_A159]);
  (0x144bb, [w_ANATOLIAN;w_HIEROGLYPH;w_A160]);
  (0x144bc, [w_ANATOLIAN;w_HIEROGLYPH;w_A161]);
  (0x144bd, [w_ANATOLIAN;w_HIEROGLYPH;w_A162]);
  (0x144be, [w_ANATOLIAN;w_HIEROGLYPH;w_A163]);
  (0x144bf, [w_ANATOLIAN;w_HIEROGLYPH;w_A164]);
  (0x144c0, [w_ANATOLIAN;w_HIEROGLYPH;w_A165]);
  (0x144c1, [w_ANATOLIAN;w_HIEROGLYPH;w_A166]);
  (0x144c2, [w_ANATOLIAN;w_HIEROGLYPH;w_A167]);
  (0x144c3, [w_ANATOLIAN;w_HIEROGLYPH;w_A168]);
  (0x144c4, [w_ANATOLIAN;w_HIEROGLYPH;w_A169]);
  (0x144c5, [w_ANATOLIAN;w_HIEROGLYPH;w_A170]);
  (0x144c6, [w_ANATOLIAN;w_HIEROGLYPH;w_A171]);
  (0x144c7, [w_ANATOLIAN;w_HIEROGLYPH;w_A172]);
  (0x144c8, [w_ANATOLIAN;w_HIEROGLYPH;w_A173]);
  (0x144c9, [w_ANATOLIAN;w_HIEROGLYPH;w_A174]);
  (0x144ca, [w_ANATOLIAN;w_HIEROGLYPH;w_A175]);
  (0x144cb, [w_ANATOLIAN;w_HIEROGLYPH;w_A176]);
  (0x144cc, [w_ANATOLIAN;w_HIEROGLYPH;w_A177]);
  (0x144cd, [w_ANATOLIAN;w_HIEROGLYPH;w_A178]);
  (0x144ce, [w_ANATOLIAN;w_HIEROGLYPH;w_A179]);
  (0x144cf, [w_ANATOLIAN;w_HIEROGLYPH;w_A180]);
  (0x144d0, [w_ANATOLIAN;w_HIEROGLYPH;w_A181]);
  (0x144d1, [w_ANATOLIAN;w_HIEROGLYPH;w_A182]);
  (0x144d2, [w_ANATOLIAN;w_HIEROGLYPH;w_A183]);
  (0x144d3, [w_ANATOLIAN;w_HIEROGLYPH;w_A184]);
  (0x144d4, [w_ANATOLIAN;w_HIEROGLYPH;w_A185]);
  (0x144d5, [w_ANATOLIAN;w_HIEROGLYPH;w_A186]);
  (0x144d6, [w_ANATOLIAN;w_HIEROGLYPH;w_A187]);
  (0x144d7, [w_ANATOLIAN;w_HIEROGLYPH;w_A188]);
  (0x144d8, [w_ANATOLIAN;w_HIEROGLYPH;w_A189]);
  (0x144d9, [w_ANATOLIAN;w_HIEROGLYPH;w_A190]);
  (0x144da, [w_ANATOLIAN;w_HIEROGLYPH;w_A191]);
  (0x144db, [w_ANATOLIAN;w_HIEROGLYPH;w_A192]);
  (0x144dc, [w_ANATOLIAN;w_HIEROGLYPH;w_A193]);
  (0x144dd, [w_ANATOLIAN;w_HIEROGLYPH;w_A194]);
  (0x144de, [w_ANATOLIAN;w_HIEROGLYPH;w_A195]);
  (0x144df, [w_ANATOLIAN;w_HIEROGLYPH;w_A196]);
  (0x144e0, [w_ANATOLIAN;w_HIEROGLYPH;w_A197]);
  (0x144e1, [w_ANATOLIAN;w_HIEROGLYPH;w_A198]);
  (0x144e2, [w_ANATOLIAN;w_HIEROGLYPH;w_A199]);
  (0x144e3, [w_ANATOLIAN;w_HIEROGLYPH;w_A200]);
  (0x144e4, [w_ANATOLIAN;w_HIEROGLYPH;w_A201]);
  (0x144e5, [w_ANATOLIAN;w_HIEROGLYPH;w_A202]);
  (0x144e6, [w_ANATOLIAN;w_HIEROGLYPH;w_A202A]);
  (0x144e7, [w_ANATOLIAN;w_HIEROGLYPH;w_A202B]);
  (0x144e8, [w_ANATOLIAN;w_HIEROGLYPH;w_A203]);
  (0x144e9, [w_ANATOLIAN;w_HIEROGLYPH;w_A204]);
  (0x144ea, [w_ANATOLIAN;w_HIEROGLYPH;w_A205]);
  (0x144eb, [w_ANATOLIAN;w_HIEROGLYPH;w_A206]);
  (0x144ec, [w_ANATOLIAN;w_HIEROGLYPH;w_A207]);
  (0x144ed, [w_ANATOLIAN;w_HIEROGLYPH;w_A207A]);
  (0x144ee, [w_ANATOLIAN;w_HIEROGLYPH;w_A208]);
  (0x144ef, [w_ANATOLIAN;w_HIEROGLYPH;w_A209]);
  (0x144f0, [w_ANATOLIAN;w_HIEROGLYPH;w_A209A]);
  (0x144f1, [w_ANATOLIAN;w_HIEROGLYPH;w_A210]);
  (0x144f2, [w_ANATOLIAN;w_HIEROGLYPH;w_A211]);
  (0x144f3, [w_ANATOLIAN;w_HIEROGLYPH;w_A212]);
  (0x144f4, [w_ANATOLIAN;w_HIEROGLYPH;w_A213]);
  (0x144f5, [w_ANATOLIAN;w_HIEROGLYPH;w_A214]);
  (0x144f6, [w_ANATOLIAN;w_HIEROGLYPH;w_A215]);
  (0x144f7, [w_ANATOLIAN;w_HIEROGLYPH;w_A215A]);
  (0x144f8, [w_ANATOLIAN;w_HIEROGLYPH;w_A216]);
  (0x144f9, [w_ANATOLIAN;w_HIEROGLYPH;w_A216A]);
  (0x144fa, [w_ANATOLIAN;w_HIEROGLYPH;w_A217]);
  (0x144fb, [w_ANATOLIAN;w_HIEROGLYPH;w_A218]);
  (0x144fc, [w_ANATOLIAN;w_HIEROGLYPH;w_A219]);
  (0x144fd, [w_ANATOLIAN;w_HIEROGLYPH;w_A220]);
  (0x144fe, [w_ANATOLIAN;w_HIEROGLYPH;w_A221]);
  (0x144ff, [w_ANATOLIAN;w_HIEROGLYPH;w_A222]);
  (0x14500, [w_ANATOLIAN;w_HIEROGLYPH;w_A223]);
  (0x14501, [w_ANATOLIAN;w_HIEROGLYPH;w_A224]);
  (0x14502, [w_ANATOLIAN;w_HIEROGLYPH;w_A225]);
  (0x14503, [w_ANATOLIAN;w_HIEROGLYPH;w_A226]);
  (0x14504, [w_ANATOLIAN;w_HIEROGLYPH;w_A227]);
  (0x14505, [w_ANATOLIAN;w_HIEROGLYPH;w_A227A]);
  (0x14506, [w_ANATOLIAN;w_HIEROGLYPH;w_A228]);
  (0x14507, [w_ANATOLIAN;w_HIEROGLYPH;w_A229]);
  (0x14508, [w_ANATOLIAN;w_HIEROGLYPH;w_A230]);
  (0x14509, [w_ANATOLIAN;w_HIEROGLYPH;w_A231]);
  (0x1450a, [w_ANATOLIAN;w_HIEROGLYPH;w_A232]);
  (0x1450b, [w_ANATOLIAN;w_HIEROGLYPH;w_A233]);
  (0x1450c, [w_ANATOLIAN;w_HIEROGLYPH;w_A234]);
  (0x1450d, [w_ANATOLIAN;w_HIEROGLYPH;w_A235]);
  (0x1450e, [w_ANATOLIAN;w_HIEROGLYPH;w_A236]);
  (0x1450f, [w_ANATOLIAN;w_HIEROGLYPH;w_A237]);
  (0x14510, [w_ANATOLIAN;w_HIEROGLYPH;w_A238]);
  (0x14511, [w_ANATOLIAN;w_HIEROGLYPH;w_A239]);
  (0x14512, [w_ANATOLIAN;w_HIEROGLYPH;w_A240]);
  (0x14513, [w_ANATOLIAN;w_HIEROGLYPH;w_A241]);
  (0x14514, [w_ANATOLIAN;w_HIEROGLYPH;w_A242]);
  (0x14515, [w_ANATOLIAN;w_HIEROGLYPH;w_A243]);
  (0x14516, [w_ANATOLIAN;w_HIEROGLYPH;w_A244]);
  (0x14517, [w_ANATOLIAN;w_HIEROGLYPH;w_A245]);
  (0x14518, [w_ANATOLIAN;w_HIEROGLYPH;w_A246]);
  (0x14519, [w_ANATOLIAN;w_HIEROGLYPH;w_A247]);
  (0x1451a, [w_ANATOLIAN;w_HIEROGLYPH;w_A248]);
  (0x1451b, [w_ANATOLIAN;w_HIEROGLYPH;w_A249]);
  (0x1451c, [w_ANATOLIAN;w_HIEROGLYPH;w_A250]);
  (0x1451d, [w_ANATOLIAN;w_HIEROGLYPH;w_A251]);
  (0x1451e, [w_ANATOLIAN;w_HIEROGLYPH;w_A252]);
  (0x1451f, [w_ANATOLIAN;w_HIEROGLYPH;w_A253]);
  (0x14520, [w_ANATOLIAN;w_HIEROGLYPH;w_A254]);
  (0x14521, [w_ANATOLIAN;w_HIEROGLYPH;w_A255]);
  (0x14522, [w_ANATOLIAN;w_HIEROGLYPH;w_A256]);
  (0x14523, [w_ANATOLIAN;w_HIEROGLYPH;w_A257]);
  (0x14524, [w_ANATOLIAN;w_HIEROGLYPH;w_A258]);
  (0x14525, [w_ANATOLIAN;w_HIEROGLYPH;w_A259]);
  (0x14526, [w_ANATOLIAN;w_HIEROGLYPH;w_A260]);
  (0x14527, [w_ANATOLIAN;w_HIEROGLYPH;w_A261]);
  (0x14528, [w_ANATOLIAN;w_HIEROGLYPH;w_A262]);
  (0x14529, [w_ANATOLIAN;w_HIEROGLYPH;w_A263]);
  (0x1452a, [w_ANATOLIAN;w_HIEROGLYPH;w_A264]);
  (0x1452b, [w_ANATOLIAN;w_HIEROGLYPH;w_A265]);
  (0x1452c, [w_ANATOLIAN;w_HIEROGLYPH;w_A266]);
  (0x1452d, [w_ANATOLIAN;w_HIEROGLYPH;w_A267]);
  (0x1452e, [w_ANATOLIAN;w_HIEROGLYPH;w_A267A]);
  (0x1452f, [w_ANATOLIAN;w_HIEROGLYPH;w_A268]);
  (0x14530, [w_ANATOLIAN;w_HIEROGLYPH;w_A269]);
  (0x14531, [w_ANATOLIAN;w_HIEROGLYPH;w_A270]);
  (0x14532, [w_ANATOLIAN;w_HIEROGLYPH;w_A271]);
  (0x14533, [w_ANATOLIAN;w_HIEROGLYPH;w_A272]);
  (0x14534, [w_ANATOLIAN;w_HIEROGLYPH;w_A273]);
  (0x14535, [w_ANATOLIAN;w_HIEROGLYPH;w_A274]);
  (0x14536, [w_ANATOLIAN;w_HIEROGLYPH;w_A275]);
  (0x14537, [w_ANATOLIAN;w_HIEROGLYPH;w_A276]);
  (0x14538, [w_ANATOLIAN;w_HIEROGLYPH;w_A277]);
  (0x14539, [w_ANATOLIAN;w_HIEROGLYPH;w_A278]);
  (0x1453a, [w_ANATOLIAN;w_HIEROGLYPH;w_A279]);
  (0x1453b, [w_ANATOLIAN;w_HIEROGLYPH;w_A280]);
  (0x1453c, [w_ANATOLIAN;w_HIEROGLYPH;w_A281]);
  (0x1453d, [w_ANATOLIAN;w_HIEROGLYPH;w_A282]);
  (0x1453e, [w_ANATOLIAN;w_HIEROGLYPH;w_A283]);
  (0x1453f, [w_ANATOLIAN;w_HIEROGLYPH;w_A284]);
  (0x14540, [w_ANATOLIAN;w_HIEROGLYPH;w_A285]);
  (0x14541, [w_ANATOLIAN;w_HIEROGLYPH;w_A286]);
  (0x14542, [w_ANATOLIAN;w_HIEROGLYPH;w_A287]);
  (0x14543, [w_ANATOLIAN;w_HIEROGLYPH;w_A288]);
  (0x14544, [w_ANATOLIAN;w_HIEROGLYPH;w_A289]);
  (0x14545, [w_ANATOLIAN;w_HIEROGLYPH;w_A289A]);
  (0x14546, [w_ANATOLIAN;w_HIEROGLYPH;w_A290]);
  (0x14547, [w_ANATOLIAN;w_HIEROGLYPH;w_A291]);
  (0x14548, [w_ANATOLIAN;w_HIEROGLYPH;w_A292]);
  (0x14549, [w_ANATOLIAN;w_HIEROGLYPH;w_A293]);
  (0x1454a, [w_ANATOLIAN;w_HIEROGLYPH;w_A294]);
  (0x1454b, [w_ANATOLIAN;w_HIEROGLYPH;w_A294A]);
  (0x1454c, [w_ANATOLIAN;w_HIEROGLYPH;w_A295]);
  (0x1454d, [w_ANATOLIAN;w_HIEROGLYPH;w_A296]);
  (0x1454e, [w_ANATOLIAN;w_HIEROGLYPH;w_A297]);
  (0x1454f, [w_ANATOLIAN;w_HIEROGLYPH;w_A298]);
  (0x14550, [w_ANATOLIAN;w_HIEROGLYPH;w_A299]);
  (0x14551, [w_ANATOLIAN;w_HIEROGLYPH;w_A299A]);
  (0x14552, [w_ANATOLIAN;w_HIEROGLYPH;w_A300]);
  (0x14553, [w_ANATOLIAN;w_HIEROGLYPH;w_A301]);
  (0x14554, [w_ANATOLIAN;w_HIEROGLYPH;w_A302]);
  (0x14555, [w_ANATOLIAN;w_HIEROGLYPH;w_A303]);
  (0x14556, [w_ANATOLIAN;w_HIEROGLYPH;w_A304]);
  (0x14557, [w_ANATOLIAN;w_HIEROGLYPH;w_A305]);
  (0x14558, [w_ANATOLIAN;w_HIEROGLYPH;w_A306]);
  (0x14559, [w_ANATOLIAN;w_HIEROGLYPH;w_A307]);
  (0x1455a, [w_ANATOLIAN;w_HIEROGLYPH;w_A308]);
  (0x1455b, [w_ANATOLIAN;w_HIEROGLYPH;w_A309]);
  (0x1455c, [w_ANATOLIAN;w_HIEROGLYPH;w_A309A]);
  (0x1455d, [w_ANATOLIAN;w_HIEROGLYPH;w_A310]);
  (0x1455e, [w_ANATOLIAN;w_HIEROGLYPH;w_A311]);
  (0x1455f, [w_ANATOLIAN;w_HIEROGLYPH;w_A312]);
  (0x14560, [w_ANATOLIAN;w_HIEROGLYPH;w_A313]);
  (0x14561, [w_ANATOLIAN;w_HIEROGLYPH;w_A314]);
  (0x14562, [w_ANATOLIAN;w_HIEROGLYPH;w_A315]);
  (0x14563, [w_ANATOLIAN;w_HIEROGLYPH;w_A316]);
  (0x14564, [w_ANATOLIAN;w_HIEROGLYPH;w_A317]);
  (0x14565, [w_ANATOLIAN;w_HIEROGLYPH;w_A318]);
  (0x14566, [w_ANATOLIAN;w_HIEROGLYPH;w_A319]);
  (0x14567, [w_ANATOLIAN;w_HIEROGLYPH;w_A320]);
  (0x14568, [w_ANATOLIAN;w_HIEROGLYPH;w_A321]);
  (0x14569, [w_ANATOLIAN;w_HIEROGLYPH;w_A322]);
  (0x1456a, [w_ANATOLIAN;w_HIEROGLYPH;w_A323]);
  (0x1456b, [w_ANATOLIAN;w_HIEROGLYPH;w_A324]);
  (0x1456c, [w_ANATOLIAN;w_HIEROGLYPH;w_A325]);
  (0x1456d, [w_ANATOLIAN;w_HIEROGLYPH;w_A326]);
  (0x1456e, [w_ANATOLIAN;w_HIEROGLYPH;w_A327]);
  (0x1456f, [w_ANATOLIAN;w_HIEROGLYPH;w_A328]);
  (0x14570, [w_ANATOLIAN;w_HIEROGLYPH;w_A329]);
  (0x14571, [w_ANATOLIAN;w_HIEROGLYPH;w_A329A]);
  (0x14572, [w_ANATOLIAN;w_HIEROGLYPH;w_A330]);
  (0x14573, [w_ANATOLIAN;w_HIEROGLYPH;w_A331]);
  (0x14574, [w_ANATOLIAN;w_HIEROGLYPH;w_A332A]);
  (0x14575, [w_ANATOLIAN;w_HIEROGLYPH;w_A332B]);
  (0x14576, [w_ANATOLIAN;w_HIEROGLYPH;w_A332C]);
  (0x14577, [w_ANATOLIAN;w_HIEROGLYPH;w_A333]);
  (0x14578, [w_ANATOLIAN;w_HIEROGLYPH;w_A334]);
  (0x14579, [w_ANATOLIAN;w_HIEROGLYPH;w_A335]);
  (0x1457a, [w_ANATOLIAN;w_HIEROGLYPH;w_A336]);
  (0x1457b, [w_ANATOLIAN;w_HIEROGLYPH;w_A336A]);
  (0x1457c, [w_ANATOLIAN;w_HIEROGLYPH;w_A336B]);
  (0x1457d, [w_ANATOLIAN;w_HIEROGLYPH;w_A336C]);
  (0x1457e, [w_ANATOLIAN;w_HIEROGLYPH;w_A337]);
  (0x1457f, [w_ANATOLIAN;w_HIEROGLYPH;w_A338]);
  (0x14580, [w_ANATOLIAN;w_HIEROGLYPH;w_A339]);
  (0x14581, [w_ANATOLIAN;w_HIEROGLYPH;w_A340]);
  (0x14582, [w_ANATOLIAN;w_HIEROGLYPH;w_A341]);
  (0x14583, [w_ANATOLIAN;w_HIEROGLYPH;w_A342]);
  (0x14584, [w_ANATOLIAN;w_HIEROGLYPH;w_A343]);
  (0x14585, [w_ANATOLIAN;w_HIEROGLYPH;w_A344]);
  (0x14586, [w_ANATOLIAN;w_HIEROGLYPH;w_A345]);
  (0x14587, [w_ANATOLIAN;w_HIEROGLYPH;w_A346]);
  (0x14588, [w_ANATOLIAN;w_HIEROGLYPH;w_A347]);
  (0x14589, [w_ANATOLIAN;w_HIEROGLYPH;w_A348]);
  (0x1458a, [w_ANATOLIAN;w_HIEROGLYPH;w_A349]);
  (0x1458b, [w_ANATOLIAN;w_HIEROGLYPH;w_A350]);
  (0x1458c, [w_ANATOLIAN;w_HIEROGLYPH;w_A351]);
  (0x1458d, [w_ANATOLIAN;w_HIEROGLYPH;w_A352]);
  (0x1458e, [w_ANATOLIAN;w_HIEROGLYPH;w_A353]);
  (0x1458f, [w_ANATOLIAN;w_HIEROGLYPH;w_A354]);
  (0x14590, [w_ANATOLIAN;w_HIEROGLYPH;w_A355]);
  (0x14591, [w_ANATOLIAN;w_HIEROGLYPH;w_A356]);
  (0x14592, [w_ANATOLIAN;w_HIEROGLYPH;w_A357]);
  (0x14593, [w_ANATOLIAN;w_HIEROGLYPH;w_A358]);
  (0x14594, [w_ANATOLIAN;w_HIEROGLYPH;w_A359]);
  (0x14595, [w_ANATOLIAN;w_HIEROGLYPH;w_A359A]);
  (0x14596, [w_ANATOLIAN;w_HIEROGLYPH;w_A360]);
  (0x14597, [w_ANATOLIAN;w_HIEROGLYPH;w_A361]);
  (0x14598, [w_ANATOLIAN;w_HIEROGLYPH;w_A362]);
  (0x14599, [w_ANATOLIAN;w_HIEROGLYPH;w_A363]);
  (0x1459a, [w_ANATOLIAN;w_HIEROGLYPH;w_A364]);
  (0x1459b, [w_ANATOLIAN;w_HIEROGLYPH;w_A364A]);
  (0x1459c, [w_ANATOLIAN;w_HIEROGLYPH;w_A365]);
  (0x1459d, [w_ANATOLIAN;w_HIEROGLYPH;w_A366]);
  (0x1459e, [w_ANATOLIAN;w_HIEROGLYPH;w_A367]);
  (0x1459f, [w_ANATOLIAN;w_HIEROGLYPH;w_A368])].

Definition NAMES_58 : list (N * (list str)) := [
  (0x145a0, [w_ANATOLIAN;w_HIEROGLYPH;w_A368A]);
  (0x145a1, [w_ANATOLIAN;w_HIEROGLYPH;w_A369]);
  (0x145a2, [w_ANATOLIAN;w_HIEROGLYPH;w_A370]);
  (0x145a3, [w_ANATOLIAN;w_HIEROGLYPH;w_A371]);
  (0x145a4, [w_ANATOLIAN;w_HIEROGLYPH;w_A371A]);
  (0x145a5, [w_ANATOLIAN;w_HIEROGLYPH;w_A372]);
  (0x145a6, [w_ANATOLIAN;w_HIEROGLYPH;w_A373]);
  (0x145a7, [w_ANATOLIAN;w_HIEROGLYPH;w_A374]);
  (0x145a8, [w_ANATOLIAN;w_HIEROGLYPH;w_A375]);
  (0x145a9, [w_ANATOLIAN;w_HIEROGLYPH;w_A376]);
  (0x145aa, [w_ANATOLIAN;w_HIEROGLYPH;w_A377]);
  (0x145ab, [w_ANATOLIAN;w_HIEROGLYPH;w_A378]);
  (0x145ac, [w_ANATOLIAN;w_HIEROGLYPH;w_A379]);
  (0x145ad, [w_ANATOLIAN;w_HIEROGLYPH;w_A380]);
  (0x145ae, [w_ANATOLIAN;w_HIEROGLYPH;w_A381]);
  (0x145af, [w_ANATOLIAN;w_HIEROGLYPH;w_A381A]);
  (0x145b0, [w_ANATOLIAN;w_HIEROGLYPH;w_A382]);
  (0x145b1, [w_ANATOLIAN;w_HIEROGLYPH;w_A383;w_RA;w_OR;w_RI]);
  (0x145b2, [w_ANATOLIAN;w_HIEROGLYPH;w_A383A]);
  (0x145b3, [w_ANATOLIAN;w_HIEROGLYPH;w_A384]);
  (0x145b4, [w_ANATOLIAN;w_HIEROGLYPH;w_A385]);
  (0x145b5, [w_ANATOLIAN;w_HIEROGLYPH;w_A386]);
  (0x145b6, [w_ANATOLIAN;w_HIEROGLYPH;w_A386A]);
  (0x145b7, [w_ANATOLIAN;w_HIEROGLYPH;w_A387]);
  (0x145b8, [w_ANATOLIAN;w_HIEROGLYPH;w_A388]);
  (0x145b9, [w_ANATOLIAN;w_HIEROGLYPH;w_A389]);
  (0x145ba, [w_ANATOLIAN;w_HIEROGLYPH;w_A390]);
  (0x145bb, [w_ANATOLIAN;w_HIEROGLYPH;w_A391]);
  (0x145bc, [w_ANATOLIAN;w_HIEROGLYPH;w_A392]);
  (0x145bd, [w_ANATOLIAN;w_HIEROGLYPH;w_A393;w_EIGHT]);
  (0x145be, [w_ANATOLIAN;w_HIEROGLYPH;w_A394]);
  (0x145bf, [w_ANATOLIAN;w_HIEROGLYPH;w_A395]);
  (0x145c0, [w_ANATOLIAN;w_HIEROGLYPH;w_A396]);
  (0x145c1, [w_ANATOLIAN;w_HIEROGLYPH;w_A397]);
  (0x145c2, [w_ANATOLIAN;w_HIEROGLYPH;w_A398]);
  (0x145c3, [w_ANATOLIAN;w_HIEROGLYPH;w_A399]);
  (0x145c4, [w_ANATOLIAN;w_HIEROGLYPH;w_A400]);
  (0x145c5, [w_ANATOLIAN;w_HIEROGLYPH;w_A401]);
  (0x145c6, [w_ANATOLIAN;w_HIEROGLYPH;w_A402]);
  (0x145c7, [w_ANATOLIAN;w_HIEROGLYPH;w_A403]);
  (0x145c8, [w_ANATOLIAN;w_HIEROGLYPH;w_A404]);
  (0x145c9, [w_ANATOLIAN;w_HIEROGLYPH;w_A405]);
  (0x145ca, [w_ANATOLIAN;w_HIEROGLYPH;w_A406]);
  (0x145cb, [w_ANATOLIAN;w_HIEROGLYPH;w_A407]);
  (0x145cc, [w_ANATOLIAN;w_HIEROGLYPH;w_A408]);
  (0x145cd, [w_ANATOLIAN;w_HIEROGLYPH;w_A409]);
  (0x145ce, [w_ANATOLIAN;w_HIEROGLYPH;w_A410;w_BEGIN;w_LOGOGRAM;w_MARK]);
  (0x145cf, [w_ANATOLIAN;w_HIEROGLYPH;w_A410A;w_END;w_LOGOGRAM;w_MARK]);
  (0x145d0, [w_ANATOLIAN;w_HIEROGLYPH;w_A411]);
  (0x145d1, [w_ANATOLIAN;w_HIEROGLYPH;w_A412]);
  (0x145d2, [w_ANATOLIAN;w_HIEROGLYPH;w_A413]);
  (0x145d3, [w_ANATOLIAN;w_HIEROGLYPH;w_A414]);
  (0x145d4, [w_ANATOLIAN;w_HIEROGLYPH;w_A415]);
  (0x145d5, [w_ANATOLIAN;w_HIEROGLYPH;w_A416]);
  (0x145d6, [w_ANATOLIAN;w_HIEROGLYPH;w_A417]);
  (0x145d7, [w_ANATOLIAN;w_HIEROGLYPH;w_A418]);
  (0x145d8, [w_ANATOLIAN;w_HIEROGLYPH;w_A419]);
  (0x145d9, [w_ANATOLIAN;w_HIEROGLYPH;w_A420]);
  (0x145da, [w_ANATOLIAN;w_HIEROGLYPH;w_A421]);
  (0x145db, [w_ANATOLIAN;w_HIEROGLYPH;w_A422]);
  (0x145dc, [w_ANATOLIAN;w_HIEROGLYPH;w_A423]);
  (0x145dd, [w_ANATOLIAN;w_HIEROGLYPH;w_A424]);
  (0x145de, [w_ANATOLIAN;w_HIEROGLYPH;w_A425]);
  (0x145df, [w_ANATOLIAN;w_HIEROGLYPH;w_A426]);
  (0x145e0, [w_ANATOLIAN;w_HIEROGLYPH;w_A427]);
  (0x145e1, [w_ANATOLIAN;w_HIEROGLYPH;w_A428]);
  (0x145e2, [w_ANATOLIAN;w_HIEROGLYPH;w_A429]);
  (0x145e3, [w_ANATOLIAN;w_HIEROGLYPH;w_A430]);
  (0x145e4, [w_ANATOLIAN;w_HIEROGLYPH;w_A431]);
  (0x145e5, [w_ANATOLIAN;w_HIEROGLYPH;w_A432]);
  (0x145e6, [w_ANATOLIAN;w_HIEROGLYPH;w_A433]);
  (0x145e7, [w_ANATOLIAN;w_HIEROGLYPH;w_A434]);
  (0x145e8, [w_ANATOLIAN;w_HIEROGLYPH;w_A435]);
  (0x145e9, [w_ANATOLIAN;w_HIEROGLYPH;w_A436]);
  (0x145ea, [w_ANATOLIAN;w_HIEROGLYPH;w_A437]);
  (0x145eb, [w_ANATOLIAN;w_HIEROGLYPH;w_A438]);
  (0x145ec, [w_ANATOLIAN;w_HIEROGLYPH;w_A439]);
  (0x145ed, [w_ANATOLIAN;w_HIEROGLYPH;w_A440]);
  (0x145ee, [w_ANATOLIAN;w_HIEROGLYPH;w_A441]);
  (0x145ef, [w_ANATOLIAN;w_HIEROGLYPH;w_A442]);
  (0x145f0, [w_ANATOLIAN;w_HIEROGLYPH;w_A443]);
  (0x145f1, [w_ANATOLIAN;w_HIEROGLYPH;w_A444]);
  (0x145f2, [w_ANATOLIAN;w_HIEROGLYPH;w_A445]);
  (0x145f3, [w_ANATOLIAN;w_HIEROGLYPH;w_A446]);
  (0x145f4, [w_ANATOLIAN;w_HIEROGLYPH;w_A447]);
  (0x145f5, [w_ANATOLIAN;w_HIEROGLYPH;w_A448]);
  (0x145f6, [w_ANATOLIAN;w_HIEROGLYPH;w_A449]);
  (0x145f7, [w_ANATOLIAN;w_HIEROGLYPH;w_A450]);
  (0x145f8, [w_ANATOLIAN;w_HIEROGLYPH;w_A450A]);
  (0x145f9, [w_ANATOLIAN;w_HIEROGLYPH;w_A451]);
  (0x145fa, [w_ANATOLIAN;w_HIEROGLYPH;w_A452]);
  (0x145fb, [w_ANATOLIAN;w_HIEROGLYPH;w_A453]);
  (0x145fc, [w_ANATOLIAN;w_HIEROGLYPH;w_A454]);
  (0x145fd, [w_ANATOLIAN;w_HIEROGLYPH;w_A455]);
  (0x145fe, [w_ANATOLIAN;w_HIEROGLYPH;w_A456]);
  (0x145ff, [w_ANATOLIAN;w_HIEROGLYPH;w_A457]);
  (0x14600, [w_ANATOLIAN;w_HIEROGLYPH;w_A457A]);
  (0x14601, [w_ANATOLIAN;w_HIEROGLYPH;w_A458]);
  (0x14602, [w_ANATOLIAN;w_HIEROGLYPH;w_A459]);
  (0x14603, [w_ANATOLIAN;w_HIEROGLYPH;w_A460]);
  (0x14604, [w_ANATOLIAN;w_HIEROGLYPH;w_A461]);
  (0x14605, [w_ANATOLIAN;w_HIEROGLYPH;w_A462]);
  (0x14606, [w_ANATOLIAN;w_HIEROGLYPH;w_A463]);
  (0x14607, [w_ANATOLIAN;w_HIEROGLYPH;w_A464]);
  (0x14608, [w_ANATOLIAN;w_HIEROGLYPH;w_A465]);
  (0x14609, [w_ANATOLIAN;w_HIEROGLYPH;w_A466]);
  (0x1460a, [w_ANATOLIAN;w_HIEROGLYPH;w_A467]);
  (0x1460b, [w_ANATOLIAN;w_HIEROGLYPH;w_A468]);
  (0x1460c, [w_ANATOLIAN;w_HIEROGLYPH;w_A469]);
  (0x1460d, [w_ANATOLIAN;w_HIEROGLYPH;w_A470]);
  (0x1460e, [w_ANATOLIAN;w_HIEROGLYPH;w_A471]);
  (0x1460f, [w_ANATOLIAN;w_HIEROGLYPH;w_A472]);
  (0x14610, [w_ANATOLIAN;w_HIEROGLYPH;w_A473]);
  (0x14611, [w_ANATOLIAN;w_HIEROGLYPH;w_A474]);
  (0x14612, [w_ANATOLIAN;w_HIEROGLYPH;w_A475]);
  (0x14613, [w_ANATOLIAN;w_HIEROGLYPH;w_A476]);
  (0x14614, [w_ANATOLIAN;w_HIEROGLYPH;w_A477]);
  (0x14615, [w_ANATOLIAN;w_HIEROGLYPH;w_A478]);
  (0x14616, [w_ANATOLIAN;w_HIEROGLYPH;w_A479]);
  (0x14617, [w_ANATOLIAN;w_HIEROGLYPH;w_A480]);
  (0x14618, [w_ANATOLIAN;w_HIEROGLYPH;w_A481]);
  (0x14619, [w_ANATOLIAN;w_HIEROGLYPH;w_A482]);
  (0x1461a, [w_ANATOLIAN;w_HIEROGLYPH;w_A483]);
  (0x1461b, [w_ANATOLIAN;w_HIEROGLYPH;w_A484]);
  (0x1461c, [w_ANATOLIAN;w_HIEROGLYPH;w_A485]);
  (0x1461d, [w_ANATOLIAN;w_HIEROGLYPH;w_A486]);
  (0x1461e, [w_ANATOLIAN;w_HIEROGLYPH;w_A487]);
  (0x1461f, [w_ANATOLIAN;w_HIEROGLYPH;w_A488]);
  (0x14620, [w_ANATOLIAN;w_HIEROGLYPH;w_A489]);
  (0x14621, [w_ANATOLIAN;w_HIEROGLYPH;w_A490]);
  (0x14622, [w_ANATOLIAN;w_HIEROGLYPH;w_A491]);
  (0x14623, [w_ANATOLIAN;w_HIEROGLYPH;w_A492]);
  (0x14624, [w_ANATOLIAN;w_HIEROGLYPH;w_A493]);
  (0x14625, [w_ANATOLIAN;w_HIEROGLYPH;w_A494]);
  (0x14626, [w_ANATOLIAN;w_HIEROGLYPH;w_A495]);
  (0x14627, [w_ANATOLIAN;w_HIEROGLYPH;w_A496]);
  (0x14628, [w_ANATOLIAN;w_HIEROGLYPH;w_A497]);
  (0x14629, [w_ANATOLIAN;w_HIEROGLYPH;w_A501]);
  (0x1462a, [w_ANATOLIAN;w_HIEROGLYPH;w_A502]);
  (0x1462b, [w_ANATOLIAN;w_HIEROGLYPH;w_A503]);
  (0x1462c, [w_ANATOLIAN;w_HIEROGLYPH;w_A504]);
  (0x1462d, [w_ANATOLIAN;w_HIEROGLYPH;w_A505]);
  (0x1462e, [w_ANATOLIAN;w_HIEROGLYPH;w_A506]);
  (0x1462f, [w_ANATOLIAN;w_HIEROGLYPH;w_A507]);
  (0x14630, [w_ANATOLIAN;w_HIEROGLYPH;w_A508]);
  (0x14631, [w_ANATOLIAN;w_HIEROGLYPH;w_A509]);
  (0x14632, [w_ANATOLIAN;w_HIEROGLYPH;w_A510]);
  (0x14633, [w_ANATOLIAN;w_HIEROGLYPH;w_A511]);
  (0x14634, [w_ANATOLIAN;w_HIEROGLYPH;w_A512]);
  (0x14635, [w_ANATOLIAN;w_HIEROGLYPH;w_A513]);
  (0x14636, [w_ANATOLIAN;w_HIEROGLYPH;w_A514]);
  (0x14637, [w_ANATOLIAN;w_HIEROGLYPH;w_A515]);
  (0x14638, [w_ANATOLIAN;w_HIEROGLYPH;w_A516]);
  (0x14639, [w_ANATOLIAN;w_HIEROGLYPH;w_A517]);
  (0x1463a, [w_ANATOLIAN;w_HIEROGLYPH;w_A518]);
  (0x1463b, [w_ANATOLIAN;w_HIEROGLYPH;w_A519]);
  (0x1463c, [w_ANATOLIAN;w_HIEROGLYPH;w_A520]);
  (0x1463d, [w_ANATOLIAN;w_HIEROGLYPH;w_A521]);
  (0x1463e, [w_ANATOLIAN;w_HIEROGLYPH;w_A522]);
  (0x1463f, [w_ANATOLIAN;w_HIEROGLYPH;w_A523]);
  (0x14640, [w_ANATOLIAN;w_HIEROGLYPH;w_A524]);
  (0x14641, [w_ANATOLIAN;w_HIEROGLYPH;w_A525]);
  (0x14642, [w_ANATOLIAN;w_HIEROGLYPH;w_A526]);
  (0x14643, [w_ANATOLIAN;w_HIEROGLYPH;w_A527]);
  (0x14644, [w_ANATOLIAN;w_HIEROGLYPH;w_A528]);
  (0x14645, [w_ANATOLIAN;w_HIEROGLYPH;w_A529]);
  (0x14646, [w_ANATOLIAN;w_HIEROGLYPH;w_A530]);
  (0x16800, [w_BAMUM;w_LETTER;w_PHASE_A;w_NGKUE;w_MFON]);
  (0x16801, [w_BAMUM;w_LETTER;w_PHASE_A;w_GBIEE;w_FON]);
  (0x16802, [w_BAMUM;w_LETTER;w_PHASE_A;w_PON;w_MFON;w_PIPAEMGBIEE]);
  (0x16803, [w_BAMUM;w_LETTER;w_PHASE_A;w_PON;w_MFON;w_PIPAEMBA]);
  (0x16804, [w_BAMUM;w_LETTER;w_PHASE_A;w_NAA;w_MFON]);
  (0x16805, [w_BAMUM;w_LETTER;w_PHASE_A;w_SHUENSHUET]);
  (0x16806, [w_BAMUM;w_LETTER;w_PHASE_A;w_TITA;w_MFON]);
  (0x16807, [w_BAMUM;w_LETTER;w_PHASE_A;w_NZA;w_MFON]);
  (0x16808, [w_BAMUM;w_LETTER;w_PHASE_A;w_SHINDA;w_PA;w_NJI]);
  (0x16809, [w_BAMUM;w_LETTER;w_PHASE_A;w_PON;w_PA;w_NJI;w_PIPAEMGBIEE]);
  (0x1680a, [w_BAMUM;w_LETTER;w_PHASE_A;w_PON;w_PA;w_NJI;w_PIPAEMBA]);
  (0x1680b, [w_BAMUM;w_LETTER;w_PHASE_A;w_MAEMBGBIEE]);
  (0x1680c, [w_BAMUM;w_LETTER;w_PHASE_A;w_TU;w_MAEMBA]);
  (0x1680d, [w_BAMUM;w_LETTER;w_PHASE_A;w_NGANGU]);
  (0x1680e, [w_BAMUM;w_LETTER;w_PHASE_A;w_MAEMVEUX]);
  (0x1680f, [w_BAMUM;w_LETTER;w_PHASE_A;w_MANSUAE]);
  (0x16810, [w_BAMUM;w_LETTER;w_PHASE_A;w_MVEUAENGAM]);
  (0x16811, [w_BAMUM;w_LETTER;w_PHASE_A;w_SEUNYAM]);
  (0x16812, [w_BAMUM;w_LETTER;w_PHASE_A;w_NTOQPEN]);
  (0x16813, [w_BAMUM;w_LETTER;w_PHASE_A;w_KEUKEUTNDA]);
  (0x16814, [w_BAMUM;w_LETTER;w_PHASE_A;w_NKINDI]);
  (0x16815, [w_BAMUM;w_LETTER;w_PHASE_A;w_SUU]);
  (0x16816, [w_BAMUM;w_LETTER;w_PHASE_A;w_NGKUENZEUM]);
  (0x16817, [w_BAMUM;w_LETTER;w_PHASE_A;w_LAPAQ]);
  (0x16818, [w_BAMUM;w_LETTER;w_PHASE_A;w_LET;w_KUT]);
  (0x16819, [w_BAMUM;w_LETTER;w_PHASE_A;w_NTAP;w_MFAA]);
  (0x1681a, [w_BAMUM;w_LETTER;w_PHASE_A;w_MAEKEUP]);
  (0x1681b, [w_BAMUM;w_LETTER;w_PHASE_A;w_PASHAE]);
  (0x1681c, [w_BAMUM;w_LETTER;w_PHASE_A;w_GHEUAERAE]);
  (0x1681d, [w_BAMUM;w_LETTER;w_PHASE_A;w_PAMSHAE]);
  (0x1681e, [w_BAMUM;w_LETTER;w_PHASE_A;w_MON;w_NGGEUAET]);
  (0x1681f, [w_BAMUM;w_LETTER;w_PHASE_A;w_NZUN;w_MEUT]);
  (0x16820, [w_BAMUM;w_LETTER;w_PHASE_A;w_U;w_YUQ;w_NAE]);
  (0x16821, [w_BAMUM;w_LETTER;w_PHASE_A;w_GHEUAEGHEUAE]);
  (0x16822, [w_BAMUM;w_LETTER;w_PHASE_A;w_NTAP;w_NTAA]);
  (0x16823, [w_BAMUM;w_LETTER;w_PHASE_A;w_SISA]);
  (0x16824, [w_BAMUM;w_LETTER;w_PHASE_A;w_MGBASA]);
  (0x16825, [w_BAMUM;w_LETTER;w_PHASE_A;w_MEUNJOMNDEUQ]);
  (0x16826, [w_BAMUM;w_LETTER;w_PHASE_A;w_MOOMPUQ]);
  (0x16827, [w_BAMUM;w_LETTER;w_PHASE_A;w_KAFA]);
  (0x16828, [w_BAMUM;w_LETTER;w_PHASE_A;w_PA;w_LEERAEWA]);
  (0x16829, [w_BAMUM;w_LETTER;w_PHASE_A;w_NDA;w_LEERAEWA]);
  (0x1682a, [w_BAMUM;w_LETTER;w_PHASE_A;w_PET]);
  (0x1682b, [w_BAMUM;w_LETTER;w_PHASE_A;w_MAEMKPEN]);
  (0x1682c, [w_BAMUM;w_LETTER;w_PHASE_A;w_NIKA]);
  (0x1682d, [w_BAMUM;w_LETTER;w_PHASE_A;w_PUP]);
  (0x1682e, [w_BAMUM;w_LETTER;w_PHASE_A;w_TUAEP]);
  (0x1682f, [w_BAMUM;w_LETTER;w_PHASE_A;w_LUAEP]);
  (0x16830, [w_BAMUM;w_LETTER;w_PHASE_A;w_SONJAM]);
  (0x16831, [w_BAMUM;w_LETTER;w_PHASE_A;w_TEUTEUWEN]);
  (0x16832, [w_BAMUM;w_LETTER;w_PHASE_A;w_MAENYI]);
  (0x16833, [w_BAMUM;w_LETTER;w_PHASE_A;w_KET]);
  (0x16834, [w_BAMUM;w_LETTER;w_PHASE_A;w_NDAANGGEUAET]);
  (0x16835, [w_BAMUM;w_LETTER;w_PHASE_A;w_KUOQ]);
  (0x16836, [w_BAMUM;w_LETTER;w_PHASE_A;w_MOOMEUT]);
  (0x16837, [w_BAMUM;w_LETTER;w_PHASE_A;w_SHUM]);
  (0x16838, [w_BAMUM;w_LETTER;w_PHASE_A;w_LOMMAE]);
  (0x16839, [w_BAMUM;w_LETTER;w_PHASE_A;w_FIRI]);
  (0x1683a, [w_BAMUM;w_LETTER;w_PHASE_A;w_ROM]);
  (0x1683b, [w_BAMUM;w_LETTER;w_PHASE_A;w_KPOQ]);
  (0x1683c, [w_BAMUM;w_LETTER;w_PHASE_A;w_SOQ]);
  (0x1683d, [w_BAMUM;w_LETTER;w_PHASE_A;w_MAP;w_PIEET]);
  (0x1683e, [w_BAMUM;w_LETTER;w_PHASE_A;w_SHIRAE]);
  (0x1683f, [w_BAMUM;w_LETTER;w_PHASE_A;w_NTAP]);
  (0x16840, [w_BAMUM;w_LETTER;w_PHASE_A;w_SHOQ;w_NSHUT;w_YUM]);
  (0x16841, [w_BAMUM;w_LETTER;w_PHASE_A;w_NYIT;w_MONGKEUAEQ]);
  (0x16842, [w_BAMUM;w_LETTER;w_PHASE_A;w_PAARAE]);
  (0x16843, [w_BAMUM;w_LETTER;w_PHASE_A;w_NKAARAE]);
  (0x16844, [w_BAMUM;w_LETTER;w_PHASE_A;w_UNKNOWN]);
  (0x16845, [w_BAMUM;w_LETTER;w_PHASE_A;w_NGGEN]);
  (0x16846, [w_BAMUM;w_LETTER;w_PHASE_A;w_MAESI]);
  (0x16847, [w_BAMUM;w_LETTER;w_PHASE_A;w_NJAM]);
  (0x16848, [w_BAMUM;w_LETTER;w_PHASE_A;w_MBANYI]);
  (0x16849, [w_BAMUM;w_LETTER;w_PHASE_A;w_NYET]);
  (0x1684a, [w_BAMUM;w_LETTER;w_PHASE_A;w_TEUAEN]);
  (0x1684b, [w_BAMUM;w_LETTER;w_PHASE_A;w_SOT]);
  (0x1684c, [w_BAMUM;w_LETTER;w_PHASE_A;w_PAAM]);
  (0x1684d, [w_BAMUM;w_LETTER;w_PHASE_A;w_NSHIEE]);
  (0x1684e, [w_BAMUM;w_LETTER;w_PHASE_A;w_MAEM]);
  (0x1684f, [w_BAMUM;w_LETTER;w_PHASE_A;w_NYI]);
  (0x16850, [w_BAMUM;w_LETTER;w_PHASE_A;w_KAQ]);
  (0x16851, [w_BAMUM;w_LETTER;w_PHASE_A;w_NSHA]);
  (0x16852, [w_BAMUM;w_LETTER;w_PHASE_A;w_VEE]);
  (0x16853, [w_BAMUM;w_LETTER;w_PHASE_A;w_LU]);
  (0x16854, [w_BAMUM;w_LETTER;w_PHASE_A;w_NEN]);
  (0x16855, [w_BAMUM;w_LETTER;w_PHASE_A;w_NAQ]);
  (0x16856, [w_BAMUM;w_LETTER;w_PHASE_A;w_MBAQ]);
  (0x16857, [w_BAMUM;w_LETTER;w_PHASE_B;w_NSHUET]);
  (0x16858, [w_BAMUM;w_LETTER;w_PHASE_B;w_TU;w_MAEMGBIEE]);
  (0x16859, [w_BAMUM;w_LETTER;w_PHASE_B;w_SIEE]);
  (0x1685a, [w_BAMUM;w_LETTER;w_PHASE_B;w_SET;w_TU]);
  (0x1685b, [w_BAMUM;w_LETTER;w_PHASE_B;w_LOM;w_NTEUM]);
  (0x1685c, [w_BAMUM;w_LETTER;w_PHASE_B;w_MBA;w_MAELEE]);
  (0x1685d, [w_BAMUM;w_LETTER;w_PHASE_B;w_KIEEM]);
  (0x1685e, [w_BAMUM;w_LETTER;w_PHASE_B;w_YEURAE]);
  (0x1685f, [w_BAMUM;w_LETTER;w_PHASE_B;w_MBAARAE]);
  (0x16860, [w_BAMUM;w_LETTER;w_PHASE_B;w_KAM]);
  (0x16861, [w_BAMUM;w_LETTER;w_PHASE_B;w_PEESHI]);
  (0x16862, [w_BAMUM;w_LETTER;w_PHASE_B;w_YAFU;w_LEERAEWA]);
  (0x16863, [w_BAMUM;w_LETTER;w_PHASE_B;w_LAM;w_NSHUT;w_NYAM]);
  (0x16864, [w_BAMUM;w_LETTER;w_PHASE_B;w_NTIEE;w_SHEUOQ]);
  (0x16865, [w_BAMUM;w_LETTER;w_PHASE_B;w_NDU;w_NJAA]);
  (0x16866, [w_BAMUM;w_LETTER;w_PHASE_B;w_GHEUGHEUAEM]);
  (0x16867, [w_BAMUM;w_LETTER;w_PHASE_B;w_PIT]);
  (0x16868, [w_BAMUM;w_LETTER;w_PHASE_B;w_TU;w_NSIEE]);
  (0x16869, [w_BAMUM;w_LETTER;w_PHASE_B;w_SHET;w_NJAQ]);
  (0x1686a, [w_BAMUM;w_LETTER;w_PHASE_B;w_SHEUAEQTU]);
  (0x1686b, [w_BAMUM;w_LETTER;w_PHASE_B;w_MFON;w_TEUAEQ]);
  (0x1686c, [w_BAMUM;w_LETTER;w_PHASE_B;w_MBIT;w_MBAAKET]);
  (0x1686d, [w_BAMUM;w_LETTER;w_PHASE_B;w_NYI;w_NTEUM]);
  (0x1686e, [w_BAMUM;w_LETTER;w_PHASE_B;w_KEUPUQ]);
  (0x1686f, [w_BAMUM;w_LETTER;w_PHASE_B;w_GHEUGHEN]);
  (0x16870, [w_BAMUM;w_LETTER;w_PHASE_B;w_KEUYEUX]);
  (0x16871, [w_BAMUM;w_LETTER;w_PHASE_B;w_LAANAE]);
  (0x16872, [w_BAMUM;w_LETTER;w_PHASE_B;w_PARUM]);
  (0x16873, [w_BAMUM;w_LETTER;w_PHASE_B;w_VEUM]);
  (0x16874, [w_BAMUM;w_LETTER;w_PHASE_B;w_NGKINDI;w_MVOP]);
  (0x16875, [w_BAMUM;w_LETTER;w_PHASE_B;w_NGGEU;w_MBU]);
  (0x16876, [w_BAMUM;w_LETTER;w_PHASE_B;w_WUAET]);
  (0x16877, [w_BAMUM;w_LETTER;w_PHASE_B;w_SAKEUAE]);
  (0x16878, [w_BAMUM;w_LETTER;w_PHASE_B;w_TAAM]);
  (0x16879, [w_BAMUM;w_LETTER;w_PHASE_B;w_MEUQ]);
  (0x1687a, [w_BAMUM;w_LETTER;w_PHASE_B;w_NGGUOQ]);
  (0x1687b, [w_BAMUM;w_LETTER;w_PHASE_B;w_NGGUOQ;w_LARGE]);
  (0x1687c, [w_BAMUM;w_LETTER;w_PHASE_B;w_MFIYAQ]);
  (0x1687d, [w_BAMUM;w_LETTER;w_PHASE_B;w_SUE]);
  (0x1687e, [w_BAMUM;w_LETTER;w_PHASE_B;w_MBEURI]);
  (0x1687f, [w_BAMUM;w_LETTER;w_PHASE_B;w_MONTIEEN]);
  (0x16880, [w_BAMUM;w_LETTER;w_PHASE_B;w_NYAEMAE]);
  (0x16881, [w_BAMUM;w_LETTER;w_PHASE_B;w_PUNGAAM]);
  (0x16882, [w_BAMUM;w_LETTER;w_PHASE_B;w_MEUT;w_NGGEET]);
  (0x16883, [w_BAMUM;w_LETTER;w_PHASE_B;w_FEUX]);
  (0x16884, [w_BAMUM;w_LETTER;w_PHASE_B;w_MBUOQ]);
  (0x16885, [w_BAMUM;w_LETTER;w_PHASE_B;w_FEE]);
  (0x16886, [w_BAMUM;w_LETTER;w_PHASE_B;w_KEUAEM]);
  (0x16887, [w_BAMUM;w_LETTER;w_PHASE_B;w_MA;w_NJEUAENA]);
  (0x16888, [w_BAMUM;w_LETTER;w_PHASE_B;w_MA;w_NJUQA]);
  (0x16889, [w_BAMUM;w_LETTER;w_PHASE_B;w_LET]);
  (0x1688a, [w_BAMUM;w_LETTER;w_PHASE_B;w_NGGAAM]);
  (0x1688b, [w_BAMUM;w_LETTER;w_PHASE_B;w_NSEN]);
  (0x1688c, [w_BAMUM;w_LETTER;w_PHASE_B;w_MA]);
  (0x1688d, [w_BAMUM;w_LETTER;w_PHASE_B;w_KIQ]);
  (0x1688e, [w_BAMUM;w_LETTER;w_PHASE_B;w_NGOM]);
  (0x1688f, [w_BAMUM;w_LETTER;w_PHASE_C;w_NGKUE;w_MAEMBA]);
  (0x16890, [w_BAMUM;w_LETTER;w_PHASE_C;w_NZA]);
  (0x16891, [w_BAMUM;w_LETTER;w_PHASE_C;w_YUM]);
  (0x16892, [w_BAMUM;w_LETTER;w_PHASE_C;w_WANGKUOQ]);
  (0x16893, [w_BAMUM;w_LETTER;w_PHASE_C;w_NGGEN]);
  (0x16894, [w_BAMUM;w_LETTER;w_PHASE_C;w_NDEUAEREE]);
  (0x16895, [w_BAMUM;w_LETTER;w_PHASE_C;w_NGKAQ]);
  (0x16896, [w_BAMUM;w_LETTER;w_PHASE_C;w_GHARAE]);
  (0x16897, [w_BAMUM;w_LETTER;w_PHASE_C;w_MBEEKEET]);
  (0x16898, [w_BAMUM;w_LETTER;w_PHASE_C;w_GBAYI]);
  (0x16899, [w_BAMUM;w_LETTER;w_PHASE_C;w_NYIR;w_MKPARAQ;w_MEUN]);
  (0x1689a, [w_BAMUM;w_LETTER;w_PHASE_C;w_NTU;w_MBIT]);
  (0x1689b, [w_BAMUM;w_LETTER;w_PHASE_C;w_MBEUM]);
  (0x1689c, [w_BAMUM;w_LETTER;w_PHASE_C;w_PIRIEEN]);
  (0x1689d, [w_BAMUM;w_LETTER;w_PHASE_C;w_NDOMBU]);
  (0x1689e, [w_BAMUM;w_LETTER;w_PHASE_C;w_MBAA;w_CABBAGE_TREE]);
  (0x1689f, [w_BAMUM;w_LETTER;w_PHASE_C;w_KEUSHEUAEP]);
  (0x168a0, [w_BAMUM;w_LETTER;w_PHASE_C;w_GHAP]);
  (0x168a1, [w_BAMUM;w_LETTER;w_PHASE_C;w_KEUKAQ]);
  (0x168a2, [w_BAMUM;w_LETTER;w_PHASE_C;w_YU;w_MUOMAE]);
  (0x168a3, [w_BAMUM;w_LETTER;w_PHASE_C;w_NZEUM]);
  (0x168a4, [w_BAMUM;w_LETTER;w_PHASE_C;w_MBUE]);
  (0x168a5, [w_BAMUM;w_LETTER;w_PHASE_C;w_NSEUAEN]);
  (0x168a6, [w_BAMUM;w_LETTER;w_PHASE_C;w_MBIT]);
  (0x168a7, [w_BAMUM;w_LETTER;w_PHASE_C;w_YEUQ]);
  (0x168a8, [w_BAMUM;w_LETTER;w_PHASE_C;w_KPARAQ]);
  (0x168a9, [w_BAMUM;w_LETTER;w_PHASE_C;w_KAA]);
  (0x168aa, [w_BAMUM;w_LETTER;w_PHASE_C;w_SEUX]);
  (0x168ab, [w_BAMUM;w_LETTER;w_PHASE_C;w_NDIDA]);
  (0x168ac, [w_BAMUM;w_LETTER;w_PHASE_C;w_TAASHAE]);
  (0x168ad, [w_BAMUM;w_LETTER;w_PHASE_C;w_NJUEQ]);
  (0x168ae, [w_BAMUM;w_LETTER;w_PHASE_C;w_TITA;w_YUE]);
  (0x168af, [w_BAMUM;w_LETTER;w_PHASE_C;w_SUAET]);
  (0x168b0, [w_BAMUM;w_LETTER;w_PHASE_C;w_NGGUAEN;w_NYAM]);
  (0x168b1, [w_BAMUM;w_LETTER;w_PHASE_C;w_VEUX]);
  (0x168b2, [w_BAMUM;w_LETTER;w_PHASE_C;w_NANSANAQ]);
  (0x168b3, [w_BAMUM;w_LETTER;w_PHASE_C;w_MA;w_KEUAERI]);
  (0x168b4, [w_BAMUM;w_LETTER;w_PHASE_C;w_NTAA]);
  (0x168b5, [w_BAMUM;w_LETTER;w_PHASE_C;w_NGGUON]);
  (0x168b6, [w_BAMUM;w_LETTER;w_PHASE_C;w_LAP]);
  (0x168b7, [w_BAMUM;w_LETTER;w_PHASE_C;w_MBIRIEEN]);
  (0x168b8, [w_BAMUM;w_LETTER;w_PHASE_C;w_MGBASAQ]);
  (0x168b9, [w_BAMUM;w_LETTER;w_PHASE_C;w_NTEUNGBA]);
  (0x168ba, [w_BAMUM;w_LETTER;w_PHASE_C;w_TEUTEUX]);
  (0x168bb, [w_BAMUM;w_LETTER;w_PHASE_C;w_NGGUM]);
  (0x168bc, [w_BAMUM;w_LETTER;w_PHASE_C;w_FUE]);
  (0x168bd, [w_BAMUM;w_LETTER;w_PHASE_C;w_NDEUT]);
  (0x168be, [w_BAMUM;w_LETTER;w_PHASE_C;w_NSA]);
  (0x168bf, [w_BAMUM;w_LETTER;w_PHASE_C;w_NSHAQ]);
  (0x168c0, [w_BAMUM;w_LETTER;w_PHASE_C;w_BUNG]);
  (0x168c1, [w_BAMUM;w_LETTER;w_PHASE_C;w_VEUAEPEN]);
  (0x168c2, [w_BAMUM;w_LETTER;w_PHASE_C;w_MBERAE]);
  (0x168c3, [w_BAMUM;w_LETTER;w_PHASE_C;w_RU]);
  (0x168c4, [w_BAMUM;w_LETTER;w_PHASE_C;w_NJAEM]);
  (0x168c5, [w_BAMUM;w_LETTER;w_PHASE_C;w_LAM]);
  (0x168c6, [w_BAMUM;w_LETTER;w_PHASE_C;w_TITUAEP]);
  (0x168c7, [w_BAMUM;w_LETTER;w_PHASE_C;w_NSUOT;w_NGOM]);
  (0x168c8, [w_BAMUM;w_LETTER;w_PHASE_C;w_NJEEEE]);
  (0x168c9, [w_BAMUM;w_LETTER;w_PHASE_C;w_KET]);
  (0x168ca, [w_BAMUM;w_LETTER;w_PHASE_C;w_NGGU]);
  (0x168cb, [w_BAMUM;w_LETTER;w_PHASE_C;w_MAESI]);
  (0x168cc, [w_BAMUM;w_LETTER;w_PHASE_C;w_MBUAEM]);
  (0x168cd, [w_BAMUM;w_LETTER;w_PHASE_C;w_LU]);
  (0x168ce, [w_BAMUM;w_LETTER;w_PHASE_C;w_KUT]);
  (0x168cf, [w_BAMUM;w_LETTER;w_PHASE_C;w_NJAM]);
  (0x168d0, [w_BAMUM;w_LETTER;w_PHASE_C;w_NGOM]);
  (0x168d1, [w_BAMUM;w_LETTER;w_PHASE_C;w_WUP]);
  (0x168d2, [w_BAMUM;w_LETTER;w_PHASE_C;w_NGGUEET]);
  (0x168d3, [w_BAMUM;w_LETTER;w_PHASE_C;w_NSOM]);
  (0x168d4, [w_BAMUM;w_LETTER;w_PHASE_C;w_NTEN]);
  (0x168d5, [w_BAMUM;w_LETTER;w_PHASE_C;w_KUOP;w_NKAARAE]);
  (0x168d6, [w_BAMUM;w_LETTER;w_PHASE_C;w_NSUN]);
  (0x168d7, [w_BAMUM;w_LETTER;w_PHASE_C;w_NDAM]);
  (0x168d8, [w_BAMUM;w_LETTER;w_PHASE_C;w_MA;w_NSIEE]);
  (0x168d9, [w_BAMUM;w_LETTER;w_PHASE_C;w_YAA]);
  (0x168da, [w_BAMUM;w_LETTER;w_PHASE_C;w_NDAP]);
  (0x168db, [w_BAMUM;w_LETTER;w_PHASE_C;w_SHUEQ]);
  (0x168dc, [w_BAMUM;w_LETTER;w_PHASE_C;w_SETFON]);
  (0x168dd, [w_BAMUM;w_LETTER;w_PHASE_C;w_MBI]);
  (0x168de, [w_BAMUM;w_LETTER;w_PHASE_C;w_MAEMBA]);
  (0x168df, [w_BAMUM;w_LETTER;w_PHASE_C;w_MBANYI]);
  (0x168e0, [w_BAMUM;w_LETTER;w_PHASE_C;w_KEUSEUX]);
  (0x168e1, [w_BAMUM;w_LETTER;w_PHASE_C;w_MBEUX]);
  (0x168e2, [w_BAMUM;w_LETTER;w_PHASE_C;w_KEUM]);
  (0x168e3, [w_BAMUM;w_LETTER;w_PHASE_C;w_MBAA;w_PICKET]);
  (0x168e4, [w_BAMUM;w_LETTER;w_PHASE_C;w_YUWOQ]);
  (0x168e5, [w_BAMUM;w_LETTER;w_PHASE_C;w_NJEUX]);
  (0x168e6, [w_BAMUM;w_LETTER;w_PHASE_C;w_MIEE]);
  (0x168e7, [w_BAMUM;w_LETTER;w_PHASE_C;w_MUAE]);
  (0x168e8, [w_BAMUM;w_LETTER;w_PHASE_C;w_SHIQ])].

Definition NAMES_59 : list (N * (list str)) := [
  (0x168e9, [w_BAMUM;w_LETTER;w_PHASE_C;w_KEN;w_LAW]);
  (0x168ea, [w_BAMUM;w_LETTER;w_PHASE_C;w_KEN;w_FATIGUE]);
  (0x168eb, [w_BAMUM;w_LETTER;w_PHASE_C;w_NGAQ]);
  (0x168ec, [w_BAMUM;w_LETTER;w_PHASE_C;w_NAQ]);
  (0x168ed, [w_BAMUM;w_LETTER;w_PHASE_C;w_LIQ]);
  (0x168ee, [w_BAMUM;w_LETTER;w_PHASE_C;w_PIN]);
  (0x168ef, [w_BAMUM;w_LETTER;w_PHASE_C;w_PEN]);
  (0x168f0, [w_BAMUM;w_LETTER;w_PHASE_C;w_TET]);
  (0x168f1, [w_BAMUM;w_LETTER;w_PHASE_D;w_MBUO]);
  (0x168f2, [w_BAMUM;w_LETTER;w_PHASE_D;w_WAP]);
  (0x168f3, [w_BAMUM;w_LETTER;w_PHASE_D;w_NJI]);
  (0x168f4, [w_BAMUM;w_LETTER;w_PHASE_D;w_MFON]);
  (0x168f5, [w_BAMUM;w_LETTER;w_PHASE_D;w_NJIEE]);
  (0x168f6, [w_BAMUM;w_LETTER;w_PHASE_D;w_LIEE]);
  (0x168f7, [w_BAMUM;w_LETTER;w_PHASE_D;w_NJEUT]);
  (0x168f8, [w_BAMUM;w_LETTER;w_PHASE_D;w_NSHEE]);
  (0x168f9, [w_BAMUM;w_LETTER;w_PHASE_D;w_NGGAAMAE]);
  (0x168fa, [w_BAMUM;w_LETTER;w_PHASE_D;w_NYAM]);
  (0x168fb, [w_BAMUM;w_LETTER;w_PHASE_D;w_WUAEN]);
  (0x168fc, [w_BAMUM;w_LETTER;w_PHASE_D;w_NGKUN]);
  (0x168fd, [w_BAMUM;w_LETTER;w_PHASE_D;w_SHEE]);
  (0x168fe, [w_BAMUM;w_LETTER;w_PHASE_D;w_NGKAP]);
  (0x168ff, [w_BAMUM;w_LETTER;w_PHASE_D;w_KEUAETMEUN]);
  (0x16900, [w_BAMUM;w_LETTER;w_PHASE_D;w_TEUT]);
  (0x16901, [w_BAMUM;w_LETTER;w_PHASE_D;w_SHEUAE]);
  (0x16902, [w_BAMUM;w_LETTER;w_PHASE_D;w_NJAP]);
  (0x16903, [w_BAMUM;w_LETTER;w_PHASE_D;w_SUE]);
  (0x16904, [w_BAMUM;w_LETTER;w_PHASE_D;w_KET]);
  (0x16905, [w_BAMUM;w_LETTER;w_PHASE_D;w_YAEMMAE]);
  (0x16906, [w_BAMUM;w_LETTER;w_PHASE_D;w_KUOM]);
  (0x16907, [w_BAMUM;w_LETTER;w_PHASE_D;w_SAP]);
  (0x16908, [w_BAMUM;w_LETTER;w_PHASE_D;w_MFEUT]);
  (0x16909, [w_BAMUM;w_LETTER;w_PHASE_D;w_NDEUX]);
  (0x1690a, [w_BAMUM;w_LETTER;w_PHASE_D;w_MALEERI]);
  (0x1690b, [w_BAMUM;w_LETTER;w_PHASE_D;w_MEUT]);
  (0x1690c, [w_BAMUM;w_LETTER;w_PHASE_D;w_SEUAEQ]);
  (0x1690d, [w_BAMUM;w_LETTER;w_PHASE_D;w_YEN]);
  (0x1690e, [w_BAMUM;w_LETTER;w_PHASE_D;w_NJEUAEM]);
  (0x1690f, [w_BAMUM;w_LETTER;w_PHASE_D;w_KEUOT;w_MBUAE]);
  (0x16910, [w_BAMUM;w_LETTER;w_PHASE_D;w_NGKEURI]);
  (0x16911, [w_BAMUM;w_LETTER;w_PHASE_D;w_TU]);
  (0x16912, [w_BAMUM;w_LETTER;w_PHASE_D;w_GHAA]);
  (0x16913, [w_BAMUM;w_LETTER;w_PHASE_D;w_NGKYEE]);
  (0x16914, [w_BAMUM;w_LETTER;w_PHASE_D;w_FEUFEUAET]);
  (0x16915, [w_BAMUM;w_LETTER;w_PHASE_D;w_NDEE]);
  (0x16916, [w_BAMUM;w_LETTER;w_PHASE_D;w_MGBOFUM]);
  (0x16917, [w_BAMUM;w_LETTER;w_PHASE_D;w_LEUAEP]);
  (0x16918, [w_BAMUM;w_LETTER;w_PHASE_D;w_NDON]);
  (0x16919, [w_BAMUM;w_LETTER;w_PHASE_D;w_MONI]);
  (0x1691a, [w_BAMUM;w_LETTER;w_PHASE_D;w_MGBEUN]);
  (0x1691b, [w_BAMUM;w_LETTER;w_PHASE_D;w_PUUT]);
  (0x1691c, [w_BAMUM;w_LETTER;w_PHASE_D;w_MGBIEE]);
  (0x1691d, [w_BAMUM;w_LETTER;w_PHASE_D;w_MFO]);
  (0x1691e, [w_BAMUM;w_LETTER;w_PHASE_D;w_LUM]);
  (0x1691f, [w_BAMUM;w_LETTER;w_PHASE_D;w_NSIEEP]);
  (0x16920, [w_BAMUM;w_LETTER;w_PHASE_D;w_MBAA]);
  (0x16921, [w_BAMUM;w_LETTER;w_PHASE_D;w_KWAET]);
  (0x16922, [w_BAMUM;w_LETTER;w_PHASE_D;w_NYET]);
  (0x16923, [w_BAMUM;w_LETTER;w_PHASE_D;w_TEUAEN]);
  (0x16924, [w_BAMUM;w_LETTER;w_PHASE_D;w_SOT]);
  (0x16925, [w_BAMUM;w_LETTER;w_PHASE_D;w_YUWOQ]);
  (0x16926, [w_BAMUM;w_LETTER;w_PHASE_D;w_KEUM]);
  (0x16927, [w_BAMUM;w_LETTER;w_PHASE_D;w_RAEM]);
  (0x16928, [w_BAMUM;w_LETTER;w_PHASE_D;w_TEEEE]);
  (0x16929, [w_BAMUM;w_LETTER;w_PHASE_D;w_NGKEUAEQ]);
  (0x1692a, [w_BAMUM;w_LETTER;w_PHASE_D;w_MFEUAE]);
  (0x1692b, [w_BAMUM;w_LETTER;w_PHASE_D;w_NSIEET]);
  (0x1692c, [w_BAMUM;w_LETTER;w_PHASE_D;w_KEUP]);
  (0x1692d, [w_BAMUM;w_LETTER;w_PHASE_D;w_PIP]);
  (0x1692e, [w_BAMUM;w_LETTER;w_PHASE_D;w_PEUTAE]);
  (0x1692f, [w_BAMUM;w_LETTER;w_PHASE_D;w_NYUE]);
  (0x16930, [w_BAMUM;w_LETTER;w_PHASE_D;w_LET]);
  (0x16931, [w_BAMUM;w_LETTER;w_PHASE_D;w_NGGAAM]);
  (0x16932, [w_BAMUM;w_LETTER;w_PHASE_D;w_MFIEE]);
  (0x16933, [w_BAMUM;w_LETTER;w_PHASE_D;w_NGGWAEN]);
  (0x16934, [w_BAMUM;w_LETTER;w_PHASE_D;w_YUOM]);
  (0x16935, [w_BAMUM;w_LETTER;w_PHASE_D;w_PAP]);
  (0x16936, [w_BAMUM;w_LETTER;w_PHASE_D;w_YUOP]);
  (0x16937, [w_BAMUM;w_LETTER;w_PHASE_D;w_NDAM]);
  (0x16938, [w_BAMUM;w_LETTER;w_PHASE_D;w_NTEUM]);
  (0x16939, [w_BAMUM;w_LETTER;w_PHASE_D;w_SUAE]);
  (0x1693a, [w_BAMUM;w_LETTER;w_PHASE_D;w_KUN]);
  (0x1693b, [w_BAMUM;w_LETTER;w_PHASE_D;w_NGGEUX]);
  (0x1693c, [w_BAMUM;w_LETTER;w_PHASE_D;w_NGKIEE]);
  (0x1693d, [w_BAMUM;w_LETTER;w_PHASE_D;w_TUOT]);
  (0x1693e, [w_BAMUM;w_LETTER;w_PHASE_D;w_MEUN]);
  (0x1693f, [w_BAMUM;w_LETTER;w_PHASE_D;w_KUQ]);
  (0x16940, [w_BAMUM;w_LETTER;w_PHASE_D;w_NSUM]);
  (0x16941, [w_BAMUM;w_LETTER;w_PHASE_D;w_TEUN]);
  (0x16942, [w_BAMUM;w_LETTER;w_PHASE_D;w_MAENJET]);
  (0x16943, [w_BAMUM;w_LETTER;w_PHASE_D;w_NGGAP]);
  (0x16944, [w_BAMUM;w_LETTER;w_PHASE_D;w_LEUM]);
  (0x16945, [w_BAMUM;w_LETTER;w_PHASE_D;w_NGGUOM]);
  (0x16946, [w_BAMUM;w_LETTER;w_PHASE_D;w_NSHUT]);
  (0x16947, [w_BAMUM;w_LETTER;w_PHASE_D;w_NJUEQ]);
  (0x16948, [w_BAMUM;w_LETTER;w_PHASE_D;w_GHEUAE]);
  (0x16949, [w_BAMUM;w_LETTER;w_PHASE_D;w_KU]);
  (0x1694a, [w_BAMUM;w_LETTER;w_PHASE_D;w_REN;w_OLD]);
  (0x1694b, [w_BAMUM;w_LETTER;w_PHASE_D;w_TAE]);
  (0x1694c, [w_BAMUM;w_LETTER;w_PHASE_D;w_TOQ]);
  (0x1694d, [w_BAMUM;w_LETTER;w_PHASE_D;w_NYI]);
  (0x1694e, [w_BAMUM;w_LETTER;w_PHASE_D;w_RII]);
  (0x1694f, [w_BAMUM;w_LETTER;w_PHASE_D;w_LEEEE]);
  (0x16950, [w_BAMUM;w_LETTER;w_PHASE_D;w_MEEEE]);
  (0x16951, [w_BAMUM;w_LETTER;w_PHASE_D;w_M]);
  (0x16952, [w_BAMUM;w_LETTER;w_PHASE_D;w_SUU]);
  (0x16953, [w_BAMUM;w_LETTER;w_PHASE_D;w_MU]);
  (0x16954, [w_BAMUM;w_LETTER;w_PHASE_D;w_SHII]);
  (0x16955, [w_BAMUM;w_LETTER;w_PHASE_D;w_SHEUX]);
  (0x16956, [w_BAMUM;w_LETTER;w_PHASE_D;w_KYEE]);
  (0x16957, [w_BAMUM;w_LETTER;w_PHASE_D;w_NU]);
  (0x16958, [w_BAMUM;w_LETTER;w_PHASE_D;w_SHU]);
  (0x16959, [w_BAMUM;w_LETTER;w_PHASE_D;w_NTEE]);
  (0x1695a, [w_BAMUM;w_LETTER;w_PHASE_D;w_PEE]);
  (0x1695b, [w_BAMUM;w_LETTER;w_PHASE_D;w_NI]);
  (0x1695c, [w_BAMUM;w_LETTER;w_PHASE_D;w_SHOQ]);
  (0x1695d, [w_BAMUM;w_LETTER;w_PHASE_D;w_PUQ]);
  (0x1695e, [w_BAMUM;w_LETTER;w_PHASE_D;w_MVOP]);
  (0x1695f, [w_BAMUM;w_LETTER;w_PHASE_D;w_LOQ]);
  (0x16960, [w_BAMUM;w_LETTER;w_PHASE_D;w_REN;w_MUCH]);
  (0x16961, [w_BAMUM;w_LETTER;w_PHASE_D;w_TI]);
  (0x16962, [w_BAMUM;w_LETTER;w_PHASE_D;w_NTUU]);
  (0x16963, [w_BAMUM;w_LETTER;w_PHASE_D;w_MBAA;w_SEVEN]);
  (0x16964, [w_BAMUM;w_LETTER;w_PHASE_D;w_SAQ]);
  (0x16965, [w_BAMUM;w_LETTER;w_PHASE_D;w_FAA]);
  (0x16966, [w_BAMUM;w_LETTER;w_PHASE_E;w_NDAP]);
  (0x16967, [w_BAMUM;w_LETTER;w_PHASE_E;w_TOON]);
  (0x16968, [w_BAMUM;w_LETTER;w_PHASE_E;w_MBEUM]);
  (0x16969, [w_BAMUM;w_LETTER;w_PHASE_E;w_LAP]);
  (0x1696a, [w_BAMUM;w_LETTER;w_PHASE_E;w_VOM]);
  (0x1696b, [w_BAMUM;w_LETTER;w_PHASE_E;w_LOON]);
  (0x1696c, [w_BAMUM;w_LETTER;w_PHASE_E;w_PAA]);
  (0x1696d, [w_BAMUM;w_LETTER;w_PHASE_E;w_SOM]);
  (0x1696e, [w_BAMUM;w_LETTER;w_PHASE_E;w_RAQ]);
  (0x1696f, [w_BAMUM;w_LETTER;w_PHASE_E;w_NSHUOP]);
  (0x16970, [w_BAMUM;w_LETTER;w_PHASE_E;w_NDUN]);
  (0x16971, [w_BAMUM;w_LETTER;w_PHASE_E;w_PUAE]);
  (0x16972, [w_BAMUM;w_LETTER;w_PHASE_E;w_TAM]);
  (0x16973, [w_BAMUM;w_LETTER;w_PHASE_E;w_NGKA]);
  (0x16974, [w_BAMUM;w_LETTER;w_PHASE_E;w_KPEUX]);
  (0x16975, [w_BAMUM;w_LETTER;w_PHASE_E;w_WUO]);
  (0x16976, [w_BAMUM;w_LETTER;w_PHASE_E;w_SEE]);
  (0x16977, [w_BAMUM;w_LETTER;w_PHASE_E;w_NGGEUAET]);
  (0x16978, [w_BAMUM;w_LETTER;w_PHASE_E;w_PAAM]);
  (0x16979, [w_BAMUM;w_LETTER;w_PHASE_E;w_TOO]);
  (0x1697a, [w_BAMUM;w_LETTER;w_PHASE_E;w_KUOP]);
  (0x1697b, [w_BAMUM;w_LETTER;w_PHASE_E;w_LOM]);
  (0x1697c, [w_BAMUM;w_LETTER;w_PHASE_E;w_NSHIEE]);
  (0x1697d, [w_BAMUM;w_LETTER;w_PHASE_E;w_NGOP]);
  (0x1697e, [w_BAMUM;w_LETTER;w_PHASE_E;w_MAEM]);
  (0x1697f, [w_BAMUM;w_LETTER;w_PHASE_E;w_NGKEUX]);
  (0x16980, [w_BAMUM;w_LETTER;w_PHASE_E;w_NGOQ]);
  (0x16981, [w_BAMUM;w_LETTER;w_PHASE_E;w_NSHUE]);
  (0x16982, [w_BAMUM;w_LETTER;w_PHASE_E;w_RIMGBA]);
  (0x16983, [w_BAMUM;w_LETTER;w_PHASE_E;w_NJEUX]);
  (0x16984, [w_BAMUM;w_LETTER;w_PHASE_E;w_PEEM]);
  (0x16985, [w_BAMUM;w_LETTER;w_PHASE_E;w_SAA]);
  (0x16986, [w_BAMUM;w_LETTER;w_PHASE_E;w_NGGURAE]);
  (0x16987, [w_BAMUM;w_LETTER;w_PHASE_E;w_MGBA]);
  (0x16988, [w_BAMUM;w_LETTER;w_PHASE_E;w_GHEUX]);
  (0x16989, [w_BAMUM;w_LETTER;w_PHASE_E;w_NGKEUAEM]);
  (0x1698a, [w_BAMUM;w_LETTER;w_PHASE_E;w_NJAEMLI]);
  (0x1698b, [w_BAMUM;w_LETTER;w_PHASE_E;w_MAP]);
  (0x1698c, [w_BAMUM;w_LETTER;w_PHASE_E;w_LOOT]);
  (0x1698d, [w_BAMUM;w_LETTER;w_PHASE_E;w_NGGEEEE]);
  (0x1698e, [w_BAMUM;w_LETTER;w_PHASE_E;w_NDIQ]);
  (0x1698f, [w_BAMUM;w_LETTER;w_PHASE_E;w_TAEN;w_NTEUM]);
  (0x16990, [w_BAMUM;w_LETTER;w_PHASE_E;w_SET]);
  (0x16991, [w_BAMUM;w_LETTER;w_PHASE_E;w_PUM]);
  (0x16992, [w_BAMUM;w_LETTER;w_PHASE_E;w_NDAA;w_SOFTNESS]);
  (0x16993, [w_BAMUM;w_LETTER;w_PHASE_E;w_NGGUAESHAE;w_NYAM]);
  (0x16994, [w_BAMUM;w_LETTER;w_PHASE_E;w_YIEE]);
  (0x16995, [w_BAMUM;w_LETTER;w_PHASE_E;w_GHEUN]);
  (0x16996, [w_BAMUM;w_LETTER;w_PHASE_E;w_TUAE]);
  (0x16997, [w_BAMUM;w_LETTER;w_PHASE_E;w_YEUAE]);
  (0x16998, [w_BAMUM;w_LETTER;w_PHASE_E;w_PO]);
  (0x16999, [w_BAMUM;w_LETTER;w_PHASE_E;w_TUMAE]);
  (0x1699a, [w_BAMUM;w_LETTER;w_PHASE_E;w_KEUAE]);
  (0x1699b, [w_BAMUM;w_LETTER;w_PHASE_E;w_SUAEN]);
  (0x1699c, [w_BAMUM;w_LETTER;w_PHASE_E;w_TEUAEQ]);
  (0x1699d, [w_BAMUM;w_LETTER;w_PHASE_E;w_VEUAE]);
  (0x1699e, [w_BAMUM;w_LETTER;w_PHASE_E;w_WEUX]);
  (0x1699f, [w_BAMUM;w_LETTER;w_PHASE_E;w_LAAM]);
  (0x169a0, [w_BAMUM;w_LETTER;w_PHASE_E;w_PU]);
  (0x169a1, [w_BAMUM;w_LETTER;w_PHASE_E;w_TAAQ]);
  (0x169a2, [w_BAMUM;w_LETTER;w_PHASE_E;w_GHAAMAE]);
  (0x169a3, [w_BAMUM;w_LETTER;w_PHASE_E;w_NGEUREUT]);
  (0x169a4, [w_BAMUM;w_LETTER;w_PHASE_E;w_SHEUAEQ]);
  (0x169a5, [w_BAMUM;w_LETTER;w_PHASE_E;w_MGBEN]);
  (0x169a6, [w_BAMUM;w_LETTER;w_PHASE_E;w_MBEE]);
  (0x169a7, [w_BAMUM;w_LETTER;w_PHASE_E;w_NZAQ]);
  (0x169a8, [w_BAMUM;w_LETTER;w_PHASE_E;w_NKOM]);
  (0x169a9, [w_BAMUM;w_LETTER;w_PHASE_E;w_GBET]);
  (0x169aa, [w_BAMUM;w_LETTER;w_PHASE_E;w_TUM]);
  (0x169ab, [w_BAMUM;w_LETTER;w_PHASE_E;w_KUET]);
  (0x169ac, [w_BAMUM;w_LETTER;w_PHASE_E;w_YAP]);
  (0x169ad, [w_BAMUM;w_LETTER;w_PHASE_E;w_NYI;w_CLEAVER]);
  (0x169ae, [w_BAMUM;w_LETTER;w_PHASE_E;w_YIT]);
  (0x169af, [w_BAMUM;w_LETTER;w_PHASE_E;w_MFEUQ]);
  (0x169b0, [w_BAMUM;w_LETTER;w_PHASE_E;w_NDIAQ]);
  (0x169b1, [w_BAMUM;w_LETTER;w_PHASE_E;w_PIEEQ]);
  (0x169b2, [w_BAMUM;w_LETTER;w_PHASE_E;w_YUEQ]);
  (0x169b3, [w_BAMUM;w_LETTER;w_PHASE_E;w_LEUAEM]);
  (0x169b4, [w_BAMUM;w_LETTER;w_PHASE_E;w_FUE]);
  (0x169b5, [w_BAMUM;w_LETTER;w_PHASE_E;w_GBEUX]);
  (0x169b6, [w_BAMUM;w_LETTER;w_PHASE_E;w_NGKUP]);
  (0x169b7, [w_BAMUM;w_LETTER;w_PHASE_E;w_KET]);
  (0x169b8, [w_BAMUM;w_LETTER;w_PHASE_E;w_MAE]);
  (0x169b9, [w_BAMUM;w_LETTER;w_PHASE_E;w_NGKAAMI]);
  (0x169ba, [w_BAMUM;w_LETTER;w_PHASE_E;w_GHET]);
  (0x169bb, [w_BAMUM;w_LETTER;w_PHASE_E;w_FA]);
  (0x169bc, [w_BAMUM;w_LETTER;w_PHASE_E;w_NTUM]);
  (0x169bd, [w_BAMUM;w_LETTER;w_PHASE_E;w_PEUT]);
  (0x169be, [w_BAMUM;w_LETTER;w_PHASE_E;w_YEUM]);
  (0x169bf, [w_BAMUM;w_LETTER;w_PHASE_E;w_NGGEUAE]);
  (0x169c0, [w_BAMUM;w_LETTER;w_PHASE_E;w_NYI;w_BETWEEN]);
  (0x169c1, [w_BAMUM;w_LETTER;w_PHASE_E;w_NZUQ]);
  (0x169c2, [w_BAMUM;w_LETTER;w_PHASE_E;w_POON]);
  (0x169c3, [w_BAMUM;w_LETTER;w_PHASE_E;w_MIEE]);
  (0x169c4, [w_BAMUM;w_LETTER;w_PHASE_E;w_FUET]);
  (0x169c5, [w_BAMUM;w_LETTER;w_PHASE_E;w_NAE]);
  (0x169c6, [w_BAMUM;w_LETTER;w_PHASE_E;w_MUAE]);
  (0x169c7, [w_BAMUM;w_LETTER;w_PHASE_E;w_GHEUAE]);
  (0x169c8, [w_BAMUM;w_LETTER;w_PHASE_E;w_FU;w_I]);
  (0x169c9, [w_BAMUM;w_LETTER;w_PHASE_E;w_MVI]);
  (0x169ca, [w_BAMUM;w_LETTER;w_PHASE_E;w_PUAQ]);
  (0x169cb, [w_BAMUM;w_LETTER;w_PHASE_E;w_NGKUM]);
  (0x169cc, [w_BAMUM;w_LETTER;w_PHASE_E;w_KUT]);
  (0x169cd, [w_BAMUM;w_LETTER;w_PHASE_E;w_PIET]);
  (0x169ce, [w_BAMUM;w_LETTER;w_PHASE_E;w_NTAP]);
  (0x169cf, [w_BAMUM;w_LETTER;w_PHASE_E;w_YEUAET]);
  (0x169d0, [w_BAMUM;w_LETTER;w_PHASE_E;w_NGGUP]);
  (0x169d1, [w_BAMUM;w_LETTER;w_PHASE_E;w_PA;w_PEOPLE]);
  (0x169d2, [w_BAMUM;w_LETTER;w_PHASE_E;w_FU;w_CALL]);
  (0x169d3, [w_BAMUM;w_LETTER;w_PHASE_E;w_FOM]);
  (0x169d4, [w_BAMUM;w_LETTER;w_PHASE_E;w_NJEE]);
  (0x169d5, [w_BAMUM;w_LETTER;w_PHASE_E;w_A]);
  (0x169d6, [w_BAMUM;w_LETTER;w_PHASE_E;w_TOQ]);
  (0x169d7, [w_BAMUM;w_LETTER;w_PHASE_E;w_O]);
  (0x169d8, [w_BAMUM;w_LETTER;w_PHASE_E;w_I]);
  (0x169d9, [w_BAMUM;w_LETTER;w_PHASE_E;w_LAQ]);
  (0x169da, [w_BAMUM;w_LETTER;w_PHASE_E;w_PA;w_PLURAL]);
  (0x169db, [w_BAMUM;w_LETTER;w_PHASE_E;w_TAA]);
  (0x169dc, [w_BAMUM;w_LETTER;w_PHASE_E;w_TAQ]);
  (0x169dd, [w_BAMUM;w_LETTER;w_PHASE_E;w_NDAA;w_MY;w_HOUSE]);
  (0x169de, [w_BAMUM;w_LETTER;w_PHASE_E;w_SHIQ]);
  (0x169df, [w_BAMUM;w_LETTER;w_PHASE_E;w_YEUX]);
  (0x169e0, [w_BAMUM;w_LETTER;w_PHASE_E;w_NGUAE]);
  (0x169e1, [w_BAMUM;w_LETTER;w_PHASE_E;w_YUAEN]);
  (0x169e2, [w_BAMUM;w_LETTER;w_PHASE_E;w_YOQ;w_SWIMMING]);
  (0x169e3, [w_BAMUM;w_LETTER;w_PHASE_E;w_YOQ;w_COVER]);
  (0x169e4, [w_BAMUM;w_LETTER;w_PHASE_E;w_YUQ]);
  (0x169e5, [w_BAMUM;w_LETTER;w_PHASE_E;w_YUN]);
  (0x169e6, [w_BAMUM;w_LETTER;w_PHASE_E;w_KEUX]);
  (0x169e7, [w_BAMUM;w_LETTER;w_PHASE_E;w_PEUX]);
  (0x169e8, [w_BAMUM;w_LETTER;w_PHASE_E;w_NJEE;w_EPOCH]);
  (0x169e9, [w_BAMUM;w_LETTER;w_PHASE_E;w_PUE]);
  (0x169ea, [w_BAMUM;w_LETTER;w_PHASE_E;w_WUE]);
  (0x169eb, [w_BAMUM;w_LETTER;w_PHASE_E;w_FEE]);
  (0x169ec, [w_BAMUM;w_LETTER;w_PHASE_E;w_VEE]);
  (0x169ed, [w_BAMUM;w_LETTER;w_PHASE_E;w_LU]);
  (0x169ee, [w_BAMUM;w_LETTER;w_PHASE_E;w_MI]);
  (0x169ef, [w_BAMUM;w_LETTER;w_PHASE_E;w_REUX]);
  (0x169f0, [w_BAMUM;w_LETTER;w_PHASE_E;w_RAE]);
  (0x169f1, [w_BAMUM;w_LETTER;w_PHASE_E;w_NGUAET]);
  (0x169f2, [w_BAMUM;w_LETTER;w_PHASE_E;w_NGA]);
  (0x169f3, [w_BAMUM;w_LETTER;w_PHASE_E;w_SHO]);
  (0x169f4, [w_BAMUM;w_LETTER;w_PHASE_E;w_SHOQ]);
  (0x169f5, [w_BAMUM;w_LETTER;w_PHASE_E;w_FU;w_REMEDY]);
  (0x169f6, [w_BAMUM;w_LETTER;w_PHASE_E;w_NA]);
  (0x169f7, [w_BAMUM;w_LETTER;w_PHASE_E;w_PI]);
  (0x169f8, [w_BAMUM;w_LETTER;w_PHASE_E;w_LOQ]);
  (0x169f9, [w_BAMUM;w_LETTER;w_PHASE_E;w_KO]);
  (0x169fa, [w_BAMUM;w_LETTER;w_PHASE_E;w_MEN]);
  (0x169fb, [w_BAMUM;w_LETTER;w_PHASE_E;w_MA]);
  (0x169fc, [w_BAMUM;w_LETTER;w_PHASE_E;w_MAQ]);
  (0x169fd, [w_BAMUM;w_LETTER;w_PHASE_E;w_TEU]);
  (0x169fe, [w_BAMUM;w_LETTER;w_PHASE_E;w_KI]);
  (0x169ff, [w_BAMUM;w_LETTER;w_PHASE_E;w_MON]);
  (0x16a00, [w_BAMUM;w_LETTER;w_PHASE_E;w_TEN]);
  (0x16a01, [w_BAMUM;w_LETTER;w_PHASE_E;w_FAQ]);
  (0x16a02, [w_BAMUM;w_LETTER;w_PHASE_E;w_GHOM]);
  (0x16a03, [w_BAMUM;w_LETTER;w_PHASE_F;w_KA]);
  (0x16a04, [w_BAMUM;w_LETTER;w_PHASE_F;w_U]);
  (0x16a05, [w_BAMUM;w_LETTER;w_PHASE_F;w_KU]);
  (0x16a06, [w_BAMUM;w_LETTER;w_PHASE_F;w_EE]);
  (0x16a07, [w_BAMUM;w_LETTER;w_PHASE_F;w_REE]);
  (0x16a08, [w_BAMUM;w_LETTER;w_PHASE_F;w_TAE]);
  (0x16a09, [w_BAMUM;w_LETTER;w_PHASE_F;w_NYI]);
  (0x16a0a, [w_BAMUM;w_LETTER;w_PHASE_F;w_LA]);
  (0x16a0b, [w_BAMUM;w_LETTER;w_PHASE_F;w_RII]);
  (0x16a0c, [w_BAMUM;w_LETTER;w_PHASE_F;w_RIEE]);
  (0x16a0d, [w_BAMUM;w_LETTER;w_PHASE_F;w_MEEEE]);
  (0x16a0e, [w_BAMUM;w_LETTER;w_PHASE_F;w_TAA]);
  (0x16a0f, [w_BAMUM;w_LETTER;w_PHASE_F;w_NDAA]);
  (0x16a10, [w_BAMUM;w_LETTER;w_PHASE_F;w_NJAEM]);
  (0x16a11, [w_BAMUM;w_LETTER;w_PHASE_F;w_M]);
  (0x16a12, [w_BAMUM;w_LETTER;w_PHASE_F;w_SUU]);
  (0x16a13, [w_BAMUM;w_LETTER;w_PHASE_F;w_SHII]);
  (0x16a14, [w_BAMUM;w_LETTER;w_PHASE_F;w_SI]);
  (0x16a15, [w_BAMUM;w_LETTER;w_PHASE_F;w_SEUX]);
  (0x16a16, [w_BAMUM;w_LETTER;w_PHASE_F;w_KYEE]);
  (0x16a17, [w_BAMUM;w_LETTER;w_PHASE_F;w_KET]);
  (0x16a18, [w_BAMUM;w_LETTER;w_PHASE_F;w_NUAE]);
  (0x16a19, [w_BAMUM;w_LETTER;w_PHASE_F;w_NU]);
  (0x16a1a, [w_BAMUM;w_LETTER;w_PHASE_F;w_NJUAE]);
  (0x16a1b, [w_BAMUM;w_LETTER;w_PHASE_F;w_YOQ]);
  (0x16a1c, [w_BAMUM;w_LETTER;w_PHASE_F;w_SHU]);
  (0x16a1d, [w_BAMUM;w_LETTER;w_PHASE_F;w_YA]);
  (0x16a1e, [w_BAMUM;w_LETTER;w_PHASE_F;w_NSHA]);
  (0x16a1f, [w_BAMUM;w_LETTER;w_PHASE_F;w_PEUX]);
  (0x16a20, [w_BAMUM;w_LETTER;w_PHASE_F;w_NTEE]);
  (0x16a21, [w_BAMUM;w_LETTER;w_PHASE_F;w_WUE]);
  (0x16a22, [w_BAMUM;w_LETTER;w_PHASE_F;w_PEE]);
  (0x16a23, [w_BAMUM;w_LETTER;w_PHASE_F;w_RU]);
  (0x16a24, [w_BAMUM;w_LETTER;w_PHASE_F;w_NI]);
  (0x16a25, [w_BAMUM;w_LETTER;w_PHASE_F;w_REUX]);
  (0x16a26, [w_BAMUM;w_LETTER;w_PHASE_F;w_KEN]);
  (0x16a27, [w_BAMUM;w_LETTER;w_PHASE_F;w_NGKWAEN]);
  (0x16a28, [w_BAMUM;w_LETTER;w_PHASE_F;w_NGGA]);
  (0x16a29, [w_BAMUM;w_LETTER;w_PHASE_F;w_SHO]);
  (0x16a2a, [w_BAMUM;w_LETTER;w_PHASE_F;w_PUAE]);
  (0x16a2b, [w_BAMUM;w_LETTER;w_PHASE_F;w_FOM]);
  (0x16a2c, [w_BAMUM;w_LETTER;w_PHASE_F;w_WA]);
  (0x16a2d, [w_BAMUM;w_LETTER;w_PHASE_F;w_LI]);
  (0x16a2e, [w_BAMUM;w_LETTER;w_PHASE_F;w_LOQ]);
  (0x16a2f, [w_BAMUM;w_LETTER;w_PHASE_F;w_KO]);
  (0x16a30, [w_BAMUM;w_LETTER;w_PHASE_F;w_MBEN]);
  (0x16a31, [w_BAMUM;w_LETTER;w_PHASE_F;w_REN]);
  (0x16a32, [w_BAMUM;w_LETTER;w_PHASE_F;w_MA]);
  (0x16a33, [w_BAMUM;w_LETTER;w_PHASE_F;w_MO]);
  (0x16a34, [w_BAMUM;w_LETTER;w_PHASE_F;w_MBAA]);
  (0x16a35, [w_BAMUM;w_LETTER;w_PHASE_F;w_TET]);
  (0x16a36, [w_BAMUM;w_LETTER;w_PHASE_F;w_KPA]);
  (0x16a37, [w_BAMUM;w_LETTER;w_PHASE_F;w_SAMBA]);
  (0x16a38, [w_BAMUM;w_LETTER;w_PHASE_F;w_VUEQ]);
  (0x16a40, [w_MRO;w_LETTER;w_TA]);
  (0x16a41, [w_MRO;w_LETTER;w_NGI]);
  (0x16a42, [w_MRO;w_LETTER;w_YO]);
  (0x16a43, [w_MRO;w_LETTER;w_MIM]);
  (0x16a44, [w_MRO;w_LETTER;w_BA]);
  (0x16a45, [w_MRO;w_LETTER;w_DA]);
  (0x16a46, [w_MRO;w_LETTER;w_A]);
  (0x16a47, [w_MRO;w_LETTER;w_PHI]);
  (0x16a48, [w_MRO;w_LETTER;w_KHAI]);
  (0x16a49, [w_MRO;w_LETTER;w_HAO]);
  (0x16a4a, [w_MRO;w_LETTER;w_DAI]);
  (0x16a4b, [w_MRO;w_LETTER;w_CHU]);
  (0x16a4c, [w_MRO;w_LETTER;w_KEAAE]);
  (0x16a4d, [w_MRO;w_LETTER;w_OL]);
  (0x16a4e, [w_MRO;w_LETTER;w_MAEM]);
  (0x16a4f, [w_MRO;w_LETTER;w_NIN]);
  (0x16a50, [w_MRO;w_LETTER;w_PA]);
  (0x16a51, [w_MRO;w_LETTER;w_OO]);
  (0x16a52, [w_MRO;w_LETTER;w_O]);
  (0x16a53, [w_MRO;w_LETTER;w_RO]);
  (0x16a54, [w_MRO;w_LETTER;w_SHI]);
  (0x16a55, [w_MRO;w_LETTER;w_THEA]);
  (0x16a56, [w_MRO;w_LETTER;w_EA]);
  (0x16a57, [w_MRO;w_LETTER;w_WA]);
  (0x16a58, [w_MRO;w_LETTER;w_E]);
  (0x16a59, [w_MRO;w_LETTER;w_KO]);
  (0x16a5a, [w_MRO;w_LETTER;w_LAN]);
  (0x16a5b, [w_MRO;w_LETTER;w_LA]);
  (0x16a5c, [w_MRO;w_LETTER;w_HAI]);
  (0x16a5d, [w_MRO;w_LETTER;w_RI]);
  (0x16a5e, [w_MRO;w_LETTER;w_TEK]);
  (0x16a60, [w_MRO;w_DIGIT;w_ZERO]);
  (0x16a61, [w_MRO;w_DIGIT;w_ONE]);
  (0x16a62, [w_MRO;w_DIGIT;w_TWO]);
  (0x16a63, [w_MRO;w_DIGIT;w_THREE]);
  (0x16a64, [w_MRO;w_DIGIT;w_FOUR]);
  (0x16a65, [w_MRO;w_DIGIT;w_FIVE]);
  (0x16a66, [w_MRO;w_DIGIT;w_SIX]);
  (0x16a67, [w_MRO;w_DIGIT;w_SEVEN]);
  (0x16a68, [w_MRO;w_DIGIT;w_EIGHT]);
  (0x16a69, [w_MRO;w_DIGIT;w_NINE]);
  (0x16a6e, [w_MRO;w_DANDA]);
  (0x16a6f, [w_MRO;w_DOUBLE;w_DANDA]);
  (0x16ad0, [w_BASSA;w_VAH;w_LETTER;w_ENNI]);
  (0x16ad1, [w_BASSA;w_VAH;w_LETTER;w_KA]);
  (0x16ad2, [w_BASSA;w_VAH;w_LETTER;w_SE]);
  (0x16ad3, [w_BASSA;w_VAH;w_LETTER;w_FA]);
  (0x16ad4, [w_BASSA;w_VAH;w_LETTER;w_MBE]);
  (0x16ad5, [w_BASSA;w_VAH;w_LETTER;w_YIE]);
  (0x16ad6, [w_BASSA;w_VAH;w_LETTER;w_GAH]);
  (0x16ad7, [w_BASSA;w_VAH;w_LETTER;w_DHII]);
  (0x16ad8, [w_BASSA;w_VAH;w_LETTER;w_KPAH]);
  (0x16ad9, [w_BASSA;w_VAH;w_LETTER;w_JO]);
  (0x16ada, [w_BASSA;w_VAH;w_LETTER;w_HWAH]);
  (0x16adb, [w_BASSA;w_VAH;w_LETTER;w_WA]);
  (0x16adc, [w_BASSA;w_VAH;w_LETTER;w_ZO]);
  (0x16add, [w_BASSA;w_VAH;w_LETTER;w_GBU]);
  (0x16ade, [w_BASSA;w_VAH;w_LETTER;w_DO]);
  (0x16adf, [w_BASSA;w_VAH;w_LETTER;w_CE]);
  (0x16ae0, [w_BASSA;w_VAH;w_LETTER;w_UWU]);
  (0x16ae1, [w_BASSA;w_VAH;w_LETTER;w_TO]);
  (0x16ae2, [w_BASSA;w_VAH;w_LETTER;w_BA]);
  (0x16ae3, [w_BASSA;w_VAH;w_LETTER;w_VU]);
  (0x16ae4, [w_BASSA;w_VAH;w_LETTER;w_YEIN])].

Definition NAMES_60 : list (N * (list str)) := [
  (0x16ae5, [w_BASSA;w_VAH;w_LETTER;w_PA]);
  (0x16ae6, [w_BASSA;w_VAH;w_LETTER;w_WADDA]);
  (0x16ae7, [w_BASSA;w_VAH;w_LETTER;w_A]);
  (0x16ae8, [w_BASSA;w_VAH;w_LETTER;w_O]);
  (0x16ae9, [w_BASSA;w_VAH;w_LETTER;w_OO]);
  (0x16aea, [w_BASSA;w_VAH;w_LETTER;w_U]);
  (0x16aeb, [w_BASSA;w_VAH;w_LETTER;w_EE]);
  (0x16aec, [w_BASSA;w_VAH;w_LETTER;w_E]);
  (0x16aed, [w_BASSA;w_VAH;w_LETTER;w_I]);
  (0x16af0, [w_BASSA;w_VAH;w_COMBINING;w_HIGH;w_TONE]);
  (0x16af1, [w_BASSA;w_VAH;w_COMBINING;w_LOW;w_TONE]);
  (0x16af2, [w_BASSA;w_VAH;w_COMBINING;w_MID;w_TONE]);
  (0x16af3, [w_BASSA;w_VAH;w_COMBINING;w_LOW_MID;w_TONE]);
  (0x16af4, [w_BASSA;w_VAH;w_COMBINING;w_HIGH_LOW;w_TONE]);
  (0x16af5, [w_BASSA;w_VAH;w_FULL;w_STOP]);
  (0x16b00, [w_PAHAWH;w_HMONG;w_VOWEL;w_KEEB]);
  (0x16b01, [w_PAHAWH;w_HMONG;w_VOWEL;w_KEEV]);
  (0x16b02, [w_PAHAWH;w_HMONG;w_VOWEL;w_KIB]);
  (0x16b03, [w_PAHAWH;w_HMONG;w_VOWEL;w_KIV]);
  (0x16b04, [w_PAHAWH;w_HMONG;w_VOWEL;w_KAUB]);
  (0x16b05, [w_PAHAWH;w_HMONG;w_VOWEL;w_KAUV]);
  (0x16b06, [w_PAHAWH;w_HMONG;w_VOWEL;w_KUB]);
  (0x16b07, [w_PAHAWH;w_HMONG;w_VOWEL;w_KUV]);
  (0x16b08, [w_PAHAWH;w_HMONG;w_VOWEL;w_KEB]);
  (0x16b09, [w_PAHAWH;w_HMONG;w_VOWEL;w_KEV]);
  (0x16b0a, [w_PAHAWH;w_HMONG;w_VOWEL;w_KAIB]);
  (0x16b0b, [w_PAHAWH;w_HMONG;w_VOWEL;w_KAIV]);
  (0x16b0c, [w_PAHAWH;w_HMONG;w_VOWEL;w_KOOB]);
  (0x16b0d, [w_PAHAWH;w_HMONG;w_VOWEL;w_KOOV]);
  (0x16b0e, [w_PAHAWH;w_HMONG;w_VOWEL;w_KAWB]);
  (0x16b0f, [w_PAHAWH;w_HMONG;w_VOWEL;w_KAWV]);
  (0x16b10, [w_PAHAWH;w_HMONG;w_VOWEL;w_KUAB]);
  (0x16b11, [w_PAHAWH;w_HMONG;w_VOWEL;w_KUAV]);
  (0x16b12, [w_PAHAWH;w_HMONG;w_VOWEL;w_KOB]);
  (0x16b13, [w_PAHAWH;w_HMONG;w_VOWEL;w_KOV]);
  (0x16b14, [w_PAHAWH;w_HMONG;w_VOWEL;w_KIAB]);
  (0x16b15, [w_PAHAWH;w_HMONG;w_VOWEL;w_KIAV]);
  (0x16b16, [w_PAHAWH;w_HMONG;w_VOWEL;w_KAB]);
  (0x16b17, [w_PAHAWH;w_HMONG;w_VOWEL;w_KAV]);
  (0x16b18, [w_PAHAWH;w_HMONG;w_VOWEL;w_KWB]);
  (0x16b19, [w_PAHAWH;w_HMONG;w_VOWEL;w_KWV]);
  (0x16b1a, [w_PAHAWH;w_HMONG;w_VOWEL;w_KAAB]);
  (0x16b1b, [w_PAHAWH;w_HMONG;w_VOWEL;w_KAAV]);
  (0x16b1c, [w_PAHAWH;w_HMONG;w_CONSONANT;w_VAU]);
  (0x16b1d, [w_PAHAWH;w_HMONG;w_CONSONANT;w_NTSAU]);
  (0x16b1e, [w_PAHAWH;w_HMONG;w_CONSONANT;w_LAU]);
  (0x16b1f, [w_PAHAWH;w_HMONG;w_CONSONANT;w_HAU]);
  (0x16b20, [w_PAHAWH;w_HMONG;w_CONSONANT;w_NLAU]);
  (0x16b21, [w_PAHAWH;w_HMONG;w_CONSONANT;w_RAU]);
  (0x16b22, [w_PAHAWH;w_HMONG;w_CONSONANT;w_NKAU]);
  (0x16b23, [w_PAHAWH;w_HMONG;w_CONSONANT;w_QHAU]);
  (0x16b24, [w_PAHAWH;w_HMONG;w_CONSONANT;w_YAU]);
  (0x16b25, [w_PAHAWH;w_HMONG;w_CONSONANT;w_HLAU]);
  (0x16b26, [w_PAHAWH;w_HMONG;w_CONSONANT;w_MAU]);
  (0x16b27, [w_PAHAWH;w_HMONG;w_CONSONANT;w_CHAU]);
  (0x16b28, [w_PAHAWH;w_HMONG;w_CONSONANT;w_NCHAU]);
  (0x16b29, [w_PAHAWH;w_HMONG;w_CONSONANT;w_HNAU]);
  (0x16b2a, [w_PAHAWH;w_HMONG;w_CONSONANT;w_PLHAU]);
  (0x16b2b, [w_PAHAWH;w_HMONG;w_CONSONANT;w_NTHAU]);
  (0x16b2c, [w_PAHAWH;w_HMONG;w_CONSONANT;w_NAU]);
  (0x16b2d, [w_PAHAWH;w_HMONG;w_CONSONANT;w_AU]);
  (0x16b2e, [w_PAHAWH;w_HMONG;w_CONSONANT;w_XAU]);
  (0x16b2f, [w_PAHAWH;w_HMONG;w_CONSONANT;w_CAU]);
  (0x16b30, [w_PAHAWH;w_HMONG;w_MARK;w_CIM;w_TUB]);
  (0x16b31, [w_PAHAWH;w_HMONG;w_MARK;w_CIM;w_SO]);
  (0x16b32, [w_PAHAWH;w_HMONG;w_MARK;w_CIM;w_KES]);
  (0x16b33, [w_PAHAWH;w_HMONG;w_MARK;w_CIM;w_KHAV]);
  (0x16b34, [w_PAHAWH;w_HMONG;w_MARK;w_CIM;w_SUAM]);
  (0x16b35, [w_PAHAWH;w_HMONG;w_MARK;w_CIM;w_HOM]);
  (0x16b36, [w_PAHAWH;w_HMONG;w_MARK;w_CIM;w_TAUM]);
  (0x16b37, [w_PAHAWH;w_HMONG;w_SIGN;w_VOS;w_THOM]);
  (0x16b38, [w_PAHAWH;w_HMONG;w_SIGN;w_VOS;w_TSHAB;w_CEEB]);
  (0x16b39, [w_PAHAWH;w_HMONG;w_SIGN;w_CIM;w_CHEEM]);
  (0x16b3a, [w_PAHAWH;w_HMONG;w_SIGN;w_VOS;w_THIAB]);
  (0x16b3b, [w_PAHAWH;w_HMONG;w_SIGN;w_VOS;w_FEEM]);
  (0x16b3c, [w_PAHAWH;w_HMONG;w_SIGN;w_XYEEM;w_NTXIV]);
  (0x16b3d, [w_PAHAWH;w_HMONG;w_SIGN;w_XYEEM;w_RHO]);
  (0x16b3e, [w_PAHAWH;w_HMONG;w_SIGN;w_XYEEM;w_TOV]);
  (0x16b3f, [w_PAHAWH;w_HMONG;w_SIGN;w_XYEEM;w_FAIB]);
  (0x16b40, [w_PAHAWH;w_HMONG;w_SIGN;w_VOS;w_SEEV]);
  (0x16b41, [w_PAHAWH;w_HMONG;w_SIGN;w_MEEJ;w_SUAB]);
  (0x16b42, [w_PAHAWH;w_HMONG;w_SIGN;w_VOS;w_NRUA]);
  (0x16b43, [w_PAHAWH;w_HMONG;w_SIGN;w_IB;w_YAM]);
  (0x16b44, [w_PAHAWH;w_HMONG;w_SIGN;w_XAUS]);
  (0x16b45, [w_PAHAWH;w_HMONG;w_SIGN;w_CIM;w_TSOV;w_ROG]);
  (0x16b50, [w_PAHAWH;w_HMONG;w_DIGIT;w_ZERO]);
  (0x16b51, [w_PAHAWH;w_HMONG;w_DIGIT;w_ONE]);
  (0x16b52, [w_PAHAWH;w_HMONG;w_DIGIT;w_TWO]);
  (0x16b53, [w_PAHAWH;w_HMONG;w_DIGIT;w_THREE]);
  (0x16b54, [w_PAHAWH;w_HMONG;w_DIGIT;w_FOUR]);
  (0x16b55, [w_PAHAWH;w_HMONG;w_DIGIT;w_FIVE]);
  (0x16b56, [w_PAHAWH;w_HMONG;w_DIGIT;w_SIX]);
  (0x16b57, [w_PAHAWH;w_HMONG;w_DIGIT;w_SEVEN]);
  (0x16b58, [w_PAHAWH;w_HMONG;w_DIGIT;w_EIGHT]);
  (0x16b59, [w_PAHAWH;w_HMONG;w_DIGIT;w_NINE]);
  (0x16b5b, [w_PAHAWH;w_HMONG;w_NUMBER;w_TENS]);
  (0x16b5c, [w_PAHAWH;w_HMONG;w_NUMBER;w_HUNDREDS]);
  (0x16b5d, [w_PAHAWH;w_HMONG;w_NUMBER;w_TEN;w_THOUSANDS]);
  (0x16b5e, [w_PAHAWH;w_HMONG;w_NUMBER;w_MILLIONS]);
  (0x16b5f, [w_PAHAWH;w_HMONG;w_NUMBER;w_HUNDRED;w_MILLIONS]);
  (0x16b60, [w_PAHAWH;w_HMONG;w_NUMBER;w_TEN;w_BILLIONS]);
  (0x16b61, [w_PAHAWH;w_HMONG;w_NUMBER;w_TRILLIONS]);
  (0x16b63, [w_PAHAWH;w_HMONG;w_SIGN;w_VOS;w_LUB]);
  (0x16b64, [w_PAHAWH;w_HMONG;w_SIGN;w_XYOO]);
  (0x16b65, [w_PAHAWH;w_HMONG;w_SIGN;w_HLI]);
  (0x16b66, [w_PAHAWH;w_HMONG;w_SIGN;w_THIRD_STAGE;w_HLI]);
  (0x16b67, [w_PAHAWH;w_HMONG;w_SIGN;w_ZWJ;w_THAJ]);
  (0x16b68, [w_PAHAWH;w_HMONG;w_SIGN;w_HNUB]);
  (0x16b69, [w_PAHAWH;w_HMONG;w_SIGN;w_NQIG]);
  (0x16b6a, [w_PAHAWH;w_HMONG;w_SIGN;w_XIAB]);
  (0x16b6b, [w_PAHAWH;w_HMONG;w_SIGN;w_NTUJ]);
  (0x16b6c, [w_PAHAWH;w_HMONG;w_SIGN;w_AV]);
  (0x16b6d, [w_PAHAWH;w_HMONG;w_SIGN;w_TXHEEJ;w_CEEV]);
  (0x16b6e, [w_PAHAWH;w_HMONG;w_SIGN;w_MEEJ;w_TSEEB]);
  (0x16b6f, [w_PAHAWH;w_HMONG;w_SIGN;w_TAU]);
  (0x16b70, [w_PAHAWH;w_HMONG;w_SIGN;w_LOS]);
  (0x16b71, [w_PAHAWH;w_HMONG;w_SIGN;w_MUS]);
  (0x16b72, [w_PAHAWH;w_HMONG;w_SIGN;w_CIM;w_HAIS;w_LUS;w_NTOG;w_NTOG]);
  (0x16b73, [w_PAHAWH;w_HMONG;w_SIGN;w_CIM;w_CUAM;w_TSHOOJ]);
  (0x16b74, [w_PAHAWH;w_HMONG;w_SIGN;w_CIM;w_TXWV]);
  (0x16b75, [w_PAHAWH;w_HMONG;w_SIGN;w_CIM;w_TXWV;w_CHWV]);
  (0x16b76, [w_PAHAWH;w_HMONG;w_SIGN;w_CIM;w_PUB;w_DAWB]);
  (0x16b77, [w_PAHAWH;w_HMONG;w_SIGN;w_CIM;w_NRES;w_TOS]);
  (0x16b7d, [w_PAHAWH;w_HMONG;w_CLAN;w_SIGN;w_TSHEEJ]);
  (0x16b7e, [w_PAHAWH;w_HMONG;w_CLAN;w_SIGN;w_YEEG]);
  (0x16b7f, [w_PAHAWH;w_HMONG;w_CLAN;w_SIGN;w_LIS]);
  (0x16b80, [w_PAHAWH;w_HMONG;w_CLAN;w_SIGN;w_LAUJ]);
  (0x16b81, [w_PAHAWH;w_HMONG;w_CLAN;w_SIGN;w_XYOOJ]);
  (0x16b82, [w_PAHAWH;w_HMONG;w_CLAN;w_SIGN;w_KOO]);
  (0x16b83, [w_PAHAWH;w_HMONG;w_CLAN;w_SIGN;w_HAWJ]);
  (0x16b84, [w_PAHAWH;w_HMONG;w_CLAN;w_SIGN;w_MUAS]);
  (0x16b85, [w_PAHAWH;w_HMONG;w_CLAN;w_SIGN;w_THOJ]);
  (0x16b86, [w_PAHAWH;w_HMONG;w_CLAN;w_SIGN;w_TSAB]);
  (0x16b87, [w_PAHAWH;w_HMONG;w_CLAN;w_SIGN;w_PHAB]);
  (0x16b88, [w_PAHAWH;w_HMONG;w_CLAN;w_SIGN;w_KHAB]);
  (0x16b89, [w_PAHAWH;w_HMONG;w_CLAN;w_SIGN;w_HAM]);
  (0x16b8a, [w_PAHAWH;w_HMONG;w_CLAN;w_SIGN;w_VAJ]);
  (0x16b8b, [w_PAHAWH;w_HMONG;w_CLAN;w_SIGN;w_FAJ]);
  (0x16b8c, [w_PAHAWH;w_HMONG;w_CLAN;w_SIGN;w_YAJ]);
  (0x16b8d, [w_PAHAWH;w_HMONG;w_CLAN;w_SIGN;w_TSWB]);
  (0x16b8e, [w_PAHAWH;w_HMONG;w_CLAN;w_SIGN;w_KWM]);
  (0x16b8f, [w_PAHAWH;w_HMONG;w_CLAN;w_SIGN;w_VWJ]);
  (0x16f00, [w_MIAO;w_LETTER;w_PA]);
  (0x16f01, [w_MIAO;w_LETTER;w_BA]);
  (0x16f02, [w_MIAO;w_LETTER;w_YI;w_PA]);
  (0x16f03, [w_MIAO;w_LETTER;w_PLA]);
  (0x16f04, [w_MIAO;w_LETTER;w_MA]);
  (0x16f05, [w_MIAO;w_LETTER;w_MHA]);
  (0x16f06, [w_MIAO;w_LETTER;w_ARCHAIC;w_MA]);
  (0x16f07, [w_MIAO;w_LETTER;w_FA]);
  (0x16f08, [w_MIAO;w_LETTER;w_VA]);
  (0x16f09, [w_MIAO;w_LETTER;w_VFA]);
  (0x16f0a, [w_MIAO;w_LETTER;w_TA]);
  (0x16f0b, [w_MIAO;w_LETTER;w_DA]);
  (0x16f0c, [w_MIAO;w_LETTER;w_YI;w_TTA]);
  (0x16f0d, [w_MIAO;w_LETTER;w_YI;w_TA]);
  (0x16f0e, [w_MIAO;w_LETTER;w_TTA]);
  (0x16f0f, [w_MIAO;w_LETTER;w_DDA]);
  (0x16f10, [w_MIAO;w_LETTER;w_NA]);
  (0x16f11, [w_MIAO;w_LETTER;w_NHA]);
  (0x16f12, [w_MIAO;w_LETTER;w_YI;w_NNA]);
  (0x16f13, [w_MIAO;w_LETTER;w_ARCHAIC;w_NA]);
  (0x16f14, [w_MIAO;w_LETTER;w_NNA]);
  (0x16f15, [w_MIAO;w_LETTER;w_NNHA]);
  (0x16f16, [w_MIAO;w_LETTER;w_LA]);
  (0x16f17, [w_MIAO;w_LETTER;w_LYA]);
  (0x16f18, [w_MIAO;w_LETTER;w_LHA]);
  (0x16f19, [w_MIAO;w_LETTER;w_LHYA]);
  (0x16f1a, [w_MIAO;w_LETTER;w_TLHA]);
  (0x16f1b, [w_MIAO;w_LETTER;w_DLHA]);
  (0x16f1c, [w_MIAO;w_LETTER;w_TLHYA]);
  (0x16f1d, [w_MIAO;w_LETTER;w_DLHYA]);
  (0x16f1e, [w_MIAO;w_LETTER;w_KA]);
  (0x16f1f, [w_MIAO;w_LETTER;w_GA]);
  (0x16f20, [w_MIAO;w_LETTER;w_YI;w_KA]);
  (0x16f21, [w_MIAO;w_LETTER;w_QA]);
  (0x16f22, [w_MIAO;w_LETTER;w_QGA]);
  (0x16f23, [w_MIAO;w_LETTER;w_NGA]);
  (0x16f24, [w_MIAO;w_LETTER;w_NGHA]);
  (0x16f25, [w_MIAO;w_LETTER;w_ARCHAIC;w_NGA]);
  (0x16f26, [w_MIAO;w_LETTER;w_HA]);
  (0x16f27, [w_MIAO;w_LETTER;w_XA]);
  (0x16f28, [w_MIAO;w_LETTER;w_GHA]);
  (0x16f29, [w_MIAO;w_LETTER;w_GHHA]);
  (0x16f2a, [w_MIAO;w_LETTER;w_TSSA]);
  (0x16f2b, [w_MIAO;w_LETTER;w_DZZA]);
  (0x16f2c, [w_MIAO;w_LETTER;w_NYA]);
  (0x16f2d, [w_MIAO;w_LETTER;w_NYHA]);
  (0x16f2e, [w_MIAO;w_LETTER;w_TSHA]);
  (0x16f2f, [w_MIAO;w_LETTER;w_DZHA]);
  (0x16f30, [w_MIAO;w_LETTER;w_YI;w_TSHA]);
  (0x16f31, [w_MIAO;w_LETTER;w_YI;w_DZHA]);
  (0x16f32, [w_MIAO;w_LETTER;w_REFORMED;w_TSHA]);
  (0x16f33, [w_MIAO;w_LETTER;w_SHA]);
  (0x16f34, [w_MIAO;w_LETTER;w_SSA]);
  (0x16f35, [w_MIAO;w_LETTER;w_ZHA]);
  (0x16f36, [w_MIAO;w_LETTER;w_ZSHA]);
  (0x16f37, [w_MIAO;w_LETTER;w_TSA]);
  (0x16f38, [w_MIAO;w_LETTER;w_DZA]);
  (0x16f39, [w_MIAO;w_LETTER;w_YI;w_TSA]);
  (0x16f3a, [w_MIAO;w_LETTER;w_SA]);
  (0x16f3b, [w_MIAO;w_LETTER;w_ZA]);
  (0x16f3c, [w_MIAO;w_LETTER;w_ZSA]);
  (0x16f3d, [w_MIAO;w_LETTER;w_ZZA]);
  (0x16f3e, [w_MIAO;w_LETTER;w_ZZSA]);
  (0x16f3f, [w_MIAO;w_LETTER;w_ARCHAIC;w_ZZA]);
  (0x16f40, [w_MIAO;w_LETTER;w_ZZYA]);
  (0x16f41, [w_MIAO;w_LETTER;w_ZZSYA]);
  (0x16f42, [w_MIAO;w_LETTER;w_WA]);
  (0x16f43, [w_MIAO;w_LETTER;w_AH]);
  (0x16f44, [w_MIAO;w_LETTER;w_HHA]);
  (0x16f50, [w_MIAO;w_LETTER;w_NASALIZATION]);
  (0x16f51, [w_MIAO;w_SIGN;w_ASPIRATION]);
  (0x16f52, [w_MIAO;w_SIGN;w_REFORMED;w_VOICING]);
  (0x16f53, [w_MIAO;w_SIGN;w_REFORMED;w_ASPIRATION]);
  (0x16f54, [w_MIAO;w_VOWEL;w_SIGN;w_A]);
  (0x16f55, [w_MIAO;w_VOWEL;w_SIGN;w_AA]);
  (0x16f56, [w_MIAO;w_VOWEL;w_SIGN;w_AHH]);
  (0x16f57, [w_MIAO;w_VOWEL;w_SIGN;w_AN]);
  (0x16f58, [w_MIAO;w_VOWEL;w_SIGN;w_ANG]);
  (0x16f59, [w_MIAO;w_VOWEL;w_SIGN;w_O]);
  (0x16f5a, [w_MIAO;w_VOWEL;w_SIGN;w_OO]);
  (0x16f5b, [w_MIAO;w_VOWEL;w_SIGN;w_WO]);
  (0x16f5c, [w_MIAO;w_VOWEL;w_SIGN;w_W]);
  (0x16f5d, [w_MIAO;w_VOWEL;w_SIGN;w_E]);
  (0x16f5e, [w_MIAO;w_VOWEL;w_SIGN;w_EN]);
  (0x16f5f, [w_MIAO;w_VOWEL;w_SIGN;w_ENG]);
  (0x16f60, [w_MIAO;w_VOWEL;w_SIGN;w_OEY]);
  (0x16f61, [w_MIAO;w_VOWEL;w_SIGN;w_I]);
  (0x16f62, [w_MIAO;w_VOWEL;w_SIGN;w_IA]);
  (0x16f63, [w_MIAO;w_VOWEL;w_SIGN;w_IAN]);
  (0x16f64, [w_MIAO;w_VOWEL;w_SIGN;w_IANG]);
  (0x16f65, [w_MIAO;w_VOWEL;w_SIGN;w_IO]);
  (0x16f66, [w_MIAO;w_VOWEL;w_SIGN;w_IE]);
  (0x16f67, [w_MIAO;w_VOWEL;w_SIGN;w_II]);
  (0x16f68, [w_MIAO;w_VOWEL;w_SIGN;w_IU]);
  (0x16f69, [w_MIAO;w_VOWEL;w_SIGN;w_ING]);
  (0x16f6a, [w_MIAO;w_VOWEL;w_SIGN;w_U]);
  (0x16f6b, [w_MIAO;w_VOWEL;w_SIGN;w_UA]);
  (0x16f6c, [w_MIAO;w_VOWEL;w_SIGN;w_UAN]);
  (0x16f6d, [w_MIAO;w_VOWEL;w_SIGN;w_UANG]);
  (0x16f6e, [w_MIAO;w_VOWEL;w_SIGN;w_UU]);
  (0x16f6f, [w_MIAO;w_VOWEL;w_SIGN;w_UEI]);
  (0x16f70, [w_MIAO;w_VOWEL;w_SIGN;w_UNG]);
  (0x16f71, [w_MIAO;w_VOWEL;w_SIGN;w_Y]);
  (0x16f72, [w_MIAO;w_VOWEL;w_SIGN;w_YI]);
  (0x16f73, [w_MIAO;w_VOWEL;w_SIGN;w_AE]);
  (0x16f74, [w_MIAO;w_VOWEL;w_SIGN;w_AEE]);
  (0x16f75, [w_MIAO;w_VOWEL;w_SIGN;w_ERR]);
  (0x16f76, [w_MIAO;w_VOWEL;w_SIGN;w_ROUNDED;w_ERR]);
  (0x16f77, [w_MIAO;w_VOWEL;w_SIGN;w_ER]);
  (0x16f78, [w_MIAO;w_VOWEL;w_SIGN;w_ROUNDED;w_ER]);
  (0x16f79, [w_MIAO;w_VOWEL;w_SIGN;w_AI]);
  (0x16f7a, [w_MIAO;w_VOWEL;w_SIGN;w_EI]);
  (0x16f7b, [w_MIAO;w_VOWEL;w_SIGN;w_AU]);
  (0x16f7c, [w_MIAO;w_VOWEL;w_SIGN;w_OU]);
  (0x16f7d, [w_MIAO;w_VOWEL;w_SIGN;w_N]);
  (0x16f7e, [w_MIAO;w_VOWEL;w_SIGN;w_NG]);
  (0x16f8f, [w_MIAO;w_TONE;w_RIGHT]);
  (0x16f90, [w_MIAO;w_TONE;w_TOP;w_RIGHT]);
  (0x16f91, [w_MIAO;w_TONE;w_ABOVE]);
  (0x16f92, [w_MIAO;w_TONE;w_BELOW]);
  (0x16f93, [w_MIAO;w_LETTER;w_TONE_2]);
  (0x16f94, [w_MIAO;w_LETTER;w_TONE_3]);
  (0x16f95, [w_MIAO;w_LETTER;w_TONE_4]);
  (0x16f96, [w_MIAO;w_LETTER;w_TONE_5]);
  (0x16f97, [w_MIAO;w_LETTER;w_TONE_6]);
  (0x16f98, [w_MIAO;w_LETTER;w_TONE_7]);
  (0x16f99, [w_MIAO;w_LETTER;w_TONE_8]);
  (0x16f9a, [w_MIAO;w_LETTER;w_REFORMED;w_TONE_1]);
  (0x16f9b, [w_MIAO;w_LETTER;w_REFORMED;w_TONE_2]);
  (0x16f9c, [w_MIAO;w_LETTER;w_REFORMED;w_TONE_4]);
  (0x16f9d, [w_MIAO;w_LETTER;w_REFORMED;w_TONE_5]);
  (0x16f9e, [w_MIAO;w_LETTER;w_REFORMED;w_TONE_6]);
  (0x16f9f, [w_MIAO;w_LETTER;w_REFORMED;w_TONE_8]);
  (0x16fe0, [w_TANGUT;w_ITERATION;w_MARK]);
  (0x16fe1, [w_NUSHU;w_ITERATION;w_MARK]);
  (0x18800, [w_TANGUT;w_COMPONENT_001]);
  (0x18801, [w_TANGUT;w_COMPONENT_002]);
  (0x18802, [w_TANGUT;w_COMPONENT_003]);
  (0x18803, [w_TANGUT;w_COMPONENT_004]);
  (0x18804, [w_TANGUT;w_COMPONENT_005]);
  (0x18805, [w_TANGUT;w_COMPONENT_006]);
  (0x18806, [w_TANGUT;w_COMPONENT_007]);
  (0x18807, [w_TANGUT;w_COMPONENT_008]);
  (0x18808, [w_TANGUT;w_COMPONENT_009]);
  (0x18809, [w_TANGUT;w_COMPONENT_010]);
  (0x1880a, [w_TANGUT;w_COMPONENT_011]);
  (0x1880b, [w_TANGUT;w_COMPONENT_012]);
  (0x1880c, [w_TANGUT;w_COMPONENT_013]);
  (0x1880d, [w_TANGUT;w_COMPONENT_014]);
  (0x1880e, [w_TANGUT;w_COMPONENT_015]);
  (0x1880f, [w_TANGUT;w_COMPONENT_016]);
  (0x18810, [w_TANGUT;w_COMPONENT_017]);
  (0x18811, [w_TANGUT;w_COMPONENT_018]);
  (0x18812, [w_TANGUT;w_COMPONENT_019]);
  (0x18813, [w_TANGUT;w_COMPONENT_020]);
  (0x18814, [w_TANGUT;w_COMPONENT_021]);
  (0x18815, [w_TANGUT;w_COMPONENT_022]);
  (0x18816, [w_TANGUT;w_COMPONENT_023]);
  (0x18817, [w_TANGUT;w_COMPONENT_024]);
  (0x18818, [w_TANGUT;w_COMPONENT_025]);
  (0x18819, [w_TANGUT;w_COMPONENT_026]);
  (0x1881a, [w_TANGUT;w_COMPONENT_027]);
  (0x1881b, [w_TANGUT;w_COMPONENT_028]);
  (0x1881c, [w_TANGUT;w_COMPONENT_029]);
  (0x1881d, [w_TANGUT;w_COMPONENT_030]);
  (0x1881e, [w_TANGUT;w_COMPONENT_031]);
  (0x1881f, [w_TANGUT;w_COMPONENT_032]);
  (0x18820, [w_TANGUT;w_COMPONENT_033]);
  (0x18821, [w_TANGUT;w_COMPONENT_034]);
  (0x18822, [w_TANGUT;w_COMPONENT_035]);
  (0x18823, [w_TANGUT;w_COMPONENT_036]);
  (0x18824, [w_TANGUT;w_COMPONENT_037]);
  (0x18825, [w_TANGUT;w_COMPONENT_038]);
  (0x18826, [w_TANGUT;w_COMPONENT_039]);
  (0x18827, [w_TANGUT;w_COMPONENT_040]);
  (0x18828, [w_TANGUT;w_COMPONENT_041]);
  (0x18829, [w_TANGUT;w_COMPONENT_042]);
  (0x1882a, [w_TANGUT;w_COMPONENT_043]);
  (0x1882b, [w_TANGUT;w_COMPONENT_044]);
  (0x1882c, [w_TANGUT;w_COMPONENT_045]);
  (0x1882d, [w_TANGUT;w_COMPONENT_046]);
  (0x1882e, [w_TANGUT;w_COMPONENT_047]);
  (0x1882f, [w_TANGUT;w_COMPONENT_048]);
  (0x18830, [w_TANGUT;w_COMPONENT_049]);
  (0x18831, [w_TANGUT;w_COMPONENT_050]);
  (0x18832, [w_TANGUT;w_COMPONENT_051]);
  (0x18833, [w_TANGUT;w_COMPONENT_052]);
  (0x18834, [w_TANGUT;w_COMPONENT_053]);
  (0x18835, [w_TANGUT;w_COMPONENT_054]);
  (0x18836, [w_TANGUT;w_COMPONENT_055]);
  (0x18837, [w_TANGUT;w_COMPONENT_056]);
  (0x18838, [w_TANGUT;w_COMPONENT_057]);
  (0x18839, [w_TANGUT;w_COMPONENT_058]);
  (0x1883a, [w_TANGUT;w_COMPONENT_059]);
  (0x1883b, [w_TANGUT;w_COMPONENT_060]);
  (0x1883c, [w_TANGUT;w_COMPONENT_061]);
  (0x1883d, [w_TANGUT;w_COMPONENT_062]);
  (0x1883e, [w_TANGUT;w_COMPONENT_063]);
  (0x1883f, [w_TANGUT;w_COMPONENT_064]);
  (0x18840, [w_TANGUT;w_COMPONENT_065]);
  (0x18841, [w_TANGUT;w_COMPONENT_066]);
  (0x18842, [w_TANGUT;w_COMPONENT_067]);
  (0x18843, [w_TANGUT;w_COMPONENT_068]);
  (0x18844, [w_TANGUT;w_COMPONENT_069]);
  (0x18845, [w_TANGUT;w_COMPONENT_070]);
  (0x18846, [w_TANGUT;w_COMPONENT_071]);
  (0x18847, [w_TANGUT;w_COMPONENT_072]);
  (0x18848, [w_TANGUT;w_COMPONENT_073]);
  (0x18849, [w_TANGUT;w_COMPONENT_074]);
  (0x1884a, [w_TANGUT;w_COMPONENT_075]);
  (0x1884b, [w_TANGUT;w_COMPONENT_076]);
  (0x1884c, [w_TANGUT;w_COMPONENT_077]);
  (0x1884d, [w_TANGUT;w_COMPONENT_078]);
  (0x1884e, [w_TANGUT;w_COMPONENT_079]);
  (0x1884f, [w_TANGUT;w_COMPONENT_080]);
  (0x18850, [w_TANGUT;w_COMPONENT_081]);
  (0x18851, [w_TANGUT;w_COMPONENT_082]);
  (0x18852, [w_TANGUT;w_COMPONENT_083]);
  (0x18853, [w_TANGUT;w_COMPONENT_084]);
  (0x18854, [w_TANGUT;w_COMPONENT_085]);
  (0x18855, [w_TANGUT;w_COMPONENT_086]);
  (0x18856, [w_TANGUT;w_COMPONENT_087]);
  (0x18857, [w_TANGUT;w_COMPONENT_088]);
  (0x18858, [w_TANGUT;w_COMPONENT_089]);
  (0x18859, [w_TANGUT;w_COMPONENT_090]);
  (0x1885a, [w_TANGUT;w_COMPONENT_091]);
  (0x1885b, [w_TANGUT;w_COMPONENT_092]);
  (0x1885c, [w_TANGUT;w_COMPONENT_093]);
  (0x1885d, [w_TANGUT;w_COMPONENT_094]);
  (0x1885e, [w_TANGUT;w_COMPONENT_095]);
  (0x1885f, [w_TANGUT;w_COMPONENT_096]);
  (0x18860, [w_TANGUT;w_COMPONENT_097]);
  (0x18861, [w_TANGUT;w_COMPONENT_098]);
  (0x18862, [w_TANGUT;w_COMPONENT_099]);
  (0x18863, [w_TANGUT;w_COMPONENT_100]);
  (0x18864, [w_TANGUT;w_COMPONENT_101]);
  (0x18865, [w_TANGUT;w_COMPONENT_102]);
  (0x18866, [w_TANGUT;w_COMPONENT_103]);
  (0x18867, [w_TANGUT;w_COMPONENT_104]);
  (0x18868, [w_TANGUT;w_COMPONENT_105]);
  (0x18869, [w_TANGUT;w_COMPONENT_106]);
  (0x1886a, [w_TANGUT;w_COMPONENT_107]);
  (0x1886b, [w_TANGUT;w_COMPONENT_108]);
  (0x1886c, [w_TANGUT;w_COMPONENT_109]);
  (0x1886d, [w_TANGUT;w_COMPONENT_110]);
  (0x1886e, [w_TANGUT;w_COMPONENT_111]);
  (0x1886f, [w_TANGUT;w_COMPONENT_112]);
  (0x18870, [w_TANGUT;w_COMPONENT_113]);
  (0x18871, [w_TANGUT;w_COMPONENT_114]);
  (0x18872, [w_TANGUT;w_COMPONENT_115]);
  (0x18873, [w_TANGUT;w_COMPONENT_116]);
  (0x18874, [w_TANGUT;w_COMPONENT_117]);
  (0x18875, [w_TANGUT;w_COMPONENT_118]);
  (0x18876, [w_TANGUT;w_COMPONENT_119]);
  (0x18877, [w_TANGUT;w_COMPONENT_120]);
  (0x18878, [w_TANGUT;w_COMPONENT_121]);
  (0x18879, [w_TANGUT;w_COMPONENT_122]);
  (0x1887a, [w_TANGUT;w_COMPONENT_123])].

Definition NAMES_61 : list (N * (list str)) := [
  (0x1887b, [w_TANGUT;w_COMPONENT_124]);
  (0x1887c, [w_TANGUT;w_COMPONENT_125]);
  (0x1887d, [w_TANGUT;w_COMPONENT_126]);
  (0x1887e, [w_TANGUT;w_COMPONENT_127]);
  (0x1887f, [w_TANGUT;w_COMPONENT_128]);
  (0x18880, [w_TANGUT;w_COMPONENT_129]);
  (0x18881, [w_TANGUT;w_COMPONENT_130]);
  (0x18882, [w_TANGUT;w_COMPONENT_131]);
  (0x18883, [w_TANGUT;w_COMPONENT_132]);
  (0x18884, [w_TANGUT;w_COMPONENT_133]);
  (0x18885, [w_TANGUT;w_COMPONENT_134]);
  (0x18886, [w_TANGUT;w_COMPONENT_135]);
  (0x18887, [w_TANGUT;w_COMPONENT_136]);
  (0x18888, [w_TANGUT;w_COMPONENT_137]);
  (0x18889, [w_TANGUT;w_COMPONENT_138]);
  (0x1888a, [w_TANGUT;w_COMPONENT_139]);
  (0x1888b, [w_TANGUT;w_COMPONENT_140]);
  (0x1888c, [w_TANGUT;w_COMPONENT_141]);
  (0x1888d, [w_TANGUT;w_COMPONENT_142]);
  (0x1888e, [w_TANGUT;w_COMPONENT_143]);
  (0x1888f, [w_TANGUT;w_COMPONENT_144]);
  (0x18890, [w_TANGUT;w_COMPONENT_145]);
  (0x18891, [w_TANGUT;w_COMPONENT_146]);
  (0x18892, [w_TANGUT;w_COMPONENT_147]);
  (0x18893, [w_TANGUT;w_COMPONENT_148]);
  (0x18894, [w_TANGUT;w_COMPONENT_149]);
  (0x18895, [w_TANGUT;w_COMPONENT_150]);
  (0x18896, [w_TANGUT;w_COMPONENT_151]);
  (0x18897, [w_TANGUT;w_COMPONENT_152]);
  (0x18898, [w_TANGUT;w_COMPONENT_153]);
  (0x18899, [w_TANGUT;w_COMPONENT_154]);
  (0x1889a, [w_TANGUT;w_COMPONENT_155]);
  (0x1889b, [w_TANGUT;w_COMPONENT_156]);
  (0x1889c, [w_TANGUT;w_COMPONENT_157]);
  (0x1889d, [w_TANGUT;w_COMPONENT_158]);
  (0x1889e, [w_TANGUT;w_COMPONENT_159]);
  (0x1889f, [w_TANGUT;w_COMPONENT_160]);
  (0x188a0, [w_TANGUT;w_COMPONENT_161]);
  (0x188a1, [w_TANGUT;w_COMPONENT_162]);
  (0x188a2, [w_TANGUT;w_COMPONENT_163]);
  (0x188a3, [w_TANGUT;w_COMPONENT_164]);
  (0x188a4, [w_TANGUT;w_COMPONENT_165]);
  (0x188a5, [w_TANGUT;w_COMPONENT_166]);
  (0x188a6, [w_TANGUT;w_COMPONENT_167]);
  (0x188a7, [w_TANGUT;w_COMPONENT_168]);
  (0x188a8, [w_TANGUT;w_COMPONENT_169]);
  (0x188a9, [w_TANGUT;w_COMPONENT_170]);
  (0x188aa, [w_TANGUT;w_COMPONENT_171]);
  (0x188ab, [w_TANGUT;w_COMPONENT_172]);
  (0x188ac, [w_TANGUT;w_COMPONENT_173]);
  (0x188ad, [w_TANGUT;w_COMPONENT_174]);
  (0x188ae, [w_TANGUT;w_COMPONENT_175]);
  (0x188af, [w_TANGUT;w_COMPONENT_176]);
  (0x188b0, [w_TANGUT;w_COMPONENT_177]);
  (0x188b1, [w_TANGUT;w_COMPONENT_178]);
  (0x188b2, [w_TANGUT;w_COMPONENT_179]);
  (0x188b3, [w_TANGUT;w_COMPONENT_180]);
  (0x188b4, [w_TANGUT;w_COMPONENT_181]);
  (0x188b5, [w_TANGUT;w_COMPONENT_182]);
  (0x188b6, [w_TANGUT;w_COMPONENT_183]);
  (0x188b7, [w_TANGUT;w_COMPONENT_184]);
  (0x188b8, [w_TANGUT;w_COMPONENT_185]);
  (0x188b9, [w_TANGUT;w_COMPONENT_186]);
  (0x188ba, [w_TANGUT;w_COMPONENT_187]);
  (0x188bb, [w_TANGUT;w_COMPONENT_188]);
  (0x188bc, [w_TANGUT;w_COMPONENT_189]);
  (0x188bd, [w_TANGUT;w_COMPONENT_190]);
  (0x188be, [w_TANGUT;w_COMPONENT_191]);
  (0x188bf, [w_TANGUT;w_COMPONENT_192]);
  (0x188c0, [w_TANGUT;w_COMPONENT_193]);
  (0x188c1, [w_TANGUT;w_COMPONENT_194]);
  (0x188c2, [w_TANGUT;w_COMPONENT_195]);
  (0x188c3, [w_TANGUT;w_COMPONENT_196]);
  (0x188c4, [w_TANGUT;w_COMPONENT_197]);
  (0x188c5, [w_TANGUT;w_COMPONENT_198]);
  (0x188c6, [w_TANGUT;w_COMPONENT_199]);
  (0x188c7, [w_TANGUT;w_COMPONENT_200]);
  (0x188c8, [w_TANGUT;w_COMPONENT_201]);
  (0x188c9, [w_TANGUT;w_COMPONENT_202]);
  (0x188ca, [w_TANGUT;w_COMPONENT_203]);
  (0x188cb, [w_TANGUT;w_COMPONENT_204]);
  (0x188cc, [w_TANGUT;w_COMPONENT_205]);
  (0x188cd, [w_TANGUT;w_COMPONENT_206]);
  (0x188ce, [w_TANGUT;w_COMPONENT_207]);
  (0x188cf, [w_TANGUT;w_COMPONENT_208]);
  (0x188d0, [w_TANGUT;w_COMPONENT_209]);
  (0x188d1, [w_TANGUT;w_COMPONENT_210]);
  (0x188d2, [w_TANGUT;w_COMPONENT_211]);
  (0x188d3, [w_TANGUT;w_COMPONENT_212]);
  (0x188d4, [w_TANGUT;w_COMPONENT_213]);
  (0x188d5, [w_TANGUT;w_COMPONENT_214]);
  (0x188d6, [w_TANGUT;w_COMPONENT_215]);
  (0x188d7, [w_TANGUT;w_COMPONENT_216]);
  (0x188d8, [w_TANGUT;w_COMPONENT_217]);
  (0x188d9, [w_TANGUT;w_COMPONENT_218]);
  (0x188da, [w_TANGUT;w_COMPONENT_219]);
  (0x188db, [w_TANGUT;w_COMPONENT_220]);
  (0x188dc, [w_TANGUT;w_COMPONENT_221]);
  (0x188dd, [w_TANGUT;w_COMPONENT_222]);
  (0x188de, [w_TANGUT;w_COMPONENT_223]);
  (0x188df, [w_TANGUT;w_COMPONENT_224]);
  (0x188e0, [w_TANGUT;w_COMPONENT_225]);
  (0x188e1, [w_TANGUT;w_COMPONENT_226]);
  (0x188e2, [w_TANGUT;w_COMPONENT_227]);
  (0x188e3, [w_TANGUT;w_COMPONENT_228]);
  (0x188e4, [w_TANGUT;w_COMPONENT_229]);
  (0x188e5, [w_TANGUT;w_COMPONENT_230]);
  (0x188e6, [w_TANGUT;w_COMPONENT_231]);
  (0x188e7, [w_TANGUT;w_COMPONENT_232]);
  (0x188e8, [w_TANGUT;w_COMPONENT_233]);
  (0x188e9, [w_TANGUT;w_COMPONENT_234]);
  (0x188ea, [w_TANGUT;w_COMPONENT_235]);
  (0x188eb, [w_TANGUT;w_COMPONENT_236]);
  (0x188ec, [w_TANGUT;w_COMPONENT_237]);
  (0x188ed, [w_TANGUT;w_COMPONENT_238]);
  (0x188ee, [w_TANGUT;w_COMPONENT_239]);
  (0x188ef, [w_TANGUT;w_COMPONENT_240]);
  (0x188f0, [w_TANGUT;w_COMPONENT_241]);
  (0x188f1, [w_TANGUT;w_COMPONENT_242]);
  (0x188f2, [w_TANGUT;w_COMPONENT_243]);
  (0x188f3, [w_TANGUT;w_COMPONENT_244]);
  (0x188f4, [w_TANGUT;w_COMPONENT_245]);
  (0x188f5, [w_TANGUT;w_COMPONENT_246]);
  (0x188f6, [w_TANGUT;w_COMPONENT_247]);
  (0x188f7, [w_TANGUT;w_COMPONENT_248]);
  (0x188f8, [w_TANGUT;w_COMPONENT_249]);
  (0x188f9, [w_TANGUT;w_COMPONENT_250]);
  (0x188fa, [w_TANGUT;w_COMPONENT_251]);
  (0x188fb, [w_TANGUT;w_COMPONENT_252]);
  (0x188fc, [w_TANGUT;w_COMPONENT_253]);
  (0x188fd, [w_TANGUT;w_COMPONENT_254]);
  (0x188fe, [w_TANGUT;w_COMPONENT_255]);
  (0x188ff, [w_TANGUT;w_COMPONENT_256]);
  (0x18900, [w_TANGUT;w_COMPONENT_257]);
  (0x18901, [w_TANGUT;w_COMPONENT_258]);
  (0x18902, [w_TANGUT;w_COMPONENT_259]);
  (0x18903, [w_TANGUT;w_COMPONENT_260]);
  (0x18904, [w_TANGUT;w_COMPONENT_261]);
  (0x18905, [w_TANGUT;w_COMPONENT_262]);
  (0x18906, [w_TANGUT;w_COMPONENT_263]);
  (0x18907, [w_TANGUT;w_COMPONENT_264]);
  (0x18908, [w_TANGUT;w_COMPONENT_265]);
  (0x18909, [w_TANGUT;w_COMPONENT_266]);
  (0x1890a, [w_TANGUT;w_COMPONENT_267]);
  (0x1890b, [w_TANGUT;w_COMPONENT_268]);
  (0x1890c, [w_TANGUT;w_COMPONENT_269]);
  (0x1890d, [w_TANGUT;w_COMPONENT_270]);
  (0x1890e, [w_TANGUT;w_COMPONENT_271]);
  (0x1890f, [w_TANGUT;w_COMPONENT_272]);
  (0x18910, [w_TANGUT;w_COMPONENT_273]);
  (0x18911, [w_TANGUT;w_COMPONENT_274]);
  (0x18912, [w_TANGUT;w_COMPONENT_275]);
  (0x18913, [w_TANGUT;w_COMPONENT_276]);
  (0x18914, [w_TANGUT;w_COMPONENT_277]);
  (0x18915, [w_TANGUT;w_COMPONENT_278]);
  (0x18916, [w_TANGUT;w_COMPONENT_279]);
  (0x18917, [w_TANGUT;w_COMPONENT_280]);
  (0x18918, [w_TANGUT;w_COMPONENT_281]);
  (0x18919, [w_TANGUT;w_COMPONENT_282]);
  (0x1891a, [w_TANGUT;w_COMPONENT_283]);
  (0x1891b, [w_TANGUT;w_COMPONENT_284]);
  (0x1891c, [w_TANGUT;w_COMPONENT_285]);
  (0x1891d, [w_TANGUT;w_COMPONENT_286]);
  (0x1891e, [w_TANGUT;w_COMPONENT_287]);
  (0x1891f, [w_TANGUT;w_COMPONENT_288]);
  (0x18920, [w_TANGUT;w_COMPONENT_289]);
  (0x18921, [w_TANGUT;w_COMPONENT_290]);
  (0x18922, [w_TANGUT;w_COMPONENT_291]);
  (0x18923, [w_TANGUT;w_COMPONENT_292]);
  (0x18924, [w_TANGUT;w_COMPONENT_293]);
  (0x18925, [w_TANGUT;w_COMPONENT_294]);
  (0x18926, [w_TANGUT;w_COMPONENT_295]);
  (0x18927, [w_TANGUT;w_COMPONENT_296]);
  (0x18928, [w_TANGUT;w_COMPONENT_297]);
  (0x18929, [w_TANGUT;w_COMPONENT_298]);
  (0x1892a, [w_TANGUT;w_COMPONENT_299]);
  (0x1892b, [w_TANGUT;w_COMPONENT_300]);
  (0x1892c, [w_TANGUT;w_COMPONENT_301]);
  (0x1892d, [w_TANGUT;w_COMPONENT_302]);
  (0x1892e, [w_TANGUT;w_COMPONENT_303]);
  (0x1892f, [w_TANGUT;w_COMPONENT_304]);
  (0x18930, [w_TANGUT;w_COMPONENT_305]);
  (0x18931, [w_TANGUT;w_COMPONENT_306]);
  (0x18932, [w_TANGUT;w_COMPONENT_307]);
  (0x18933, [w_TANGUT;w_COMPONENT_308]);
  (0x18934, [w_TANGUT;w_COMPONENT_309]);
  (0x18935, [w_TANGUT;w_COMPONENT_310]);
  (0x18936, [w_TANGUT;w_COMPONENT_311]);
  (0x18937, [w_TANGUT;w_COMPONENT_312]);
  (0x18938, [w_TANGUT;w_COMPONENT_313]);
  (0x18939, [w_TANGUT;w_COMPONENT_314]);
  (0x1893a, [w_TANGUT;w_COMPONENT_315]);
  (0x1893b, [w_TANGUT;w_COMPONENT_316]);
  (0x1893c, [w_TANGUT;w_COMPONENT_317]);
  (0x1893d, [w_TANGUT;w_COMPONENT_318]);
  (0x1893e, [w_TANGUT;w_COMPONENT_319]);
  (0x1893f, [w_TANGUT;w_COMPONENT_320]);
  (0x18940, [w_TANGUT;w_COMPONENT_321]);
  (0x18941, [w_TANGUT;w_COMPONENT_322]);
  (0x18942, [w_TANGUT;w_COMPONENT_323]);
  (0x18943, [w_TANGUT;w_COMPONENT_324]);
  (0x18944, [w_TANGUT;w_COMPONENT_325]);
  (0x18945, [w_TANGUT;w_COMPONENT_326]);
  (0x18946, [w_TANGUT;w_COMPONENT_327]);
  (0x18947, [w_TANGUT;w_COMPONENT_328]);
  (0x18948, [w_TANGUT;w_COMPONENT_329]);
  (0x18949, [w_TANGUT;w_COMPONENT_330]);
  (0x1894a, [w_TANGUT;w_COMPONENT_331]);
  (0x1894b, [w_TANGUT;w_COMPONENT_332]);
  (0x1894c, [w_TANGUT;w_COMPONENT_333]);
  (0x1894d, [w_TANGUT;w_COMPONENT_334]);
  (0x1894e, [w_TANGUT;w_COMPONENT_335]);
  (0x1894f, [w_TANGUT;w_COMPONENT_336]);
  (0x18950, [w_TANGUT;w_COMPONENT_337]);
  (0x18951, [w_TANGUT;w_COMPONENT_338]);
  (0x18952, [w_TANGUT;w_COMPONENT_339]);
  (0x18953, [w_TANGUT;w_COMPONENT_340]);
  (0x18954, [w_TANGUT;w_COMPONENT_341]);
  (0x18955, [w_TANGUT;w_COMPONENT_342]);
  (0x18956, [w_TANGUT;w_COMPONENT_343]);
  (0x18957, [w_TANGUT;w_COMPONENT_344]);
  (0x18958, [w_TANGUT;w_COMPONENT_345]);
  (0x18959, [w_TANGUT;w_COMPONENT_346]);
  (0x1895a, [w_TANGUT;w_COMPONENT_347]);
  (0x1895b, [w_TANGUT;w_COMPONENT_348]);
  (0x1895c, [w_TANGUT;w_COMPONENT_349]);
  (0x1895d, [w_TANGUT;w_COMPONENT_350]);
  (0x1895e, [w_TANGUT;w_COMPONENT_351]);
  (0x1895f, [w_TANGUT;w_COMPONENT_352]);
  (0x18960, [w_TANGUT;w_COMPONENT_353]);
  (0x18961, [w_TANGUT;w_COMPONENT_354]);
  (0x18962, [w_TANGUT;w_COMPONENT_355]);
  (0x18963, [w_TANGUT;w_COMPONENT_356]);
  (0x18964, [w_TANGUT;w_COMPONENT_357]);
  (0x18965, [w_TANGUT;w_COMPONENT_358]);
  (0x18966, [w_TANGUT;w_COMPONENT_359]);
  (0x18967, [w_TANGUT;w_COMPONENT_360]);
  (0x18968, [w_TANGUT;w_COMPONENT_361]);
  (0x18969, [w_TANGUT;w_COMPONENT_362]);
  (0x1896a, [w_TANGUT;w_COMPONENT_363]);
  (0x1896b, [w_TANGUT;w_COMPONENT_364]);
  (0x1896c, [w_TANGUT;w_COMPONENT_365]);
  (0x1896d, [w_TANGUT;w_COMPONENT_366]);
  (0x1896e, [w_TANGUT;w_COMPONENT_367]);
  (0x1896f, [w_TANGUT;w_COMPONENT_368]);
  (0x18970, [w_TANGUT;w_COMPONENT_369]);
  (0x18971, [w_TANGUT;w_COMPONENT_370]);
  (0x18972, [w_TANGUT;w_COMPONENT_371]);
  (0x18973, [w_TANGUT;w_COMPONENT_372]);
  (0x18974, [w_TANGUT;w_COMPONENT_373]);
  (0x18975, [w_TANGUT;w_COMPONENT_374]);
  (0x18976, [w_TANGUT;w_COMPONENT_375]);
  (0x18977, [w_TANGUT;w_COMPONENT_376]);
  (0x18978, [w_TANGUT;w_COMPONENT_377]);
  (0x18979, [w_TANGUT;w_COMPONENT_378]);
  (0x1897a, [w_TANGUT;w_COMPONENT_379]);
  (0x1897b, [w_TANGUT;w_COMPONENT_380]);
  (0x1897c, [w_TANGUT;w_COMPONENT_381]);
  (0x1897d, [w_TANGUT;w_COMPONENT_382]);
  (0x1897e, [w_TANGUT;w_COMPONENT_383]);
  (0x1897f, [w_TANGUT;w_COMPONENT_384]);
  (0x18980, [w_TANGUT;w_COMPONENT_385]);
  (0x18981, [w_TANGUT;w_COMPONENT_386]);
  (0x18982, [w_TANGUT;w_COMPONENT_387]);
  (0x18983, [w_TANGUT;w_COMPONENT_388]);
  (0x18984, [w_TANGUT;w_COMPONENT_389]);
  (0x18985, [w_TANGUT;w_COMPONENT_390]);
  (0x18986, [w_TANGUT;w_COMPONENT_391]);
  (0x18987, [w_TANGUT;w_COMPONENT_392]);
  (0x18988, [w_TANGUT;w_COMPONENT_393]);
  (0x18989, [w_TANGUT;w_COMPONENT_394]);
  (0x1898a, [w_TANGUT;w_COMPONENT_395]);
  (0x1898b, [w_TANGUT;w_COMPONENT_396]);
  (0x1898c, [w_TANGUT;w_COMPONENT_397]);
  (0x1898d, [w_TANGUT;w_COMPONENT_398]);
  (0x1898e, [w_TANGUT;w_COMPONENT_399]);
  (0x1898f, [w_TANGUT;w_COMPONENT_400]);
  (0x18990, [w_TANGUT;w_COMPONENT_401]);
  (0x18991, [w_TANGUT;w_COMPONENT_402]);
  (0x18992, [w_TANGUT;w_COMPONENT_403]);
  (0x18993, [w_TANGUT;w_COMPONENT_404]);
  (0x18994, [w_TANGUT;w_COMPONENT_405]);
  (0x18995, [w_TANGUT;w_COMPONENT_406]);
  (0x18996, [w_TANGUT;w_COMPONENT_407]);
  (0x18997, [w_TANGUT;w_COMPONENT_408]);
  (0x18998, [w_TANGUT;w_COMPONENT_409]);
  (0x18999, [w_TANGUT;w_COMPONENT_410]);
  (0x1899a, [w_TANGUT;w_COMPONENT_411]);
  (0x1899b, [w_TANGUT;w_COMPONENT_412]);
  (0x1899c, [w_TANGUT;w_COMPONENT_413]);
  (0x1899d, [w_TANGUT;w_COMPONENT_414]);
  (0x1899e, [w_TANGUT;w_COMPONENT_415]);
  (0x1899f, [w_TANGUT;w_COMPONENT_416]);
  (0x189a0, [w_TANGUT;w_COMPONENT_417]);
  (0x189a1, [w_TANGUT;w_COMPONENT_418]);
  (0x189a2, [w_TANGUT;w_COMPONENT_419]);
  (0x189a3, [w_TANGUT;w_COMPONENT_420]);
  (0x189a4, [w_TANGUT;w_COMPONENT_421]);
  (0x189a5, [w_TANGUT;w_COMPONENT_422]);
  (0x189a6, [w_TANGUT;w_COMPONENT_423]);
  (0x189a7, [w_TANGUT;w_COMPONENT_424]);
  (0x189a8, [w_TANGUT;w_COMPONENT_425]);
  (0x189a9, [w_TANGUT;w_COMPONENT_426]);
  (0x189aa, [w_TANGUT;w_COMPONENT_427]);
  (0x189ab, [w_TANGUT;w_COMPONENT_428]);
  (0x189ac, [w_TANGUT;w_COMPONENT_429]);
  (0x189ad, [w_TANGUT;w_COMPONENT_430]);
  (0x189ae, [w_TANGUT;w_COMPONENT_431]);
  (0x189af, [w_TANGUT;w_COMPONENT_432]);
  (0x189b0, [w_TANGUT;w_COMPONENT_433]);
  (0x189b1, [w_TANGUT;w_COMPONENT_434]);
  (0x189b2, [w_TANGUT;w_COMPONENT_435]);
  (0x189b3, [w_TANGUT;w_COMPONENT_436]);
  (0x189b4, [w_TANGUT;w_COMPONENT_437]);
  (0x189b5, [w_TANGUT;w_COMPONENT_438]);
  (0x189b6, [w_TANGUT;w_COMPONENT_439]);
  (0x189b7, [w_TANGUT;w_COMPONENT_440]);
  (0x189b8, [w_TANGUT;w_COMPONENT_441]);
  (0x189b9, [w_TANGUT;w_COMPONENT_442]);
  (0x189ba, [w_TANGUT;w_COMPONENT_443]);
  (0x189bb, [w_TANGUT;w_COMPONENT_444]);
  (0x189bc, [w_TANGUT;w_COMPONENT_445]);
  (0x189bd, [w_TANGUT;w_COMPONENT_446]);
  (0x189be, [w_TANGUT;w_COMPONENT_447]);
  (0x189bf, [w_TANGUT;w_COMPONENT_448]);
  (0x189c0, [w_TANGUT;w_COMPONENT_449]);
  (0x189c1, [w_TANGUT;w_COMPONENT_450]);
  (0x189c2, [w_TANGUT;w_COMPONENT_451]);
  (0x189c3, [w_TANGUT;w_COMPONENT_452]);
  (0x189c4, [w_TANGUT;w_COMPONENT_453]);
  (0x189c5, [w_TANGUT;w_COMPONENT_454]);
  (0x189c6, [w_TANGUT;w_COMPONENT_455]);
  (0x189c7, [w_TANGUT;w_COMPONENT_456]);
  (0x189c8, [w_TANGUT;w_COMPONENT_457]);
  (0x189c9, [w_TANGUT;w_COMPONENT_458]);
  (0x189ca, [w_TANGUT;w_COMPONENT_459]);
  (0x189cb, [w_TANGUT;w_COMPONENT_460]);
  (0x189cc, [w_TANGUT;w_COMPONENT_461]);
  (0x189cd, [w_TANGUT;w_COMPONENT_462]);
  (0x189ce, [w_TANGUT;w_COMPONENT_463]);
  (0x189cf, [w_TANGUT;w_COMPONENT_464]);
  (0x189d0, [w_TANGUT;w_COMPONENT_465]);
  (0x189d1, [w_TANGUT;w_COMPONENT_466]);
  (0x189d2, [w_TANGUT;w_COMPONENT_467]);
  (0x189d3, [w_TANGUT;w_COMPONENT_468]);
  (0x189d4, [w_TANGUT;w_COMPONENT_469]);
  (0x189d5, [w_TANGUT;w_COMPONENT_470]);
  (0x189d6, [w_TANGUT;w_COMPONENT_471]);
  (0x189d7, [w_TANGUT;w_COMPONENT_472]);
  (0x189d8, [w_TANGUT;w_COMPONENT_473]);
  (0x189d9, [w_TANGUT;w_COMPONENT_474]);
  (0x189da, [w_TANGUT;w_COMPONENT_475]);
  (0x189db, [w_TANGUT;w_COMPONENT_476]);
  (0x189dc, [w_TANGUT;w_COMPONENT_477]);
  (0x189dd, [w_TANGUT;w_COMPONENT_478]);
  (0x189de, [w_TANGUT;w_COMPONENT_479]);
  (0x189df, [w_TANGUT;w_COMPONENT_480]);
  (0x189e0, [w_TANGUT;w_COMPONENT_481]);
  (0x189e1, [w_TANGUT;w_COMPONENT_482]);
  (0x189e2, [w_TANGUT;w_COMPONENT_483]);
  (0x189e3, [w_TANGUT;w_COMPONENT_484]);
  (0x189e4, [w_TANGUT;w_COMPONENT_485]);
  (0x189e5, [w_TANGUT;w_COMPONENT_486]);
  (0x189e6, [w_TANGUT;w_COMPONENT_487]);
  (0x189e7, [w_TANGUT;w_COMPONENT_488]);
  (0x189e8, [w_TANGUT;w_COMPONENT_489]);
  (0x189e9, [w_TANGUT;w_COMPONENT_490]);
  (0x189ea, [w_TANGUT;w_COMPONENT_491]);
  (0x189eb, [w_TANGUT;w_COMPONENT_492]);
  (0x189ec, [w_TANGUT;w_COMPONENT_493]);
  (0x189ed, [w_TANGUT;w_COMPONENT_494]);
  (0x189ee, [w_TANGUT;w_COMPONENT_495]);
  (0x189ef, [w_TANGUT;w_COMPONENT_496]);
  (0x189f0, [w_TANGUT;w_COMPONENT_497]);
  (0x189f1, [w_TANGUT;w_COMPONENT_498]);
  (0x189f2, [w_TANGUT;w_COMPONENT_499]);
  (0x189f3, [w_TANGUT;w_COMPONENT_500]);
  (0x189f4, [w_TANGUT;w_COMPONENT_501]);
  (0x189f5, [w_TANGUT;w_COMPONENT_502]);
  (0x189f6, [w_TANGUT;w_COMPONENT_503]);
  (0x189f7, [w_TANGUT;w_COMPONENT_504]);
  (0x189f8, [w_TANGUT;w_COMPONENT_505]);
  (0x189f9, [w_TANGUT;w_COMPONENT_506]);
  (0x189fa, [w_TANGUT;w_COMPONENT_507]);
  (0x189fb, [w_TANGUT;w_COMPONENT_508]);
  (0x189fc, [w_TANGUT;w_COMPONENT_509]);
  (0x189fd, [w_TANGUT;w_COMPONENT_510]);
  (0x189fe, [w_TANGUT;w_COMPONENT_511]);
  (0x189ff, [w_TANGUT;w_COMPONENT_512]);
  (0x18a00, [w_TANGUT;w_COMPONENT_513]);
  (0x18a01, [w_TANGUT;w_COMPONENT_514]);
  (0x18a02, [w_TANGUT;w_COMPONENT_515]);
  (0x18a03, [w_TANGUT;w_COMPONENT_516]);
  (0x18a04, [w_TANGUT;w_COMPONENT_517]);
  (0x18a05, [w_TANGUT;w_COMPONENT_518]);
  (0x18a06, [w_TANGUT;w_COMPONENT_519]);
  (0x18a07, [w_TANGUT;w_COMPONENT_520]);
  (0x18a08, [w_TANGUT;w_COMPONENT_521]);
  (0x18a09, [w_TANGUT;w_COMPONENT_522]);
  (0x18a0a, [w_TANGUT;w_COMPONENT_523])].

Definition NAMES_62 : list (N * (list str)) := [
  (0x18a0b, [w_TANGUT;w_COMPONENT_524]);
  (0x18a0c, [w_TANGUT;w_COMPONENT_525]);
  (0x18a0d, [w_TANGUT;w_COMPONENT_526]);
  (0x18a0e, [w_TANGUT;w_COMPONENT_527]);
  (0x18a0f, [w_TANGUT;w_COMPONENT_528]);
  (0x18a10, [w_TANGUT;w_COMPONENT_529]);
  (0x18a11, [w_TANGUT;w_COMPONENT_530]);
  (0x18a12, [w_TANGUT;w_COMPONENT_531]);
  (0x18a13, [w_TANGUT;w_COMPONENT_532]);
  (0x18a14, [w_TANGUT;w_COMPONENT_533]);
  (0x18a15, [w_TANGUT;w_COMPONENT_534]);
  (0x18a16, [w_TANGUT;w_COMPONENT_535]);
  (0x18a17, [w_TANGUT;w_COMPONENT_536]);
  (0x18a18, [w_TANGUT;w_COMPONENT_537]);
  (0x18a19, [w_TANGUT;w_COMPONENT_538]);
  (0x18a1a, [w_TANGUT;w_COMPONENT_539]);
  (0x18a1b, [w_TANGUT;w_COMPONENT_540]);
  (0x18a1c, [w_TANGUT;w_COMPONENT_541]);
  (0x18a1d, [w_TANGUT;w_COMPONENT_542]);
  (0x18a1e, [w_TANGUT;w_COMPONENT_543]);
  (0x18a1f, [w_TANGUT;w_COMPONENT_544]);
  (0x18a20, [w_TANGUT;w_COMPONENT_545]);
  (0x18a21, [w_TANGUT;w_COMPONENT_546]);
  (0x18a22, [w_TANGUT;w_COMPONENT_547]);
  (0x18a23, [w_TANGUT;w_COMPONENT_548]);
  (0x18a24, [w_TANGUT;w_COMPONENT_549]);
  (0x18a25, [w_TANGUT;w_COMPONENT_550]);
  (0x18a26, [w_TANGUT;w_COMPONENT_551]);
  (0x18a27, [w_TANGUT;w_COMPONENT_552]);
  (0x18a28, [w_TANGUT;w_COMPONENT_553]);
  (0x18a29, [w_TANGUT;w_COMPONENT_554]);
  (0x18a2a, [w_TANGUT;w_COMPONENT_555]);
  (0x18a2b, [w_TANGUT;w_COMPONENT_556]);
  (0x18a2c, [w_TANGUT;w_COMPONENT_557]);
  (0x18a2d, [w_TANGUT;w_COMPONENT_558]);
  (0x18a2e, [w_TANGUT;w_COMPONENT_559]);
  (0x18a2f, [w_TANGUT;w_COMPONENT_560]);
  (0x18a30, [w_TANGUT;w_COMPONENT_561]);
  (0x18a31, [w_TANGUT;w_COMPONENT_562]);
  (0x18a32, [w_TANGUT;w_COMPONENT_563]);
  (0x18a33, [w_TANGUT;w_COMPONENT_564]);
  (0x18a34, [w_TANGUT;w_COMPONENT_565]);
  (0x18a35, [w_TANGUT;w_COMPONENT_566]);
  (0x18a36, [w_TANGUT;w_COMPONENT_567]);
  (0x18a37, [w_TANGUT;w_COMPONENT_568]);
  (0x18a38, [w_TANGUT;w_COMPONENT_569]);
  (0x18a39, [w_TANGUT;w_COMPONENT_570]);
  (0x18a3a, [w_TANGUT;w_COMPONENT_571]);
  (0x18a3b, [w_TANGUT;w_COMPONENT_572]);
  (0x18a3c, [w_TANGUT;w_COMPONENT_573]);
  (0x18a3d, [w_TANGUT;w_COMPONENT_574]);
  (0x18a3e, [w_TANGUT;w_COMPONENT_575]);
  (0x18a3f, [w_TANGUT;w_COMPONENT_576]);
  (0x18a40, [w_TANGUT;w_COMPONENT_577]);
  (0x18a41, [w_TANGUT;w_COMPONENT_578]);
  (0x18a42, [w_TANGUT;w_COMPONENT_579]);
  (0x18a43, [w_TANGUT;w_COMPONENT_580]);
  (0x18a44, [w_TANGUT;w_COMPONENT_581]);
  (0x18a45, [w_TANGUT;w_COMPONENT_582]);
  (0x18a46, [w_TANGUT;w_COMPONENT_583]);
  (0x18a47, [w_TANGUT;w_COMPONENT_584]);
  (0x18a48, [w_TANGUT;w_COMPONENT_585]);
  (0x18a49, [w_TANGUT;w_COMPONENT_586]);
  (0x18a4a, [w_TANGUT;w_COMPONENT_587]);
  (0x18a4b, [w_TANGUT;w_COMPONENT_588]);
  (0x18a4c, [w_TANGUT;w_COMPONENT_589]);
  (0x18a4d, [w_TANGUT;w_COMPONENT_590]);
  (0x18a4e, [w_TANGUT;w_COMPONENT_591]);
  (0x18a4f, [w_TANGUT;w_COMPONENT_592]);
  (0x18a50, [w_TANGUT;w_COMPONENT_593]);
  (0x18a51, [w_TANGUT;w_COMPONENT_594]);
  (0x18a52, [w_TANGUT;w_COMPONENT_595]);
  (0x18a53, [w_TANGUT;w_COMPONENT_596]);
  (0x18a54, [w_TANGUT;w_COMPONENT_597]);
  (0x18a55, [w_TANGUT;w_COMPONENT_598]);
  (0x18a56, [w_TANGUT;w_COMPONENT_599]);
  (0x18a57, [w_TANGUT;w_COMPONENT_600]);
  (0x18a58, [w_TANGUT;w_COMPONENT_601]);
  (0x18a59, [w_TANGUT;w_COMPONENT_602]);
  (0x18a5a, [w_TANGUT;w_COMPONENT_603]);
  (0x18a5b, [w_TANGUT;w_COMPONENT_604]);
  (0x18a5c, [w_TANGUT;w_COMPONENT_605]);
  (0x18a5d, [w_TANGUT;w_COMPONENT_606]);
  (0x18a5e, [w_TANGUT;w_COMPONENT_607]);
  (0x18a5f, [w_TANGUT;w_COMPONENT_608]);
  (0x18a60, [w_TANGUT;w_COMPONENT_609]);
  (0x18a61, [w_TANGUT;w_COMPONENT_610]);
  (0x18a62, [w_TANGUT;w_COMPONENT_611]);
  (0x18a63, [w_TANGUT;w_COMPONENT_612]);
  (0x18a64, [w_TANGUT;w_COMPONENT_613]);
  (0x18a65, [w_TANGUT;w_COMPONENT_614]);
  (0x18a66, [w_TANGUT;w_COMPONENT_615]);
  (0x18a67, [w_TANGUT;w_COMPONENT_616]);
  (0x18a68, [w_TANGUT;w_COMPONENT_617]);
  (0x18a69, [w_TANGUT;w_COMPONENT_618]);
  (0x18a6a, [w_TANGUT;w_COMPONENT_619]);
  (0x18a6b, [w_TANGUT;w_COMPONENT_620]);
  (0x18a6c, [w_TANGUT;w_COMPONENT_621]);
  (0x18a6d, [w_TANGUT;w_COMPONENT_622]);
  (0x18a6e, [w_TANGUT;w_COMPONENT_623]);
  (0x18a6f, [w_TANGUT;w_COMPONENT_624]);
  (0x18a70, [w_TANGUT;w_COMPONENT_625]);
  (0x18a71, [w_TANGUT;w_COMPONENT_626]);
  (0x18a72, [w_TANGUT;w_COMPONENT_627]);
  (0x18a73, [w_TANGUT;w_COMPONENT_628]);
  (0x18a74, [w_TANGUT;w_COMPONENT_629]);
  (0x18a75, [w_TANGUT;w_COMPONENT_630]);
  (0x18a76, [w_TANGUT;w_COMPONENT_631]);
  (0x18a77, [w_TANGUT;w_COMPONENT_632]);
  (0x18a78, [w_TANGUT;w_COMPONENT_633]);
  (0x18a79, [w_TANGUT;w_COMPONENT_634]);
  (0x18a7a, [w_TANGUT;w_COMPONENT_635]);
  (0x18a7b, [w_TANGUT;w_COMPONENT_636]);
  (0x18a7c, [w_TANGUT;w_COMPONENT_637]);
  (0x18a7d, [w_TANGUT;w_COMPONENT_638]);
  (0x18a7e, [w_TANGUT;w_COMPONENT_639]);
  (0x18a7f, [w_TANGUT;w_COMPONENT_640]);
  (0x18a80, [w_TANGUT;w_COMPONENT_641]);
  (0x18a81, [w_TANGUT;w_COMPONENT_642]);
  (0x18a82, [w_TANGUT;w_COMPONENT_643]);
  (0x18a83, [w_TANGUT;w_COMPONENT_644]);
  (0x18a84, [w_TANGUT;w_COMPONENT_645]);
  (0x18a85, [w_TANGUT;w_COMPONENT_646]);
  (0x18a86, [w_TANGUT;w_COMPONENT_647]);
  (0x18a87, [w_TANGUT;w_COMPONENT_648]);
  (0x18a88, [w_TANGUT;w_COMPONENT_649]);
  (0x18a89, [w_TANGUT;w_COMPONENT_650]);
  (0x18a8a, [w_TANGUT;w_COMPONENT_651]);
  (0x18a8b, [w_TANGUT;w_COMPONENT_652]);
  (0x18a8c, [w_TANGUT;w_COMPONENT_653]);
  (0x18a8d, [w_TANGUT;w_COMPONENT_654]);
  (0x18a8e, [w_TANGUT;w_COMPONENT_655]);
  (0x18a8f, [w_TANGUT;w_COMPONENT_656]);
  (0x18a90, [w_TANGUT;w_COMPONENT_657]);
  (0x18a91, [w_TANGUT;w_COMPONENT_658]);
  (0x18a92, [w_TANGUT;w_COMPONENT_659]);
  (0x18a93, [w_TANGUT;w_COMPONENT_660]);
  (0x18a94, [w_TANGUT;w_COMPONENT_661]);
  (0x18a95, [w_TANGUT;w_COMPONENT_662]);
  (0x18a96, [w_TANGUT;w_COMPONENT_663]);
  (0x18a97, [w_TANGUT;w_COMPONENT_664]);
  (0x18a98, [w_TANGUT;w_COMPONENT_665]);
  (0x18a99, [w_TANGUT;w_COMPONENT_666]);
  (0x18a9a, [w_TANGUT;w_COMPONENT_667]);
  (0x18a9b, [w_TANGUT;w_COMPONENT_668]);
  (0x18a9c, [w_TANGUT;w_COMPONENT_669]);
  (0x18a9d, [w_TANGUT;w_COMPONENT_670]);
  (0x18a9e, [w_TANGUT;w_COMPONENT_671]);
  (0x18a9f, [w_TANGUT;w_COMPONENT_672]);
  (0x18aa0, [w_TANGUT;w_COMPONENT_673]);
  (0x18aa1, [w_TANGUT;w_COMPONENT_674]);
  (0x18aa2, [w_TANGUT;w_COMPONENT_675]);
  (0x18aa3, [w_TANGUT;w_COMPONENT_676]);
  (0x18aa4, [w_TANGUT;w_COMPONENT_677]);
  (0x18aa5, [w_TANGUT;w_COMPONENT_678]);
  (0x18aa6, [w_TANGUT;w_COMPONENT_679]);
  (0x18aa7, [w_TANGUT;w_COMPONENT_680]);
  (0x18aa8, [w_TANGUT;w_COMPONENT_681]);
  (0x18aa9, [w_TANGUT;w_COMPONENT_682]);
  (0x18aaa, [w_TANGUT;w_COMPONENT_683]);
  (0x18aab, [w_TANGUT;w_COMPONENT_684]);
  (0x18aac, [w_TANGUT;w_COMPONENT_685]);
  (0x18aad, [w_TANGUT;w_COMPONENT_686]);
  (0x18aae, [w_TANGUT;w_COMPONENT_687]);
  (0x18aaf, [w_TANGUT;w_COMPONENT_688]);
  (0x18ab0, [w_TANGUT;w_COMPONENT_689]);
  (0x18ab1, [w_TANGUT;w_COMPONENT_690]);
  (0x18ab2, [w_TANGUT;w_COMPONENT_691]);
  (0x18ab3, [w_TANGUT;w_COMPONENT_692]);
  (0x18ab4, [w_TANGUT;w_COMPONENT_693]);
  (0x18ab5, [w_TANGUT;w_COMPONENT_694]);
  (0x18ab6, [w_TANGUT;w_COMPONENT_695]);
  (0x18ab7, [w_TANGUT;w_COMPONENT_696]);
  (0x18ab8, [w_TANGUT;w_COMPONENT_697]);
  (0x18ab9, [w_TANGUT;w_COMPONENT_698]);
  (0x18aba, [w_TANGUT;w_COMPONENT_699]);
  (0x18abb, [w_TANGUT;w_COMPONENT_700]);
  (0x18abc, [w_TANGUT;w_COMPONENT_701]);
  (0x18abd, [w_TANGUT;w_COMPONENT_702]);
  (0x18abe, [w_TANGUT;w_COMPONENT_703]);
  (0x18abf, [w_TANGUT;w_COMPONENT_704]);
  (0x18ac0, [w_TANGUT;w_COMPONENT_705]);
  (0x18ac1, [w_TANGUT;w_COMPONENT_706]);
  (0x18ac2, [w_TANGUT;w_COMPONENT_707]);
  (0x18ac3, [w_TANGUT;w_COMPONENT_708]);
  (0x18ac4, [w_TANGUT;w_COMPONENT_709]);
  (0x18ac5, [w_TANGUT;w_COMPONENT_710]);
  (0x18ac6, [w_TANGUT;w_COMPONENT_711]);
  (0x18ac7, [w_TANGUT;w_COMPONENT_712]);
  (0x18ac8, [w_TANGUT;w_COMPONENT_713]);
  (0x18ac9, [w_TANGUT;w_COMPONENT_714]);
  (0x18aca, [w_TANGUT;w_COMPONENT_715]);
  (0x18acb, [w_TANGUT;w_COMPONENT_716]);
  (0x18acc, [w_TANGUT;w_COMPONENT_717]);
  (0x18acd, [w_TANGUT;w_COMPONENT_718]);
  (0x18ace, [w_TANGUT;w_COMPONENT_719]);
  (0x18acf, [w_TANGUT;w_COMPONENT_720]);
  (0x18ad0, [w_TANGUT;w_COMPONENT_721]);
  (0x18ad1, [w_TANGUT;w_COMPONENT_722]);
  (0x18ad2, [w_TANGUT;w_COMPONENT_723]);
  (0x18ad3, [w_TANGUT;w_COMPONENT_724]);
  (0x18ad4, [w_TANGUT;w_COMPONENT_725]);
  (0x18ad5, [w_TANGUT;w_COMPONENT_726]);
  (0x18ad6, [w_TANGUT;w_COMPONENT_727]);
  (0x18ad7, [w_TANGUT;w_COMPONENT_728]);
  (0x18ad8, [w_TANGUT;w_COMPONENT_729]);
  (0x18ad9, [w_TANGUT;w_COMPONENT_730]);
  (0x18ada, [w_TANGUT;w_COMPONENT_731]);
  (0x18adb, [w_TANGUT;w_COMPONENT_732]);
  (0x18adc, [w_TANGUT;w_COMPONENT_733]);
  (0x18add, [w_TANGUT;w_COMPONENT_734]);
  (0x18ade, [w_TANGUT;w_COMPONENT_735]);
  (0x18adf, [w_TANGUT;w_COMPONENT_736]);
  (0x18ae0, [w_TANGUT;w_COMPONENT_737]);
  (0x18ae1, [w_TANGUT;w_COMPONENT_738]);
  (0x18ae2, [w_TANGUT;w_COMPONENT_739]);
  (0x18ae3, [w_TANGUT;w_COMPONENT_740]);
  (0x18ae4, [w_TANGUT;w_COMPONENT_741]);
  (0x18ae5, [w_TANGUT;w_COMPONENT_742]);
  (0x18ae6, [w_TANGUT;w_COMPONENT_743]);
  (0x18ae7, [w_TANGUT;w_COMPONENT_744]);
  (0x18ae8, [w_TANGUT;w_COMPONENT_745]);
  (0x18ae9, [w_TANGUT;w_COMPONENT_746]);
  (0x18aea, [w_TANGUT;w_COMPONENT_747]);
  (0x18aeb, [w_TANGUT;w_COMPONENT_748]);
  (0x18aec, [w_TANGUT;w_COMPONENT_749]);
  (0x18aed, [w_TANGUT;w_COMPONENT_750]);
  (0x18aee, [w_TANGUT;w_COMPONENT_751]);
  (0x18aef, [w_TANGUT;w_COMPONENT_752]);
  (0x18af0, [w_TANGUT;w_COMPONENT_753]);
  (0x18af1, [w_TANGUT;w_COMPONENT_754]);
  (0x18af2, [w_TANGUT;w_COMPONENT_755]);
  (0x1b000, [w_KATAKANA;w_LETTER;w_ARCHAIC;w_E]);
  (0x1b001, [w_HIRAGANA;w_LETTER;w_ARCHAIC;w_YE]);
  (0x1b002, [w_HENTAIGANA;w_LETTER;w_A_1]);
  (0x1b003, [w_HENTAIGANA;w_LETTER;w_A_2]);
  (0x1b004, [w_HENTAIGANA;w_LETTER;w_A_3]);
  (0x1b005, [w_HENTAIGANA;w_LETTER;w_A_WO]);
  (0x1b006, [w_HENTAIGANA;w_LETTER;w_I_1]);
  (0x1b007, [w_HENTAIGANA;w_LETTER;w_I_2]);
  (0x1b008, [w_HENTAIGANA;w_LETTER;w_I_3]);
  (0x1b009, [w_HENTAIGANA;w_LETTER;w_I_4]);
  (0x1b00a, [w_HENTAIGANA;w_LETTER;w_U_1]);
  (0x1b00b, [w_HENTAIGANA;w_LETTER;w_U_2]);
  (0x1b00c, [w_HENTAIGANA;w_LETTER;w_U_3]);
  (0x1b00d, [w_HENTAIGANA;w_LETTER;w_U_4]);
  (0x1b00e, [w_HENTAIGANA;w_LETTER;w_U_5]);
  (0x1b00f, [w_HENTAIGANA;w_LETTER;w_E_2]);
  (0x1b010, [w_HENTAIGANA;w_LETTER;w_E_3]);
  (0x1b011, [w_HENTAIGANA;w_LETTER;w_E_4]);
  (0x1b012, [w_HENTAIGANA;w_LETTER;w_E_5]);
  (0x1b013, [w_HENTAIGANA;w_LETTER;w_E_6]);
  (0x1b014, [w_HENTAIGANA;w_LETTER;w_O_1]);
  (0x1b015, [w_HENTAIGANA;w_LETTER;w_O_2]);
  (0x1b016, [w_HENTAIGANA;w_LETTER;w_O_3]);
  (0x1b017, [w_HENTAIGANA;w_LETTER;w_KA_1]);
  (0x1b018, [w_HENTAIGANA;w_LETTER;w_KA_2]);
  (0x1b019, [w_HENTAIGANA;w_LETTER;w_KA_3]);
  (0x1b01a, [w_HENTAIGANA;w_LETTER;w_KA_4]);
  (0x1b01b, [w_HENTAIGANA;w_LETTER;w_KA_5]);
  (0x1b01c, [w_HENTAIGANA;w_LETTER;w_KA_6]);
  (0x1b01d, [w_HENTAIGANA;w_LETTER;w_KA_7]);
  (0x1b01e, [w_HENTAIGANA;w_LETTER;w_KA_8]);
  (0x1b01f, [w_HENTAIGANA;w_LETTER;w_KA_9]);
  (0x1b020, [w_HENTAIGANA;w_LETTER;w_KA_10]);
  (0x1b021, [w_HENTAIGANA;w_LETTER;w_KA_11]);
  (0x1b022, [w_HENTAIGANA;w_LETTER;w_KA_KE]);
  (0x1b023, [w_HENTAIGANA;w_LETTER;w_KI_1]);
  (0x1b024, [w_HENTAIGANA;w_LETTER;w_KI_2]);
  (0x1b025, [w_HENTAIGANA;w_LETTER;w_KI_3]);
  (0x1b026, [w_HENTAIGANA;w_LETTER;w_KI_4]);
  (0x1b027, [w_HENTAIGANA;w_LETTER;w_KI_5]);
  (0x1b028, [w_HENTAIGANA;w_LETTER;w_KI_6]);
  (0x1b029, [w_HENTAIGANA;w_LETTER;w_KI_7]);
  (0x1b02a, [w_HENTAIGANA;w_LETTER;w_KI_8]);
  (0x1b02b, [w_HENTAIGANA;w_LETTER;w_KU_1]);
  (0x1b02c, [w_HENTAIGANA;w_LETTER;w_KU_2]);
  (0x1b02d, [w_HENTAIGANA;w_LETTER;w_KU_3]);
  (0x1b02e, [w_HENTAIGANA;w_LETTER;w_KU_4]);
  (0x1b02f, [w_HENTAIGANA;w_LETTER;w_KU_5]);
  (0x1b030, [w_HENTAIGANA;w_LETTER;w_KU_6]);
  (0x1b031, [w_HENTAIGANA;w_LETTER;w_KU_7]);
  (0x1b032, [w_HENTAIGANA;w_LETTER;w_KE_1]);
  (0x1b033, [w_HENTAIGANA;w_LETTER;w_KE_2]);
  (0x1b034, [w_HENTAIGANA;w_LETTER;w_KE_3]);
  (0x1b035, [w_HENTAIGANA;w_LETTER;w_KE_4]);
  (0x1b036, [w_HENTAIGANA;w_LETTER;w_KE_5]);
  (0x1b037, [w_HENTAIGANA;w_LETTER;w_KE_6]);
  (0x1b038, [w_HENTAIGANA;w_LETTER;w_KO_1]);
  (0x1b039, [w_HENTAIGANA;w_LETTER;w_KO_2]);
  (0x1b03a, [w_HENTAIGANA;w_LETTER;w_KO_3]);
  (0x1b03b, [w_HENTAIGANA;w_LETTER;w_KO_KI]);
  (0x1b03c, [w_HENTAIGANA;w_LETTER;w_SA_1]);
  (0x1b03d, [w_HENTAIGANA;w_LETTER;w_SA_2]);
  (0x1b03e, [w_HENTAIGANA;w_LETTER;w_SA_3]);
  (0x1b03f, [w_HENTAIGANA;w_LETTER;w_SA_4]);
  (0x1b040, [w_HENTAIGANA;w_LETTER;w_SA_5]);
  (0x1b041, [w_HENTAIGANA;w_LETTER;w_SA_6]);
  (0x1b042, [w_HENTAIGANA;w_LETTER;w_SA_7]);
  (0x1b043, [w_HENTAIGANA;w_LETTER;w_SA_8]);
  (0x1b044, [w_HENTAIGANA;w_LETTER;w_SI_1]);
  (0x1b045, [w_HENTAIGANA;w_LETTER;w_SI_2]);
  (0x1b046, [w_HENTAIGANA;w_LETTER;w_SI_3]);
  (0x1b047, [w_HENTAIGANA;w_LETTER;w_SI_4]);
  (0x1b048, [w_HENTAIGANA;w_LETTER;w_SI_5]);
  (0x1b049, [w_HENTAIGANA;w_LETTER;w_SI_6]);
  (0x1b04a, [w_HENTAIGANA;w_LETTER;w_SU_1]);
  (0x1b04b, [w_HENTAIGANA;w_LETTER;w_SU_2]);
  (0x1b04c, [w_HENTAIGANA;w_LETTER;w_SU_3]);
  (0x1b04d, [w_HENTAIGANA;w_LETTER;w_SU_4]);
  (0x1b04e, [w_HENTAIGANA;w_LETTER;w_SU_5]);
  (0x1b04f, [w_HENTAIGANA;w_LETTER;w_SU_6]);
  (0x1b050, [w_HENTAIGANA;w_LETTER;w_SU_7]);
  (0x1b051, [w_HENTAIGANA;w_LETTER;w_SU_8]);
  (0x1b052, [w_HENTAIGANA;w_LETTER;w_SE_1]);
  (0x1b053, [w_HENTAIGANA;w_LETTER;w_SE_2]);
  (0x1b054, [w_HENTAIGANA;w_LETTER;w_SE_3]);
  (0x1b055, [w_HENTAIGANA;w_LETTER;w_SE_4]);
  (0x1b056, [w_HENTAIGANA;w_LETTER;w_SE_5]);
  (0x1b057, [w_HENTAIGANA;w_LETTER;w_SO_1]);
  (0x1b058, [w_HENTAIGANA;w_LETTER;w_SO_2]);
  (0x1b059, [w_HENTAIGANA;w_LETTER;w_SO_3]);
  (0x1b05a, [w_HENTAIGANA;w_LETTER;w_SO_4]);
  (0x1b05b, [w_HENTAIGANA;w_LETTER;w_SO_5]);
  (0x1b05c, [w_HENTAIGANA;w_LETTER;w_SO_6]);
  (0x1b05d, [w_HENTAIGANA;w_LETTER;w_SO_7]);
  (0x1b05e, [w_HENTAIGANA;w_LETTER;w_TA_1]);
  (0x1b05f, [w_HENTAIGANA;w_LETTER;w_TA_2]);
  (0x1b060, [w_HENTAIGANA;w_LETTER;w_TA_3]);
  (0x1b061, [w_HENTAIGANA;w_LETTER;w_TA_4]);
  (0x1b062, [w_HENTAIGANA;w_LETTER;w_TI_1]);
  (0x1b063, [w_HENTAIGANA;w_LETTER;w_TI_2]);
  (0x1b064, [w_HENTAIGANA;w_LETTER;w_TI_3]);
  (0x1b065, [w_HENTAIGANA;w_LETTER;w_TI_4]);
  (0x1b066, [w_HENTAIGANA;w_LETTER;w_TI_5]);
  (0x1b067, [w_HENTAIGANA;w_LETTER;w_TI_6]);
  (0x1b068, [w_HENTAIGANA;w_LETTER;w_TI_7]);
  (0x1b069, [w_HENTAIGANA;w_LETTER;w_TU_1]);
  (0x1b06a, [w_HENTAIGANA;w_LETTER;w_TU_2]);
  (0x1b06b, [w_HENTAIGANA;w_LETTER;w_TU_3]);
  (0x1b06c, [w_HENTAIGANA;w_LETTER;w_TU_4]);
  (0x1b06d, [w_HENTAIGANA;w_LETTER;w_TU_TO]);
  (0x1b06e, [w_HENTAIGANA;w_LETTER;w_TE_1]);
  (0x1b06f, [w_HENTAIGANA;w_LETTER;w_TE_2]);
  (0x1b070, [w_HENTAIGANA;w_LETTER;w_TE_3]);
  (0x1b071, [w_HENTAIGANA;w_LETTER;w_TE_4]);
  (0x1b072, [w_HENTAIGANA;w_LETTER;w_TE_5]);
  (0x1b073, [w_HENTAIGANA;w_LETTER;w_TE_6]);
  (0x1b074, [w_HENTAIGANA;w_LETTER;w_TE_7]);
  (0x1b075, [w_HENTAIGANA;w_LETTER;w_TE_8]);
  (0x1b076, [w_HENTAIGANA;w_LETTER;w_TE_9]);
  (0x1b077, [w_HENTAIGANA;w_LETTER;w_TO_1]);
  (0x1b078, [w_HENTAIGANA;w_LETTER;w_TO_2]);
  (0x1b079, [w_HENTAIGANA;w_LETTER;w_TO_3]);
  (0x1b07a, [w_HENTAIGANA;w_LETTER;w_TO_4]);
  (0x1b07b, [w_HENTAIGANA;w_LETTER;w_TO_5]);
  (0x1b07c, [w_HENTAIGANA;w_LETTER;w_TO_6]);
  (0x1b07d, [w_HENTAIGANA;w_LETTER;w_TO_RA]);
  (0x1b07e, [w_HENTAIGANA;w_LETTER;w_NA_1]);
  (0x1b07f, [w_HENTAIGANA;w_LETTER;w_NA_2]);
  (0x1b080, [w_HENTAIGANA;w_LETTER;w_NA_3]);
  (0x1b081, [w_HENTAIGANA;w_LETTER;w_NA_4]);
  (0x1b082, [w_HENTAIGANA;w_LETTER;w_NA_5]);
  (0x1b083, [w_HENTAIGANA;w_LETTER;w_NA_6]);
  (0x1b084, [w_HENTAIGANA;w_LETTER;w_NA_7]);
  (0x1b085, [w_HENTAIGANA;w_LETTER;w_NA_8]);
  (0x1b086, [w_HENTAIGANA;w_LETTER;w_NA_9]);
  (0x1b087, [w_HENTAIGANA;w_LETTER;w_NI_1]);
  (0x1b088, [w_HENTAIGANA;w_LETTER;w_NI_2]);
  (0x1b089, [w_HENTAIGANA;w_LETTER;w_NI_3]);
  (0x1b08a, [w_HENTAIGANA;w_LETTER;w_NI_4]);
  (0x1b08b, [w_HENTAIGANA;w_LETTER;w_NI_5]);
  (0x1b08c, [w_HENTAIGANA;w_LETTER;w_NI_6]);
  (0x1b08d, [w_HENTAIGANA;w_LETTER;w_NI_7]);
  (0x1b08e, [w_HENTAIGANA;w_LETTER;w_NI_TE]);
  (0x1b08f, [w_HENTAIGANA;w_LETTER;w_NU_1]);
  (0x1b090, [w_HENTAIGANA;w_LETTER;w_NU_2]);
  (0x1b091, [w_HENTAIGANA;w_LETTER;w_NU_3]);
  (0x1b092, [w_HENTAIGANA;w_LETTER;w_NE_1]);
  (0x1b093, [w_HENTAIGANA;w_LETTER;w_NE_2]);
  (0x1b094, [w_HENTAIGANA;w_LETTER;w_NE_3]);
  (0x1b095, [w_HENTAIGANA;w_LETTER;w_NE_4]);
  (0x1b096, [w_HENTAIGANA;w_LETTER;w_NE_5]);
  (0x1b097, [w_HENTAIGANA;w_LETTER;w_NE_6]);
  (0x1b098, [w_HENTAIGANA;w_LETTER;w_NE_KO]);
  (0x1b099, [w_HENTAIGANA;w_LETTER;w_NO_1]);
  (0x1b09a, [w_HENTAIGANA;w_LETTER;w_NO_2]);
  (0x1b09b, [w_HENTAIGANA;w_LETTER;w_NO_3]);
  (0x1b09c, [w_HENTAIGANA;w_LETTER;w_NO_4]);
  (0x1b09d, [w_HENTAIGANA;w_LETTER;w_NO_5]);
  (0x1b09e, [w_HENTAIGANA;w_LETTER;w_HA_1]);
  (0x1b09f, [w_HENTAIGANA;w_LETTER;w_HA_2]);
  (0x1b0a0, [w_HENTAIGANA;w_LETTER;w_HA_3]);
  (0x1b0a1, [w_HENTAIGANA;w_LETTER;w_HA_4]);
  (0x1b0a2, [w_HENTAIGANA;w_LETTER;w_HA_5]);
  (0x1b0a3, [w_HENTAIGANA;w_LETTER;w_HA_6]);
  (0x1b0a4, [w_HENTAIGANA;w_LETTER;w_HA_7]);
  (0x1b0a5, [w_HENTAIGANA;w_LETTER;w_HA_8]);
  (0x1b0a6, [w_HENTAIGANA;w_LETTER;w_HA_9]);
  (0x1b0a7, [w_HENTAIGANA;w_LETTER;w_HA_10])].

Definition NAMES_63 : list (N * (list str)) := [
  (0x1b0a8, [w_HENTAIGANA;w_LETTER;w_HA_11]);
  (0x1b0a9, [w_HENTAIGANA;w_LETTER;w_HI_1]);
  (0x1b0aa, [w_HENTAIGANA;w_LETTER;w_HI_2]);
  (0x1b0ab, [w_HENTAIGANA;w_LETTER;w_HI_3]);
  (0x1b0ac, [w_HENTAIGANA;w_LETTER;w_HI_4]);
  (0x1b0ad, [w_HENTAIGANA;w_LETTER;w_HI_5]);
  (0x1b0ae, [w_HENTAIGANA;w_LETTER;w_HI_6]);
  (0x1b0af, [w_HENTAIGANA;w_LETTER;w_HI_7]);
  (0x1b0b0, [w_HENTAIGANA;w_LETTER;w_HU_1]);
  (0x1b0b1, [w_HENTAIGANA;w_LETTER;w_HU_2]);
  (0x1b0b2, [w_HENTAIGANA;w_LETTER;w_HU_3]);
  (0x1b0b3, [w_HENTAIGANA;w_LETTER;w_HE_1]);
  (0x1b0b4, [w_HENTAIGANA;w_LETTER;w_HE_2]);
  (0x1b0b5, [w_HENTAIGANA;w_LETTER;w_HE_3]);
  (0x1b0b6, [w_HENTAIGANA;w_LETTER;w_HE_4]);
  (0x1b0b7, [w_HENTAIGANA;w_LETTER;w_HE_5]);
  (0x1b0b8, [w_HENTAIGANA;w_LETTER;w_HE_6]);
  (0x1b0b9, [w_HENTAIGANA;w_LETTER;w_HE_7]);
  (0x1b0ba, [w_HENTAIGANA;w_LETTER;w_HO_1]);
  (0x1b0bb, [w_HENTAIGANA;w_LETTER;w_HO_2]);
  (0x1b0bc, [w_HENTAIGANA;w_LETTER;w_HO_3]);
  (0x1b0bd, [w_HENTAIGANA;w_LETTER;w_HO_4]);
  (0x1b0be, [w_HENTAIGANA;w_LETTER;w_HO_5]);
  (0x1b0bf, [w_HENTAIGANA;w_LETTER;w_HO_6]);
  (0x1b0c0, [w_HENTAIGANA;w_LETTER;w_HO_7]);
  (0x1b0c1, [w_HENTAIGANA;w_LETTER;w_HO_8]);
  (0x1b0c2, [w_HENTAIGANA;w_LETTER;w_MA_1]);
  (0x1b0c3, [w_HENTAIGANA;w_LETTER;w_MA_2]);
  (0x1b0c4, [w_HENTAIGANA;w_LETTER;w_MA_3]);
  (0x1b0c5, [w_HENTAIGANA;w_LETTER;w_MA_4]);
  (0x1b0c6, [w_HENTAIGANA;w_LETTER;w_MA_5]);
  (0x1b0c7, [w_HENTAIGANA;w_LETTER;w_MA_6]);
  (0x1b0c8, [w_HENTAIGANA;w_LETTER;w_MA_7]);
  (0x1b0c9, [w_HENTAIGANA;w_LETTER;w_MI_1]);
  (0x1b0ca, [w_HENTAIGANA;w_LETTER;w_MI_2]);
  (0x1b0cb, [w_HENTAIGANA;w_LETTER;w_MI_3]);
  (0x1b0cc, [w_HENTAIGANA;w_LETTER;w_MI_4]);
  (0x1b0cd, [w_HENTAIGANA;w_LETTER;w_MI_5]);
  (0x1b0ce, [w_HENTAIGANA;w_LETTER;w_MI_6]);
  (0x1b0cf, [w_HENTAIGANA;w_LETTER;w_MI_7]);
  (0x1b0d0, [w_HENTAIGANA;w_LETTER;w_MU_1]);
  (0x1b0d1, [w_HENTAIGANA;w_LETTER;w_MU_2]);
  (0x1b0d2, [w_HENTAIGANA;w_LETTER;w_MU_3]);
  (0x1b0d3, [w_HENTAIGANA;w_LETTER;w_MU_4]);
  (0x1b0d4, [w_HENTAIGANA;w_LETTER;w_ME_1]);
  (0x1b0d5, [w_HENTAIGANA;w_LETTER;w_ME_2]);
  (0x1b0d6, [w_HENTAIGANA;w_LETTER;w_ME_MA]);
  (0x1b0d7, [w_HENTAIGANA;w_LETTER;w_MO_1]);
  (0x1b0d8, [w_HENTAIGANA;w_LETTER;w_MO_2]);
  (0x1b0d9, [w_HENTAIGANA;w_LETTER;w_MO_3]);
  (0x1b0da, [w_HENTAIGANA;w_LETTER;w_MO_4]);
  (0x1b0db, [w_HENTAIGANA;w_LETTER;w_MO_5]);
  (0x1b0dc, [w_HENTAIGANA;w_LETTER;w_MO_6]);
  (0x1b0dd, [w_HENTAIGANA;w_LETTER;w_YA_1]);
  (0x1b0de, [w_HENTAIGANA;w_LETTER;w_YA_2]);
  (0x1b0df, [w_HENTAIGANA;w_LETTER;w_YA_3]);
  (0x1b0e0, [w_HENTAIGANA;w_LETTER;w_YA_4]);
  (0x1b0e1, [w_HENTAIGANA;w_LETTER;w_YA_5]);
  (0x1b0e2, [w_HENTAIGANA;w_LETTER;w_YA_YO]);
  (0x1b0e3, [w_HENTAIGANA;w_LETTER;w_YU_1]);
  (0x1b0e4, [w_HENTAIGANA;w_LETTER;w_YU_2]);
  (0x1b0e5, [w_HENTAIGANA;w_LETTER;w_YU_3]);
  (0x1b0e6, [w_HENTAIGANA;w_LETTER;w_YU_4]);
  (0x1b0e7, [w_HENTAIGANA;w_LETTER;w_YO_1]);
  (0x1b0e8, [w_HENTAIGANA;w_LETTER;w_YO_2]);
  (0x1b0e9, [w_HENTAIGANA;w_LETTER;w_YO_3]);
  (0x1b0ea, [w_HENTAIGANA;w_LETTER;w_YO_4]);
  (0x1b0eb, [w_HENTAIGANA;w_LETTER;w_YO_5]);
  (0x1b0ec, [w_HENTAIGANA;w_LETTER;w_YO_6]);
  (0x1b0ed, [w_HENTAIGANA;w_LETTER;w_RA_1]);
  (0x1b0ee, [w_HENTAIGANA;w_LETTER;w_RA_2]);
  (0x1b0ef, [w_HENTAIGANA;w_LETTER;w_RA_3]);
  (0x1b0f0, [w_HENTAIGANA;w_LETTER;w_RA_4]);
  (0x1b0f1, [w_HENTAIGANA;w_LETTER;w_RI_1]);
  (0x1b0f2, [w_HENTAIGANA;w_LETTER;w_RI_2]);
  (0x1b0f3, [w_HENTAIGANA;w_LETTER;w_RI_3]);
  (0x1b0f4, [w_HENTAIGANA;w_LETTER;w_RI_4]);
  (0x1b0f5, [w_HENTAIGANA;w_LETTER;w_RI_5]);
  (0x1b0f6, [w_HENTAIGANA;w_LETTER;w_RI_6]);
  (0x1b0f7, [w_HENTAIGANA;w_LETTER;w_RI_7]);
  (0x1b0f8, [w_HENTAIGANA;w_LETTER;w_RU_1]);
  (0x1b0f9, [w_HENTAIGANA;w_LETTER;w_RU_2]);
  (0x1b0fa, [w_HENTAIGANA;w_LETTER;w_RU_3]);
  (0x1b0fb, [w_HENTAIGANA;w_LETTER;w_RU_4]);
  (0x1b0fc, [w_HENTAIGANA;w_LETTER;w_RU_5]);
  (0x1b0fd, [w_HENTAIGANA;w_LETTER;w_RU_6]);
  (0x1b0fe, [w_HENTAIGANA;w_LETTER;w_RE_1]);
  (0x1b0ff, [w_HENTAIGANA;w_LETTER;w_RE_2]);
  (0x1b100, [w_HENTAIGANA;w_LETTER;w_RE_3]);
  (0x1b101, [w_HENTAIGANA;w_LETTER;w_RE_4]);
  (0x1b102, [w_HENTAIGANA;w_LETTER;w_RO_1]);
  (0x1b103, [w_HENTAIGANA;w_LETTER;w_RO_2]);
  (0x1b104, [w_HENTAIGANA;w_LETTER;w_RO_3]);
  (0x1b105, [w_HENTAIGANA;w_LETTER;w_RO_4]);
  (0x1b106, [w_HENTAIGANA;w_LETTER;w_RO_5]);
  (0x1b107, [w_HENTAIGANA;w_LETTER;w_RO_6]);
  (0x1b108, [w_HENTAIGANA;w_LETTER;w_WA_1]);
  (0x1b109, [w_HENTAIGANA;w_LETTER;w_WA_2]);
  (0x1b10a, [w_HENTAIGANA;w_LETTER;w_WA_3]);
  (0x1b10b, [w_HENTAIGANA;w_LETTER;w_WA_4]);
  (0x1b10c, [w_HENTAIGANA;w_LETTER;w_WA_5]);
  (0x1b10d, [w_HENTAIGANA;w_LETTER;w_WI_1]);
  (0x1b10e, [w_HENTAIGANA;w_LETTER;w_WI_2]);
  (0x1b10f, [w_HENTAIGANA;w_LETTER;w_WI_3]);
  (0x1b110, [w_HENTAIGANA;w_LETTER;w_WI_4]);
  (0x1b111, [w_HENTAIGANA;w_LETTER;w_WI_5]);
  (0x1b112, [w_HENTAIGANA;w_LETTER;w_WE_1]);
  (0x1b113, [w_HENTAIGANA;w_LETTER;w_WE_2]);
  (0x1b114, [w_HENTAIGANA;w_LETTER;w_WE_3]);
  (0x1b115, [w_HENTAIGANA;w_LETTER;w_WE_4]);
  (0x1b116, [w_HENTAIGANA;w_LETTER;w_WO_1]);
  (0x1b117, [w_HENTAIGANA;w_LETTER;w_WO_2]);
  (0x1b118, [w_HENTAIGANA;w_LETTER;w_WO_3]);
  (0x1b119, [w_HENTAIGANA;w_LETTER;w_WO_4]);
  (0x1b11a, [w_HENTAIGANA;w_LETTER;w_WO_5]);
  (0x1b11b, [w_HENTAIGANA;w_LETTER;w_WO_6]);
  (0x1b11c, [w_HENTAIGANA;w_LETTER;w_WO_7]);
  (0x1b11d, [w_HENTAIGANA;w_LETTER;w_N_MU_MO_1]);
  (0x1b11e, [w_HENTAIGANA;w_LETTER;w_N_MU_MO_2]);
  (0x1b170, [w_NUSHU;w_CHARACTER_1B170]);
  (0x1b171, [w_NUSHU;w_CHARACTER_1B171]);
  (0x1b172, [w_NUSHU;w_CHARACTER_1B172]);
  (0x1b173, [w_NUSHU;w_CHARACTER_1B173]);
  (0x1b174, [w_NUSHU;w_CHARACTER_1B174]);
  (0x1b175, [w_NUSHU;w_CHARACTER_1B175]);
  (0x1b176, [w_NUSHU;w_CHARACTER_1B176]);
  (0x1b177, [w_NUSHU;w_CHARACTER_1B177]);
  (0x1b178, [w_NUSHU;w_CHARACTER_1B178]);
  (0x1b179, [w_NUSHU;w_CHARACTER_1B179]);
  (0x1b17a, [w_NUSHU;w_CHARACTER_1B17A]);
  (0x1b17b, [w_NUSHU;w_CHARACTER_1B17B]);
  (0x1b17c, [w_NUSHU;w_CHARACTER_1B17C]);
  (0x1b17d, [w_NUSHU;w_CHARACTER_1B17D]);
  (0x1b17e, [w_NUSHU;w_CHARACTER_1B17E]);
  (0x1b17f, [w_NUSHU;w_CHARACTER_1B17F]);
  (0x1b180, [w_NUSHU;w_CHARACTER_1B180]);
  (0x1b181, [w_NUSHU;w_CHARACTER_1B181]);
  (0x1b182, [w_NUSHU;w_CHARACTER_1B182]);
  (0x1b183, [w_NUSHU;w_CHARACTER_1B183]);
  (0x1b184, [w_NUSHU;w_CHARACTER_1B184]);
  (0x1b185, [w_NUSHU;w_CHARACTER_1B185]);
  (0x1b186, [w_NUSHU;w_CHARACTER_1B186]);
  (0x1b187, [w_NUSHU;w_CHARACTER_1B187]);
  (0x1b188, [w_NUSHU;w_CHARACTER_1B188]);
  (0x1b189, [w_NUSHU;w_CHARACTER_1B189]);
  (0x1b18a, [w_NUSHU;w_CHARACTER_1B18A]);
  (0x1b18b, [w_NUSHU;w_CHARACTER_1B18B]);
  (0x1b18c, [w_NUSHU;w_CHARACTER_1B18C]);
  (0x1b18d, [w_NUSHU;w_CHARACTER_1B18D]);
  (0x1b18e, [w_NUSHU;w_CHARACTER_1B18E]);
  (0x1b18f, [w_NUSHU;w_CHARACTER_1B18F]);
  (0x1b190, [w_NUSHU;w_CHARACTER_1B190]);
  (0x1b191, [w_NUSHU;w_CHARACTER_1B191]);
  (0x1b192, [w_NUSHU;w_CHARACTER_1B192]);
  (0x1b193, [w_NUSHU;w_CHARACTER_1B193]);
  (0x1b194, [w_NUSHU;w_CHARACTER_1B194]);
  (0x1b195, [w_NUSHU;w_CHARACTER_1B195]);
  (0x1b196, [w_NUSHU;w_CHARACTER_1B196]);
  (0x1b197, [w_NUSHU;w_CHARACTER_1B197]);
  (0x1b198, [w_NUSHU;w_CHARACTER_1B198]);
  (0x1b199, [w_NUSHU;w_CHARACTER_1B199]);
  (0x1b19a, [w_NUSHU;w_CHARACTER_1B19A]);
  (0x1b19b, [w_NUSHU;w_CHARACTER_1B19B]);
  (0x1b19c, [w_NUSHU;w_CHARACTER_1B19C]);
  (0x1b19d, [w_NUSHU;w_CHARACTER_1B19D]);
  (0x1b19e, [w_NUSHU;w_CHARACTER_1B19E]);
  (0x1b19f, [w_NUSHU;w_CHARACTER_1B19F]);
  (0x1b1a0, [w_NUSHU;w_CHARACTER_1B1A0]);
  (0x1b1a1, [w_NUSHU;w_CHARACTER_1B1A1]);
  (0x1b1a2, [w_NUSHU;w_CHARACTER_1B1A2]);
  (0x1b1a3, [w_NUSHU;w_CHARACTER_1B1A3]);
  (0x1b1a4, [w_NUSHU;w_CHARACTER_1B1A4]);
  (0x1b1a5, [w_NUSHU;w_CHARACTER_1B1A5]);
  (0x1b1a6, [w_NUSHU;w_CHARACTER_1B1A6]);
  (0x1b1a7, [w_NUSHU;w_CHARACTER_1B1A7]);
  (0x1b1a8, [w_NUSHU;w_CHARACTER_1B1A8]);
  (0x1b1a9, [w_NUSHU;w_CHARACTER_1B1A9]);
  (0x1b1aa, [w_NUSHU;w_CHARACTER_1B1AA]);
  (0x1b1ab, [w_NUSHU;w_CHARACTER_1B1AB]);
  (0x1b1ac, [w_NUSHU;w_CHARACTER_1B1AC]);
  (0x1b1ad, [w_NUSHU;w_CHARACTER_1B1AD]);
  (0x1b1ae, [w_NUSHU;w_CHARACTER_1B1AE]);
  (0x1b1af, [w_NUSHU;w_CHARACTER_1B1AF]);
  (0x1b1b0, [w_NUSHU;w_CHARACTER_1B1B0]);
  (0x1b1b1, [w_NUSHU;w_CHARACTER_1B1B1]);
  (0x1b1b2, [w_NUSHU;w_CHARACTER_1B1B2]);
  (0x1b1b3, [w_NUSHU;w_CHARACTER_1B1B3]);
  (0x1b1b4, [w_NUSHU;w_CHARACTER_1B1B4]);
  (0x1b1b5, [w_NUSHU;w_CHARACTER_1B1B5]);
  (0x1b1b6, [w_NUSHU;w_CHARACTER_1B1B6]);
  (0x1b1b7, [w_NUSHU;w_CHARACTER_1B1B7]);
  (0x1b1b8, [w_NUSHU;w_CHARACTER_1B1B8]);
  (0x1b1b9, [w_NUSHU;w_CHARACTER_1B1B9]);
  (0x1b1ba, [w_NUSHU;w_CHARACTER_1B1BA]);
  (0x1b1bb, [w_NUSHU;w_CHARACTER_1B1BB]);
  (0x1b1bc, [w_NUSHU;w_CHARACTER_1B1BC]);
  (0x1b1bd, [w_NUSHU;w_CHARACTER_1B1BD]);
  (0x1b1be, [w_NUSHU;w_CHARACTER_1B1BE]);
  (0x1b1bf, [w_NUSHU;w_CHARACTER_1B1BF]);
  (0x1b1c0, [w_NUSHU;w_CHARACTER_1B1C0]);
  (0x1b1c1, [w_NUSHU;w_CHARACTER_1B1C1]);
  (0x1b1c2, [w_NUSHU;w_CHARACTER_1B1C2]);
  (0x1b1c3, [w_NUSHU;w_CHARACTER_1B1C3]);
  (0x1b1c4, [w_NUSHU;w_CHARACTER_1B1C4]);
  (0x1b1c5, [w_NUSHU;w_CHARACTER_1B1C5]);
  (0x1b1c6, [w_NUSHU;w_CHARACTER_1B1C6]);
  (0x1b1c7, [w_NUSHU;w_CHARACTER_1B1C7]);
  (0x1b1c8, [w_NUSHU;w_CHARACTER_1B1C8]);
  (0x1b1c9, [w_NUSHU;w_CHARACTER_1B1C9]);
  (0x1b1ca, [w_NUSHU;w_CHARACTER_1B1CA]);
  (0x1b1cb, [w_NUSHU;w_CHARACTER_1B1CB]);
  (0x1b1cc, [w_NUSHU;w_CHARACTER_1B1CC]);
  (0x1b1cd, [w_NUSHU;w_CHARACTER_1B1CD]);
  (0x1b1ce, [w_NUSHU;w_CHARACTER_1B1CE]);
  (0x1b1cf, [w_NUSHU;w_CHARACTER_1B1CF]);
  (0x1b1d0, [w_NUSHU;w_CHARACTER_1B1D0]);
  (0x1b1d1, [w_NUSHU;w_CHARACTER_1B1D1]);
  (0x1b1d2, [w_NUSHU;w_CHARACTER_1B1D2]);
  (0x1b1d3, [w_NUSHU;w_CHARACTER_1B1D3]);
  (0x1b1d4, [w_NUSHU;w_CHARACTER_1B1D4]);
  (0x1b1d5, [w_NUSHU;w_CHARACTER_1B1D5]);
  (0x1b1d6, [w_NUSHU;w_CHARACTER_1B1D6]);
  (0x1b1d7, [w_NUSHU;w_CHARACTER_1B1D7]);
  (0x1b1d8, [w_NUSHU;w_CHARACTER_1B1D8]);
  (0x1b1d9, [w_NUSHU;w_CHARACTER_1B1D9]);
  (0x1b1da, [w_NUSHU;w_CHARACTER_1B1DA]);
  (0x1b1db, [w_NUSHU;w_CHARACTER_1B1DB]);
  (0x1b1dc, [w_NUSHU;w_CHARACTER_1B1DC]);
  (0x1b1dd, [w_NUSHU;w_CHARACTER_1B1DD]);
  (0x1b1de, [w_NUSHU;w_CHARACTER_1B1DE]);
  (0x1b1df, [w_NUSHU;w_CHARACTER_1B1DF]);
  (0x1b1e0, [w_NUSHU;w_CHARACTER_1B1E0]);
  (0x1b1e1, [w_NUSHU;w_CHARACTER_1B1E1]);
  (0x1b1e2, [w_NUSHU;w_CHARACTER_1B1E2]);
  (0x1b1e3, [w_NUSHU;w_CHARACTER_1B1E3]);
  (0x1b1e4, [w_NUSHU;w_CHARACTER_1B1E4]);
  (0x1b1e5, [w_NUSHU;w_CHARACTER_1B1E5]);
  (0x1b1e6, [w_NUSHU;w_CHARACTER_1B1E6]);
  (0x1b1e7, [w_NUSHU;w_CHARACTER_1B1E7]);
  (0x1b1e8, [w_NUSHU;w_CHARACTER_1B1E8]);
  (0x1b1e9, [w_NUSHU;w_CHARACTER_1B1E9]);
  (0x1b1ea, [w_NUSHU;w_CHARACTER_1B1EA]);
  (0x1b1eb, [w_NUSHU;w_CHARACTER_1B1EB]);
  (0x1b1ec, [w_NUSHU;w_CHARACTER_1B1EC]);
  (0x1b1ed, [w_NUSHU;w_CHARACTER_1B1ED]);
  (0x1b1ee, [w_NUSHU;w_CHARACTER_1B1EE]);
  (0x1b1ef, [w_NUSHU;w_CHARACTER_1B1EF]);
  (0x1b1f0, [w_NUSHU;w_CHARACTER_1B1F0]);
  (0x1b1f1, [w_NUSHU;w_CHARACTER_1B1F1]);
  (0x1b1f2, [w_NUSHU;w_CHARACTER_1B1F2]);
  (0x1b1f3, [w_NUSHU;w_CHARACTER_1B1F3]);
  (0x1b1f4, [w_NUSHU;w_CHARACTER_1B1F4]);
  (0x1b1f5, [w_NUSHU;w_CHARACTER_1B1F5]);
  (0x1b1f6, [w_NUSHU;w_CHARACTER_1B1F6]);
  (0x1b1f7, [w_NUSHU;w_CHARACTER_1B1F7]);
  (0x1b1f8, [w_NUSHU;w_CHARACTER_1B1F8]);
  (0x1b1f9, [w_NUSHU;w_CHARACTER_1B1F9]);
  (0x1b1fa, [w_NUSHU;w_CHARACTER_1B1FA]);
  (0x1b1fb, [w_NUSHU;w_CHARACTER_1B1FB]);
  (0x1b1fc, [w_NUSHU;w_CHARACTER_1B1FC]);
  (0x1b1fd, [w_NUSHU;w_CHARACTER_1B1FD]);
  (0x1b1fe, [w_NUSHU;w_CHARACTER_1B1FE]);
  (0x1b1ff, [w_NUSHU;w_CHARACTER_1B1FF]);
  (0x1b200, [w_NUSHU;w_CHARACTER_1B200]);
  (0x1b201, [w_NUSHU;w_CHARACTER_1B201]);
  (0x1b202, [w_NUSHU;w_CHARACTER_1B202]);
  (0x1b203, [w_NUSHU;w_CHARACTER_1B203]);
  (0x1b204, [w_NUSHU;w_CHARACTER_1B204]);
  (0x1b205, [w_NUSHU;w_CHARACTER_1B205]);
  (0x1b206, [w_NUSHU;w_CHARACTER_1B206]);
  (0x1b207, [w_NUSHU;w_CHARACTER_1B207]);
  (0x1b208, [w_NUSHU;w_CHARACTER_1B208]);
  (0x1b209, [w_NUSHU;w_CHARACTER_1B209]);
  (0x1b20a, [w_NUSHU;w_CHARACTER_1B20A]);
  (0x1b20b, [w_NUSHU;w_CHARACTER_1B20B]);
  (0x1b20c, [w_NUSHU;w_CHARACTER_1B20C]);
  (0x1b20d, [w_NUSHU;w_CHARACTER_1B20D]);
  (0x1b20e, [w_NUSHU;w_CHARACTER_1B20E]);
  (0x1b20f, [w_NUSHU;w_CHARACTER_1B20F]);
  (0x1b210, [w_NUSHU;w_CHARACTER_1B210]);
  (0x1b211, [w_NUSHU;w_CHARACTER_1B211]);
  (0x1b212, [w_NUSHU;w_CHARACTER_1B212]);
  (0x1b213, [w_NUSHU;w_CHARACTER_1B213]);
  (0x1b214, [w_NUSHU;w_CHARACTER_1B214]);
  (0x1b215, [w_NUSHU;w_CHARACTER_1B215]);
  (0x1b216, [w_NUSHU;w_CHARACTER_1B216]);
  (0x1b217, [w_NUSHU;w_CHARACTER_1B217]);
  (0x1b218, [w_NUSHU;w_CHARACTER_1B218]);
  (0x1b219, [w_NUSHU;w_CHARACTER_1B219]);
  (0x1b21a, [w_NUSHU;w_CHARACTER_1B21A]);
  (0x1b21b, [w_NUSHU;w_CHARACTER_1B21B]);
  (0x1b21c, [w_NUSHU;w_CHARACTER_1B21C]);
  (0x1b21d, [w_NUSHU;w_CHARACTER_1B21D]);
  (0x1b21e, [w_NUSHU;w_CHARACTER_1B21E]);
  (0x1b21f, [w_NUSHU;w_CHARACTER_1B21F]);
  (0x1b220, [w_NUSHU;w_CHARACTER_1B220]);
  (0x1b221, [w_NUSHU;w_CHARACTER_1B221]);
  (0x1b222, [w_NUSHU;w_CHARACTER_1B222]);
  (0x1b223, [w_NUSHU;w_CHARACTER_1B223]);
  (0x1b224, [w_NUSHU;w_CHARACTER_1B224]);
  (0x1b225, [w_NUSHU;w_CHARACTER_1B225]);
  (0x1b226, [w_NUSHU;w_CHARACTER_1B226]);
  (0x1b227, [w_NUSHU;w_CHARACTER_1B227]);
  (0x1b228, [w_NUSHU;w_CHARACTER_1B228]);
  (0x1b229, [w_NUSHU;w_CHARACTER_1B229]);
  (0x1b22a, [w_NUSHU;w_CHARACTER_1B22A]);
  (0x1b22b, [w_NUSHU;w_CHARACTER_1B22B]);
  (0x1b22c, [w_NUSHU;w_CHARACTER_1B22C]);
  (0x1b22d, [w_NUSHU;w_CHARACTER_1B22D]);
  (0x1b22e, [w_NUSHU;w_CHARACTER_1B22E]);
  (0x1b22f, [w_NUSHU;w_CHARACTER_1B22F]);
  (0x1b230, [w_NUSHU;w_CHARACTER_1B230]);
  (0x1b231, [w_NUSHU;w_CHARACTER_1B231]);
  (0x1b232, [w_NUSHU;w_CHARACTER_1B232]);
  (0x1b233, [w_NUSHU;w_CHARACTER_1B233]);
  (0x1b234, [w_NUSHU;w_CHARACTER_1B234]);
  (0x1b235, [w_NUSHU;w_CHARACTER_1B235]);
  (0x1b236, [w_NUSHU;w_CHARACTER_1B236]);
  (0x1b237, [w_NUSHU;w_CHARACTER_1B237]);
  (0x1b238, [w_NUSHU;w_CHARACTER_1B238]);
  (0x1b239, [w_NUSHU;w_CHARACTER_1B239]);
  (0x1b23a, [w_NUSHU;w_CHARACTER_1B23A]);
  (0x1b23b, [w_NUSHU;w_CHARACTER_1B23B]);
  (0x1b23c, [w_NUSHU;w_CHARACTER_1B23C]);
  (0x1b23d, [w_NUSHU;w_CHARACTER_1B23D]);
  (0x1b23e, [w_NUSHU;w_CHARACTER_1B23E]);
  (0x1b23f, [w_NUSHU;w_CHARACTER_1B23F]);
  (0x1b240, [w_NUSHU;w_CHARACTER_1B240]);
  (0x1b241, [w_NUSHU;w_CHARACTER_1B241]);
  (0x1b242, [w_NUSHU;w_CHARACTER_1B242]);
  (0x1b243, [w_NUSHU;w_CHARACTER_1B243]);
  (0x1b244, [w_NUSHU;w_CHARACTER_1B244]);
  (0x1b245, [w_NUSHU;w_CHARACTER_1B245]);
  (0x1b246, [w_NUSHU;w_CHARACTER_1B246]);
  (0x1b247, [w_NUSHU;w_CHARACTER_1B247]);
  (0x1b248, [w_NUSHU;w_CHARACTER_1B248]);
  (0x1b249, [w_NUSHU;w_CHARACTER_1B249]);
  (0x1b24a, [w_NUSHU;w_CHARACTER_1B24A]);
  (0x1b24b, [w_NUSHU;w_CHARACTER_1B24B]);
  (0x1b24c, [w_NUSHU;w_CHARACTER_1B24C]);
  (0x1b24d, [w_NUSHU;w_CHARACTER_1B24D]);
  (0x1b24e, [w_NUSHU;w_CHARACTER_1B24E]);
  (0x1b24f, [w_NUSHU;w_CHARACTER_1B24F]);
  (0x1b250, [w_NUSHU;w_CHARACTER_1B250]);
  (0x1b251, [w_NUSHU;w_CHARACTER_1B251]);
  (0x1b252, [w_NUSHU;w_CHARACTER_1B252]);
  (0x1b253, [w_NUSHU;w_CHARACTER_1B253]);
  (0x1b254, [w_NUSHU;w_CHARACTER_1B254]);
  (0x1b255, [w_NUSHU;w_CHARACTER_1B255]);
  (0x1b256, [w_NUSHU;w_CHARACTER_1B256]);
  (0x1b257, [w_NUSHU;w_CHARACTER_1B257]);
  (0x1b258, [w_NUSHU;w_CHARACTER_1B258]);
  (0x1b259, [w_NUSHU;w_CHARACTER_1B259]);
  (0x1b25a, [w_NUSHU;w_CHARACTER_1B25A]);
  (0x1b25b, [w_NUSHU;w_CHARACTER_1B25B]);
  (0x1b25c, [w_NUSHU;w_CHARACTER_1B25C]);
  (0x1b25d, [w_NUSHU;w_CHARACTER_1B25D]);
  (0x1b25e, [w_NUSHU;w_CHARACTER_1B25E]);
  (0x1b25f, [w_NUSHU;w_CHARACTER_1B25F]);
  (0x1b260, [w_NUSHU;w_CHARACTER_1B260]);
  (0x1b261, [w_NUSHU;w_CHARACTER_1B261]);
  (0x1b262, [w_NUSHU;w_CHARACTER_1B262]);
  (0x1b263, [w_NUSHU;w_CHARACTER_1B263]);
  (0x1b264, [w_NUSHU;w_CHARACTER_1B264]);
  (0x1b265, [w_NUSHU;w_CHARACTER_1B265]);
  (0x1b266, [w_NUSHU;w_CHARACTER_1B266]);
  (0x1b267, [w_NUSHU;w_CHARACTER_1B267]);
  (0x1b268, [w_NUSHU;w_CHARACTER_1B268]);
  (0x1b269, [w_NUSHU;w_CHARACTER_1B269]);
  (0x1b26a, [w_NUSHU;w_CHARACTER_1B26A]);
  (0x1b26b, [w_NUSHU;w_CHARACTER_1B26B]);
  (0x1b26c, [w_NUSHU;w_CHARACTER_1B26C]);
  (0x1b26d, [w_NUSHU;w_CHARACTER_1B26D]);
  (0x1b26e, [w_NUSHU;w_CHARACTER_1B26E]);
  (0x1b26f, [w_NUSHU;w_CHARACTER_1B26F]);
  (0x1b270, [w_NUSHU;w_CHARACTER_1B270]);
  (0x1b271, [w_NUSHU;w_CHARACTER_1B271]);
  (0x1b272, [w_NUSHU;w_CHARACTER_1B272]);
  (0x1b273, [w_NUSHU;w_CHARACTER_1B273]);
  (0x1b274, [w_NUSHU;w_CHARACTER_1B274]);
  (0x1b275, [w_NUSHU;w_CHARACTER_1B275]);
  (0x1b276, [w_NUSHU;w_CHARACTER_1B276]);
  (0x1b277, [w_NUSHU;w_CHARACTER_1B277]);
  (0x1b278, [w_NUSHU;w_CHARACTER_1B278]);
  (0x1b279, [w_NUSHU;w_CHARACTER_1B279]);
  (0x1b27a, [w_NUSHU;w_CHARACTER_1B27A]);
  (0x1b27b, [w_NUSHU;w_CHARACTER_1B27B]);
  (0x1b27c, [w_NUSHU;w_CHARACTER_1B27C]);
  (0x1b27d, [w_NUSHU;w_CHARACTER_1B27D]);
  (0x1b27e, [w_NUSHU;w_CHARACTER_1B27E]);
  (0x1b27f, [w_NUSHU;w_CHARACTER_1B27F]);
  (0x1b280, [w_NUSHU;w_CHARACTER_1B280]);
  (0x1b281, [w_NUSHU;w_CHARACTER_1B281]);
  (0x1b282, [w_NUSHU;w_CHARACTER_1B282]);
  (0x1b283, [w_NUSHU;w_CHARACTER_1B283]);
  (0x1b284, [w_NUSHU;w_CHARACTER_1B284]);
  (0x1b285, [w_NUSHU;w_CHARACTER_1B285]);
  (0x1b286, [w_NUSHU;w_CHARACTER_1B286]);
  (0x1b287, [w_NUSHU;w_CHARACTER_1B287]);
  (0x1b288, [w_NUSHU;w_CHARACTER_1B288])].

Definition NAMES_64 : list (N * (list str)) := [
  (0x1b289, [w_NUSHU;w_CHARACTER_1B289]);
  (0x1b28a, [w_NUSHU;w_CHARACTER_1B28A]);
  (0x1b28b, [w_NUSHU;w_CHARACTER_1B28B]);
  (0x1b28c, [w_NUSHU;w_CHARACTER_1B28C]);
  (0x1b28d, [w_NUSHU;w_CHARACTER_1B28D]);
  (0x1b28e, [w_NUSHU;w_CHARACTER_1B28E]);
  (0x1b28f, [w_NUSHU;w_CHARACTER_1B28F]);
  (0x1b290, [w_NUSHU;w_CHARACTER_1B290]);
  (0x1b291, [w_NUSHU;w_CHARACTER_1B291]);
  (0x1b292, [w_NUSHU;w_CHARACTER_1B292]);
  (0x1b293, [w_NUSHU;w_CHARACTER_1B293]);
  (0x1b294, [w_NUSHU;w_CHARACTER_1B294]);
  (0x1b295, [w_NUSHU;w_CHARACTER_1B295]);
  (0x1b296, [w_NUSHU;w_CHARACTER_1B296]);
  (0x1b297, [w_NUSHU;w_CHARACTER_1B297]);
  (0x1b298, [w_NUSHU;w_CHARACTER_1B298]);
  (0x1b299, [w_NUSHU;w_CHARACTER_1B299]);
  (0x1b29a, [w_NUSHU;w_CHARACTER_1B29A]);
  (0x1b29b, [w_NUSHU;w_CHARACTER_1B29B]);
  (0x1b29c, [w_NUSHU;w_CHARACTER_1B29C]);
  (0x1b29d, [w_NUSHU;w_CHARACTER_1B29D]);
  (0x1b29e, [w_NUSHU;w_CHARACTER_1B29E]);
  (0x1b29f, [w_NUSHU;w_CHARACTER_1B29F]);
  (0x1b2a0, [w_NUSHU;w_CHARACTER_1B2A0]);
  (0x1b2a1, [w_NUSHU;w_CHARACTER_1B2A1]);
  (0x1b2a2, [w_NUSHU;w_CHARACTER_1B2A2]);
  (0x1b2a3, [w_NUSHU;w_CHARACTER_1B2A3]);
  (0x1b2a4, [w_NUSHU;w_CHARACTER_1B2A4]);
  (0x1b2a5, [w_NUSHU;w_CHARACTER_1B2A5]);
  (0x1b2a6, [w_NUSHU;w_CHARACTER_1B2A6]);
  (0x1b2a7, [w_NUSHU;w_CHARACTER_1B2A7]);
  (0x1b2a8, [w_NUSHU;w_CHARACTER_1B2A8]);
  (0x1b2a9, [w_NUSHU;w_CHARACTER_1B2A9]);
  (0x1b2aa, [w_NUSHU;w_CHARACTER_1B2AA]);
  (0x1b2ab, [w_NUSHU;w_CHARACTER_1B2AB]);
  (0x1b2ac, [w_NUSHU;w_CHARACTER_1B2AC]);
  (0x1b2ad, [w_NUSHU;w_CHARACTER_1B2AD]);
  (0x1b2ae, [w_NUSHU;w_CHARACTER_1B2AE]);
  (0x1b2af, [w_NUSHU;w_CHARACTER_1B2AF]);
  (0x1b2b0, [w_NUSHU;w_CHARACTER_1B2B0]);
  (0x1b2b1, [w_NUSHU;w_CHARACTER_1B2B1]);
  (0x1b2b2, [w_NUSHU;w_CHARACTER_1B2B2]);
  (0x1b2b3, [w_NUSHU;w_CHARACTER_1B2B3]);
  (0x1b2b4, [w_NUSHU;w_CHARACTER_1B2B4]);
  (0x1b2b5, [w_NUSHU;w_CHARACTER_1B2B5]);
  (0x1b2b6, [w_NUSHU;w_CHARACTER_1B2B6]);
  (0x1b2b7, [w_NUSHU;w_CHARACTER_1B2B7]);
  (0x1b2b8, [w_NUSHU;w_CHARACTER_1B2B8]);
  (0x1b2b9, [w_NUSHU;w_CHARACTER_1B2B9]);
  (0x1b2ba, [w_NUSHU;w_CHARACTER_1B2BA]);
  (0x1b2bb, [w_NUSHU;w_CHARACTER_1B2BB]);
  (0x1b2bc, [w_NUSHU;w_CHARACTER_1B2BC]);
  (0x1b2bd, [w_NUSHU;w_CHARACTER_1B2BD]);
  (0x1b2be, [w_NUSHU;w_CHARACTER_1B2BE]);
  (0x1b2bf, [w_NUSHU;w_CHARACTER_1B2BF]);
  (0x1b2c0, [w_NUSHU;w_CHARACTER_1B2C0]);
  (0x1b2c1, [w_NUSHU;w_CHARACTER_1B2C1]);
  (0x1b2c2, [w_NUSHU;w_CHARACTER_1B2C2]);
  (0x1b2c3, [w_NUSHU;w_CHARACTER_1B2C3]);
  (0x1b2c4, [w_NUSHU;w_CHARACTER_1B2C4]);
  (0x1b2c5, [w_NUSHU;w_CHARACTER_1B2C5]);
  (0x1b2c6, [w_NUSHU;w_CHARACTER_1B2C6]);
  (0x1b2c7, [w_NUSHU;w_CHARACTER_1B2C7]);
  (0x1b2c8, [w_NUSHU;w_CHARACTER_1B2C8]);
  (0x1b2c9, [w_NUSHU;w_CHARACTER_1B2C9]);
  (0x1b2ca, [w_NUSHU;w_CHARACTER_1B2CA]);
  (0x1b2cb, [w_NUSHU;w_CHARACTER_1B2CB]);
  (0x1b2cc, [w_NUSHU;w_CHARACTER_1B2CC]);
  (0x1b2cd, [w_NUSHU;w_CHARACTER_1B2CD]);
  (0x1b2ce, [w_NUSHU;w_CHARACTER_1B2CE]);
  (0x1b2cf, [w_NUSHU;w_CHARACTER_1B2CF]);
  (0x1b2d0, [w_NUSHU;w_CHARACTER_1B2D0]);
  (0x1b2d1, [w_NUSHU;w_CHARACTER_1B2D1]);
  (0x1b2d2, [w_NUSHU;w_CHARACTER_1B2D2]);
  (0x1b2d3, [w_NUSHU;w_CHARACTER_1B2D3]);
  (0x1b2d4, [w_NUSHU;w_CHARACTER_1B2D4]);
  (0x1b2d5, [w_NUSHU;w_CHARACTER_1B2D5]);
  (0x1b2d6, [w_NUSHU;w_CHARACTER_1B2D6]);
  (0x1b2d7, [w_NUSHU;w_CHARACTER_1B2D7]);
  (0x1b2d8, [w_NUSHU;w_CHARACTER_1B2D8]);
  (0x1b2d9, [w_NUSHU;w_CHARACTER_1B2D9]);
  (0x1b2da, [w_NUSHU;w_CHARACTER_1B2DA]);
  (0x1b2db, [w_NUSHU;w_CHARACTER_1B2DB]);
  (0x1b2dc, [w_NUSHU;w_CHARACTER_1B2DC]);
  (0x1b2dd, [w_NUSHU;w_CHARACTER_1B2DD]);
  (0x1b2de, [w_NUSHU;w_CHARACTER_1B2DE]);
  (0x1b2df, [w_NUSHU;w_CHARACTER_1B2DF]);
  (0x1b2e0, [w_NUSHU;w_CHARACTER_1B2E0]);
  (0x1b2e1, [w_NUSHU;w_CHARACTER_1B2E1]);
  (0x1b2e2, [w_NUSHU;w_CHARACTER_1B2E2]);
  (0x1b2e3, [w_NUSHU;w_CHARACTER_1B2E3]);
  (0x1b2e4, [w_NUSHU;w_CHARACTER_1B2E4]);
  (0x1b2e5, [w_NUSHU;w_CHARACTER_1B2E5]);
  (0x1b2e6, [w_NUSHU;w_CHARACTER_1B2E6]);
  (0x1b2e7, [w_NUSHU;w_CHARACTER_1B2E7]);
  (0x1b2e8, [w_NUSHU;w_CHARACTER_1B2E8]);
  (0x1b2e9, [w_NUSHU;w_CHARACTER_1B2E9]);
  (0x1b2ea, [w_NUSHU;w_CHARACTER_1B2EA]);
  (0x1b2eb, [w_NUSHU;w_CHARACTER_1B2EB]);
  (0x1b2ec, [w_NUSHU;w_CHARACTER_1B2EC]);
  (0x1b2ed, [w_NUSHU;w_CHARACTER_1B2ED]);
  (0x1b2ee, [w_NUSHU;w_CHARACTER_1B2EE]);
  (0x1b2ef, [w_NUSHU;w_CHARACTER_1B2EF]);
  (0x1b2f0, [w_NUSHU;w_CHARACTER_1B2F0]);
  (0x1b2f1, [w_NUSHU;w_CHARACTER_1B2F1]);
  (0x1b2f2, [w_NUSHU;w_CHARACTER_1B2F2]);
  (0x1b2f3, [w_NUSHU;w_CHARACTER_1B2F3]);
  (0x1b2f4, [w_NUSHU;w_CHARACTER_1B2F4]);
  (0x1b2f5, [w_NUSHU;w_CHARACTER_1B2F5]);
  (0x1b2f6, [w_NUSHU;w_CHARACTER_1B2F6]);
  (0x1b2f7, [w_NUSHU;w_CHARACTER_1B2F7]);
  (0x1b2f8, [w_NUSHU;w_CHARACTER_1B2F8]);
  (0x1b2f9, [w_NUSHU;w_CHARACTER_1B2F9]);
  (0x1b2fa, [w_NUSHU;w_CHARACTER_1B2FA]);
  (0x1b2fb, [w_NUSHU;w_CHARACTER_1B2FB]);
  (0x1bc00, [w_DUPLOYAN;w_LETTER;w_H]);
  (0x1bc01, [w_DUPLOYAN;w_LETTER;w_X]);
  (0x1bc02, [w_DUPLOYAN;w_LETTER;w_P]);
  (0x1bc03, [w_DUPLOYAN;w_LETTER;w_T]);
  (0x1bc04, [w_DUPLOYAN;w_LETTER;w_F]);
  (0x1bc05, [w_DUPLOYAN;w_LETTER;w_K]);
  (0x1bc06, [w_DUPLOYAN;w_LETTER;w_L]);
  (0x1bc07, [w_DUPLOYAN;w_LETTER;w_B]);
  (0x1bc08, [w_DUPLOYAN;w_LETTER;w_D]);
  (0x1bc09, [w_DUPLOYAN;w_LETTER;w_V]);
  (0x1bc0a, [w_DUPLOYAN;w_LETTER;w_G]);
  (0x1bc0b, [w_DUPLOYAN;w_LETTER;w_R]);
  (0x1bc0c, [w_DUPLOYAN;w_LETTER;w_P;w_N]);
  (0x1bc0d, [w_DUPLOYAN;w_LETTER;w_D;w_S]);
  (0x1bc0e, [w_DUPLOYAN;w_LETTER;w_F;w_N]);
  (0x1bc0f, [w_DUPLOYAN;w_LETTER;w_K;w_M]);
  (0x1bc10, [w_DUPLOYAN;w_LETTER;w_R;w_S]);
  (0x1bc11, [w_DUPLOYAN;w_LETTER;w_TH]);
  (0x1bc12, [w_DUPLOYAN;w_LETTER;w_SLOAN;w_DH]);
  (0x1bc13, [w_DUPLOYAN;w_LETTER;w_DH]);
  (0x1bc14, [w_DUPLOYAN;w_LETTER;w_KK]);
  (0x1bc15, [w_DUPLOYAN;w_LETTER;w_SLOAN;w_J]);
  (0x1bc16, [w_DUPLOYAN;w_LETTER;w_HL]);
  (0x1bc17, [w_DUPLOYAN;w_LETTER;w_LH]);
  (0x1bc18, [w_DUPLOYAN;w_LETTER;w_RH]);
  (0x1bc19, [w_DUPLOYAN;w_LETTER;w_M]);
  (0x1bc1a, [w_DUPLOYAN;w_LETTER;w_N]);
  (0x1bc1b, [w_DUPLOYAN;w_LETTER;w_J]);
  (0x1bc1c, [w_DUPLOYAN;w_LETTER;w_S]);
  (0x1bc1d, [w_DUPLOYAN;w_LETTER;w_M;w_N]);
  (0x1bc1e, [w_DUPLOYAN;w_LETTER;w_N;w_M]);
  (0x1bc1f, [w_DUPLOYAN;w_LETTER;w_J;w_M]);
  (0x1bc20, [w_DUPLOYAN;w_LETTER;w_S;w_J]);
  (0x1bc21, [w_DUPLOYAN;w_LETTER;w_M;w_WITH;w_DOT]);
  (0x1bc22, [w_DUPLOYAN;w_LETTER;w_N;w_WITH;w_DOT]);
  (0x1bc23, [w_DUPLOYAN;w_LETTER;w_J;w_WITH;w_DOT]);
  (0x1bc24, [w_DUPLOYAN;w_LETTER;w_J;w_WITH;w_DOTS;w_INSIDE;w_AND;w_ABOVE]);
  (0x1bc25, [w_DUPLOYAN;w_LETTER;w_S;w_WITH;w_DOT]);
  (0x1bc26, [w_DUPLOYAN;w_LETTER;w_S;w_WITH;w_DOT;w_BELOW]);
  (0x1bc27, [w_DUPLOYAN;w_LETTER;w_M;w_S]);
  (0x1bc28, [w_DUPLOYAN;w_LETTER;w_N;w_S]);
  (0x1bc29, [w_DUPLOYAN;w_LETTER;w_J;w_S]);
  (0x1bc2a, [w_DUPLOYAN;w_LETTER;w_S;w_S]);
  (0x1bc2b, [w_DUPLOYAN;w_LETTER;w_M;w_N;w_S]);
  (0x1bc2c, [w_DUPLOYAN;w_LETTER;w_N;w_M;w_S]);
  (0x1bc2d, [w_DUPLOYAN;w_LETTER;w_J;w_M;w_S]);
  (0x1bc2e, [w_DUPLOYAN;w_LETTER;w_S;w_J;w_S]);
  (0x1bc2f, [w_DUPLOYAN;w_LETTER;w_J;w_S;w_WITH;w_DOT]);
  (0x1bc30, [w_DUPLOYAN;w_LETTER;w_J;w_N]);
  (0x1bc31, [w_DUPLOYAN;w_LETTER;w_J;w_N;w_S]);
  (0x1bc32, [w_DUPLOYAN;w_LETTER;w_S;w_T]);
  (0x1bc33, [w_DUPLOYAN;w_LETTER;w_S;w_T;w_R]);
  (0x1bc34, [w_DUPLOYAN;w_LETTER;w_S;w_P]);
  (0x1bc35, [w_DUPLOYAN;w_LETTER;w_S;w_P;w_R]);
  (0x1bc36, [w_DUPLOYAN;w_LETTER;w_T;w_S]);
  (0x1bc37, [w_DUPLOYAN;w_LETTER;w_T;w_R;w_S]);
  (0x1bc38, [w_DUPLOYAN;w_LETTER;w_W]);
  (0x1bc39, [w_DUPLOYAN;w_LETTER;w_WH]);
  (0x1bc3a, [w_DUPLOYAN;w_LETTER;w_W;w_R]);
  (0x1bc3b, [w_DUPLOYAN;w_LETTER;w_S;w_N]);
  (0x1bc3c, [w_DUPLOYAN;w_LETTER;w_S;w_M]);
  (0x1bc3d, [w_DUPLOYAN;w_LETTER;w_K;w_R;w_S]);
  (0x1bc3e, [w_DUPLOYAN;w_LETTER;w_G;w_R;w_S]);
  (0x1bc3f, [w_DUPLOYAN;w_LETTER;w_S;w_K]);
  (0x1bc40, [w_DUPLOYAN;w_LETTER;w_S;w_K;w_R]);
  (0x1bc41, [w_DUPLOYAN;w_LETTER;w_A]);
  (0x1bc42, [w_DUPLOYAN;w_LETTER;w_SLOAN;w_OW]);
  (0x1bc43, [w_DUPLOYAN;w_LETTER;w_OA]);
  (0x1bc44, [w_DUPLOYAN;w_LETTER;w_O]);
  (0x1bc45, [w_DUPLOYAN;w_LETTER;w_AOU]);
  (0x1bc46, [w_DUPLOYAN;w_LETTER;w_I]);
  (0x1bc47, [w_DUPLOYAN;w_LETTER;w_E]);
  (0x1bc48, [w_DUPLOYAN;w_LETTER;w_IE]);
  (0x1bc49, [w_DUPLOYAN;w_LETTER;w_SHORT;w_I]);
  (0x1bc4a, [w_DUPLOYAN;w_LETTER;w_UI]);
  (0x1bc4b, [w_DUPLOYAN;w_LETTER;w_EE]);
  (0x1bc4c, [w_DUPLOYAN;w_LETTER;w_SLOAN;w_EH]);
  (0x1bc4d, [w_DUPLOYAN;w_LETTER;w_ROMANIAN;w_I]);
  (0x1bc4e, [w_DUPLOYAN;w_LETTER;w_SLOAN;w_EE]);
  (0x1bc4f, [w_DUPLOYAN;w_LETTER;w_LONG;w_I]);
  (0x1bc50, [w_DUPLOYAN;w_LETTER;w_YE]);
  (0x1bc51, [w_DUPLOYAN;w_LETTER;w_U]);
  (0x1bc52, [w_DUPLOYAN;w_LETTER;w_EU]);
  (0x1bc53, [w_DUPLOYAN;w_LETTER;w_XW]);
  (0x1bc54, [w_DUPLOYAN;w_LETTER;w_U;w_N]);
  (0x1bc55, [w_DUPLOYAN;w_LETTER;w_LONG;w_U]);
  (0x1bc56, [w_DUPLOYAN;w_LETTER;w_ROMANIAN;w_U]);
  (0x1bc57, [w_DUPLOYAN;w_LETTER;w_UH]);
  (0x1bc58, [w_DUPLOYAN;w_LETTER;w_SLOAN;w_U]);
  (0x1bc59, [w_DUPLOYAN;w_LETTER;w_OOH]);
  (0x1bc5a, [w_DUPLOYAN;w_LETTER;w_OW]);
  (0x1bc5b, [w_DUPLOYAN;w_LETTER;w_OU]);
  (0x1bc5c, [w_DUPLOYAN;w_LETTER;w_WA]);
  (0x1bc5d, [w_DUPLOYAN;w_LETTER;w_WO]);
  (0x1bc5e, [w_DUPLOYAN;w_LETTER;w_WI]);
  (0x1bc5f, [w_DUPLOYAN;w_LETTER;w_WEI]);
  (0x1bc60, [w_DUPLOYAN;w_LETTER;w_WOW]);
  (0x1bc61, [w_DUPLOYAN;w_LETTER;w_NASAL;w_U]);
  (0x1bc62, [w_DUPLOYAN;w_LETTER;w_NASAL;w_O]);
  (0x1bc63, [w_DUPLOYAN;w_LETTER;w_NASAL;w_I]);
  (0x1bc64, [w_DUPLOYAN;w_LETTER;w_NASAL;w_A]);
  (0x1bc65, [w_DUPLOYAN;w_LETTER;w_PERNIN;w_AN]);
  (0x1bc66, [w_DUPLOYAN;w_LETTER;w_PERNIN;w_AM]);
  (0x1bc67, [w_DUPLOYAN;w_LETTER;w_SLOAN;w_EN]);
  (0x1bc68, [w_DUPLOYAN;w_LETTER;w_SLOAN;w_AN]);
  (0x1bc69, [w_DUPLOYAN;w_LETTER;w_SLOAN;w_ON]);
  (0x1bc6a, [w_DUPLOYAN;w_LETTER;w_VOCALIC;w_M]);
  (0x1bc70, [w_DUPLOYAN;w_AFFIX;w_LEFT;w_HORIZONTAL;w_SECANT]);
  (0x1bc71, [w_DUPLOYAN;w_AFFIX;w_MID;w_HORIZONTAL;w_SECANT]);
  (0x1bc72, [w_DUPLOYAN;w_AFFIX;w_RIGHT;w_HORIZONTAL;w_SECANT]);
  (0x1bc73, [w_DUPLOYAN;w_AFFIX;w_LOW;w_VERTICAL;w_SECANT]);
  (0x1bc74, [w_DUPLOYAN;w_AFFIX;w_MID;w_VERTICAL;w_SECANT]);
  (0x1bc75, [w_DUPLOYAN;w_AFFIX;w_HIGH;w_VERTICAL;w_SECANT]);
  (0x1bc76, [w_DUPLOYAN;w_AFFIX;w_ATTACHED;w_SECANT]);
  (0x1bc77, [w_DUPLOYAN;w_AFFIX;w_ATTACHED;w_LEFT_TO_RIGHT;w_SECANT]);
  (0x1bc78, [w_DUPLOYAN;w_AFFIX;w_ATTACHED;w_TANGENT]);
  (0x1bc79, [w_DUPLOYAN;w_AFFIX;w_ATTACHED;w_TAIL]);
  (0x1bc7a, [w_DUPLOYAN;w_AFFIX;w_ATTACHED;w_E;w_HOOK]);
  (0x1bc7b, [w_DUPLOYAN;w_AFFIX;w_ATTACHED;w_I;w_HOOK]);
  (0x1bc7c, [w_DUPLOYAN;w_AFFIX;w_ATTACHED;w_TANGENT;w_HOOK]);
  (0x1bc80, [w_DUPLOYAN;w_AFFIX;w_HIGH;w_ACUTE]);
  (0x1bc81, [w_DUPLOYAN;w_AFFIX;w_HIGH;w_TIGHT;w_ACUTE]);
  (0x1bc82, [w_DUPLOYAN;w_AFFIX;w_HIGH;w_GRAVE]);
  (0x1bc83, [w_DUPLOYAN;w_AFFIX;w_HIGH;w_LONG;w_GRAVE]);
  (0x1bc84, [w_DUPLOYAN;w_AFFIX;w_HIGH;w_DOT]);
  (0x1bc85, [w_DUPLOYAN;w_AFFIX;w_HIGH;w_CIRCLE]);
  (0x1bc86, [w_DUPLOYAN;w_AFFIX;w_HIGH;w_LINE]);
  (0x1bc87, [w_DUPLOYAN;w_AFFIX;w_HIGH;w_WAVE]);
  (0x1bc88, [w_DUPLOYAN;w_AFFIX;w_HIGH;w_VERTICAL]);
  (0x1bc90, [w_DUPLOYAN;w_AFFIX;w_LOW;w_ACUTE]);
  (0x1bc91, [w_DUPLOYAN;w_AFFIX;w_LOW;w_TIGHT;w_ACUTE]);
  (0x1bc92, [w_DUPLOYAN;w_AFFIX;w_LOW;w_GRAVE]);
  (0x1bc93, [w_DUPLOYAN;w_AFFIX;w_LOW;w_LONG;w_GRAVE]);
  (0x1bc94, [w_DUPLOYAN;w_AFFIX;w_LOW;w_DOT]);
  (0x1bc95, [w_DUPLOYAN;w_AFFIX;w_LOW;w_CIRCLE]);
  (0x1bc96, [w_DUPLOYAN;w_AFFIX;w_LOW;w_LINE]);
  (0x1bc97, [w_DUPLOYAN;w_AFFIX;w_LOW;w_WAVE]);
  (0x1bc98, [w_DUPLOYAN;w_AFFIX;w_LOW;w_VERTICAL]);
  (0x1bc99, [w_DUPLOYAN;w_AFFIX;w_LOW;w_ARROW]);
  (0x1bc9c, [w_DUPLOYAN;w_SIGN;w_O;w_WITH;w_CROSS]);
  (0x1bc9d, [w_DUPLOYAN;w_THICK;w_LETTER;w_SELECTOR]);
  (0x1bc9e, [w_DUPLOYAN;w_DOUBLE;w_MARK]);
  (0x1bc9f, [w_DUPLOYAN;w_PUNCTUATION;w_CHINOOK;w_FULL;w_STOP]);
  (0x1bca0, [w_SHORTHAND;w_FORMAT;w_LETTER;w_OVERLAP]);
  (0x1bca1, [w_SHORTHAND;w_FORMAT;w_CONTINUING;w_OVERLAP]);
  (0x1bca2, [w_SHORTHAND;w_FORMAT;w_DOWN;w_STEP]);
  (0x1bca3, [w_SHORTHAND;w_FORMAT;w_UP;w_STEP]);
  (0x1d000, [w_BYZANTINE;w_MUSICAL;w_SYMBOL;w_PSILI]);
  (0x1d001, [w_BYZANTINE;w_MUSICAL;w_SYMBOL;w_DASEIA]);
  (0x1d002, [w_BYZANTINE;w_MUSICAL;w_SYMBOL;w_PERISPOMENI]);
  (0x1d003, [w_BYZANTINE;w_MUSICAL;w_SYMBOL;w_OXEIA;w_EKFONITIKON]);
  (0x1d004, [w_BYZANTINE;w_MUSICAL;w_SYMBOL;w_OXEIA;w_DIPLI]);
  (0x1d005, [w_BYZANTINE;w_MUSICAL;w_SYMBOL;w_VAREIA;w_EKFONITIKON]);
  (0x1d006, [w_BYZANTINE;w_MUSICAL;w_SYMBOL;w_VAREIA;w_DIPLI]);
  (0x1d007, [w_BYZANTINE;w_MUSICAL;w_SYMBOL;w_KATHISTI]);
  (0x1d008, [w_BYZANTINE;w_MUSICAL;w_SYMBOL;w_SYRMATIKI]);
  (0x1d009, [w_BYZANTINE;w_MUSICAL;w_SYMBOL;w_PARAKLITIKI]);
  (0x1d00a, [w_BYZANTINE;w_MUSICAL;w_SYMBOL;w_YPOKRISIS]);
  (0x1d00b, [w_BYZANTINE;w_MUSICAL;w_SYMBOL;w_YPOKRISIS;w_DIPLI]);
  (0x1d00c, [w_BYZANTINE;w_MUSICAL;w_SYMBOL;w_KREMASTI]);
  (0x1d00d, [w_BYZANTINE;w_MUSICAL;w_SYMBOL;w_APESO;w_EKFONITIKON]);
  (0x1d00e, [w_BYZANTINE;w_MUSICAL;w_SYMBOL;w_EXO;w_EKFONITIKON]);
  (0x1d00f, [w_BYZANTINE;w_MUSICAL;w_SYMBOL;w_TELEIA]);
  (0x1d010, [w_BYZANTINE;w_MUSICAL;w_SYMBOL;w_KENTIMATA]);
  (0x1d011, [w_BYZANTINE;w_MUSICAL;w_SYMBOL;w_APOSTROFOS]);
  (0x1d012, [w_BYZANTINE;w_MUSICAL;w_SYMBOL;w_APOSTROFOS;w_DIPLI]);
  (0x1d013, [w_BYZANTINE;w_MUSICAL;w_SYMBOL;w_SYNEVMA]);
  (0x1d014, [w_BYZANTINE;w_MUSICAL;w_SYMBOL;w_THITA]);
  (0x1d015, [w_BYZANTINE;w_MUSICAL;w_SYMBOL;w_OLIGON;w_ARCHAION]);
  (0x1d016, [w_BYZANTINE;w_MUSICAL;w_SYMBOL;w_GORGON;w_ARCHAION]);
  (0x1d017, [w_BYZANTINE;w_MUSICAL;w_SYMBOL;w_PSILON]);
  (0x1d018, [w_BYZANTINE;w_MUSICAL;w_SYMBOL;w_CHAMILON]);
  (0x1d019, [w_BYZANTINE;w_MUSICAL;w_SYMBOL;w_VATHY]);
  (0x1d01a, [w_BYZANTINE;w_MUSICAL;w_SYMBOL;w_ISON;w_ARCHAION]);
  (0x1d01b, [w_BYZANTINE;w_MUSICAL;w_SYMBOL;w_KENTIMA;w_ARCHAION]);
  (0x1d01c, [w_BYZANTINE;w_MUSICAL;w_SYMBOL;w_KENTIMATA;w_ARCHAION]);
  (0x1d01d, [w_BYZANTINE;w_MUSICAL;w_SYMBOL;w_SAXIMATA]);
  (0x1d01e, [w_BYZANTINE;w_MUSICAL;w_SYMBOL;w_PARICHON]);
  (0x1d01f, [w_BYZANTINE;w_MUSICAL;w_SYMBOL;w_STAVROS;w_APODEXIA]);
  (0x1d020, [w_BYZANTINE;w_MUSICAL;w_SYMBOL;w_OXEIAI;w_ARCHAION]);
  (0x1d021, [w_BYZANTINE;w_MUSICAL;w_SYMBOL;w_VAREIAI;w_ARCHAION]);
  (0x1d022, [w_BYZANTINE;w_MUSICAL;w_SYMBOL;w_APODERMA;w_ARCHAION]);
  (0x1d023, [w_BYZANTINE;w_MUSICAL;w_SYMBOL;w_APOTHEMA]);
  (0x1d024, [w_BYZANTINE;w_MUSICAL;w_SYMBOL;w_KLASMA]);
  (0x1d025, [w_BYZANTINE;w_MUSICAL;w_SYMBOL;w_REVMA]);
  (0x1d026, [w_BYZANTINE;w_MUSICAL;w_SYMBOL;w_PIASMA;w_ARCHAION]);
  (0x1d027, [w_BYZANTINE;w_MUSICAL;w_SYMBOL;w_TINAGMA]);
  (0x1d028, [w_BYZANTINE;w_MUSICAL;w_SYMBOL;w_ANATRICHISMA]);
  (0x1d029, [w_BYZANTINE;w_MUSICAL;w_SYMBOL;w_SEISMA]);
  (0x1d02a, [w_BYZANTINE;w_MUSICAL;w_SYMBOL;w_SYNAGMA;w_ARCHAION]);
  (0x1d02b, [w_BYZANTINE;w_MUSICAL;w_SYMBOL;w_SYNAGMA;w_META;w_STAVROU]);
  (0x1d02c, [w_BYZANTINE;w_MUSICAL;w_SYMBOL;w_OYRANISMA;w_ARCHAION]);
  (0x1d02d, [w_BYZANTINE;w_MUSICAL;w_SYMBOL;w_THEMA]);
  (0x1d02e, [w_BYZANTINE;w_MUSICAL;w_SYMBOL;w_LEMOI]);
  (0x1d02f, [w_BYZANTINE;w_MUSICAL;w_SYMBOL;w_DYO]);
  (0x1d030, [w_BYZANTINE;w_MUSICAL;w_SYMBOL;w_TRIA]);
  (0x1d031, [w_BYZANTINE;w_MUSICAL;w_SYMBOL;w_TESSERA]);
  (0x1d032, [w_BYZANTINE;w_MUSICAL;w_SYMBOL;w_KRATIMATA]);
  (0x1d033, [w_BYZANTINE;w_MUSICAL;w_SYMBOL;w_APESO;w_EXO;w_NEO]);
  (0x1d034, [w_BYZANTINE;w_MUSICAL;w_SYMBOL;w_FTHORA;w_ARCHAION]);
  (0x1d035, [w_BYZANTINE;w_MUSICAL;w_SYMBOL;w_IMIFTHORA]);
  (0x1d036, [w_BYZANTINE;w_MUSICAL;w_SYMBOL;w_TROMIKON;w_ARCHAION]);
  (0x1d037, [w_BYZANTINE;w_MUSICAL;w_SYMBOL;w_KATAVA;w_TROMIKON]);
  (0x1d038, [w_BYZANTINE;w_MUSICAL;w_SYMBOL;w_PELASTON]);
  (0x1d039, [w_BYZANTINE;w_MUSICAL;w_SYMBOL;w_PSIFISTON]);
  (0x1d03a, [w_BYZANTINE;w_MUSICAL;w_SYMBOL;w_KONTEVMA]);
  (0x1d03b, [w_BYZANTINE;w_MUSICAL;w_SYMBOL;w_CHOREVMA;w_ARCHAION]);
  (0x1d03c, [w_BYZANTINE;w_MUSICAL;w_SYMBOL;w_RAPISMA]);
  (0x1d03d, [w_BYZANTINE;w_MUSICAL;w_SYMBOL;w_PARAKALESMA;w_ARCHAION]);
  (0x1d03e, [w_BYZANTINE;w_MUSICAL;w_SYMBOL;w_PARAKLITIKI;w_ARCHAION]);
  (0x1d03f, [w_BYZANTINE;w_MUSICAL;w_SYMBOL;w_ICHADIN]);
  (0x1d040, [w_BYZANTINE;w_MUSICAL;w_SYMBOL;w_NANA]);
  (0x1d041, [w_BYZANTINE;w_MUSICAL;w_SYMBOL;w_PETASMA]);
  (0x1d042, [w_BYZANTINE;w_MUSICAL;w_SYMBOL;w_KONTEVMA;w_ALLO]);
  (0x1d043, [w_BYZANTINE;w_MUSICAL;w_SYMBOL;w_TROMIKON;w_ALLO]);
  (0x1d044, [w_BYZANTINE;w_MUSICAL;w_SYMBOL;w_STRAGGISMATA]);
  (0x1d045, [w_BYZANTINE;w_MUSICAL;w_SYMBOL;w_GRONTHISMATA]);
  (0x1d046, [w_BYZANTINE;w_MUSICAL;w_SYMBOL;w_ISON;w_NEO]);
  (0x1d047, [w_BYZANTINE;w_MUSICAL;w_SYMBOL;w_OLIGON;w_NEO]);
  (0x1d048, [w_BYZANTINE;w_MUSICAL;w_SYMBOL;w_OXEIA;w_NEO]);
  (0x1d049, [w_BYZANTINE;w_MUSICAL;w_SYMBOL;w_PETASTI]);
  (0x1d04a, [w_BYZANTINE;w_MUSICAL;w_SYMBOL;w_KOUFISMA]);
  (0x1d04b, [w_BYZANTINE;w_MUSICAL;w_SYMBOL;w_PETASTOKOUFISMA]);
  (0x1d04c, [w_BYZANTINE;w_MUSICAL;w_SYMBOL;w_KRATIMOKOUFISMA]);
  (0x1d04d, [w_BYZANTINE;w_MUSICAL;w_SYMBOL;w_PELASTON;w_NEO]);
  (0x1d04e, [w_BYZANTINE;w_MUSICAL;w_SYMBOL;w_KENTIMATA;w_NEO;w_ANO]);
  (0x1d04f, [w_BYZANTINE;w_MUSICAL;w_SYMBOL;w_KENTIMA;w_NEO;w_ANO]);
  (0x1d050, [w_BYZANTINE;w_MUSICAL;w_SYMBOL;w_YPSILI]);
  (0x1d051, [w_BYZANTINE;w_MUSICAL;w_SYMBOL;w_APOSTROFOS;w_NEO]);
  (0x1d052, [w_BYZANTINE;w_MUSICAL;w_SYMBOL;w_APOSTROFOI;w_SYNDESMOS;w_NEO]);
  (0x1d053, [w_BYZANTINE;w_MUSICAL;w_SYMBOL;w_YPORROI]);
  (0x1d054, [w_BYZANTINE;w_MUSICAL;w_SYMBOL;w_KRATIMOYPORROON]);
  (0x1d055, [w_BYZANTINE;w_MUSICAL;w_SYMBOL;w_ELAFRON]);
  (0x1d056, [w_BYZANTINE;w_MUSICAL;w_SYMBOL;w_CHAMILI]);
  (0x1d057, [w_BYZANTINE;w_MUSICAL;w_SYMBOL;w_MIKRON;w_ISON]);
  (0x1d058, [w_BYZANTINE;w_MUSICAL;w_SYMBOL;w_VAREIA;w_NEO]);
  (0x1d059, [w_BYZANTINE;w_MUSICAL;w_SYMBOL;w_PIASMA;w_NEO]);
  (0x1d05a, [w_BYZANTINE;w_MUSICAL;w_SYMBOL;w_PSIFISTON;w_NEO]);
  (0x1d05b, [w_BYZANTINE;w_MUSICAL;w_SYMBOL;w_OMALON]);
  (0x1d05c, [w_BYZANTINE;w_MUSICAL;w_SYMBOL;w_ANTIKENOMA]);
  (0x1d05d, [w_BYZANTINE;w_MUSICAL;w_SYMBOL;w_LYGISMA]);
  (0x1d05e, [w_BYZANTINE;w_MUSICAL;w_SYMBOL;w_PARAKLITIKI;w_NEO]);
  (0x1d05f, [w_BYZANTINE;w_MUSICAL;w_SYMBOL;w_PARAKALESMA;w_NEO]);
  (0x1d060, [w_BYZANTINE;w_MUSICAL;w_SYMBOL;w_ETERON;w_PARAKALESMA]);
  (0x1d061, [w_BYZANTINE;w_MUSICAL;w_SYMBOL;w_KYLISMA]);
  (0x1d062, [w_BYZANTINE;w_MUSICAL;w_SYMBOL;w_ANTIKENOKYLISMA]);
  (0x1d063, [w_BYZANTINE;w_MUSICAL;w_SYMBOL;w_TROMIKON;w_NEO]);
  (0x1d064, [w_BYZANTINE;w_MUSICAL;w_SYMBOL;w_EKSTREPTON]);
  (0x1d065, [w_BYZANTINE;w_MUSICAL;w_SYMBOL;w_SYNAGMA;w_NEO]);
  (0x1d066, [w_BYZANTINE;w_MUSICAL;w_SYMBOL;w_SYRMA]);
  (0x1d067, [w_BYZANTINE;w_MUSICAL;w_SYMBOL;w_CHOREVMA;w_NEO]);
  (0x1d068, [w_BYZANTINE;w_MUSICAL;w_SYMBOL;w_EPEGERMA]);
  (0x1d069, [w_BYZANTINE;w_MUSICAL;w_SYMBOL;w_SEISMA;w_NEO]);
  (0x1d06a, [w_BYZANTINE;w_MUSICAL;w_SYMBOL;w_XIRON;w_KLASMA]);
  (0x1d06b, [w_BYZANTINE;w_MUSICAL;w_SYMBOL;w_TROMIKOPSIFISTON]);
  (0x1d06c, [w_BYZANTINE;w_MUSICAL;w_SYMBOL;w_PSIFISTOLYGISMA]);
  (0x1d06d, [w_BYZANTINE;w_MUSICAL;w_SYMBOL;w_TROMIKOLYGISMA]);
  (0x1d06e, [w_BYZANTINE;w_MUSICAL;w_SYMBOL;w_TROMIKOPARAKALESMA]);
  (0x1d06f, [w_BYZANTINE;w_MUSICAL;w_SYMBOL;w_PSIFISTOPARAKALESMA]);
  (0x1d070, [w_BYZANTINE;w_MUSICAL;w_SYMBOL;w_TROMIKOSYNAGMA]);
  (0x1d071, [w_BYZANTINE;w_MUSICAL;w_SYMBOL;w_PSIFISTOSYNAGMA]);
  (0x1d072, [w_BYZANTINE;w_MUSICAL;w_SYMBOL;w_GORGOSYNTHETON]);
  (0x1d073, [w_BYZANTINE;w_MUSICAL;w_SYMBOL;w_ARGOSYNTHETON]);
  (0x1d074, [w_BYZANTINE;w_MUSICAL;w_SYMBOL;w_ETERON;w_ARGOSYNTHETON]);
  (0x1d075, [w_BYZANTINE;w_MUSICAL;w_SYMBOL;w_OYRANISMA;w_NEO]);
  (0x1d076, [w_BYZANTINE;w_MUSICAL;w_SYMBOL;w_THEMATISMOS;w_ESO]);
  (0x1d077, [w_BYZANTINE;w_MUSICAL;w_SYMBOL;w_THEMATISMOS;w_EXO]);
  (0x1d078, [w_BYZANTINE;w_MUSICAL;w_SYMBOL;w_THEMA;w_APLOUN]);
  (0x1d079, [w_BYZANTINE;w_MUSICAL;w_SYMBOL;w_THES;w_KAI;w_APOTHES]);
  (0x1d07a, [w_BYZANTINE;w_MUSICAL;w_SYMBOL;w_KATAVASMA]);
  (0x1d07b, [w_BYZANTINE;w_MUSICAL;w_SYMBOL;w_ENDOFONON]);
  (0x1d07c, [w_BYZANTINE;w_MUSICAL;w_SYMBOL;w_YFEN;w_KATO]);
  (0x1d07d, [w_BYZANTINE;w_MUSICAL;w_SYMBOL;w_YFEN;w_ANO]);
  (0x1d07e, [w_BYZANTINE;w_MUSICAL;w_SYMBOL;w_STAVROS]);
  (0x1d07f, [w_BYZANTINE;w_MUSICAL;w_SYMBOL;w_KLASMA;w_ANO]);
  (0x1d080, [w_BYZANTINE;w_MUSICAL;w_SYMBOL;w_DIPLI;w_ARCHAION]);
  (0x1d081, [w_BYZANTINE;w_MUSICAL;w_SYMBOL;w_KRATIMA;w_ARCHAION]);
  (0x1d082, [w_BYZANTINE;w_MUSICAL;w_SYMBOL;w_KRATIMA;w_ALLO]);
  (0x1d083, [w_BYZANTINE;w_MUSICAL;w_SYMBOL;w_KRATIMA;w_NEO]);
  (0x1d084, [w_BYZANTINE;w_MUSICAL;w_SYMBOL;w_APODERMA;w_NEO]);
  (0x1d085, [w_BYZANTINE;w_MUSICAL;w_SYMBOL;w_APLI]);
  (0x1d086, [w_BYZANTINE;w_MUSICAL;w_SYMBOL;w_DIPLI]);
  (0x1d087, [w_BYZANTINE;w_MUSICAL;w_SYMBOL;w_TRIPLI]);
  (0x1d088, [w_BYZANTINE;w_MUSICAL;w_SYMBOL;w_TETRAPLI]);
  (0x1d089, [w_BYZANTINE;w_MUSICAL;w_SYMBOL;w_KORONIS])].

Definition NAMES_65 : list (N * (list str)) := [
  (0x1d08a, [w_BYZANTINE;w_MUSICAL;w_SYMBOL;w_LEIMMA;w_ENOS;w_CHRONOU]);
  (0x1d08b, [w_BYZANTINE;w_MUSICAL;w_SYMBOL;w_LEIMMA;w_DYO;w_CHRONON]);
  (0x1d08c, [w_BYZANTINE;w_MUSICAL;w_SYMBOL;w_LEIMMA;w_TRION;w_CHRONON]);
  (0x1d08d, [w_BYZANTINE;w_MUSICAL;w_SYMBOL;w_LEIMMA;w_TESSARON;w_CHRONON]);
  (0x1d08e, [w_BYZANTINE;w_MUSICAL;w_SYMBOL;w_LEIMMA;w_IMISEOS;w_CHRONOU]);
  (0x1d08f, [w_BYZANTINE;w_MUSICAL;w_SYMBOL;w_GORGON;w_NEO;w_ANO]);
  (0x1d090, [w_BYZANTINE;w_MUSICAL;w_SYMBOL;w_GORGON;w_PARESTIGMENON;w_ARISTERA]);
  (0x1d091, [w_BYZANTINE;w_MUSICAL;w_SYMBOL;w_GORGON;w_PARESTIGMENON;w_DEXIA]);
  (0x1d092, [w_BYZANTINE;w_MUSICAL;w_SYMBOL;w_DIGORGON]);
  (0x1d093, [w_BYZANTINE;w_MUSICAL;w_SYMBOL;w_DIGORGON;w_PARESTIGMENON;w_ARISTERA;w_KATO]);
  (0x1d094, [w_BYZANTINE;w_MUSICAL;w_SYMBOL;w_DIGORGON;w_PARESTIGMENON;w_ARISTERA;w_ANO]);
  (0x1d095, [w_BYZANTINE;w_MUSICAL;w_SYMBOL;w_DIGORGON;w_PARESTIGMENON;w_DEXIA]);
  (0x1d096, [w_BYZANTINE;w_MUSICAL;w_SYMBOL;w_TRIGORGON]);
  (0x1d097, [w_BYZANTINE;w_MUSICAL;w_SYMBOL;w_ARGON]);
  (0x1d098, [w_BYZANTINE;w_MUSICAL;w_SYMBOL;w_IMIDIARGON]);
  (0x1d099, [w_BYZANTINE;w_MUSICAL;w_SYMBOL;w_DIARGON]);
  (0x1d09a, [w_BYZANTINE;w_MUSICAL;w_SYMBOL;w_AGOGI;w_POLI;w_ARGI]);
  (0x1d09b, [w_BYZANTINE;w_MUSICAL;w_SYMBOL;w_AGOGI;w_ARGOTERI]);
  (0x1d09c, [w_BYZANTINE;w_MUSICAL;w_SYMBOL;w_AGOGI;w_ARGI]);
  (0x1d09d, [w_BYZANTINE;w_MUSICAL;w_SYMBOL;w_AGOGI;w_METRIA]);
  (0x1d09e, [w_BYZANTINE;w_MUSICAL;w_SYMBOL;w_AGOGI;w_MESI]);
  (0x1d09f, [w_BYZANTINE;w_MUSICAL;w_SYMBOL;w_AGOGI;w_GORGI]);
  (0x1d0a0, [w_BYZANTINE;w_MUSICAL;w_SYMBOL;w_AGOGI;w_GORGOTERI]);
  (0x1d0a1, [w_BYZANTINE;w_MUSICAL;w_SYMBOL;w_AGOGI;w_POLI;w_GORGI]);
  (0x1d0a2, [w_BYZANTINE;w_MUSICAL;w_SYMBOL;w_MARTYRIA;w_PROTOS;w_ICHOS]);
  (0x1d0a3, [w_BYZANTINE;w_MUSICAL;w_SYMBOL;w_MARTYRIA;w_ALLI;w_PROTOS;w_ICHOS]);
  (0x1d0a4, [w_BYZANTINE;w_MUSICAL;w_SYMBOL;w_MARTYRIA;w_DEYTEROS;w_ICHOS]);
  (0x1d0a5, [w_BYZANTINE;w_MUSICAL;w_SYMBOL;w_MARTYRIA;w_ALLI;w_DEYTEROS;w_ICHOS]);
  (0x1d0a6, [w_BYZANTINE;w_MUSICAL;w_SYMBOL;w_MARTYRIA;w_TRITOS;w_ICHOS]);
  (0x1d0a7, [w_BYZANTINE;w_MUSICAL;w_SYMBOL;w_MARTYRIA;w_TRIFONIAS]);
  (0x1d0a8, [w_BYZANTINE;w_MUSICAL;w_SYMBOL;w_MARTYRIA;w_TETARTOS;w_ICHOS]);
  (0x1d0a9, [w_BYZANTINE;w_MUSICAL;w_SYMBOL;w_MARTYRIA;w_TETARTOS;w_LEGETOS;w_ICHOS]);
  (0x1d0aa, [w_BYZANTINE;w_MUSICAL;w_SYMBOL;w_MARTYRIA;w_LEGETOS;w_ICHOS]);
  (0x1d0ab, [w_BYZANTINE;w_MUSICAL;w_SYMBOL;w_MARTYRIA;w_PLAGIOS;w_ICHOS]);
  (0x1d0ac, [w_BYZANTINE;w_MUSICAL;w_SYMBOL;w_ISAKIA;w_TELOUS;w_ICHIMATOS]);
  (0x1d0ad, [w_BYZANTINE;w_MUSICAL;w_SYMBOL;w_APOSTROFOI;w_TELOUS;w_ICHIMATOS]);
  (0x1d0ae, [w_BYZANTINE;w_MUSICAL;w_SYMBOL;w_FANEROSIS;w_TETRAFONIAS]);
  (0x1d0af, [w_BYZANTINE;w_MUSICAL;w_SYMBOL;w_FANEROSIS;w_MONOFONIAS]);
  (0x1d0b0, [w_BYZANTINE;w_MUSICAL;w_SYMBOL;w_FANEROSIS;w_DIFONIAS]);
  (0x1d0b1, [w_BYZANTINE;w_MUSICAL;w_SYMBOL;w_MARTYRIA;w_VARYS;w_ICHOS]);
  (0x1d0b2, [w_BYZANTINE;w_MUSICAL;w_SYMBOL;w_MARTYRIA;w_PROTOVARYS;w_ICHOS]);
  (0x1d0b3, [w_BYZANTINE;w_MUSICAL;w_SYMBOL;w_MARTYRIA;w_PLAGIOS;w_TETARTOS;w_ICHOS]);
  (0x1d0b4, [w_BYZANTINE;w_MUSICAL;w_SYMBOL;w_GORTHMIKON;w_N;w_APLOUN]);
  (0x1d0b5, [w_BYZANTINE;w_MUSICAL;w_SYMBOL;w_GORTHMIKON;w_N;w_DIPLOUN]);
  (0x1d0b6, [w_BYZANTINE;w_MUSICAL;w_SYMBOL;w_ENARXIS;w_KAI;w_FTHORA;w_VOU]);
  (0x1d0b7, [w_BYZANTINE;w_MUSICAL;w_SYMBOL;w_IMIFONON]);
  (0x1d0b8, [w_BYZANTINE;w_MUSICAL;w_SYMBOL;w_IMIFTHORON]);
  (0x1d0b9, [w_BYZANTINE;w_MUSICAL;w_SYMBOL;w_FTHORA;w_ARCHAION;w_DEYTEROU;w_ICHOU]);
  (0x1d0ba, [w_BYZANTINE;w_MUSICAL;w_SYMBOL;w_FTHORA;w_DIATONIKI;w_PA]);
  (0x1d0bb, [w_BYZANTINE;w_MUSICAL;w_SYMBOL;w_FTHORA;w_DIATONIKI;w_NANA]);
  (0x1d0bc, [w_BYZANTINE;w_MUSICAL;w_SYMBOL;w_FTHORA;w_NAOS;w_ICHOS]);
  (0x1d0bd, [w_BYZANTINE;w_MUSICAL;w_SYMBOL;w_FTHORA;w_DIATONIKI;w_DI]);
  (0x1d0be, [w_BYZANTINE;w_MUSICAL;w_SYMBOL;w_FTHORA;w_SKLIRON;w_DIATONON;w_DI]);
  (0x1d0bf, [w_BYZANTINE;w_MUSICAL;w_SYMBOL;w_FTHORA;w_DIATONIKI;w_KE]);
  (0x1d0c0, [w_BYZANTINE;w_MUSICAL;w_SYMBOL;w_FTHORA;w_DIATONIKI;w_ZO]);
  (0x1d0c1, [w_BYZANTINE;w_MUSICAL;w_SYMBOL;w_FTHORA;w_DIATONIKI;w_NI;w_KATO]);
  (0x1d0c2, [w_BYZANTINE;w_MUSICAL;w_SYMBOL;w_FTHORA;w_DIATONIKI;w_NI;w_ANO]);
  (0x1d0c3, [w_BYZANTINE;w_MUSICAL;w_SYMBOL;w_FTHORA;w_MALAKON;w_CHROMA;w_DIFONIAS]);
  (0x1d0c4, [w_BYZANTINE;w_MUSICAL;w_SYMBOL;w_FTHORA;w_MALAKON;w_CHROMA;w_MONOFONIAS]);
  (0x1d0c5, [w_BYZANTINE;w_MUSICAL;w_SYMBOL;w_FHTORA;w_SKLIRON;w_CHROMA;w_VASIS]);
  (0x1d0c6, [w_BYZANTINE;w_MUSICAL;w_SYMBOL;w_FTHORA;w_SKLIRON;w_CHROMA;w_SYNAFI]);
  (0x1d0c7, [w_BYZANTINE;w_MUSICAL;w_SYMBOL;w_FTHORA;w_NENANO]);
  (0x1d0c8, [w_BYZANTINE;w_MUSICAL;w_SYMBOL;w_CHROA;w_ZYGOS]);
  (0x1d0c9, [w_BYZANTINE;w_MUSICAL;w_SYMBOL;w_CHROA;w_KLITON]);
  (0x1d0ca, [w_BYZANTINE;w_MUSICAL;w_SYMBOL;w_CHROA;w_SPATHI]);
  (0x1d0cb, [w_BYZANTINE;w_MUSICAL;w_SYMBOL;w_FTHORA;w_I;w_YFESIS;w_TETARTIMORION]);
  (0x1d0cc, [w_BYZANTINE;w_MUSICAL;w_SYMBOL;w_FTHORA;w_ENARMONIOS;w_ANTIFONIA]);
  (0x1d0cd, [w_BYZANTINE;w_MUSICAL;w_SYMBOL;w_YFESIS;w_TRITIMORION]);
  (0x1d0ce, [w_BYZANTINE;w_MUSICAL;w_SYMBOL;w_DIESIS;w_TRITIMORION]);
  (0x1d0cf, [w_BYZANTINE;w_MUSICAL;w_SYMBOL;w_DIESIS;w_TETARTIMORION]);
  (0x1d0d0, [w_BYZANTINE;w_MUSICAL;w_SYMBOL;w_DIESIS;w_APLI;w_DYO;w_DODEKATA]);
  (0x1d0d1, [w_BYZANTINE;w_MUSICAL;w_SYMBOL;w_DIESIS;w_MONOGRAMMOS;w_TESSERA;w_DODEKATA]);
  (0x1d0d2, [w_BYZANTINE;w_MUSICAL;w_SYMBOL;w_DIESIS;w_DIGRAMMOS;w_EX;w_DODEKATA]);
  (0x1d0d3, [w_BYZANTINE;w_MUSICAL;w_SYMBOL;w_DIESIS;w_TRIGRAMMOS;w_OKTO;w_DODEKATA]);
  (0x1d0d4, [w_BYZANTINE;w_MUSICAL;w_SYMBOL;w_YFESIS;w_APLI;w_DYO;w_DODEKATA]);
  (0x1d0d5, [w_BYZANTINE;w_MUSICAL;w_SYMBOL;w_YFESIS;w_MONOGRAMMOS;w_TESSERA;w_DODEKATA]);
  (0x1d0d6, [w_BYZANTINE;w_MUSICAL;w_SYMBOL;w_YFESIS;w_DIGRAMMOS;w_EX;w_DODEKATA]);
  (0x1d0d7, [w_BYZANTINE;w_MUSICAL;w_SYMBOL;w_YFESIS;w_TRIGRAMMOS;w_OKTO;w_DODEKATA]);
  (0x1d0d8, [w_BYZANTINE;w_MUSICAL;w_SYMBOL;w_GENIKI;w_DIESIS]);
  (0x1d0d9, [w_BYZANTINE;w_MUSICAL;w_SYMBOL;w_GENIKI;w_YFESIS]);
  (0x1d0da, [w_BYZANTINE;w_MUSICAL;w_SYMBOL;w_DIASTOLI;w_APLI;w_MIKRI]);
  (0x1d0db, [w_BYZANTINE;w_MUSICAL;w_SYMBOL;w_DIASTOLI;w_APLI;w_MEGALI]);
  (0x1d0dc, [w_BYZANTINE;w_MUSICAL;w_SYMBOL;w_DIASTOLI;w_DIPLI]);
  (0x1d0dd, [w_BYZANTINE;w_MUSICAL;w_SYMBOL;w_DIASTOLI;w_THESEOS]);
  (0x1d0de, [w_BYZANTINE;w_MUSICAL;w_SYMBOL;w_SIMANSIS;w_THESEOS]);
  (0x1d0df, [w_BYZANTINE;w_MUSICAL;w_SYMBOL;w_SIMANSIS;w_THESEOS;w_DISIMOU]);
  (0x1d0e0, [w_BYZANTINE;w_MUSICAL;w_SYMBOL;w_SIMANSIS;w_THESEOS;w_TRISIMOU]);
  (0x1d0e1, [w_BYZANTINE;w_MUSICAL;w_SYMBOL;w_SIMANSIS;w_THESEOS;w_TETRASIMOU]);
  (0x1d0e2, [w_BYZANTINE;w_MUSICAL;w_SYMBOL;w_SIMANSIS;w_ARSEOS]);
  (0x1d0e3, [w_BYZANTINE;w_MUSICAL;w_SYMBOL;w_SIMANSIS;w_ARSEOS;w_DISIMOU]);
  (0x1d0e4, [w_BYZANTINE;w_MUSICAL;w_SYMBOL;w_SIMANSIS;w_ARSEOS;w_TRISIMOU]);
  (0x1d0e5, [w_BYZANTINE;w_MUSICAL;w_SYMBOL;w_SIMANSIS;w_ARSEOS;w_TETRASIMOU]);
  (0x1d0e6, [w_BYZANTINE;w_MUSICAL;w_SYMBOL;w_DIGRAMMA;w_GG]);
  (0x1d0e7, [w_BYZANTINE;w_MUSICAL;w_SYMBOL;w_DIFTOGGOS;w_OU]);
  (0x1d0e8, [w_BYZANTINE;w_MUSICAL;w_SYMBOL;w_STIGMA]);
  (0x1d0e9, [w_BYZANTINE;w_MUSICAL;w_SYMBOL;w_ARKTIKO;w_PA]);
  (0x1d0ea, [w_BYZANTINE;w_MUSICAL;w_SYMBOL;w_ARKTIKO;w_VOU]);
  (0x1d0eb, [w_BYZANTINE;w_MUSICAL;w_SYMBOL;w_ARKTIKO;w_GA]);
  (0x1d0ec, [w_BYZANTINE;w_MUSICAL;w_SYMBOL;w_ARKTIKO;w_DI]);
  (0x1d0ed, [w_BYZANTINE;w_MUSICAL;w_SYMBOL;w_ARKTIKO;w_KE]);
  (0x1d0ee, [w_BYZANTINE;w_MUSICAL;w_SYMBOL;w_ARKTIKO;w_ZO]);
  (0x1d0ef, [w_BYZANTINE;w_MUSICAL;w_SYMBOL;w_ARKTIKO;w_NI]);
  (0x1d0f0, [w_BYZANTINE;w_MUSICAL;w_SYMBOL;w_KENTIMATA;w_NEO;w_MESO]);
  (0x1d0f1, [w_BYZANTINE;w_MUSICAL;w_SYMBOL;w_KENTIMA;w_NEO;w_MESO]);
  (0x1d0f2, [w_BYZANTINE;w_MUSICAL;w_SYMBOL;w_KENTIMATA;w_NEO;w_KATO]);
  (0x1d0f3, [w_BYZANTINE;w_MUSICAL;w_SYMBOL;w_KENTIMA;w_NEO;w_KATO]);
  (0x1d0f4, [w_BYZANTINE;w_MUSICAL;w_SYMBOL;w_KLASMA;w_KATO]);
  (0x1d0f5, [w_BYZANTINE;w_MUSICAL;w_SYMBOL;w_GORGON;w_NEO;w_KATO]);
  (0x1d100, [w_MUSICAL;w_SYMBOL;w_SINGLE;w_BARLINE]);
  (0x1d101, [w_MUSICAL;w_SYMBOL;w_DOUBLE;w_BARLINE]);
  (0x1d102, [w_MUSICAL;w_SYMBOL;w_FINAL;w_BARLINE]);
  (0x1d103, [w_MUSICAL;w_SYMBOL;w_REVERSE;w_FINAL;w_BARLINE]);
  (0x1d104, [w_MUSICAL;w_SYMBOL;w_DASHED;w_BARLINE]);
  (0x1d105, [w_MUSICAL;w_SYMBOL;w_SHORT;w_BARLINE]);
  (0x1d106, [w_MUSICAL;w_SYMBOL;w_LEFT;w_REPEAT;w_SIGN]);
  (0x1d107, [w_MUSICAL;w_SYMBOL;w_RIGHT;w_REPEAT;w_SIGN]);
  (0x1d108, [w_MUSICAL;w_SYMBOL;w_REPEAT;w_DOTS]);
  (0x1d109, [w_MUSICAL;w_SYMBOL;w_DAL;w_SEGNO]);
  (0x1d10a, [w_MUSICAL;w_SYMBOL;w_DA;w_CAPO]);
  (0x1d10b, [w_MUSICAL;w_SYMBOL;w_SEGNO]);
  (0x1d10c, [w_MUSICAL;w_SYMBOL;w_CODA]);
  (0x1d10d, [w_MUSICAL;w_SYMBOL;w_REPEATED;w_FIGURE_1]);
  (0x1d10e, [w_MUSICAL;w_SYMBOL;w_REPEATED;w_FIGURE_2]);
  (0x1d10f, [w_MUSICAL;w_SYMBOL;w_REPEATED;w_FIGURE_3]);
  (0x1d110, [w_MUSICAL;w_SYMBOL;w_FERMATA]);
  (0x1d111, [w_MUSICAL;w_SYMBOL;w_FERMATA;w_BELOW]);
  (0x1d112, [w_MUSICAL;w_SYMBOL;w_BREATH;w_MARK]);
  (0x1d113, [w_MUSICAL;w_SYMBOL;w_CAESURA]);
  (0x1d114, [w_MUSICAL;w_SYMBOL;w_BRACE]);
  (0x1d115, [w_MUSICAL;w_SYMBOL;w_BRACKET]);
  (0x1d116, [w_MUSICAL;w_SYMBOL;w_ONE_LINE;w_STAFF]);
  (0x1d117, [w_MUSICAL;w_SYMBOL;w_TWO_LINE;w_STAFF]);
  (0x1d118, [w_MUSICAL;w_SYMBOL;w_THREE_LINE;w_STAFF]);
  (0x1d119, [w_MUSICAL;w_SYMBOL;w_FOUR_LINE;w_STAFF]);
  (0x1d11a, [w_MUSICAL;w_SYMBOL;w_FIVE_LINE;w_STAFF]);
  (0x1d11b, [w_MUSICAL;w_SYMBOL;w_SIX_LINE;w_STAFF]);
  (0x1d11c, [w_MUSICAL;w_SYMBOL;w_SIX_STRING;w_FRETBOARD]);
  (0x1d11d, [w_MUSICAL;w_SYMBOL;w_FOUR_STRING;w_FRETBOARD]);
  (0x1d11e, [w_MUSICAL;w_SYMBOL;w_G;w_CLEF]);
  (0x1d11f, [w_MUSICAL;w_SYMBOL;w_G;w_CLEF;w_OTTAVA;w_ALTA]);
  (0x1d120, [w_MUSICAL;w_SYMBOL;w_G;w_CLEF;w_OTTAVA;w_BASSA]);
  (0x1d121, [w_MUSICAL;w_SYMBOL;w_C;w_CLEF]);
  (0x1d122, [w_MUSICAL;w_SYMBOL;w_F;w_CLEF]);
  (0x1d123, [w_MUSICAL;w_SYMBOL;w_F;w_CLEF;w_OTTAVA;w_ALTA]);
  (0x1d124, [w_MUSICAL;w_SYMBOL;w_F;w_CLEF;w_OTTAVA;w_BASSA]);
  (0x1d125, [w_MUSICAL;w_SYMBOL;w_DRUM;w_CLEF_1]);
  (0x1d126, [w_MUSICAL;w_SYMBOL;w_DRUM;w_CLEF_2]);
  (0x1d129, [w_MUSICAL;w_SYMBOL;w_MULTIPLE;w_MEASURE;w_REST]);
  (0x1d12a, [w_MUSICAL;w_SYMBOL;w_DOUBLE;w_SHARP]);
  (0x1d12b, [w_MUSICAL;w_SYMBOL;w_DOUBLE;w_FLAT]);
  (0x1d12c, [w_MUSICAL;w_SYMBOL;w_FLAT;w_UP]);
  (0x1d12d, [w_MUSICAL;w_SYMBOL;w_FLAT;w_DOWN]);
  (0x1d12e, [w_MUSICAL;w_SYMBOL;w_NATURAL;w_UP]);
  (0x1d12f, [w_MUSICAL;w_SYMBOL;w_NATURAL;w_DOWN]);
  (0x1d130, [w_MUSICAL;w_SYMBOL;w_SHARP;w_UP]);
  (0x1d131, [w_MUSICAL;w_SYMBOL;w_SHARP;w_DOWN]);
  (0x1d132, [w_MUSICAL;w_SYMBOL;w_QUARTER;w_TONE;w_SHARP]);
  (0x1d133, [w_MUSICAL;w_SYMBOL;w_QUARTER;w_TONE;w_FLAT]);
  (0x1d134, [w_MUSICAL;w_SYMBOL;w_COMMON;w_TIME]);
  (0x1d135, [w_MUSICAL;w_SYMBOL;w_CUT;w_TIME]);
  (0x1d136, [w_MUSICAL;w_SYMBOL;w_OTTAVA;w_ALTA]);
  (0x1d137, [w_MUSICAL;w_SYMBOL;w_OTTAVA;w_BASSA]);
  (0x1d138, [w_MUSICAL;w_SYMBOL;w_QUINDICESIMA;w_ALTA]);
  (0x1d139, [w_MUSICAL;w_SYMBOL;w_QUINDICESIMA;w_BASSA]);
  (0x1d13a, [w_MUSICAL;w_SYMBOL;w_MULTI;w_REST]);
  (0x1d13b, [w_MUSICAL;w_SYMBOL;w_WHOLE;w_REST]);
  (0x1d13c, [w_MUSICAL;w_SYMBOL;w_HALF;w_REST]);
  (0x1d13d, [w_MUSICAL;w_SYMBOL;w_QUARTER;w_REST]);
  (0x1d13e, [w_MUSICAL;w_SYMBOL;w_EIGHTH;w_REST]);
  (0x1d13f, [w_MUSICAL;w_SYMBOL;w_SIXTEENTH;w_REST]);
  (0x1d140, [w_MUSICAL;w_SYMBOL;w_THIRTY_SECOND;w_REST]);
  (0x1d141, [w_MUSICAL;w_SYMBOL;w_SIXTY_FOURTH;w_REST]);
  (0x1d142, [w_MUSICAL;w_SYMBOL;w_ONE;w_HUNDRED;w_TWENTY_EIGHTH;w_REST]);
  (0x1d143, [w_MUSICAL;w_SYMBOL;w_X;w_NOTEHEAD]);
  (0x1d144, [w_MUSICAL;w_SYMBOL;w_PLUS;w_NOTEHEAD]);
  (0x1d145, [w_MUSICAL;w_SYMBOL;w_CIRCLE;w_X;w_NOTEHEAD]);
  (0x1d146, [w_MUSICAL;w_SYMBOL;w_SQUARE;w_NOTEHEAD;w_WHITE]);
  (0x1d147, [w_MUSICAL;w_SYMBOL;w_SQUARE;w_NOTEHEAD;w_BLACK]);
  (0x1d148, [w_MUSICAL;w_SYMBOL;w_TRIANGLE;w_NOTEHEAD;w_UP;w_WHITE]);
  (0x1d149, [w_MUSICAL;w_SYMBOL;w_TRIANGLE;w_NOTEHEAD;w_UP;w_BLACK]);
  (0x1d14a, [w_MUSICAL;w_SYMBOL;w_TRIANGLE;w_NOTEHEAD;w_LEFT;w_WHITE]);
  (0x1d14b, [w_MUSICAL;w_SYMBOL;w_TRIANGLE;w_NOTEHEAD;w_LEFT;w_BLACK]);
  (0x1d14c, [w_MUSICAL;w_SYMBOL;w_TRIANGLE;w_NOTEHEAD;w_RIGHT;w_WHITE]);
  (0x1d14d, [w_MUSICAL;w_SYMBOL;w_TRIANGLE;w_NOTEHEAD;w_RIGHT;w_BLACK]);
  (0x1d14e, [w_MUSICAL;w_SYMBOL;w_TRIANGLE;w_NOTEHEAD;w_DOWN;w_WHITE]);
  (0x1d14f, [w_MUSICAL;w_SYMBOL;w_TRIANGLE;w_NOTEHEAD;w_DOWN;w_BLACK]);
  (0x1d150, [w_MUSICAL;w_SYMBOL;w_TRIANGLE;w_NOTEHEAD;w_UP;w_RIGHT;w_WHITE]);
  (0x1d151, [w_MUSICAL;w_SYMBOL;w_TRIANGLE;w_NOTEHEAD;w_UP;w_RIGHT;w_BLACK]);
  (0x1d152, [w_MUSICAL;w_SYMBOL;w_MOON;w_NOTEHEAD;w_WHITE]);
  (0x1d153, [w_MUSICAL;w_SYMBOL;w_MOON;w_NOTEHEAD;w_BLACK]);
  (0x1d154, [w_MUSICAL;w_SYMBOL;w_TRIANGLE_ROUND;w_NOTEHEAD;w_DOWN;w_WHITE]);
  (0x1d155, [w_MUSICAL;w_SYMBOL;w_TRIANGLE_ROUND;w_NOTEHEAD;w_DOWN;w_BLACK]);
  (0x1d156, [w_MUSICAL;w_SYMBOL;w_PARENTHESIS;w_NOTEHEAD]);
  (0x1d157, [w_MUSICAL;w_SYMBOL;w_VOID;w_NOTEHEAD]);
  (0x1d158, [w_MUSICAL;w_SYMBOL;w_NOTEHEAD;w_BLACK]);
  (0x1d159, [w_MUSICAL;w_SYMBOL;w_NULL;w_NOTEHEAD]);
  (0x1d15a, [w_MUSICAL;w_SYMBOL;w_CLUSTER;w_NOTEHEAD;w_WHITE]);
  (0x1d15b, [w_MUSICAL;w_SYMBOL;w_CLUSTER;w_NOTEHEAD;w_BLACK]);
  (0x1d15c, [w_MUSICAL;w_SYMBOL;w_BREVE]);
  (0x1d15d, [w_MUSICAL;w_SYMBOL;w_WHOLE;w_NOTE]);
  (0x1d15e, [w_MUSICAL;w_SYMBOL;w_HALF;w_NOTE]);
  (0x1d15f, [w_MUSICAL;w_SYMBOL;w_QUARTER;w_NOTE]);
  (0x1d160, [w_MUSICAL;w_SYMBOL;w_EIGHTH;w_NOTE]);
  (0x1d161, [w_MUSICAL;w_SYMBOL;w_SIXTEENTH;w_NOTE]);
  (0x1d162, [w_MUSICAL;w_SYMBOL;w_THIRTY_SECOND;w_NOTE]);
  (0x1d163, [w_MUSICAL;w_SYMBOL;w_SIXTY_FOURTH;w_NOTE]);
  (0x1d164, [w_MUSICAL;w_SYMBOL;w_ONE;w_HUNDRED;w_TWENTY_EIGHTH;w_NOTE]);
  (0x1d165, [w_MUSICAL;w_SYMBOL;w_COMBINING;w_STEM]);
  (0x1d166, [w_MUSICAL;w_SYMBOL;w_COMBINING;w_SPRECHGESANG;w_STEM]);
  (0x1d167, [w_MUSICAL;w_SYMBOL;w_COMBINING;w_TREMOLO_1]);
  (0x1d168, [w_MUSICAL;w_SYMBOL;w_COMBINING;w_TREMOLO_2]);
  (0x1d169, [w_MUSICAL;w_SYMBOL;w_COMBINING;w_TREMOLO_3]);
  (0x1d16a, [w_MUSICAL;w_SYMBOL;w_FINGERED;w_TREMOLO_1]);
  (0x1d16b, [w_MUSICAL;w_SYMBOL;w_FINGERED;w_TREMOLO_2]);
  (0x1d16c, [w_MUSICAL;w_SYMBOL;w_FINGERED;w_TREMOLO_3]);
  (0x1d16d, [w_MUSICAL;w_SYMBOL;w_COMBINING;w_AUGMENTATION;w_DOT]);
  (0x1d16e, [w_MUSICAL;w_SYMBOL;w_COMBINING;w_FLAG_1]);
  (0x1d16f, [w_MUSICAL;w_SYMBOL;w_COMBINING;w_FLAG_2]);
  (0x1d170, [w_MUSICAL;w_SYMBOL;w_COMBINING;w_FLAG_3]);
  (0x1d171, [w_MUSICAL;w_SYMBOL;w_COMBINING;w_FLAG_4]);
  (0x1d172, [w_MUSICAL;w_SYMBOL;w_COMBINING;w_FLAG_5]);
  (0x1d173, [w_MUSICAL;w_SYMBOL;w_BEGIN;w_BEAM]);
  (0x1d174, [w_MUSICAL;w_SYMBOL;w_END;w_BEAM]);
  (0x1d175, [w_MUSICAL;w_SYMBOL;w_BEGIN;w_TIE]);
  (0x1d176, [w_MUSICAL;w_SYMBOL;w_END;w_TIE]);
  (0x1d177, [w_MUSICAL;w_SYMBOL;w_BEGIN;w_SLUR]);
  (0x1d178, [w_MUSICAL;w_SYMBOL;w_END;w_SLUR]);
  (0x1d179, [w_MUSICAL;w_SYMBOL;w_BEGIN;w_PHRASE]);
  (0x1d17a, [w_MUSICAL;w_SYMBOL;w_END;w_PHRASE]);
  (0x1d17b, [w_MUSICAL;w_SYMBOL;w_COMBINING;w_ACCENT]);
  (0x1d17c, [w_MUSICAL;w_SYMBOL;w_COMBINING;w_STACCATO]);
  (0x1d17d, [w_MUSICAL;w_SYMBOL;w_COMBINING;w_TENUTO]);
  (0x1d17e, [w_MUSICAL;w_SYMBOL;w_COMBINING;w_STACCATISSIMO]);
  (0x1d17f, [w_MUSICAL;w_SYMBOL;w_COMBINING;w_MARCATO]);
  (0x1d180, [w_MUSICAL;w_SYMBOL;w_COMBINING;w_MARCATO_STACCATO]);
  (0x1d181, [w_MUSICAL;w_SYMBOL;w_COMBINING;w_ACCENT_STACCATO]);
  (0x1d182, [w_MUSICAL;w_SYMBOL;w_COMBINING;w_LOURE]);
  (0x1d183, [w_MUSICAL;w_SYMBOL;w_ARPEGGIATO;w_UP]);
  (0x1d184, [w_MUSICAL;w_SYMBOL;w_ARPEGGIATO;w_DOWN]);
  (0x1d185, [w_MUSICAL;w_SYMBOL;w_COMBINING;w_DOIT]);
  (0x1d186, [w_MUSICAL;w_SYMBOL;w_COMBINING;w_RIP]);
  (0x1d187, [w_MUSICAL;w_SYMBOL;w_COMBINING;w_FLIP]);
  (0x1d188, [w_MUSICAL;w_SYMBOL;w_COMBINING;w_SMEAR]);
  (0x1d189, [w_MUSICAL;w_SYMBOL;w_COMBINING;w_BEND]);
  (0x1d18a, [w_MUSICAL;w_SYMBOL;w_COMBINING;w_DOUBLE;w_TONGUE]);
  (0x1d18b, [w_MUSICAL;w_SYMBOL;w_COMBINING;w_TRIPLE;w_TONGUE]);
  (0x1d18c, [w_MUSICAL;w_SYMBOL;w_RINFORZANDO]);
  (0x1d18d, [w_MUSICAL;w_SYMBOL;w_SUBITO]);
  (0x1d18e, [w_MUSICAL;w_SYMBOL;w_Z]);
  (0x1d18f, [w_MUSICAL;w_SYMBOL;w_PIANO]);
  (0x1d190, [w_MUSICAL;w_SYMBOL;w_MEZZO]);
  (0x1d191, [w_MUSICAL;w_SYMBOL;w_FORTE]);
  (0x1d192, [w_MUSICAL;w_SYMBOL;w_CRESCENDO]);
  (0x1d193, [w_MUSICAL;w_SYMBOL;w_DECRESCENDO]);
  (0x1d194, [w_MUSICAL;w_SYMBOL;w_GRACE;w_NOTE;w_SLASH]);
  (0x1d195, [w_MUSICAL;w_SYMBOL;w_GRACE;w_NOTE;w_NO;w_SLASH]);
  (0x1d196, [w_MUSICAL;w_SYMBOL;w_TR]);
  (0x1d197, [w_MUSICAL;w_SYMBOL;w_TURN]);
  (0x1d198, [w_MUSICAL;w_SYMBOL;w_INVERTED;w_TURN]);
  (0x1d199, [w_MUSICAL;w_SYMBOL;w_TURN;w_SLASH]);
  (0x1d19a, [w_MUSICAL;w_SYMBOL;w_TURN;w_UP]);
  (0x1d19b, [w_MUSICAL;w_SYMBOL;w_ORNAMENT;w_STROKE_1]);
  (0x1d19c, [w_MUSICAL;w_SYMBOL;w_ORNAMENT;w_STROKE_2]);
  (0x1d19d, [w_MUSICAL;w_SYMBOL;w_ORNAMENT;w_STROKE_3]);
  (0x1d19e, [w_MUSICAL;w_SYMBOL;w_ORNAMENT;w_STROKE_4]);
  (0x1d19f, [w_MUSICAL;w_SYMBOL;w_ORNAMENT;w_STROKE_5]);
  (0x1d1a0, [w_MUSICAL;w_SYMBOL;w_ORNAMENT;w_STROKE_6]);
  (0x1d1a1, [w_MUSICAL;w_SYMBOL;w_ORNAMENT;w_STROKE_7]);
  (0x1d1a2, [w_MUSICAL;w_SYMBOL;w_ORNAMENT;w_STROKE_8]);
  (0x1d1a3, [w_MUSICAL;w_SYMBOL;w_ORNAMENT;w_STROKE_9]);
  (0x1d1a4, [w_MUSICAL;w_SYMBOL;w_ORNAMENT;w_STROKE_10]);
  (0x1d1a5, [w_MUSICAL;w_SYMBOL;w_ORNAMENT;w_STROKE_11]);
  (0x1d1a6, [w_MUSICAL;w_SYMBOL;w_HAUPTSTIMME]);
  (0x1d1a7, [w_MUSICAL;w_SYMBOL;w_NEBENSTIMME]);
  (0x1d1a8, [w_MUSICAL;w_SYMBOL;w_END;w_OF;w_STIMME]);
  (0x1d1a9, [w_MUSICAL;w_SYMBOL;w_DEGREE;w_SLASH]);
  (0x1d1aa, [w_MUSICAL;w_SYMBOL;w_COMBINING;w_DOWN;w_BOW]);
  (0x1d1ab, [w_MUSICAL;w_SYMBOL;w_COMBINING;w_UP;w_BOW]);
  (0x1d1ac, [w_MUSICAL;w_SYMBOL;w_COMBINING;w_HARMONIC]);
  (0x1d1ad, [w_MUSICAL;w_SYMBOL;w_COMBINING;w_SNAP;w_PIZZICATO]);
  (0x1d1ae, [w_MUSICAL;w_SYMBOL;w_PEDAL;w_MARK]);
  (0x1d1af, [w_MUSICAL;w_SYMBOL;w_PEDAL;w_UP;w_MARK]);
  (0x1d1b0, [w_MUSICAL;w_SYMBOL;w_HALF;w_PEDAL;w_MARK]);
  (0x1d1b1, [w_MUSICAL;w_SYMBOL;w_GLISSANDO;w_UP]);
  (0x1d1b2, [w_MUSICAL;w_SYMBOL;w_GLISSANDO;w_DOWN]);
  (0x1d1b3, [w_MUSICAL;w_SYMBOL;w_WITH;w_FINGERNAILS]);
  (0x1d1b4, [w_MUSICAL;w_SYMBOL;w_DAMP]);
  (0x1d1b5, [w_MUSICAL;w_SYMBOL;w_DAMP;w_ALL]);
  (0x1d1b6, [w_MUSICAL;w_SYMBOL;w_MAXIMA]);
  (0x1d1b7, [w_MUSICAL;w_SYMBOL;w_LONGA]);
  (0x1d1b8, [w_MUSICAL;w_SYMBOL;w_BREVIS]);
  (0x1d1b9, [w_MUSICAL;w_SYMBOL;w_SEMIBREVIS;w_WHITE]);
  (0x1d1ba, [w_MUSICAL;w_SYMBOL;w_SEMIBREVIS;w_BLACK]);
  (0x1d1bb, [w_MUSICAL;w_SYMBOL;w_MINIMA]);
  (0x1d1bc, [w_MUSICAL;w_SYMBOL;w_MINIMA;w_BLACK]);
  (0x1d1bd, [w_MUSICAL;w_SYMBOL;w_SEMIMINIMA;w_WHITE]);
  (0x1d1be, [w_MUSICAL;w_SYMBOL;w_SEMIMINIMA;w_BLACK]);
  (0x1d1bf, [w_MUSICAL;w_SYMBOL;w_FUSA;w_WHITE]);
  (0x1d1c0, [w_MUSICAL;w_SYMBOL;w_FUSA;w_BLACK]);
  (0x1d1c1, [w_MUSICAL;w_SYMBOL;w_LONGA;w_PERFECTA;w_REST]);
  (0x1d1c2, [w_MUSICAL;w_SYMBOL;w_LONGA;w_IMPERFECTA;w_REST]);
  (0x1d1c3, [w_MUSICAL;w_SYMBOL;w_BREVIS;w_REST]);
  (0x1d1c4, [w_MUSICAL;w_SYMBOL;w_SEMIBREVIS;w_REST]);
  (0x1d1c5, [w_MUSICAL;w_SYMBOL;w_MINIMA;w_REST]);
  (0x1d1c6, [w_MUSICAL;w_SYMBOL;w_SEMIMINIMA;w_REST]);
  (0x1d1c7, [w_MUSICAL;w_SYMBOL;w_TEMPUS;w_PERFECTUM;w_CUM;w_PROLATIONE;w_PERFECTA]);
  (0x1d1c8, [w_MUSICAL;w_SYMBOL;w_TEMPUS;w_PERFECTUM;w_CUM;w_PROLATIONE;w_IMPERFECTA]);
  (0x1d1c9, [w_MUSICAL;w_SYMBOL;w_TEMPUS;w_PERFECTUM;w_CUM;w_PROLATIONE;w_PERFECTA;w_DIMINUTION_1]);
  (0x1d1ca, [w_MUSICAL;w_SYMBOL;w_TEMPUS;w_IMPERFECTUM;w_CUM;w_PROLATIONE;w_PERFECTA]);
  (0x1d1cb, [w_MUSICAL;w_SYMBOL;w_TEMPUS;w_IMPERFECTUM;w_CUM;w_PROLATIONE;w_IMPERFECTA]);
  (0x1d1cc, [w_MUSICAL;w_SYMBOL;w_TEMPUS;w_IMPERFECTUM;w_CUM;w_PROLATIONE;w_IMPERFECTA;w_DIMINUTION_1]);
  (0x1d1cd, [w_MUSICAL;w_SYMBOL;w_TEMPUS;w_IMPERFECTUM;w_CUM;w_PROLATIONE;w_IMPERFECTA;w_DIMINUTION_2]);
  (0x1d1ce, [w_MUSICAL;w_SYMBOL;w_TEMPUS;w_IMPERFECTUM;w_CUM;w_PROLATIONE;w_IMPERFECTA;w_DIMINUTION_3]);
  (0x1d1cf, [w_MUSICAL;w_SYMBOL;w_CROIX]);
  (0x1d1d0, [w_MUSICAL;w_SYMBOL;w_GREGORIAN;w_C;w_CLEF]);
  (0x1d1d1, [w_MUSICAL;w_SYMBOL;w_GREGORIAN;w_F;w_CLEF]);
  (0x1d1d2, [w_MUSICAL;w_SYMBOL;w_SQUARE;w_B]);
  (0x1d1d3, [w_MUSICAL;w_SYMBOL;w_VIRGA]);
  (0x1d1d4, [w_MUSICAL;w_SYMBOL;w_PODATUS]);
  (0x1d1d5, [w_MUSICAL;w_SYMBOL;w_CLIVIS]);
  (0x1d1d6, [w_MUSICAL;w_SYMBOL;w_SCANDICUS]);
  (0x1d1d7, [w_MUSICAL;w_SYMBOL;w_CLIMACUS]);
  (0x1d1d8, [w_MUSICAL;w_SYMBOL;w_TORCULUS]);
  (0x1d1d9, [w_MUSICAL;w_SYMBOL;w_PORRECTUS]);
  (0x1d1da, [w_MUSICAL;w_SYMBOL;w_PORRECTUS;w_FLEXUS]);
  (0x1d1db, [w_MUSICAL;w_SYMBOL;w_SCANDICUS;w_FLEXUS]);
  (0x1d1dc, [w_MUSICAL;w_SYMBOL;w_TORCULUS;w_RESUPINUS]);
  (0x1d1dd, [w_MUSICAL;w_SYMBOL;w_PES;w_SUBPUNCTIS]);
  (0x1d1de, [w_MUSICAL;w_SYMBOL;w_KIEVAN;w_C;w_CLEF]);
  (0x1d1df, [w_MUSICAL;w_SYMBOL;w_KIEVAN;w_END;w_OF;w_PIECE]);
  (0x1d1e0, [w_MUSICAL;w_SYMBOL;w_KIEVAN;w_FINAL;w_NOTE]);
  (0x1d1e1, [w_MUSICAL;w_SYMBOL;w_KIEVAN;w_RECITATIVE;w_MARK]);
  (0x1d1e2, [w_MUSICAL;w_SYMBOL;w_KIEVAN;w_WHOLE;w_NOTE]);
  (0x1d1e3, [w_MUSICAL;w_SYMBOL;w_KIEVAN;w_HALF;w_NOTE]);
  (0x1d1e4, [w_MUSICAL;w_SYMBOL;w_KIEVAN;w_QUARTER;w_NOTE;w_STEM;w_DOWN]);
  (0x1d1e5, [w_MUSICAL;w_SYMBOL;w_KIEVAN;w_QUARTER;w_NOTE;w_STEM;w_UP]);
  (0x1d1e6, [w_MUSICAL;w_SYMBOL;w_KIEVAN;w_EIGHTH;w_NOTE;w_STEM;w_DOWN]);
  (0x1d1e7, [w_MUSICAL;w_SYMBOL;w_KIEVAN;w_EIGHTH;w_NOTE;w_STEM;w_UP]);
  (0x1d1e8, [w_MUSICAL;w_SYMBOL;w_KIEVAN;w_FLAT;w_SIGN]);
  (0x1d200, [w_GREEK;w_VOCAL;w_NOTATION;w_SYMBOL_1]);
  (0x1d201, [w_GREEK;w_VOCAL;w_NOTATION;w_SYMBOL_2]);
  (0x1d202, [w_GREEK;w_VOCAL;w_NOTATION;w_SYMBOL_3]);
  (0x1d203, [w_GREEK;w_VOCAL;w_NOTATION;w_SYMBOL_4]);
  (0x1d204, [w_GREEK;w_VOCAL;w_NOTATION;w_SYMBOL_5]);
  (0x1d205, [w_GREEK;w_VOCAL;w_NOTATION;w_SYMBOL_6]);
  (0x1d206, [w_GREEK;w_VOCAL;w_NOTATION;w_SYMBOL_7]);
  (0x1d207, [w_GREEK;w_VOCAL;w_NOTATION;w_SYMBOL_8]);
  (0x1d208, [w_GREEK;w_VOCAL;w_NOTATION;w_SYMBOL_9]);
  (0x1d209, [w_GREEK;w_VOCAL;w_NOTATION;w_SYMBOL_10]);
  (0x1d20a, [w_GREEK;w_VOCAL;w_NOTATION;w_SYMBOL_11]);
  (0x1d20b, [w_GREEK;w_VOCAL;w_NOTATION;w_SYMBOL_12]);
  (0x1d20c, [w_GREEK;w_VOCAL;w_NOTATION;w_SYMBOL_13]);
  (0x1d20d, [w_GREEK;w_VOCAL;w_NOTATION;w_SYMBOL_14]);
  (0x1d20e, [w_GREEK;w_VOCAL;w_NOTATION;w_SYMBOL_15]);
  (0x1d20f, [w_GREEK;w_VOCAL;w_NOTATION;w_SYMBOL_16]);
  (0x1d210, [w_GREEK;w_VOCAL;w_NOTATION;w_SYMBOL_17]);
  (0x1d211, [w_GREEK;w_VOCAL;w_NOTATION;w_SYMBOL_18]);
  (0x1d212, [w_GREEK;w_VOCAL;w_NOTATION;w_SYMBOL_19]);
  (0x1d213, [w_GREEK;w_VOCAL;w_NOTATION;w_SYMBOL_20]);
  (0x1d214, [w_GREEK;w_VOCAL;w_NOTATION;w_SYMBOL_21]);
  (0x1d215, [w_GREEK;w_VOCAL;w_NOTATION;w_SYMBOL_22]);
  (0x1d216, [w_GREEK;w_VOCAL;w_NOTATION;w_SYMBOL_23]);
  (0x1d217, [w_GREEK;w_VOCAL;w_NOTATION;w_SYMBOL_24]);
  (0x1d218, [w_GREEK;w_VOCAL;w_NOTATION;w_SYMBOL_50]);
  (0x1d219, [w_GREEK;w_VOCAL;w_NOTATION;w_SYMBOL_51]);
  (0x1d21a, [w_GREEK;w_VOCAL;w_NOTATION;w_SYMBOL_52]);
  (0x1d21b, [w_GREEK;w_VOCAL;w_NOTATION;w_SYMBOL_53]);
  (0x1d21c, [w_GREEK;w_VOCAL;w_NOTATION;w_SYMBOL_54]);
  (0x1d21d, [w_GREEK;w_INSTRUMENTAL;w_NOTATION;w_SYMBOL_1]);
  (0x1d21e, [w_GREEK;w_INSTRUMENTAL;w_NOTATION;w_SYMBOL_2]);
  (0x1d21f, [w_GREEK;w_INSTRUMENTAL;w_NOTATION;w_SYMBOL_4]);
  (0x1d220, [w_GREEK;w_INSTRUMENTAL;w_NOTATION;w_SYMBOL_5]);
  (0x1d221, [w_GREEK;w_INSTRUMENTAL;w_NOTATION;w_SYMBOL_7]);
  (0x1d222, [w_GREEK;w_INSTRUMENTAL;w_NOTATION;w_SYMBOL_8]);
  (0x1d223, [w_GREEK;w_INSTRUMENTAL;w_NOTATION;w_SYMBOL_11]);
  (0x1d224, [w_GREEK;w_INSTRUMENTAL;w_NOTATION;w_SYMBOL_12]);
  (0x1d225, [w_GREEK;w_INSTRUMENTAL;w_NOTATION;w_SYMBOL_13]);
  (0x1d226, [w_GREEK;w_INSTRUMENTAL;w_NOTATION;w_SYMBOL_14]);
  (0x1d227, [w_GREEK;w_INSTRUMENTAL;w_NOTATION;w_SYMBOL_17]);
  (0x1d228, [w_GREEK;w_INSTRUMENTAL;w_NOTATION;w_SYMBOL_18]);
  (0x1d229, [w_GREEK;w_INSTRUMENTAL;w_NOTATION;w_SYMBOL_19]);
  (0x1d22a, [w_GREEK;w_INSTRUMENTAL;w_NOTATION;w_SYMBOL_23]);
  (0x1d22b, [w_GREEK;w_INSTRUMENTAL;w_NOTATION;w_SYMBOL_24]);
  (0x1d22c, [w_GREEK;w_INSTRUMENTAL;w_NOTATION;w_SYMBOL_25]);
  (0x1d22d, [w_GREEK;w_INSTRUMENTAL;w_NOTATION;w_SYMBOL_26]);
  (0x1d22e, [w_GREEK;w_INSTRUMENTAL;w_NOTATION;w_SYMBOL_27]);
  (0x1d22f, [w_GREEK;w_INSTRUMENTAL;w_NOTATION;w_SYMBOL_29]);
  (0x1d230, [w_GREEK;w_INSTRUMENTAL;w_NOTATION;w_SYMBOL_30]);
  (0x1d231, [w_GREEK;w_INSTRUMENTAL;w_NOTATION;w_SYMBOL_32]);
  (0x1d232, [w_GREEK;w_INSTRUMENTAL;w_NOTATION;w_SYMBOL_36]);
  (0x1d233, [w_GREEK;w_INSTRUMENTAL;w_NOTATION;w_SYMBOL_37]);
  (0x1d234, [w_GREEK;w_INSTRUMENTAL;w_NOTATION;w_SYMBOL_38]);
  (0x1d235, [w_GREEK;w_INSTRUMENTAL;w_NOTATION;w_SYMBOL_39]);
  (0x1d236, [w_GREEK;w_INSTRUMENTAL;w_NOTATION;w_SYMBOL_40]);
  (0x1d237, [w_GREEK;w_INSTRUMENTAL;w_NOTATION;w_SYMBOL_42]);
  (0x1d238, [w_GREEK;w_INSTRUMENTAL;w_NOTATION;w_SYMBOL_43]);
  (0x1d239, [w_GREEK;w_INSTRUMENTAL;w_NOTATION;w_SYMBOL_45]);
  (0x1d23a, [w_GREEK;w_INSTRUMENTAL;w_NOTATION;w_SYMBOL_47]);
  (0x1d23b, [w_GREEK;w_INSTRUMENTAL;w_NOTATION;w_SYMBOL_48]);
  (0x1d23c, [w_GREEK;w_INSTRUMENTAL;w_NOTATION;w_SYMBOL_49])].

Definition NAMES_66 : list (N * (list str)) := [
  (0x1d23d, [w_GREEK;w_INSTRUMENTAL;w_NOTATION;w_SYMBOL_50]);
  (0x1d23e, [w_GREEK;w_INSTRUMENTAL;w_NOTATION;w_SYMBOL_51]);
  (0x1d23f, [w_GREEK;w_INSTRUMENTAL;w_NOTATION;w_SYMBOL_52]);
  (0x1d240, [w_GREEK;w_INSTRUMENTAL;w_NOTATION;w_SYMBOL_53]);
  (0x1d241, [w_GREEK;w_INSTRUMENTAL;w_NOTATION;w_SYMBOL_54]);
  (0x1d242, [w_COMBINING;w_GREEK;w_MUSICAL;w_TRISEME]);
  (0x1d243, [w_COMBINING;w_GREEK;w_MUSICAL;w_TETRASEME]);
  (0x1d244, [w_COMBINING;w_GREEK;w_MUSICAL;w_PENTASEME]);
  (0x1d245, [w_GREEK;w_MUSICAL;w_LEIMMA]);
  (0x1d300, [w_MONOGRAM;w_FOR;w_EARTH]);
  (0x1d301, [w_DIGRAM;w_FOR;w_HEAVENLY;w_EARTH]);
  (0x1d302, [w_DIGRAM;w_FOR;w_HUMAN;w_EARTH]);
  (0x1d303, [w_DIGRAM;w_FOR;w_EARTHLY;w_HEAVEN]);
  (0x1d304, [w_DIGRAM;w_FOR;w_EARTHLY;w_HUMAN]);
  (0x1d305, [w_DIGRAM;w_FOR;w_EARTH]);
  (0x1d306, [w_TETRAGRAM;w_FOR;w_CENTRE]);
  (0x1d307, [w_TETRAGRAM;w_FOR;w_FULL;w_CIRCLE]);
  (0x1d308, [w_TETRAGRAM;w_FOR;w_MIRED]);
  (0x1d309, [w_TETRAGRAM;w_FOR;w_BARRIER]);
  (0x1d30a, [w_TETRAGRAM;w_FOR;w_KEEPING;w_SMALL]);
  (0x1d30b, [w_TETRAGRAM;w_FOR;w_CONTRARIETY]);
  (0x1d30c, [w_TETRAGRAM;w_FOR;w_ASCENT]);
  (0x1d30d, [w_TETRAGRAM;w_FOR;w_OPPOSITION]);
  (0x1d30e, [w_TETRAGRAM;w_FOR;w_BRANCHING;w_OUT]);
  (0x1d30f, [w_TETRAGRAM;w_FOR;w_DEFECTIVENESS;w_OR;w_DISTORTION]);
  (0x1d310, [w_TETRAGRAM;w_FOR;w_DIVERGENCE]);
  (0x1d311, [w_TETRAGRAM;w_FOR;w_YOUTHFULNESS]);
  (0x1d312, [w_TETRAGRAM;w_FOR;w_INCREASE]);
  (0x1d313, [w_TETRAGRAM;w_FOR;w_PENETRATION]);
  (0x1d314, [w_TETRAGRAM;w_FOR;w_REACH]);
  (0x1d315, [w_TETRAGRAM;w_FOR;w_CONTACT]);
  (0x1d316, [w_TETRAGRAM;w_FOR;w_HOLDING;w_BACK]);
  (0x1d317, [w_TETRAGRAM;w_FOR;w_WAITING]);
  (0x1d318, [w_TETRAGRAM;w_FOR;w_FOLLOWING]);
  (0x1d319, [w_TETRAGRAM;w_FOR;w_ADVANCE]);
  (0x1d31a, [w_TETRAGRAM;w_FOR;w_RELEASE]);
  (0x1d31b, [w_TETRAGRAM;w_FOR;w_RESISTANCE]);
  (0x1d31c, [w_TETRAGRAM;w_FOR;w_EASE]);
  (0x1d31d, [w_TETRAGRAM;w_FOR;w_JOY]);
  (0x1d31e, [w_TETRAGRAM;w_FOR;w_CONTENTION]);
  (0x1d31f, [w_TETRAGRAM;w_FOR;w_ENDEAVOUR]);
  (0x1d320, [w_TETRAGRAM;w_FOR;w_DUTIES]);
  (0x1d321, [w_TETRAGRAM;w_FOR;w_CHANGE]);
  (0x1d322, [w_TETRAGRAM;w_FOR;w_DECISIVENESS]);
  (0x1d323, [w_TETRAGRAM;w_FOR;w_BOLD;w_RESOLUTION]);
  (0x1d324, [w_TETRAGRAM;w_FOR;w_PACKING]);
  (0x1d325, [w_TETRAGRAM;w_FOR;w_LEGION]);
  (0x1d326, [w_TETRAGRAM;w_FOR;w_CLOSENESS]);
  (0x1d327, [w_TETRAGRAM;w_FOR;w_KINSHIP]);
  (0x1d328, [w_TETRAGRAM;w_FOR;w_GATHERING]);
  (0x1d329, [w_TETRAGRAM;w_FOR;w_STRENGTH]);
  (0x1d32a, [w_TETRAGRAM;w_FOR;w_PURITY]);
  (0x1d32b, [w_TETRAGRAM;w_FOR;w_FULLNESS]);
  (0x1d32c, [w_TETRAGRAM;w_FOR;w_RESIDENCE]);
  (0x1d32d, [w_TETRAGRAM;w_FOR;w_LAW;w_OR;w_MODEL]);
  (0x1d32e, [w_TETRAGRAM;w_FOR;w_RESPONSE]);
  (0x1d32f, [w_TETRAGRAM;w_FOR;w_GOING;w_TO;w_MEET]);
  (0x1d330, [w_TETRAGRAM;w_FOR;w_ENCOUNTERS]);
  (0x1d331, [w_TETRAGRAM;w_FOR;w_STOVE]);
  (0x1d332, [w_TETRAGRAM;w_FOR;w_GREATNESS]);
  (0x1d333, [w_TETRAGRAM;w_FOR;w_ENLARGEMENT]);
  (0x1d334, [w_TETRAGRAM;w_FOR;w_PATTERN]);
  (0x1d335, [w_TETRAGRAM;w_FOR;w_RITUAL]);
  (0x1d336, [w_TETRAGRAM;w_FOR;w_FLIGHT]);
  (0x1d337, [w_TETRAGRAM;w_FOR;w_VASTNESS;w_OR;w_WASTING]);
  (0x1d338, [w_TETRAGRAM;w_FOR;w_CONSTANCY]);
  (0x1d339, [w_TETRAGRAM;w_FOR;w_MEASURE]);
  (0x1d33a, [w_TETRAGRAM;w_FOR;w_ETERNITY]);
  (0x1d33b, [w_TETRAGRAM;w_FOR;w_UNITY]);
  (0x1d33c, [w_TETRAGRAM;w_FOR;w_DIMINISHMENT]);
  (0x1d33d, [w_TETRAGRAM;w_FOR;w_CLOSED;w_MOUTH]);
  (0x1d33e, [w_TETRAGRAM;w_FOR;w_GUARDEDNESS]);
  (0x1d33f, [w_TETRAGRAM;w_FOR;w_GATHERING;w_IN]);
  (0x1d340, [w_TETRAGRAM;w_FOR;w_MASSING]);
  (0x1d341, [w_TETRAGRAM;w_FOR;w_ACCUMULATION]);
  (0x1d342, [w_TETRAGRAM;w_FOR;w_EMBELLISHMENT]);
  (0x1d343, [w_TETRAGRAM;w_FOR;w_DOUBT]);
  (0x1d344, [w_TETRAGRAM;w_FOR;w_WATCH]);
  (0x1d345, [w_TETRAGRAM;w_FOR;w_SINKING]);
  (0x1d346, [w_TETRAGRAM;w_FOR;w_INNER]);
  (0x1d347, [w_TETRAGRAM;w_FOR;w_DEPARTURE]);
  (0x1d348, [w_TETRAGRAM;w_FOR;w_DARKENING]);
  (0x1d349, [w_TETRAGRAM;w_FOR;w_DIMMING]);
  (0x1d34a, [w_TETRAGRAM;w_FOR;w_EXHAUSTION]);
  (0x1d34b, [w_TETRAGRAM;w_FOR;w_SEVERANCE]);
  (0x1d34c, [w_TETRAGRAM;w_FOR;w_STOPPAGE]);
  (0x1d34d, [w_TETRAGRAM;w_FOR;w_HARDNESS]);
  (0x1d34e, [w_TETRAGRAM;w_FOR;w_COMPLETION]);
  (0x1d34f, [w_TETRAGRAM;w_FOR;w_CLOSURE]);
  (0x1d350, [w_TETRAGRAM;w_FOR;w_FAILURE]);
  (0x1d351, [w_TETRAGRAM;w_FOR;w_AGGRAVATION]);
  (0x1d352, [w_TETRAGRAM;w_FOR;w_COMPLIANCE]);
  (0x1d353, [w_TETRAGRAM;w_FOR;w_ON;w_THE;w_VERGE]);
  (0x1d354, [w_TETRAGRAM;w_FOR;w_DIFFICULTIES]);
  (0x1d355, [w_TETRAGRAM;w_FOR;w_LABOURING]);
  (0x1d356, [w_TETRAGRAM;w_FOR;w_FOSTERING]);
  (0x1d360, [w_COUNTING;w_ROD;w_UNIT;w_DIGIT;w_ONE]);
  (0x1d361, [w_COUNTING;w_ROD;w_UNIT;w_DIGIT;w_TWO]);
  (0x1d362, [w_COUNTING;w_ROD;w_UNIT;w_DIGIT;w_THREE]);
  (0x1d363, [w_COUNTING;w_ROD;w_UNIT;w_DIGIT;w_FOUR]);
  (0x1d364, [w_COUNTING;w_ROD;w_UNIT;w_DIGIT;w_FIVE]);
  (0x1d365, [w_COUNTING;w_ROD;w_UNIT;w_DIGIT;w_SIX]);
  (0x1d366, [w_COUNTING;w_ROD;w_UNIT;w_DIGIT;w_SEVEN]);
  (0x1d367, [w_COUNTING;w_ROD;w_UNIT;w_DIGIT;w_EIGHT]);
  (0x1d368, [w_COUNTING;w_ROD;w_UNIT;w_DIGIT;w_NINE]);
  (0x1d369, [w_COUNTING;w_ROD;w_TENS;w_DIGIT;w_ONE]);
  (0x1d36a, [w_COUNTING;w_ROD;w_TENS;w_DIGIT;w_TWO]);
  (0x1d36b, [w_COUNTING;w_ROD;w_TENS;w_DIGIT;w_THREE]);
  (0x1d36c, [w_COUNTING;w_ROD;w_TENS;w_DIGIT;w_FOUR]);
  (0x1d36d, [w_COUNTING;w_ROD;w_TENS;w_DIGIT;w_FIVE]);
  (0x1d36e, [w_COUNTING;w_ROD;w_TENS;w_DIGIT;w_SIX]);
  (0x1d36f, [w_COUNTING;w_ROD;w_TENS;w_DIGIT;w_SEVEN]);
  (0x1d370, [w_COUNTING;w_ROD;w_TENS;w_DIGIT;w_EIGHT]);
  (0x1d371, [w_COUNTING;w_ROD;w_TENS;w_DIGIT;w_NINE]);
  (0x1d400, [w_MATHEMATICAL;w_BOLD;w_CAPITAL;w_A]);
  (0x1d401, [w_MATHEMATICAL;w_BOLD;w_CAPITAL;w_B]);
  (0x1d402, [w_MATHEMATICAL;w_BOLD;w_CAPITAL;w_C]);
  (0x1d403, [w_MATHEMATICAL;w_BOLD;w_CAPITAL;w_D]);
  (0x1d404, [w_MATHEMATICAL;w_BOLD;w_CAPITAL;w_E]);
  (0x1d405, [w_MATHEMATICAL;w_BOLD;w_CAPITAL;w_F]);
  (0x1d406, [w_MATHEMATICAL;w_BOLD;w_CAPITAL;w_G]);
  (0x1d407, [w_MATHEMATICAL;w_BOLD;w_CAPITAL;w_H]);
  (0x1d408, [w_MATHEMATICAL;w_BOLD;w_CAPITAL;w_I]);
  (0x1d409, [w_MATHEMATICAL;w_BOLD;w_CAPITAL;w_J]);
  (0x1d40a, [w_MATHEMATICAL;w_BOLD;w_CAPITAL;w_K]);
  (0x1d40b, [w_MATHEMATICAL;w_BOLD;w_CAPITAL;w_L]);
  (0x1d40c, [w_MATHEMATICAL;w_BOLD;w_CAPITAL;w_M]);
  (0x1d40d, [w_MATHEMATICAL;w_BOLD;w_CAPITAL;w_N]);
  (0x1d40e, [w_MATHEMATICAL;w_BOLD;w_CAPITAL;w_O]);
  (0x1d40f, [w_MATHEMATICAL;w_BOLD;w_CAPITAL;w_P]);
  (0x1d410, [w_MATHEMATICAL;w_BOLD;w_CAPITAL;w_Q]);
  (0x1d411, [w_MATHEMATICAL;w_BOLD;w_CAPITAL;w_R]);
  (0x1d412, [w_MATHEMATICAL;w_BOLD;w_CAPITAL;w_S]);
  (0x1d413, [w_MATHEMATICAL;w_BOLD;w_CAPITAL;w_T]);
  (0x1d414, [w_MATHEMATICAL;w_BOLD;w_CAPITAL;w_U]);
  (0x1d415, [w_MATHEMATICAL;w_BOLD;w_CAPITAL;w_V]);
  (0x1d416, [w_MATHEMATICAL;w_BOLD;w_CAPITAL;w_W]);
  (0x1d417, [w_MATHEMATICAL;w_BOLD;w_CAPITAL;w_X]);
  (0x1d418, [w_MATHEMATICAL;w_BOLD;w_CAPITAL;w_Y]);
  (0x1d419, [w_MATHEMATICAL;w_BOLD;w_CAPITAL;w_Z]);
  (0x1d41a, [w_MATHEMATICAL;w_BOLD;w_SMALL;w_A]);
  (0x1d41b, [w_MATHEMATICAL;w_BOLD;w_SMALL;w_B]);
  (0x1d41c, [w_MATHEMATICAL;w_BOLD;w_SMALL;w_C]);
  (0x1d41d, [w_MATHEMATICAL;w_BOLD;w_SMALL;w_D]);
  (0x1d41e, [w_MATHEMATICAL;w_BOLD;w_SMALL;w_E]);
  (0x1d41f, [w_MATHEMATICAL;w_BOLD;w_SMALL;w_F]);
  (0x1d420, [w_MATHEMATICAL;w_BOLD;w_SMALL;w_G]);
  (0x1d421, [w_MATHEMATICAL;w_BOLD;w_SMALL;w_H]);
  (0x1d422, [w_MATHEMATICAL;w_BOLD;w_SMALL;w_I]);
  (0x1d423, [w_MATHEMATICAL;w_BOLD;w_SMALL;w_J]);
  (0x1d424, [w_MATHEMATICAL;w_BOLD;w_SMALL;w_K]);
  (0x1d425, [w_MATHEMATICAL;w_BOLD;w_SMALL;w_L]);
  (0x1d426, [w_MATHEMATICAL;w_BOLD;w_SMALL;w_M]);
  (0x1d427, [w_MATHEMATICAL;w_BOLD;w_SMALL;w_N]);
  (0x1d428, [w_MATHEMATICAL;w_BOLD;w_SMALL;w_O]);
  (0x1d429, [w_MATHEMATICAL;w_BOLD;w_SMALL;w_P]);
  (0x1d42a, [w_MATHEMATICAL;w_BOLD;w_SMALL;w_Q]);
  (0x1d42b, [w_MATHEMATICAL;w_BOLD;w_SMALL;w_R]);
  (0x1d42c, [w_MATHEMATICAL;w_BOLD;w_SMALL;w_S]);
  (0x1d42d, [w_MATHEMATICAL;w_BOLD;w_SMALL;w_T]);
  (0x1d42e, [w_MATHEMATICAL;w_BOLD;w_SMALL;w_U]);
  (0x1d42f, [w_MATHEMATICAL;w_BOLD;w_SMALL;w_V]);
  (0x1d430, [w_MATHEMATICAL;w_BOLD;w_SMALL;w_W]);
  (0x1d431, [w_MATHEMATICAL;w_BOLD;w_SMALL;w_X]);
  (0x1d432, [w_MATHEMATICAL;w_BOLD;w_SMALL;w_Y]);
  (0x1d433, [w_MATHEMATICAL;w_BOLD;w_SMALL;w_Z]);
  (0x1d434, [w_MATHEMATICAL;w_ITALIC;w_CAPITAL;w_A]);
  (0x1d435, [w_MATHEMATICAL;w_ITALIC;w_CAPITAL;w_B]);
  (0x1d436, [w_MATHEMATICAL;w_ITALIC;w_CAPITAL;w_C]);
  (0x1d437, [w_MATHEMATICAL;w_ITALIC;w_CAPITAL;w_D]);
  (0x1d438, [w_MATHEMATICAL;w_ITALIC;w_CAPITAL;w_E]);
  (0x1d439, [w_MATHEMATICAL;w_ITALIC;w_CAPITAL;w_F]);
  (0x1d43a, [w_MATHEMATICAL;w_ITALIC;w_CAPITAL;w_G]);
  (0x1d43b, [w_MATHEMATICAL;w_ITALIC;w_CAPITAL;w_H]);
  (0x1d43c, [w_MATHEMATICAL;w_ITALIC;w_CAPITAL;w_I]);
  (0x1d43d, [w_MATHEMATICAL;w_ITALIC;w_CAPITAL;w_J]);
  (0x1d43e, [w_MATHEMATICAL;w_ITALIC;w_CAPITAL;w_K]);
  (0x1d43f, [w_MATHEMATICAL;w_ITALIC;w_CAPITAL;w_L]);
  (0x1d440, [w_MATHEMATICAL;w_ITALIC;w_CAPITAL;w_M]);
  (0x1d441, [w_MATHEMATICAL;w_ITALIC;w_CAPITAL;w_N]);
  (0x1d442, [w_MATHEMATICAL;w_ITALIC;w_CAPITAL;w_O]);
  (0x1d443, [w_MATHEMATICAL;w_ITALIC;w_CAPITAL;w_P]);
  (0x1d444, [w_MATHEMATICAL;w_ITALIC;w_CAPITAL;w_Q]);
  (0x1d445, [w_MATHEMATICAL;w_ITALIC;w_CAPITAL;w_R]);
  (0x1d446, [w_MATHEMATICAL;w_ITALIC;w_CAPITAL;w_S]);
  (0x1d447, [w_MATHEMATICAL;w_ITALIC;w_CAPITAL;w_T]);
  (0x1d448, [w_MATHEMATICAL;w_ITALIC;w_CAPITAL;w_U]);
  (0x1d449, [w_MATHEMATICAL;w_ITALIC;w_CAPITAL;w_V]);
  (0x1d44a, [w_MATHEMATICAL;w_ITALIC;w_CAPITAL;w_W]);
  (0x1d44b, [w_MATHEMATICAL;w_ITALIC;w_CAPITAL;w_X]);
  (0x1d44c, [w_MATHEMATICAL;w_ITALIC;w_CAPITAL;w_Y]);
  (0x1d44d, [w_MATHEMATICAL;w_ITALIC;w_CAPITAL;w_Z]);
  (0x1d44e, [w_MATHEMATICAL;w_ITALIC;w_SMALL;w_A]);
  (0x1d44f, [w_MATHEMATICAL;w_ITALIC;w_SMALL;w_B]);
  (0x1d450, [w_MATHEMATICAL;w_ITALIC;w_SMALL;w_C]);
  (0x1d451, [w_MATHEMATICAL;w_ITALIC;w_SMALL;w_D]);
  (0x1d452, [w_MATHEMATICAL;w_ITALIC;w_SMALL;w_E]);
  (0x1d453, [w_MATHEMATICAL;w_ITALIC;w_SMALL;w_F]);
  (0x1d454, [w_MATHEMATICAL;w_ITALIC;w_SMALL;w_G]);
  (0x1d456, [w_MATHEMATICAL;w_ITALIC;w_SMALL;w_I]);
  (0x1d457, [w_MATHEMATICAL;w_ITALIC;w_SMALL;w_J]);
  (0x1d458, [w_MATHEMATICAL;w_ITALIC;w_SMALL;w_K]);
  (0x1d459, [w_MATHEMATICAL;w_ITALIC;w_SMALL;w_L]);
  (0x1d45a, [w_MATHEMATICAL;w_ITALIC;w_SMALL;w_M]);
  (0x1d45b, [w_MATHEMATICAL;w_ITALIC;w_SMALL;w_N]);
  (0x1d45c, [w_MATHEMATICAL;w_ITALIC;w_SMALL;w_O]);
  (0x1d45d, [w_MATHEMATICAL;w_ITALIC;w_SMALL;w_P]);
  (0x1d45e, [w_MATHEMATICAL;w_ITALIC;w_SMALL;w_Q]);
  (0x1d45f, [w_MATHEMATICAL;w_ITALIC;w_SMALL;w_R]);
  (0x1d460, [w_MATHEMATICAL;w_ITALIC;w_SMALL;w_S]);
  (0x1d461, [w_MATHEMATICAL;w_ITALIC;w_SMALL;w_T]);
  (0x1d462, [w_MATHEMATICAL;w_ITALIC;w_SMALL;w_U]);
  (0x1d463, [w_MATHEMATICAL;w_ITALIC;w_SMALL;w_V]);
  (0x1d464, [w_MATHEMATICAL;w_ITALIC;w_SMALL;w_W]);
  (0x1d465, [w_MATHEMATICAL;w_ITALIC;w_SMALL;w_X]);
  (0x1d466, [w_MATHEMATICAL;w_ITALIC;w_SMALL;w_Y]);
  (0x1d467, [w_MATHEMATICAL;w_ITALIC;w_SMALL;w_Z]);
  (0x1d468, [w_MATHEMATICAL;w_BOLD;w_ITALIC;w_CAPITAL;w_A]);
  (0x1d469, [w_MATHEMATICAL;w_BOLD;w_ITALIC;w_CAPITAL;w_B]);
  (0x1d46a, [w_MATHEMATICAL;w_BOLD;w_ITALIC;w_CAPITAL;w_C]);
  (0x1d46b, [w_MATHEMATICAL;w_BOLD;w_ITALIC;w_CAPITAL;w_D]);
  (0x1d46c, [w_MATHEMATICAL;w_BOLD;w_ITALIC;w_CAPITAL;w_E]);
  (0x1d46d, [w_MATHEMATICAL;w_BOLD;w_ITALIC;w_CAPITAL;w_F]);
  (0x1d46e, [w_MATHEMATICAL;w_BOLD;w_ITALIC;w_CAPITAL;w_G]);
  (0x1d46f, [w_MATHEMATICAL;w_BOLD;w_ITALIC;w_CAPITAL;w_H]);
  (0x1d470, [w_MATHEMATICAL;w_BOLD;w_ITALIC;w_CAPITAL;w_I]);
  (0x1d471, [w_MATHEMATICAL;w_BOLD;w_ITALIC;w_CAPITAL;w_J]);
  (0x1d472, [w_MATHEMATICAL;w_BOLD;w_ITALIC;w_CAPITAL;w_K]);
  (0x1d473, [w_MATHEMATICAL;w_BOLD;w_ITALIC;w_CAPITAL;w_L]);
  (0x1d474, [w_MATHEMATICAL;w_BOLD;w_ITALIC;w_CAPITAL;w_M]);
  (0x1d475, [w_MATHEMATICAL;w_BOLD;w_ITALIC;w_CAPITAL;w_N]);
  (0x1d476, [w_MATHEMATICAL;w_BOLD;w_ITALIC;w_CAPITAL;w_O]);
  (0x1d477, [w_MATHEMATICAL;w_BOLD;w_ITALIC;w_CAPITAL;w_P]);
  (0x1d478, [w_MATHEMATICAL;w_BOLD;w_ITALIC;w_CAPITAL;w_Q]);
  (0x1d479, [w_MATHEMATICAL;w_BOLD;w_ITALIC;w_CAPITAL;w_R]);
  (0x1d47a, [w_MATHEMATICAL;w_BOLD;w_ITALIC;w_CAPITAL;w_S]);
  (0x1d47b, [w_MATHEMATICAL;w_BOLD;w_ITALIC;w_CAPITAL;w_T]);
  (0x1d47c, [w_MATHEMATICAL;w_BOLD;w_ITALIC;w_CAPITAL;w_U]);
  (0x1d47d, [w_MATHEMATICAL;w_BOLD;w_ITALIC;w_CAPITAL;w_V]);
  (0x1d47e, [w_MATHEMATICAL;w_BOLD;w_ITALIC;w_CAPITAL;w_W]);
  (0x1d47f, [w_MATHEMATICAL;w_BOLD;w_ITALIC;w_CAPITAL;w_X]);
  (0x1d480, [w_MATHEMATICAL;w_BOLD;w_ITALIC;w_CAPITAL;w_Y]);
  (0x1d481, [w_MATHEMATICAL;w_BOLD;w_ITALIC;w_CAPITAL;w_Z]);
  (0x1d482, [w_MATHEMATICAL;w_BOLD;w_ITALIC;w_SMALL;w_A]);
  (0x1d483, [w_MATHEMATICAL;w_BOLD;w_ITALIC;w_SMALL;w_B]);
  (0x1d484, [w_MATHEMATICAL;w_BOLD;w_ITALIC;w_SMALL;w_C]);
  (0x1d485, [w_MATHEMATICAL;w_BOLD;w_ITALIC;w_SMALL;w_D]);
  (0x1d486, [w_MATHEMATICAL;w_BOLD;w_ITALIC;w_SMALL;w_E]);
  (0x1d487, [w_MATHEMATICAL;w_BOLD;w_ITALIC;w_SMALL;w_F]);
  (0x1d488, [w_MATHEMATICAL;w_BOLD;w_ITALIC;w_SMALL;w_G]);
  (0x1d489, [w_MATHEMATICAL;w_BOLD;w_ITALIC;w_SMALL;w_H]);
  (0x1d48a, [w_MATHEMATICAL;w_BOLD;w_ITALIC;w_SMALL;w_I]);
  (0x1d48b, [w_MATHEMATICAL;w_BOLD;w_ITALIC;w_SMALL;w_J]);
  (0x1d48c, [w_MATHEMATICAL;w_BOLD;w_ITALIC;w_SMALL;w_K]);
  (0x1d48d, [w_MATHEMATICAL;w_BOLD;w_ITALIC;w_SMALL;w_L]);
  (0x1d48e, [w_MATHEMATICAL;w_BOLD;w_ITALIC;w_SMALL;w_M]);
  (0x1d48f, [w_MATHEMATICAL;w_BOLD;w_ITALIC;w_SMALL;w_N]);
  (0x1d490, [w_MATHEMATICAL;w_BOLD;w_ITALIC;w_SMALL;w_O]);
  (0x1d491, [w_MATHEMATICAL;w_BOLD;w_ITALIC;w_SMALL;w_P]);
  (0x1d492, [w_MATHEMATICAL;w_BOLD;w_ITALIC;w_SMALL;w_Q]);
  (0x1d493, [w_MATHEMATICAL;w_BOLD;w_ITALIC;w_SMALL;w_R]);
  (0x1d494, [w_MATHEMATICAL;w_BOLD;w_ITALIC;w_SMALL;w_S]);
  (0x1d495, [w_MATHEMATICAL;w_BOLD;w_ITALIC;w_SMALL;w_T]);
  (0x1d496, [w_MATHEMATICAL;w_BOLD;w_ITALIC;w_SMALL;w_U]);
  (0x1d497, [w_MATHEMATICAL;w_BOLD;w_ITALIC;w_SMALL;w_V]);
  (0x1d498, [w_MATHEMATICAL;w_BOLD;w_ITALIC;w_SMALL;w_W]);
  (0x1d499, [w_MATHEMATICAL;w_BOLD;w_ITALIC;w_SMALL;w_X]);
  (0x1d49a, [w_MATHEMATICAL;w_BOLD;w_ITALIC;w_SMALL;w_Y]);
  (0x1d49b, [w_MATHEMATICAL;w_BOLD;w_ITALIC;w_SMALL;w_Z]);
  (0x1d49c, [w_MATHEMATICAL;w_SCRIPT;w_CAPITAL;w_A]);
  (0x1d49e, [w_MATHEMATICAL;w_SCRIPT;w_CAPITAL;w_C]);
  (0x1d49f, [w_MATHEMATICAL;w_SCRIPT;w_CAPITAL;w_D]);
  (0x1d4a2, [w_MATHEMATICAL;w_SCRIPT;w_CAPITAL;w_G]);
  (0x1d4a5, [w_MATHEMATICAL;w_SCRIPT;w_CAPITAL;w_J]);
  (0x1d4a6, [w_MATHEMATICAL;w_SCRIPT;w_CAPITAL;w_K]);
  (0x1d4a9, [w_MATHEMATICAL;w_SCRIPT;w_CAPITAL;w_N]);
  (0x1d4aa, [w_MATHEMATICAL;w_SCRIPT;w_CAPITAL;w_O]);
  (0x1d4ab, [w_MATHEMATICAL;w_SCRIPT;w_CAPITAL;w_P]);
  (0x1d4ac, [w_MATHEMATICAL;w_SCRIPT;w_CAPITAL;w_Q]);
  (0x1d4ae, [w_MATHEMATICAL;w_SCRIPT;w_CAPITAL;w_S]);
  (0x1d4af, [w_MATHEMATICAL;w_SCRIPT;w_CAPITAL;w_T]);
  (0x1d4b0, [w_MATHEMATICAL;w_SCRIPT;w_CAPITAL;w_U]);
  (0x1d4b1, [w_MATHEMATICAL;w_SCRIPT;w_CAPITAL;w_V]);
  (0x1d4b2, [w_MATHEMATICAL;w_SCRIPT;w_CAPITAL;w_W]);
  (0x1d4b3, [w_MATHEMATICAL;w_SCRIPT;w_CAPITAL;w_X]);
  (0x1d4b4, [w_MATHEMATICAL;w_SCRIPT;w_CAPITAL;w_Y]);
  (0x1d4b5, [w_MATHEMATICAL;w_SCRIPT;w_CAPITAL;w_Z]);
  (0x1d4b6, [w_MATHEMATICAL;w_SCRIPT;w_SMALL;w_A]);
  (0x1d4b7, [w_MATHEMATICAL;w_SCRIPT;w_SMALL;w_B]);
  (0x1d4b8, [w_MATHEMATICAL;w_SCRIPT;w_SMALL;w_C]);
  (0x1d4b9, [w_MATHEMATICAL;w_SCRIPT;w_SMALL;w_D]);
  (0x1d4bb, [w_MATHEMATICAL;w_SCRIPT;w_SMALL;w_F]);
  (0x1d4bd, [w_MATHEMATICAL;w_SCRIPT;w_SMALL;w_H]);
  (0x1d4be, [w_MATHEMATICAL;w_SCRIPT;w_SMALL;w_I]);
  (0x1d4bf, [w_MATHEMATICAL;w_SCRIPT;w_SMALL;w_J]);
  (0x1d4c0, [w_MATHEMATICAL;w_SCRIPT;w_SMALL;w_K]);
  (0x1d4c1, [w_MATHEMATICAL;w_SCRIPT;w_SMALL;w_L]);
  (0x1d4c2, [w_MATHEMATICAL;w_SCRIPT;w_SMALL;w_M]);
  (0x1d4c3, [w_MATHEMATICAL;w_SCRIPT;w_SMALL;w_N]);
  (0x1d4c5, [w_MATHEMATICAL;w_SCRIPT;w_SMALL;w_P]);
  (0x1d4c6, [w_MATHEMATICAL;w_SCRIPT;w_SMALL;w_Q]);
  (0x1d4c7, [w_MATHEMATICAL;w_SCRIPT;w_SMALL;w_R]);
  (0x1d4c8, [w_MATHEMATICAL;w_SCRIPT;w_SMALL;w_S]);
  (0x1d4c9, [w_MATHEMATICAL;w_SCRIPT;w_SMALL;w_T]);
  (0x1d4ca, [w_MATHEMATICAL;w_SCRIPT;w_SMALL;w_U]);
  (0x1d4cb, [w_MATHEMATICAL;w_SCRIPT;w_SMALL;w_V]);
  (0x1d4cc, [w_MATHEMATICAL;w_SCRIPT;w_SMALL;w_W]);
  (0x1d4cd, [w_MATHEMATICAL;w_SCRIPT;w_SMALL;w_X]);
  (0x1d4ce, [w_MATHEMATICAL;w_SCRIPT;w_SMALL;w_Y]);
  (0x1d4cf, [w_MATHEMATICAL;w_SCRIPT;w_SMALL;w_Z]);
  (0x1d4d0, [w_MATHEMATICAL;w_BOLD;w_SCRIPT;w_CAPITAL;w_A]);
  (0x1d4d1, [w_MATHEMATICAL;w_BOLD;w_SCRIPT;w_CAPITAL;w_B]);
  (0x1d4d2, [w_MATHEMATICAL;w_BOLD;w_SCRIPT;w_CAPITAL;w_C]);
  (0x1d4d3, [w_MATHEMATICAL;w_BOLD;w_SCRIPT;w_CAPITAL;w_D]);
  (0x1d4d4, [w_MATHEMATICAL;w_BOLD;w_SCRIPT;w_CAPITAL;w_E]);
  (0x1d4d5, [w_MATHEMATICAL;w_BOLD;w_SCRIPT;w_CAPITAL;w_F]);
  (0x1d4d6, [w_MATHEMATICAL;w_BOLD;w_SCRIPT;w_CAPITAL;w_G]);
  (0x1d4d7, [w_MATHEMATICAL;w_BOLD;w_SCRIPT;w_CAPITAL;w_H]);
  (0x1d4d8, [w_MATHEMATICAL;w_BOLD;w_SCRIPT;w_CAPITAL;w_I]);
  (0x1d4d9, [w_MATHEMATICAL;w_BOLD;w_SCRIPT;w_CAPITAL;w_J]);
  (0x1d4da, [w_MATHEMATICAL;w_BOLD;w_SCRIPT;w_CAPITAL;w_K]);
  (0x1d4db, [w_MATHEMATICAL;w_BOLD;w_SCRIPT;w_CAPITAL;w_L]);
  (0x1d4dc, [w_MATHEMATICAL;w_BOLD;w_SCRIPT;w_CAPITAL;w_M]);
  (0x1d4dd, [w_MATHEMATICAL;w_BOLD;w_SCRIPT;w_CAPITAL;w_N]);
  (0x1d4de, [w_MATHEMATICAL;w_BOLD;w_SCRIPT;w_CAPITAL;w_O]);
  (0x1d4df, [w_MATHEMATICAL;w_BOLD;w_SCRIPT;w_CAPITAL;w_P]);
  (0x1d4e0, [w_MATHEMATICAL;w_BOLD;w_SCRIPT;w_CAPITAL;w_Q]);
  (0x1d4e1, [w_MATHEMATICAL;w_BOLD;w_SCRIPT;w_CAPITAL;w_R]);
  (0x1d4e2, [w_MATHEMATICAL;w_BOLD;w_SCRIPT;w_CAPITAL;w_S]);
  (0x1d4e3, [w_MATHEMATICAL;w_BOLD;w_SCRIPT;w_CAPITAL;w_T]);
  (0x1d4e4, [w_MATHEMATICAL;w_BOLD;w_SCRIPT;w_CAPITAL;w_U]);
  (0x1d4e5, [w_MATHEMATICAL;w_BOLD;w_SCRIPT;w_CAPITAL;w_V]);
  (0x1d4e6, [w_MATHEMATICAL;w_BOLD;w_SCRIPT;w_CAPITAL;w_W]);
  (0x1d4e7, [w_MATHEMATICAL;w_BOLD;w_SCRIPT;w_CAPITAL;w_X]);
  (0x1d4e8, [w_MATHEMATICAL;w_BOLD;w_SCRIPT;w_CAPITAL;w_Y]);
  (0x1d4e9, [w_MATHEMATICAL;w_BOLD;w_SCRIPT;w_CAPITAL;w_Z]);
  (0x1d4ea, [w_MATHEMATICAL;w_BOLD;w_SCRIPT;w_SMALL;w_A]);
  (0x1d4eb, [w_MATHEMATICAL;w_BOLD;w_SCRIPT;w_SMALL;w_B]);
  (0x1d4ec, [w_MATHEMATICAL;w_BOLD;w_SCRIPT;w_SMALL;w_C]);
  (0x1d4ed, [w_MATHEMATICAL;w_BOLD;w_SCRIPT;w_SMALL;w_D]);
  (0x1d4ee, [w_MATHEMATICAL;w_BOLD;w_SCRIPT;w_SMALL;w_E]);
  (0x1d4ef, [w_MATHEMATICAL;w_BOLD;w_SCRIPT;w_SMALL;w_F]);
  (0x1d4f0, [w_MATHEMATICAL;w_BOLD;w_SCRIPT;w_SMALL;w_G]);
  (0x1d4f1, [w_MATHEMATICAL;w_BOLD;w_SCRIPT;w_SMALL;w_H]);
  (0x1d4f2, [w_MATHEMATICAL;w_BOLD;w_SCRIPT;w_SMALL;w_I]);
  (0x1d4f3, [w_MATHEMATICAL;w_BOLD;w_SCRIPT;w_SMALL;w_J]);
  (0x1d4f4, [w_MATHEMATICAL;w_BOLD;w_SCRIPT;w_SMALL;w_K]);
  (0x1d4f5, [w_MATHEMATICAL;w_BOLD;w_SCRIPT;w_SMALL;w_L]);
  (0x1d4f6, [w_MATHEMATICAL;w_BOLD;w_SCRIPT;w_SMALL;w_M]);
  (0x1d4f7, [w_MATHEMATICAL;w_BOLD;w_SCRIPT;w_SMALL;w_N]);
  (0x1d4f8, [w_MATHEMATICAL;w_BOLD;w_SCRIPT;w_SMALL;w_O]);
  (0x1d4f9, [w_MATHEMATICAL;w_BOLD;w_SCRIPT;w_SMALL;w_P]);
  (0x1d4fa, [w_MATHEMATICAL;w_BOLD;w_SCRIPT;w_SMALL;w_Q]);
  (0x1d4fb, [w_MATHEMATICAL;w_BOLD;w_SCRIPT;w_SMALL;w_R]);
  (0x1d4fc, [w_MATHEMATICAL;w_BOLD;w_SCRIPT;w_SMALL;w_S]);
  (0x1d4fd, [w_MATHEMATICAL;w_BOLD;w_SCRIPT;w_SMALL;w_T]);
  (0x1d4fe, [w_MATHEMATICAL;w_BOLD;w_SCRIPT;w_SMALL;w_U]);
  (0x1d4ff, [w_MATHEMATICAL;w_BOLD;w_SCRIPT;w_SMALL;w_V]);
  (0x1d500, [w_MATHEMATICAL;w_BOLD;w_SCRIPT;w_SMALL;w_W]);
  (0x1d501, [w_MATHEMATICAL;w_BOLD;w_SCRIPT;w_SMALL;w_X]);
  (0x1d502, [w_MATHEMATICAL;w_BOLD;w_SCRIPT;w_SMALL;w_Y]);
  (0x1d503, [w_MATHEMATICAL;w_BOLD;w_SCRIPT;w_SMALL;w_Z]);
  (0x1d504, [w_MATHEMATICAL;w_FRAKTUR;w_CAPITAL;w_A]);
  (0x1d505, [w_MATHEMATICAL;w_FRAKTUR;w_CAPITAL;w_B]);
  (0x1d507, [w_MATHEMATICAL;w_FRAKTUR;w_CAPITAL;w_D]);
  (0x1d508, [w_MATHEMATICAL;w_FRAKTUR;w_CAPITAL;w_E]);
  (0x1d509, [w_MATHEMATICAL;w_FRAKTUR;w_CAPITAL;w_F]);
  (0x1d50a, [w_MATHEMATICAL;w_FRAKTUR;w_CAPITAL;w_G]);
  (0x1d50d, [w_MATHEMATICAL;w_FRAKTUR;w_CAPITAL;w_J]);
  (0x1d50e, [w_MATHEMATICAL;w_FRAKTUR;w_CAPITAL;w_K]);
  (0x1d50f, [w_MATHEMATICAL;w_FRAKTUR;w_CAPITAL;w_L]);
  (0x1d510, [w_MATHEMATICAL;w_FRAKTUR;w_CAPITAL;w_M]);
  (0x1d511, [w_MATHEMATICAL;w_FRAKTUR;w_CAPITAL;w_N]);
  (0x1d512, [w_MATHEMATICAL;w_FRAKTUR;w_CAPITAL;w_O]);
  (0x1d513, [w_MATHEMATICAL;w_FRAKTUR;w_CAPITAL;w_P]);
  (0x1d514, [w_MATHEMATICAL;w_FRAKTUR;w_CAPITAL;w_Q]);
  (0x1d516, [w_MATHEMATICAL;w_FRAKTUR;w_CAPITAL;w_S]);
  (0x1d517, [w_MATHEMATICAL;w_FRAKTUR;w_CAPITAL;w_T]);
  (0x1d518, [w_MATHEMATICAL;w_FRAKTUR;w_CAPITAL;w_U]);
  (0x1d519, [w_MATHEMATICAL;w_FRAKTUR;w_CAPITAL;w_V]);
  (0x1d51a, [w_MATHEMATICAL;w_FRAKTUR;w_CAPITAL;w_W]);
  (0x1d51b, [w_MATHEMATICAL;w_FRAKTUR;w_CAPITAL;w_X]);
  (0x1d51c, [w_MATHEMATICAL;w_FRAKTUR;w_CAPITAL;w_Y]);
  (0x1d51e, [w_MATHEMATICAL;w_FRAKTUR;w_SMALL;w_A]);
  (0x1d51f, [w_MATHEMATICAL;w_FRAKTUR;w_SMALL;w_B]);
  (0x1d520, [w_MATHEMATICAL;w_FRAKTUR;w_SMALL;w_C]);
  (0x1d521, [w_MATHEMATICAL;w_FRAKTUR;w_SMALL;w_D]);
  (0x1d522, [w_MATHEMATICAL;w_FRAKTUR;w_SMALL;w_E]);
  (0x1d523, [w_MATHEMATICAL;w_FRAKTUR;w_SMALL;w_F]);
  (0x1d524, [w_MATHEMATICAL;w_FRAKTUR;w_SMALL;w_G]);
  (0x1d525, [w_MATHEMATICAL;w_FRAKTUR;w_SMALL;w_H]);
  (0x1d526, [w_MATHEMATICAL;w_FRAKTUR;w_SMALL;w_I]);
  (0x1d527, [w_MATHEMATICAL;w_FRAKTUR;w_SMALL;w_J]);
  (0x1d528, [w_MATHEMATICAL;w_FRAKTUR;w_SMALL;w_K]);
  (0x1d529, [w_MATHEMATICAL;w_FRAKTUR;w_SMALL;w_L]);
  (0x1d52a, [w_MATHEMATICAL;w_FRAKTUR;w_SMALL;w_M]);
  (0x1d52b, [w_MATHEMATICAL;w_FRAKTUR;w_SMALL;w_N]);
  (0x1d52c, [w_MATHEMATICAL;w_FRAKTUR;w_SMALL;w_O]);
  (0x1d52d, [w_MATHEMATICAL;w_FRAKTUR;w_SMALL;w_P]);
  (0x1d52e, [w_MATHEMATICAL;w_FRAKTUR;w_SMALL;w_Q])].

Definition NAMES_67 : list (N * (list str)) := [
  (0x1d52f, [w_MATHEMATICAL;w_FRAKTUR;w_SMALL;w_R]);
  (0x1d530, [w_MATHEMATICAL;w_FRAKTUR;w_SMALL;w_S]);
  (0x1d531, [w_MATHEMATICAL;w_FRAKTUR;w_SMALL;w_T]);
  (0x1d532, [w_MATHEMATICAL;w_FRAKTUR;w_SMALL;w_U]);
  (0x1d533, [w_MATHEMATICAL;w_FRAKTUR;w_SMALL;w_V]);
  (0x1d534, [w_MATHEMATICAL;w_FRAKTUR;w_SMALL;w_W]);
  (0x1d535, [w_MATHEMATICAL;w_FRAKTUR;w_SMALL;w_X]);
  (0x1d536, [w_MATHEMATICAL;w_FRAKTUR;w_SMALL;w_Y]);
  (0x1d537, [w_MATHEMATICAL;w_FRAKTUR;w_SMALL;w_Z]);
  (0x1d538, [w_MATHEMATICAL;w_DOUBLE_STRUCK;w_CAPITAL;w_A]);
  (0x1d539, [w_MATHEMATICAL;w_DOUBLE_STRUCK;w_CAPITAL;w_B]);
  (0x1d53b, [w_MATHEMATICAL;w_DOUBLE_STRUCK;w_CAPITAL;w_D]);
  (0x1d53c, [w_MATHEMATICAL;w_DOUBLE_STRUCK;w_CAPITAL;w_E]);
  (0x1d53d, [w_MATHEMATICAL;w_DOUBLE_STRUCK;w_CAPITAL;w_F]);
  (0x1d53e, [w_MATHEMATICAL;w_DOUBLE_STRUCK;w_CAPITAL;w_G]);
  (0x1d540, [w_MATHEMATICAL;w_DOUBLE_STRUCK;w_CAPITAL;w_I]);
  (0x1d541, [w_MATHEMATICAL;w_DOUBLE_STRUCK;w_CAPITAL;w_J]);
  (0x1d542, [w_MATHEMATICAL;w_DOUBLE_STRUCK;w_CAPITAL;w_K]);
  (0x1d543, [w_MATHEMATICAL;w_DOUBLE_STRUCK;w_CAPITAL;w_L]);
  (0x1d544, [w_MATHEMATICAL;w_DOUBLE_STRUCK;w_CAPITAL;w_M]);
  (0x1d546, [w_MATHEMATICAL;w_DOUBLE_STRUCK;w_CAPITAL;w_O]);
  (0x1d54a, [w_MATHEMATICAL;w_DOUBLE_STRUCK;w_CAPITAL;w_S]);
  (0x1d54b, [w_MATHEMATICAL;w_DOUBLE_STRUCK;w_CAPITAL;w_T]);
  (0x1d54c, [w_MATHEMATICAL;w_DOUBLE_STRUCK;w_CAPITAL;w_U]);
  (0x1d54d, [w_MATHEMATICAL;w_DOUBLE_STRUCK;w_CAPITAL;w_V]);
  (0x1d54e, [w_MATHEMATICAL;w_DOUBLE_STRUCK;w_CAPITAL;w_W]);
  (0x1d54f, [w_MATHEMATICAL;w_DOUBLE_STRUCK;w_CAPITAL;w_X]);
  (0x1d550, [w_MATHEMATICAL;w_DOUBLE_STRUCK;w_CAPITAL;w_Y]);
  (0x1d552, [w_MATHEMATICAL;w_DOUBLE_STRUCK;w_SMALL;w_A]);
  (0x1d553, [w_MATHEMATICAL;w_DOUBLE_STRUCK;w_SMALL;w_B]);
  (0x1d554, [w_MATHEMATICAL;w_DOUBLE_STRUCK;w_SMALL;w_C]);
  (0x1d555, [w_MATHEMATICAL;w_DOUBLE_STRUCK;w_SMALL;w_D]);
  (0x1d556, [w_MATHEMATICAL;w_DOUBLE_STRUCK;w_SMALL;w_E]);
  (0x1d557, [w_MATHEMATICAL;w_DOUBLE_STRUCK;w_SMALL;w_F]);
  (0x1d558, [w_MATHEMATICAL;w_DOUBLE_STRUCK;w_SMALL;w_G]);
  (0x1d559, [w_MATHEMATICAL;w_DOUBLE_STRUCK;w_SMALL;w_H]);
  (0x1d55a, [w_MATHEMATICAL;w_DOUBLE_STRUCK;w_SMALL;w_I]);
  (0x1d55b, [w_MATHEMATICAL;w_DOUBLE_STRUCK;w_SMALL;w_J]);
  (0x1d55c, [w_MATHEMATICAL;w_DOUBLE_STRUCK;w_SMALL;w_K]);
  (0x1d55d, [w_MATHEMATICAL;w_DOUBLE_STRUCK;w_SMALL;w_L]);
  (0x1d55e, [w_MATHEMATICAL;w_DOUBLE_STRUCK;w_SMALL;w_M]);
  (0x1d55f, [w_MATHEMATICAL;w_DOUBLE_STRUCK;w_SMALL;w_N]);
  (0x1d560, [w_MATHEMATICAL;w_DOUBLE_STRUCK;w_SMALL;w_O]);
  (0x1d561, [w_MATHEMATICAL;w_DOUBLE_STRUCK;w_SMALL;w_P]);
  (0x1d562, [w_MATHEMATICAL;w_DOUBLE_STRUCK;w_SMALL;w_Q]);
  (0x1d563, [w_MATHEMATICAL;w_DOUBLE_STRUCK;w_SMALL;w_R]);
  (0x1d564, [w_MATHEMATICAL;w_DOUBLE_STRUCK;w_SMALL;w_S]);
  (0x1d565, [w_MATHEMATICAL;w_DOUBLE_STRUCK;w_SMALL;w_T]);
  (0x1d566, [w_MATHEMATICAL;w_DOUBLE_STRUCK;w_SMALL;w_U]);
  (0x1d567, [w_MATHEMATICAL;w_DOUBLE_STRUCK;w_SMALL;w_V]);
  (0x1d568, [w_MATHEMATICAL;w_DOUBLE_STRUCK;w_SMALL;w_W]);
  (0x1d569, [w_MATHEMATICAL;w_DOUBLE_STRUCK;w_SMALL;w_X]);
  (0x1d56a, [w_MATHEMATICAL;w_DOUBLE_STRUCK;w_SMALL;w_Y]);
  (0x1d56b, [w_MATHEMATICAL;w_DOUBLE_STRUCK;w_SMALL;w_Z]);
  (0x1d56c, [w_MATHEMATICAL;w_BOLD;w_FRAKTUR;w_CAPITAL;w_A]);
  (0x1d56d, [w_MATHEMATICAL;w_BOLD;w_FRAKTUR;w_CAPITAL;w_B]);
  (0x1d56e, [w_MATHEMATICAL;w_BOLD;w_FRAKTUR;w_CAPITAL;w_C]);
  (0x1d56f, [w_MATHEMATICAL;w_BOLD;w_FRAKTUR;w_CAPITAL;w_D]);
  (0x1d570, [w_MATHEMATICAL;w_BOLD;w_FRAKTUR;w_CAPITAL;w_E]);
  (0x1d571, [w_MATHEMATICAL;w_BOLD;w_FRAKTUR;w_CAPITAL;w_F]);
  (0x1d572, [w_MATHEMATICAL;w_BOLD;w_FRAKTUR;w_CAPITAL;w_G]);
  (0x1d573, [w_MATHEMATICAL;w_BOLD;w_FRAKTUR;w_CAPITAL;w_H]);
  (0x1d574, [w_MATHEMATICAL;w_BOLD;w_FRAKTUR;w_CAPITAL;w_I]);
  (0x1d575, [w_MATHEMATICAL;w_BOLD;w_FRAKTUR;w_CAPITAL;w_J]);
  (0x1d576, [w_MATHEMATICAL;w_BOLD;w_FRAKTUR;w_CAPITAL;w_K]);
  (0x1d577, [w_MATHEMATICAL;w_BOLD;w_FRAKTUR;w_CAPITAL;w_L]);
  (0x1d578, [w_MATHEMATICAL;w_BOLD;w_FRAKTUR;w_CAPITAL;w_M]);
  (0x1d579, [w_MATHEMATICAL;w_BOLD;w_FRAKTUR;w_CAPITAL;w_N]);
  (0x1d57a, [w_MATHEMATICAL;w_BOLD;w_FRAKTUR;w_CAPITAL;w_O]);
  (0x1d57b, [w_MATHEMATICAL;w_BOLD;w_FRAKTUR;w_CAPITAL;w_P]);
  (0x1d57c, [w_MATHEMATICAL;w_BOLD;w_FRAKTUR;w_CAPITAL;w_Q]);
  (0x1d57d, [w_MATHEMATICAL;w_BOLD;w_FRAKTUR;w_CAPITAL;w_R]);
  (0x1d57e, [w_MATHEMATICAL;w_BOLD;w_FRAKTUR;w_CAPITAL;w_S]);
  (0x1d57f, [w_MATHEMATICAL;w_BOLD;w_FRAKTUR;w_CAPITAL;w_T]);
  (0x1d580, [w_MATHEMATICAL;w_BOLD;w_FRAKTUR;w_CAPITAL;w_U]);
  (0x1d581, [w_MATHEMATICAL;w_BOLD;w_FRAKTUR;w_CAPITAL;w_V]);
  (0x1d582, [w_MATHEMATICAL;w_BOLD;w_FRAKTUR;w_CAPITAL;w_W]);
  (0x1d583, [w_MATHEMATICAL;w_BOLD;w_FRAKTUR;w_CAPITAL;w_X]);
  (0x1d584, [w_MATHEMATICAL;w_BOLD;w_FRAKTUR;w_CAPITAL;w_Y]);
  (0x1d585, [w_MATHEMATICAL;w_BOLD;w_FRAKTUR;w_CAPITAL;w_Z]);
  (0x1d586, [w_MATHEMATICAL;w_BOLD;w_FRAKTUR;w_SMALL;w_A]);
  (0x1d587, [w_MATHEMATICAL;w_BOLD;w_FRAKTUR;w_SMALL;w_B]);
  (0x1d588, [w_MATHEMATICAL;w_BOLD;w_FRAKTUR;w_SMALL;w_C]);
  (0x1d589, [w_MATHEMATICAL;w_BOLD;w_FRAKTUR;w_SMALL;w_D]);
  (0x1d58a, [w_MATHEMATICAL;w_BOLD;w_FRAKTUR;w_SMALL;w_E]);
  (0x1d58b, [w_MATHEMATICAL;w_BOLD;w_FRAKTUR;w_SMALL;w_F]);
  (0x1d58c, [w_MATHEMATICAL;w_BOLD;w_FRAKTUR;w_SMALL;w_G]);
  (0x1d58d, [w_MATHEMATICAL;w_BOLD;w_FRAKTUR;w_SMALL;w_H]);
  (0x1d58e, [w_MATHEMATICAL;w_BOLD;w_FRAKTUR;w_SMALL;w_I]);
  (0x1d58f, [w_MATHEMATICAL;w_BOLD;w_FRAKTUR;w_SMALL;w_J]);
  (0x1d590, [w_MATHEMATICAL;w_BOLD;w_FRAKTUR;w_SMALL;w_K]);
  (0x1d591, [w_MATHEMATICAL;w_BOLD;w_FRAKTUR;w_SMALL;w_L]);
  (0x1d592, [w_MATHEMATICAL;w_BOLD;w_FRAKTUR;w_SMALL;w_M]);
  (0x1d593, [w_MATHEMATICAL;w_BOLD;w_FRAKTUR;w_SMALL;w_N]);
  (0x1d594, [w_MATHEMATICAL;w_BOLD;w_FRAKTUR;w_SMALL;w_O]);
  (0x1d595, [w_MATHEMATICAL;w_BOLD;w_FRAKTUR;w_SMALL;w_P]);
  (0x1d596, [w_MATHEMATICAL;w_BOLD;w_FRAKTUR;w_SMALL;w_Q]);
  (0x1d597, [w_MATHEMATICAL;w_BOLD;w_FRAKTUR;w_SMALL;w_R]);
  (0x1d598, [w_MATHEMATICAL;w_BOLD;w_FRAKTUR;w_SMALL;w_S]);
  (0x1d599, [w_MATHEMATICAL;w_BOLD;w_FRAKTUR;w_SMALL;w_T]);
  (0x1d59a, [w_MATHEMATICAL;w_BOLD;w_FRAKTUR;w_SMALL;w_U]);
  (0x1d59b, [w_MATHEMATICAL;w_BOLD;w_FRAKTUR;w_SMALL;w_V]);
  (0x1d59c, [w_MATHEMATICAL;w_BOLD;w_FRAKTUR;w_SMALL;w_W]);
  (0x1d59d, [w_MATHEMATICAL;w_BOLD;w_FRAKTUR;w_SMALL;w_X]);
  (0x1d59e, [w_MATHEMATICAL;w_BOLD;w_FRAKTUR;w_SMALL;w_Y]);
  (0x1d59f, [w_MATHEMATICAL;w_BOLD;w_FRAKTUR;w_SMALL;w_Z]);
  (0x1d5a0, [w_MATHEMATICAL;w_SANS_SERIF;w_CAPITAL;w_A]);
  (0x1d5a1, [w_MATHEMATICAL;w_SANS_SERIF;w_CAPITAL;w_B]);
  (0x1d5a2, [w_MATHEMATICAL;w_SANS_SERIF;w_CAPITAL;w_C]);
  (0x1d5a3, [w_MATHEMATICAL;w_SANS_SERIF;w_CAPITAL;w_D]);
  (0x1d5a4, [w_MATHEMATICAL;w_SANS_SERIF;w_CAPITAL;w_E]);
  (0x1d5a5, [w_MATHEMATICAL;w_SANS_SERIF;w_CAPITAL;w_F]);
  (0x1d5a6, [w_MATHEMATICAL;w_SANS_SERIF;w_CAPITAL;w_G]);
  (0x1d5a7, [w_MATHEMATICAL;w_SANS_SERIF;w_CAPITAL;w_H]);
  (0x1d5a8, [w_MATHEMATICAL;w_SANS_SERIF;w_CAPITAL;w_I]);
  (0x1d5a9, [w_MATHEMATICAL;w_SANS_SERIF;w_CAPITAL;w_J]);
  (0x1d5aa, [w_MATHEMATICAL;w_SANS_SERIF;w_CAPITAL;w_K]);
  (0x1d5ab, [w_MATHEMATICAL;w_SANS_SERIF;w_CAPITAL;w_L]);
  (0x1d5ac, [w_MATHEMATICAL;w_SANS_SERIF;w_CAPITAL;w_M]);
  (0x1d5ad, [w_MATHEMATICAL;w_SANS_SERIF;w_CAPITAL;w_N]);
  (0x1d5ae, [w_MATHEMATICAL;w_SANS_SERIF;w_CAPITAL;w_O]);
  (0x1d5af, [w_MATHEMATICAL;w_SANS_SERIF;w_CAPITAL;w_P]);
  (0x1d5b0, [w_MATHEMATICAL;w_SANS_SERIF;w_CAPITAL;w_Q]);
  (0x1d5b1, [w_MATHEMATICAL;w_SANS_SERIF;w_CAPITAL;w_R]);
  (0x1d5b2, [w_MATHEMATICAL;w_SANS_SERIF;w_CAPITAL;w_S]);
  (0x1d5b3, [w_MATHEMATICAL;w_SANS_SERIF;w_CAPITAL;w_T]);
  (0x1d5b4, [w_MATHEMATICAL;w_SANS_SERIF;w_CAPITAL;w_U]);
  (0x1d5b5, [w_MATHEMATICAL;w_SANS_SERIF;w_CAPITAL;w_V]);
  (0x1d5b6, [w_MATHEMATICAL;w_SANS_SERIF;w_CAPITAL;w_W]);
  (0x1d5b7, [w_MATHEMATICAL;w_SANS_SERIF;w_CAPITAL;w_X]);
  (0x1d5b8, [w_MATHEMATICAL;w_SANS_SERIF;w_CAPITAL;w_Y]);
  (0x1d5b9, [w_MATHEMATICAL;w_SANS_SERIF;w_CAPITAL;w_Z]);
  (0x1d5ba, [w_MATHEMATICAL;w_SANS_SERIF;w_SMALL;w_A]);
  (0x1d5bb, [w_MATHEMATICAL;w_SANS_SERIF;w_SMALL;w_B]);
  (0x1d5bc, [w_MATHEMATICAL;w_SANS_SERIF;w_SMALL;w_C]);
  (0x1d5bd, [w_MATHEMATICAL;w_SANS_SERIF;w_SMALL;w_D]);
  (0x1d5be, [w_MATHEMATICAL;w_SANS_SERIF;w_SMALL;w_E]);
  (0x1d5bf, [w_MATHEMATICAL;w_SANS_SERIF;w_SMALL;w_F]);
  (0x1d5c0, [w_MATHEMATICAL;w_SANS_SERIF;w_SMALL;w_G]);
  (0x1d5c1, [w_MATHEMATICAL;w_SANS_SERIF;w_SMALL;w_H]);
  (0x1d5c2, [w_MATHEMATICAL;w_SANS_SERIF;w_SMALL;w_I]);
  (0x1d5c3, [w_MATHEMATICAL;w_SANS_SERIF;w_SMALL;w_J]);
  (0x1d5c4, [w_MATHEMATICAL;w_SANS_SERIF;w_SMALL;w_K]);
  (0x1d5c5, [w_MATHEMATICAL;w_SANS_SERIF;w_SMALL;w_L]);
  (0x1d5c6, [w_MATHEMATICAL;w_SANS_SERIF;w_SMALL;w_M]);
  (0x1d5c7, [w_MATHEMATICAL;w_SANS_SERIF;w_SMALL;w_N]);
  (0x1d5c8, [w_MATHEMATICAL;w_SANS_SERIF;w_SMALL;w_O]);
  (0x1d5c9, [w_MATHEMATICAL;w_SANS_SERIF;w_SMALL;w_P]);
  (0x1d5ca, [w_MATHEMATICAL;w_SANS_SERIF;w_SMALL;w_Q]);
  (0x1d5cb, [w_MATHEMATICAL;w_SANS_SERIF;w_SMALL;w_R]);
  (0x1d5cc, [w_MATHEMATICAL;w_SANS_SERIF;w_SMALL;w_S]);
  (0x1d5cd, [w_MATHEMATICAL;w_SANS_SERIF;w_SMALL;w_T]);
  (0x1d5ce, [w_MATHEMATICAL;w_SANS_SERIF;w_SMALL;w_U]);
  (0x1d5cf, [w_MATHEMATICAL;w_SANS_SERIF;w_SMALL;w_V]);
  (0x1d5d0, [w_MATHEMATICAL;w_SANS_SERIF;w_SMALL;w_W]);
  (0x1d5d1, [w_MATHEMATICAL;w_SANS_SERIF;w_SMALL;w_X]);
  (0x1d5d2, [w_MATHEMATICAL;w_SANS_SERIF;w_SMALL;w_Y]);
  (0x1d5d3, [w_MATHEMATICAL;w_SANS_SERIF;w_SMALL;w_Z]);
  (0x1d5d4, [w_MATHEMATICAL;w_SANS_SERIF;w_BOLD;w_CAPITAL;w_A]);
  (0x1d5d5, [w_MATHEMATICAL;w_SANS_SERIF;w_BOLD;w_CAPITAL;w_B]);
  (0x1d5d6, [w_MATHEMATICAL;w_SANS_SERIF;w_BOLD;w_CAPITAL;w_C]);
  (0x1d5d7, [w_MATHEMATICAL;w_SANS_SERIF;w_BOLD;w_CAPITAL;w_D]);
  (0x1d5d8, [w_MATHEMATICAL;w_SANS_SERIF;w_BOLD;w_CAPITAL;w_E]);
  (0x1d5d9, [w_MATHEMATICAL;w_SANS_SERIF;w_BOLD;w_CAPITAL;w_F]);
  (0x1d5da, [w_MATHEMATICAL;w_SANS_SERIF;w_BOLD;w_CAPITAL;w_G]);
  (0x1d5db, [w_MATHEMATICAL;w_SANS_SERIF;w_BOLD;w_CAPITAL;w_H]);
  (0x1d5dc, [w_MATHEMATICAL;w_SANS_SERIF;w_BOLD;w_CAPITAL;w_I]);
  (0x1d5dd, [w_MATHEMATICAL;w_SANS_SERIF;w_BOLD;w_CAPITAL;w_J]);
  (0x1d5de, [w_MATHEMATICAL;w_SANS_SERIF;w_BOLD;w_CAPITAL;w_K]);
  (0x1d5df, [w_MATHEMATICAL;w_SANS_SERIF;w_BOLD;w_CAPITAL;w_L]);
  (0x1d5e0, [w_MATHEMATICAL;w_SANS_SERIF;w_BOLD;w_CAPITAL;w_M]);
  (0x1d5e1, [w_MATHEMATICAL;w_SANS_SERIF;w_BOLD;w_CAPITAL;w_N]);
  (0x1d5e2, [w_MATHEMATICAL;w_SANS_SERIF;w_BOLD;w_CAPITAL;w_O]);
  (0x1d5e3, [w_MATHEMATICAL;w_SANS_SERIF;w_BOLD;w_CAPITAL;w_P]);
  (0x1d5e4, [w_MATHEMATICAL;w_SANS_SERIF;w_BOLD;w_CAPITAL;w_Q]);
  (0x1d5e5, [w_MATHEMATICAL;w_SANS_SERIF;w_BOLD;w_CAPITAL;w_R]);
  (0x1d5e6, [w_MATHEMATICAL;w_SANS_SERIF;w_BOLD;w_CAPITAL;w_S]);
  (0x1d5e7, [w_MATHEMATICAL;w_SANS_SERIF;w_BOLD;w_CAPITAL;w_T]);
  (0x1d5e8, [w_MATHEMATICAL;w_SANS_SERIF;w_BOLD;w_CAPITAL;w_U]);
  (0x1d5e9, [w_MATHEMATICAL;w_SANS_SERIF;w_BOLD;w_CAPITAL;w_V]);
  (0x1d5ea, [w_MATHEMATICAL;w_SANS_SERIF;w_BOLD;w_CAPITAL;w_W]);
  (0x1d5eb, [w_MATHEMATICAL;w_SANS_SERIF;w_BOLD;w_CAPITAL;w_X]);
  (0x1d5ec, [w_MATHEMATICAL;w_SANS_SERIF;w_BOLD;w_CAPITAL;w_Y]);
  (0x1d5ed, [w_MATHEMATICAL;w_SANS_SERIF;w_BOLD;w_CAPITAL;w_Z]);
  (0x1d5ee, [w_MATHEMATICAL;w_SANS_SERIF;w_BOLD;w_SMALL;w_A]);
  (0x1d5ef, [w_MATHEMATICAL;w_SANS_SERIF;w_BOLD;w_SMALL;w_B]);
  (0x1d5f0, [w_MATHEMATICAL;w_SANS_SERIF;w_BOLD;w_SMALL;w_C]);
  (0x1d5f1, [w_MATHEMATICAL;w_SANS_SERIF;w_BOLD;w_SMALL;w_D]);
  (0x1d5f2, [w_MATHEMATICAL;w_SANS_SERIF;w_BOLD;w_SMALL;w_E]);
  (0x1d5f3, [w_MATHEMATICAL;w_SANS_SERIF;w_BOLD;w_SMALL;w_F]);
  (0x1d5f4, [w_MATHEMATICAL;w_SANS_SERIF;w_BOLD;w_SMALL;w_G]);
  (0x1d5f5, [w_MATHEMATICAL;w_SANS_SERIF;w_BOLD;w_SMALL;w_H]);
  (0x1d5f6, [w_MATHEMATICAL;w_SANS_SERIF;w_BOLD;w_SMALL;w_I]);
  (0x1d5f7, [w_MATHEMATICAL;w_SANS_SERIF;w_BOLD;w_SMALL;w_J]);
  (0x1d5f8, [w_MATHEMATICAL;w_SANS_SERIF;w_BOLD;w_SMALL;w_K]);
  (0x1d5f9, [w_MATHEMATICAL;w_SANS_SERIF;w_BOLD;w_SMALL;w_L]);
  (0x1d5fa, [w_MATHEMATICAL;w_SANS_SERIF;w_BOLD;w_SMALL;w_M]);
  (0x1d5fb, [w_MATHEMATICAL;w_SANS_SERIF;w_BOLD;w_SMALL;w_N]);
  (0x1d5fc, [w_MATHEMATICAL;w_SANS_SERIF;w_BOLD;w_SMALL;w_O]);
  (0x1d5fd, [w_MATHEMATICAL;w_SANS_SERIF;w_BOLD;w_SMALL;w_P]);
  (0x1d5fe, [w_MATHEMATICAL;w_SANS_SERIF;w_BOLD;w_SMALL;w_Q]);
  (0x1d5ff, [w_MATHEMATICAL;w_SANS_SERIF;w_BOLD;w_SMALL;w_R]);
  (0x1d600, [w_MATHEMATICAL;w_SANS_SERIF;w_BOLD;w_SMALL;w_S]);
  (0x1d601, [w_MATHEMATICAL;w_SANS_SERIF;w_BOLD;w_SMALL;w_T]);
  (0x1d602, [w_MATHEMATICAL;w_SANS_SERIF;w_BOLD;w_SMALL;w_U]);
  (0x1d603, [w_MATHEMATICAL;w_SANS_SERIF;w_BOLD;w_SMALL;w_V]);
  (0x1d604, [w_MATHEMATICAL;w_SANS_SERIF;w_BOLD;w_SMALL;w_W]);
  (0x1d605, [w_MATHEMATICAL;w_SANS_SERIF;w_BOLD;w_SMALL;w_X]);
  (0x1d606, [w_MATHEMATICAL;w_SANS_SERIF;w_BOLD;w_SMALL;w_Y]);
  (0x1d607, [w_MATHEMATICAL;w_SANS_SERIF;w_BOLD;w_SMALL;w_Z]);
  (0x1d608, [w_MATHEMATICAL;w_SANS_SERIF;w_ITALIC;w_CAPITAL;w_A]);
  (0x1d609, [w_MATHEMATICAL;w_SANS_SERIF;w_ITALIC;w_CAPITAL;w_B]);
  (0x1d60a, [w_MATHEMATICAL;w_SANS_SERIF;w_ITALIC;w_CAPITAL;w_C]);
  (0x1d60b, [w_MATHEMATICAL;w_SANS_SERIF;w_ITALIC;w_CAPITAL;w_D]);
  (0x1d60c, [w_MATHEMATICAL;w_SANS_SERIF;w_ITALIC;w_CAPITAL;w_E]);
  (0x1d60d, [w_MATHEMATICAL;w_SANS_SERIF;w_ITALIC;w_CAPITAL;w_F]);
  (0x1d60e, [w_MATHEMATICAL;w_SANS_SERIF;w_ITALIC;w_CAPITAL;w_G]);
  (0x1d60f, [w_MATHEMATICAL;w_SANS_SERIF;w_ITALIC;w_CAPITAL;w_H]);
  (0x1d610, [w_MATHEMATICAL;w_SANS_SERIF;w_ITALIC;w_CAPITAL;w_I]);
  (0x1d611, [w_MATHEMATICAL;w_SANS_SERIF;w_ITALIC;w_CAPITAL;w_J]);
  (0x1d612, [w_MATHEMATICAL;w_SANS_SERIF;w_ITALIC;w_CAPITAL;w_K]);
  (0x1d613, [w_MATHEMATICAL;w_SANS_SERIF;w_ITALIC;w_CAPITAL;w_L]);
  (0x1d614, [w_MATHEMATICAL;w_SANS_SERIF;w_ITALIC;w_CAPITAL;w_M]);
  (0x1d615, [w_MATHEMATICAL;w_SANS_SERIF;w_ITALIC;w_CAPITAL;w_N]);
  (0x1d616, [w_MATHEMATICAL;w_SANS_SERIF;w_ITALIC;w_CAPITAL;w_O]);
  (0x1d617, [w_MATHEMATICAL;w_SANS_SERIF;w_ITALIC;w_CAPITAL;w_P]);
  (0x1d618, [w_MATHEMATICAL;w_SANS_SERIF;w_ITALIC;w_CAPITAL;w_Q]);
  (0x1d619, [w_MATHEMATICAL;w_SANS_SERIF;w_ITALIC;w_CAPITAL;w_R]);
  (0x1d61a, [w_MATHEMATICAL;w_SANS_SERIF;w_ITALIC;w_CAPITAL;w_S]);
  (0x1d61b, [w_MATHEMATICAL;w_SANS_SERIF;w_ITALIC;w_CAPITAL;w_T]);
  (0x1d61c, [w_MATHEMATICAL;w_SANS_SERIF;w_ITALIC;w_CAPITAL;w_U]);
  (0x1d61d, [w_MATHEMATICAL;w_SANS_SERIF;w_ITALIC;w_CAPITAL;w_V]);
  (0x1d61e, [w_MATHEMATICAL;w_SANS_SERIF;w_ITALIC;w_CAPITAL;w_W]);
  (0x1d61f, [w_MATHEMATICAL;w_SANS_SERIF;w_ITALIC;w_CAPITAL;w_X]);
  (0x1d620, [w_MATHEMATICAL;w_SANS_SERIF;w_ITALIC;w_CAPITAL;w_Y]);
  (0x1d621, [w_MATHEMATICAL;w_SANS_SERIF;w_ITALIC;w_CAPITAL;w_Z]);
  (0x1d622, [w_MATHEMATICAL;w_SANS_SERIF;w_ITALIC;w_SMALL;w_A]);
  (0x1d623, [w_MATHEMATICAL;w_SANS_SERIF;w_ITALIC;w_SMALL;w_B]);
  (0x1d624, [w_MATHEMATICAL;w_SANS_SERIF;w_ITALIC;w_SMALL;w_C]);
  (0x1d625, [w_MATHEMATICAL;w_SANS_SERIF;w_ITALIC;w_SMALL;w_D]);
  (0x1d626, [w_MATHEMATICAL;w_SANS_SERIF;w_ITALIC;w_SMALL;w_E]);
  (0x1d627, [w_MATHEMATICAL;w_SANS_SERIF;w_ITALIC;w_SMALL;w_F]);
  (0x1d628, [w_MATHEMATICAL;w_SANS_SERIF;w_ITALIC;w_SMALL;w_G]);
  (0x1d629, [w_MATHEMATICAL;w_SANS_SERIF;w_ITALIC;w_SMALL;w_H]);
  (0x1d62a, [w_MATHEMATICAL;w_SANS_SERIF;w_ITALIC;w_SMALL;w_I]);
  (0x1d62b, [w_MATHEMATICAL;w_SANS_SERIF;w_ITALIC;w_SMALL;w_J]);
  (0x1d62c, [w_MATHEMATICAL;w_SANS_SERIF;w_ITALIC;w_SMALL;w_K]);
  (0x1d62d, [w_MATHEMATICAL;w_SANS_SERIF;w_ITALIC;w_SMALL;w_L]);
  (0x1d62e, [w_MATHEMATICAL;w_SANS_SERIF;w_ITALIC;w_SMALL;w_M]);
  (0x1d62f, [w_MATHEMATICAL;w_SANS_SERIF;w_ITALIC;w_SMALL;w_N]);
  (0x1d630, [w_MATHEMATICAL;w_SANS_SERIF;w_ITALIC;w_SMALL;w_O]);
  (0x1d631, [w_MATHEMATICAL;w_SANS_SERIF;w_ITALIC;w_SMALL;w_P]);
  (0x1d632, [w_MATHEMATICAL;w_SANS_SERIF;w_ITALIC;w_SMALL;w_Q]);
  (0x1d633, [w_MATHEMATICAL;w_SANS_SERIF;w_ITALIC;w_SMALL;w_R]);
  (0x1d634, [w_MATHEMATICAL;w_SANS_SERIF;w_ITALIC;w_SMALL;w_S]);
  (0x1d635, [w_MATHEMATICAL;w_SANS_SERIF;w_ITALIC;w_SMALL;w_T]);
  (0x1d636, [w_MATHEMATICAL;w_SANS_SERIF;w_ITALIC;w_SMALL;w_U]);
  (0x1d637, [w_MATHEMATICAL;w_SANS_SERIF;w_ITALIC;w_SMALL;w_V]);
  (0x1d638, [w_MATHEMATICAL;w_SANS_SERIF;w_ITALIC;w_SMALL;w_W]);
  (0x1d639, [w_MATHEMATICAL;w_SANS_SERIF;w_ITALIC;w_SMALL;w_X]);
  (0x1d63a, [w_MATHEMATICAL;w_SANS_SERIF;w_ITALIC;w_SMALL;w_Y]);
  (0x1d63b, [w_MATHEMATICAL;w_SANS_SERIF;w_ITALIC;w_SMALL;w_Z]);
  (0x1d63c, [w_MATHEMATICAL;w_SANS_SERIF;w_BOLD;w_ITALIC;w_CAPITAL;w_A]);
  (0x1d63d, [w_MATHEMATICAL;w_SANS_SERIF;w_BOLD;w_ITALIC;w_CAPITAL;w_B]);
  (0x1d63e, [w_MATHEMATICAL;w_SANS_SERIF;w_BOLD;w_ITALIC;w_CAPITAL;w_C]);
  (0x1d63f, [w_MATHEMATICAL;w_SANS_SERIF;w_BOLD;w_ITALIC;w_CAPITAL;w_D]);
  (0x1d640, [w_MATHEMATICAL;w_SANS_SERIF;w_BOLD;w_ITALIC;w_CAPITAL;w_E]);
  (0x1d641, [w_MATHEMATICAL;w_SANS_SERIF;w_BOLD;w_ITALIC;w_CAPITAL;w_F]);
  (0x1d642, [w_MATHEMATICAL;w_SANS_SERIF;w_BOLD;w_ITALIC;w_CAPITAL;w_G]);
  (0x1d643, [w_MATHEMATICAL;w_SANS_SERIF;w_BOLD;w_ITALIC;w_CAPITAL;w_H]);
  (0x1d644, [w_MATHEMATICAL;w_SANS_SERIF;w_BOLD;w_ITALIC;w_CAPITAL;w_I]);
  (0x1d645, [w_MATHEMATICAL;w_SANS_SERIF;w_BOLD;w_ITALIC;w_CAPITAL;w_J]);
  (0x1d646, [w_MATHEMATICAL;w_SANS_SERIF;w_BOLD;w_ITALIC;w_CAPITAL;w_K]);
  (0x1d647, [w_MATHEMATICAL;w_SANS_SERIF;w_BOLD;w_ITALIC;w_CAPITAL;w_L]);
  (0x1d648, [w_MATHEMATICAL;w_SANS_SERIF;w_BOLD;w_ITALIC;w_CAPITAL;w_M]);
  (0x1d649, [w_MATHEMATICAL;w_SANS_SERIF;w_BOLD;w_ITALIC;w_CAPITAL;w_N]);
  (0x1d64a, [w_MATHEMATICAL;w_SANS_SERIF;w_BOLD;w_ITALIC;w_CAPITAL;w_O]);
  (0x1d64b, [w_MATHEMATICAL;w_SANS_SERIF;w_BOLD;w_ITALIC;w_CAPITAL;w_P]);
  (0x1d64c, [w_MATHEMATICAL;w_SANS_SERIF;w_BOLD;w_ITALIC;w_CAPITAL;w_Q]);
  (0x1d64d, [w_MATHEMATICAL;w_SANS_SERIF;w_BOLD;w_ITALIC;w_CAPITAL;w_R]);
  (0x1d64e, [w_MATHEMATICAL;w_SANS_SERIF;w_BOLD;w_ITALIC;w_CAPITAL;w_S]);
  (0x1d64f, [w_MATHEMATICAL;w_SANS_SERIF;w_BOLD;w_ITALIC;w_CAPITAL;w_T]);
  (0x1d650, [w_MATHEMATICAL;w_SANS_SERIF;w_BOLD;w_ITALIC;w_CAPITAL;w_U]);
  (0x1d651, [w_MATHEMATICAL;w_SANS_SERIF;w_BOLD;w_ITALIC;w_CAPITAL;w_V]);
  (0x1d652, [w_MATHEMATICAL;w_SANS_SERIF;w_BOLD;w_ITALIC;w_CAPITAL;w_W]);
  (0x1d653, [w_MATHEMATICAL;w_SANS_SERIF;w_BOLD;w_ITALIC;w_CAPITAL;w_X]);
  (0x1d654, [w_MATHEMATICAL;w_SANS_SERIF;w_BOLD;w_ITALIC;w_CAPITAL;w_Y]);
  (0x1d655, [w_MATHEMATICAL;w_SANS_SERIF;w_BOLD;w_ITALIC;w_CAPITAL;w_Z]);
  (0x1d656, [w_MATHEMATICAL;w_SANS_SERIF;w_BOLD;w_ITALIC;w_SMALL;w_A]);
  (0x1d657, [w_MATHEMATICAL;w_SANS_SERIF;w_BOLD;w_ITALIC;w_SMALL;w_B]);
  (0x1d658, [w_MATHEMATICAL;w_SANS_SERIF;w_BOLD;w_ITALIC;w_SMALL;w_C]);
  (0x1d659, [w_MATHEMATICAL;w_SANS_SERIF;w_BOLD;w_ITALIC;w_SMALL;w_D]);
  (0x1d65a, [w_MATHEMATICAL;w_SANS_SERIF;w_BOLD;w_ITALIC;w_SMALL;w_E]);
  (0x1d65b, [w_MATHEMATICAL;w_SANS_SERIF;w_BOLD;w_ITALIC;w_SMALL;w_F]);
  (0x1d65c, [w_MATHEMATICAL;w_SANS_SERIF;w_BOLD;w_ITALIC;w_SMALL;w_G]);
  (0x1d65d, [w_MATHEMATICAL;w_SANS_SERIF;w_BOLD;w_ITALIC;w_SMALL;w_H]);
  (0x1d65e, [w_MATHEMATICAL;w_SANS_SERIF;w_BOLD;w_ITALIC;w_SMALL;w_I]);
  (0x1d65f, [w_MATHEMATICAL;w_SANS_SERIF;w_BOLD;w_ITALIC;w_SMALL;w_J]);
  (0x1d660, [w_MATHEMATICAL;w_SANS_SERIF;w_BOLD;w_ITALIC;w_SMALL;w_K]);
  (0x1d661, [w_MATHEMATICAL;w_SANS_SERIF;w_BOLD;w_ITALIC;w_SMALL;w_L]);
  (0x1d662, [w_MATHEMATICAL;w_SANS_SERIF;w_BOLD;w_ITALIC;w_SMALL;w_M]);
  (0x1d663, [w_MATHEMATICAL;w_SANS_SERIF;w_BOLD;w_ITALIC;w_SMALL;w_N]);
  (0x1d664, [w_MATHEMATICAL;w_SANS_SERIF;w_BOLD;w_ITALIC;w_SMALL;w_O]);
  (0x1d665, [w_MATHEMATICAL;w_SANS_SERIF;w_BOLD;w_ITALIC;w_SMALL;w_P]);
  (0x1d666, [w_MATHEMATICAL;w_SANS_SERIF;w_BOLD;w_ITALIC;w_SMALL;w_Q]);
  (0x1d667, [w_MATHEMATICAL;w_SANS_SERIF;w_BOLD;w_ITALIC;w_SMALL;w_R]);
  (0x1d668, [w_MATHEMATICAL;w_SANS_SERIF;w_BOLD;w_ITALIC;w_SMALL;w_S]);
  (0x1d669, [w_MATHEMATICAL;w_SANS_SERIF;w_BOLD;w_ITALIC;w_SMALL;w_T]);
  (0x1d66a, [w_MATHEMATICAL;w_SANS_SERIF;w_BOLD;w_ITALIC;w_SMALL;w_U]);
  (0x1d66b, [w_MATHEMATICAL;w_SANS_SERIF;w_BOLD;w_ITALIC;w_SMALL;w_V]);
  (0x1d66c, [w_MATHEMATICAL;w_SANS_SERIF;w_BOLD;w_ITALIC;w_SMALL;w_W]);
  (0x1d66d, [w_MATHEMATICAL;w_SANS_SERIF;w_BOLD;w_ITALIC;w_SMALL;w_X]);
  (0x1d66e, [w_MATHEMATICAL;w_SANS_SERIF;w_BOLD;w_ITALIC;w_SMALL;w_Y]);
  (0x1d66f, [w_MATHEMATICAL;w_SANS_SERIF;w_BOLD;w_ITALIC;w_SMALL;w_Z]);
  (0x1d670, [w_MATHEMATICAL;w_MONOSPACE;w_CAPITAL;w_A]);
  (0x1d671, [w_MATHEMATICAL;w_MONOSPACE;w_CAPITAL;w_B]);
  (0x1d672, [w_MATHEMATICAL;w_MONOSPACE;w_CAPITAL;w_C]);
  (0x1d673, [w_MATHEMATICAL;w_MONOSPACE;w_CAPITAL;w_D]);
  (0x1d674, [w_MATHEMATICAL;w_MONOSPACE;w_CAPITAL;w_E]);
  (0x1d675, [w_MATHEMATICAL;w_MONOSPACE;w_CAPITAL;w_F]);
  (0x1d676, [w_MATHEMATICAL;w_MONOSPACE;w_CAPITAL;w_G]);
  (0x1d677, [w_MATHEMATICAL;w_MONOSPACE;w_CAPITAL;w_H]);
  (0x1d678, [w_MATHEMATICAL;w_MONOSPACE;w_CAPITAL;w_I]);
  (0x1d679, [w_MATHEMATICAL;w_MONOSPACE;w_CAPITAL;w_J]);
  (0x1d67a, [w_MATHEMATICAL;w_MONOSPACE;w_CAPITAL;w_K]);
  (0x1d67b, [w_MATHEMATICAL;w_MONOSPACE;w_CAPITAL;w_L]);
  (0x1d67c, [w_MATHEMATICAL;w_MONOSPACE;w_CAPITAL;w_M]);
  (0x1d67d, [w_MATHEMATICAL;w_MONOSPACE;w_CAPITAL;w_N]);
  (0x1d67e, [w_MATHEMATICAL;w_MONOSPACE;w_CAPITAL;w_O]);
  (0x1d67f, [w_MATHEMATICAL;w_MONOSPACE;w_CAPITAL;w_P]);
  (0x1d680, [w_MATHEMATICAL;w_MONOSPACE;w_CAPITAL;w_Q]);
  (0x1d681, [w_MATHEMATICAL;w_MONOSPACE;w_CAPITAL;w_R]);
  (0x1d682, [w_MATHEMATICAL;w_MONOSPACE;w_CAPITAL;w_S]);
  (0x1d683, [w_MATHEMATICAL;w_MONOSPACE;w_CAPITAL;w_T]);
  (0x1d684, [w_MATHEMATICAL;w_MONOSPACE;w_CAPITAL;w_U]);
  (0x1d685, [w_MATHEMATICAL;w_MONOSPACE;w_CAPITAL;w_V]);
  (0x1d686, [w_MATHEMATICAL;w_MONOSPACE;w_CAPITAL;w_W]);
  (0x1d687, [w_MATHEMATICAL;w_MONOSPACE;w_CAPITAL;w_X]);
  (0x1d688, [w_MATHEMATICAL;w_MONOSPACE;w_CAPITAL;w_Y]);
  (0x1d689, [w_MATHEMATICAL;w_MONOSPACE;w_CAPITAL;w_Z]);
  (0x1d68a, [w_MATHEMATICAL;w_MONOSPACE;w_SMALL;w_A]);
  (0x1d68b, [w_MATHEMATICAL;w_MONOSPACE;w_SMALL;w_B]);
  (0x1d68c, [w_MATHEMATICAL;w_MONOSPACE;w_SMALL;w_C]);
  (0x1d68d, [w_MATHEMATICAL;w_MONOSPACE;w_SMALL;w_D]);
  (0x1d68e, [w_MATHEMATICAL;w_MONOSPACE;w_SMALL;w_E]);
  (0x1d68f, [w_MATHEMATICAL;w_MONOSPACE;w_SMALL;w_F]);
  (0x1d690, [w_MATHEMATICAL;w_MONOSPACE;w_SMALL;w_G]);
  (0x1d691, [w_MATHEMATICAL;w_MONOSPACE;w_SMALL;w_H]);
  (0x1d692, [w_MATHEMATICAL;w_MONOSPACE;w_SMALL;w_I]);
  (0x1d693, [w_MATHEMATICAL;w_MONOSPACE;w_SMALL;w_J]);
  (0x1d694, [w_MATHEMATICAL;w_MONOSPACE;w_SMALL;w_K]);
  (0x1d695, [w_MATHEMATICAL;w_MONOSPACE;w_SMALL;w_L]);
  (0x1d696, [w_MATHEMATICAL;w_MONOSPACE;w_SMALL;w_M]);
  (0x1d697, [w_MATHEMATICAL;w_MONOSPACE;w_SMALL;w_N]);
  (0x1d698, [w_MATHEMATICAL;w_MONOSPACE;w_SMALL;w_O]);
  (0x1d699, [w_MATHEMATICAL;w_MONOSPACE;w_SMALL;w_P]);
  (0x1d69a, [w_MATHEMATICAL;w_MONOSPACE;w_SMALL;w_Q]);
  (0x1d69b, [w_MATHEMATICAL;w_MONOSPACE;w_SMALL;w_R]);
  (0x1d69c, [w_MATHEMATICAL;w_MONOSPACE;w_SMALL;w_S]);
  (0x1d69d, [w_MATHEMATICAL;w_MONOSPACE;w_SMALL;w_T]);
  (0x1d69e, [w_MATHEMATICAL;w_MONOSPACE;w_SMALL;w_U]);
  (0x1d69f, [w_MATHEMATICAL;w_MONOSPACE;w_SMALL;w_V]);
  (0x1d6a0, [w_MATHEMATICAL;w_MONOSPACE;w_SMALL;w_W]);
  (0x1d6a1, [w_MATHEMATICAL;w_MONOSPACE;w_SMALL;w_X]);
  (0x1d6a2, [w_MATHEMATICAL;w_MONOSPACE;w_SMALL;w_Y]);
  (0x1d6a3, [w_MATHEMATICAL;w_MONOSPACE;w_SMALL;w_Z]);
  (0x1d6a4, [w_MATHEMATICAL;w_ITALIC;w_SMALL;w_DOTLESS;w_I]);
  (0x1d6a5, [w_MATHEMATICAL;w_ITALIC;w_SMALL;w_DOTLESS;w_J]);
  (0x1d6a8, [w_MATHEMATICAL;w_BOLD;w_CAPITAL;w_ALPHA]);
  (0x1d6a9, [w_MATHEMATICAL;w_BOLD;w_CAPITAL;w_BETA]);
  (0x1d6aa, [w_MATHEMATICAL;w_BOLD;w_CAPITAL;w_GAMMA]);
  (0x1d6ab, [w_MATHEMATICAL;w_BOLD;w_CAPITAL;w_DELTA]);
  (0x1d6ac, [w_MATHEMATICAL;w_BOLD;w_CAPITAL;w_EPSILON]);
  (0x1d6ad, [w_MATHEMATICAL;w_BOLD;w_CAPITAL;w_ZETA]);
  (0x1d6ae, [w_MATHEMATICAL;w_BOLD;w_CAPITAL;w_ETA]);
  (0x1d6af, [w_MATHEMATICAL;w_BOLD;w_CAPITAL;w_THETA]);
  (0x1d6b0, [w_MATHEMATICAL;w_BOLD;w_CAPITAL;w_IOTA]);
  (0x1d6b1, [w_MATHEMATICAL;w_BOLD;w_CAPITAL;w_KAPPA]);
  (0x1d6b2, [w_MATHEMATICAL;w_BOLD;w_CAPITAL;w_LAMDA]);
  (0x1d6b3, [w_MATHEMATICAL;w_BOLD;w_CAPITAL;w_MU]);
  (0x1d6b4, [w_MATHEMATICAL;w_BOLD;w_CAPITAL;w_NU]);
  (0x1d6b5, [w_MATHEMATICAL;w_BOLD;w_CAPITAL;w_XI]);
  (0x1d6b6, [w_MATHEMATICAL;w_BOLD;w_CAPITAL;w_OMICRON]);
  (0x1d6b7, [w_MATHEMATICAL;w_BOLD;w_CAPITAL;w_PI]);
  (0x1d6b8, [w_MATHEMATICAL;w_BOLD;w_CAPITAL;w_RHO]);
  (0x1d6b9, [w_MATHEMATICAL;w_BOLD;w_CAPITAL;w_THETA;w_SYMBOL]);
  (0x1d6ba, [w_MATHEMATICAL;w_BOLD;w_CAPITAL;w_SIGMA]);
  (0x1d6bb, [w_MATHEMATICAL;w_BOLD;w_CAPITAL;w_TAU]);
  (0x1d6bc, [w_MATHEMATICAL;w_BOLD;w_CAPITAL;w_UPSILON]);
  (0x1d6bd, [w_MATHEMATICAL;w_BOLD;w_CAPITAL;w_PHI]);
  (0x1d6be, [w_MATHEMATICAL;w_BOLD;w_CAPITAL;w_CHI]);
  (0x1d6bf, [w_MATHEMATICAL;w_BOLD;w_CAPITAL;w_PSI]);
  (0x1d6c0, [w_MATHEMATICAL;w_BOLD;w_CAPITAL;w_OMEGA]);
  (0x1d6c1, [w_MATHEMATICAL;w_BOLD;w_NABLA]);
  (0x1d6c2, [w_MATHEMATICAL;w_BOLD;w_SMALL;w_ALPHA]);
  (0x1d6c3, [w_MATHEMATICAL;w_BOLD;w_SMALL;w_BETA]);
  (0x1d6c4, [w_MATHEMATICAL;w_BOLD;w_SMALL;w_GAMMA]);
  (0x1d6c5, [w_MATHEMATICAL;w_BOLD;w_SMALL;w_DELTA]);
  (0x1d6c6, [w_MATHEMATICAL;w_BOLD;w_SMALL;w_EPSILON]);
  (0x1d6c7, [w_MATHEMATICAL;w_BOLD;w_SMALL;w_ZETA])].

Definition NAMES_68 : list (N * (list str)) := [
  (0x1d6c8, [w_MATHEMATICAL;w_BOLD;w_SMALL;w_ETA]);
  (0x1d6c9, [w_MATHEMATICAL;w_BOLD;w_SMALL;w_THETA]);
  (0x1d6ca, [w_MATHEMATICAL;w_BOLD;w_SMALL;w_IOTA]);
  (0x1d6cb, [w_MATHEMATICAL;w_BOLD;w_SMALL;w_KAPPA]);
  (0x1d6cc, [w_MATHEMATICAL;w_BOLD;w_SMALL;w_LAMDA]);
  (0x1d6cd, [w_MATHEMATICAL;w_BOLD;w_SMALL;w_MU]);
  (0x1d6ce, [w_MATHEMATICAL;w_BOLD;w_SMALL;w_NU]);
  (0x1d6cf, [w_MATHEMATICAL;w_BOLD;w_SMALL;w_XI]);
  (0x1d6d0, [w_MATHEMATICAL;w_BOLD;w_SMALL;w_OMICRON]);
  (0x1d6d1, [w_MATHEMATICAL;w_BOLD;w_SMALL;w_PI]);
  (0x1d6d2, [w_MATHEMATICAL;w_BOLD;w_SMALL;w_RHO]);
  (0x1d6d3, [w_MATHEMATICAL;w_BOLD;w_SMALL;w_FINAL;w_SIGMA]);
  (0x1d6d4, [w_MATHEMATICAL;w_BOLD;w_SMALL;w_SIGMA]);
  (0x1d6d5, [w_MATHEMATICAL;w_BOLD;w_SMALL;w_TAU]);
  (0x1d6d6, [w_MATHEMATICAL;w_BOLD;w_SMALL;w_UPSILON]);
  (0x1d6d7, [w_MATHEMATICAL;w_BOLD;w_SMALL;w_PHI]);
  (0x1d6d8, [w_MATHEMATICAL;w_BOLD;w_SMALL;w_CHI]);
  (0x1d6d9, [w_MATHEMATICAL;w_BOLD;w_SMALL;w_PSI]);
  (0x1d6da, [w_MATHEMATICAL;w_BOLD;w_SMALL;w_OMEGA]);
  (0x1d6db, [w_MATHEMATICAL;w_BOLD;w_PARTIAL;w_DIFFERENTIAL]);
  (0x1d6dc, [w_MATHEMATICAL;w_BOLD;w_EPSILON;w_SYMBOL]);
  (0x1d6dd, [w_MATHEMATICAL;w_BOLD;w_THETA;w_SYMBOL]);
  (0x1d6de, [w_MATHEMATICAL;w_BOLD;w_KAPPA;w_SYMBOL]);
  (0x1d6df, [w_MATHEMATICAL;w_BOLD;w_PHI;w_SYMBOL]);
  (0x1d6e0, [w_MATHEMATICAL;w_BOLD;w_RHO;w_SYMBOL]);
  (0x1d6e1, [w_MATHEMATICAL;w_BOLD;w_PI;w_SYMBOL]);
  (0x1d6e2, [w_MATHEMATICAL;w_ITALIC;w_CAPITAL;w_ALPHA]);
  (0x1d6e3, [w_MATHEMATICAL;w_ITALIC;w_CAPITAL;w_BETA]);
  (0x1d6e4, [w_MATHEMATICAL;w_ITALIC;w_CAPITAL;w_GAMMA]);
  (0x1d6e5, [w_MATHEMATICAL;w_ITALIC;w_CAPITAL;w_DELTA]);
  (0x1d6e6, [w_MATHEMATICAL;w_ITALIC;w_CAPITAL;w_EPSILON]);
  (0x1d6e7, [w_MATHEMATICAL;w_ITALIC;w_CAPITAL;w_ZETA]);
  (0x1d6e8, [w_MATHEMATICAL;w_ITALIC;w_CAPITAL;w_ETA]);
  (0x1d6e9, [w_MATHEMATICAL;w_ITALIC;w_CAPITAL;w_THETA]);
  (0x1d6ea, [w_MATHEMATICAL;w_ITALIC;w_CAPITAL;w_IOTA]);
  (0x1d6eb, [w_MATHEMATICAL;w_ITALIC;w_CAPITAL;w_KAPPA]);
  (0x1d6ec, [w_MATHEMATICAL;w_ITALIC;w_CAPITAL;w_LAMDA]);
  (0x1d6ed, [w_MATHEMATICAL;w_ITALIC;w_CAPITAL;w_MU]);
  (0x1d6ee, [w_MATHEMATICAL;w_ITALIC;w_CAPITAL;w_NU]);
  (0x1d6ef, [w_MATHEMATICAL;w_ITALIC;w_CAPITAL;w_XI]);
  (0x1d6f0, [w_MATHEMATICAL;w_ITALIC;w_CAPITAL;w_OMICRON]);
  (0x1d6f1, [w_MATHEMATICAL;w_ITALIC;w_CAPITAL;w_PI]);
  (0x1d6f2, [w_MATHEMATICAL;w_ITALIC;w_CAPITAL;w_RHO]);
  (0x1d6f3, [w_MATHEMATICAL;w_ITALIC;w_CAPITAL;w_THETA;w_SYMBOL]);
  (0x1d6f4, [w_MATHEMATICAL;w_ITALIC;w_CAPITAL;w_SIGMA]);
  (0x1d6f5, [w_MATHEMATICAL;w_ITALIC;w_CAPITAL;w_TAU]);
  (0x1d6f6, [w_MATHEMATICAL;w_ITALIC;w_CAPITAL;w_UPSILON]);
  (0x1d6f7, [w_MATHEMATICAL;w_ITALIC;w_CAPITAL;w_PHI]);
  (0x1d6f8, [w_MATHEMATICAL;w_ITALIC;w_CAPITAL;w_CHI]);
  (0x1d6f9, [w_MATHEMATICAL;w_ITALIC;w_CAPITAL;w_PSI]);
  (0x1d6fa, [w_MATHEMATICAL;w_ITALIC;w_CAPITAL;w_OMEGA]);
  (0x1d6fb, [w_MATHEMATICAL;w_ITALIC;w_NABLA]);
  (0x1d6fc, [w_MATHEMATICAL;w_ITALIC;w_SMALL;w_ALPHA]);
  (0x1d6fd, [w_MATHEMATICAL;w_ITALIC;w_SMALL;w_BETA]);
  (0x1d6fe, [w_MATHEMATICAL;w_ITALIC;w_SMALL;w_GAMMA]);
  (0x1d6ff, [w_MATHEMATICAL;w_ITALIC;w_SMALL;w_DELTA]);
  (0x1d700, [w_MATHEMATICAL;w_ITALIC;w_SMALL;w_EPSILON]);
  (0x1d701, [w_MATHEMATICAL;w_ITALIC;w_SMALL;w_ZETA]);
  (0x1d702, [w_MATHEMATICAL;w_ITALIC;w_SMALL;w_ETA]);
  (0x1d703, [w_MATHEMATICAL;w_ITALIC;w_SMALL;w_THETA]);
  (0x1d704, [w_MATHEMATICAL;w_ITALIC;w_SMALL;w_IOTA]);
  (0x1d705, [w_MATHEMATICAL;w_ITALIC;w_SMALL;w_KAPPA]);
  (0x1d706, [w_MATHEMATICAL;w_ITALIC;w_SMALL;w_LAMDA]);
  (0x1d707, [w_MATHEMATICAL;w_ITALIC;w_SMALL;w_MU]);
  (0x1d708, [w_MATHEMATICAL;w_ITALIC;w_SMALL;w_NU]);
  (0x1d709, [w_MATHEMATICAL;w_ITALIC;w_SMALL;w_XI]);
  (0x1d70a, [w_MATHEMATICAL;w_ITALIC;w_SMALL;w_OMICRON]);
  (0x1d70b, [w_MATHEMATICAL;w_ITALIC;w_SMALL;w_PI]);
  (0x1d70c, [w_MATHEMATICAL;w_ITALIC;w_SMALL;w_RHO]);
  (0x1d70d, [w_MATHEMATICAL;w_ITALIC;w_SMALL;w_FINAL;w_SIGMA]);
  (0x1d70e, [w_MATHEMATICAL;w_ITALIC;w_SMALL;w_SIGMA]);
  (0x1d70f, [w_MATHEMATICAL;w_ITALIC;w_SMALL;w_TAU]);
  (0x1d710, [w_MATHEMATICAL;w_ITALIC;w_SMALL;w_UPSILON]);
  (0x1d711, [w_MATHEMATICAL;w_ITALIC;w_SMALL;w_PHI]);
  (0x1d712, [w_MATHEMATICAL;w_ITALIC;w_SMALL;w_CHI]);
  (0x1d713, [w_MATHEMATICAL;w_ITALIC;w_SMALL;w_PSI]);
  (0x1d714, [w_MATHEMATICAL;w_ITALIC;w_SMALL;w_OMEGA]);
  (0x1d715, [w_MATHEMATICAL;w_ITALIC;w_PARTIAL;w_DIFFERENTIAL]);
  (0x1d716, [w_MATHEMATICAL;w_ITALIC;w_EPSILON;w_SYMBOL]);
  (0x1d717, [w_MATHEMATICAL;w_ITALIC;w_THETA;w_SYMBOL]);
  (0x1d718, [w_MATHEMATICAL;w_ITALIC;w_KAPPA;w_SYMBOL]);
  (0x1d719, [w_MATHEMATICAL;w_ITALIC;w_PHI;w_SYMBOL]);
  (0x1d71a, [w_MATHEMATICAL;w_ITALIC;w_RHO;w_SYMBOL]);
  (0x1d71b, [w_MATHEMATICAL;w_ITALIC;w_PI;w_SYMBOL]);
  (0x1d71c, [w_MATHEMATICAL;w_BOLD;w_ITALIC;w_CAPITAL;w_ALPHA]);
  (0x1d71d, [w_MATHEMATICAL;w_BOLD;w_ITALIC;w_CAPITAL;w_BETA]);
  (0x1d71e, [w_MATHEMATICAL;w_BOLD;w_ITALIC;w_CAPITAL;w_GAMMA]);
  (0x1d71f, [w_MATHEMATICAL;w_BOLD;w_ITALIC;w_CAPITAL;w_DELTA]);
  (0x1d720, [w_MATHEMATICAL;w_BOLD;w_ITALIC;w_CAPITAL;w_EPSILON]);
  (0x1d721, [w_MATHEMATICAL;w_BOLD;w_ITALIC;w_CAPITAL;w_ZETA]);
  (0x1d722, [w_MATHEMATICAL;w_BOLD;w_ITALIC;w_CAPITAL;w_ETA]);
  (0x1d723, [w_MATHEMATICAL;w_BOLD;w_ITALIC;w_CAPITAL;w_THETA]);
  (0x1d724, [w_MATHEMATICAL;w_BOLD;w_ITALIC;w_CAPITAL;w_IOTA]);
  (0x1d725, [w_MATHEMATICAL;w_BOLD;w_ITALIC;w_CAPITAL;w_KAPPA]);
  (0x1d726, [w_MATHEMATICAL;w_BOLD;w_ITALIC;w_CAPITAL;w_LAMDA]);
  (0x1d727, [w_MATHEMATICAL;w_BOLD;w_ITALIC;w_CAPITAL;w_MU]);
  (0x1d728, [w_MATHEMATICAL;w_BOLD;w_ITALIC;w_CAPITAL;w_NU]);
  (0x1d729, [w_MATHEMATICAL;w_BOLD;w_ITALIC;w_CAPITAL;w_XI]);
  (0x1d72a, [w_MATHEMATICAL;w_BOLD;w_ITALIC;w_CAPITAL;w_OMICRON]);
  (0x1d72b, [w_MATHEMATICAL;w_BOLD;w_ITALIC;w_CAPITAL;w_PI]);
  (0x1d72c, [w_MATHEMATICAL;w_BOLD;w_ITALIC;w_CAPITAL;w_RHO]);
  (0x1d72d, [w_MATHEMATICAL;w_BOLD;w_ITALIC;w_CAPITAL;w_THETA;w_SYMBOL]);
  (0x1d72e, [w_MATHEMATICAL;w_BOLD;w_ITALIC;w_CAPITAL;w_SIGMA]);
  (0x1d72f, [w_MATHEMATICAL;w_BOLD;w_ITALIC;w_CAPITAL;w_TAU]);
  (0x1d730, [w_MATHEMATICAL;w_BOLD;w_ITALIC;w_CAPITAL;w_UPSILON]);
  (0x1d731, [w_MATHEMATICAL;w_BOLD;w_ITALIC;w_CAPITAL;w_PHI]);
  (0x1d732, [w_MATHEMATICAL;w_BOLD;w_ITALIC;w_CAPITAL;w_CHI]);
  (0x1d733, [w_MATHEMATICAL;w_BOLD;w_ITALIC;w_CAPITAL;w_PSI]);
  (0x1d734, [w_MATHEMATICAL;w_BOLD;w_ITALIC;w_CAPITAL;w_OMEGA]);
  (0x1d735, [w_MATHEMATICAL;w_BOLD;w_ITALIC;w_NABLA]);
  (0x1d736, [w_MATHEMATICAL;w_BOLD;w_ITALIC;w_SMALL;w_ALPHA]);
  (0x1d737, [w_MATHEMATICAL;w_BOLD;w_ITALIC;w_SMALL;w_BETA]);
  (0x1d738, [w_MATHEMATICAL;w_BOLD;w_ITALIC;w_SMALL;w_GAMMA]);
  (0x1d739, [w_MATHEMATICAL;w_BOLD;w_ITALIC;w_SMALL;w_DELTA]);
  (0x1d73a, [w_MATHEMATICAL;w_BOLD;w_ITALIC;w_SMALL;w_EPSILON]);
  (0x1d73b, [w_MATHEMATICAL;w_BOLD;w_ITALIC;w_SMALL;w_ZETA]);
  (0x1d73c, [w_MATHEMATICAL;w_BOLD;w_ITALIC;w_SMALL;w_ETA]);
  (0x1d73d, [w_MATHEMATICAL;w_BOLD;w_ITALIC;w_SMALL;w_THETA]);
  (0x1d73e, [w_MATHEMATICAL;w_BOLD;w_ITALIC;w_SMALL;w_IOTA]);
  (0x1d73f, [w_MATHEMATICAL;w_BOLD;w_ITALIC;w_SMALL;w_KAPPA]);
  (0x1d740, [w_MATHEMATICAL;w_BOLD;w_ITALIC;w_SMALL;w_LAMDA]);
  (0x1d741, [w_MATHEMATICAL;w_BOLD;w_ITALIC;w_SMALL;w_MU]);
  (0x1d742, [w_MATHEMATICAL;w_BOLD;w_ITALIC;w_SMALL;w_NU]);
  (0x1d743, [w_MATHEMATICAL;w_BOLD;w_ITALIC;w_SMALL;w_XI]);
  (0x1d744, [w_MATHEMATICAL;w_BOLD;w_ITALIC;w_SMALL;w_OMICRON]);
  (0x1d745, [w_MATHEMATICAL;w_BOLD;w_ITALIC;w_SMALL;w_PI]);
  (0x1d746, [w_MATHEMATICAL;w_BOLD;w_ITALIC;w_SMALL;w_RHO]);
  (0x1d747, [w_MATHEMATICAL;w_BOLD;w_ITALIC;w_SMALL;w_FINAL;w_SIGMA]);
  (0x1d748, [w_MATHEMATICAL;w_BOLD;w_ITALIC;w_SMALL;w_SIGMA]);
  (0x1d749, [w_MATHEMATICAL;w_BOLD;w_ITALIC;w_SMALL;w_TAU]);
  (0x1d74a, [w_MATHEMATICAL;w_BOLD;w_ITALIC;w_SMALL;w_UPSILON]);
  (0x1d74b, [w_MATHEMATICAL;w_BOLD;w_ITALIC;w_SMALL;w_PHI]);
  (0x1d74c, [w_MATHEMATICAL;w_BOLD;w_ITALIC;w_SMALL;w_CHI]);
  (0x1d74d, [w_MATHEMATICAL;w_BOLD;w_ITALIC;w_SMALL;w_PSI]);
  (0x1d74e, [w_MATHEMATICAL;w_BOLD;w_ITALIC;w_SMALL;w_OMEGA]);
  (0x1d74f, [w_MATHEMATICAL;w_BOLD;w_ITALIC;w_PARTIAL;w_DIFFERENTIAL]);
  (0x1d750, [w_MATHEMATICAL;w_BOLD;w_ITALIC;w_EPSILON;w_SYMBOL]);
  (0x1d751, [w_MATHEMATICAL;w_BOLD;w_ITALIC;w_THETA;w_SYMBOL]);
  (0x1d752, [w_MATHEMATICAL;w_BOLD;w_ITALIC;w_KAPPA;w_SYMBOL]);
  (0x1d753, [w_MATHEMATICAL;w_BOLD;w_ITALIC;w_PHI;w_SYMBOL]);
  (0x1d754, [w_MATHEMATICAL;w_BOLD;w_ITALIC;w_RHO;w_SYMBOL]);
  (0x1d755, [w_MATHEMATICAL;w_BOLD;w_ITALIC;w_PI;w_SYMBOL]);
  (0x1d756, [w_MATHEMATICAL;w_SANS_SERIF;w_BOLD;w_CAPITAL;w_ALPHA]);
  (0x1d757, [w_MATHEMATICAL;w_SANS_SERIF;w_BOLD;w_CAPITAL;w_BETA]);
  (0x1d758, [w_MATHEMATICAL;w_SANS_SERIF;w_BOLD;w_CAPITAL;w_GAMMA]);
  (0x1d759, [w_MATHEMATICAL;w_SANS_SERIF;w_BOLD;w_CAPITAL;w_DELTA]);
  (0x1d75a, [w_MATHEMATICAL;w_SANS_SERIF;w_BOLD;w_CAPITAL;w_EPSILON]);
  (0x1d75b, [w_MATHEMATICAL;w_SANS_SERIF;w_BOLD;w_CAPITAL;w_ZETA]);
  (0x1d75c, [w_MATHEMATICAL;w_SANS_SERIF;w_BOLD;w_CAPITAL;w_ETA]);
  (0x1d75d, [w_MATHEMATICAL;w_SANS_SERIF;w_BOLD;w_CAPITAL;w_THETA]);
  (0x1d75e, [w_MATHEMATICAL;w_SANS_SERIF;w_BOLD;w_CAPITAL;w_IOTA]);
  (0x1d75f, [w_MATHEMATICAL;w_SANS_SERIF;w_BOLD;w_CAPITAL;w_KAPPA]);
  (0x1d760, [w_MATHEMATICAL;w_SANS_SERIF;w_BOLD;w_CAPITAL;w_LAMDA]);
  (0x1d761, [w_MATHEMATICAL;w_SANS_SERIF;w_BOLD;w_CAPITAL;w_MU]);
  (0x1d762, [w_MATHEMATICAL;w_SANS_SERIF;w_BOLD;w_CAPITAL;w_NU]);
  (0x1d763, [w_MATHEMATICAL;w_SANS_SERIF;w_BOLD;w_CAPITAL;w_XI]);
  (0x1d764, [w_MATHEMATICAL;w_SANS_SERIF;w_BOLD;w_CAPITAL;w_OMICRON]);
  (0x1d765, [w_MATHEMATICAL;w_SANS_SERIF;w_BOLD;w_CAPITAL;w_PI]);
  (0x1d766, [w_MATHEMATICAL;w_SANS_SERIF;w_BOLD;w_CAPITAL;w_RHO]);
  (0x1d767, [w_MATHEMATICAL;w_SANS_SERIF;w_BOLD;w_CAPITAL;w_THETA;w_SYMBOL]);
  (0x1d768, [w_MATHEMATICAL;w_SANS_SERIF;w_BOLD;w_CAPITAL;w_SIGMA]);
  (0x1d769, [w_MATHEMATICAL;w_SANS_SERIF;w_BOLD;w_CAPITAL;w_TAU]);
  (0x1d76a, [w_MATHEMATICAL;w_SANS_SERIF;w_BOLD;w_CAPITAL;w_UPSILON]);
  (0x1d76b, [w_MATHEMATICAL;w_SANS_SERIF;w_BOLD;w_CAPITAL;w_PHI]);
  (0x1d76c, [w_MATHEMATICAL;w_SANS_SERIF;w_BOLD;w_CAPITAL;w_CHI]);
  (0x1d76d, [w_MATHEMATICAL;w_SANS_SERIF;w_BOLD;w_CAPITAL;w_PSI]);
  (0x1d76e, [w_MATHEMATICAL;w_SANS_SERIF;w_BOLD;w_CAPITAL;w_OMEGA]);
  (0x1d76f, [w_MATHEMATICAL;w_SANS_SERIF;w_BOLD;w_NABLA]);
  (0x1d770, [w_MATHEMATICAL;w_SANS_SERIF;w_BOLD;w_SMALL;w_ALPHA]);
  (0x1d771, [w_MATHEMATICAL;w_SANS_SERIF;w_BOLD;w_SMALL;w_BETA]);
  (0x1d772, [w_MATHEMATICAL;w_SANS_SERIF;w_BOLD;w_SMALL;w_GAMMA]);
  (0x1d773, [w_MATHEMATICAL;w_SANS_SERIF;w_BOLD;w_SMALL;w_DELTA]);
  (0x1d774, [w_MATHEMATICAL;w_SANS_SERIF;w_BOLD;w_SMALL;w_EPSILON]);
  (0x1d775, [w_MATHEMATICAL;w_SANS_SERIF;w_BOLD;w_SMALL;w_ZETA]);
  (0x1d776, [w_MATHEMATICAL;w_SANS_SERIF;w_BOLD;w_SMALL;w_ETA]);
  (0x1d777, [w_MATHEMATICAL;w_SANS_SERIF;w_BOLD;w_SMALL;w_THETA]);
  (0x1d778, [w_MATHEMATICAL;w_SANS_SERIF;w_BOLD;w_SMALL;w_IOTA]);
  (0x1d779, [w_MATHEMATICAL;w_SANS_SERIF;w_BOLD;w_SMALL;w_KAPPA]);
  (0x1d77a, [w_MATHEMATICAL;w_SANS_SERIF;w_BOLD;w_SMALL;w_LAMDA]);
  (0x1d77b, [w_MATHEMATICAL;w_SANS_SERIF;w_BOLD;w_SMALL;w_MU]);
  (0x1d77c, [w_MATHEMATICAL;w_SANS_SERIF;w_BOLD;w_SMALL;w_NU]);
  (0x1d77d, [w_MATHEMATICAL;w_SANS_SERIF;w_BOLD;w_SMALL;w_XI]);
  (0x1d77e, [w_MATHEMATICAL;w_SANS_SERIF;w_BOLD;w_SMALL;w_OMICRON]);
  (0x1d77f, [w_MATHEMATICAL;w_SANS_SERIF;w_BOLD;w_SMALL;w_PI]);
  (0x1d780, [w_MATHEMATICAL;w_SANS_SERIF;w_BOLD;w_SMALL;w_RHO]);
  (0x1d781, [w_MATHEMATICAL;w_SANS_SERIF;w_BOLD;w_SMALL;w_FINAL;w_SIGMA]);
  (0x1d782, [w_MATHEMATICAL;w_SANS_SERIF;w_BOLD;w_SMALL;w_SIGMA]);
  (0x1d783, [w_MATHEMATICAL;w_SANS_SERIF;w_BOLD;w_SMALL;w_TAU]);
  (0x1d784, [w_MATHEMATICAL;w_SANS_SERIF;w_BOLD;w_SMALL;w_UPSILON]);
  (0x1d785, [w_MATHEMATICAL;w_SANS_SERIF;w_BOLD;w_SMALL;w_PHI]);
  (0x1d786, [w_MATHEMATICAL;w_SANS_SERIF;w_BOLD;w_SMALL;w_CHI]);
  (0x1d787, [w_MATHEMATICAL;w_SANS_SERIF;w_BOLD;w_SMALL;w_PSI]);
  (0x1d788, [w_MATHEMATICAL;w_SANS_SERIF;w_BOLD;w_SMALL;w_OMEGA]);
  (0x1d789, [w_MATHEMATICAL;w_SANS_SERIF;w_BOLD;w_PARTIAL;w_DIFFERENTIAL]);
  (0x1d78a, [w_MATHEMATICAL;w_SANS_SERIF;w_BOLD;w_EPSILON;w_SYMBOL]);
  (0x1d78b, [w_MATHEMATICAL;w_SANS_SERIF;w_BOLD;w_THETA;w_SYMBOL]);
  (0x1d78c, [w_MATHEMATICAL;w_SANS_SERIF;w_BOLD;w_KAPPA;w_SYMBOL]);
  (0x1d78d, [w_MATHEMATICAL;w_SANS_SERIF;w_BOLD;w_PHI;w_SYMBOL]);
  (0x1d78e, [w_MATHEMATICAL;w_SANS_SERIF;w_BOLD;w_RHO;w_SYMBOL]);
  (0x1d78f, [w_MATHEMATICAL;w_SANS_SERIF;w_BOLD;w_PI;w_SYMBOL]);
  (0x1d790, [w_MATHEMATICAL;w_SANS_SERIF;w_BOLD;w_ITALIC;w_CAPITAL;w_ALPHA]);
  (0x1d791, [w_MATHEMATICAL;w_SANS_SERIF;w_BOLD;w_ITALIC;w_CAPITAL;w_BETA]);
  (0x1d792, [w_MATHEMATICAL;w_SANS_SERIF;w_BOLD;w_ITALIC;w_CAPITAL;w_GAMMA]);
  (0x1d793, [w_MATHEMATICAL;w_SANS_SERIF;w_BOLD;w_ITALIC;w_CAPITAL;w_DELTA]);
  (0x1d794, [w_MATHEMATICAL;w_SANS_SERIF;w_BOLD;w_ITALIC;w_CAPITAL;w_EPSILON]);
  (0x1d795, [w_MATHEMATICAL;w_SANS_SERIF;w_BOLD;w_ITALIC;w_CAPITAL;w_ZETA]);
  (0x1d796, [w_MATHEMATICAL;w_SANS_SERIF;w_BOLD;w_ITALIC;w_CAPITAL;w_ETA]);
  (0x1d797, [w_MATHEMATICAL;w_SANS_SERIF;w_BOLD;w_ITALIC;w_CAPITAL;w_THETA]);
  (0x1d798, [w_MATHEMATICAL;w_SANS_SERIF;w_BOLD;w_ITALIC;w_CAPITAL;w_IOTA]);
  (0x1d799, [w_MATHEMATICAL;w_SANS_SERIF;w_BOLD;w_ITALIC;w_CAPITAL;w_KAPPA]);
  (0x1d79a, [w_MATHEMATICAL;w_SANS_SERIF;w_BOLD;w_ITALIC;w_CAPITAL;w_LAMDA]);
  (0x1d79b, [w_MATHEMATICAL;w_SANS_SERIF;w_BOLD;w_ITALIC;w_CAPITAL;w_MU]);
  (0x1d79c, [w_MATHEMATICAL;w_SANS_SERIF;w_BOLD;w_ITALIC;w_CAPITAL;w_NU]);
  (0x1d79d, [w_MATHEMATICAL;w_SANS_SERIF;w_BOLD;w_ITALIC;w_CAPITAL;w_XI]);
  (0x1d79e, [w_MATHEMATICAL;w_SANS_SERIF;w_BOLD;w_ITALIC;w_CAPITAL;w_OMICRON]);
  (0x1d79f, [w_MATHEMATICAL;w_SANS_SERIF;w_BOLD;w_ITALIC;w_CAPITAL;w_PI]);
  (0x1d7a0, [w_MATHEMATICAL;w_SANS_SERIF;w_BOLD;w_ITALIC;w_CAPITAL;w_RHO]);
  (0x1d7a1, [w_MATHEMATICAL;w_SANS_SERIF;w_BOLD;w_ITALIC;w_CAPITAL;w_THETA;w_SYMBOL]);
  (0x1d7a2, [w_MATHEMATICAL;w_SANS_SERIF;w_BOLD;w_ITALIC;w_CAPITAL;w_SIGMA]);
  (0x1d7a3, [w_MATHEMATICAL;w_SANS_SERIF;w_BOLD;w_ITALIC;w_CAPITAL;w_TAU]);
  (0x1d7a4, [w_MATHEMATICAL;w_SANS_SERIF;w_BOLD;w_ITALIC;w_CAPITAL;w_UPSILON]);
  (0x1d7a5, [w_MATHEMATICAL;w_SANS_SERIF;w_BOLD;w_ITALIC;w_CAPITAL;w_PHI]);
  (0x1d7a6, [w_MATHEMATICAL;w_SANS_SERIF;w_BOLD;w_ITALIC;w_CAPITAL;w_CHI]);
  (0x1d7a7, [w_MATHEMATICAL;w_SANS_SERIF;w_BOLD;w_ITALIC;w_CAPITAL;w_PSI]);
  (0x1d7a8, [w_MATHEMATICAL;w_SANS_SERIF;w_BOLD;w_ITALIC;w_CAPITAL;w_OMEGA]);
  (0x1d7a9, [w_MATHEMATICAL;w_SANS_SERIF;w_BOLD;w_ITALIC;w_NABLA]);
  (0x1d7aa, [w_MATHEMATICAL;w_SANS_SERIF;w_BOLD;w_ITALIC;w_SMALL;w_ALPHA]);
  (0x1d7ab, [w_MATHEMATICAL;w_SANS_SERIF;w_BOLD;w_ITALIC;w_SMALL;w_BETA]);
  (0x1d7ac, [w_MATHEMATICAL;w_SANS_SERIF;w_BOLD;w_ITALIC;w_SMALL;w_GAMMA]);
  (0x1d7ad, [w_MATHEMATICAL;w_SANS_SERIF;w_BOLD;w_ITALIC;w_SMALL;w_DELTA]);
  (0x1d7ae, [w_MATHEMATICAL;w_SANS_SERIF;w_BOLD;w_ITALIC;w_SMALL;w_EPSILON]);
  (0x1d7af, [w_MATHEMATICAL;w_SANS_SERIF;w_BOLD;w_ITALIC;w_SMALL;w_ZETA]);
  (0x1d7b0, [w_MATHEMATICAL;w_SANS_SERIF;w_BOLD;w_ITALIC;w_SMALL;w_ETA]);
  (0x1d7b1, [w_MATHEMATICAL;w_SANS_SERIF;w_BOLD;w_ITALIC;w_SMALL;w_THETA]);
  (0x1d7b2, [w_MATHEMATICAL;w_SANS_SERIF;w_BOLD;w_ITALIC;w_SMALL;w_IOTA]);
  (0x1d7b3, [w_MATHEMATICAL;w_SANS_SERIF;w_BOLD;w_ITALIC;w_SMALL;w_KAPPA]);
  (0x1d7b4, [w_MATHEMATICAL;w_SANS_SERIF;w_BOLD;w_ITALIC;w_SMALL;w_LAMDA]);
  (0x1d7b5, [w_MATHEMATICAL;w_SANS_SERIF;w_BOLD;w_ITALIC;w_SMALL;w_MU]);
  (0x1d7b6, [w_MATHEMATICAL;w_SANS_SERIF;w_BOLD;w_ITALIC;w_SMALL;w_NU]);
  (0x1d7b7, [w_MATHEMATICAL;w_SANS_SERIF;w_BOLD;w_ITALIC;w_SMALL;w_XI]);
  (0x1d7b8, [w_MATHEMATICAL;w_SANS_SERIF;w_BOLD;w_ITALIC;w_SMALL;w_OMICRON]);
  (0x1d7b9, [w_MATHEMATICAL;w_SANS_SERIF;w_BOLD;w_ITALIC;w_SMALL;w_PI]);
  (0x1d7ba, [w_MATHEMATICAL;w_SANS_SERIF;w_BOLD;w_ITALIC;w_SMALL;w_RHO]);
  (0x1d7bb, [w_MATHEMATICAL;w_SANS_SERIF;w_BOLD;w_ITALIC;w_SMALL;w_FINAL;w_SIGMA]);
  (0x1d7bc, [w_MATHEMATICAL;w_SANS_SERIF;w_BOLD;w_ITALIC;w_SMALL;w_SIGMA]);
  (0x1d7bd, [w_MATHEMATICAL;w_SANS_SERIF;w_BOLD;w_ITALIC;w_SMALL;w_TAU]);
  (0x1d7be, [w_MATHEMATICAL;w_SANS_SERIF;w_BOLD;w_ITALIC;w_SMALL;w_UPSILON]);
  (0x1d7bf, [w_MATHEMATICAL;w_SANS_SERIF;w_BOLD;w_ITALIC;w_SMALL;w_PHI]);
  (0x1d7c0, [w_MATHEMATICAL;w_SANS_SERIF;w_BOLD;w_ITALIC;w_SMALL;w_CHI]);
  (0x1d7c1, [w_MATHEMATICAL;w_SANS_SERIF;w_BOLD;w_ITALIC;w_SMALL;w_PSI]);
  (0x1d7c2, [w_MATHEMATICAL;w_SANS_SERIF;w_BOLD;w_ITALIC;w_SMALL;w_OMEGA]);
  (0x1d7c3, [w_MATHEMATICAL;w_SANS_SERIF;w_BOLD;w_ITALIC;w_PARTIAL;w_DIFFERENTIAL]);
  (0x1d7c4, [w_MATHEMATICAL;w_SANS_SERIF;w_BOLD;w_ITALIC;w_EPSILON;w_SYMBOL]);
  (0x1d7c5, [w_MATHEMATICAL;w_SANS_SERIF;w_BOLD;w_ITALIC;w_THETA;w_SYMBOL]);
  (0x1d7c6, [w_MATHEMATICAL;w_SANS_SERIF;w_BOLD;w_ITALIC;w_KAPPA;w_SYMBOL]);
  (0x1d7c7, [w_MATHEMATICAL;w_SANS_SERIF;w_BOLD;w_ITALIC;w_PHI;w_SYMBOL]);
  (0x1d7c8, [w_MATHEMATICAL;w_SANS_SERIF;w_BOLD;w_ITALIC;w_RHO;w_SYMBOL]);
  (0x1d7c9, [w_MATHEMATICAL;w_SANS_SERIF;w_BOLD;w_ITALIC;w_PI;w_SYMBOL]);
  (0x1d7ca, [w_MATHEMATICAL;w_BOLD;w_CAPITAL;w_DIGAMMA]);
  (0x1d7cb, [w_MATHEMATICAL;w_BOLD;w_SMALL;w_DIGAMMA]);
  (0x1d7ce, [w_MATHEMATICAL;w_BOLD;w_DIGIT;w_ZERO]);
  (0x1d7cf, [w_MATHEMATICAL;w_BOLD;w_DIGIT;w_ONE]);
  (0x1d7d0, [w_MATHEMATICAL;w_BOLD;w_DIGIT;w_TWO]);
  (0x1d7d1, [w_MATHEMATICAL;w_BOLD;w_DIGIT;w_THREE]);
  (0x1d7d2, [w_MATHEMATICAL;w_BOLD;w_DIGIT;w_FOUR]);
  (0x1d7d3, [w_MATHEMATICAL;w_BOLD;w_DIGIT;w_FIVE]);
  (0x1d7d4, [w_MATHEMATICAL;w_BOLD;w_DIGIT;w_SIX]);
  (0x1d7d5, [w_MATHEMATICAL;w_BOLD;w_DIGIT;w_SEVEN]);
  (0x1d7d6, [w_MATHEMATICAL;w_BOLD;w_DIGIT;w_EIGHT]);
  (0x1d7d7, [w_MATHEMATICAL;w_BOLD;w_DIGIT;w_NINE]);
  (0x1d7d8, [w_MATHEMATICAL;w_DOUBLE_STRUCK;w_DIGIT;w_ZERO]);
  (0x1d7d9, [w_MATHEMATICAL;w_DOUBLE_STRUCK;w_DIGIT;w_ONE]);
  (0x1d7da, [w_MATHEMATICAL;w_DOUBLE_STRUCK;w_DIGIT;w_TWO]);
  (0x1d7db, [w_MATHEMATICAL;w_DOUBLE_STRUCK;w_DIGIT;w_THREE]);
  (0x1d7dc, [w_MATHEMATICAL;w_DOUBLE_STRUCK;w_DIGIT;w_FOUR]);
  (0x1d7dd, [w_MATHEMATICAL;w_DOUBLE_STRUCK;w_DIGIT;w_FIVE]);
  (0x1d7de, [w_MATHEMATICAL;w_DOUBLE_STRUCK;w_DIGIT;w_SIX]);
  (0x1d7df, [w_MATHEMATICAL;w_DOUBLE_STRUCK;w_DIGIT;w_SEVEN]);
  (0x1d7e0, [w_MATHEMATICAL;w_DOUBLE_STRUCK;w_DIGIT;w_EIGHT]);
  (0x1d7e1, [w_MATHEMATICAL;w_DOUBLE_STRUCK;w_DIGIT;w_NINE]);
  (0x1d7e2, [w_MATHEMATICAL;w_SANS_SERIF;w_DIGIT;w_ZERO]);
  (0x1d7e3, [w_MATHEMATICAL;w_SANS_SERIF;w_DIGIT;w_ONE]);
  (0x1d7e4, [w_MATHEMATICAL;w_SANS_SERIF;w_DIGIT;w_TWO]);
  (0x1d7e5, [w_MATHEMATICAL;w_SANS_SERIF;w_DIGIT;w_THREE]);
  (0x1d7e6, [w_MATHEMATICAL;w_SANS_SERIF;w_DIGIT;w_FOUR]);
  (0x1d7e7, [w_MATHEMATICAL;w_SANS_SERIF;w_DIGIT;w_FIVE]);
  (0x1d7e8, [w_MATHEMATICAL;w_SANS_SERIF;w_DIGIT;w_SIX]);
  (0x1d7e9, [w_MATHEMATICAL;w_SANS_SERIF;w_DIGIT;w_SEVEN]);
  (0x1d7ea, [w_MATHEMATICAL;w_SANS_SERIF;w_DIGIT;w_EIGHT]);
  (0x1d7eb, [w_MATHEMATICAL;w_SANS_SERIF;w_DIGIT;w_NINE]);
  (0x1d7ec, [w_MATHEMATICAL;w_SANS_SERIF;w_BOLD;w_DIGIT;w_ZERO]);
  (0x1d7ed, [w_MATHEMATICAL;w_SANS_SERIF;w_BOLD;w_DIGIT;w_ONE]);
  (0x1d7ee, [w_MATHEMATICAL;w_SANS_SERIF;w_BOLD;w_DIGIT;w_TWO]);
  (0x1d7ef, [w_MATHEMATICAL;w_SANS_SERIF;w_BOLD;w_DIGIT;w_THREE]);
  (0x1d7f0, [w_MATHEMATICAL;w_SANS_SERIF;w_BOLD;w_DIGIT;w_FOUR]);
  (0x1d7f1, [w_MATHEMATICAL;w_SANS_SERIF;w_BOLD;w_DIGIT;w_FIVE]);
  (0x1d7f2, [w_MATHEMATICAL;w_SANS_SERIF;w_BOLD;w_DIGIT;w_SIX]);
  (0x1d7f3, [w_MATHEMATICAL;w_SANS_SERIF;w_BOLD;w_DIGIT;w_SEVEN]);
  (0x1d7f4, [w_MATHEMATICAL;w_SANS_SERIF;w_BOLD;w_DIGIT;w_EIGHT]);
  (0x1d7f5, [w_MATHEMATICAL;w_SANS_SERIF;w_BOLD;w_DIGIT;w_NINE]);
  (0x1d7f6, [w_MATHEMATICAL;w_MONOSPACE;w_DIGIT;w_ZERO]);
  (0x1d7f7, [w_MATHEMATICAL;w_MONOSPACE;w_DIGIT;w_ONE]);
  (0x1d7f8, [w_MATHEMATICAL;w_MONOSPACE;w_DIGIT;w_TWO]);
  (0x1d7f9, [w_MATHEMATICAL;w_MONOSPACE;w_DIGIT;w_THREE]);
  (0x1d7fa, [w_MATHEMATICAL;w_MONOSPACE;w_DIGIT;w_FOUR]);
  (0x1d7fb, [w_MATHEMATICAL;w_MONOSPACE;w_DIGIT;w_FIVE]);
  (0x1d7fc, [w_MATHEMATICAL;w_MONOSPACE;w_DIGIT;w_SIX]);
  (0x1d7fd, [w_MATHEMATICAL;w_MONOSPACE;w_DIGIT;w_SEVEN]);
  (0x1d7fe, [w_MATHEMATICAL;w_MONOSPACE;w_DIGIT;w_EIGHT]);
  (0x1d7ff, [w_MATHEMATICAL;w_MONOSPACE;w_DIGIT;w_NINE]);
  (0x1d800, [w_SIGNWRITING;w_HAND_FIST;w_INDEX]);
  (0x1d801, [w_SIGNWRITING;w_HAND_CIRCLE;w_INDEX]);
  (0x1d802, [w_SIGNWRITING;w_HAND_CUP;w_INDEX]);
  (0x1d803, [w_SIGNWRITING;w_HAND_OVAL;w_INDEX]);
  (0x1d804, [w_SIGNWRITING;w_HAND_HINGE;w_INDEX]);
  (0x1d805, [w_SIGNWRITING;w_HAND_ANGLE;w_INDEX]);
  (0x1d806, [w_SIGNWRITING;w_HAND_FIST;w_INDEX;w_BENT]);
  (0x1d807, [w_SIGNWRITING;w_HAND_CIRCLE;w_INDEX;w_BENT]);
  (0x1d808, [w_SIGNWRITING;w_HAND_FIST;w_THUMB;w_UNDER;w_INDEX;w_BENT]);
  (0x1d809, [w_SIGNWRITING;w_HAND_FIST;w_INDEX;w_RAISED;w_KNUCKLE]);
  (0x1d80a, [w_SIGNWRITING;w_HAND_FIST;w_INDEX;w_CUPPED]);
  (0x1d80b, [w_SIGNWRITING;w_HAND_FIST;w_INDEX;w_HINGED]);
  (0x1d80c, [w_SIGNWRITING;w_HAND_FIST;w_INDEX;w_HINGED;w_LOW]);
  (0x1d80d, [w_SIGNWRITING;w_HAND_CIRCLE;w_INDEX;w_HINGE]);
  (0x1d80e, [w_SIGNWRITING;w_HAND_FIST;w_INDEX;w_MIDDLE]);
  (0x1d80f, [w_SIGNWRITING;w_HAND_CIRCLE;w_INDEX;w_MIDDLE]);
  (0x1d810, [w_SIGNWRITING;w_HAND_FIST;w_INDEX;w_MIDDLE;w_BENT]);
  (0x1d811, [w_SIGNWRITING;w_HAND_FIST;w_INDEX;w_MIDDLE;w_RAISED;w_KNUCKLES]);
  (0x1d812, [w_SIGNWRITING;w_HAND_FIST;w_INDEX;w_MIDDLE;w_HINGED]);
  (0x1d813, [w_SIGNWRITING;w_HAND_FIST;w_INDEX;w_UP;w_MIDDLE;w_HINGED]);
  (0x1d814, [w_SIGNWRITING;w_HAND_FIST;w_INDEX;w_HINGED;w_MIDDLE;w_UP]);
  (0x1d815, [w_SIGNWRITING;w_HAND_FIST;w_INDEX;w_MIDDLE;w_CONJOINED]);
  (0x1d816, [w_SIGNWRITING;w_HAND_FIST;w_INDEX;w_MIDDLE;w_CONJOINED;w_INDEX;w_BENT]);
  (0x1d817, [w_SIGNWRITING;w_HAND_FIST;w_INDEX;w_MIDDLE;w_CONJOINED;w_MIDDLE;w_BENT]);
  (0x1d818, [w_SIGNWRITING;w_HAND_FIST;w_INDEX;w_MIDDLE;w_CONJOINED;w_CUPPED]);
  (0x1d819, [w_SIGNWRITING;w_HAND_FIST;w_INDEX;w_MIDDLE;w_CONJOINED;w_HINGED]);
  (0x1d81a, [w_SIGNWRITING;w_HAND_FIST;w_INDEX;w_MIDDLE;w_CROSSED]);
  (0x1d81b, [w_SIGNWRITING;w_HAND_CIRCLE;w_INDEX;w_MIDDLE;w_CROSSED]);
  (0x1d81c, [w_SIGNWRITING;w_HAND_FIST;w_MIDDLE;w_BENT;w_OVER;w_INDEX]);
  (0x1d81d, [w_SIGNWRITING;w_HAND_FIST;w_INDEX;w_BENT;w_OVER;w_MIDDLE]);
  (0x1d81e, [w_SIGNWRITING;w_HAND_FIST;w_INDEX;w_MIDDLE;w_THUMB]);
  (0x1d81f, [w_SIGNWRITING;w_HAND_CIRCLE;w_INDEX;w_MIDDLE;w_THUMB]);
  (0x1d820, [w_SIGNWRITING;w_HAND_FIST;w_INDEX;w_MIDDLE;w_STRAIGHT;w_THUMB;w_BENT]);
  (0x1d821, [w_SIGNWRITING;w_HAND_FIST;w_INDEX;w_MIDDLE;w_BENT;w_THUMB;w_STRAIGHT]);
  (0x1d822, [w_SIGNWRITING;w_HAND_FIST;w_INDEX;w_MIDDLE;w_THUMB;w_BENT]);
  (0x1d823, [w_SIGNWRITING;w_HAND_FIST;w_INDEX;w_MIDDLE;w_HINGED;w_SPREAD;w_THUMB;w_SIDE]);
  (0x1d824, [w_SIGNWRITING;w_HAND_FIST;w_INDEX;w_UP;w_MIDDLE;w_HINGED;w_THUMB;w_SIDE]);
  (0x1d825, [w_SIGNWRITING;w_HAND_FIST;w_INDEX;w_UP;w_MIDDLE;w_HINGED;w_THUMB;w_CONJOINED]);
  (0x1d826, [w_SIGNWRITING;w_HAND_FIST;w_INDEX;w_HINGED;w_MIDDLE;w_UP;w_THUMB;w_SIDE]);
  (0x1d827, [w_SIGNWRITING;w_HAND_FIST;w_INDEX;w_MIDDLE;w_UP;w_SPREAD;w_THUMB;w_FORWARD]);
  (0x1d828, [w_SIGNWRITING;w_HAND_FIST;w_INDEX;w_MIDDLE;w_THUMB;w_CUPPED]);
  (0x1d829, [w_SIGNWRITING;w_HAND_FIST;w_INDEX;w_MIDDLE;w_THUMB;w_CIRCLED]);
  (0x1d82a, [w_SIGNWRITING;w_HAND_FIST;w_INDEX;w_MIDDLE;w_THUMB;w_HOOKED]);
  (0x1d82b, [w_SIGNWRITING;w_HAND_FIST;w_INDEX;w_MIDDLE;w_THUMB;w_HINGED]);
  (0x1d82c, [w_SIGNWRITING;w_HAND_FIST;w_THUMB;w_BETWEEN;w_INDEX;w_MIDDLE;w_STRAIGHT]);
  (0x1d82d, [w_SIGNWRITING;w_HAND_FIST;w_INDEX;w_MIDDLE;w_CONJOINED;w_THUMB;w_SIDE]);
  (0x1d82e, [w_SIGNWRITING;w_HAND_FIST;w_INDEX;w_MIDDLE;w_CONJOINED;w_THUMB;w_SIDE;w_CONJOINED]);
  (0x1d82f, [w_SIGNWRITING;w_HAND_FIST;w_INDEX;w_MIDDLE;w_CONJOINED;w_THUMB;w_SIDE;w_BENT]);
  (0x1d830, [w_SIGNWRITING;w_HAND_FIST;w_MIDDLE;w_THUMB;w_HOOKED;w_INDEX;w_UP]);
  (0x1d831, [w_SIGNWRITING;w_HAND_FIST;w_INDEX;w_THUMB;w_HOOKED;w_MIDDLE;w_UP]);
  (0x1d832, [w_SIGNWRITING;w_HAND_FIST;w_INDEX;w_MIDDLE;w_CONJOINED;w_HINGED;w_THUMB;w_SIDE]);
  (0x1d833, [w_SIGNWRITING;w_HAND_FIST;w_INDEX;w_MIDDLE;w_CROSSED;w_THUMB;w_SIDE]);
  (0x1d834, [w_SIGNWRITING;w_HAND_FIST;w_INDEX;w_MIDDLE;w_CONJOINED;w_THUMB;w_FORWARD]);
  (0x1d835, [w_SIGNWRITING;w_HAND_FIST;w_INDEX;w_MIDDLE;w_CONJOINED;w_CUPPED;w_THUMB;w_FORWARD]);
  (0x1d836, [w_SIGNWRITING;w_HAND_FIST;w_MIDDLE;w_THUMB;w_CUPPED;w_INDEX;w_UP]);
  (0x1d837, [w_SIGNWRITING;w_HAND_FIST;w_INDEX;w_THUMB;w_CUPPED;w_MIDDLE;w_UP]);
  (0x1d838, [w_SIGNWRITING;w_HAND_FIST;w_MIDDLE;w_THUMB;w_CIRCLED;w_INDEX;w_UP]);
  (0x1d839, [w_SIGNWRITING;w_HAND_FIST;w_MIDDLE;w_THUMB;w_CIRCLED;w_INDEX;w_HINGED]);
  (0x1d83a, [w_SIGNWRITING;w_HAND_FIST;w_INDEX;w_THUMB;w_ANGLED;w_OUT;w_MIDDLE;w_UP]);
  (0x1d83b, [w_SIGNWRITING;w_HAND_FIST;w_INDEX;w_THUMB;w_ANGLED;w_IN;w_MIDDLE;w_UP]);
  (0x1d83c, [w_SIGNWRITING;w_HAND_FIST;w_INDEX;w_THUMB;w_CIRCLED;w_MIDDLE;w_UP]);
  (0x1d83d, [w_SIGNWRITING;w_HAND_FIST;w_INDEX;w_MIDDLE;w_THUMB;w_CONJOINED;w_HINGED]);
  (0x1d83e, [w_SIGNWRITING;w_HAND_FIST;w_INDEX;w_MIDDLE;w_THUMB;w_ANGLED;w_OUT]);
  (0x1d83f, [w_SIGNWRITING;w_HAND_FIST;w_INDEX;w_MIDDLE;w_THUMB;w_ANGLED]);
  (0x1d840, [w_SIGNWRITING;w_HAND_FIST;w_MIDDLE;w_THUMB;w_ANGLED;w_OUT;w_INDEX;w_UP]);
  (0x1d841, [w_SIGNWRITING;w_HAND_FIST;w_MIDDLE;w_THUMB;w_ANGLED;w_OUT;w_INDEX;w_CROSSED]);
  (0x1d842, [w_SIGNWRITING;w_HAND_FIST;w_MIDDLE;w_THUMB;w_ANGLED;w_INDEX;w_UP]);
  (0x1d843, [w_SIGNWRITING;w_HAND_FIST;w_INDEX;w_THUMB;w_HOOKED;w_MIDDLE;w_HINGED]);
  (0x1d844, [w_SIGNWRITING;w_HAND_FLAT;w_FOUR;w_FINGERS]);
  (0x1d845, [w_SIGNWRITING;w_HAND_FLAT;w_FOUR;w_FINGERS;w_BENT]);
  (0x1d846, [w_SIGNWRITING;w_HAND_FLAT;w_FOUR;w_FINGERS;w_HINGED]);
  (0x1d847, [w_SIGNWRITING;w_HAND_FLAT;w_FOUR;w_FINGERS;w_CONJOINED]);
  (0x1d848, [w_SIGNWRITING;w_HAND_FLAT;w_FOUR;w_FINGERS;w_CONJOINED;w_SPLIT]);
  (0x1d849, [w_SIGNWRITING;w_HAND_CLAW;w_FOUR;w_FINGERS;w_CONJOINED]);
  (0x1d84a, [w_SIGNWRITING;w_HAND_FIST;w_FOUR;w_FINGERS;w_CONJOINED;w_BENT]);
  (0x1d84b, [w_SIGNWRITING;w_HAND_HINGE;w_FOUR;w_FINGERS;w_CONJOINED]);
  (0x1d84c, [w_SIGNWRITING;w_HAND_FLAT;w_FIVE;w_FINGERS;w_SPREAD]);
  (0x1d84d, [w_SIGNWRITING;w_HAND_FLAT;w_HEEL;w_FIVE;w_FINGERS;w_SPREAD]);
  (0x1d84e, [w_SIGNWRITING;w_HAND_FLAT;w_FIVE;w_FINGERS;w_SPREAD;w_FOUR;w_BENT]);
  (0x1d84f, [w_SIGNWRITING;w_HAND_FLAT;w_HEEL;w_FIVE;w_FINGERS;w_SPREAD;w_FOUR;w_BENT]);
  (0x1d850, [w_SIGNWRITING;w_HAND_FLAT;w_FIVE;w_FINGERS;w_SPREAD;w_BENT]);
  (0x1d851, [w_SIGNWRITING;w_HAND_FLAT;w_HEEL;w_FIVE;w_FINGERS;w_SPREAD;w_BENT]);
  (0x1d852, [w_SIGNWRITING;w_HAND_FLAT;w_FIVE;w_FINGERS;w_SPREAD;w_THUMB;w_FORWARD]);
  (0x1d853, [w_SIGNWRITING;w_HAND_CUP;w_FIVE;w_FINGERS;w_SPREAD]);
  (0x1d854, [w_SIGNWRITING;w_HAND_CUP;w_FIVE;w_FINGERS;w_SPREAD;w_OPEN]);
  (0x1d855, [w_SIGNWRITING;w_HAND_HINGE;w_FIVE;w_FINGERS;w_SPREAD;w_OPEN]);
  (0x1d856, [w_SIGNWRITING;w_HAND_OVAL;w_FIVE;w_FINGERS;w_SPREAD]);
  (0x1d857, [w_SIGNWRITING;w_HAND_FLAT;w_FIVE;w_FINGERS;w_SPREAD;w_HINGED]);
  (0x1d858, [w_SIGNWRITING;w_HAND_FLAT;w_FIVE;w_FINGERS;w_SPREAD;w_HINGED;w_THUMB;w_SIDE]);
  (0x1d859, [w_SIGNWRITING;w_HAND_FLAT;w_FIVE;w_FINGERS;w_SPREAD;w_HINGED;w_NO;w_THUMB])].

Definition NAMES_69 : list (N * (list str)) := [
  (0x1d85a, [w_SIGNWRITING;w_HAND_FLAT]);
  (0x1d85b, [w_SIGNWRITING;w_HAND_FLAT;w_BETWEEN;w_PALM;w_FACINGS]);
  (0x1d85c, [w_SIGNWRITING;w_HAND_FLAT;w_HEEL]);
  (0x1d85d, [w_SIGNWRITING;w_HAND_FLAT;w_THUMB;w_SIDE]);
  (0x1d85e, [w_SIGNWRITING;w_HAND_FLAT;w_HEEL;w_THUMB;w_SIDE]);
  (0x1d85f, [w_SIGNWRITING;w_HAND_FLAT;w_THUMB;w_BENT]);
  (0x1d860, [w_SIGNWRITING;w_HAND_FLAT;w_THUMB;w_FORWARD]);
  (0x1d861, [w_SIGNWRITING;w_HAND_FLAT;w_SPLIT;w_INDEX;w_THUMB;w_SIDE]);
  (0x1d862, [w_SIGNWRITING;w_HAND_FLAT;w_SPLIT;w_CENTRE]);
  (0x1d863, [w_SIGNWRITING;w_HAND_FLAT;w_SPLIT;w_CENTRE;w_THUMB;w_SIDE]);
  (0x1d864, [w_SIGNWRITING;w_HAND_FLAT;w_SPLIT;w_CENTRE;w_THUMB;w_SIDE;w_BENT]);
  (0x1d865, [w_SIGNWRITING;w_HAND_FLAT;w_SPLIT;w_LITTLE]);
  (0x1d866, [w_SIGNWRITING;w_HAND_CLAW]);
  (0x1d867, [w_SIGNWRITING;w_HAND_CLAW;w_THUMB;w_SIDE]);
  (0x1d868, [w_SIGNWRITING;w_HAND_CLAW;w_NO;w_THUMB]);
  (0x1d869, [w_SIGNWRITING;w_HAND_CLAW;w_THUMB;w_FORWARD]);
  (0x1d86a, [w_SIGNWRITING;w_HAND_HOOK;w_CURLICUE]);
  (0x1d86b, [w_SIGNWRITING;w_HAND_HOOK]);
  (0x1d86c, [w_SIGNWRITING;w_HAND_CUP;w_OPEN]);
  (0x1d86d, [w_SIGNWRITING;w_HAND_CUP]);
  (0x1d86e, [w_SIGNWRITING;w_HAND_CUP;w_OPEN;w_THUMB;w_SIDE]);
  (0x1d86f, [w_SIGNWRITING;w_HAND_CUP;w_THUMB;w_SIDE]);
  (0x1d870, [w_SIGNWRITING;w_HAND_CUP;w_OPEN;w_NO;w_THUMB]);
  (0x1d871, [w_SIGNWRITING;w_HAND_CUP;w_NO;w_THUMB]);
  (0x1d872, [w_SIGNWRITING;w_HAND_CUP;w_OPEN;w_THUMB;w_FORWARD]);
  (0x1d873, [w_SIGNWRITING;w_HAND_CUP;w_THUMB;w_FORWARD]);
  (0x1d874, [w_SIGNWRITING;w_HAND_CURLICUE;w_OPEN]);
  (0x1d875, [w_SIGNWRITING;w_HAND_CURLICUE]);
  (0x1d876, [w_SIGNWRITING;w_HAND_CIRCLE]);
  (0x1d877, [w_SIGNWRITING;w_HAND_OVAL]);
  (0x1d878, [w_SIGNWRITING;w_HAND_OVAL;w_THUMB;w_SIDE]);
  (0x1d879, [w_SIGNWRITING;w_HAND_OVAL;w_NO;w_THUMB]);
  (0x1d87a, [w_SIGNWRITING;w_HAND_OVAL;w_THUMB;w_FORWARD]);
  (0x1d87b, [w_SIGNWRITING;w_HAND_HINGE;w_OPEN]);
  (0x1d87c, [w_SIGNWRITING;w_HAND_HINGE;w_OPEN;w_THUMB;w_FORWARD]);
  (0x1d87d, [w_SIGNWRITING;w_HAND_HINGE]);
  (0x1d87e, [w_SIGNWRITING;w_HAND_HINGE;w_SMALL]);
  (0x1d87f, [w_SIGNWRITING;w_HAND_HINGE;w_OPEN;w_THUMB;w_SIDE]);
  (0x1d880, [w_SIGNWRITING;w_HAND_HINGE;w_THUMB;w_SIDE]);
  (0x1d881, [w_SIGNWRITING;w_HAND_HINGE;w_OPEN;w_NO;w_THUMB]);
  (0x1d882, [w_SIGNWRITING;w_HAND_HINGE;w_NO;w_THUMB]);
  (0x1d883, [w_SIGNWRITING;w_HAND_HINGE;w_THUMB;w_SIDE;w_TOUCHING;w_INDEX]);
  (0x1d884, [w_SIGNWRITING;w_HAND_HINGE;w_THUMB;w_BETWEEN;w_MIDDLE;w_RING]);
  (0x1d885, [w_SIGNWRITING;w_HAND_ANGLE]);
  (0x1d886, [w_SIGNWRITING;w_HAND_FIST;w_INDEX;w_MIDDLE;w_RING]);
  (0x1d887, [w_SIGNWRITING;w_HAND_CIRCLE;w_INDEX;w_MIDDLE;w_RING]);
  (0x1d888, [w_SIGNWRITING;w_HAND_HINGE;w_INDEX;w_MIDDLE;w_RING]);
  (0x1d889, [w_SIGNWRITING;w_HAND_ANGLE;w_INDEX;w_MIDDLE;w_RING]);
  (0x1d88a, [w_SIGNWRITING;w_HAND_HINGE;w_LITTLE]);
  (0x1d88b, [w_SIGNWRITING;w_HAND_FIST;w_INDEX;w_MIDDLE;w_RING;w_BENT]);
  (0x1d88c, [w_SIGNWRITING;w_HAND_FIST;w_INDEX;w_MIDDLE;w_RING;w_CONJOINED]);
  (0x1d88d, [w_SIGNWRITING;w_HAND_HINGE;w_INDEX;w_MIDDLE;w_RING;w_CONJOINED]);
  (0x1d88e, [w_SIGNWRITING;w_HAND_FIST;w_LITTLE;w_DOWN]);
  (0x1d88f, [w_SIGNWRITING;w_HAND_FIST;w_LITTLE;w_DOWN;w_RIPPLE;w_STRAIGHT]);
  (0x1d890, [w_SIGNWRITING;w_HAND_FIST;w_LITTLE;w_DOWN;w_RIPPLE;w_CURVED]);
  (0x1d891, [w_SIGNWRITING;w_HAND_FIST;w_LITTLE;w_DOWN;w_OTHERS;w_CIRCLED]);
  (0x1d892, [w_SIGNWRITING;w_HAND_FIST;w_LITTLE;w_UP]);
  (0x1d893, [w_SIGNWRITING;w_HAND_FIST;w_THUMB;w_UNDER;w_LITTLE;w_UP]);
  (0x1d894, [w_SIGNWRITING;w_HAND_CIRCLE;w_LITTLE;w_UP]);
  (0x1d895, [w_SIGNWRITING;w_HAND_OVAL;w_LITTLE;w_UP]);
  (0x1d896, [w_SIGNWRITING;w_HAND_ANGLE;w_LITTLE;w_UP]);
  (0x1d897, [w_SIGNWRITING;w_HAND_FIST;w_LITTLE;w_RAISED;w_KNUCKLE]);
  (0x1d898, [w_SIGNWRITING;w_HAND_FIST;w_LITTLE;w_BENT]);
  (0x1d899, [w_SIGNWRITING;w_HAND_FIST;w_LITTLE;w_TOUCHES;w_THUMB]);
  (0x1d89a, [w_SIGNWRITING;w_HAND_FIST;w_LITTLE;w_THUMB]);
  (0x1d89b, [w_SIGNWRITING;w_HAND_HINGE;w_LITTLE;w_THUMB]);
  (0x1d89c, [w_SIGNWRITING;w_HAND_FIST;w_LITTLE;w_INDEX;w_THUMB]);
  (0x1d89d, [w_SIGNWRITING;w_HAND_HINGE;w_LITTLE;w_INDEX;w_THUMB]);
  (0x1d89e, [w_SIGNWRITING;w_HAND_ANGLE;w_LITTLE;w_INDEX;w_THUMB;w_INDEX;w_THUMB;w_OUT]);
  (0x1d89f, [w_SIGNWRITING;w_HAND_ANGLE;w_LITTLE;w_INDEX;w_THUMB;w_INDEX;w_THUMB]);
  (0x1d8a0, [w_SIGNWRITING;w_HAND_FIST;w_LITTLE;w_INDEX]);
  (0x1d8a1, [w_SIGNWRITING;w_HAND_CIRCLE;w_LITTLE;w_INDEX]);
  (0x1d8a2, [w_SIGNWRITING;w_HAND_HINGE;w_LITTLE;w_INDEX]);
  (0x1d8a3, [w_SIGNWRITING;w_HAND_ANGLE;w_LITTLE;w_INDEX]);
  (0x1d8a4, [w_SIGNWRITING;w_HAND_FIST;w_INDEX;w_MIDDLE;w_LITTLE]);
  (0x1d8a5, [w_SIGNWRITING;w_HAND_CIRCLE;w_INDEX;w_MIDDLE;w_LITTLE]);
  (0x1d8a6, [w_SIGNWRITING;w_HAND_HINGE;w_INDEX;w_MIDDLE;w_LITTLE]);
  (0x1d8a7, [w_SIGNWRITING;w_HAND_HINGE;w_RING]);
  (0x1d8a8, [w_SIGNWRITING;w_HAND_ANGLE;w_INDEX;w_MIDDLE;w_LITTLE]);
  (0x1d8a9, [w_SIGNWRITING;w_HAND_FIST;w_INDEX;w_MIDDLE;w_CROSS;w_LITTLE]);
  (0x1d8aa, [w_SIGNWRITING;w_HAND_CIRCLE;w_INDEX;w_MIDDLE;w_CROSS;w_LITTLE]);
  (0x1d8ab, [w_SIGNWRITING;w_HAND_FIST;w_RING;w_DOWN]);
  (0x1d8ac, [w_SIGNWRITING;w_HAND_HINGE;w_RING;w_DOWN;w_INDEX;w_THUMB;w_HOOK;w_MIDDLE]);
  (0x1d8ad, [w_SIGNWRITING;w_HAND_ANGLE;w_RING;w_DOWN;w_MIDDLE;w_THUMB;w_INDEX;w_CROSS]);
  (0x1d8ae, [w_SIGNWRITING;w_HAND_FIST;w_RING;w_UP]);
  (0x1d8af, [w_SIGNWRITING;w_HAND_FIST;w_RING;w_RAISED;w_KNUCKLE]);
  (0x1d8b0, [w_SIGNWRITING;w_HAND_FIST;w_RING;w_LITTLE]);
  (0x1d8b1, [w_SIGNWRITING;w_HAND_CIRCLE;w_RING;w_LITTLE]);
  (0x1d8b2, [w_SIGNWRITING;w_HAND_OVAL;w_RING;w_LITTLE]);
  (0x1d8b3, [w_SIGNWRITING;w_HAND_ANGLE;w_RING;w_LITTLE]);
  (0x1d8b4, [w_SIGNWRITING;w_HAND_FIST;w_RING;w_MIDDLE]);
  (0x1d8b5, [w_SIGNWRITING;w_HAND_FIST;w_RING;w_MIDDLE;w_CONJOINED]);
  (0x1d8b6, [w_SIGNWRITING;w_HAND_FIST;w_RING;w_MIDDLE;w_RAISED;w_KNUCKLES]);
  (0x1d8b7, [w_SIGNWRITING;w_HAND_FIST;w_RING;w_INDEX]);
  (0x1d8b8, [w_SIGNWRITING;w_HAND_FIST;w_RING;w_THUMB]);
  (0x1d8b9, [w_SIGNWRITING;w_HAND_HOOK;w_RING;w_THUMB]);
  (0x1d8ba, [w_SIGNWRITING;w_HAND_FIST;w_INDEX;w_RING;w_LITTLE]);
  (0x1d8bb, [w_SIGNWRITING;w_HAND_CIRCLE;w_INDEX;w_RING;w_LITTLE]);
  (0x1d8bc, [w_SIGNWRITING;w_HAND_CURLICUE;w_INDEX;w_RING;w_LITTLE;w_ON]);
  (0x1d8bd, [w_SIGNWRITING;w_HAND_HOOK;w_INDEX;w_RING;w_LITTLE;w_OUT]);
  (0x1d8be, [w_SIGNWRITING;w_HAND_HOOK;w_INDEX;w_RING;w_LITTLE;w_IN]);
  (0x1d8bf, [w_SIGNWRITING;w_HAND_HOOK;w_INDEX;w_RING;w_LITTLE;w_UNDER]);
  (0x1d8c0, [w_SIGNWRITING;w_HAND_CUP;w_INDEX;w_RING;w_LITTLE]);
  (0x1d8c1, [w_SIGNWRITING;w_HAND_HINGE;w_INDEX;w_RING;w_LITTLE]);
  (0x1d8c2, [w_SIGNWRITING;w_HAND_ANGLE;w_INDEX;w_RING;w_LITTLE;w_OUT]);
  (0x1d8c3, [w_SIGNWRITING;w_HAND_ANGLE;w_INDEX;w_RING;w_LITTLE]);
  (0x1d8c4, [w_SIGNWRITING;w_HAND_FIST;w_MIDDLE;w_DOWN]);
  (0x1d8c5, [w_SIGNWRITING;w_HAND_HINGE;w_MIDDLE]);
  (0x1d8c6, [w_SIGNWRITING;w_HAND_FIST;w_MIDDLE;w_UP]);
  (0x1d8c7, [w_SIGNWRITING;w_HAND_CIRCLE;w_MIDDLE;w_UP]);
  (0x1d8c8, [w_SIGNWRITING;w_HAND_FIST;w_MIDDLE;w_RAISED;w_KNUCKLE]);
  (0x1d8c9, [w_SIGNWRITING;w_HAND_FIST;w_MIDDLE;w_UP;w_THUMB;w_SIDE]);
  (0x1d8ca, [w_SIGNWRITING;w_HAND_HOOK;w_MIDDLE;w_THUMB]);
  (0x1d8cb, [w_SIGNWRITING;w_HAND_FIST;w_MIDDLE;w_THUMB;w_LITTLE]);
  (0x1d8cc, [w_SIGNWRITING;w_HAND_FIST;w_MIDDLE;w_LITTLE]);
  (0x1d8cd, [w_SIGNWRITING;w_HAND_FIST;w_MIDDLE;w_RING;w_LITTLE]);
  (0x1d8ce, [w_SIGNWRITING;w_HAND_CIRCLE;w_MIDDLE;w_RING;w_LITTLE]);
  (0x1d8cf, [w_SIGNWRITING;w_HAND_CURLICUE;w_MIDDLE;w_RING;w_LITTLE;w_ON]);
  (0x1d8d0, [w_SIGNWRITING;w_HAND_CUP;w_MIDDLE;w_RING;w_LITTLE]);
  (0x1d8d1, [w_SIGNWRITING;w_HAND_HINGE;w_MIDDLE;w_RING;w_LITTLE]);
  (0x1d8d2, [w_SIGNWRITING;w_HAND_ANGLE;w_MIDDLE;w_RING;w_LITTLE;w_OUT]);
  (0x1d8d3, [w_SIGNWRITING;w_HAND_ANGLE;w_MIDDLE;w_RING;w_LITTLE;w_IN]);
  (0x1d8d4, [w_SIGNWRITING;w_HAND_ANGLE;w_MIDDLE;w_RING;w_LITTLE]);
  (0x1d8d5, [w_SIGNWRITING;w_HAND_CIRCLE;w_MIDDLE;w_RING;w_LITTLE;w_BENT]);
  (0x1d8d6, [w_SIGNWRITING;w_HAND_CLAW;w_MIDDLE;w_RING;w_LITTLE;w_CONJOINED]);
  (0x1d8d7, [w_SIGNWRITING;w_HAND_CLAW;w_MIDDLE;w_RING;w_LITTLE;w_CONJOINED;w_SIDE]);
  (0x1d8d8, [w_SIGNWRITING;w_HAND_HOOK;w_MIDDLE;w_RING;w_LITTLE;w_CONJOINED;w_OUT]);
  (0x1d8d9, [w_SIGNWRITING;w_HAND_HOOK;w_MIDDLE;w_RING;w_LITTLE;w_CONJOINED;w_IN]);
  (0x1d8da, [w_SIGNWRITING;w_HAND_HOOK;w_MIDDLE;w_RING;w_LITTLE;w_CONJOINED]);
  (0x1d8db, [w_SIGNWRITING;w_HAND_HINGE;w_INDEX;w_HINGED]);
  (0x1d8dc, [w_SIGNWRITING;w_HAND_FIST;w_INDEX;w_THUMB;w_SIDE]);
  (0x1d8dd, [w_SIGNWRITING;w_HAND_HINGE;w_INDEX;w_THUMB;w_SIDE]);
  (0x1d8de, [w_SIGNWRITING;w_HAND_FIST;w_INDEX;w_THUMB;w_SIDE;w_THUMB;w_DIAGONAL]);
  (0x1d8df, [w_SIGNWRITING;w_HAND_FIST;w_INDEX;w_THUMB;w_SIDE;w_THUMB;w_CONJOINED]);
  (0x1d8e0, [w_SIGNWRITING;w_HAND_FIST;w_INDEX;w_THUMB;w_SIDE;w_THUMB;w_BENT]);
  (0x1d8e1, [w_SIGNWRITING;w_HAND_FIST;w_INDEX;w_THUMB;w_SIDE;w_INDEX;w_BENT]);
  (0x1d8e2, [w_SIGNWRITING;w_HAND_FIST;w_INDEX;w_THUMB;w_SIDE;w_BOTH;w_BENT]);
  (0x1d8e3, [w_SIGNWRITING;w_HAND_FIST;w_INDEX;w_THUMB;w_SIDE;w_INDEX;w_HINGE]);
  (0x1d8e4, [w_SIGNWRITING;w_HAND_FIST;w_INDEX;w_THUMB;w_FORWARD;w_INDEX;w_STRAIGHT]);
  (0x1d8e5, [w_SIGNWRITING;w_HAND_FIST;w_INDEX;w_THUMB;w_FORWARD;w_INDEX;w_BENT]);
  (0x1d8e6, [w_SIGNWRITING;w_HAND_FIST;w_INDEX;w_THUMB;w_HOOK]);
  (0x1d8e7, [w_SIGNWRITING;w_HAND_FIST;w_INDEX;w_THUMB;w_CURLICUE]);
  (0x1d8e8, [w_SIGNWRITING;w_HAND_FIST;w_INDEX;w_THUMB;w_CURVE;w_THUMB;w_INSIDE]);
  (0x1d8e9, [w_SIGNWRITING;w_HAND_CLAW;w_INDEX;w_THUMB;w_CURVE;w_THUMB;w_INSIDE]);
  (0x1d8ea, [w_SIGNWRITING;w_HAND_FIST;w_INDEX;w_THUMB;w_CURVE;w_THUMB;w_UNDER]);
  (0x1d8eb, [w_SIGNWRITING;w_HAND_FIST;w_INDEX;w_THUMB;w_CIRCLE]);
  (0x1d8ec, [w_SIGNWRITING;w_HAND_CUP;w_INDEX;w_THUMB]);
  (0x1d8ed, [w_SIGNWRITING;w_HAND_CUP;w_INDEX;w_THUMB;w_OPEN]);
  (0x1d8ee, [w_SIGNWRITING;w_HAND_HINGE;w_INDEX;w_THUMB;w_OPEN]);
  (0x1d8ef, [w_SIGNWRITING;w_HAND_HINGE;w_INDEX;w_THUMB;w_LARGE]);
  (0x1d8f0, [w_SIGNWRITING;w_HAND_HINGE;w_INDEX;w_THUMB]);
  (0x1d8f1, [w_SIGNWRITING;w_HAND_HINGE;w_INDEX;w_THUMB;w_SMALL]);
  (0x1d8f2, [w_SIGNWRITING;w_HAND_ANGLE;w_INDEX;w_THUMB;w_OUT]);
  (0x1d8f3, [w_SIGNWRITING;w_HAND_ANGLE;w_INDEX;w_THUMB;w_IN]);
  (0x1d8f4, [w_SIGNWRITING;w_HAND_ANGLE;w_INDEX;w_THUMB]);
  (0x1d8f5, [w_SIGNWRITING;w_HAND_FIST;w_THUMB]);
  (0x1d8f6, [w_SIGNWRITING;w_HAND_FIST;w_THUMB;w_HEEL]);
  (0x1d8f7, [w_SIGNWRITING;w_HAND_FIST;w_THUMB;w_SIDE;w_DIAGONAL]);
  (0x1d8f8, [w_SIGNWRITING;w_HAND_FIST;w_THUMB;w_SIDE;w_CONJOINED]);
  (0x1d8f9, [w_SIGNWRITING;w_HAND_FIST;w_THUMB;w_SIDE;w_BENT]);
  (0x1d8fa, [w_SIGNWRITING;w_HAND_FIST;w_THUMB;w_FORWARD]);
  (0x1d8fb, [w_SIGNWRITING;w_HAND_FIST;w_THUMB;w_BETWEEN;w_INDEX;w_MIDDLE]);
  (0x1d8fc, [w_SIGNWRITING;w_HAND_FIST;w_THUMB;w_BETWEEN;w_MIDDLE;w_RING]);
  (0x1d8fd, [w_SIGNWRITING;w_HAND_FIST;w_THUMB;w_BETWEEN;w_RING;w_LITTLE]);
  (0x1d8fe, [w_SIGNWRITING;w_HAND_FIST;w_THUMB;w_UNDER;w_TWO;w_FINGERS]);
  (0x1d8ff, [w_SIGNWRITING;w_HAND_FIST;w_THUMB;w_OVER;w_TWO;w_FINGERS]);
  (0x1d900, [w_SIGNWRITING;w_HAND_FIST;w_THUMB;w_UNDER;w_THREE;w_FINGERS]);
  (0x1d901, [w_SIGNWRITING;w_HAND_FIST;w_THUMB;w_UNDER;w_FOUR;w_FINGERS]);
  (0x1d902, [w_SIGNWRITING;w_HAND_FIST;w_THUMB;w_OVER;w_FOUR;w_RAISED;w_KNUCKLES]);
  (0x1d903, [w_SIGNWRITING;w_HAND_FIST]);
  (0x1d904, [w_SIGNWRITING;w_HAND_FIST;w_HEEL]);
  (0x1d905, [w_SIGNWRITING;w_TOUCH;w_SINGLE]);
  (0x1d906, [w_SIGNWRITING;w_TOUCH;w_MULTIPLE]);
  (0x1d907, [w_SIGNWRITING;w_TOUCH;w_BETWEEN]);
  (0x1d908, [w_SIGNWRITING;w_GRASP;w_SINGLE]);
  (0x1d909, [w_SIGNWRITING;w_GRASP;w_MULTIPLE]);
  (0x1d90a, [w_SIGNWRITING;w_GRASP;w_BETWEEN]);
  (0x1d90b, [w_SIGNWRITING;w_STRIKE;w_SINGLE]);
  (0x1d90c, [w_SIGNWRITING;w_STRIKE;w_MULTIPLE]);
  (0x1d90d, [w_SIGNWRITING;w_STRIKE;w_BETWEEN]);
  (0x1d90e, [w_SIGNWRITING;w_BRUSH;w_SINGLE]);
  (0x1d90f, [w_SIGNWRITING;w_BRUSH;w_MULTIPLE]);
  (0x1d910, [w_SIGNWRITING;w_BRUSH;w_BETWEEN]);
  (0x1d911, [w_SIGNWRITING;w_RUB;w_SINGLE]);
  (0x1d912, [w_SIGNWRITING;w_RUB;w_MULTIPLE]);
  (0x1d913, [w_SIGNWRITING;w_RUB;w_BETWEEN]);
  (0x1d914, [w_SIGNWRITING;w_SURFACE;w_SYMBOLS]);
  (0x1d915, [w_SIGNWRITING;w_SURFACE;w_BETWEEN]);
  (0x1d916, [w_SIGNWRITING;w_SQUEEZE;w_LARGE;w_SINGLE]);
  (0x1d917, [w_SIGNWRITING;w_SQUEEZE;w_SMALL;w_SINGLE]);
  (0x1d918, [w_SIGNWRITING;w_SQUEEZE;w_LARGE;w_MULTIPLE]);
  (0x1d919, [w_SIGNWRITING;w_SQUEEZE;w_SMALL;w_MULTIPLE]);
  (0x1d91a, [w_SIGNWRITING;w_SQUEEZE;w_SEQUENTIAL]);
  (0x1d91b, [w_SIGNWRITING;w_FLICK;w_LARGE;w_SINGLE]);
  (0x1d91c, [w_SIGNWRITING;w_FLICK;w_SMALL;w_SINGLE]);
  (0x1d91d, [w_SIGNWRITING;w_FLICK;w_LARGE;w_MULTIPLE]);
  (0x1d91e, [w_SIGNWRITING;w_FLICK;w_SMALL;w_MULTIPLE]);
  (0x1d91f, [w_SIGNWRITING;w_FLICK;w_SEQUENTIAL]);
  (0x1d920, [w_SIGNWRITING;w_SQUEEZE;w_FLICK;w_ALTERNATING]);
  (0x1d921, [w_SIGNWRITING;w_MOVEMENT_HINGE;w_UP;w_DOWN;w_LARGE]);
  (0x1d922, [w_SIGNWRITING;w_MOVEMENT_HINGE;w_UP;w_DOWN;w_SMALL]);
  (0x1d923, [w_SIGNWRITING;w_MOVEMENT_HINGE;w_UP;w_SEQUENTIAL]);
  (0x1d924, [w_SIGNWRITING;w_MOVEMENT_HINGE;w_DOWN;w_SEQUENTIAL]);
  (0x1d925, [w_SIGNWRITING;w_MOVEMENT_HINGE;w_UP;w_DOWN;w_ALTERNATING;w_LARGE]);
  (0x1d926, [w_SIGNWRITING;w_MOVEMENT_HINGE;w_UP;w_DOWN;w_ALTERNATING;w_SMALL]);
  (0x1d927, [w_SIGNWRITING;w_MOVEMENT_HINGE;w_SIDE;w_TO;w_SIDE;w_SCISSORS]);
  (0x1d928, [w_SIGNWRITING;w_MOVEMENT_WALLPLANE;w_FINGER;w_CONTACT]);
  (0x1d929, [w_SIGNWRITING;w_MOVEMENT_FLOORPLANE;w_FINGER;w_CONTACT]);
  (0x1d92a, [w_SIGNWRITING;w_MOVEMENT_WALLPLANE;w_SINGLE;w_STRAIGHT;w_SMALL]);
  (0x1d92b, [w_SIGNWRITING;w_MOVEMENT_WALLPLANE;w_SINGLE;w_STRAIGHT;w_MEDIUM]);
  (0x1d92c, [w_SIGNWRITING;w_MOVEMENT_WALLPLANE;w_SINGLE;w_STRAIGHT;w_LARGE]);
  (0x1d92d, [w_SIGNWRITING;w_MOVEMENT_WALLPLANE;w_SINGLE;w_STRAIGHT;w_LARGEST]);
  (0x1d92e, [w_SIGNWRITING;w_MOVEMENT_WALLPLANE;w_SINGLE;w_WRIST;w_FLEX]);
  (0x1d92f, [w_SIGNWRITING;w_MOVEMENT_WALLPLANE;w_DOUBLE;w_STRAIGHT]);
  (0x1d930, [w_SIGNWRITING;w_MOVEMENT_WALLPLANE;w_DOUBLE;w_WRIST;w_FLEX]);
  (0x1d931, [w_SIGNWRITING;w_MOVEMENT_WALLPLANE;w_DOUBLE;w_ALTERNATING]);
  (0x1d932, [w_SIGNWRITING;w_MOVEMENT_WALLPLANE;w_DOUBLE;w_ALTERNATING;w_WRIST;w_FLEX]);
  (0x1d933, [w_SIGNWRITING;w_MOVEMENT_WALLPLANE;w_CROSS]);
  (0x1d934, [w_SIGNWRITING;w_MOVEMENT_WALLPLANE;w_TRIPLE;w_STRAIGHT;w_MOVEMENT]);
  (0x1d935, [w_SIGNWRITING;w_MOVEMENT_WALLPLANE;w_TRIPLE;w_WRIST;w_FLEX]);
  (0x1d936, [w_SIGNWRITING;w_MOVEMENT_WALLPLANE;w_TRIPLE;w_ALTERNATING]);
  (0x1d937, [w_SIGNWRITING;w_MOVEMENT_WALLPLANE;w_TRIPLE;w_ALTERNATING;w_WRIST;w_FLEX]);
  (0x1d938, [w_SIGNWRITING;w_MOVEMENT_WALLPLANE;w_BEND;w_SMALL]);
  (0x1d939, [w_SIGNWRITING;w_MOVEMENT_WALLPLANE;w_BEND;w_MEDIUM]);
  (0x1d93a, [w_SIGNWRITING;w_MOVEMENT_WALLPLANE;w_BEND;w_LARGE]);
  (0x1d93b, [w_SIGNWRITING;w_MOVEMENT_WALLPLANE;w_CORNER;w_SMALL]);
  (0x1d93c, [w_SIGNWRITING;w_MOVEMENT_WALLPLANE;w_CORNER;w_MEDIUM]);
  (0x1d93d, [w_SIGNWRITING;w_MOVEMENT_WALLPLANE;w_CORNER;w_LARGE]);
  (0x1d93e, [w_SIGNWRITING;w_MOVEMENT_WALLPLANE;w_CORNER;w_ROTATION]);
  (0x1d93f, [w_SIGNWRITING;w_MOVEMENT_WALLPLANE;w_CHECK;w_SMALL]);
  (0x1d940, [w_SIGNWRITING;w_MOVEMENT_WALLPLANE;w_CHECK;w_MEDIUM]);
  (0x1d941, [w_SIGNWRITING;w_MOVEMENT_WALLPLANE;w_CHECK;w_LARGE]);
  (0x1d942, [w_SIGNWRITING;w_MOVEMENT_WALLPLANE;w_BOX;w_SMALL]);
  (0x1d943, [w_SIGNWRITING;w_MOVEMENT_WALLPLANE;w_BOX;w_MEDIUM]);
  (0x1d944, [w_SIGNWRITING;w_MOVEMENT_WALLPLANE;w_BOX;w_LARGE]);
  (0x1d945, [w_SIGNWRITING;w_MOVEMENT_WALLPLANE;w_ZIGZAG;w_SMALL]);
  (0x1d946, [w_SIGNWRITING;w_MOVEMENT_WALLPLANE;w_ZIGZAG;w_MEDIUM]);
  (0x1d947, [w_SIGNWRITING;w_MOVEMENT_WALLPLANE;w_ZIGZAG;w_LARGE]);
  (0x1d948, [w_SIGNWRITING;w_MOVEMENT_WALLPLANE;w_PEAKS;w_SMALL]);
  (0x1d949, [w_SIGNWRITING;w_MOVEMENT_WALLPLANE;w_PEAKS;w_MEDIUM]);
  (0x1d94a, [w_SIGNWRITING;w_MOVEMENT_WALLPLANE;w_PEAKS;w_LARGE]);
  (0x1d94b, [w_SIGNWRITING;w_TRAVEL_WALLPLANE;w_ROTATION_WALLPLANE;w_SINGLE]);
  (0x1d94c, [w_SIGNWRITING;w_TRAVEL_WALLPLANE;w_ROTATION_WALLPLANE;w_DOUBLE]);
  (0x1d94d, [w_SIGNWRITING;w_TRAVEL_WALLPLANE;w_ROTATION_WALLPLANE;w_ALTERNATING]);
  (0x1d94e, [w_SIGNWRITING;w_TRAVEL_WALLPLANE;w_ROTATION_FLOORPLANE;w_SINGLE]);
  (0x1d94f, [w_SIGNWRITING;w_TRAVEL_WALLPLANE;w_ROTATION_FLOORPLANE;w_DOUBLE]);
  (0x1d950, [w_SIGNWRITING;w_TRAVEL_WALLPLANE;w_ROTATION_FLOORPLANE;w_ALTERNATING]);
  (0x1d951, [w_SIGNWRITING;w_TRAVEL_WALLPLANE;w_SHAKING]);
  (0x1d952, [w_SIGNWRITING;w_TRAVEL_WALLPLANE;w_ARM;w_SPIRAL;w_SINGLE]);
  (0x1d953, [w_SIGNWRITING;w_TRAVEL_WALLPLANE;w_ARM;w_SPIRAL;w_DOUBLE]);
  (0x1d954, [w_SIGNWRITING;w_TRAVEL_WALLPLANE;w_ARM;w_SPIRAL;w_TRIPLE]);
  (0x1d955, [w_SIGNWRITING;w_MOVEMENT_DIAGONAL;w_AWAY;w_SMALL]);
  (0x1d956, [w_SIGNWRITING;w_MOVEMENT_DIAGONAL;w_AWAY;w_MEDIUM]);
  (0x1d957, [w_SIGNWRITING;w_MOVEMENT_DIAGONAL;w_AWAY;w_LARGE]);
  (0x1d958, [w_SIGNWRITING;w_MOVEMENT_DIAGONAL;w_AWAY;w_LARGEST]);
  (0x1d959, [w_SIGNWRITING;w_MOVEMENT_DIAGONAL;w_TOWARDS;w_SMALL]);
  (0x1d95a, [w_SIGNWRITING;w_MOVEMENT_DIAGONAL;w_TOWARDS;w_MEDIUM]);
  (0x1d95b, [w_SIGNWRITING;w_MOVEMENT_DIAGONAL;w_TOWARDS;w_LARGE]);
  (0x1d95c, [w_SIGNWRITING;w_MOVEMENT_DIAGONAL;w_TOWARDS;w_LARGEST]);
  (0x1d95d, [w_SIGNWRITING;w_MOVEMENT_DIAGONAL;w_BETWEEN;w_AWAY;w_SMALL]);
  (0x1d95e, [w_SIGNWRITING;w_MOVEMENT_DIAGONAL;w_BETWEEN;w_AWAY;w_MEDIUM]);
  (0x1d95f, [w_SIGNWRITING;w_MOVEMENT_DIAGONAL;w_BETWEEN;w_AWAY;w_LARGE]);
  (0x1d960, [w_SIGNWRITING;w_MOVEMENT_DIAGONAL;w_BETWEEN;w_AWAY;w_LARGEST]);
  (0x1d961, [w_SIGNWRITING;w_MOVEMENT_DIAGONAL;w_BETWEEN;w_TOWARDS;w_SMALL]);
  (0x1d962, [w_SIGNWRITING;w_MOVEMENT_DIAGONAL;w_BETWEEN;w_TOWARDS;w_MEDIUM]);
  (0x1d963, [w_SIGNWRITING;w_MOVEMENT_DIAGONAL;w_BETWEEN;w_TOWARDS;w_LARGE]);
  (0x1d964, [w_SIGNWRITING;w_MOVEMENT_DIAGONAL;w_BETWEEN;w_TOWARDS;w_LARGEST]);
  (0x1d965, [w_SIGNWRITING;w_MOVEMENT_FLOORPLANE;w_SINGLE;w_STRAIGHT;w_SMALL]);
  (0x1d966, [w_SIGNWRITING;w_MOVEMENT_FLOORPLANE;w_SINGLE;w_STRAIGHT;w_MEDIUM]);
  (0x1d967, [w_SIGNWRITING;w_MOVEMENT_FLOORPLANE;w_SINGLE;w_STRAIGHT;w_LARGE]);
  (0x1d968, [w_SIGNWRITING;w_MOVEMENT_FLOORPLANE;w_SINGLE;w_STRAIGHT;w_LARGEST]);
  (0x1d969, [w_SIGNWRITING;w_MOVEMENT_FLOORPLANE;w_SINGLE;w_WRIST;w_FLEX]);
  (0x1d96a, [w_SIGNWRITING;w_MOVEMENT_FLOORPLANE;w_DOUBLE;w_STRAIGHT]);
  (0x1d96b, [w_SIGNWRITING;w_MOVEMENT_FLOORPLANE;w_DOUBLE;w_WRIST;w_FLEX]);
  (0x1d96c, [w_SIGNWRITING;w_MOVEMENT_FLOORPLANE;w_DOUBLE;w_ALTERNATING]);
  (0x1d96d, [w_SIGNWRITING;w_MOVEMENT_FLOORPLANE;w_DOUBLE;w_ALTERNATING;w_WRIST;w_FLEX]);
  (0x1d96e, [w_SIGNWRITING;w_MOVEMENT_FLOORPLANE;w_CROSS]);
  (0x1d96f, [w_SIGNWRITING;w_MOVEMENT_FLOORPLANE;w_TRIPLE;w_STRAIGHT;w_MOVEMENT]);
  (0x1d970, [w_SIGNWRITING;w_MOVEMENT_FLOORPLANE;w_TRIPLE;w_WRIST;w_FLEX]);
  (0x1d971, [w_SIGNWRITING;w_MOVEMENT_FLOORPLANE;w_TRIPLE;w_ALTERNATING;w_MOVEMENT]);
  (0x1d972, [w_SIGNWRITING;w_MOVEMENT_FLOORPLANE;w_TRIPLE;w_ALTERNATING;w_WRIST;w_FLEX]);
  (0x1d973, [w_SIGNWRITING;w_MOVEMENT_FLOORPLANE;w_BEND]);
  (0x1d974, [w_SIGNWRITING;w_MOVEMENT_FLOORPLANE;w_CORNER;w_SMALL]);
  (0x1d975, [w_SIGNWRITING;w_MOVEMENT_FLOORPLANE;w_CORNER;w_MEDIUM]);
  (0x1d976, [w_SIGNWRITING;w_MOVEMENT_FLOORPLANE;w_CORNER;w_LARGE]);
  (0x1d977, [w_SIGNWRITING;w_MOVEMENT_FLOORPLANE;w_CHECK]);
  (0x1d978, [w_SIGNWRITING;w_MOVEMENT_FLOORPLANE;w_BOX;w_SMALL]);
  (0x1d979, [w_SIGNWRITING;w_MOVEMENT_FLOORPLANE;w_BOX;w_MEDIUM]);
  (0x1d97a, [w_SIGNWRITING;w_MOVEMENT_FLOORPLANE;w_BOX;w_LARGE]);
  (0x1d97b, [w_SIGNWRITING;w_MOVEMENT_FLOORPLANE;w_ZIGZAG;w_SMALL]);
  (0x1d97c, [w_SIGNWRITING;w_MOVEMENT_FLOORPLANE;w_ZIGZAG;w_MEDIUM]);
  (0x1d97d, [w_SIGNWRITING;w_MOVEMENT_FLOORPLANE;w_ZIGZAG;w_LARGE]);
  (0x1d97e, [w_SIGNWRITING;w_MOVEMENT_FLOORPLANE;w_PEAKS;w_SMALL]);
  (0x1d97f, [w_SIGNWRITING;w_MOVEMENT_FLOORPLANE;w_PEAKS;w_MEDIUM]);
  (0x1d980, [w_SIGNWRITING;w_MOVEMENT_FLOORPLANE;w_PEAKS;w_LARGE]);
  (0x1d981, [w_SIGNWRITING;w_TRAVEL_FLOORPLANE;w_ROTATION_FLOORPLANE;w_SINGLE]);
  (0x1d982, [w_SIGNWRITING;w_TRAVEL_FLOORPLANE;w_ROTATION_FLOORPLANE;w_DOUBLE]);
  (0x1d983, [w_SIGNWRITING;w_TRAVEL_FLOORPLANE;w_ROTATION_FLOORPLANE;w_ALTERNATING]);
  (0x1d984, [w_SIGNWRITING;w_TRAVEL_FLOORPLANE;w_ROTATION_WALLPLANE;w_SINGLE]);
  (0x1d985, [w_SIGNWRITING;w_TRAVEL_FLOORPLANE;w_ROTATION_WALLPLANE;w_DOUBLE]);
  (0x1d986, [w_SIGNWRITING;w_TRAVEL_FLOORPLANE;w_ROTATION_WALLPLANE;w_ALTERNATING]);
  (0x1d987, [w_SIGNWRITING;w_TRAVEL_FLOORPLANE;w_SHAKING]);
  (0x1d988, [w_SIGNWRITING;w_MOVEMENT_WALLPLANE;w_CURVE;w_QUARTER;w_SMALL]);
  (0x1d989, [w_SIGNWRITING;w_MOVEMENT_WALLPLANE;w_CURVE;w_QUARTER;w_MEDIUM]);
  (0x1d98a, [w_SIGNWRITING;w_MOVEMENT_WALLPLANE;w_CURVE;w_QUARTER;w_LARGE]);
  (0x1d98b, [w_SIGNWRITING;w_MOVEMENT_WALLPLANE;w_CURVE;w_QUARTER;w_LARGEST]);
  (0x1d98c, [w_SIGNWRITING;w_MOVEMENT_WALLPLANE;w_CURVE;w_HALF_CIRCLE;w_SMALL]);
  (0x1d98d, [w_SIGNWRITING;w_MOVEMENT_WALLPLANE;w_CURVE;w_HALF_CIRCLE;w_MEDIUM]);
  (0x1d98e, [w_SIGNWRITING;w_MOVEMENT_WALLPLANE;w_CURVE;w_HALF_CIRCLE;w_LARGE]);
  (0x1d98f, [w_SIGNWRITING;w_MOVEMENT_WALLPLANE;w_CURVE;w_HALF_CIRCLE;w_LARGEST]);
  (0x1d990, [w_SIGNWRITING;w_MOVEMENT_WALLPLANE;w_CURVE;w_THREE_QUARTER;w_CIRCLE;w_SMALL]);
  (0x1d991, [w_SIGNWRITING;w_MOVEMENT_WALLPLANE;w_CURVE;w_THREE_QUARTER;w_CIRCLE;w_MEDIUM]);
  (0x1d992, [w_SIGNWRITING;w_MOVEMENT_WALLPLANE;w_HUMP;w_SMALL]);
  (0x1d993, [w_SIGNWRITING;w_MOVEMENT_WALLPLANE;w_HUMP;w_MEDIUM]);
  (0x1d994, [w_SIGNWRITING;w_MOVEMENT_WALLPLANE;w_HUMP;w_LARGE]);
  (0x1d995, [w_SIGNWRITING;w_MOVEMENT_WALLPLANE;w_LOOP;w_SMALL]);
  (0x1d996, [w_SIGNWRITING;w_MOVEMENT_WALLPLANE;w_LOOP;w_MEDIUM]);
  (0x1d997, [w_SIGNWRITING;w_MOVEMENT_WALLPLANE;w_LOOP;w_LARGE]);
  (0x1d998, [w_SIGNWRITING;w_MOVEMENT_WALLPLANE;w_LOOP;w_SMALL;w_DOUBLE]);
  (0x1d999, [w_SIGNWRITING;w_MOVEMENT_WALLPLANE;w_WAVE;w_CURVE;w_DOUBLE;w_SMALL]);
  (0x1d99a, [w_SIGNWRITING;w_MOVEMENT_WALLPLANE;w_WAVE;w_CURVE;w_DOUBLE;w_MEDIUM]);
  (0x1d99b, [w_SIGNWRITING;w_MOVEMENT_WALLPLANE;w_WAVE;w_CURVE;w_DOUBLE;w_LARGE]);
  (0x1d99c, [w_SIGNWRITING;w_MOVEMENT_WALLPLANE;w_WAVE;w_CURVE;w_TRIPLE;w_SMALL]);
  (0x1d99d, [w_SIGNWRITING;w_MOVEMENT_WALLPLANE;w_WAVE;w_CURVE;w_TRIPLE;w_MEDIUM]);
  (0x1d99e, [w_SIGNWRITING;w_MOVEMENT_WALLPLANE;w_WAVE;w_CURVE;w_TRIPLE;w_LARGE]);
  (0x1d99f, [w_SIGNWRITING;w_MOVEMENT_WALLPLANE;w_CURVE;w_THEN;w_STRAIGHT]);
  (0x1d9a0, [w_SIGNWRITING;w_MOVEMENT_WALLPLANE;w_CURVED;w_CROSS;w_SMALL]);
  (0x1d9a1, [w_SIGNWRITING;w_MOVEMENT_WALLPLANE;w_CURVED;w_CROSS;w_MEDIUM]);
  (0x1d9a2, [w_SIGNWRITING;w_ROTATION_WALLPLANE;w_SINGLE]);
  (0x1d9a3, [w_SIGNWRITING;w_ROTATION_WALLPLANE;w_DOUBLE]);
  (0x1d9a4, [w_SIGNWRITING;w_ROTATION_WALLPLANE;w_ALTERNATE]);
  (0x1d9a5, [w_SIGNWRITING;w_MOVEMENT_WALLPLANE;w_SHAKING]);
  (0x1d9a6, [w_SIGNWRITING;w_MOVEMENT_WALLPLANE;w_CURVE;w_HITTING;w_FRONT;w_WALL]);
  (0x1d9a7, [w_SIGNWRITING;w_MOVEMENT_WALLPLANE;w_HUMP;w_HITTING;w_FRONT;w_WALL]);
  (0x1d9a8, [w_SIGNWRITING;w_MOVEMENT_WALLPLANE;w_LOOP;w_HITTING;w_FRONT;w_WALL]);
  (0x1d9a9, [w_SIGNWRITING;w_MOVEMENT_WALLPLANE;w_WAVE;w_HITTING;w_FRONT;w_WALL]);
  (0x1d9aa, [w_SIGNWRITING;w_ROTATION_WALLPLANE;w_SINGLE;w_HITTING;w_FRONT;w_WALL]);
  (0x1d9ab, [w_SIGNWRITING;w_ROTATION_WALLPLANE;w_DOUBLE;w_HITTING;w_FRONT;w_WALL]);
  (0x1d9ac, [w_SIGNWRITING;w_ROTATION_WALLPLANE;w_ALTERNATING;w_HITTING;w_FRONT;w_WALL]);
  (0x1d9ad, [w_SIGNWRITING;w_MOVEMENT_WALLPLANE;w_CURVE;w_HITTING;w_CHEST]);
  (0x1d9ae, [w_SIGNWRITING;w_MOVEMENT_WALLPLANE;w_HUMP;w_HITTING;w_CHEST]);
  (0x1d9af, [w_SIGNWRITING;w_MOVEMENT_WALLPLANE;w_LOOP;w_HITTING;w_CHEST]);
  (0x1d9b0, [w_SIGNWRITING;w_MOVEMENT_WALLPLANE;w_WAVE;w_HITTING;w_CHEST]);
  (0x1d9b1, [w_SIGNWRITING;w_ROTATION_WALLPLANE;w_SINGLE;w_HITTING;w_CHEST]);
  (0x1d9b2, [w_SIGNWRITING;w_ROTATION_WALLPLANE;w_DOUBLE;w_HITTING;w_CHEST]);
  (0x1d9b3, [w_SIGNWRITING;w_ROTATION_WALLPLANE;w_ALTERNATING;w_HITTING;w_CHEST]);
  (0x1d9b4, [w_SIGNWRITING;w_MOVEMENT_WALLPLANE;w_WAVE;w_DIAGONAL;w_PATH;w_SMALL]);
  (0x1d9b5, [w_SIGNWRITING;w_MOVEMENT_WALLPLANE;w_WAVE;w_DIAGONAL;w_PATH;w_MEDIUM]);
  (0x1d9b6, [w_SIGNWRITING;w_MOVEMENT_WALLPLANE;w_WAVE;w_DIAGONAL;w_PATH;w_LARGE]);
  (0x1d9b7, [w_SIGNWRITING;w_MOVEMENT_FLOORPLANE;w_CURVE;w_HITTING;w_CEILING;w_SMALL]);
  (0x1d9b8, [w_SIGNWRITING;w_MOVEMENT_FLOORPLANE;w_CURVE;w_HITTING;w_CEILING;w_LARGE]);
  (0x1d9b9, [w_SIGNWRITING;w_MOVEMENT_FLOORPLANE;w_HUMP;w_HITTING;w_CEILING;w_SMALL;w_DOUBLE]);
  (0x1d9ba, [w_SIGNWRITING;w_MOVEMENT_FLOORPLANE;w_HUMP;w_HITTING;w_CEILING;w_LARGE;w_DOUBLE]);
  (0x1d9bb, [w_SIGNWRITING;w_MOVEMENT_FLOORPLANE;w_HUMP;w_HITTING;w_CEILING;w_SMALL;w_TRIPLE]);
  (0x1d9bc, [w_SIGNWRITING;w_MOVEMENT_FLOORPLANE;w_HUMP;w_HITTING;w_CEILING;w_LARGE;w_TRIPLE]);
  (0x1d9bd, [w_SIGNWRITING;w_MOVEMENT_FLOORPLANE;w_LOOP;w_HITTING;w_CEILING;w_SMALL;w_SINGLE]);
  (0x1d9be, [w_SIGNWRITING;w_MOVEMENT_FLOORPLANE;w_LOOP;w_HITTING;w_CEILING;w_LARGE;w_SINGLE]);
  (0x1d9bf, [w_SIGNWRITING;w_MOVEMENT_FLOORPLANE;w_LOOP;w_HITTING;w_CEILING;w_SMALL;w_DOUBLE]);
  (0x1d9c0, [w_SIGNWRITING;w_MOVEMENT_FLOORPLANE;w_LOOP;w_HITTING;w_CEILING;w_LARGE;w_DOUBLE]);
  (0x1d9c1, [w_SIGNWRITING;w_MOVEMENT_FLOORPLANE;w_WAVE;w_HITTING;w_CEILING;w_SMALL]);
  (0x1d9c2, [w_SIGNWRITING;w_MOVEMENT_FLOORPLANE;w_WAVE;w_HITTING;w_CEILING;w_LARGE]);
  (0x1d9c3, [w_SIGNWRITING;w_ROTATION_FLOORPLANE;w_SINGLE;w_HITTING;w_CEILING]);
  (0x1d9c4, [w_SIGNWRITING;w_ROTATION_FLOORPLANE;w_DOUBLE;w_HITTING;w_CEILING]);
  (0x1d9c5, [w_SIGNWRITING;w_ROTATION_FLOORPLANE;w_ALTERNATING;w_HITTING;w_CEILING]);
  (0x1d9c6, [w_SIGNWRITING;w_MOVEMENT_FLOORPLANE;w_CURVE;w_HITTING;w_FLOOR;w_SMALL]);
  (0x1d9c7, [w_SIGNWRITING;w_MOVEMENT_FLOORPLANE;w_CURVE;w_HITTING;w_FLOOR;w_LARGE]);
  (0x1d9c8, [w_SIGNWRITING;w_MOVEMENT_FLOORPLANE;w_HUMP;w_HITTING;w_FLOOR;w_SMALL;w_DOUBLE]);
  (0x1d9c9, [w_SIGNWRITING;w_MOVEMENT_FLOORPLANE;w_HUMP;w_HITTING;w_FLOOR;w_LARGE;w_DOUBLE]);
  (0x1d9ca, [w_SIGNWRITING;w_MOVEMENT_FLOORPLANE;w_HUMP;w_HITTING;w_FLOOR;w_TRIPLE;w_SMALL;w_TRIPLE]);
  (0x1d9cb, [w_SIGNWRITING;w_MOVEMENT_FLOORPLANE;w_HUMP;w_HITTING;w_FLOOR;w_TRIPLE;w_LARGE;w_TRIPLE]);
  (0x1d9cc, [w_SIGNWRITING;w_MOVEMENT_FLOORPLANE;w_LOOP;w_HITTING;w_FLOOR;w_SMALL;w_SINGLE]);
  (0x1d9cd, [w_SIGNWRITING;w_MOVEMENT_FLOORPLANE;w_LOOP;w_HITTING;w_FLOOR;w_LARGE;w_SINGLE]);
  (0x1d9ce, [w_SIGNWRITING;w_MOVEMENT_FLOORPLANE;w_LOOP;w_HITTING;w_FLOOR;w_SMALL;w_DOUBLE]);
  (0x1d9cf, [w_SIGNWRITING;w_MOVEMENT_FLOORPLANE;w_LOOP;w_HITTING;w_FLOOR;w_LARGE;w_DOUBLE]);
  (0x1d9d0, [w_SIGNWRITING;w_MOVEMENT_FLOORPLANE;w_WAVE;w_HITTING;w_FLOOR;w_SMALL]);
  (0x1d9d1, [w_SIGNWRITING;w_MOVEMENT_FLOORPLANE;w_WAVE;w_HITTING;w_FLOOR;w_LARGE]);
  (0x1d9d2, [w_SIGNWRITING;w_ROTATION_FLOORPLANE;w_SINGLE;w_HITTING;w_FLOOR]);
  (0x1d9d3, [w_SIGNWRITING;w_ROTATION_FLOORPLANE;w_DOUBLE;w_HITTING;w_FLOOR]);
  (0x1d9d4, [w_SIGNWRITING;w_ROTATION_FLOORPLANE;w_ALTERNATING;w_HITTING;w_FLOOR]);
  (0x1d9d5, [w_SIGNWRITING;w_MOVEMENT_FLOORPLANE;w_CURVE;w_SMALL]);
  (0x1d9d6, [w_SIGNWRITING;w_MOVEMENT_FLOORPLANE;w_CURVE;w_MEDIUM]);
  (0x1d9d7, [w_SIGNWRITING;w_MOVEMENT_FLOORPLANE;w_CURVE;w_LARGE]);
  (0x1d9d8, [w_SIGNWRITING;w_MOVEMENT_FLOORPLANE;w_CURVE;w_LARGEST]);
  (0x1d9d9, [w_SIGNWRITING;w_MOVEMENT_FLOORPLANE;w_CURVE;w_COMBINED]);
  (0x1d9da, [w_SIGNWRITING;w_MOVEMENT_FLOORPLANE;w_HUMP;w_SMALL]);
  (0x1d9db, [w_SIGNWRITING;w_MOVEMENT_FLOORPLANE;w_LOOP;w_SMALL]);
  (0x1d9dc, [w_SIGNWRITING;w_MOVEMENT_FLOORPLANE;w_WAVE;w_SNAKE]);
  (0x1d9dd, [w_SIGNWRITING;w_MOVEMENT_FLOORPLANE;w_WAVE;w_SMALL]);
  (0x1d9de, [w_SIGNWRITING;w_MOVEMENT_FLOORPLANE;w_WAVE;w_LARGE]);
  (0x1d9df, [w_SIGNWRITING;w_ROTATION_FLOORPLANE;w_SINGLE]);
  (0x1d9e0, [w_SIGNWRITING;w_ROTATION_FLOORPLANE;w_DOUBLE]);
  (0x1d9e1, [w_SIGNWRITING;w_ROTATION_FLOORPLANE;w_ALTERNATING]);
  (0x1d9e2, [w_SIGNWRITING;w_MOVEMENT_FLOORPLANE;w_SHAKING;w_PARALLEL]);
  (0x1d9e3, [w_SIGNWRITING;w_MOVEMENT_WALLPLANE;w_ARM;w_CIRCLE;w_SMALL;w_SINGLE]);
  (0x1d9e4, [w_SIGNWRITING;w_MOVEMENT_WALLPLANE;w_ARM;w_CIRCLE;w_MEDIUM;w_SINGLE]);
  (0x1d9e5, [w_SIGNWRITING;w_MOVEMENT_WALLPLANE;w_ARM;w_CIRCLE;w_SMALL;w_DOUBLE]);
  (0x1d9e6, [w_SIGNWRITING;w_MOVEMENT_WALLPLANE;w_ARM;w_CIRCLE;w_MEDIUM;w_DOUBLE]);
  (0x1d9e7, [w_SIGNWRITING;w_MOVEMENT_FLOORPLANE;w_ARM;w_CIRCLE;w_HITTING;w_WALL;w_SMALL;w_SINGLE]);
  (0x1d9e8, [w_SIGNWRITING;w_MOVEMENT_FLOORPLANE;w_ARM;w_CIRCLE;w_HITTING;w_WALL;w_MEDIUM;w_SINGLE]);
  (0x1d9e9, [w_SIGNWRITING;w_MOVEMENT_FLOORPLANE;w_ARM;w_CIRCLE;w_HITTING;w_WALL;w_LARGE;w_SINGLE])].

Definition NAMES_70 : list (N * (list str)) := [
  (0x1d9ea, [w_SIGNWRITING;w_MOVEMENT_FLOORPLANE;w_ARM;w_CIRCLE;w_HITTING;w_WALL;w_SMALL;w_DOUBLE]);
  (0x1d9eb, [w_SIGNWRITING;w_MOVEMENT_FLOORPLANE;w_ARM;w_CIRCLE;w_HITTING;w_WALL;w_MEDIUM;w_DOUBLE]);
  (0x1d9ec, [w_SIGNWRITING;w_MOVEMENT_FLOORPLANE;w_ARM;w_CIRCLE;w_HITTING;w_WALL;w_LARGE;w_DOUBLE]);
  (0x1d9ed, [w_SIGNWRITING;w_MOVEMENT_WALLPLANE;w_WRIST;w_CIRCLE;w_FRONT;w_SINGLE]);
  (0x1d9ee, [w_SIGNWRITING;w_MOVEMENT_WALLPLANE;w_WRIST;w_CIRCLE;w_FRONT;w_DOUBLE]);
  (0x1d9ef, [w_SIGNWRITING;w_MOVEMENT_FLOORPLANE;w_WRIST;w_CIRCLE;w_HITTING;w_WALL;w_SINGLE]);
  (0x1d9f0, [w_SIGNWRITING;w_MOVEMENT_FLOORPLANE;w_WRIST;w_CIRCLE;w_HITTING;w_WALL;w_DOUBLE]);
  (0x1d9f1, [w_SIGNWRITING;w_MOVEMENT_WALLPLANE;w_FINGER;w_CIRCLES;w_SINGLE]);
  (0x1d9f2, [w_SIGNWRITING;w_MOVEMENT_WALLPLANE;w_FINGER;w_CIRCLES;w_DOUBLE]);
  (0x1d9f3, [w_SIGNWRITING;w_MOVEMENT_FLOORPLANE;w_FINGER;w_CIRCLES;w_HITTING;w_WALL;w_SINGLE]);
  (0x1d9f4, [w_SIGNWRITING;w_MOVEMENT_FLOORPLANE;w_FINGER;w_CIRCLES;w_HITTING;w_WALL;w_DOUBLE]);
  (0x1d9f5, [w_SIGNWRITING;w_DYNAMIC;w_ARROWHEAD;w_SMALL]);
  (0x1d9f6, [w_SIGNWRITING;w_DYNAMIC;w_ARROWHEAD;w_LARGE]);
  (0x1d9f7, [w_SIGNWRITING;w_DYNAMIC;w_FAST]);
  (0x1d9f8, [w_SIGNWRITING;w_DYNAMIC;w_SLOW]);
  (0x1d9f9, [w_SIGNWRITING;w_DYNAMIC;w_TENSE]);
  (0x1d9fa, [w_SIGNWRITING;w_DYNAMIC;w_RELAXED]);
  (0x1d9fb, [w_SIGNWRITING;w_DYNAMIC;w_SIMULTANEOUS]);
  (0x1d9fc, [w_SIGNWRITING;w_DYNAMIC;w_SIMULTANEOUS;w_ALTERNATING]);
  (0x1d9fd, [w_SIGNWRITING;w_DYNAMIC;w_EVERY;w_OTHER;w_TIME]);
  (0x1d9fe, [w_SIGNWRITING;w_DYNAMIC;w_GRADUAL]);
  (0x1d9ff, [w_SIGNWRITING;w_HEAD]);
  (0x1da00, [w_SIGNWRITING;w_HEAD;w_RIM]);
  (0x1da01, [w_SIGNWRITING;w_HEAD;w_MOVEMENT_WALLPLANE;w_STRAIGHT]);
  (0x1da02, [w_SIGNWRITING;w_HEAD;w_MOVEMENT_WALLPLANE;w_TILT]);
  (0x1da03, [w_SIGNWRITING;w_HEAD;w_MOVEMENT_FLOORPLANE;w_STRAIGHT]);
  (0x1da04, [w_SIGNWRITING;w_HEAD;w_MOVEMENT_WALLPLANE;w_CURVE]);
  (0x1da05, [w_SIGNWRITING;w_HEAD;w_MOVEMENT_FLOORPLANE;w_CURVE]);
  (0x1da06, [w_SIGNWRITING;w_HEAD;w_MOVEMENT;w_CIRCLE]);
  (0x1da07, [w_SIGNWRITING;w_FACE;w_DIRECTION;w_POSITION;w_NOSE;w_FORWARD;w_TILTING]);
  (0x1da08, [w_SIGNWRITING;w_FACE;w_DIRECTION;w_POSITION;w_NOSE;w_UP;w_OR;w_DOWN]);
  (0x1da09, [w_SIGNWRITING;w_FACE;w_DIRECTION;w_POSITION;w_NOSE;w_UP;w_OR;w_DOWN;w_TILTING]);
  (0x1da0a, [w_SIGNWRITING;w_EYEBROWS;w_STRAIGHT;w_UP]);
  (0x1da0b, [w_SIGNWRITING;w_EYEBROWS;w_STRAIGHT;w_NEUTRAL]);
  (0x1da0c, [w_SIGNWRITING;w_EYEBROWS;w_STRAIGHT;w_DOWN]);
  (0x1da0d, [w_SIGNWRITING;w_DREAMY;w_EYEBROWS;w_NEUTRAL;w_DOWN]);
  (0x1da0e, [w_SIGNWRITING;w_DREAMY;w_EYEBROWS;w_DOWN;w_NEUTRAL]);
  (0x1da0f, [w_SIGNWRITING;w_DREAMY;w_EYEBROWS;w_UP;w_NEUTRAL]);
  (0x1da10, [w_SIGNWRITING;w_DREAMY;w_EYEBROWS;w_NEUTRAL;w_UP]);
  (0x1da11, [w_SIGNWRITING;w_FOREHEAD;w_NEUTRAL]);
  (0x1da12, [w_SIGNWRITING;w_FOREHEAD;w_CONTACT]);
  (0x1da13, [w_SIGNWRITING;w_FOREHEAD;w_WRINKLED]);
  (0x1da14, [w_SIGNWRITING;w_EYES;w_OPEN]);
  (0x1da15, [w_SIGNWRITING;w_EYES;w_SQUEEZED]);
  (0x1da16, [w_SIGNWRITING;w_EYES;w_CLOSED]);
  (0x1da17, [w_SIGNWRITING;w_EYE;w_BLINK;w_SINGLE]);
  (0x1da18, [w_SIGNWRITING;w_EYE;w_BLINK;w_MULTIPLE]);
  (0x1da19, [w_SIGNWRITING;w_EYES;w_HALF;w_OPEN]);
  (0x1da1a, [w_SIGNWRITING;w_EYES;w_WIDE;w_OPEN]);
  (0x1da1b, [w_SIGNWRITING;w_EYES;w_HALF;w_CLOSED]);
  (0x1da1c, [w_SIGNWRITING;w_EYES;w_WIDENING;w_MOVEMENT]);
  (0x1da1d, [w_SIGNWRITING;w_EYE;w_WINK]);
  (0x1da1e, [w_SIGNWRITING;w_EYELASHES;w_UP]);
  (0x1da1f, [w_SIGNWRITING;w_EYELASHES;w_DOWN]);
  (0x1da20, [w_SIGNWRITING;w_EYELASHES;w_FLUTTERING]);
  (0x1da21, [w_SIGNWRITING;w_EYEGAZE_WALLPLANE;w_STRAIGHT]);
  (0x1da22, [w_SIGNWRITING;w_EYEGAZE_WALLPLANE;w_STRAIGHT;w_DOUBLE]);
  (0x1da23, [w_SIGNWRITING;w_EYEGAZE_WALLPLANE;w_STRAIGHT;w_ALTERNATING]);
  (0x1da24, [w_SIGNWRITING;w_EYEGAZE_FLOORPLANE;w_STRAIGHT]);
  (0x1da25, [w_SIGNWRITING;w_EYEGAZE_FLOORPLANE;w_STRAIGHT;w_DOUBLE]);
  (0x1da26, [w_SIGNWRITING;w_EYEGAZE_FLOORPLANE;w_STRAIGHT;w_ALTERNATING]);
  (0x1da27, [w_SIGNWRITING;w_EYEGAZE_WALLPLANE;w_CURVED]);
  (0x1da28, [w_SIGNWRITING;w_EYEGAZE_FLOORPLANE;w_CURVED]);
  (0x1da29, [w_SIGNWRITING;w_EYEGAZE_WALLPLANE;w_CIRCLING]);
  (0x1da2a, [w_SIGNWRITING;w_CHEEKS;w_PUFFED]);
  (0x1da2b, [w_SIGNWRITING;w_CHEEKS;w_NEUTRAL]);
  (0x1da2c, [w_SIGNWRITING;w_CHEEKS;w_SUCKED]);
  (0x1da2d, [w_SIGNWRITING;w_TENSE;w_CHEEKS;w_HIGH]);
  (0x1da2e, [w_SIGNWRITING;w_TENSE;w_CHEEKS;w_MIDDLE]);
  (0x1da2f, [w_SIGNWRITING;w_TENSE;w_CHEEKS;w_LOW]);
  (0x1da30, [w_SIGNWRITING;w_EARS]);
  (0x1da31, [w_SIGNWRITING;w_NOSE;w_NEUTRAL]);
  (0x1da32, [w_SIGNWRITING;w_NOSE;w_CONTACT]);
  (0x1da33, [w_SIGNWRITING;w_NOSE;w_WRINKLES]);
  (0x1da34, [w_SIGNWRITING;w_NOSE;w_WIGGLES]);
  (0x1da35, [w_SIGNWRITING;w_AIR;w_BLOWING;w_OUT]);
  (0x1da36, [w_SIGNWRITING;w_AIR;w_SUCKING;w_IN]);
  (0x1da37, [w_SIGNWRITING;w_AIR;w_BLOW;w_SMALL;w_ROTATIONS]);
  (0x1da38, [w_SIGNWRITING;w_AIR;w_SUCK;w_SMALL;w_ROTATIONS]);
  (0x1da39, [w_SIGNWRITING;w_BREATH;w_INHALE]);
  (0x1da3a, [w_SIGNWRITING;w_BREATH;w_EXHALE]);
  (0x1da3b, [w_SIGNWRITING;w_MOUTH;w_CLOSED;w_NEUTRAL]);
  (0x1da3c, [w_SIGNWRITING;w_MOUTH;w_CLOSED;w_FORWARD]);
  (0x1da3d, [w_SIGNWRITING;w_MOUTH;w_CLOSED;w_CONTACT]);
  (0x1da3e, [w_SIGNWRITING;w_MOUTH;w_SMILE]);
  (0x1da3f, [w_SIGNWRITING;w_MOUTH;w_SMILE;w_WRINKLED]);
  (0x1da40, [w_SIGNWRITING;w_MOUTH;w_SMILE;w_OPEN]);
  (0x1da41, [w_SIGNWRITING;w_MOUTH;w_FROWN]);
  (0x1da42, [w_SIGNWRITING;w_MOUTH;w_FROWN;w_WRINKLED]);
  (0x1da43, [w_SIGNWRITING;w_MOUTH;w_FROWN;w_OPEN]);
  (0x1da44, [w_SIGNWRITING;w_MOUTH;w_OPEN;w_CIRCLE]);
  (0x1da45, [w_SIGNWRITING;w_MOUTH;w_OPEN;w_FORWARD]);
  (0x1da46, [w_SIGNWRITING;w_MOUTH;w_OPEN;w_WRINKLED]);
  (0x1da47, [w_SIGNWRITING;w_MOUTH;w_OPEN;w_OVAL]);
  (0x1da48, [w_SIGNWRITING;w_MOUTH;w_OPEN;w_OVAL;w_WRINKLED]);
  (0x1da49, [w_SIGNWRITING;w_MOUTH;w_OPEN;w_OVAL;w_YAWN]);
  (0x1da4a, [w_SIGNWRITING;w_MOUTH;w_OPEN;w_RECTANGLE]);
  (0x1da4b, [w_SIGNWRITING;w_MOUTH;w_OPEN;w_RECTANGLE;w_WRINKLED]);
  (0x1da4c, [w_SIGNWRITING;w_MOUTH;w_OPEN;w_RECTANGLE;w_YAWN]);
  (0x1da4d, [w_SIGNWRITING;w_MOUTH;w_KISS]);
  (0x1da4e, [w_SIGNWRITING;w_MOUTH;w_KISS;w_FORWARD]);
  (0x1da4f, [w_SIGNWRITING;w_MOUTH;w_KISS;w_WRINKLED]);
  (0x1da50, [w_SIGNWRITING;w_MOUTH;w_TENSE]);
  (0x1da51, [w_SIGNWRITING;w_MOUTH;w_TENSE;w_FORWARD]);
  (0x1da52, [w_SIGNWRITING;w_MOUTH;w_TENSE;w_SUCKED]);
  (0x1da53, [w_SIGNWRITING;w_LIPS;w_PRESSED;w_TOGETHER]);
  (0x1da54, [w_SIGNWRITING;w_LIP;w_LOWER;w_OVER;w_UPPER]);
  (0x1da55, [w_SIGNWRITING;w_LIP;w_UPPER;w_OVER;w_LOWER]);
  (0x1da56, [w_SIGNWRITING;w_MOUTH;w_CORNERS]);
  (0x1da57, [w_SIGNWRITING;w_MOUTH;w_WRINKLES;w_SINGLE]);
  (0x1da58, [w_SIGNWRITING;w_MOUTH;w_WRINKLES;w_DOUBLE]);
  (0x1da59, [w_SIGNWRITING;w_TONGUE;w_STICKING;w_OUT;w_FAR]);
  (0x1da5a, [w_SIGNWRITING;w_TONGUE;w_LICKING;w_LIPS]);
  (0x1da5b, [w_SIGNWRITING;w_TONGUE;w_TIP;w_BETWEEN;w_LIPS]);
  (0x1da5c, [w_SIGNWRITING;w_TONGUE;w_TIP;w_TOUCHING;w_INSIDE;w_MOUTH]);
  (0x1da5d, [w_SIGNWRITING;w_TONGUE;w_INSIDE;w_MOUTH;w_RELAXED]);
  (0x1da5e, [w_SIGNWRITING;w_TONGUE;w_MOVES;w_AGAINST;w_CHEEK]);
  (0x1da5f, [w_SIGNWRITING;w_TONGUE;w_CENTRE;w_STICKING;w_OUT]);
  (0x1da60, [w_SIGNWRITING;w_TONGUE;w_CENTRE;w_INSIDE;w_MOUTH]);
  (0x1da61, [w_SIGNWRITING;w_TEETH]);
  (0x1da62, [w_SIGNWRITING;w_TEETH;w_MOVEMENT]);
  (0x1da63, [w_SIGNWRITING;w_TEETH;w_ON;w_TONGUE]);
  (0x1da64, [w_SIGNWRITING;w_TEETH;w_ON;w_TONGUE;w_MOVEMENT]);
  (0x1da65, [w_SIGNWRITING;w_TEETH;w_ON;w_LIPS]);
  (0x1da66, [w_SIGNWRITING;w_TEETH;w_ON;w_LIPS;w_MOVEMENT]);
  (0x1da67, [w_SIGNWRITING;w_TEETH;w_BITE;w_LIPS]);
  (0x1da68, [w_SIGNWRITING;w_MOVEMENT_WALLPLANE;w_JAW]);
  (0x1da69, [w_SIGNWRITING;w_MOVEMENT_FLOORPLANE;w_JAW]);
  (0x1da6a, [w_SIGNWRITING;w_NECK]);
  (0x1da6b, [w_SIGNWRITING;w_HAIR]);
  (0x1da6c, [w_SIGNWRITING;w_EXCITEMENT]);
  (0x1da6d, [w_SIGNWRITING;w_SHOULDER;w_HIP;w_SPINE]);
  (0x1da6e, [w_SIGNWRITING;w_SHOULDER;w_HIP;w_POSITIONS]);
  (0x1da6f, [w_SIGNWRITING;w_WALLPLANE;w_SHOULDER;w_HIP;w_MOVE]);
  (0x1da70, [w_SIGNWRITING;w_FLOORPLANE;w_SHOULDER;w_HIP;w_MOVE]);
  (0x1da71, [w_SIGNWRITING;w_SHOULDER;w_TILTING;w_FROM;w_WAIST]);
  (0x1da72, [w_SIGNWRITING;w_TORSO_WALLPLANE;w_STRAIGHT;w_STRETCH]);
  (0x1da73, [w_SIGNWRITING;w_TORSO_WALLPLANE;w_CURVED;w_BEND]);
  (0x1da74, [w_SIGNWRITING;w_TORSO_FLOORPLANE;w_TWISTING]);
  (0x1da75, [w_SIGNWRITING;w_UPPER;w_BODY;w_TILTING;w_FROM;w_HIP;w_JOINTS]);
  (0x1da76, [w_SIGNWRITING;w_LIMB;w_COMBINATION]);
  (0x1da77, [w_SIGNWRITING;w_LIMB;w_LENGTH_1]);
  (0x1da78, [w_SIGNWRITING;w_LIMB;w_LENGTH_2]);
  (0x1da79, [w_SIGNWRITING;w_LIMB;w_LENGTH_3]);
  (0x1da7a, [w_SIGNWRITING;w_LIMB;w_LENGTH_4]);
  (0x1da7b, [w_SIGNWRITING;w_LIMB;w_LENGTH_5]);
  (0x1da7c, [w_SIGNWRITING;w_LIMB;w_LENGTH_6]);
  (0x1da7d, [w_SIGNWRITING;w_LIMB;w_LENGTH_7]);
  (0x1da7e, [w_SIGNWRITING;w_FINGER]);
  (0x1da7f, [w_SIGNWRITING;w_LOCATION_WALLPLANE;w_SPACE]);
  (0x1da80, [w_SIGNWRITING;w_LOCATION_FLOORPLANE;w_SPACE]);
  (0x1da81, [w_SIGNWRITING;w_LOCATION;w_HEIGHT]);
  (0x1da82, [w_SIGNWRITING;w_LOCATION;w_WIDTH]);
  (0x1da83, [w_SIGNWRITING;w_LOCATION;w_DEPTH]);
  (0x1da84, [w_SIGNWRITING;w_LOCATION;w_HEAD;w_NECK]);
  (0x1da85, [w_SIGNWRITING;w_LOCATION;w_TORSO]);
  (0x1da86, [w_SIGNWRITING;w_LOCATION;w_LIMBS;w_DIGITS]);
  (0x1da87, [w_SIGNWRITING;w_COMMA]);
  (0x1da88, [w_SIGNWRITING;w_FULL;w_STOP]);
  (0x1da89, [w_SIGNWRITING;w_SEMICOLON]);
  (0x1da8a, [w_SIGNWRITING;w_COLON]);
  (0x1da8b, [w_SIGNWRITING;w_PARENTHESIS]);
  (0x1da9b, [w_SIGNWRITING;w_FILL;w_MODIFIER_2]);
  (0x1da9c, [w_SIGNWRITING;w_FILL;w_MODIFIER_3]);
  (0x1da9d, [w_SIGNWRITING;w_FILL;w_MODIFIER_4]);
  (0x1da9e, [w_SIGNWRITING;w_FILL;w_MODIFIER_5]);
  (0x1da9f, [w_SIGNWRITING;w_FILL;w_MODIFIER_6]);
  (0x1daa1, [w_SIGNWRITING;w_ROTATION;w_MODIFIER_2]);
  (0x1daa2, [w_SIGNWRITING;w_ROTATION;w_MODIFIER_3]);
  (0x1daa3, [w_SIGNWRITING;w_ROTATION;w_MODIFIER_4]);
  (0x1daa4, [w_SIGNWRITING;w_ROTATION;w_MODIFIER_5]);
  (0x1daa5, [w_SIGNWRITING;w_ROTATION;w_MODIFIER_6]);
  (0x1daa6, [w_SIGNWRITING;w_ROTATION;w_MODIFIER_7]);
  (0x1daa7, [w_SIGNWRITING;w_ROTATION;w_MODIFIER_8]);
  (0x1daa8, [w_SIGNWRITING;w_ROTATION;w_MODIFIER_9]);
  (0x1daa9, [w_SIGNWRITING;w_ROTATION;w_MODIFIER_10]);
  (0x1daaa, [w_SIGNWRITING;w_ROTATION;w_MODIFIER_11]);
  (0x1daab, [w_SIGNWRITING;w_ROTATION;w_MODIFIER_12]);
  (0x1daac, [w_SIGNWRITING;w_ROTATION;w_MODIFIER_13]);
  (0x1daad, [w_SIGNWRITING;w_ROTATION;w_MODIFIER_14]);
  (0x1daae, [w_SIGNWRITING;w_ROTATION;w_MODIFIER_15]);
  (0x1daaf, [w_SIGNWRITING;w_ROTATION;w_MODIFIER_16]);
  (0x1e000, [w_COMBINING;w_GLAGOLITIC;w_LETTER;w_AZU]);
  (0x1e001, [w_COMBINING;w_GLAGOLITIC;w_LETTER;w_BUKY]);
  (0x1e002, [w_COMBINING;w_GLAGOLITIC;w_LETTER;w_VEDE]);
  (0x1e003, [w_COMBINING;w_GLAGOLITIC;w_LETTER;w_GLAGOLI]);
  (0x1e004, [w_COMBINING;w_GLAGOLITIC;w_LETTER;w_DOBRO]);
  (0x1e005, [w_COMBINING;w_GLAGOLITIC;w_LETTER;w_YESTU]);
  (0x1e006, [w_COMBINING;w_GLAGOLITIC;w_LETTER;w_ZHIVETE]);
  (0x1e008, [w_COMBINING;w_GLAGOLITIC;w_LETTER;w_ZEMLJA]);
  (0x1e009, [w_COMBINING;w_GLAGOLITIC;w_LETTER;w_IZHE]);
  (0x1e00a, [w_COMBINING;w_GLAGOLITIC;w_LETTER;w_INITIAL;w_IZHE]);
  (0x1e00b, [w_COMBINING;w_GLAGOLITIC;w_LETTER;w_I]);
  (0x1e00c, [w_COMBINING;w_GLAGOLITIC;w_LETTER;w_DJERVI]);
  (0x1e00d, [w_COMBINING;w_GLAGOLITIC;w_LETTER;w_KAKO]);
  (0x1e00e, [w_COMBINING;w_GLAGOLITIC;w_LETTER;w_LJUDIJE]);
  (0x1e00f, [w_COMBINING;w_GLAGOLITIC;w_LETTER;w_MYSLITE]);
  (0x1e010, [w_COMBINING;w_GLAGOLITIC;w_LETTER;w_NASHI]);
  (0x1e011, [w_COMBINING;w_GLAGOLITIC;w_LETTER;w_ONU]);
  (0x1e012, [w_COMBINING;w_GLAGOLITIC;w_LETTER;w_POKOJI]);
  (0x1e013, [w_COMBINING;w_GLAGOLITIC;w_LETTER;w_RITSI]);
  (0x1e014, [w_COMBINING;w_GLAGOLITIC;w_LETTER;w_SLOVO]);
  (0x1e015, [w_COMBINING;w_GLAGOLITIC;w_LETTER;w_TVRIDO]);
  (0x1e016, [w_COMBINING;w_GLAGOLITIC;w_LETTER;w_UKU]);
  (0x1e017, [w_COMBINING;w_GLAGOLITIC;w_LETTER;w_FRITU]);
  (0x1e018, [w_COMBINING;w_GLAGOLITIC;w_LETTER;w_HERU]);
  (0x1e01b, [w_COMBINING;w_GLAGOLITIC;w_LETTER;w_SHTA]);
  (0x1e01c, [w_COMBINING;w_GLAGOLITIC;w_LETTER;w_TSI]);
  (0x1e01d, [w_COMBINING;w_GLAGOLITIC;w_LETTER;w_CHRIVI]);
  (0x1e01e, [w_COMBINING;w_GLAGOLITIC;w_LETTER;w_SHA]);
  (0x1e01f, [w_COMBINING;w_GLAGOLITIC;w_LETTER;w_YERU]);
  (0x1e020, [w_COMBINING;w_GLAGOLITIC;w_LETTER;w_YERI]);
  (0x1e021, [w_COMBINING;w_GLAGOLITIC;w_LETTER;w_YATI]);
  (0x1e023, [w_COMBINING;w_GLAGOLITIC;w_LETTER;w_YU]);
  (0x1e024, [w_COMBINING;w_GLAGOLITIC;w_LETTER;w_SMALL;w_YUS]);
  (0x1e026, [w_COMBINING;w_GLAGOLITIC;w_LETTER;w_YO]);
  (0x1e027, [w_COMBINING;w_GLAGOLITIC;w_LETTER;w_IOTATED;w_SMALL;w_YUS]);
  (0x1e028, [w_COMBINING;w_GLAGOLITIC;w_LETTER;w_BIG;w_YUS]);
  (0x1e029, [w_COMBINING;w_GLAGOLITIC;w_LETTER;w_IOTATED;w_BIG;w_YUS]);
  (0x1e02a, [w_COMBINING;w_GLAGOLITIC;w_LETTER;w_FITA]);
  (0x1e800, [w_MENDE;w_KIKAKUI;w_SYLLABLE;w_M001;w_KI]);
  (0x1e801, [w_MENDE;w_KIKAKUI;w_SYLLABLE;w_M002;w_KA]);
  (0x1e802, [w_MENDE;w_KIKAKUI;w_SYLLABLE;w_M003;w_KU]);
  (0x1e803, [w_MENDE;w_KIKAKUI;w_SYLLABLE;w_M065;w_KEE]);
  (0x1e804, [w_MENDE;w_KIKAKUI;w_SYLLABLE;w_M095;w_KE]);
  (0x1e805, [w_MENDE;w_KIKAKUI;w_SYLLABLE;w_M076;w_KOO]);
  (0x1e806, [w_MENDE;w_KIKAKUI;w_SYLLABLE;w_M048;w_KO]);
  (0x1e807, [w_MENDE;w_KIKAKUI;w_SYLLABLE;w_M179;w_KUA]);
  (0x1e808, [w_MENDE;w_KIKAKUI;w_SYLLABLE;w_M004;w_WI]);
  (0x1e809, [w_MENDE;w_KIKAKUI;w_SYLLABLE;w_M005;w_WA]);
  (0x1e80a, [w_MENDE;w_KIKAKUI;w_SYLLABLE;w_M006;w_WU]);
  (0x1e80b, [w_MENDE;w_KIKAKUI;w_SYLLABLE;w_M126;w_WEE]);
  (0x1e80c, [w_MENDE;w_KIKAKUI;w_SYLLABLE;w_M118;w_WE]);
  (0x1e80d, [w_MENDE;w_KIKAKUI;w_SYLLABLE;w_M114;w_WOO]);
  (0x1e80e, [w_MENDE;w_KIKAKUI;w_SYLLABLE;w_M045;w_WO]);
  (0x1e80f, [w_MENDE;w_KIKAKUI;w_SYLLABLE;w_M194;w_WUI]);
  (0x1e810, [w_MENDE;w_KIKAKUI;w_SYLLABLE;w_M143;w_WEI]);
  (0x1e811, [w_MENDE;w_KIKAKUI;w_SYLLABLE;w_M061;w_WVI]);
  (0x1e812, [w_MENDE;w_KIKAKUI;w_SYLLABLE;w_M049;w_WVA]);
  (0x1e813, [w_MENDE;w_KIKAKUI;w_SYLLABLE;w_M139;w_WVE]);
  (0x1e814, [w_MENDE;w_KIKAKUI;w_SYLLABLE;w_M007;w_MIN]);
  (0x1e815, [w_MENDE;w_KIKAKUI;w_SYLLABLE;w_M008;w_MAN]);
  (0x1e816, [w_MENDE;w_KIKAKUI;w_SYLLABLE;w_M009;w_MUN]);
  (0x1e817, [w_MENDE;w_KIKAKUI;w_SYLLABLE;w_M059;w_MEN]);
  (0x1e818, [w_MENDE;w_KIKAKUI;w_SYLLABLE;w_M094;w_MON]);
  (0x1e819, [w_MENDE;w_KIKAKUI;w_SYLLABLE;w_M154;w_MUAN]);
  (0x1e81a, [w_MENDE;w_KIKAKUI;w_SYLLABLE;w_M189;w_MUEN]);
  (0x1e81b, [w_MENDE;w_KIKAKUI;w_SYLLABLE;w_M010;w_BI]);
  (0x1e81c, [w_MENDE;w_KIKAKUI;w_SYLLABLE;w_M011;w_BA]);
  (0x1e81d, [w_MENDE;w_KIKAKUI;w_SYLLABLE;w_M012;w_BU]);
  (0x1e81e, [w_MENDE;w_KIKAKUI;w_SYLLABLE;w_M150;w_BEE]);
  (0x1e81f, [w_MENDE;w_KIKAKUI;w_SYLLABLE;w_M097;w_BE]);
  (0x1e820, [w_MENDE;w_KIKAKUI;w_SYLLABLE;w_M103;w_BOO]);
  (0x1e821, [w_MENDE;w_KIKAKUI;w_SYLLABLE;w_M138;w_BO]);
  (0x1e822, [w_MENDE;w_KIKAKUI;w_SYLLABLE;w_M013;w_I]);
  (0x1e823, [w_MENDE;w_KIKAKUI;w_SYLLABLE;w_M014;w_A]);
  (0x1e824, [w_MENDE;w_KIKAKUI;w_SYLLABLE;w_M015;w_U]);
  (0x1e825, [w_MENDE;w_KIKAKUI;w_SYLLABLE;w_M163;w_EE]);
  (0x1e826, [w_MENDE;w_KIKAKUI;w_SYLLABLE;w_M100;w_E]);
  (0x1e827, [w_MENDE;w_KIKAKUI;w_SYLLABLE;w_M165;w_OO]);
  (0x1e828, [w_MENDE;w_KIKAKUI;w_SYLLABLE;w_M147;w_O]);
  (0x1e829, [w_MENDE;w_KIKAKUI;w_SYLLABLE;w_M137;w_EI]);
  (0x1e82a, [w_MENDE;w_KIKAKUI;w_SYLLABLE;w_M131;w_IN]);
  (0x1e82b, [w_MENDE;w_KIKAKUI;w_SYLLABLE;w_M135;w_IN]);
  (0x1e82c, [w_MENDE;w_KIKAKUI;w_SYLLABLE;w_M195;w_AN]);
  (0x1e82d, [w_MENDE;w_KIKAKUI;w_SYLLABLE;w_M178;w_EN]);
  (0x1e82e, [w_MENDE;w_KIKAKUI;w_SYLLABLE;w_M019;w_SI]);
  (0x1e82f, [w_MENDE;w_KIKAKUI;w_SYLLABLE;w_M020;w_SA]);
  (0x1e830, [w_MENDE;w_KIKAKUI;w_SYLLABLE;w_M021;w_SU]);
  (0x1e831, [w_MENDE;w_KIKAKUI;w_SYLLABLE;w_M162;w_SEE]);
  (0x1e832, [w_MENDE;w_KIKAKUI;w_SYLLABLE;w_M116;w_SE]);
  (0x1e833, [w_MENDE;w_KIKAKUI;w_SYLLABLE;w_M136;w_SOO]);
  (0x1e834, [w_MENDE;w_KIKAKUI;w_SYLLABLE;w_M079;w_SO]);
  (0x1e835, [w_MENDE;w_KIKAKUI;w_SYLLABLE;w_M196;w_SIA]);
  (0x1e836, [w_MENDE;w_KIKAKUI;w_SYLLABLE;w_M025;w_LI]);
  (0x1e837, [w_MENDE;w_KIKAKUI;w_SYLLABLE;w_M026;w_LA]);
  (0x1e838, [w_MENDE;w_KIKAKUI;w_SYLLABLE;w_M027;w_LU]);
  (0x1e839, [w_MENDE;w_KIKAKUI;w_SYLLABLE;w_M084;w_LEE]);
  (0x1e83a, [w_MENDE;w_KIKAKUI;w_SYLLABLE;w_M073;w_LE]);
  (0x1e83b, [w_MENDE;w_KIKAKUI;w_SYLLABLE;w_M054;w_LOO]);
  (0x1e83c, [w_MENDE;w_KIKAKUI;w_SYLLABLE;w_M153;w_LO]);
  (0x1e83d, [w_MENDE;w_KIKAKUI;w_SYLLABLE;w_M110;w_LONG;w_LE]);
  (0x1e83e, [w_MENDE;w_KIKAKUI;w_SYLLABLE;w_M016;w_DI]);
  (0x1e83f, [w_MENDE;w_KIKAKUI;w_SYLLABLE;w_M017;w_DA]);
  (0x1e840, [w_MENDE;w_KIKAKUI;w_SYLLABLE;w_M018;w_DU]);
  (0x1e841, [w_MENDE;w_KIKAKUI;w_SYLLABLE;w_M089;w_DEE]);
  (0x1e842, [w_MENDE;w_KIKAKUI;w_SYLLABLE;w_M180;w_DOO]);
  (0x1e843, [w_MENDE;w_KIKAKUI;w_SYLLABLE;w_M181;w_DO]);
  (0x1e844, [w_MENDE;w_KIKAKUI;w_SYLLABLE;w_M022;w_TI]);
  (0x1e845, [w_MENDE;w_KIKAKUI;w_SYLLABLE;w_M023;w_TA]);
  (0x1e846, [w_MENDE;w_KIKAKUI;w_SYLLABLE;w_M024;w_TU]);
  (0x1e847, [w_MENDE;w_KIKAKUI;w_SYLLABLE;w_M091;w_TEE]);
  (0x1e848, [w_MENDE;w_KIKAKUI;w_SYLLABLE;w_M055;w_TE]);
  (0x1e849, [w_MENDE;w_KIKAKUI;w_SYLLABLE;w_M104;w_TOO]);
  (0x1e84a, [w_MENDE;w_KIKAKUI;w_SYLLABLE;w_M069;w_TO]);
  (0x1e84b, [w_MENDE;w_KIKAKUI;w_SYLLABLE;w_M028;w_JI]);
  (0x1e84c, [w_MENDE;w_KIKAKUI;w_SYLLABLE;w_M029;w_JA]);
  (0x1e84d, [w_MENDE;w_KIKAKUI;w_SYLLABLE;w_M030;w_JU]);
  (0x1e84e, [w_MENDE;w_KIKAKUI;w_SYLLABLE;w_M157;w_JEE]);
  (0x1e84f, [w_MENDE;w_KIKAKUI;w_SYLLABLE;w_M113;w_JE]);
  (0x1e850, [w_MENDE;w_KIKAKUI;w_SYLLABLE;w_M160;w_JOO]);
  (0x1e851, [w_MENDE;w_KIKAKUI;w_SYLLABLE;w_M063;w_JO]);
  (0x1e852, [w_MENDE;w_KIKAKUI;w_SYLLABLE;w_M175;w_LONG;w_JO]);
  (0x1e853, [w_MENDE;w_KIKAKUI;w_SYLLABLE;w_M031;w_YI]);
  (0x1e854, [w_MENDE;w_KIKAKUI;w_SYLLABLE;w_M032;w_YA]);
  (0x1e855, [w_MENDE;w_KIKAKUI;w_SYLLABLE;w_M033;w_YU]);
  (0x1e856, [w_MENDE;w_KIKAKUI;w_SYLLABLE;w_M109;w_YEE]);
  (0x1e857, [w_MENDE;w_KIKAKUI;w_SYLLABLE;w_M080;w_YE]);
  (0x1e858, [w_MENDE;w_KIKAKUI;w_SYLLABLE;w_M141;w_YOO]);
  (0x1e859, [w_MENDE;w_KIKAKUI;w_SYLLABLE;w_M121;w_YO]);
  (0x1e85a, [w_MENDE;w_KIKAKUI;w_SYLLABLE;w_M034;w_FI]);
  (0x1e85b, [w_MENDE;w_KIKAKUI;w_SYLLABLE;w_M035;w_FA]);
  (0x1e85c, [w_MENDE;w_KIKAKUI;w_SYLLABLE;w_M036;w_FU]);
  (0x1e85d, [w_MENDE;w_KIKAKUI;w_SYLLABLE;w_M078;w_FEE]);
  (0x1e85e, [w_MENDE;w_KIKAKUI;w_SYLLABLE;w_M075;w_FE]);
  (0x1e85f, [w_MENDE;w_KIKAKUI;w_SYLLABLE;w_M133;w_FOO]);
  (0x1e860, [w_MENDE;w_KIKAKUI;w_SYLLABLE;w_M088;w_FO]);
  (0x1e861, [w_MENDE;w_KIKAKUI;w_SYLLABLE;w_M197;w_FUA]);
  (0x1e862, [w_MENDE;w_KIKAKUI;w_SYLLABLE;w_M101;w_FAN]);
  (0x1e863, [w_MENDE;w_KIKAKUI;w_SYLLABLE;w_M037;w_NIN]);
  (0x1e864, [w_MENDE;w_KIKAKUI;w_SYLLABLE;w_M038;w_NAN]);
  (0x1e865, [w_MENDE;w_KIKAKUI;w_SYLLABLE;w_M039;w_NUN]);
  (0x1e866, [w_MENDE;w_KIKAKUI;w_SYLLABLE;w_M117;w_NEN]);
  (0x1e867, [w_MENDE;w_KIKAKUI;w_SYLLABLE;w_M169;w_NON]);
  (0x1e868, [w_MENDE;w_KIKAKUI;w_SYLLABLE;w_M176;w_HI]);
  (0x1e869, [w_MENDE;w_KIKAKUI;w_SYLLABLE;w_M041;w_HA]);
  (0x1e86a, [w_MENDE;w_KIKAKUI;w_SYLLABLE;w_M186;w_HU]);
  (0x1e86b, [w_MENDE;w_KIKAKUI;w_SYLLABLE;w_M040;w_HEE]);
  (0x1e86c, [w_MENDE;w_KIKAKUI;w_SYLLABLE;w_M096;w_HE]);
  (0x1e86d, [w_MENDE;w_KIKAKUI;w_SYLLABLE;w_M042;w_HOO]);
  (0x1e86e, [w_MENDE;w_KIKAKUI;w_SYLLABLE;w_M140;w_HO]);
  (0x1e86f, [w_MENDE;w_KIKAKUI;w_SYLLABLE;w_M083;w_HEEI]);
  (0x1e870, [w_MENDE;w_KIKAKUI;w_SYLLABLE;w_M128;w_HOOU]);
  (0x1e871, [w_MENDE;w_KIKAKUI;w_SYLLABLE;w_M053;w_HIN]);
  (0x1e872, [w_MENDE;w_KIKAKUI;w_SYLLABLE;w_M130;w_HAN]);
  (0x1e873, [w_MENDE;w_KIKAKUI;w_SYLLABLE;w_M087;w_HUN]);
  (0x1e874, [w_MENDE;w_KIKAKUI;w_SYLLABLE;w_M052;w_HEN]);
  (0x1e875, [w_MENDE;w_KIKAKUI;w_SYLLABLE;w_M193;w_HON]);
  (0x1e876, [w_MENDE;w_KIKAKUI;w_SYLLABLE;w_M046;w_HUAN]);
  (0x1e877, [w_MENDE;w_KIKAKUI;w_SYLLABLE;w_M090;w_NGGI]);
  (0x1e878, [w_MENDE;w_KIKAKUI;w_SYLLABLE;w_M043;w_NGGA]);
  (0x1e879, [w_MENDE;w_KIKAKUI;w_SYLLABLE;w_M082;w_NGGU]);
  (0x1e87a, [w_MENDE;w_KIKAKUI;w_SYLLABLE;w_M115;w_NGGEE]);
  (0x1e87b, [w_MENDE;w_KIKAKUI;w_SYLLABLE;w_M146;w_NGGE]);
  (0x1e87c, [w_MENDE;w_KIKAKUI;w_SYLLABLE;w_M156;w_NGGOO]);
  (0x1e87d, [w_MENDE;w_KIKAKUI;w_SYLLABLE;w_M120;w_NGGO]);
  (0x1e87e, [w_MENDE;w_KIKAKUI;w_SYLLABLE;w_M159;w_NGGAA]);
  (0x1e87f, [w_MENDE;w_KIKAKUI;w_SYLLABLE;w_M127;w_NGGUA]);
  (0x1e880, [w_MENDE;w_KIKAKUI;w_SYLLABLE;w_M086;w_LONG;w_NGGE]);
  (0x1e881, [w_MENDE;w_KIKAKUI;w_SYLLABLE;w_M106;w_LONG;w_NGGOO]);
  (0x1e882, [w_MENDE;w_KIKAKUI;w_SYLLABLE;w_M183;w_LONG;w_NGGO]);
  (0x1e883, [w_MENDE;w_KIKAKUI;w_SYLLABLE;w_M155;w_GI]);
  (0x1e884, [w_MENDE;w_KIKAKUI;w_SYLLABLE;w_M111;w_GA]);
  (0x1e885, [w_MENDE;w_KIKAKUI;w_SYLLABLE;w_M168;w_GU]);
  (0x1e886, [w_MENDE;w_KIKAKUI;w_SYLLABLE;w_M190;w_GEE]);
  (0x1e887, [w_MENDE;w_KIKAKUI;w_SYLLABLE;w_M166;w_GUEI]);
  (0x1e888, [w_MENDE;w_KIKAKUI;w_SYLLABLE;w_M167;w_GUAN]);
  (0x1e889, [w_MENDE;w_KIKAKUI;w_SYLLABLE;w_M184;w_NGEN]);
  (0x1e88a, [w_MENDE;w_KIKAKUI;w_SYLLABLE;w_M057;w_NGON]);
  (0x1e88b, [w_MENDE;w_KIKAKUI;w_SYLLABLE;w_M177;w_NGUAN]);
  (0x1e88c, [w_MENDE;w_KIKAKUI;w_SYLLABLE;w_M068;w_PI]);
  (0x1e88d, [w_MENDE;w_KIKAKUI;w_SYLLABLE;w_M099;w_PA]);
  (0x1e88e, [w_MENDE;w_KIKAKUI;w_SYLLABLE;w_M050;w_PU]);
  (0x1e88f, [w_MENDE;w_KIKAKUI;w_SYLLABLE;w_M081;w_PEE]);
  (0x1e890, [w_MENDE;w_KIKAKUI;w_SYLLABLE;w_M051;w_PE]);
  (0x1e891, [w_MENDE;w_KIKAKUI;w_SYLLABLE;w_M102;w_POO]);
  (0x1e892, [w_MENDE;w_KIKAKUI;w_SYLLABLE;w_M066;w_PO]);
  (0x1e893, [w_MENDE;w_KIKAKUI;w_SYLLABLE;w_M145;w_MBI]);
  (0x1e894, [w_MENDE;w_KIKAKUI;w_SYLLABLE;w_M062;w_MBA]);
  (0x1e895, [w_MENDE;w_KIKAKUI;w_SYLLABLE;w_M122;w_MBU]);
  (0x1e896, [w_MENDE;w_KIKAKUI;w_SYLLABLE;w_M047;w_MBEE]);
  (0x1e897, [w_MENDE;w_KIKAKUI;w_SYLLABLE;w_M188;w_MBEE]);
  (0x1e898, [w_MENDE;w_KIKAKUI;w_SYLLABLE;w_M072;w_MBE]);
  (0x1e899, [w_MENDE;w_KIKAKUI;w_SYLLABLE;w_M172;w_MBOO]);
  (0x1e89a, [w_MENDE;w_KIKAKUI;w_SYLLABLE;w_M174;w_MBO]);
  (0x1e89b, [w_MENDE;w_KIKAKUI;w_SYLLABLE;w_M187;w_MBUU]);
  (0x1e89c, [w_MENDE;w_KIKAKUI;w_SYLLABLE;w_M161;w_LONG;w_MBE]);
  (0x1e89d, [w_MENDE;w_KIKAKUI;w_SYLLABLE;w_M105;w_LONG;w_MBOO]);
  (0x1e89e, [w_MENDE;w_KIKAKUI;w_SYLLABLE;w_M142;w_LONG;w_MBO]);
  (0x1e89f, [w_MENDE;w_KIKAKUI;w_SYLLABLE;w_M132;w_KPI]);
  (0x1e8a0, [w_MENDE;w_KIKAKUI;w_SYLLABLE;w_M092;w_KPA]);
  (0x1e8a1, [w_MENDE;w_KIKAKUI;w_SYLLABLE;w_M074;w_KPU]);
  (0x1e8a2, [w_MENDE;w_KIKAKUI;w_SYLLABLE;w_M044;w_KPEE]);
  (0x1e8a3, [w_MENDE;w_KIKAKUI;w_SYLLABLE;w_M108;w_KPE]);
  (0x1e8a4, [w_MENDE;w_KIKAKUI;w_SYLLABLE;w_M112;w_KPOO]);
  (0x1e8a5, [w_MENDE;w_KIKAKUI;w_SYLLABLE;w_M158;w_KPO]);
  (0x1e8a6, [w_MENDE;w_KIKAKUI;w_SYLLABLE;w_M124;w_GBI]);
  (0x1e8a7, [w_MENDE;w_KIKAKUI;w_SYLLABLE;w_M056;w_GBA]);
  (0x1e8a8, [w_MENDE;w_KIKAKUI;w_SYLLABLE;w_M148;w_GBU]);
  (0x1e8a9, [w_MENDE;w_KIKAKUI;w_SYLLABLE;w_M093;w_GBEE]);
  (0x1e8aa, [w_MENDE;w_KIKAKUI;w_SYLLABLE;w_M107;w_GBE]);
  (0x1e8ab, [w_MENDE;w_KIKAKUI;w_SYLLABLE;w_M071;w_GBOO]);
  (0x1e8ac, [w_MENDE;w_KIKAKUI;w_SYLLABLE;w_M070;w_GBO]);
  (0x1e8ad, [w_MENDE;w_KIKAKUI;w_SYLLABLE;w_M171;w_RA]);
  (0x1e8ae, [w_MENDE;w_KIKAKUI;w_SYLLABLE;w_M123;w_NDI]);
  (0x1e8af, [w_MENDE;w_KIKAKUI;w_SYLLABLE;w_M129;w_NDA]);
  (0x1e8b0, [w_MENDE;w_KIKAKUI;w_SYLLABLE;w_M125;w_NDU]);
  (0x1e8b1, [w_MENDE;w_KIKAKUI;w_SYLLABLE;w_M191;w_NDEE]);
  (0x1e8b2, [w_MENDE;w_KIKAKUI;w_SYLLABLE;w_M119;w_NDE]);
  (0x1e8b3, [w_MENDE;w_KIKAKUI;w_SYLLABLE;w_M067;w_NDOO])].

Definition NAMES_71 : list (N * (list str)) := [
  (0x1e8b4, [w_MENDE;w_KIKAKUI;w_SYLLABLE;w_M064;w_NDO]);
  (0x1e8b5, [w_MENDE;w_KIKAKUI;w_SYLLABLE;w_M152;w_NJA]);
  (0x1e8b6, [w_MENDE;w_KIKAKUI;w_SYLLABLE;w_M192;w_NJU]);
  (0x1e8b7, [w_MENDE;w_KIKAKUI;w_SYLLABLE;w_M149;w_NJEE]);
  (0x1e8b8, [w_MENDE;w_KIKAKUI;w_SYLLABLE;w_M134;w_NJOO]);
  (0x1e8b9, [w_MENDE;w_KIKAKUI;w_SYLLABLE;w_M182;w_VI]);
  (0x1e8ba, [w_MENDE;w_KIKAKUI;w_SYLLABLE;w_M185;w_VA]);
  (0x1e8bb, [w_MENDE;w_KIKAKUI;w_SYLLABLE;w_M151;w_VU]);
  (0x1e8bc, [w_MENDE;w_KIKAKUI;w_SYLLABLE;w_M173;w_VEE]);
  (0x1e8bd, [w_MENDE;w_KIKAKUI;w_SYLLABLE;w_M085;w_VE]);
  (0x1e8be, [w_MENDE;w_KIKAKUI;w_SYLLABLE;w_M144;w_VOO]);
  (0x1e8bf, [w_MENDE;w_KIKAKUI;w_SYLLABLE;w_M077;w_VO]);
  (0x1e8c0, [w_MENDE;w_KIKAKUI;w_SYLLABLE;w_M164;w_NYIN]);
  (0x1e8c1, [w_MENDE;w_KIKAKUI;w_SYLLABLE;w_M058;w_NYAN]);
  (0x1e8c2, [w_MENDE;w_KIKAKUI;w_SYLLABLE;w_M170;w_NYUN]);
  (0x1e8c3, [w_MENDE;w_KIKAKUI;w_SYLLABLE;w_M098;w_NYEN]);
  (0x1e8c4, [w_MENDE;w_KIKAKUI;w_SYLLABLE;w_M060;w_NYON]);
  (0x1e8c7, [w_MENDE;w_KIKAKUI;w_DIGIT;w_ONE]);
  (0x1e8c8, [w_MENDE;w_KIKAKUI;w_DIGIT;w_TWO]);
  (0x1e8c9, [w_MENDE;w_KIKAKUI;w_DIGIT;w_THREE]);
  (0x1e8ca, [w_MENDE;w_KIKAKUI;w_DIGIT;w_FOUR]);
  (0x1e8cb, [w_MENDE;w_KIKAKUI;w_DIGIT;w_FIVE]);
  (0x1e8cc, [w_MENDE;w_KIKAKUI;w_DIGIT;w_SIX]);
  (0x1e8cd, [w_MENDE;w_KIKAKUI;w_DIGIT;w_SEVEN]);
  (0x1e8ce, [w_MENDE;w_KIKAKUI;w_DIGIT;w_EIGHT]);
  (0x1e8cf, [w_MENDE;w_KIKAKUI;w_DIGIT;w_NINE]);
  (0x1e8d0, [w_MENDE;w_KIKAKUI;w_COMBINING;w_NUMBER;w_TEENS]);
  (0x1e8d1, [w_MENDE;w_KIKAKUI;w_COMBINING;w_NUMBER;w_TENS]);
  (0x1e8d2, [w_MENDE;w_KIKAKUI;w_COMBINING;w_NUMBER;w_HUNDREDS]);
  (0x1e8d3, [w_MENDE;w_KIKAKUI;w_COMBINING;w_NUMBER;w_THOUSANDS]);
  (0x1e8d4, [w_MENDE;w_KIKAKUI;w_COMBINING;w_NUMBER;w_TEN;w_THOUSANDS]);
  (0x1e8d5, [w_MENDE;w_KIKAKUI;w_COMBINING;w_NUMBER;w_HUNDRED;w_THOUSANDS]);
  (0x1e8d6, [w_MENDE;w_KIKAKUI;w_COMBINING;w_NUMBER;w_MILLIONS]);
  (0x1e900, [w_ADLAM;w_CAPITAL;w_LETTER;w_ALIF]);
  (0x1e901, [w_ADLAM;w_CAPITAL;w_LETTER;w_DAALI]);
  (0x1e902, [w_ADLAM;w_CAPITAL;w_LETTER;w_LAAM]);
  (0x1e903, [w_ADLAM;w_CAPITAL;w_LETTER;w_MIIM]);
  (0x1e904, [w_ADLAM;w_CAPITAL;w_LETTER;w_BA]);
  (0x1e905, [w_ADLAM;w_CAPITAL;w_LETTER;w_SINNYIIYHE]);
  (0x1e906, [w_ADLAM;w_CAPITAL;w_LETTER;w_PE]);
  (0x1e907, [w_ADLAM;w_CAPITAL;w_LETTER;w_BHE]);
  (0x1e908, [w_ADLAM;w_CAPITAL;w_LETTER;w_RA]);
  (0x1e909, [w_ADLAM;w_CAPITAL;w_LETTER;w_E]);
  (0x1e90a, [w_ADLAM;w_CAPITAL;w_LETTER;w_FA]);
  (0x1e90b, [w_ADLAM;w_CAPITAL;w_LETTER;w_I]);
  (0x1e90c, [w_ADLAM;w_CAPITAL;w_LETTER;w_O]);
  (0x1e90d, [w_ADLAM;w_CAPITAL;w_LETTER;w_DHA]);
  (0x1e90e, [w_ADLAM;w_CAPITAL;w_LETTER;w_YHE]);
  (0x1e90f, [w_ADLAM;w_CAPITAL;w_LETTER;w_WAW]);
  (0x1e910, [w_ADLAM;w_CAPITAL;w_LETTER;w_NUN]);
  (0x1e911, [w_ADLAM;w_CAPITAL;w_LETTER;w_KAF]);
  (0x1e912, [w_ADLAM;w_CAPITAL;w_LETTER;w_YA]);
  (0x1e913, [w_ADLAM;w_CAPITAL;w_LETTER;w_U]);
  (0x1e914, [w_ADLAM;w_CAPITAL;w_LETTER;w_JIIM]);
  (0x1e915, [w_ADLAM;w_CAPITAL;w_LETTER;w_CHI]);
  (0x1e916, [w_ADLAM;w_CAPITAL;w_LETTER;w_HA]);
  (0x1e917, [w_ADLAM;w_CAPITAL;w_LETTER;w_QAAF]);
  (0x1e918, [w_ADLAM;w_CAPITAL;w_LETTER;w_GA]);
  (0x1e919, [w_ADLAM;w_CAPITAL;w_LETTER;w_NYA]);
  (0x1e91a, [w_ADLAM;w_CAPITAL;w_LETTER;w_TU]);
  (0x1e91b, [w_ADLAM;w_CAPITAL;w_LETTER;w_NHA]);
  (0x1e91c, [w_ADLAM;w_CAPITAL;w_LETTER;w_VA]);
  (0x1e91d, [w_ADLAM;w_CAPITAL;w_LETTER;w_KHA]);
  (0x1e91e, [w_ADLAM;w_CAPITAL;w_LETTER;w_GBE]);
  (0x1e91f, [w_ADLAM;w_CAPITAL;w_LETTER;w_ZAL]);
  (0x1e920, [w_ADLAM;w_CAPITAL;w_LETTER;w_KPO]);
  (0x1e921, [w_ADLAM;w_CAPITAL;w_LETTER;w_SHA]);
  (0x1e922, [w_ADLAM;w_SMALL;w_LETTER;w_ALIF]);
  (0x1e923, [w_ADLAM;w_SMALL;w_LETTER;w_DAALI]);
  (0x1e924, [w_ADLAM;w_SMALL;w_LETTER;w_LAAM]);
  (0x1e925, [w_ADLAM;w_SMALL;w_LETTER;w_MIIM]);
  (0x1e926, [w_ADLAM;w_SMALL;w_LETTER;w_BA]);
  (0x1e927, [w_ADLAM;w_SMALL;w_LETTER;w_SINNYIIYHE]);
  (0x1e928, [w_ADLAM;w_SMALL;w_LETTER;w_PE]);
  (0x1e929, [w_ADLAM;w_SMALL;w_LETTER;w_BHE]);
  (0x1e92a, [w_ADLAM;w_SMALL;w_LETTER;w_RA]);
  (0x1e92b, [w_ADLAM;w_SMALL;w_LETTER;w_E]);
  (0x1e92c, [w_ADLAM;w_SMALL;w_LETTER;w_FA]);
  (0x1e92d, [w_ADLAM;w_SMALL;w_LETTER;w_I]);
  (0x1e92e, [w_ADLAM;w_SMALL;w_LETTER;w_O]);
  (0x1e92f, [w_ADLAM;w_SMALL;w_LETTER;w_DHA]);
  (0x1e930, [w_ADLAM;w_SMALL;w_LETTER;w_YHE]);
  (0x1e931, [w_ADLAM;w_SMALL;w_LETTER;w_WAW]);
  (0x1e932, [w_ADLAM;w_SMALL;w_LETTER;w_NUN]);
  (0x1e933, [w_ADLAM;w_SMALL;w_LETTER;w_KAF]);
  (0x1e934, [w_ADLAM;w_SMALL;w_LETTER;w_YA]);
  (0x1e935, [w_ADLAM;w_SMALL;w_LETTER;w_U]);
  (0x1e936, [w_ADLAM;w_SMALL;w_LETTER;w_JIIM]);
  (0x1e937, [w_ADLAM;w_SMALL;w_LETTER;w_CHI]);
  (0x1e938, [w_ADLAM;w_SMALL;w_LETTER;w_HA]);
  (0x1e939, [w_ADLAM;w_SMALL;w_LETTER;w_QAAF]);
  (0x1e93a, [w_ADLAM;w_SMALL;w_LETTER;w_GA]);
  (0x1e93b, [w_ADLAM;w_SMALL;w_LETTER;w_NYA]);
  (0x1e93c, [w_ADLAM;w_SMALL;w_LETTER;w_TU]);
  (0x1e93d, [w_ADLAM;w_SMALL;w_LETTER;w_NHA]);
  (0x1e93e, [w_ADLAM;w_SMALL;w_LETTER;w_VA]);
  (0x1e93f, [w_ADLAM;w_SMALL;w_LETTER;w_KHA]);
  (0x1e940, [w_ADLAM;w_SMALL;w_LETTER;w_GBE]);
  (0x1e941, [w_ADLAM;w_SMALL;w_LETTER;w_ZAL]);
  (0x1e942, [w_ADLAM;w_SMALL;w_LETTER;w_KPO]);
  (0x1e943, [w_ADLAM;w_SMALL;w_LETTER;w_SHA]);
  (0x1e944, [w_ADLAM;w_ALIF;w_LENGTHENER]);
  (0x1e945, [w_ADLAM;w_VOWEL;w_LENGTHENER]);
  (0x1e946, [w_ADLAM;w_GEMINATION;w_MARK]);
  (0x1e947, [w_ADLAM;w_HAMZA]);
  (0x1e948, [w_ADLAM;w_CONSONANT;w_MODIFIER]);
  (0x1e949, [w_ADLAM;w_GEMINATE;w_CONSONANT;w_MODIFIER]);
  (0x1e94a, [w_ADLAM;w_NUKTA]);
  (0x1e950, [w_ADLAM;w_DIGIT;w_ZERO]);
  (0x1e951, [w_ADLAM;w_DIGIT;w_ONE]);
  (0x1e952, [w_ADLAM;w_DIGIT;w_TWO]);
  (0x1e953, [w_ADLAM;w_DIGIT;w_THREE]);
  (0x1e954, [w_ADLAM;w_DIGIT;w_FOUR]);
  (0x1e955, [w_ADLAM;w_DIGIT;w_FIVE]);
  (0x1e956, [w_ADLAM;w_DIGIT;w_SIX]);
  (0x1e957, [w_ADLAM;w_DIGIT;w_SEVEN]);
  (0x1e958, [w_ADLAM;w_DIGIT;w_EIGHT]);
  (0x1e959, [w_ADLAM;w_DIGIT;w_NINE]);
  (0x1e95e, [w_ADLAM;w_INITIAL;w_EXCLAMATION;w_MARK]);
  (0x1e95f, [w_ADLAM;w_INITIAL;w_QUESTION;w_MARK]);
  (0x1ee00, [w_ARABIC;w_MATHEMATICAL;w_ALEF]);
  (0x1ee01, [w_ARABIC;w_MATHEMATICAL;w_BEH]);
  (0x1ee02, [w_ARABIC;w_MATHEMATICAL;w_JEEM]);
  (0x1ee03, [w_ARABIC;w_MATHEMATICAL;w_DAL]);
  (0x1ee05, [w_ARABIC;w_MATHEMATICAL;w_WAW]);
  (0x1ee06, [w_ARABIC;w_MATHEMATICAL;w_ZAIN]);
  (0x1ee07, [w_ARABIC;w_MATHEMATICAL;w_HAH]);
  (0x1ee08, [w_ARABIC;w_MATHEMATICAL;w_TAH]);
  (0x1ee09, [w_ARABIC;w_MATHEMATICAL;w_YEH]);
  (0x1ee0a, [w_ARABIC;w_MATHEMATICAL;w_KAF]);
  (0x1ee0b, [w_ARABIC;w_MATHEMATICAL;w_LAM]);
  (0x1ee0c, [w_ARABIC;w_MATHEMATICAL;w_MEEM]);
  (0x1ee0d, [w_ARABIC;w_MATHEMATICAL;w_NOON]);
  (0x1ee0e, [w_ARABIC;w_MATHEMATICAL;w_SEEN]);
  (0x1ee0f, [w_ARABIC;w_MATHEMATICAL;w_AIN]);
  (0x1ee10, [w_ARABIC;w_MATHEMATICAL;w_FEH]);
  (0x1ee11, [w_ARABIC;w_MATHEMATICAL;w_SAD]);
  (0x1ee12, [w_ARABIC;w_MATHEMATICAL;w_QAF]);
  (0x1ee13, [w_ARABIC;w_MATHEMATICAL;w_REH]);
  (0x1ee14, [w_ARABIC;w_MATHEMATICAL;w_SHEEN]);
  (0x1ee15, [w_ARABIC;w_MATHEMATICAL;w_TEH]);
  (0x1ee16, [w_ARABIC;w_MATHEMATICAL;w_THEH]);
  (0x1ee17, [w_ARABIC;w_MATHEMATICAL;w_KHAH]);
  (0x1ee18, [w_ARABIC;w_MATHEMATICAL;w_THAL]);
  (0x1ee19, [w_ARABIC;w_MATHEMATICAL;w_DAD]);
  (0x1ee1a, [w_ARABIC;w_MATHEMATICAL;w_ZAH]);
  (0x1ee1b, [w_ARABIC;w_MATHEMATICAL;w_GHAIN]);
  (0x1ee1c, [w_ARABIC;w_MATHEMATICAL;w_DOTLESS;w_BEH]);
  (0x1ee1d, [w_ARABIC;w_MATHEMATICAL;w_DOTLESS;w_NOON]);
  (0x1ee1e, [w_ARABIC;w_MATHEMATICAL;w_DOTLESS;w_FEH]);
  (0x1ee1f, [w_ARABIC;w_MATHEMATICAL;w_DOTLESS;w_QAF]);
  (0x1ee21, [w_ARABIC;w_MATHEMATICAL;w_INITIAL;w_BEH]);
  (0x1ee22, [w_ARABIC;w_MATHEMATICAL;w_INITIAL;w_JEEM]);
  (0x1ee24, [w_ARABIC;w_MATHEMATICAL;w_INITIAL;w_HEH]);
  (0x1ee27, [w_ARABIC;w_MATHEMATICAL;w_INITIAL;w_HAH]);
  (0x1ee29, [w_ARABIC;w_MATHEMATICAL;w_INITIAL;w_YEH]);
  (0x1ee2a, [w_ARABIC;w_MATHEMATICAL;w_INITIAL;w_KAF]);
  (0x1ee2b, [w_ARABIC;w_MATHEMATICAL;w_INITIAL;w_LAM]);
  (0x1ee2c, [w_ARABIC;w_MATHEMATICAL;w_INITIAL;w_MEEM]);
  (0x1ee2d, [w_ARABIC;w_MATHEMATICAL;w_INITIAL;w_NOON]);
  (0x1ee2e, [w_ARABIC;w_MATHEMATICAL;w_INITIAL;w_SEEN]);
  (0x1ee2f, [w_ARABIC;w_MATHEMATICAL;w_INITIAL;w_AIN]);
  (0x1ee30, [w_ARABIC;w_MATHEMATICAL;w_INITIAL;w_FEH]);
  (0x1ee31, [w_ARABIC;w_MATHEMATICAL;w_INITIAL;w_SAD]);
  (0x1ee32, [w_ARABIC;w_MATHEMATICAL;w_INITIAL;w_QAF]);
  (0x1ee34, [w_ARABIC;w_MATHEMATICAL;w_INITIAL;w_SHEEN]);
  (0x1ee35, [w_ARABIC;w_MATHEMATICAL;w_INITIAL;w_TEH]);
  (0x1ee36, [w_ARABIC;w_MATHEMATICAL;w_INITIAL;w_THEH]);
  (0x1ee37, [w_ARABIC;w_MATHEMATICAL;w_INITIAL;w_KHAH]);
  (0x1ee39, [w_ARABIC;w_MATHEMATICAL;w_INITIAL;w_DAD]);
  (0x1ee3b, [w_ARABIC;w_MATHEMATICAL;w_INITIAL;w_GHAIN]);
  (0x1ee42, [w_ARABIC;w_MATHEMATICAL;w_TAILED;w_JEEM]);
  (0x1ee47, [w_ARABIC;w_MATHEMATICAL;w_TAILED;w_HAH]);
  (0x1ee49, [w_ARABIC;w_MATHEMATICAL;w_TAILED;w_YEH]);
  (0x1ee4b, [w_ARABIC;w_MATHEMATICAL;w_TAILED;w_LAM]);
  (0x1ee4d, [w_ARABIC;w_MATHEMATICAL;w_TAILED;w_NOON]);
  (0x1ee4e, [w_ARABIC;w_MATHEMATICAL;w_TAILED;w_SEEN]);
  (0x1ee4f, [w_ARABIC;w_MATHEMATICAL;w_TAILED;w_AIN]);
  (0x1ee51, [w_ARABIC;w_MATHEMATICAL;w_TAILED;w_SAD]);
  (0x1ee52, [w_ARABIC;w_MATHEMATICAL;w_TAILED;w_QAF]);
  (0x1ee54, [w_ARABIC;w_MATHEMATICAL;w_TAILED;w_SHEEN]);
  (0x1ee57, [w_ARABIC;w_MATHEMATICAL;w_TAILED;w_KHAH]);
  (0x1ee59, [w_ARABIC;w_MATHEMATICAL;w_TAILED;w_DAD]);
  (0x1ee5b, [w_ARABIC;w_MATHEMATICAL;w_TAILED;w_GHAIN]);
  (0x1ee5d, [w_ARABIC;w_MATHEMATICAL;w_TAILED;w_DOTLESS;w_NOON]);
  (0x1ee5f, [w_ARABIC;w_MATHEMATICAL;w_TAILED;w_DOTLESS;w_QAF]);
  (0x1ee61, [w_ARABIC;w_MATHEMATICAL;w_STRETCHED;w_BEH]);
  (0x1ee62, [w_ARABIC;w_MATHEMATICAL;w_STRETCHED;w_JEEM]);
  (0x1ee64, [w_ARABIC;w_MATHEMATICAL;w_STRETCHED;w_HEH]);
  (0x1ee67, [w_ARABIC;w_MATHEMATICAL;w_STRETCHED;w_HAH]);
  (0x1ee68, [w_ARABIC;w_MATHEMATICAL;w_STRETCHED;w_TAH]);
  (0x1ee69, [w_ARABIC;w_MATHEMATICAL;w_STRETCHED;w_YEH]);
  (0x1ee6a, [w_ARABIC;w_MATHEMATICAL;w_STRETCHED;w_KAF]);
  (0x1ee6c, [w_ARABIC;w_MATHEMATICAL;w_STRETCHED;w_MEEM]);
  (0x1ee6d, [w_ARABIC;w_MATHEMATICAL;w_STRETCHED;w_NOON]);
  (0x1ee6e, [w_ARABIC;w_MATHEMATICAL;w_STRETCHED;w_SEEN]);
  (0x1ee6f, [w_ARABIC;w_MATHEMATICAL;w_STRETCHED;w_AIN]);
  (0x1ee70, [w_ARABIC;w_MATHEMATICAL;w_STRETCHED;w_FEH]);
  (0x1ee71, [w_ARABIC;w_MATHEMATICAL;w_STRETCHED;w_SAD]);
  (0x1ee72, [w_ARABIC;w_MATHEMATICAL;w_STRETCHED;w_QAF]);
  (0x1ee74, [w_ARABIC;w_MATHEMATICAL;w_STRETCHED;w_SHEEN]);
  (0x1ee75, [w_ARABIC;w_MATHEMATICAL;w_STRETCHED;w_TEH]);
  (0x1ee76, [w_ARABIC;w_MATHEMATICAL;w_STRETCHED;w_THEH]);
  (0x1ee77, [w_ARABIC;w_MATHEMATICAL;w_STRETCHED;w_KHAH]);
  (0x1ee79, [w_ARABIC;w_MATHEMATICAL;w_STRETCHED;w_DAD]);
  (0x1ee7a, [w_ARABIC;w_MATHEMATICAL;w_STRETCHED;w_ZAH]);
  (0x1ee7b, [w_ARABIC;w_MATHEMATICAL;w_STRETCHED;w_GHAIN]);
  (0x1ee7c, [w_ARABIC;w_MATHEMATICAL;w_STRETCHED;w_DOTLESS;w_BEH]);
  (0x1ee7e, [w_ARABIC;w_MATHEMATICAL;w_STRETCHED;w_DOTLESS;w_FEH]);
  (0x1ee80, [w_ARABIC;w_MATHEMATICAL;w_LOOPED;w_ALEF]);
  (0x1ee81, [w_ARABIC;w_MATHEMATICAL;w_LOOPED;w_BEH]);
  (0x1ee82, [w_ARABIC;w_MATHEMATICAL;w_LOOPED;w_JEEM]);
  (0x1ee83, [w_ARABIC;w_MATHEMATICAL;w_LOOPED;w_DAL]);
  (0x1ee84, [w_ARABIC;w_MATHEMATICAL;w_LOOPED;w_HEH]);
  (0x1ee85, [w_ARABIC;w_MATHEMATICAL;w_LOOPED;w_WAW]);
  (0x1ee86, [w_ARABIC;w_MATHEMATICAL;w_LOOPED;w_ZAIN]);
  (0x1ee87, [w_ARABIC;w_MATHEMATICAL;w_LOOPED;w_HAH]);
  (0x1ee88, [w_ARABIC;w_MATHEMATICAL;w_LOOPED;w_TAH]);
  (0x1ee89, [w_ARABIC;w_MATHEMATICAL;w_LOOPED;w_YEH]);
  (0x1ee8b, [w_ARABIC;w_MATHEMATICAL;w_LOOPED;w_LAM]);
  (0x1ee8c, [w_ARABIC;w_MATHEMATICAL;w_LOOPED;w_MEEM]);
  (0x1ee8d, [w_ARABIC;w_MATHEMATICAL;w_LOOPED;w_NOON]);
  (0x1ee8e, [w_ARABIC;w_MATHEMATICAL;w_LOOPED;w_SEEN]);
  (0x1ee8f, [w_ARABIC;w_MATHEMATICAL;w_LOOPED;w_AIN]);
  (0x1ee90, [w_ARABIC;w_MATHEMATICAL;w_LOOPED;w_FEH]);
  (0x1ee91, [w_ARABIC;w_MATHEMATICAL;w_LOOPED;w_SAD]);
  (0x1ee92, [w_ARABIC;w_MATHEMATICAL;w_LOOPED;w_QAF]);
  (0x1ee93, [w_ARABIC;w_MATHEMATICAL;w_LOOPED;w_REH]);
  (0x1ee94, [w_ARABIC;w_MATHEMATICAL;w_LOOPED;w_SHEEN]);
  (0x1ee95, [w_ARABIC;w_MATHEMATICAL;w_LOOPED;w_TEH]);
  (0x1ee96, [w_ARABIC;w_MATHEMATICAL;w_LOOPED;w_THEH]);
  (0x1ee97, [w_ARABIC;w_MATHEMATICAL;w_LOOPED;w_KHAH]);
  (0x1ee98, [w_ARABIC;w_MATHEMATICAL;w_LOOPED;w_THAL]);
  (0x1ee99, [w_ARABIC;w_MATHEMATICAL;w_LOOPED;w_DAD]);
  (0x1ee9a, [w_ARABIC;w_MATHEMATICAL;w_LOOPED;w_ZAH]);
  (0x1ee9b, [w_ARABIC;w_MATHEMATICAL;w_LOOPED;w_GHAIN]);
  (0x1eea1, [w_ARABIC;w_MATHEMATICAL;w_DOUBLE_STRUCK;w_BEH]);
  (0x1eea2, [w_ARABIC;w_MATHEMATICAL;w_DOUBLE_STRUCK;w_JEEM]);
  (0x1eea3, [w_ARABIC;w_MATHEMATICAL;w_DOUBLE_STRUCK;w_DAL]);
  (0x1eea5, [w_ARABIC;w_MATHEMATICAL;w_DOUBLE_STRUCK;w_WAW]);
  (0x1eea6, [w_ARABIC;w_MATHEMATICAL;w_DOUBLE_STRUCK;w_ZAIN]);
  (0x1eea7, [w_ARABIC;w_MATHEMATICAL;w_DOUBLE_STRUCK;w_HAH]);
  (0x1eea8, [w_ARABIC;w_MATHEMATICAL;w_DOUBLE_STRUCK;w_TAH]);
  (0x1eea9, [w_ARABIC;w_MATHEMATICAL;w_DOUBLE_STRUCK;w_YEH]);
  (0x1eeab, [w_ARABIC;w_MATHEMATICAL;w_DOUBLE_STRUCK;w_LAM]);
  (0x1eeac, [w_ARABIC;w_MATHEMATICAL;w_DOUBLE_STRUCK;w_MEEM]);
  (0x1eead, [w_ARABIC;w_MATHEMATICAL;w_DOUBLE_STRUCK;w_NOON]);
  (0x1eeae, [w_ARABIC;w_MATHEMATICAL;w_DOUBLE_STRUCK;w_SEEN]);
  (0x1eeaf, [w_ARABIC;w_MATHEMATICAL;w_DOUBLE_STRUCK;w_AIN]);
  (0x1eeb0, [w_ARABIC;w_MATHEMATICAL;w_DOUBLE_STRUCK;w_FEH]);
  (0x1eeb1, [w_ARABIC;w_MATHEMATICAL;w_DOUBLE_STRUCK;w_SAD]);
  (0x1eeb2, [w_ARABIC;w_MATHEMATICAL;w_DOUBLE_STRUCK;w_QAF]);
  (0x1eeb3, [w_ARABIC;w_MATHEMATICAL;w_DOUBLE_STRUCK;w_REH]);
  (0x1eeb4, [w_ARABIC;w_MATHEMATICAL;w_DOUBLE_STRUCK;w_SHEEN]);
  (0x1eeb5, [w_ARABIC;w_MATHEMATICAL;w_DOUBLE_STRUCK;w_TEH]);
  (0x1eeb6, [w_ARABIC;w_MATHEMATICAL;w_DOUBLE_STRUCK;w_THEH]);
  (0x1eeb7, [w_ARABIC;w_MATHEMATICAL;w_DOUBLE_STRUCK;w_KHAH]);
  (0x1eeb8, [w_ARABIC;w_MATHEMATICAL;w_DOUBLE_STRUCK;w_THAL]);
  (0x1eeb9, [w_ARABIC;w_MATHEMATICAL;w_DOUBLE_STRUCK;w_DAD]);
  (0x1eeba, [w_ARABIC;w_MATHEMATICAL;w_DOUBLE_STRUCK;w_ZAH]);
  (0x1eebb, [w_ARABIC;w_MATHEMATICAL;w_DOUBLE_STRUCK;w_GHAIN]);
  (0x1eef0, [w_ARABIC;w_MATHEMATICAL;w_OPERATOR;w_MEEM;w_WITH;w_HAH;w_WITH;w_TATWEEL]);
  (0x1eef1, [w_ARABIC;w_MATHEMATICAL;w_OPERATOR;w_HAH;w_WITH;w_DAL]);
  (0x1f000, [w_MAHJONG;w_TILE;w_EAST;w_WIND]);
  (0x1f001, [w_MAHJONG;w_TILE;w_SOUTH;w_WIND]);
  (0x1f002, [w_MAHJONG;w_TILE;w_WEST;w_WIND]);
  (0x1f003, [w_MAHJONG;w_TILE;w_NORTH;w_WIND]);
  (0x1f004, [w_MAHJONG;w_TILE;w_RED;w_DRAGON]);
  (0x1f005, [w_MAHJONG;w_TILE;w_GREEN;w_DRAGON]);
  (0x1f006, [w_MAHJONG;w_TILE;w_WHITE;w_DRAGON]);
  (0x1f007, [w_MAHJONG;w_TILE;w_ONE;w_OF;w_CHARACTERS]);
  (0x1f008, [w_MAHJONG;w_TILE;w_TWO;w_OF;w_CHARACTERS]);
  (0x1f009, [w_MAHJONG;w_TILE;w_THREE;w_OF;w_CHARACTERS]);
  (0x1f00a, [w_MAHJONG;w_TILE;w_FOUR;w_OF;w_CHARACTERS]);
  (0x1f00b, [w_MAHJONG;w_TILE;w_FIVE;w_OF;w_CHARACTERS]);
  (0x1f00c, [w_MAHJONG;w_TILE;w_SIX;w_OF;w_CHARACTERS]);
  (0x1f00d, [w_MAHJONG;w_TILE;w_SEVEN;w_OF;w_CHARACTERS]);
  (0x1f00e, [w_MAHJONG;w_TILE;w_EIGHT;w_OF;w_CHARACTERS]);
  (0x1f00f, [w_MAHJONG;w_TILE;w_NINE;w_OF;w_CHARACTERS]);
  (0x1f010, [w_MAHJONG;w_TILE;w_ONE;w_OF;w_BAMBOOS]);
  (0x1f011, [w_MAHJONG;w_TILE;w_TWO;w_OF;w_BAMBOOS]);
  (0x1f012, [w_MAHJONG;w_TILE;w_THREE;w_OF;w_BAMBOOS]);
  (0x1f013, [w_MAHJONG;w_TILE;w_FOUR;w_OF;w_BAMBOOS]);
  (0x1f014, [w_MAHJONG;w_TILE;w_FIVE;w_OF;w_BAMBOOS]);
  (0x1f015, [w_MAHJONG;w_TILE;w_SIX;w_OF;w_BAMBOOS]);
  (0x1f016, [w_MAHJONG;w_TILE;w_SEVEN;w_OF;w_BAMBOOS]);
  (0x1f017, [w_MAHJONG;w_TILE;w_EIGHT;w_OF;w_BAMBOOS]);
  (0x1f018, [w_MAHJONG;w_TILE;w_NINE;w_OF;w_BAMBOOS]);
  (0x1f019, [w_MAHJONG;w_TILE;w_ONE;w_OF;w_CIRCLES]);
  (0x1f01a, [w_MAHJONG;w_TILE;w_TWO;w_OF;w_CIRCLES]);
  (0x1f01b, [w_MAHJONG;w_TILE;w_THREE;w_OF;w_CIRCLES]);
  (0x1f01c, [w_MAHJONG;w_TILE;w_FOUR;w_OF;w_CIRCLES]);
  (0x1f01d, [w_MAHJONG;w_TILE;w_FIVE;w_OF;w_CIRCLES]);
  (0x1f01e, [w_MAHJONG;w_TILE;w_SIX;w_OF;w_CIRCLES]);
  (0x1f01f, [w_MAHJONG;w_TILE;w_SEVEN;w_OF;w_CIRCLES]);
  (0x1f020, [w_MAHJONG;w_TILE;w_EIGHT;w_OF;w_CIRCLES]);
  (0x1f021, [w_MAHJONG;w_TILE;w_NINE;w_OF;w_CIRCLES]);
  (0x1f022, [w_MAHJONG;w_TILE;w_PLUM]);
  (0x1f023, [w_MAHJONG;w_TILE;w_ORCHID]);
  (0x1f024, [w_MAHJONG;w_TILE;w_BAMBOO]);
  (0x1f025, [w_MAHJONG;w_TILE;w_CHRYSANTHEMUM]);
  (0x1f026, [w_MAHJONG;w_TILE;w_SPRING]);
  (0x1f027, [w_MAHJONG;w_TILE;w_SUMMER]);
  (0x1f028, [w_MAHJONG;w_TILE;w_AUTUMN]);
  (0x1f029, [w_MAHJONG;w_TILE;w_WINTER]);
  (0x1f02a, [w_MAHJONG;w_TILE;w_JOKER]);
  (0x1f02b, [w_MAHJONG;w_TILE;w_BACK]);
  (0x1f030, [w_DOMINO;w_TILE;w_HORIZONTAL;w_BACK]);
  (0x1f031, [w_DOMINO;w_TILE;w_HORIZONTAL_00_00]);
  (0x1f032, [w_DOMINO;w_TILE;w_HORIZONTAL_00_01]);
  (0x1f033, [w_DOMINO;w_TILE;w_HORIZONTAL_00_02]);
  (0x1f034, [w_DOMINO;w_TILE;w_HORIZONTAL_00_03]);
  (0x1f035, [w_DOMINO;w_TILE;w_HORIZONTAL_00_04]);
  (0x1f036, [w_DOMINO;w_TILE;w_HORIZONTAL_00_05]);
  (0x1f037, [w_DOMINO;w_TILE;w_HORIZONTAL_00_06]);
  (0x1f038, [w_DOMINO;w_TILE;w_HORIZONTAL_01_00]);
  (0x1f039, [w_DOMINO;w_TILE;w_HORIZONTAL_01_01]);
  (0x1f03a, [w_DOMINO;w_TILE;w_HORIZONTAL_01_02]);
  (0x1f03b, [w_DOMINO;w_TILE;w_HORIZONTAL_01_03]);
  (0x1f03c, [w_DOMINO;w_TILE;w_HORIZONTAL_01_04]);
  (0x1f03d, [w_DOMINO;w_TILE;w_HORIZONTAL_01_05]);
  (0x1f03e, [w_DOMINO;w_TILE;w_HORIZONTAL_01_06]);
  (0x1f03f, [w_DOMINO;w_TILE;w_HORIZONTAL_02_00]);
  (0x1f040, [w_DOMINO;w_TILE;w_HORIZONTAL_02_01]);
  (0x1f041, [w_DOMINO;w_TILE;w_HORIZONTAL_02_02]);
  (0x1f042, [w_DOMINO;w_TILE;w_HORIZONTAL_02_03]);
  (0x1f043, [w_DOMINO;w_TILE;w_HORIZONTAL_02_04]);
  (0x1f044, [w_DOMINO;w_TILE;w_HORIZONTAL_02_05]);
  (0x1f045, [w_DOMINO;w_TILE;w_HORIZONTAL_02_06]);
  (0x1f046, [w_DOMINO;w_TILE;w_HORIZONTAL_03_00]);
  (0x1f047, [w_DOMINO;w_TILE;w_HORIZONTAL_03_01]);
  (0x1f048, [w_DOMINO;w_TILE;w_HORIZONTAL_03_02]);
  (0x1f049, [w_DOMINO;w_TILE;w_HORIZONTAL_03_03]);
  (0x1f04a, [w_DOMINO;w_TILE;w_HORIZONTAL_03_04]);
  (0x1f04b, [w_DOMINO;w_TILE;w_HORIZONTAL_03_05]);
  (0x1f04c, [w_DOMINO;w_TILE;w_HORIZONTAL_03_06]);
  (0x1f04d, [w_DOMINO;w_TILE;w_HORIZONTAL_04_00]);
  (0x1f04e, [w_DOMINO;w_TILE;w_HORIZONTAL_04_01]);
  (0x1f04f, [w_DOMINO;w_TILE;w_HORIZONTAL_04_02]);
  (0x1f050, [w_DOMINO;w_TILE;w_HORIZONTAL_04_03]);
  (0x1f051, [w_DOMINO;w_TILE;w_HORIZONTAL_04_04]);
  (0x1f052, [w_DOMINO;w_TILE;w_HORIZONTAL_04_05]);
  (0x1f053, [w_DOMINO;w_TILE;w_HORIZONTAL_04_06]);
  (0x1f054, [w_DOMINO;w_TILE;w_HORIZONTAL_05_00]);
  (0x1f055, [w_DOMINO;w_TILE;w_HORIZONTAL_05_01]);
  (0x1f056, [w_DOMINO;w_TILE;w_HORIZONTAL_05_02]);
  (0x1f057, [w_DOMINO;w_TILE;w_HORIZONTAL_05_03]);
  (0x1f058, [w_DOMINO;w_TILE;w_HORIZONTAL_05_04]);
  (0x1f059, [w_DOMINO;w_TILE;w_HORIZONTAL_05_05]);
  (0x1f05a, [w_DOMINO;w_TILE;w_HORIZONTAL_05_06]);
  (0x1f05b, [w_DOMINO;w_TILE;w_HORIZONTAL_06_00]);
  (0x1f05c, [w_DOMINO;w_TILE;w_HORIZONTAL_06_01]);
  (0x1f05d, [w_DOMINO;w_TILE;w_HORIZONTAL_06_02]);
  (0x1f05e, [w_DOMINO;w_TILE;w_HORIZONTAL_06_03]);
  (0x1f05f, [w_DOMINO;w_TILE;w_HORIZONTAL_06_04]);
  (0x1f060, [w_DOMINO;w_TILE;w_HORIZONTAL_06_05]);
  (0x1f061, [w_DOMINO;w_TILE;w_HORIZONTAL_06_06]);
  (0x1f062, [w_DOMINO;w_TILE;w_VERTICAL;w_BACK]);
  (0x1f063, [w_DOMINO;w_TILE;w_VERTICAL_00_00]);
  (0x1f064, [w_DOMINO;w_TILE;w_VERTICAL_00_01]);
  (0x1f065, [w_DOMINO;w_TILE;w_VERTICAL_00_02]);
  (0x1f066, [w_DOMINO;w_TILE;w_VERTICAL_00_03]);
  (0x1f067, [w_DOMINO;w_TILE;w_VERTICAL_00_04]);
  (0x1f068, [w_DOMINO;w_TILE;w_VERTICAL_00_05]);
  (0x1f069, [w_DOMINO;w_TILE;w_VERTICAL_00_06]);
  (0x1f06a, [w_DOMINO;w_TILE;w_VERTICAL_01_00]);
  (0x1f06b, [w_DOMINO;w_TILE;w_VERTICAL_01_01]);
  (0x1f06c, [w_DOMINO;w_TILE;w_VERTICAL_01_02]);
  (0x1f06d, [w_DOMINO;w_TILE;w_VERTICAL_01_03]);
  (0x1f06e, [w_DOMINO;w_TILE;w_VERTICAL_01_04]);
  (0x1f06f, [w_DOMINO;w_TILE;w_VERTICAL_01_05]);
  (0x1f070, [w_DOMINO;w_TILE;w_VERTICAL_01_06]);
  (0x1f071, [w_DOMINO;w_TILE;w_VERTICAL_02_00]);
  (0x1f072, [w_DOMINO;w_TILE;w_VERTICAL_02_01]);
  (0x1f073, [w_DOMINO;w_TILE;w_VERTICAL_02_02]);
  (0x1f074, [w_DOMINO;w_TILE;w_VERTICAL_02_03]);
  (0x1f075, [w_DOMINO;w_TILE;w_VERTICAL_02_04]);
  (0x1f076, [w_DOMINO;w_TILE;w_VERTICAL_02_05]);
  (0x1f077, [w_DOMINO;w_TILE;w_VERTICAL_02_06]);
  (0x1f078, [w_DOMINO;w_TILE;w_VERTICAL_03_00]);
  (0x1f079, [w_DOMINO;w_TILE;w_VERTICAL_03_01]);
  (0x1f07a, [w_DOMINO;w_TILE;w_VERTICAL_03_02]);
  (0x1f07b, [w_DOMINO;w_TILE;w_VERTICAL_03_03]);
  (0x1f07c, [w_DOMINO;w_TILE;w_VERTICAL_03_04]);
  (0x1f07d, [w_DOMINO;w_TILE;w_VERTICAL_03_05]);
  (0x1f07e, [w_DOMINO;w_TILE;w_VERTICAL_03_06]);
  (0x1f07f, [w_DOMINO;w_TILE;w_VERTICAL_04_00]);
  (0x1f080, [w_DOMINO;w_TILE;w_VERTICAL_04_01]);
  (0x1f081, [w_DOMINO;w_TILE;w_VERTICAL_04_02]);
  (0x1f082, [w_DOMINO;w_TILE;w_VERTICAL_04_03]);
  (0x1f083, [w_DOMINO;w_TILE;w_VERTICAL_04_04]);
  (0x1f084, [w_DOMINO;w_TILE;w_VERTICAL_04_05]);
  (0x1f085, [w_DOMINO;w_TILE;w_VERTICAL_04_06]);
  (0x1f086, [w_DOMINO;w_TILE;w_VERTICAL_05_00]);
  (0x1f087, [w_DOMINO;w_TILE;w_VERTICAL_05_01]);
  (0x1f088, [w_DOMINO;w_TILE;w_VERTICAL_05_02]);
  (0x1f089, [w_DOMINO;w_TILE;w_VERTICAL_05_03]);
  (0x1f08a, [w_DOMINO;w_TILE;w_VERTICAL_05_04]);
  (0x1f08b, [w_DOMINO;w_TILE;w_VERTICAL_05_05]);
  (0x1f08c, [w_DOMINO;w_TILE;w_VERTICAL_05_06])].

Definition NAMES_72 : list (N * (list str)) := [
  (0x1f08d, [w_DOMINO;w_TILE;w_VERTICAL_06_00]);
  (0x1f08e, [w_DOMINO;w_TILE;w_VERTICAL_06_01]);
  (0x1f08f, [w_DOMINO;w_TILE;w_VERTICAL_06_02]);
  (0x1f090, [w_DOMINO;w_TILE;w_VERTICAL_06_03]);
  (0x1f091, [w_DOMINO;w_TILE;w_VERTICAL_06_04]);
  (0x1f092, [w_DOMINO;w_TILE;w_VERTICAL_06_05]);
  (0x1f093, [w_DOMINO;w_TILE;w_VERTICAL_06_06]);
  (0x1f0a0, [w_PLAYING;w_CARD;w_BACK]);
  (0x1f0a1, [w_PLAYING;w_CARD;w_ACE;w_OF;w_SPADES]);
  (0x1f0a2, [w_PLAYING;w_CARD;w_TWO;w_OF;w_SPADES]);
  (0x1f0a3, [w_PLAYING;w_CARD;w_THREE;w_OF;w_SPADES]);
  (0x1f0a4, [w_PLAYING;w_CARD;w_FOUR;w_OF;w_SPADES]);
  (0x1f0a5, [w_PLAYING;w_CARD;w_FIVE;w_OF;w_SPADES]);
  (0x1f0a6, [w_PLAYING;w_CARD;w_SIX;w_OF;w_SPADES]);
  (0x1f0a7, [w_PLAYING;w_CARD;w_SEVEN;w_OF;w_SPADES]);
  (0x1f0a8, [w_PLAYING;w_CARD;w_EIGHT;w_OF;w_SPADES]);
  (0x1f0a9, [w_PLAYING;w_CARD;w_NINE;w_OF;w_SPADES]);
  (0x1f0aa, [w_PLAYING;w_CARD;w_TEN;w_OF;w_SPADES]);
  (0x1f0ab, [w_PLAYING;w_CARD;w_JACK;w_OF;w_SPADES]);
  (0x1f0ac, [w_PLAYING;w_CARD;w_KNIGHT;w_OF;w_SPADES]);
  (0x1f0ad, [w_PLAYING;w_CARD;w_QUEEN;w_OF;w_SPADES]);
  (0x1f0ae, [w_PLAYING;w_CARD;w_KING;w_OF;w_SPADES]);
  (0x1f0b1, [w_PLAYING;w_CARD;w_ACE;w_OF;w_HEARTS]);
  (0x1f0b2, [w_PLAYING;w_CARD;w_TWO;w_OF;w_HEARTS]);
  (0x1f0b3, [w_PLAYING;w_CARD;w_THREE;w_OF;w_HEARTS]);
  (0x1f0b4, [w_PLAYING;w_CARD;w_FOUR;w_OF;w_HEARTS]);
  (0x1f0b5, [w_PLAYING;w_CARD;w_FIVE;w_OF;w_HEARTS]);
  (0x1f0b6, [w_PLAYING;w_CARD;w_SIX;w_OF;w_HEARTS]);
  (0x1f0b7, [w_PLAYING;w_CARD;w_SEVEN;w_OF;w_HEARTS]);
  (0x1f0b8, [w_PLAYING;w_CARD;w_EIGHT;w_OF;w_HEARTS]);
  (0x1f0b9, [w_PLAYING;w_CARD;w_NINE;w_OF;w_HEARTS]);
  (0x1f0ba, [w_PLAYING;w_CARD;w_TEN;w_OF;w_HEARTS]);
  (0x1f0bb, [w_PLAYING;w_CARD;w_JACK;w_OF;w_HEARTS]);
  (0x1f0bc, [w_PLAYING;w_CARD;w_KNIGHT;w_OF;w_HEARTS]);
  (0x1f0bd, [w_PLAYING;w_CARD;w_QUEEN;w_OF;w_HEARTS]);
  (0x1f0be, [w_PLAYING;w_CARD;w_KING;w_OF;w_HEARTS]);
  (0x1f0bf, [w_PLAYING;w_CARD;w_RED;w_JOKER]);
  (0x1f0c1, [w_PLAYING;w_CARD;w_ACE;w_OF;w_DIAMONDS]);
  (0x1f0c2, [w_PLAYING;w_CARD;w_TWO;w_OF;w_DIAMONDS]);
  (0x1f0c3, [w_PLAYING;w_CARD;w_THREE;w_OF;w_DIAMONDS]);
  (0x1f0c4, [w_PLAYING;w_CARD;w_FOUR;w_OF;w_DIAMONDS]);
  (0x1f0c5, [w_PLAYING;w_CARD;w_FIVE;w_OF;w_DIAMONDS]);
  (0x1f0c6, [w_PLAYING;w_CARD;w_SIX;w_OF;w_DIAMONDS]);
  (0x1f0c7, [w_PLAYING;w_CARD;w_SEVEN;w_OF;w_DIAMONDS]);
  (0x1f0c8, [w_PLAYING;w_CARD;w_EIGHT;w_OF;w_DIAMONDS]);
  (0x1f0c9, [w_PLAYING;w_CARD;w_NINE;w_OF;w_DIAMONDS]);
  (0x1f0ca, [w_PLAYING;w_CARD;w_TEN;w_OF;w_DIAMONDS]);
  (0x1f0cb, [w_PLAYING;w_CARD;w_JACK;w_OF;w_DIAMONDS]);
  (0x1f0cc, [w_PLAYING;w_CARD;w_KNIGHT;w_OF;w_DIAMONDS]);
  (0x1f0cd, [w_PLAYING;w_CARD;w_QUEEN;w_OF;w_DIAMONDS]);
  (0x1f0ce, [w_PLAYING;w_CARD;w_KING;w_OF;w_DIAMONDS]);
  (0x1f0cf, [w_PLAYING;w_CARD;w_BLACK;w_JOKER]);
  (0x1f0d1, [w_PLAYING;w_CARD;w_ACE;w_OF;w_CLUBS]);
  (0x1f0d2, [w_PLAYING;w_CARD;w_TWO;w_OF;w_CLUBS]);
  (0x1f0d3, [w_PLAYING;w_CARD;w_THREE;w_OF;w_CLUBS]);
  (0x1f0d4, [w_PLAYING;w_CARD;w_FOUR;w_OF;w_CLUBS]);
  (0x1f0d5, [w_PLAYING;w_CARD;w_FIVE;w_OF;w_CLUBS]);
  (0x1f0d6, [w_PLAYING;w_CARD;w_SIX;w_OF;w_CLUBS]);
  (0x1f0d7, [w_PLAYING;w_CARD;w_SEVEN;w_OF;w_CLUBS]);
  (0x1f0d8, [w_PLAYING;w_CARD;w_EIGHT;w_OF;w_CLUBS]);
  (0x1f0d9, [w_PLAYING;w_CARD;w_NINE;w_OF;w_CLUBS]);
  (0x1f0da, [w_PLAYING;w_CARD;w_TEN;w_OF;w_CLUBS]);
  (0x1f0db, [w_PLAYING;w_CARD;w_JACK;w_OF;w_CLUBS]);
  (0x1f0dc, [w_PLAYING;w_CARD;w_KNIGHT;w_OF;w_CLUBS]);
  (0x1f0dd, [w_PLAYING;w_CARD;w_QUEEN;w_OF;w_CLUBS]);
  (0x1f0de, [w_PLAYING;w_CARD;w_KING;w_OF;w_CLUBS]);
  (0x1f0df, [w_PLAYING;w_CARD;w_WHITE;w_JOKER]);
  (0x1f0e0, [w_PLAYING;w_CARD;w_FOOL]);
  (0x1f0e1, [w_PLAYING;w_CARD;w_TRUMP_1]);
  (0x1f0e2, [w_PLAYING;w_CARD;w_TRUMP_2]);
  (0x1f0e3, [w_PLAYING;w_CARD;w_TRUMP_3]);
  (0x1f0e4, [w_PLAYING;w_CARD;w_TRUMP_4]);
  (0x1f0e5, [w_PLAYING;w_CARD;w_TRUMP_5]);
  (0x1f0e6, [w_PLAYING;w_CARD;w_TRUMP_6]);
  (0x1f0e7, [w_PLAYING;w_CARD;w_TRUMP_7]);
  (0x1f0e8, [w_PLAYING;w_CARD;w_TRUMP_8]);
  (0x1f0e9, [w_PLAYING;w_CARD;w_TRUMP_9]);
  (0x1f0ea, [w_PLAYING;w_CARD;w_TRUMP_10]);
  (0x1f0eb, [w_PLAYING;w_CARD;w_TRUMP_11]);
  (0x1f0ec, [w_PLAYING;w_CARD;w_TRUMP_12]);
  (0x1f0ed, [w_PLAYING;w_CARD;w_TRUMP_13]);
  (0x1f0ee, [w_PLAYING;w_CARD;w_TRUMP_14]);
  (0x1f0ef, [w_PLAYING;w_CARD;w_TRUMP_15]);
  (0x1f0f0, [w_PLAYING;w_CARD;w_TRUMP_16]);
  (0x1f0f1, [w_PLAYING;w_CARD;w_TRUMP_17]);
  (0x1f0f2, [w_PLAYING;w_CARD;w_TRUMP_18]);
  (0x1f0f3, [w_PLAYING;w_CARD;w_TRUMP_19]);
  (0x1f0f4, [w_PLAYING;w_CARD;w_TRUMP_20]);
  (0x1f0f5, [w_PLAYING;w_CARD;w_TRUMP_21]);
  (0x1f100, [w_DIGIT;w_ZERO;w_FULL;w_STOP]);
  (0x1f101, [w_DIGIT;w_ZERO;w_COMMA]);
  (0x1f102, [w_DIGIT;w_ONE;w_COMMA]);
  (0x1f103, [w_DIGIT;w_TWO;w_COMMA]);
  (0x1f104, [w_DIGIT;w_THREE;w_COMMA]);
  (0x1f105, [w_DIGIT;w_FOUR;w_COMMA]);
  (0x1f106, [w_DIGIT;w_FIVE;w_COMMA]);
  (0x1f107, [w_DIGIT;w_SIX;w_COMMA]);
  (0x1f108, [w_DIGIT;w_SEVEN;w_COMMA]);
  (0x1f109, [w_DIGIT;w_EIGHT;w_COMMA]);
  (0x1f10a, [w_DIGIT;w_NINE;w_COMMA]);
  (0x1f10b, [w_DINGBAT;w_CIRCLED;w_SANS_SERIF;w_DIGIT;w_ZERO]);
  (0x1f10c, [w_DINGBAT;w_NEGATIVE;w_CIRCLED;w_SANS_SERIF;w_DIGIT;w_ZERO]);
  (0x1f110, [w_PARENTHESIZED;w_LATIN;w_CAPITAL;w_LETTER;w_A]);
  (0x1f111, [w_PARENTHESIZED;w_LATIN;w_CAPITAL;w_LETTER;w_B]);
  (0x1f112, [w_PARENTHESIZED;w_LATIN;w_CAPITAL;w_LETTER;w_C]);
  (0x1f113, [w_PARENTHESIZED;w_LATIN;w_CAPITAL;w_LETTER;w_D]);
  (0x1f114, [w_PARENTHESIZED;w_LATIN;w_CAPITAL;w_LETTER;w_E]);
  (0x1f115, [w_PARENTHESIZED;w_LATIN;w_CAPITAL;w_LETTER;w_F]);
  (0x1f116, [w_PARENTHESIZED;w_LATIN;w_CAPITAL;w_LETTER;w_G]);
  (0x1f117, [w_PARENTHESIZED;w_LATIN;w_CAPITAL;w_LETTER;w_H]);
  (0x1f118, [w_PARENTHESIZED;w_LATIN;w_CAPITAL;w_LETTER;w_I]);
  (0x1f119, [w_PARENTHESIZED;w_LATIN;w_CAPITAL;w_LETTER;w_J]);
  (0x1f11a, [w_PARENTHESIZED;w_LATIN;w_CAPITAL;w_LETTER;w_K]);
  (0x1f11b, [w_PARENTHESIZED;w_LATIN;w_CAPITAL;w_LETTER;w_L]);
  (0x1f11c, [w_PARENTHESIZED;w_LATIN;w_CAPITAL;w_LETTER;w_M]);
  (0x1f11d, [w_PARENTHESIZED;w_LATIN;w_CAPITAL;w_LETTER;w_N]);
  (0x1f11e, [w_PARENTHESIZED;w_LATIN;w_CAPITAL;w_LETTER;w_O]);
  (0x1f11f, [w_PARENTHESIZED;w_LATIN;w_CAPITAL;w_LETTER;w_P]);
  (0x1f120, [w_PARENTHESIZED;w_LATIN;w_CAPITAL;w_LETTER;w_Q]);
  (0x1f121, [w_PARENTHESIZED;w_LATIN;w_CAPITAL;w_LETTER;w_R]);
  (0x1f122, [w_PARENTHESIZED;w_LATIN;w_CAPITAL;w_LETTER;w_S]);
  (0x1f123, [w_PARENTHESIZED;w_LATIN;w_CAPITAL;w_LETTER;w_T]);
  (0x1f124, [w_PARENTHESIZED;w_LATIN;w_CAPITAL;w_LETTER;w_U]);
  (0x1f125, [w_PARENTHESIZED;w_LATIN;w_CAPITAL;w_LETTER;w_V]);
  (0x1f126, [w_PARENTHESIZED;w_LATIN;w_CAPITAL;w_LETTER;w_W]);
  (0x1f127, [w_PARENTHESIZED;w_LATIN;w_CAPITAL;w_LETTER;w_X]);
  (0x1f128, [w_PARENTHESIZED;w_LATIN;w_CAPITAL;w_LETTER;w_Y]);
  (0x1f129, [w_PARENTHESIZED;w_LATIN;w_CAPITAL;w_LETTER;w_Z]);
  (0x1f12a, [w_TORTOISE;w_SHELL;w_BRACKETED;w_LATIN;w_CAPITAL;w_LETTER;w_S]);
  (0x1f12b, [w_CIRCLED;w_ITALIC;w_LATIN;w_CAPITAL;w_LETTER;w_C]);
  (0x1f12c, [w_CIRCLED;w_ITALIC;w_LATIN;w_CAPITAL;w_LETTER;w_R]);
  (0x1f12d, [w_CIRCLED;w_CD]);
  (0x1f12e, [w_CIRCLED;w_WZ]);
  (0x1f130, [w_SQUARED;w_LATIN;w_CAPITAL;w_LETTER;w_A]);
  (0x1f131, [w_SQUARED;w_LATIN;w_CAPITAL;w_LETTER;w_B]);
  (0x1f132, [w_SQUARED;w_LATIN;w_CAPITAL;w_LETTER;w_C]);
  (0x1f133, [w_SQUARED;w_LATIN;w_CAPITAL;w_LETTER;w_D]);
  (0x1f134, [w_SQUARED;w_LATIN;w_CAPITAL;w_LETTER;w_E]);
  (0x1f135, [w_SQUARED;w_LATIN;w_CAPITAL;w_LETTER;w_F]);
  (0x1f136, [w_SQUARED;w_LATIN;w_CAPITAL;w_LETTER;w_G]);
  (0x1f137, [w_SQUARED;w_LATIN;w_CAPITAL;w_LETTER;w_H]);
  (0x1f138, [w_SQUARED;w_LATIN;w_CAPITAL;w_LETTER;w_I]);
  (0x1f139, [w_SQUARED;w_LATIN;w_CAPITAL;w_LETTER;w_J]);
  (0x1f13a, [w_SQUARED;w_LATIN;w_CAPITAL;w_LETTER;w_K]);
  (0x1f13b, [w_SQUARED;w_LATIN;w_CAPITAL;w_LETTER;w_L]);
  (0x1f13c, [w_SQUARED;w_LATIN;w_CAPITAL;w_LETTER;w_M]);
  (0x1f13d, [w_SQUARED;w_LATIN;w_CAPITAL;w_LETTER;w_N]);
  (0x1f13e, [w_SQUARED;w_LATIN;w_CAPITAL;w_LETTER;w_O]);
  (0x1f13f, [w_SQUARED;w_LATIN;w_CAPITAL;w_LETTER;w_P]);
  (0x1f140, [w_SQUARED;w_LATIN;w_CAPITAL;w_LETTER;w_Q]);
  (0x1f141, [w_SQUARED;w_LATIN;w_CAPITAL;w_LETTER;w_R]);
  (0x1f142, [w_SQUARED;w_LATIN;w_CAPITAL;w_LETTER;w_S]);
  (0x1f143, [w_SQUARED;w_LATIN;w_CAPITAL;w_LETTER;w_T]);
  (0x1f144, [w_SQUARED;w_LATIN;w_CAPITAL;w_LETTER;w_U]);
  (0x1f145, [w_SQUARED;w_LATIN;w_CAPITAL;w_LETTER;w_V]);
  (0x1f146, [w_SQUARED;w_LATIN;w_CAPITAL;w_LETTER;w_W]);
  (0x1f147, [w_SQUARED;w_LATIN;w_CAPITAL;w_LETTER;w_X]);
  (0x1f148, [w_SQUARED;w_LATIN;w_CAPITAL;w_LETTER;w_Y]);
  (0x1f149, [w_SQUARED;w_LATIN;w_CAPITAL;w_LETTER;w_Z]);
  (0x1f14a, [w_SQUARED;w_HV]);
  (0x1f14b, [w_SQUARED;w_MV]);
  (0x1f14c, [w_SQUARED;w_SD]);
  (0x1f14d, [w_SQUARED;w_SS]);
  (0x1f14e, [w_SQUARED;w_PPV]);
  (0x1f14f, [w_SQUARED;w_WC]);
  (0x1f150, [w_NEGATIVE;w_CIRCLED;w_LATIN;w_CAPITAL;w_LETTER;w_A]);
  (0x1f151, [w_NEGATIVE;w_CIRCLED;w_LATIN;w_CAPITAL;w_LETTER;w_B]);
  (0x1f152, [w_NEGATIVE;w_CIRCLED;w_LATIN;w_CAPITAL;w_LETTER;w_C]);
  (0x1f153, [w_NEGATIVE;w_CIRCLED;w_LATIN;w_CAPITAL;w_LETTER;w_D]);
  (0x1f154, [w_NEGATIVE;w_CIRCLED;w_LATIN;w_CAPITAL;w_LETTER;w_E]);
  (0x1f155, [w_NEGATIVE;w_CIRCLED;w_LATIN;w_CAPITAL;w_LETTER;w_F]);
  (0x1f156, [w_NEGATIVE;w_CIRCLED;w_LATIN;w_CAPITAL;w_LETTER;w_G]);
  (0x1f157, [w_NEGATIVE;w_CIRCLED;w_LATIN;w_CAPITAL;w_LETTER;w_H]);
  (0x1f158, [w_NEGATIVE;w_CIRCLED;w_LATIN;w_CAPITAL;w_LETTER;w_I]);
  (0x1f159, [w_NEGATIVE;w_CIRCLED;w_LATIN;w_CAPITAL;w_LETTER;w_J]);
  (0x1f15a, [w_NEGATIVE;w_CIRCLED;w_LATIN;w_CAPITAL;w_LETTER;w_K]);
  (0x1f15b, [w_NEGATIVE;w_CIRCLED;w_LATIN;w_CAPITAL;w_LETTER;w_L]);
  (0x1f15c, [w_NEGATIVE;w_CIRCLED;w_LATIN;w_CAPITAL;w_LETTER;w_M]);
  (0x1f15d, [w_NEGATIVE;w_CIRCLED;w_LATIN;w_CAPITAL;w_LETTER;w_N]);
  (0x1f15e, [w_NEGATIVE;w_CIRCLED;w_LATIN;w_CAPITAL;w_LETTER;w_O]);
  (0x1f15f, [w_NEGATIVE;w_CIRCLED;w_LATIN;w_CAPITAL;w_LETTER;w_P]);
  (0x1f160, [w_NEGATIVE;w_CIRCLED;w_LATIN;w_CAPITAL;w_LETTER;w_Q]);
  (0x1f161, [w_NEGATIVE;w_CIRCLED;w_LATIN;w_CAPITAL;w_LETTER;w_R]);
  (0x1f162, [w_NEGATIVE;w_CIRCLED;w_LATIN;w_CAPITAL;w_LETTER;w_S]);
  (0x1f163, [w_NEGATIVE;w_CIRCLED;w_LATIN;w_CAPITAL;w_LETTER;w_T]);
  (0x1f164, [w_NEGATIVE;w_CIRCLED;w_LATIN;w_CAPITAL;w_LETTER;w_U]);
  (0x1f165, [w_NEGATIVE;w_CIRCLED;w_LATIN;w_CAPITAL;w_LETTER;w_V]);
  (0x1f166, [w_NEGATIVE;w_CIRCLED;w_LATIN;w_CAPITAL;w_LETTER;w_W]);
  (0x1f167, [w_NEGATIVE;w_CIRCLED;w_LATIN;w_CAPITAL;w_LETTER;w_X]);
  (0x1f168, [w_NEGATIVE;w_CIRCLED;w_LATIN;w_CAPITAL;w_LETTER;w_Y]);
  (0x1f169, [w_NEGATIVE;w_CIRCLED;w_LATIN;w_CAPITAL;w_LETTER;w_Z]);
  (0x1f16a, [w_RAISED;w_MC;w_SIGN]);
  (0x1f16b, [w_RAISED;w_MD;w_SIGN]);
  (0x1f170, [w_NEGATIVE;w_SQUARED;w_LATIN;w_CAPITAL;w_LETTER;w_A]);
  (0x1f171, [w_NEGATIVE;w_SQUARED;w_LATIN;w_CAPITAL;w_LETTER;w_B]);
  (0x1f172, [w_NEGATIVE;w_SQUARED;w_LATIN;w_CAPITAL;w_LETTER;w_C]);
  (0x1f173, [w_NEGATIVE;w_SQUARED;w_LATIN;w_CAPITAL;w_LETTER;w_D]);
  (0x1f174, [w_NEGATIVE;w_SQUARED;w_LATIN;w_CAPITAL;w_LETTER;w_E]);
  (0x1f175, [w_NEGATIVE;w_SQUARED;w_LATIN;w_CAPITAL;w_LETTER;w_F]);
  (0x1f176, [w_NEGATIVE;w_SQUARED;w_LATIN;w_CAPITAL;w_LETTER;w_G]);
  (0x1f177, [w_NEGATIVE;w_SQUARED;w_LATIN;w_CAPITAL;w_LETTER;w_H]);
  (0x1f178, [w_NEGATIVE;w_SQUARED;w_LATIN;w_CAPITAL;w_LETTER;w_I]);
  (0x1f179, [w_NEGATIVE;w_SQUARED;w_LATIN;w_CAPITAL;w_LETTER;w_J]);
  (0x1f17a, [w_NEGATIVE;w_SQUARED;w_LATIN;w_CAPITAL;w_LETTER;w_K]);
  (0x1f17b, [w_NEGATIVE;w_SQUARED;w_LATIN;w_CAPITAL;w_LETTER;w_L]);
  (0x1f17c, [w_NEGATIVE;w_SQUARED;w_LATIN;w_CAPITAL;w_LETTER;w_M]);
  (0x1f17d, [w_NEGATIVE;w_SQUARED;w_LATIN;w_CAPITAL;w_LETTER;w_N]);
  (0x1f17e, [w_NEGATIVE;w_SQUARED;w_LATIN;w_CAPITAL;w_LETTER;w_O]);
  (0x1f17f, [w_NEGATIVE;w_SQUARED;w_LATIN;w_CAPITAL;w_LETTER;w_P]);
  (0x1f180, [w_NEGATIVE;w_SQUARED;w_LATIN;w_CAPITAL;w_LETTER;w_Q]);
  (0x1f181, [w_NEGATIVE;w_SQUARED;w_LATIN;w_CAPITAL;w_LETTER;w_R]);
  (0x1f182, [w_NEGATIVE;w_SQUARED;w_LATIN;w_CAPITAL;w_LETTER;w_S]);
  (0x1f183, [w_NEGATIVE;w_SQUARED;w_LATIN;w_CAPITAL;w_LETTER;w_T]);
  (0x1f184, [w_NEGATIVE;w_SQUARED;w_LATIN;w_CAPITAL;w_LETTER;w_U]);
  (0x1f185, [w_NEGATIVE;w_SQUARED;w_LATIN;w_CAPITAL;w_LETTER;w_V]);
  (0x1f186, [w_NEGATIVE;w_SQUARED;w_LATIN;w_CAPITAL;w_LETTER;w_W]);
  (0x1f187, [w_NEGATIVE;w_SQUARED;w_LATIN;w_CAPITAL;w_LETTER;w_X]);
  (0x1f188, [w_NEGATIVE;w_SQUARED;w_LATIN;w_CAPITAL;w_LETTER;w_Y]);
  (0x1f189, [w_NEGATIVE;w_SQUARED;w_LATIN;w_CAPITAL;w_LETTER;w_Z]);
  (0x1f18a, [w_CROSSED;w_NEGATIVE;w_SQUARED;w_LATIN;w_CAPITAL;w_LETTER;w_P]);
  (0x1f18b, [w_NEGATIVE;w_SQUARED;w_IC]);
  (0x1f18c, [w_NEGATIVE;w_SQUARED;w_PA]);
  (0x1f18d, [w_NEGATIVE;w_SQUARED;w_SA]);
  (0x1f18e, [w_NEGATIVE;w_SQUARED;w_AB]);
  (0x1f18f, [w_NEGATIVE;w_SQUARED;w_WC]);
  (0x1f190, [w_SQUARE;w_DJ]);
  (0x1f191, [w_SQUARED;w_CL]);
  (0x1f192, [w_SQUARED;w_COOL]);
  (0x1f193, [w_SQUARED;w_FREE]);
  (0x1f194, [w_SQUARED;w_ID]);
  (0x1f195, [w_SQUARED;w_NEW]);
  (0x1f196, [w_SQUARED;w_NG]);
  (0x1f197, [w_SQUARED;w_OK]);
  (0x1f198, [w_SQUARED;w_SOS]);
  (0x1f199, [w_SQUARED;w_UP;w_WITH;w_EXCLAMATION;w_MARK]);
  (0x1f19a, [w_SQUARED;w_VS]);
  (0x1f19b, [w_SQUARED;w_THREE;w_D]);
  (0x1f19c, [w_SQUARED;w_SECOND;w_SCREEN]);
  (0x1f19d, [w_SQUARED;w_TWO;w_K]);
  (0x1f19e, [w_SQUARED;w_FOUR;w_K]);
  (0x1f19f, [w_SQUARED;w_EIGHT;w_K]);
  (0x1f1a0, [w_SQUARED;w_FIVE;w_POINT;w_ONE]);
  (0x1f1a1, [w_SQUARED;w_SEVEN;w_POINT;w_ONE]);
  (0x1f1a2, [w_SQUARED;w_TWENTY_TWO;w_POINT;w_TWO]);
  (0x1f1a3, [w_SQUARED;w_SIXTY;w_P]);
  (0x1f1a4, [w_SQUARED;w_ONE;w_HUNDRED;w_TWENTY;w_P]);
  (0x1f1a5, [w_SQUARED;w_LATIN;w_SMALL;w_LETTER;w_D]);
  (0x1f1a6, [w_SQUARED;w_HC]);
  (0x1f1a7, [w_SQUARED;w_HDR]);
  (0x1f1a8, [w_SQUARED;w_HI_RES]);
  (0x1f1a9, [w_SQUARED;w_LOSSLESS]);
  (0x1f1aa, [w_SQUARED;w_SHV]);
  (0x1f1ab, [w_SQUARED;w_UHD]);
  (0x1f1ac, [w_SQUARED;w_VOD]);
  (0x1f1e6, [w_REGIONAL;w_INDICATOR;w_SYMBOL;w_LETTER;w_A]);
  (0x1f1e7, [w_REGIONAL;w_INDICATOR;w_SYMBOL;w_LETTER;w_B]);
  (0x1f1e8, [w_REGIONAL;w_INDICATOR;w_SYMBOL;w_LETTER;w_C]);
  (0x1f1e9, [w_REGIONAL;w_INDICATOR;w_SYMBOL;w_LETTER;w_D]);
  (0x1f1ea, [w_REGIONAL;w_INDICATOR;w_SYMBOL;w_LETTER;w_E]);
  (0x1f1eb, [w_REGIONAL;w_INDICATOR;w_SYMBOL;w_LETTER;w_F]);
  (0x1f1ec, [w_REGIONAL;w_INDICATOR;w_SYMBOL;w_LETTER;w_G]);
  (0x1f1ed, [w_REGIONAL;w_INDICATOR;w_SYMBOL;w_LETTER;w_H]);
  (0x1f1ee, [w_REGIONAL;w_INDICATOR;w_SYMBOL;w_LETTER;w_I]);
  (0x1f1ef, [w_REGIONAL;w_INDICATOR;w_SYMBOL;w_LETTER;w_J]);
  (0x1f1f0, [w_REGIONAL;w_INDICATOR;w_SYMBOL;w_LETTER;w_K]);
  (0x1f1f1, [w_REGIONAL;w_INDICATOR;w_SYMBOL;w_LETTER;w_L]);
  (0x1f1f2, [w_REGIONAL;w_INDICATOR;w_SYMBOL;w_LETTER;w_M]);
  (0x1f1f3, [w_REGIONAL;w_INDICATOR;w_SYMBOL;w_LETTER;w_N]);
  (0x1f1f4, [w_REGIONAL;w_INDICATOR;w_SYMBOL;w_LETTER;w_O]);
  (0x1f1f5, [w_REGIONAL;w_INDICATOR;w_SYMBOL;w_LETTER;w_P]);
  (0x1f1f6, [w_REGIONAL;w_INDICATOR;w_SYMBOL;w_LETTER;w_Q]);
  (0x1f1f7, [w_REGIONAL;w_INDICATOR;w_SYMBOL;w_LETTER;w_R]);
  (0x1f1f8, [w_REGIONAL;w_INDICATOR;w_SYMBOL;w_LETTER;w_S]);
  (0x1f1f9, [w_REGIONAL;w_INDICATOR;w_SYMBOL;w_LETTER;w_T]);
  (0x1f1fa, [w_REGIONAL;w_INDICATOR;w_SYMBOL;w_LETTER;w_U]);
  (0x1f1fb, [w_REGIONAL;w_INDICATOR;w_SYMBOL;w_LETTER;w_V]);
  (0x1f1fc, [w_REGIONAL;w_INDICATOR;w_SYMBOL;w_LETTER;w_W]);
  (0x1f1fd, [w_REGIONAL;w_INDICATOR;w_SYMBOL;w_LETTER;w_X]);
  (0x1f1fe, [w_REGIONAL;w_INDICATOR;w_SYMBOL;w_LETTER;w_Y]);
  (0x1f1ff, [w_REGIONAL;w_INDICATOR;w_SYMBOL;w_LETTER;w_Z]);
  (0x1f200, [w_SQUARE;w_HIRAGANA;w_HOKA]);
  (0x1f201, [w_SQUARED;w_KATAKANA;w_KOKO]);
  (0x1f202, [w_SQUARED;w_KATAKANA;w_SA]);
  (0x1f210, [w_SQUARED;w_CJK;w_UNIFIED;w_IDEOGRAPH_624B]);
  (0x1f211, [w_SQUARED;w_CJK;w_UNIFIED;w_IDEOGRAPH_5B57]);
  (0x1f212, [w_SQUARED;w_CJK;w_UNIFIED;w_IDEOGRAPH_53CC]);
  (0x1f213, [w_SQUARED;w_KATAKANA;w_DE]);
  (0x1f214, [w_SQUARED;w_CJK;w_UNIFIED;w_IDEOGRAPH_4E8C]);
  (0x1f215, [w_SQUARED;w_CJK;w_UNIFIED;w_IDEOGRAPH_591A]);
  (0x1f216, [w_SQUARED;w_CJK;w_UNIFIED;w_IDEOGRAPH_89E3]);
  (0x1f217, [w_SQUARED;w_CJK;w_UNIFIED;w_IDEOGRAPH_5929]);
  (0x1f218, [w_SQUARED;w_CJK;w_UNIFIED;w_IDEOGRAPH_4EA4]);
  (0x1f219, [w_SQUARED;w_CJK;w_UNIFIED;w_IDEOGRAPH_6620]);
  (0x1f21a, [w_SQUARED;w_CJK;w_UNIFIED;w_IDEOGRAPH_7121]);
  (0x1f21b, [w_SQUARED;w_CJK;w_UNIFIED;w_IDEOGRAPH_6599]);
  (0x1f21c, [w_SQUARED;w_CJK;w_UNIFIED;w_IDEOGRAPH_524D]);
  (0x1f21d, [w_SQUARED;w_CJK;w_UNIFIED;w_IDEOGRAPH_5F8C]);
  (0x1f21e, [w_SQUARED;w_CJK;w_UNIFIED;w_IDEOGRAPH_518D]);
  (0x1f21f, [w_SQUARED;w_CJK;w_UNIFIED;w_IDEOGRAPH_65B0]);
  (0x1f220, [w_SQUARED;w_CJK;w_UNIFIED;w_IDEOGRAPH_521D]);
  (0x1f221, [w_SQUARED;w_CJK;w_UNIFIED;w_IDEOGRAPH_7D42]);
  (0x1f222, [w_SQUARED;w_CJK;w_UNIFIED;w_IDEOGRAPH_751F]);
  (0x1f223, [w_SQUARED;w_CJK;w_UNIFIED;w_IDEOGRAPH_8CA9]);
  (0x1f224, [w_SQUARED;w_CJK;w_UNIFIED;w_IDEOGRAPH_58F0]);
  (0x1f225, [w_SQUARED;w_CJK;w_UNIFIED;w_IDEOGRAPH_5439]);
  (0x1f226, [w_SQUARED;w_CJK;w_UNIFIED;w_IDEOGRAPH_6F14]);
  (0x1f227, [w_SQUARED;w_CJK;w_UNIFIED;w_IDEOGRAPH_6295]);
  (0x1f228, [w_SQUARED;w_CJK;w_UNIFIED;w_IDEOGRAPH_6355]);
  (0x1f229, [w_SQUARED;w_CJK;w_UNIFIED;w_IDEOGRAPH_4E00]);
  (0x1f22a, [w_SQUARED;w_CJK;w_UNIFIED;w_IDEOGRAPH_4E09]);
  (0x1f22b, [w_SQUARED;w_CJK;w_UNIFIED;w_IDEOGRAPH_904A]);
  (0x1f22c, [w_SQUARED;w_CJK;w_UNIFIED;w_IDEOGRAPH_5DE6]);
  (0x1f22d, [w_SQUARED;w_CJK;w_UNIFIED;w_IDEOGRAPH_4E2D]);
  (0x1f22e, [w_SQUARED;w_CJK;w_UNIFIED;w_IDEOGRAPH_53F3]);
  (0x1f22f, [w_SQUARED;w_CJK;w_UNIFIED;w_IDEOGRAPH_6307]);
  (0x1f230, [w_SQUARED;w_CJK;w_UNIFIED;w_IDEOGRAPH_8D70]);
  (0x1f231, [w_SQUARED;w_CJK;w_UNIFIED;w_IDEOGRAPH_6253]);
  (0x1f232, [w_SQUARED;w_CJK;w_UNIFIED;w_IDEOGRAPH_7981]);
  (0x1f233, [w_SQUARED;w_CJK;w_UNIFIED;w_IDEOGRAPH_7A7A]);
  (0x1f234, [w_SQUARED;w_CJK;w_UNIFIED;w_IDEOGRAPH_5408]);
  (0x1f235, [w_SQUARED;w_CJK;w_UNIFIED;w_IDEOGRAPH_6E80]);
  (0x1f236, [w_SQUARED;w_CJK;w_UNIFIED;w_IDEOGRAPH_6709]);
  (0x1f237, [w_SQUARED;w_CJK;w_UNIFIED;w_IDEOGRAPH_6708]);
  (0x1f238, [w_SQUARED;w_CJK;w_UNIFIED;w_IDEOGRAPH_7533]);
  (0x1f239, [w_SQUARED;w_CJK;w_UNIFIED;w_IDEOGRAPH_5272]);
  (0x1f23a, [w_SQUARED;w_CJK;w_UNIFIED;w_IDEOGRAPH_55B6]);
  (0x1f23b, [w_SQUARED;w_CJK;w_UNIFIED;w_IDEOGRAPH_914D]);
  (0x1f240, [w_TORTOISE;w_SHELL;w_BRACKETED;w_CJK;w_UNIFIED;w_IDEOGRAPH_672C]);
  (0x1f241, [w_TORTOISE;w_SHELL;w_BRACKETED;w_CJK;w_UNIFIED;w_IDEOGRAPH_4E09]);
  (0x1f242, [w_TORTOISE;w_SHELL;w_BRACKETED;w_CJK;w_UNIFIED;w_IDEOGRAPH_4E8C]);
  (0x1f243, [w_TORTOISE;w_SHELL;w_BRACKETED;w_CJK;w_UNIFIED;w_IDEOGRAPH_5B89]);
  (0x1f244, [w_TORTOISE;w_SHELL;w_BRACKETED;w_CJK;w_UNIFIED;w_IDEOGRAPH_70B9]);
  (0x1f245, [w_TORTOISE;w_SHELL;w_BRACKETED;w_CJK;w_UNIFIED;w_IDEOGRAPH_6253]);
  (0x1f246, [w_TORTOISE;w_SHELL;w_BRACKETED;w_CJK;w_UNIFIED;w_IDEOGRAPH_76D7]);
  (0x1f247, [w_TORTOISE;w_SHELL;w_BRACKETED;w_CJK;w_UNIFIED;w_IDEOGRAPH_52DD]);
  (0x1f248, [w_TORTOISE;w_SHELL;w_BRACKETED;w_CJK;w_UNIFIED;w_IDEOGRAPH_6557]);
  (0x1f250, [w_CIRCLED;w_IDEOGRAPH;w_ADVANTAGE]);
  (0x1f251, [w_CIRCLED;w_IDEOGRAPH;w_ACCEPT]);
  (0x1f260, [w_ROUNDED;w_SYMBOL;w_FOR;w_FU]);
  (0x1f261, [w_ROUNDED;w_SYMBOL;w_FOR;w_LU]);
  (0x1f262, [w_ROUNDED;w_SYMBOL;w_FOR;w_SHOU]);
  (0x1f263, [w_ROUNDED;w_SYMBOL;w_FOR;w_XI]);
  (0x1f264, [w_ROUNDED;w_SYMBOL;w_FOR;w_SHUANGXI]);
  (0x1f265, [w_ROUNDED;w_SYMBOL;w_FOR;w_CAI]);
  (0x1f300, [w_CYCLONE]);
  (0x1f301, [w_FOGGY]);
  (0x1f302, [w_CLOSED;w_UMBRELLA]);
  (0x1f303, [w_NIGHT;w_WITH;w_STARS]);
  (0x1f304, [w_SUNRISE;w_OVER;w_MOUNTAINS]);
  (0x1f305, [w_SUNRISE]);
  (0x1f306, [w_CITYSCAPE;w_AT;w_DUSK]);
  (0x1f307, [w_SUNSET;w_OVER;w_BUILDINGS]);
  (0x1f308, [w_RAINBOW]);
  (0x1f309, [w_BRIDGE;w_AT;w_NIGHT]);
  (0x1f30a, [w_WATER;w_WAVE]);
  (0x1f30b, [w_VOLCANO]);
  (0x1f30c, [w_MILKY;w_WAY]);
  (0x1f30d, [w_EARTH;w_GLOBE;w_EUROPE_AFRICA]);
  (0x1f30e, [w_EARTH;w_GLOBE;w_AMERICAS]);
  (0x1f30f, [w_EARTH;w_GLOBE;w_ASIA_AUSTRALIA]);
  (0x1f310, [w_GLOBE;w_WITH;w_MERIDIANS]);
  (0x1f311, [w_NEW;w_MOON;w_SYMBOL]);
  (0x1f312, [w_WAXING;w_CRESCENT;w_MOON;w_SYMBOL]);
  (0x1f313, [w_FIRST;w_QUARTER;w_MOON;w_SYMBOL]);
  (0x1f314, [w_WAXING;w_GIBBOUS;w_MOON;w_SYMBOL]);
  (0x1f315, [w_FULL;w_MOON;w_SYMBOL]);
  (0x1f316, [w_WANING;w_GIBBOUS;w_MOON;w_SYMBOL]);
  (0x1f317, [w_LAST;w_QUARTER;w_MOON;w_SYMBOL]);
  (0x1f318, [w_WANING;w_CRESCENT;w_MOON;w_SYMBOL]);
  (0x1f319, [w_CRESCENT;w_MOON]);
  (0x1f31a, [w_NEW;w_MOON;w_WITH;w_FACE]);
  (0x1f31b, [w_FIRST;w_QUARTER;w_MOON;w_WITH;w_FACE]);
  (0x1f31c, [w_LAST;w_QUARTER;w_MOON;w_WITH;w_FACE]);
  (0x1f31d, [w_FULL;w_MOON;w_WITH;w_FACE]);
  (0x1f31e, [w_SUN;w_WITH;w_FACE]);
  (0x1f31f, [w_GLOWING;w_STAR]);
  (0x1f320, [w_SHOOTING;w_STAR]);
  (0x1f321, [w_THERMOMETER]);
  (0x1f322, [w_BLACK;w_DROPLET]);
  (0x1f323, [w_WHITE;w_SUN]);
  (0x1f324, [w_WHITE;w_SUN;w_WITH;w_SMALL;w_CLOUD]);
  (0x1f325, [w_WHITE;w_SUN;w_BEHIND;w_CLOUD]);
  (0x1f326, [w_WHITE;w_SUN;w_BEHIND;w_CLOUD;w_WITH;w_RAIN]);
  (0x1f327, [w_CLOUD;w_WITH;w_RAIN]);
  (0x1f328, [w_CLOUD;w_WITH;w_SNOW]);
  (0x1f329, [w_CLOUD;w_WITH;w_LIGHTNING]);
  (0x1f32a, [w_CLOUD;w_WITH;w_TORNADO]);
  (0x1f32b, [w_FOG]);
  (0x1f32c, [w_WIND;w_BLOWING;w_FACE]);
  (0x1f32d, [w_HOT;w_DOG]);
  (0x1f32e, [w_TACO]);
  (0x1f32f, [w_BURRITO]);
  (0x1f330, [w_CHESTNUT]);
  (0x1f331, [w_SEEDLING]);
  (0x1f332, [w_EVERGREEN;w_TREE]);
  (0x1f333, [w_DECIDUOUS;w_TREE]);
  (0x1f334, [w_PALM;w_TREE]);
  (0x1f335, [w_CACTUS]);
  (0x1f336, [w_HOT;w_PEPPER]);
  (0x1f337, [w_TULIP])].

Definition NAMES_73 : list (N * (list str)) := [
  (0x1f338, [w_CHERRY;w_BLOSSOM]);
  (0x1f339, [w_ROSE]);
  (0x1f33a, [w_HIBISCUS]);
  (0x1f33b, [w_SUNFLOWER]);
  (0x1f33c, [w_BLOSSOM]);
  (0x1f33d, [w_EAR;w_OF;w_MAIZE]);
  (0x1f33e, [w_EAR;w_OF;w_RICE]);
  (0x1f33f, [w_HERB]);
  (0x1f340, [w_FOUR;w_LEAF;w_CLOVER]);
  (0x1f341, [w_MAPLE;w_LEAF]);
  (0x1f342, [w_FALLEN;w_LEAF]);
  (0x1f343, [w_LEAF;w_FLUTTERING;w_IN;w_WIND]);
  (0x1f344, [w_MUSHROOM]);
  (0x1f345, [w_TOMATO]);
  (0x1f346, [w_AUBERGINE]);
  (0x1f347, [w_GRAPES]);
  (0x1f348, [w_MELON]);
  (0x1f349, [w_WATERMELON]);
  (0x1f34a, [w_TANGERINE]);
  (0x1f34b, [w_LEMON]);
  (0x1f34c, [w_BANANA]);
  (0x1f34d, [w_PINEAPPLE]);
  (0x1f34e, [w_RED;w_APPLE]);
  (0x1f34f, [w_GREEN;w_APPLE]);
  (0x1f350, [w_PEAR]);
  (0x1f351, [w_PEACH]);
  (0x1f352, [w_CHERRIES]);
  (0x1f353, [w_STRAWBERRY]);
  (0x1f354, [w_HAMBURGER]);
  (0x1f355, [w_SLICE;w_OF;w_PIZZA]);
  (0x1f356, [w_MEAT;w_ON;w_BONE]);
  (0x1f357, [w_POULTRY;w_LEG]);
  (0x1f358, [w_RICE;w_CRACKER]);
  (0x1f359, [w_RICE;w_BALL]);
  (0x1f35a, [w_COOKED;w_RICE]);
  (0x1f35b, [w_CURRY;w_AND;w_RICE]);
  (0x1f35c, [w_STEAMING;w_BOWL]);
  (0x1f35d, [w_SPAGHETTI]);
  (0x1f35e, [w_BREAD]);
  (0x1f35f, [w_FRENCH;w_FRIES]);
  (0x1f360, [w_ROASTED;w_SWEET;w_POTATO]);
  (0x1f361, [w_DANGO]);
  (0x1f362, [w_ODEN]);
  (0x1f363, [w_SUSHI]);
  (0x1f364, [w_FRIED;w_SHRIMP]);
  (0x1f365, [w_FISH;w_CAKE;w_WITH;w_SWIRL;w_DESIGN]);
  (0x1f366, [w_SOFT;w_ICE;w_CREAM]);
  (0x1f367, [w_SHAVED;w_ICE]);
  (0x1f368, [w_ICE;w_CREAM]);
  (0x1f369, [w_DOUGHNUT]);
  (0x1f36a, [w_COOKIE]);
  (0x1f36b, [w_CHOCOLATE;w_BAR]);
  (0x1f36c, [w_CANDY]);
  (0x1f36d, [w_LOLLIPOP]);
  (0x1f36e, [w_CUSTARD]);
  (0x1f36f, [w_HONEY;w_POT]);
  (0x1f370, [w_SHORTCAKE]);
  (0x1f371, [w_BENTO;w_BOX]);
  (0x1f372, [w_POT;w_OF;w_FOOD]);
  (0x1f373, [w_COOKING]);
  (0x1f374, [w_FORK;w_AND;w_KNIFE]);
  (0x1f375, [w_TEACUP;w_WITHOUT;w_HANDLE]);
  (0x1f376, [w_SAKE;w_BOTTLE;w_AND;w_CUP]);
  (0x1f377, [w_WINE;w_GLASS]);
  (0x1f378, [w_COCKTAIL;w_GLASS]);
  (0x1f379, [w_TROPICAL;w_DRINK]);
  (0x1f37a, [w_BEER;w_MUG]);
  (0x1f37b, [w_CLINKING;w_BEER;w_MUGS]);
  (0x1f37c, [w_BABY;w_BOTTLE]);
  (0x1f37d, [w_FORK;w_AND;w_KNIFE;w_WITH;w_PLATE]);
  (0x1f37e, [w_BOTTLE;w_WITH;w_POPPING;w_CORK]);
  (0x1f37f, [w_POPCORN]);
  (0x1f380, [w_RIBBON]);
  (0x1f381, [w_WRAPPED;w_PRESENT]);
  (0x1f382, [w_BIRTHDAY;w_CAKE]);
  (0x1f383, [w_JACK_O_LANTERN]);
  (0x1f384, [w_CHRISTMAS;w_TREE]);
  (0x1f385, [w_FATHER;w_CHRISTMAS]);
  (0x1f386, [w_FIREWORKS]);
  (0x1f387, [w_FIREWORK;w_SPARKLER]);
  (0x1f388, [w_BALLOON]);
  (0x1f389, [w_PARTY;w_POPPER]);
  (0x1f38a, [w_CONFETTI;w_BALL]);
  (0x1f38b, [w_TANABATA;w_TREE]);
  (0x1f38c, [w_CROSSED;w_FLAGS]);
  (0x1f38d, [w_PINE;w_DECORATION]);
  (0x1f38e, [w_JAPANESE;w_DOLLS]);
  (0x1f38f, [w_CARP;w_STREAMER]);
  (0x1f390, [w_WIND;w_CHIME]);
  (0x1f391, [w_MOON;w_VIEWING;w_CEREMONY]);
  (0x1f392, [w_SCHOOL;w_SATCHEL]);
  (0x1f393, [w_GRADUATION;w_CAP]);
  (0x1f394, [w_HEART;w_WITH;w_TIP;w_ON;w_THE;w_LEFT]);
  (0x1f395, [w_BOUQUET;w_OF;w_FLOWERS]);
  (0x1f396, [w_MILITARY;w_MEDAL]);
  (0x1f397, [w_REMINDER;w_RIBBON]);
  (0x1f398, [w_MUSICAL;w_KEYBOARD;w_WITH;w_JACKS]);
  (0x1f399, [w_STUDIO;w_MICROPHONE]);
  (0x1f39a, [w_LEVEL;w_SLIDER]);
  (0x1f39b, [w_CONTROL;w_KNOBS]);
  (0x1f39c, [w_BEAMED;w_ASCENDING;w_MUSICAL;w_NOTES]);
  (0x1f39d, [w_BEAMED;w_DESCENDING;w_MUSICAL;w_NOTES]);
  (0x1f39e, [w_FILM;w_FRAMES]);
  (0x1f39f, [w_ADMISSION;w_TICKETS]);
  (0x1f3a0, [w_CAROUSEL;w_HORSE]);
  (0x1f3a1, [w_FERRIS;w_WHEEL]);
  (0x1f3a2, [w_ROLLER;w_COASTER]);
  (0x1f3a3, [w_FISHING;w_POLE;w_AND;w_FISH]);
  (0x1f3a4, [w_MICROPHONE]);
  (0x1f3a5, [w_MOVIE;w_CAMERA]);
  (0x1f3a6, [w_CINEMA]);
  (0x1f3a7, [w_HEADPHONE]);
  (0x1f3a8, [w_ARTIST;w_PALETTE]);
  (0x1f3a9, [w_TOP;w_HAT]);
  (0x1f3aa, [w_CIRCUS;w_TENT]);
  (0x1f3ab, [w_TICKET]);
  (0x1f3ac, [w_CLAPPER;w_BOARD]);
  (0x1f3ad, [w_PERFORMING;w_ARTS]);
  (0x1f3ae, [w_VIDEO;w_GAME]);
  (0x1f3af, [w_DIRECT;w_HIT]);
  (0x1f3b0, [w_SLOT;w_MACHINE]);
  (0x1f3b1, [w_BILLIARDS]);
  (0x1f3b2, [w_GAME;w_DIE]);
  (0x1f3b3, [w_BOWLING]);
  (0x1f3b4, [w_FLOWER;w_PLAYING;w_CARDS]);
  (0x1f3b5, [w_MUSICAL;w_NOTE]);
  (0x1f3b6, [w_MULTIPLE;w_MUSICAL;w_NOTES]);
  (0x1f3b7, [w_SAXOPHONE]);
  (0x1f3b8, [w_GUITAR]);
  (0x1f3b9, [w_MUSICAL;w_KEYBOARD]);
  (0x1f3ba, [w_TRUMPET]);
  (0x1f3bb, [w_VIOLIN]);
  (0x1f3bc, [w_MUSICAL;w_SCORE]);
  (0x1f3bd, [w_RUNNING;w_SHIRT;w_WITH;w_SASH]);
  (0x1f3be, [w_TENNIS;w_RACQUET;w_AND;w_BALL]);
  (0x1f3bf, [w_SKI;w_AND;w_SKI;w_BOOT]);
  (0x1f3c0, [w_BASKETBALL;w_AND;w_HOOP]);
  (0x1f3c1, [w_CHEQUERED;w_FLAG]);
  (0x1f3c2, [w_SNOWBOARDER]);
  (0x1f3c3, [w_RUNNER]);
  (0x1f3c4, [w_SURFER]);
  (0x1f3c5, [w_SPORTS;w_MEDAL]);
  (0x1f3c6, [w_TROPHY]);
  (0x1f3c7, [w_HORSE;w_RACING]);
  (0x1f3c8, [w_AMERICAN;w_FOOTBALL]);
  (0x1f3c9, [w_RUGBY;w_FOOTBALL]);
  (0x1f3ca, [w_SWIMMER]);
  (0x1f3cb, [w_WEIGHT;w_LIFTER]);
  (0x1f3cc, [w_GOLFER]);
  (0x1f3cd, [w_RACING;w_MOTORCYCLE]);
  (0x1f3ce, [w_RACING;w_CAR]);
  (0x1f3cf, [w_CRICKET;w_BAT;w_AND;w_BALL]);
  (0x1f3d0, [w_VOLLEYBALL]);
  (0x1f3d1, [w_FIELD;w_HOCKEY;w_STICK;w_AND;w_BALL]);
  (0x1f3d2, [w_ICE;w_HOCKEY;w_STICK;w_AND;w_PUCK]);
  (0x1f3d3, [w_TABLE;w_TENNIS;w_PADDLE;w_AND;w_BALL]);
  (0x1f3d4, [w_SNOW;w_CAPPED;w_MOUNTAIN]);
  (0x1f3d5, [w_CAMPING]);
  (0x1f3d6, [w_BEACH;w_WITH;w_UMBRELLA]);
  (0x1f3d7, [w_BUILDING;w_CONSTRUCTION]);
  (0x1f3d8, [w_HOUSE;w_BUILDINGS]);
  (0x1f3d9, [w_CITYSCAPE]);
  (0x1f3da, [w_DERELICT;w_HOUSE;w_BUILDING]);
  (0x1f3db, [w_CLASSICAL;w_BUILDING]);
  (0x1f3dc, [w_DESERT]);
  (0x1f3dd, [w_DESERT;w_ISLAND]);
  (0x1f3de, [w_NATIONAL;w_PARK]);
  (0x1f3df, [w_STADIUM]);
  (0x1f3e0, [w_HOUSE;w_BUILDING]);
  (0x1f3e1, [w_HOUSE;w_WITH;w_GARDEN]);
  (0x1f3e2, [w_OFFICE;w_BUILDING]);
  (0x1f3e3, [w_JAPANESE;w_POST;w_OFFICE]);
  (0x1f3e4, [w_EUROPEAN;w_POST;w_OFFICE]);
  (0x1f3e5, [w_HOSPITAL]);
  (0x1f3e6, [w_BANK]);
  (0x1f3e7, [w_AUTOMATED;w_TELLER;w_MACHINE]);
  (0x1f3e8, [w_HOTEL]);
  (0x1f3e9, [w_LOVE;w_HOTEL]);
  (0x1f3ea, [w_CONVENIENCE;w_STORE]);
  (0x1f3eb, [w_SCHOOL]);
  (0x1f3ec, [w_DEPARTMENT;w_STORE]);
  (0x1f3ed, [w_FACTORY]);
  (0x1f3ee, [w_IZAKAYA;w_LANTERN]);
  (0x1f3ef, [w_JAPANESE;w_CASTLE]);
  (0x1f3f0, [w_EUROPEAN;w_CASTLE]);
  (0x1f3f1, [w_WHITE;w_PENNANT]);
  (0x1f3f2, [w_BLACK;w_PENNANT]);
  (0x1f3f3, [w_WAVING;w_WHITE;w_FLAG]);
  (0x1f3f4, [w_WAVING;w_BLACK;w_FLAG]);
  (0x1f3f5, [w_ROSETTE]);
  (0x1f3f6, [w_BLACK;w_ROSETTE]);
  (0x1f3f7, [w_LABEL]);
  (0x1f3f8, [w_BADMINTON;w_RACQUET;w_AND;w_SHUTTLECOCK]);
  (0x1f3f9, [w_BOW;w_AND;w_ARROW]);
  (0x1f3fa, [w_AMPHORA]);
  (0x1f3fb, [w_EMOJI;w_MODIFIER;w_FITZPATRICK;w_TYPE_1_2]);
  (0x1f3fc, [w_EMOJI;w_MODIFIER;w_FITZPATRICK;w_TYPE_3]);
  (0x1f3fd, [w_EMOJI;w_MODIFIER;w_FITZPATRICK;w_TYPE_4]);
  (0x1f3fe, [w_EMOJI;w_MODIFIER;w_FITZPATRICK;w_TYPE_5]);
  (0x1f3ff, [w_EMOJI;w_MODIFIER;w_FITZPATRICK;w_TYPE_6]);
  (0x1f400, [w_RAT]);
  (0x1f401, [w_MOUSE]);
  (0x1f402, [w_OX]);
  (0x1f403, [w_WATER;w_BUFFALO]);
  (0x1f404, [w_COW]);
  (0x1f405, [w_TIGER]);
  (0x1f406, [w_LEOPARD]);
  (0x1f407, [w_RABBIT]);
  (0x1f408, [w_CAT]);
  (0x1f409, [w_DRAGON]);
  (0x1f40a, [w_CROCODILE]);
  (0x1f40b, [w_WHALE]);
  (0x1f40c, [w_SNAIL]);
  (0x1f40d, [w_SNAKE]);
  (0x1f40e, [w_HORSE]);
  (0x1f40f, [w_RAM]);
  (0x1f410, [w_GOAT]);
  (0x1f411, [w_SHEEP]);
  (0x1f412, [w_MONKEY]);
  (0x1f413, [w_ROOSTER]);
  (0x1f414, [w_CHICKEN]);
  (0x1f415, [w_DOG]);
  (0x1f416, [w_PIG]);
  (0x1f417, [w_BOAR]);
  (0x1f418, [w_ELEPHANT]);
  (0x1f419, [w_OCTOPUS]);
  (0x1f41a, [w_SPIRAL;w_SHELL]);
  (0x1f41b, [w_BUG]);
  (0x1f41c, [w_ANT]);
  (0x1f41d, [w_HONEYBEE]);
  (0x1f41e, [w_LADY;w_BEETLE]);
  (0x1f41f, [w_FISH]);
  (0x1f420, [w_TROPICAL;w_FISH]);
  (0x1f421, [w_BLOWFISH]);
  (0x1f422, [w_TURTLE]);
  (0x1f423, [w_HATCHING;w_CHICK]);
  (0x1f424, [w_BABY;w_CHICK]);
  (0x1f425, [w_FRONT_FACING;w_BABY;w_CHICK]);
  (0x1f426, [w_BIRD]);
  (0x1f427, [w_PENGUIN]);
  (0x1f428, [w_KOALA]);
  (0x1f429, [w_POODLE]);
  (0x1f42a, [w_DROMEDARY;w_CAMEL]);
  (0x1f42b, [w_BACTRIAN;w_CAMEL]);
  (0x1f42c, [w_DOLPHIN]);
  (0x1f42d, [w_MOUSE;w_FACE]);
  (0x1f42e, [w_COW;w_FACE]);
  (0x1f42f, [w_TIGER;w_FACE]);
  (0x1f430, [w_RABBIT;w_FACE]);
  (0x1f431, [w_CAT;w_FACE]);
  (0x1f432, [w_DRAGON;w_FACE]);
  (0x1f433, [w_SPOUTING;w_WHALE]);
  (0x1f434, [w_HORSE;w_FACE]);
  (0x1f435, [w_MONKEY;w_FACE]);
  (0x1f436, [w_DOG;w_FACE]);
  (0x1f437, [w_PIG;w_FACE]);
  (0x1f438, [w_FROG;w_FACE]);
  (0x1f439, [w_HAMSTER;w_FACE]);
  (0x1f43a, [w_WOLF;w_FACE]);
  (0x1f43b, [w_BEAR;w_FACE]);
  (0x1f43c, [w_PANDA;w_FACE]);
  (0x1f43d, [w_PIG;w_NOSE]);
  (0x1f43e, [w_PAW;w_PRINTS]);
  (0x1f43f, [w_CHIPMUNK]);
  (0x1f440, [w_EYES]);
  (0x1f441, [w_EYE]);
  (0x1f442, [w_EAR]);
  (0x1f443, [w_NOSE]);
  (0x1f444, [w_MOUTH]);
  (0x1f445, [w_TONGUE]);
  (0x1f446, [w_WHITE;w_UP;w_POINTING;w_BACKHAND;w_INDEX]);
  (0x1f447, [w_WHITE;w_DOWN;w_POINTING;w_BACKHAND;w_INDEX]);
  (0x1f448, [w_WHITE;w_LEFT;w_POINTING;w_BACKHAND;w_INDEX]);
  (0x1f449, [w_WHITE;w_RIGHT;w_POINTING;w_BACKHAND;w_INDEX]);
  (0x1f44a, [w_FISTED;w_HAND;w_SIGN]);
  (0x1f44b, [w_WAVING;w_HAND;w_SIGN]);
  (0x1f44c, [w_OK;w_HAND;w_SIGN]);
  (0x1f44d, [w_THUMBS;w_UP;w_SIGN]);
  (0x1f44e, [w_THUMBS;w_DOWN;w_SIGN]);
  (0x1f44f, [w_CLAPPING;w_HANDS;w_SIGN]);
  (0x1f450, [w_OPEN;w_HANDS;w_SIGN]);
  (0x1f451, [w_CROWN]);
  (0x1f452, [w_WOMANS;w_HAT]);
  (0x1f453, [w_EYEGLASSES]);
  (0x1f454, [w_NECKTIE]);
  (0x1f455, [w_T_SHIRT]);
  (0x1f456, [w_JEANS]);
  (0x1f457, [w_DRESS]);
  (0x1f458, [w_KIMONO]);
  (0x1f459, [w_BIKINI]);
  (0x1f45a, [w_WOMANS;w_CLOTHES]);
  (0x1f45b, [w_PURSE]);
  (0x1f45c, [w_HANDBAG]);
  (0x1f45d, [w_POUCH]);
  (0x1f45e, [w_MANS;w_SHOE]);
  (0x1f45f, [w_ATHLETIC;w_SHOE]);
  (0x1f460, [w_HIGH_HEELED;w_SHOE]);
  (0x1f461, [w_WOMANS;w_SANDAL]);
  (0x1f462, [w_WOMANS;w_BOOTS]);
  (0x1f463, [w_FOOTPRINTS]);
  (0x1f464, [w_BUST;w_IN;w_SILHOUETTE]);
  (0x1f465, [w_BUSTS;w_IN;w_SILHOUETTE]);
  (0x1f466, [w_BOY]);
  (0x1f467, [w_GIRL]);
  (0x1f468, [w_MAN]);
  (0x1f469, [w_WOMAN]);
  (0x1f46a, [w_FAMILY]);
  (0x1f46b, [w_MAN;w_AND;w_WOMAN;w_HOLDING;w_HANDS]);
  (0x1f46c, [w_TWO;w_MEN;w_HOLDING;w_HANDS]);
  (0x1f46d, [w_TWO;w_WOMEN;w_HOLDING;w_HANDS]);
  (0x1f46e, [w_POLICE;w_OFFICER]);
  (0x1f46f, [w_WOMAN;w_WITH;w_BUNNY;w_EARS]);
  (0x1f470, [w_BRIDE;w_WITH;w_VEIL]);
  (0x1f471, [w_PERSON;w_WITH;w_BLOND;w_HAIR]);
  (0x1f472, [w_MAN;w_WITH;w_GUA;w_PI;w_MAO]);
  (0x1f473, [w_MAN;w_WITH;w_TURBAN]);
  (0x1f474, [w_OLDER;w_MAN]);
  (0x1f475, [w_OLDER;w_WOMAN]);
  (0x1f476, [w_BABY]);
  (0x1f477, [w_CONSTRUCTION;w_WORKER]);
  (0x1f478, [w_PRINCESS]);
  (0x1f479, [w_JAPANESE;w_OGRE]);
  (0x1f47a, [w_JAPANESE;w_GOBLIN]);
  (0x1f47b, [w_GHOST]);
  (0x1f47c, [w_BABY;w_ANGEL]);
  (0x1f47d, [w_EXTRATERRESTRIAL;w_ALIEN]);
  (0x1f47e, [w_ALIEN;w_MONSTER]);
  (0x1f47f, [w_IMP]);
  (0x1f480, [w_SKULL]);
  (0x1f481, [w_INFORMATION;w_DESK;w_PERSON]);
  (0x1f482, [w_GUARDSMAN]);
  (0x1f483, [w_DANCER]);
  (0x1f484, [w_LIPSTICK]);
  (0x1f485, [w_NAIL;w_POLISH]);
  (0x1f486, [w_FACE;w_MASSAGE]);
  (0x1f487, [w_HAIRCUT]);
  (0x1f488, [w_BARBER;w_POLE]);
  (0x1f489, [w_SYRINGE]);
  (0x1f48a, [w_PILL]);
  (0x1f48b, [w_KISS;w_MARK]);
  (0x1f48c, [w_LOVE;w_LETTER]);
  (0x1f48d, [w_RING]);
  (0x1f48e, [w_GEM;w_STONE]);
  (0x1f48f, [w_KISS]);
  (0x1f490, [w_BOUQUET]);
  (0x1f491, [w_COUPLE;w_WITH;w_HEART]);
  (0x1f492, [w_WEDDING]);
  (0x1f493, [w_BEATING;w_HEART]);
  (0x1f494, [w_BROKEN;w_HEART]);
  (0x1f495, [w_TWO;w_HEARTS]);
  (0x1f496, [w_SPARKLING;w_HEART]);
  (0x1f497, [w_GROWING;w_HEART]);
  (0x1f498, [w_HEART;w_WITH;w_ARROW]);
  (0x1f499, [w_BLUE;w_HEART]);
  (0x1f49a, [w_GREEN;w_HEART]);
  (0x1f49b, [w_YELLOW;w_HEART]);
  (0x1f49c, [w_PURPLE;w_HEART]);
  (0x1f49d, [w_HEART;w_WITH;w_RIBBON]);
  (0x1f49e, [w_REVOLVING;w_HEARTS]);
  (0x1f49f, [w_HEART;w_DECORATION]);
  (0x1f4a0, [w_DIAMOND;w_SHAPE;w_WITH;w_A;w_DOT;w_INSIDE]);
  (0x1f4a1, [w_ELECTRIC;w_LIGHT;w_BULB]);
  (0x1f4a2, [w_ANGER;w_SYMBOL]);
  (0x1f4a3, [w_BOMB]);
  (0x1f4a4, [w_SLEEPING;w_SYMBOL]);
  (0x1f4a5, [w_COLLISION;w_SYMBOL]);
  (0x1f4a6, [w_SPLASHING;w_SWEAT;w_SYMBOL]);
  (0x1f4a7, [w_DROPLET]);
  (0x1f4a8, [w_DASH;w_SYMBOL]);
  (0x1f4a9, [w_PILE;w_OF;w_POO]);
  (0x1f4aa, [w_FLEXED;w_BICEPS]);
  (0x1f4ab, [w_DIZZY;w_SYMBOL]);
  (0x1f4ac, [w_SPEECH;w_BALLOON]);
  (0x1f4ad, [w_THOUGHT;w_BALLOON]);
  (0x1f4ae, [w_WHITE;w_FLOWER]);
  (0x1f4af, [w_HUNDRED;w_POINTS;w_SYMBOL]);
  (0x1f4b0, [w_MONEY;w_BAG]);
  (0x1f4b1, [w_CURRENCY;w_EXCHANGE]);
  (0x1f4b2, [w_HEAVY;w_DOLLAR;w_SIGN]);
  (0x1f4b3, [w_CREDIT;w_CARD]);
  (0x1f4b4, [w_BANKNOTE;w_WITH;w_YEN;w_SIGN]);
  (0x1f4b5, [w_BANKNOTE;w_WITH;w_DOLLAR;w_SIGN]);
  (0x1f4b6, [w_BANKNOTE;w_WITH;w_EURO;w_SIGN]);
  (0x1f4b7, [w_BANKNOTE;w_WITH;w_POUND;w_SIGN]);
  (0x1f4b8, [w_MONEY;w_WITH;w_WINGS]);
  (0x1f4b9, [w_CHART;w_WITH;w_UPWARDS;w_TREND;w_AND;w_YEN;w_SIGN]);
  (0x1f4ba, [w_SEAT]);
  (0x1f4bb, [w_PERSONAL;w_COMPUTER]);
  (0x1f4bc, [w_BRIEFCASE]);
  (0x1f4bd, [w_MINIDISC]);
  (0x1f4be, [w_FLOPPY;w_DISK]);
  (0x1f4bf, [w_OPTICAL;w_DISC]);
  (0x1f4c0, [w_DVD]);
  (0x1f4c1, [w_FILE;w_FOLDER]);
  (0x1f4c2, [w_OPEN;w_FILE;w_FOLDER]);
  (0x1f4c3, [w_PAGE;w_WITH;w_CURL]);
  (0x1f4c4, [w_PAGE;w_FACING;w_UP]);
  (0x1f4c5, [w_CALENDAR]);
  (0x1f4c6, [w_TEAR_OFF;w_CALENDAR]);
  (0x1f4c7, [w_CARD;w_INDEX])].

Definition NAMES_74 : list (N * (list str)) := [
  (0x1f4c8, [w_CHART;w_WITH;w_UPWARDS;w_TREND]);
  (0x1f4c9, [w_CHART;w_WITH;w_DOWNWARDS;w_TREND]);
  (0x1f4ca, [w_BAR;w_CHART]);
  (0x1f4cb, [w_CLIPBOARD]);
  (0x1f4cc, [w_PUSHPIN]);
  (0x1f4cd, [w_ROUND;w_PUSHPIN]);
  (0x1f4ce, [w_PAPERCLIP]);
  (0x1f4cf, [w_STRAIGHT;w_RULER]);
  (0x1f4d0, [w_TRIANGULAR;w_RULER]);
  (0x1f4d1, [w_BOOKMARK;w_TABS]);
  (0x1f4d2, [w_LEDGER]);
  (0x1f4d3, [w_NOTEBOOK]);
  (0x1f4d4, [w_NOTEBOOK;w_WITH;w_DECORATIVE;w_COVER]);
  (0x1f4d5, [w_CLOSED;w_BOOK]);
  (0x1f4d6, [w_OPEN;w_BOOK]);
  (0x1f4d7, [w_GREEN;w_BOOK]);
  (0x1f4d8, [w_BLUE;w_BOOK]);
  (0x1f4d9, [w_ORANGE;w_BOOK]);
  (0x1f4da, [w_BOOKS]);
  (0x1f4db, [w_NAME;w_BADGE]);
  (0x1f4dc, [w_SCROLL]);
  (0x1f4dd, [w_MEMO]);
  (0x1f4de, [w_TELEPHONE;w_RECEIVER]);
  (0x1f4df, [w_PAGER]);
  (0x1f4e0, [w_FAX;w_MACHINE]);
  (0x1f4e1, [w_SATELLITE;w_ANTENNA]);
  (0x1f4e2, [w_PUBLIC;w_ADDRESS;w_LOUDSPEAKER]);
  (0x1f4e3, [w_CHEERING;w_MEGAPHONE]);
  (0x1f4e4, [w_OUTBOX;w_TRAY]);
  (0x1f4e5, [w_INBOX;w_TRAY]);
  (0x1f4e6, [w_PACKAGE]);
  (0x1f4e7, [w_E_MAIL;w_SYMBOL]);
  (0x1f4e8, [w_INCOMING;w_ENVELOPE]);
  (0x1f4e9, [w_ENVELOPE;w_WITH;w_DOWNWARDS;w_ARROW;w_ABOVE]);
  (0x1f4ea, [w_CLOSED;w_MAILBOX;w_WITH;w_LOWERED;w_FLAG]);
  (0x1f4eb, [w_CLOSED;w_MAILBOX;w_WITH;w_RAISED;w_FLAG]);
  (0x1f4ec, [w_OPEN;w_MAILBOX;w_WITH;w_RAISED;w_FLAG]);
  (0x1f4ed, [w_OPEN;w_MAILBOX;w_WITH;w_LOWERED;w_FLAG]);
  (0x1f4ee, [w_POSTBOX]);
  (0x1f4ef, [w_POSTAL;w_HORN]);
  (0x1f4f0, [w_NEWSPAPER]);
  (0x1f4f1, [w_MOBILE;w_PHONE]);
  (0x1f4f2, [w_MOBILE;w_PHONE;w_WITH;w_RIGHTWARDS;w_ARROW;w_AT;w_LEFT]);
  (0x1f4f3, [w_VIBRATION;w_MODE]);
  (0x1f4f4, [w_MOBILE;w_PHONE;w_OFF]);
  (0x1f4f5, [w_NO;w_MOBILE;w_PHONES]);
  (0x1f4f6, [w_ANTENNA;w_WITH;w_BARS]);
  (0x1f4f7, [w_CAMERA]);
  (0x1f4f8, [w_CAMERA;w_WITH;w_FLASH]);
  (0x1f4f9, [w_VIDEO;w_CAMERA]);
  (0x1f4fa, [w_TELEVISION]);
  (0x1f4fb, [w_RADIO]);
  (0x1f4fc, [w_VIDEOCASSETTE]);
  (0x1f4fd, [w_FILM;w_PROJECTOR]);
  (0x1f4fe, [w_PORTABLE;w_STEREO]);
  (0x1f4ff, [w_PRAYER;w_BEADS]);
  (0x1f500, [w_TWISTED;w_RIGHTWARDS;w_ARROWS]);
  (0x1f501, [w_CLOCKWISE;w_RIGHTWARDS;w_AND;w_LEFTWARDS;w_OPEN;w_CIRCLE;w_ARROWS]);
  (0x1f502, [w_CLOCKWISE;w_RIGHTWARDS;w_AND;w_LEFTWARDS;w_OPEN;w_CIRCLE;w_ARROWS;w_WITH;w_CIRCLED;w_ONE;w_OVERLAY]);
  (0x1f503, [w_CLOCKWISE;w_DOWNWARDS;w_AND;w_UPWARDS;w_OPEN;w_CIRCLE;w_ARROWS]);
  (0x1f504, [w_ANTICLOCKWISE;w_DOWNWARDS;w_AND;w_UPWARDS;w_OPEN;w_CIRCLE;w_ARROWS]);
  (0x1f505, [w_LOW;w_BRIGHTNESS;w_SYMBOL]);
  (0x1f506, [w_HIGH;w_BRIGHTNESS;w_SYMBOL]);
  (0x1f507, [w_SPEAKER;w_WITH;w_CANCELLATION;w_STROKE]);
  (0x1f508, [w_SPEAKER]);
  (0x1f509, [w_SPEAKER;w_WITH;w_ONE;w_SOUND;w_WAVE]);
  (0x1f50a, [w_SPEAKER;w_WITH;w_THREE;w_SOUND;w_WAVES]);
  (0x1f50b, [w_BATTERY]);
  (0x1f50c, [w_ELECTRIC;w_PLUG]);
  (0x1f50d, [w_LEFT_POINTING;w_MAGNIFYING;w_GLASS]);
  (0x1f50e, [w_RIGHT_POINTING;w_MAGNIFYING;w_GLASS]);
  (0x1f50f, [w_LOCK;w_WITH;w_INK;w_PEN]);
  (0x1f510, [w_CLOSED;w_LOCK;w_WITH;w_KEY]);
  (0x1f511, [w_KEY]);
  (0x1f512, [w_LOCK]);
  (0x1f513, [w_OPEN;w_LOCK]);
  (0x1f514, [w_BELL]);
  (0x1f515, [w_BELL;w_WITH;w_CANCELLATION;w_STROKE]);
  (0x1f516, [w_BOOKMARK]);
  (0x1f517, [w_LINK;w_SYMBOL]);
  (0x1f518, [w_RADIO;w_BUTTON]);
  (0x1f519, [w_BACK;w_WITH;w_LEFTWARDS;w_ARROW;w_ABOVE]);
  (0x1f51a, [w_END;w_WITH;w_LEFTWARDS;w_ARROW;w_ABOVE]);
  (0x1f51b, [w_ON;w_WITH;w_EXCLAMATION;w_MARK;w_WITH;w_LEFT;w_RIGHT;w_ARROW;w_ABOVE]);
  (0x1f51c, [w_SOON;w_WITH;w_RIGHTWARDS;w_ARROW;w_ABOVE]);
  (0x1f51d, [w_TOP;w_WITH;w_UPWARDS;w_ARROW;w_ABOVE]);
  (0x1f51e, [w_NO;w_ONE;w_UNDER;w_EIGHTEEN;w_SYMBOL]);
  (0x1f51f, [w_KEYCAP;w_TEN]);
  (0x1f520, [w_INPUT;w_SYMBOL;w_FOR;w_LATIN;w_CAPITAL;w_LETTERS]);
  (0x1f521, [w_INPUT;w_SYMBOL;w_FOR;w_LATIN;w_SMALL;w_LETTERS]);
  (0x1f522, [w_INPUT;w_SYMBOL;w_FOR;w_NUMBERS]);
  (0x1f523, [w_INPUT;w_SYMBOL;w_FOR;w_SYMBOLS]);
  (0x1f524, [w_INPUT;w_SYMBOL;w_FOR;w_LATIN;w_LETTERS]);
  (0x1f525, [w_FIRE]);
  (0x1f526, [w_ELECTRIC;w_TORCH]);
  (0x1f527, [w_WRENCH]);
  (0x1f528, [w_HAMMER]);
  (0x1f529, [w_NUT;w_AND;w_BOLT]);
  (0x1f52a, [w_HOCHO]);
  (0x1f52b, [w_PISTOL]);
  (0x1f52c, [w_MICROSCOPE]);
  (0x1f52d, [w_TELESCOPE]);
  (0x1f52e, [w_CRYSTAL;w_BALL]);
  (0x1f52f, [w_SIX;w_POINTED;w_STAR;w_WITH;w_MIDDLE;w_DOT]);
  (0x1f530, [w_JAPANESE;w_SYMBOL;w_FOR;w_BEGINNER]);
  (0x1f531, [w_TRIDENT;w_EMBLEM]);
  (0x1f532, [w_BLACK;w_SQUARE;w_BUTTON]);
  (0x1f533, [w_WHITE;w_SQUARE;w_BUTTON]);
  (0x1f534, [w_LARGE;w_RED;w_CIRCLE]);
  (0x1f535, [w_LARGE;w_BLUE;w_CIRCLE]);
  (0x1f536, [w_LARGE;w_ORANGE;w_DIAMOND]);
  (0x1f537, [w_LARGE;w_BLUE;w_DIAMOND]);
  (0x1f538, [w_SMALL;w_ORANGE;w_DIAMOND]);
  (0x1f539, [w_SMALL;w_BLUE;w_DIAMOND]);
  (0x1f53a, [w_UP_POINTING;w_RED;w_TRIANGLE]);
  (0x1f53b, [w_DOWN_POINTING;w_RED;w_TRIANGLE]);
  (0x1f53c, [w_UP_POINTING;w_SMALL;w_RED;w_TRIANGLE]);
  (0x1f53d, [w_DOWN_POINTING;w_SMALL;w_RED;w_TRIANGLE]);
  (0x1f53e, [w_LOWER;w_RIGHT;w_SHADOWED;w_WHITE;w_CIRCLE]);
  (0x1f53f, [w_UPPER;w_RIGHT;w_SHADOWED;w_WHITE;w_CIRCLE]);
  (0x1f540, [w_CIRCLED;w_CROSS;w_POMMEE]);
  (0x1f541, [w_CROSS;w_POMMEE;w_WITH;w_HALF_CIRCLE;w_BELOW]);
  (0x1f542, [w_CROSS;w_POMMEE]);
  (0x1f543, [w_NOTCHED;w_LEFT;w_SEMICIRCLE;w_WITH;w_THREE;w_DOTS]);
  (0x1f544, [w_NOTCHED;w_RIGHT;w_SEMICIRCLE;w_WITH;w_THREE;w_DOTS]);
  (0x1f545, [w_SYMBOL;w_FOR;w_MARKS;w_CHAPTER]);
  (0x1f546, [w_WHITE;w_LATIN;w_CROSS]);
  (0x1f547, [w_HEAVY;w_LATIN;w_CROSS]);
  (0x1f548, [w_CELTIC;w_CROSS]);
  (0x1f549, [w_OM;w_SYMBOL]);
  (0x1f54a, [w_DOVE;w_OF;w_PEACE]);
  (0x1f54b, [w_KAABA]);
  (0x1f54c, [w_MOSQUE]);
  (0x1f54d, [w_SYNAGOGUE]);
  (0x1f54e, [w_MENORAH;w_WITH;w_NINE;w_BRANCHES]);
  (0x1f54f, [w_BOWL;w_OF;w_HYGIEIA]);
  (0x1f550, [w_CLOCK;w_FACE;w_ONE;w_OCLOCK]);
  (0x1f551, [w_CLOCK;w_FACE;w_TWO;w_OCLOCK]);
  (0x1f552, [w_CLOCK;w_FACE;w_THREE;w_OCLOCK]);
  (0x1f553, [w_CLOCK;w_FACE;w_FOUR;w_OCLOCK]);
  (0x1f554, [w_CLOCK;w_FACE;w_FIVE;w_OCLOCK]);
  (0x1f555, [w_CLOCK;w_FACE;w_SIX;w_OCLOCK]);
  (0x1f556, [w_CLOCK;w_FACE;w_SEVEN;w_OCLOCK]);
  (0x1f557, [w_CLOCK;w_FACE;w_EIGHT;w_OCLOCK]);
  (0x1f558, [w_CLOCK;w_FACE;w_NINE;w_OCLOCK]);
  (0x1f559, [w_CLOCK;w_FACE;w_TEN;w_OCLOCK]);
  (0x1f55a, [w_CLOCK;w_FACE;w_ELEVEN;w_OCLOCK]);
  (0x1f55b, [w_CLOCK;w_FACE;w_TWELVE;w_OCLOCK]);
  (0x1f55c, [w_CLOCK;w_FACE;w_ONE_THIRTY]);
  (0x1f55d, [w_CLOCK;w_FACE;w_TWO_THIRTY]);
  (0x1f55e, [w_CLOCK;w_FACE;w_THREE_THIRTY]);
  (0x1f55f, [w_CLOCK;w_FACE;w_FOUR_THIRTY]);
  (0x1f560, [w_CLOCK;w_FACE;w_FIVE_THIRTY]);
  (0x1f561, [w_CLOCK;w_FACE;w_SIX_THIRTY]);
  (0x1f562, [w_CLOCK;w_FACE;w_SEVEN_THIRTY]);
  (0x1f563, [w_CLOCK;w_FACE;w_EIGHT_THIRTY]);
  (0x1f564, [w_CLOCK;w_FACE;w_NINE_THIRTY]);
  (0x1f565, [w_CLOCK;w_FACE;w_TEN_THIRTY]);
  (0x1f566, [w_CLOCK;w_FACE;w_ELEVEN_THIRTY]);
  (0x1f567, [w_CLOCK;w_FACE;w_TWELVE_THIRTY]);
  (0x1f568, [w_RIGHT;w_SPEAKER]);
  (0x1f569, [w_RIGHT;w_SPEAKER;w_WITH;w_ONE;w_SOUND;w_WAVE]);
  (0x1f56a, [w_RIGHT;w_SPEAKER;w_WITH;w_THREE;w_SOUND;w_WAVES]);
  (0x1f56b, [w_BULLHORN]);
  (0x1f56c, [w_BULLHORN;w_WITH;w_SOUND;w_WAVES]);
  (0x1f56d, [w_RINGING;w_BELL]);
  (0x1f56e, [w_BOOK]);
  (0x1f56f, [w_CANDLE]);
  (0x1f570, [w_MANTELPIECE;w_CLOCK]);
  (0x1f571, [w_BLACK;w_SKULL;w_AND;w_CROSSBONES]);
  (0x1f572, [w_NO;w_PIRACY]);
  (0x1f573, [w_HOLE]);
  (0x1f574, [w_MAN;w_IN;w_BUSINESS;w_SUIT;w_LEVITATING]);
  (0x1f575, [w_SLEUTH;w_OR;w_SPY]);
  (0x1f576, [w_DARK;w_SUNGLASSES]);
  (0x1f577, [w_SPIDER]);
  (0x1f578, [w_SPIDER;w_WEB]);
  (0x1f579, [w_JOYSTICK]);
  (0x1f57a, [w_MAN;w_DANCING]);
  (0x1f57b, [w_LEFT;w_HAND;w_TELEPHONE;w_RECEIVER]);
  (0x1f57c, [w_TELEPHONE;w_RECEIVER;w_WITH;w_PAGE]);
  (0x1f57d, [w_RIGHT;w_HAND;w_TELEPHONE;w_RECEIVER]);
  (0x1f57e, [w_WHITE;w_TOUCHTONE;w_TELEPHONE]);
  (0x1f57f, [w_BLACK;w_TOUCHTONE;w_TELEPHONE]);
  (0x1f580, [w_TELEPHONE;w_ON;w_TOP;w_OF;w_MODEM]);
  (0x1f581, [w_CLAMSHELL;w_MOBILE;w_PHONE]);
  (0x1f582, [w_BACK;w_OF;w_ENVELOPE]);
  (0x1f583, [w_STAMPED;w_ENVELOPE]);
  (0x1f584, [w_ENVELOPE;w_WITH;w_LIGHTNING]);
  (0x1f585, [w_FLYING;w_ENVELOPE]);
  (0x1f586, [w_PEN;w_OVER;w_STAMPED;w_ENVELOPE]);
  (0x1f587, [w_LINKED;w_PAPERCLIPS]);
  (0x1f588, [w_BLACK;w_PUSHPIN]);
  (0x1f589, [w_LOWER;w_LEFT;w_PENCIL]);
  (0x1f58a, [w_LOWER;w_LEFT;w_BALLPOINT;w_PEN]);
  (0x1f58b, [w_LOWER;w_LEFT;w_FOUNTAIN;w_PEN]);
  (0x1f58c, [w_LOWER;w_LEFT;w_PAINTBRUSH]);
  (0x1f58d, [w_LOWER;w_LEFT;w_CRAYON]);
  (0x1f58e, [w_LEFT;w_WRITING;w_HAND]);
  (0x1f58f, [w_TURNED;w_OK;w_HAND;w_SIGN]);
  (0x1f590, [w_RAISED;w_HAND;w_WITH;w_FINGERS;w_SPLAYED]);
  (0x1f591, [w_REVERSED;w_RAISED;w_HAND;w_WITH;w_FINGERS;w_SPLAYED]);
  (0x1f592, [w_REVERSED;w_THUMBS;w_UP;w_SIGN]);
  (0x1f593, [w_REVERSED;w_THUMBS;w_DOWN;w_SIGN]);
  (0x1f594, [w_REVERSED;w_VICTORY;w_HAND]);
  (0x1f595, [w_REVERSED;w_HAND;w_WITH;w_MIDDLE;w_FINGER;w_EXTENDED]);
  (0x1f596, [w_RAISED;w_HAND;w_WITH;w_PART;w_BETWEEN;w_MIDDLE;w_AND;w_RING;w_FINGERS]);
  (0x1f597, [w_WHITE;w_DOWN;w_POINTING;w_LEFT;w_HAND;w_INDEX]);
  (0x1f598, [w_SIDEWAYS;w_WHITE;w_LEFT;w_POINTING;w_INDEX]);
  (0x1f599, [w_SIDEWAYS;w_WHITE;w_RIGHT;w_POINTING;w_INDEX]);
  (0x1f59a, [w_SIDEWAYS;w_BLACK;w_LEFT;w_POINTING;w_INDEX]);
  (0x1f59b, [w_SIDEWAYS;w_BLACK;w_RIGHT;w_POINTING;w_INDEX]);
  (0x1f59c, [w_BLACK;w_LEFT;w_POINTING;w_BACKHAND;w_INDEX]);
  (0x1f59d, [w_BLACK;w_RIGHT;w_POINTING;w_BACKHAND;w_INDEX]);
  (0x1f59e, [w_SIDEWAYS;w_WHITE;w_UP;w_POINTING;w_INDEX]);
  (0x1f59f, [w_SIDEWAYS;w_WHITE;w_DOWN;w_POINTING;w_INDEX]);
  (0x1f5a0, [w_SIDEWAYS;w_BLACK;w_UP;w_POINTING;w_INDEX]);
  (0x1f5a1, [w_SIDEWAYS;w_BLACK;w_DOWN;w_POINTING;w_INDEX]);
  (0x1f5a2, [w_BLACK;w_UP;w_POINTING;w_BACKHAND;w_INDEX]);
  (0x1f5a3, [w_BLACK;w_DOWN;w_POINTING;w_BACKHAND;w_INDEX]);
  (0x1f5a4, [w_BLACK;w_HEART]);
  (0x1f5a5, [w_DESKTOP;w_COMPUTER]);
  (0x1f5a6, [w_KEYBOARD;w_AND;w_MOUSE]);
  (0x1f5a7, [w_THREE;w_NETWORKED;w_COMPUTERS]);
  (0x1f5a8, [w_PRINTER]);
  (0x1f5a9, [w_POCKET;w_CALCULATOR]);
  (0x1f5aa, [w_BLACK;w_HARD;w_SHELL;w_FLOPPY;w_DISK]);
  (0x1f5ab, [w_WHITE;w_HARD;w_SHELL;w_FLOPPY;w_DISK]);
  (0x1f5ac, [w_SOFT;w_SHELL;w_FLOPPY;w_DISK]);
  (0x1f5ad, [w_TAPE;w_CARTRIDGE]);
  (0x1f5ae, [w_WIRED;w_KEYBOARD]);
  (0x1f5af, [w_ONE;w_BUTTON;w_MOUSE]);
  (0x1f5b0, [w_TWO;w_BUTTON;w_MOUSE]);
  (0x1f5b1, [w_THREE;w_BUTTON;w_MOUSE]);
  (0x1f5b2, [w_TRACKBALL]);
  (0x1f5b3, [w_OLD;w_PERSONAL;w_COMPUTER]);
  (0x1f5b4, [w_HARD;w_DISK]);
  (0x1f5b5, [w_SCREEN]);
  (0x1f5b6, [w_PRINTER;w_ICON]);
  (0x1f5b7, [w_FAX;w_ICON]);
  (0x1f5b8, [w_OPTICAL;w_DISC;w_ICON]);
  (0x1f5b9, [w_DOCUMENT;w_WITH;w_TEXT]);
  (0x1f5ba, [w_DOCUMENT;w_WITH;w_TEXT;w_AND;w_PICTURE]);
  (0x1f5bb, [w_DOCUMENT;w_WITH;w_PICTURE]);
  (0x1f5bc, [w_FRAME;w_WITH;w_PICTURE]);
  (0x1f5bd, [w_FRAME;w_WITH;w_TILES]);
  (0x1f5be, [w_FRAME;w_WITH;w_AN;w_X]);
  (0x1f5bf, [w_BLACK;w_FOLDER]);
  (0x1f5c0, [w_FOLDER]);
  (0x1f5c1, [w_OPEN;w_FOLDER]);
  (0x1f5c2, [w_CARD;w_INDEX;w_DIVIDERS]);
  (0x1f5c3, [w_CARD;w_FILE;w_BOX]);
  (0x1f5c4, [w_FILE;w_CABINET]);
  (0x1f5c5, [w_EMPTY;w_NOTE]);
  (0x1f5c6, [w_EMPTY;w_NOTE;w_PAGE]);
  (0x1f5c7, [w_EMPTY;w_NOTE;w_PAD]);
  (0x1f5c8, [w_NOTE]);
  (0x1f5c9, [w_NOTE;w_PAGE]);
  (0x1f5ca, [w_NOTE;w_PAD]);
  (0x1f5cb, [w_EMPTY;w_DOCUMENT]);
  (0x1f5cc, [w_EMPTY;w_PAGE]);
  (0x1f5cd, [w_EMPTY;w_PAGES]);
  (0x1f5ce, [w_DOCUMENT]);
  (0x1f5cf, [w_PAGE]);
  (0x1f5d0, [w_PAGES]);
  (0x1f5d1, [w_WASTEBASKET]);
  (0x1f5d2, [w_SPIRAL;w_NOTE;w_PAD]);
  (0x1f5d3, [w_SPIRAL;w_CALENDAR;w_PAD]);
  (0x1f5d4, [w_DESKTOP;w_WINDOW]);
  (0x1f5d5, [w_MINIMIZE]);
  (0x1f5d6, [w_MAXIMIZE]);
  (0x1f5d7, [w_OVERLAP]);
  (0x1f5d8, [w_CLOCKWISE;w_RIGHT;w_AND;w_LEFT;w_SEMICIRCLE;w_ARROWS]);
  (0x1f5d9, [w_CANCELLATION;w_X]);
  (0x1f5da, [w_INCREASE;w_FONT;w_SIZE;w_SYMBOL]);
  (0x1f5db, [w_DECREASE;w_FONT;w_SIZE;w_SYMBOL]);
  (0x1f5dc, [w_COMPRESSION]);
  (0x1f5dd, [w_OLD;w_KEY]);
  (0x1f5de, [w_ROLLED_UP;w_NEWSPAPER]);
  (0x1f5df, [w_PAGE;w_WITH;w_CIRCLED;w_TEXT]);
  (0x1f5e0, [w_STOCK;w_CHART]);
  (0x1f5e1, [w_DAGGER;w_KNIFE]);
  (0x1f5e2, [w_LIPS]);
  (0x1f5e3, [w_SPEAKING;w_HEAD;w_IN;w_SILHOUETTE]);
  (0x1f5e4, [w_THREE;w_RAYS;w_ABOVE]);
  (0x1f5e5, [w_THREE;w_RAYS;w_BELOW]);
  (0x1f5e6, [w_THREE;w_RAYS;w_LEFT]);
  (0x1f5e7, [w_THREE;w_RAYS;w_RIGHT]);
  (0x1f5e8, [w_LEFT;w_SPEECH;w_BUBBLE]);
  (0x1f5e9, [w_RIGHT;w_SPEECH;w_BUBBLE]);
  (0x1f5ea, [w_TWO;w_SPEECH;w_BUBBLES]);
  (0x1f5eb, [w_THREE;w_SPEECH;w_BUBBLES]);
  (0x1f5ec, [w_LEFT;w_THOUGHT;w_BUBBLE]);
  (0x1f5ed, [w_RIGHT;w_THOUGHT;w_BUBBLE]);
  (0x1f5ee, [w_LEFT;w_ANGER;w_BUBBLE]);
  (0x1f5ef, [w_RIGHT;w_ANGER;w_BUBBLE]);
  (0x1f5f0, [w_MOOD;w_BUBBLE]);
  (0x1f5f1, [w_LIGHTNING;w_MOOD;w_BUBBLE]);
  (0x1f5f2, [w_LIGHTNING;w_MOOD]);
  (0x1f5f3, [w_BALLOT;w_BOX;w_WITH;w_BALLOT]);
  (0x1f5f4, [w_BALLOT;w_SCRIPT;w_X]);
  (0x1f5f5, [w_BALLOT;w_BOX;w_WITH;w_SCRIPT;w_X]);
  (0x1f5f6, [w_BALLOT;w_BOLD;w_SCRIPT;w_X]);
  (0x1f5f7, [w_BALLOT;w_BOX;w_WITH;w_BOLD;w_SCRIPT;w_X]);
  (0x1f5f8, [w_LIGHT;w_CHECK;w_MARK]);
  (0x1f5f9, [w_BALLOT;w_BOX;w_WITH;w_BOLD;w_CHECK]);
  (0x1f5fa, [w_WORLD;w_MAP]);
  (0x1f5fb, [w_MOUNT;w_FUJI]);
  (0x1f5fc, [w_TOKYO;w_TOWER]);
  (0x1f5fd, [w_STATUE;w_OF;w_LIBERTY]);
  (0x1f5fe, [w_SILHOUETTE;w_OF;w_JAPAN]);
  (0x1f5ff, [w_MOYAI]);
  (0x1f600, [w_GRINNING;w_FACE]);
  (0x1f601, [w_GRINNING;w_FACE;w_WITH;w_SMILING;w_EYES]);
  (0x1f602, [w_FACE;w_WITH;w_TEARS;w_OF;w_JOY]);
  (0x1f603, [w_SMILING;w_FACE;w_WITH;w_OPEN;w_MOUTH]);
  (0x1f604, [w_SMILING;w_FACE;w_WITH;w_OPEN;w_MOUTH;w_AND;w_SMILING;w_EYES]);
  (0x1f605, [w_SMILING;w_FACE;w_WITH;w_OPEN;w_MOUTH;w_AND;w_COLD;w_SWEAT]);
  (0x1f606, [w_SMILING;w_FACE;w_WITH;w_OPEN;w_MOUTH;w_AND;w_TIGHTLY_CLOSED;w_EYES]);
  (0x1f607, [w_SMILING;w_FACE;w_WITH;w_HALO]);
  (0x1f608, [w_SMILING;w_FACE;w_WITH;w_HORNS]);
  (0x1f609, [w_WINKING;w_FACE]);
  (0x1f60a, [w_SMILING;w_FACE;w_WITH;w_SMILING;w_EYES]);
  (0x1f60b, [w_FACE;w_SAVOURING;w_DELICIOUS;w_FOOD]);
  (0x1f60c, [w_RELIEVED;w_FACE]);
  (0x1f60d, [w_SMILING;w_FACE;w_WITH;w_HEART_SHAPED;w_EYES]);
  (0x1f60e, [w_SMILING;w_FACE;w_WITH;w_SUNGLASSES]);
  (0x1f60f, [w_SMIRKING;w_FACE]);
  (0x1f610, [w_NEUTRAL;w_FACE]);
  (0x1f611, [w_EXPRESSIONLESS;w_FACE]);
  (0x1f612, [w_UNAMUSED;w_FACE]);
  (0x1f613, [w_FACE;w_WITH;w_COLD;w_SWEAT]);
  (0x1f614, [w_PENSIVE;w_FACE]);
  (0x1f615, [w_CONFUSED;w_FACE]);
  (0x1f616, [w_CONFOUNDED;w_FACE]);
  (0x1f617, [w_KISSING;w_FACE]);
  (0x1f618, [w_FACE;w_THROWING;w_A;w_KISS]);
  (0x1f619, [w_KISSING;w_FACE;w_WITH;w_SMILING;w_EYES]);
  (0x1f61a, [w_KISSING;w_FACE;w_WITH;w_CLOSED;w_EYES]);
  (0x1f61b, [w_FACE;w_WITH;w_STUCK_OUT;w_TONGUE]);
  (0x1f61c, [w_FACE;w_WITH;w_STUCK_OUT;w_TONGUE;w_AND;w_WINKING;w_EYE]);
  (0x1f61d, [w_FACE;w_WITH;w_STUCK_OUT;w_TONGUE;w_AND;w_TIGHTLY_CLOSED;w_EYES]);
  (0x1f61e, [w_DISAPPOINTED;w_FACE]);
  (0x1f61f, [w_WORRIED;w_FACE]);
  (0x1f620, [w_ANGRY;w_FACE]);
  (0x1f621, [w_POUTING;w_FACE]);
  (0x1f622, [w_CRYING;w_FACE]);
  (0x1f623, [w_PERSEVERING;w_FACE]);
  (0x1f624, [w_FACE;w_WITH;w_LOOK;w_OF;w_TRIUMPH]);
  (0x1f625, [w_DISAPPOINTED;w_BUT;w_RELIEVED;w_FACE]);
  (0x1f626, [w_FROWNING;w_FACE;w_WITH;w_OPEN;w_MOUTH]);
  (0x1f627, [w_ANGUISHED;w_FACE]);
  (0x1f628, [w_FEARFUL;w_FACE]);
  (0x1f629, [w_WEARY;w_FACE]);
  (0x1f62a, [w_SLEEPY;w_FACE]);
  (0x1f62b, [w_TIRED;w_FACE]);
  (0x1f62c, [w_GRIMACING;w_FACE]);
  (0x1f62d, [w_LOUDLY;w_CRYING;w_FACE]);
  (0x1f62e, [w_FACE;w_WITH;w_OPEN;w_MOUTH]);
  (0x1f62f, [w_HUSHED;w_FACE]);
  (0x1f630, [w_FACE;w_WITH;w_OPEN;w_MOUTH;w_AND;w_COLD;w_SWEAT]);
  (0x1f631, [w_FACE;w_SCREAMING;w_IN;w_FEAR]);
  (0x1f632, [w_ASTONISHED;w_FACE]);
  (0x1f633, [w_FLUSHED;w_FACE]);
  (0x1f634, [w_SLEEPING;w_FACE]);
  (0x1f635, [w_DIZZY;w_FACE]);
  (0x1f636, [w_FACE;w_WITHOUT;w_MOUTH]);
  (0x1f637, [w_FACE;w_WITH;w_MEDICAL;w_MASK]);
  (0x1f638, [w_GRINNING;w_CAT;w_FACE;w_WITH;w_SMILING;w_EYES]);
  (0x1f639, [w_CAT;w_FACE;w_WITH;w_TEARS;w_OF;w_JOY]);
  (0x1f63a, [w_SMILING;w_CAT;w_FACE;w_WITH;w_OPEN;w_MOUTH]);
  (0x1f63b, [w_SMILING;w_CAT;w_FACE;w_WITH;w_HEART_SHAPED;w_EYES]);
  (0x1f63c, [w_CAT;w_FACE;w_WITH;w_WRY;w_SMILE]);
  (0x1f63d, [w_KISSING;w_CAT;w_FACE;w_WITH;w_CLOSED;w_EYES]);
  (0x1f63e, [w_POUTING;w_CAT;w_FACE]);
  (0x1f63f, [w_CRYING;w_CAT;w_FACE]);
  (0x1f640, [w_WEARY;w_CAT;w_FACE]);
  (0x1f641, [w_SLIGHTLY;w_FROWNING;w_FACE]);
  (0x1f642, [w_SLIGHTLY;w_SMILING;w_FACE]);
  (0x1f643, [w_UPSIDE_DOWN;w_FACE]);
  (0x1f644, [w_FACE;w_WITH;w_ROLLING;w_EYES]);
  (0x1f645, [w_FACE;w_WITH;w_NO;w_GOOD;w_GESTURE]);
  (0x1f646, [w_FACE;w_WITH;w_OK;w_GESTURE]);
  (0x1f647, [w_PERSON;w_BOWING;w_DEEPLY]);
  (0x1f648, [w_SEE_NO_EVIL;w_MONKEY]);
  (0x1f649, [w_HEAR_NO_EVIL;w_MONKEY]);
  (0x1f64a, [w_SPEAK_NO_EVIL;w_MONKEY]);
  (0x1f64b, [w_HAPPY;w_PERSON;w_RAISING;w_ONE;w_HAND]);
  (0x1f64c, [w_PERSON;w_RAISING;w_BOTH;w_HANDS;w_IN;w_CELEBRATION]);
  (0x1f64d, [w_PERSON;w_FROWNING]);
  (0x1f64e, [w_PERSON;w_WITH;w_POUTING;w_FACE]);
  (0x1f64f, [w_PERSON;w_WITH;w_FOLDED;w_HANDS]);
  (0x1f650, [w_NORTH;w_WEST;w_POINTING;w_LEAF]);
  (0x1f651, [w_SOUTH;w_WEST;w_POINTING;w_LEAF]);
  (0x1f652, [w_NORTH;w_EAST;w_POINTING;w_LEAF]);
  (0x1f653, [w_SOUTH;w_EAST;w_POINTING;w_LEAF]);
  (0x1f654, [w_TURNED;w_NORTH;w_WEST;w_POINTING;w_LEAF]);
  (0x1f655, [w_TURNED;w_SOUTH;w_WEST;w_POINTING;w_LEAF]);
  (0x1f656, [w_TURNED;w_NORTH;w_EAST;w_POINTING;w_LEAF]);
  (0x1f657, [w_TURNED;w_SOUTH;w_EAST;w_POINTING;w_LEAF])].

Definition NAMES_75 : list (N * (list str)) := [
  (0x1f658, [w_NORTH;w_WEST;w_POINTING;w_VINE;w_LEAF]);
  (0x1f659, [w_SOUTH;w_WEST;w_POINTING;w_VINE;w_LEAF]);
  (0x1f65a, [w_NORTH;w_EAST;w_POINTING;w_VINE;w_LEAF]);
  (0x1f65b, [w_SOUTH;w_EAST;w_POINTING;w_VINE;w_LEAF]);
  (0x1f65c, [w_HEAVY;w_NORTH;w_WEST;w_POINTING;w_VINE;w_LEAF]);
  (0x1f65d, [w_HEAVY;w_SOUTH;w_WEST;w_POINTING;w_VINE;w_LEAF]);
  (0x1f65e, [w_HEAVY;w_NORTH;w_EAST;w_POINTING;w_VINE;w_LEAF]);
  (0x1f65f, [w_HEAVY;w_SOUTH;w_EAST;w_POINTING;w_VINE;w_LEAF]);
  (0x1f660, [w_NORTH;w_WEST;w_POINTING;w_BUD]);
  (0x1f661, [w_SOUTH;w_WEST;w_POINTING;w_BUD]);
  (0x1f662, [w_NORTH;w_EAST;w_POINTING;w_BUD]);
  (0x1f663, [w_SOUTH;w_EAST;w_POINTING;w_BUD]);
  (0x1f664, [w_HEAVY;w_NORTH;w_WEST;w_POINTING;w_BUD]);
  (0x1f665, [w_HEAVY;w_SOUTH;w_WEST;w_POINTING;w_BUD]);
  (0x1f666, [w_HEAVY;w_NORTH;w_EAST;w_POINTING;w_BUD]);
  (0x1f667, [w_HEAVY;w_SOUTH;w_EAST;w_POINTING;w_BUD]);
  (0x1f668, [w_HOLLOW;w_QUILT;w_SQUARE;w_ORNAMENT]);
  (0x1f669, [w_HOLLOW;w_QUILT;w_SQUARE;w_ORNAMENT;w_IN;w_BLACK;w_SQUARE]);
  (0x1f66a, [w_SOLID;w_QUILT;w_SQUARE;w_ORNAMENT]);
  (0x1f66b, [w_SOLID;w_QUILT;w_SQUARE;w_ORNAMENT;w_IN;w_BLACK;w_SQUARE]);
  (0x1f66c, [w_LEFTWARDS;w_ROCKET]);
  (0x1f66d, [w_UPWARDS;w_ROCKET]);
  (0x1f66e, [w_RIGHTWARDS;w_ROCKET]);
  (0x1f66f, [w_DOWNWARDS;w_ROCKET]);
  (0x1f670, [w_SCRIPT;w_LIGATURE;w_ET;w_ORNAMENT]);
  (0x1f671, [w_HEAVY;w_SCRIPT;w_LIGATURE;w_ET;w_ORNAMENT]);
  (0x1f672, [w_LIGATURE;w_OPEN;w_ET;w_ORNAMENT]);
  (0x1f673, [w_HEAVY;w_LIGATURE;w_OPEN;w_ET;w_ORNAMENT]);
  (0x1f674, [w_HEAVY;w_AMPERSAND;w_ORNAMENT]);
  (0x1f675, [w_SWASH;w_AMPERSAND;w_ORNAMENT]);
  (0x1f676, [w_SANS_SERIF;w_HEAVY;w_DOUBLE;w_TURNED;w_COMMA;w_QUOTATION;w_MARK;w_ORNAMENT]);
  (0x1f677, [w_SANS_SERIF;w_HEAVY;w_DOUBLE;w_COMMA;w_QUOTATION;w_MARK;w_ORNAMENT]);
  (0x1f678, [w_SANS_SERIF;w_HEAVY;w_LOW;w_DOUBLE;w_COMMA;w_QUOTATION;w_MARK;w_ORNAMENT]);
  (0x1f679, [w_HEAVY;w_INTERROBANG;w_ORNAMENT]);
  (0x1f67a, [w_SANS_SERIF;w_INTERROBANG;w_ORNAMENT]);
  (0x1f67b, [w_HEAVY;w_SANS_SERIF;w_INTERROBANG;w_ORNAMENT]);
  (0x1f67c, [w_VERY;w_HEAVY;w_SOLIDUS]);
  (0x1f67d, [w_VERY;w_HEAVY;w_REVERSE;w_SOLIDUS]);
  (0x1f67e, [w_CHECKER;w_BOARD]);
  (0x1f67f, [w_REVERSE;w_CHECKER;w_BOARD]);
  (0x1f680, [w_ROCKET]);
  (0x1f681, [w_HELICOPTER]);
  (0x1f682, [w_STEAM;w_LOCOMOTIVE]);
  (0x1f683, [w_RAILWAY;w_CAR]);
  (0x1f684, [w_HIGH_SPEED;w_TRAIN]);
  (0x1f685, [w_HIGH_SPEED;w_TRAIN;w_WITH;w_BULLET;w_NOSE]);
  (0x1f686, [w_TRAIN]);
  (0x1f687, [w_METRO]);
  (0x1f688, [w_LIGHT;w_RAIL]);
  (0x1f689, [w_STATION]);
  (0x1f68a, [w_TRAM]);
  (0x1f68b, [w_TRAM;w_CAR]);
  (0x1f68c, [w_BUS]);
  (0x1f68d, [w_ONCOMING;w_BUS]);
  (0x1f68e, [w_TROLLEYBUS]);
  (0x1f68f, [w_BUS;w_STOP]);
  (0x1f690, [w_MINIBUS]);
  (0x1f691, [w_AMBULANCE]);
  (0x1f692, [w_FIRE;w_ENGINE]);
  (0x1f693, [w_POLICE;w_CAR]);
  (0x1f694, [w_ONCOMING;w_POLICE;w_CAR]);
  (0x1f695, [w_TAXI]);
  (0x1f696, [w_ONCOMING;w_TAXI]);
  (0x1f697, [w_AUTOMOBILE]);
  (0x1f698, [w_ONCOMING;w_AUTOMOBILE]);
  (0x1f699, [w_RECREATIONAL;w_VEHICLE]);
  (0x1f69a, [w_DELIVERY;w_TRUCK]);
  (0x1f69b, [w_ARTICULATED;w_LORRY]);
  (0x1f69c, [w_TRACTOR]);
  (0x1f69d, [w_MONORAIL]);
  (0x1f69e, [w_MOUNTAIN;w_RAILWAY]);
  (0x1f69f, [w_SUSPENSION;w_RAILWAY]);
  (0x1f6a0, [w_MOUNTAIN;w_CABLEWAY]);
  (0x1f6a1, [w_AERIAL;w_TRAMWAY]);
  (0x1f6a2, [w_SHIP]);
  (0x1f6a3, [w_ROWBOAT]);
  (0x1f6a4, [w_SPEEDBOAT]);
  (0x1f6a5, [w_HORIZONTAL;w_TRAFFIC;w_LIGHT]);
  (0x1f6a6, [w_VERTICAL;w_TRAFFIC;w_LIGHT]);
  (0x1f6a7, [w_CONSTRUCTION;w_SIGN]);
  (0x1f6a8, [w_POLICE;w_CARS;w_REVOLVING;w_LIGHT]);
  (0x1f6a9, [w_TRIANGULAR;w_FLAG;w_ON;w_POST]);
  (0x1f6aa, [w_DOOR]);
  (0x1f6ab, [w_NO;w_ENTRY;w_SIGN]);
  (0x1f6ac, [w_SMOKING;w_SYMBOL]);
  (0x1f6ad, [w_NO;w_SMOKING;w_SYMBOL]);
  (0x1f6ae, [w_PUT;w_LITTER;w_IN;w_ITS;w_PLACE;w_SYMBOL]);
  (0x1f6af, [w_DO;w_NOT;w_LITTER;w_SYMBOL]);
  (0x1f6b0, [w_POTABLE;w_WATER;w_SYMBOL]);
  (0x1f6b1, [w_NON_POTABLE;w_WATER;w_SYMBOL]);
  (0x1f6b2, [w_BICYCLE]);
  (0x1f6b3, [w_NO;w_BICYCLES]);
  (0x1f6b4, [w_BICYCLIST]);
  (0x1f6b5, [w_MOUNTAIN;w_BICYCLIST]);
  (0x1f6b6, [w_PEDESTRIAN]);
  (0x1f6b7, [w_NO;w_PEDESTRIANS]);
  (0x1f6b8, [w_CHILDREN;w_CROSSING]);
  (0x1f6b9, [w_MENS;w_SYMBOL]);
  (0x1f6ba, [w_WOMENS;w_SYMBOL]);
  (0x1f6bb, [w_RESTROOM]);
  (0x1f6bc, [w_BABY;w_SYMBOL]);
  (0x1f6bd, [w_TOILET]);
  (0x1f6be, [w_WATER;w_CLOSET]);
  (0x1f6bf, [w_SHOWER]);
  (0x1f6c0, [w_BATH]);
  (0x1f6c1, [w_BATHTUB]);
  (0x1f6c2, [w_PASSPORT;w_CONTROL]);
  (0x1f6c3, [w_CUSTOMS]);
  (0x1f6c4, [w_BAGGAGE;w_CLAIM]);
  (0x1f6c5, [w_LEFT;w_LUGGAGE]);
  (0x1f6c6, [w_TRIANGLE;w_WITH;w_ROUNDED;w_CORNERS]);
  (0x1f6c7, [w_PROHIBITED;w_SIGN]);
  (0x1f6c8, [w_CIRCLED;w_INFORMATION;w_SOURCE]);
  (0x1f6c9, [w_BOYS;w_SYMBOL]);
  (0x1f6ca, [w_GIRLS;w_SYMBOL]);
  (0x1f6cb, [w_COUCH;w_AND;w_LAMP]);
  (0x1f6cc, [w_SLEEPING;w_ACCOMMODATION]);
  (0x1f6cd, [w_SHOPPING;w_BAGS]);
  (0x1f6ce, [w_BELLHOP;w_BELL]);
  (0x1f6cf, [w_BED]);
  (0x1f6d0, [w_PLACE;w_OF;w_WORSHIP]);
  (0x1f6d1, [w_OCTAGONAL;w_SIGN]);
  (0x1f6d2, [w_SHOPPING;w_TROLLEY]);
  (0x1f6d3, [w_STUPA]);
  (0x1f6d4, [w_PAGODA]);
  (0x1f6e0, [w_HAMMER;w_AND;w_WRENCH]);
  (0x1f6e1, [w_SHIELD]);
  (0x1f6e2, [w_OIL;w_DRUM]);
  (0x1f6e3, [w_MOTORWAY]);
  (0x1f6e4, [w_RAILWAY;w_TRACK]);
  (0x1f6e5, [w_MOTOR;w_BOAT]);
  (0x1f6e6, [w_UP_POINTING;w_MILITARY;w_AIRPLANE]);
  (0x1f6e7, [w_UP_POINTING;w_AIRPLANE]);
  (0x1f6e8, [w_UP_POINTING;w_SMALL;w_AIRPLANE]);
  (0x1f6e9, [w_SMALL;w_AIRPLANE]);
  (0x1f6ea, [w_NORTHEAST_POINTING;w_AIRPLANE]);
  (0x1f6eb, [w_AIRPLANE;w_DEPARTURE]);
  (0x1f6ec, [w_AIRPLANE;w_ARRIVING]);
  (0x1f6f0, [w_SATELLITE]);
  (0x1f6f1, [w_ONCOMING;w_FIRE;w_ENGINE]);
  (0x1f6f2, [w_DIESEL;w_LOCOMOTIVE]);
  (0x1f6f3, [w_PASSENGER;w_SHIP]);
  (0x1f6f4, [w_SCOOTER]);
  (0x1f6f5, [w_MOTOR;w_SCOOTER]);
  (0x1f6f6, [w_CANOE]);
  (0x1f6f7, [w_SLED]);
  (0x1f6f8, [w_FLYING;w_SAUCER]);
  (0x1f700, [w_ALCHEMICAL;w_SYMBOL;w_FOR;w_QUINTESSENCE]);
  (0x1f701, [w_ALCHEMICAL;w_SYMBOL;w_FOR;w_AIR]);
  (0x1f702, [w_ALCHEMICAL;w_SYMBOL;w_FOR;w_FIRE]);
  (0x1f703, [w_ALCHEMICAL;w_SYMBOL;w_FOR;w_EARTH]);
  (0x1f704, [w_ALCHEMICAL;w_SYMBOL;w_FOR;w_WATER]);
  (0x1f705, [w_ALCHEMICAL;w_SYMBOL;w_FOR;w_AQUAFORTIS]);
  (0x1f706, [w_ALCHEMICAL;w_SYMBOL;w_FOR;w_AQUA;w_REGIA]);
  (0x1f707, [w_ALCHEMICAL;w_SYMBOL;w_FOR;w_AQUA;w_REGIA_2]);
  (0x1f708, [w_ALCHEMICAL;w_SYMBOL;w_FOR;w_AQUA;w_VITAE]);
  (0x1f709, [w_ALCHEMICAL;w_SYMBOL;w_FOR;w_AQUA;w_VITAE_2]);
  (0x1f70a, [w_ALCHEMICAL;w_SYMBOL;w_FOR;w_VINEGAR]);
  (0x1f70b, [w_ALCHEMICAL;w_SYMBOL;w_FOR;w_VINEGAR_2]);
  (0x1f70c, [w_ALCHEMICAL;w_SYMBOL;w_FOR;w_VINEGAR_3]);
  (0x1f70d, [w_ALCHEMICAL;w_SYMBOL;w_FOR;w_SULFUR]);
  (0x1f70e, [w_ALCHEMICAL;w_SYMBOL;w_FOR;w_PHILOSOPHERS;w_SULFUR]);
  (0x1f70f, [w_ALCHEMICAL;w_SYMBOL;w_FOR;w_BLACK;w_SULFUR]);
  (0x1f710, [w_ALCHEMICAL;w_SYMBOL;w_FOR;w_MERCURY;w_SUBLIMATE]);
  (0x1f711, [w_ALCHEMICAL;w_SYMBOL;w_FOR;w_MERCURY;w_SUBLIMATE_2]);
  (0x1f712, [w_ALCHEMICAL;w_SYMBOL;w_FOR;w_MERCURY;w_SUBLIMATE_3]);
  (0x1f713, [w_ALCHEMICAL;w_SYMBOL;w_FOR;w_CINNABAR]);
  (0x1f714, [w_ALCHEMICAL;w_SYMBOL;w_FOR;w_SALT]);
  (0x1f715, [w_ALCHEMICAL;w_SYMBOL;w_FOR;w_NITRE]);
  (0x1f716, [w_ALCHEMICAL;w_SYMBOL;w_FOR;w_VITRIOL]);
  (0x1f717, [w_ALCHEMICAL;w_SYMBOL;w_FOR;w_VITRIOL_2]);
  (0x1f718, [w_ALCHEMICAL;w_SYMBOL;w_FOR;w_ROCK;w_SALT]);
  (0x1f719, [w_ALCHEMICAL;w_SYMBOL;w_FOR;w_ROCK;w_SALT_2]);
  (0x1f71a, [w_ALCHEMICAL;w_SYMBOL;w_FOR;w_GOLD]);
  (0x1f71b, [w_ALCHEMICAL;w_SYMBOL;w_FOR;w_SILVER]);
  (0x1f71c, [w_ALCHEMICAL;w_SYMBOL;w_FOR;w_IRON;w_ORE]);
  (0x1f71d, [w_ALCHEMICAL;w_SYMBOL;w_FOR;w_IRON;w_ORE_2]);
  (0x1f71e, [w_ALCHEMICAL;w_SYMBOL;w_FOR;w_CROCUS;w_OF;w_IRON]);
  (0x1f71f, [w_ALCHEMICAL;w_SYMBOL;w_FOR;w_REGULUS;w_OF;w_IRON]);
  (0x1f720, [w_ALCHEMICAL;w_SYMBOL;w_FOR;w_COPPER;w_ORE]);
  (0x1f721, [w_ALCHEMICAL;w_SYMBOL;w_FOR;w_IRON_COPPER;w_ORE]);
  (0x1f722, [w_ALCHEMICAL;w_SYMBOL;w_FOR;w_SUBLIMATE;w_OF;w_COPPER]);
  (0x1f723, [w_ALCHEMICAL;w_SYMBOL;w_FOR;w_CROCUS;w_OF;w_COPPER]);
  (0x1f724, [w_ALCHEMICAL;w_SYMBOL;w_FOR;w_CROCUS;w_OF;w_COPPER_2]);
  (0x1f725, [w_ALCHEMICAL;w_SYMBOL;w_FOR;w_COPPER;w_ANTIMONIATE]);
  (0x1f726, [w_ALCHEMICAL;w_SYMBOL;w_FOR;w_SALT;w_OF;w_COPPER;w_ANTIMONIATE]);
  (0x1f727, [w_ALCHEMICAL;w_SYMBOL;w_FOR;w_SUBLIMATE;w_OF;w_SALT;w_OF;w_COPPER]);
  (0x1f728, [w_ALCHEMICAL;w_SYMBOL;w_FOR;w_VERDIGRIS]);
  (0x1f729, [w_ALCHEMICAL;w_SYMBOL;w_FOR;w_TIN;w_ORE]);
  (0x1f72a, [w_ALCHEMICAL;w_SYMBOL;w_FOR;w_LEAD;w_ORE]);
  (0x1f72b, [w_ALCHEMICAL;w_SYMBOL;w_FOR;w_ANTIMONY;w_ORE]);
  (0x1f72c, [w_ALCHEMICAL;w_SYMBOL;w_FOR;w_SUBLIMATE;w_OF;w_ANTIMONY]);
  (0x1f72d, [w_ALCHEMICAL;w_SYMBOL;w_FOR;w_SALT;w_OF;w_ANTIMONY]);
  (0x1f72e, [w_ALCHEMICAL;w_SYMBOL;w_FOR;w_SUBLIMATE;w_OF;w_SALT;w_OF;w_ANTIMONY]);
  (0x1f72f, [w_ALCHEMICAL;w_SYMBOL;w_FOR;w_VINEGAR;w_OF;w_ANTIMONY]);
  (0x1f730, [w_ALCHEMICAL;w_SYMBOL;w_FOR;w_REGULUS;w_OF;w_ANTIMONY]);
  (0x1f731, [w_ALCHEMICAL;w_SYMBOL;w_FOR;w_REGULUS;w_OF;w_ANTIMONY_2]);
  (0x1f732, [w_ALCHEMICAL;w_SYMBOL;w_FOR;w_REGULUS]);
  (0x1f733, [w_ALCHEMICAL;w_SYMBOL;w_FOR;w_REGULUS_2]);
  (0x1f734, [w_ALCHEMICAL;w_SYMBOL;w_FOR;w_REGULUS_3]);
  (0x1f735, [w_ALCHEMICAL;w_SYMBOL;w_FOR;w_REGULUS_4]);
  (0x1f736, [w_ALCHEMICAL;w_SYMBOL;w_FOR;w_ALKALI]);
  (0x1f737, [w_ALCHEMICAL;w_SYMBOL;w_FOR;w_ALKALI_2]);
  (0x1f738, [w_ALCHEMICAL;w_SYMBOL;w_FOR;w_MARCASITE]);
  (0x1f739, [w_ALCHEMICAL;w_SYMBOL;w_FOR;w_SAL_AMMONIAC]);
  (0x1f73a, [w_ALCHEMICAL;w_SYMBOL;w_FOR;w_ARSENIC]);
  (0x1f73b, [w_ALCHEMICAL;w_SYMBOL;w_FOR;w_REALGAR]);
  (0x1f73c, [w_ALCHEMICAL;w_SYMBOL;w_FOR;w_REALGAR_2]);
  (0x1f73d, [w_ALCHEMICAL;w_SYMBOL;w_FOR;w_AURIPIGMENT]);
  (0x1f73e, [w_ALCHEMICAL;w_SYMBOL;w_FOR;w_BISMUTH;w_ORE]);
  (0x1f73f, [w_ALCHEMICAL;w_SYMBOL;w_FOR;w_TARTAR]);
  (0x1f740, [w_ALCHEMICAL;w_SYMBOL;w_FOR;w_TARTAR_2]);
  (0x1f741, [w_ALCHEMICAL;w_SYMBOL;w_FOR;w_QUICK;w_LIME]);
  (0x1f742, [w_ALCHEMICAL;w_SYMBOL;w_FOR;w_BORAX]);
  (0x1f743, [w_ALCHEMICAL;w_SYMBOL;w_FOR;w_BORAX_2]);
  (0x1f744, [w_ALCHEMICAL;w_SYMBOL;w_FOR;w_BORAX_3]);
  (0x1f745, [w_ALCHEMICAL;w_SYMBOL;w_FOR;w_ALUM]);
  (0x1f746, [w_ALCHEMICAL;w_SYMBOL;w_FOR;w_OIL]);
  (0x1f747, [w_ALCHEMICAL;w_SYMBOL;w_FOR;w_SPIRIT]);
  (0x1f748, [w_ALCHEMICAL;w_SYMBOL;w_FOR;w_TINCTURE]);
  (0x1f749, [w_ALCHEMICAL;w_SYMBOL;w_FOR;w_GUM]);
  (0x1f74a, [w_ALCHEMICAL;w_SYMBOL;w_FOR;w_WAX]);
  (0x1f74b, [w_ALCHEMICAL;w_SYMBOL;w_FOR;w_POWDER]);
  (0x1f74c, [w_ALCHEMICAL;w_SYMBOL;w_FOR;w_CALX]);
  (0x1f74d, [w_ALCHEMICAL;w_SYMBOL;w_FOR;w_TUTTY]);
  (0x1f74e, [w_ALCHEMICAL;w_SYMBOL;w_FOR;w_CAPUT;w_MORTUUM]);
  (0x1f74f, [w_ALCHEMICAL;w_SYMBOL;w_FOR;w_SCEPTER;w_OF;w_JOVE]);
  (0x1f750, [w_ALCHEMICAL;w_SYMBOL;w_FOR;w_CADUCEUS]);
  (0x1f751, [w_ALCHEMICAL;w_SYMBOL;w_FOR;w_TRIDENT]);
  (0x1f752, [w_ALCHEMICAL;w_SYMBOL;w_FOR;w_STARRED;w_TRIDENT]);
  (0x1f753, [w_ALCHEMICAL;w_SYMBOL;w_FOR;w_LODESTONE]);
  (0x1f754, [w_ALCHEMICAL;w_SYMBOL;w_FOR;w_SOAP]);
  (0x1f755, [w_ALCHEMICAL;w_SYMBOL;w_FOR;w_URINE]);
  (0x1f756, [w_ALCHEMICAL;w_SYMBOL;w_FOR;w_HORSE;w_DUNG]);
  (0x1f757, [w_ALCHEMICAL;w_SYMBOL;w_FOR;w_ASHES]);
  (0x1f758, [w_ALCHEMICAL;w_SYMBOL;w_FOR;w_POT;w_ASHES]);
  (0x1f759, [w_ALCHEMICAL;w_SYMBOL;w_FOR;w_BRICK]);
  (0x1f75a, [w_ALCHEMICAL;w_SYMBOL;w_FOR;w_POWDERED;w_BRICK]);
  (0x1f75b, [w_ALCHEMICAL;w_SYMBOL;w_FOR;w_AMALGAM]);
  (0x1f75c, [w_ALCHEMICAL;w_SYMBOL;w_FOR;w_STRATUM;w_SUPER;w_STRATUM]);
  (0x1f75d, [w_ALCHEMICAL;w_SYMBOL;w_FOR;w_STRATUM;w_SUPER;w_STRATUM_2]);
  (0x1f75e, [w_ALCHEMICAL;w_SYMBOL;w_FOR;w_SUBLIMATION]);
  (0x1f75f, [w_ALCHEMICAL;w_SYMBOL;w_FOR;w_PRECIPITATE]);
  (0x1f760, [w_ALCHEMICAL;w_SYMBOL;w_FOR;w_DISTILL]);
  (0x1f761, [w_ALCHEMICAL;w_SYMBOL;w_FOR;w_DISSOLVE]);
  (0x1f762, [w_ALCHEMICAL;w_SYMBOL;w_FOR;w_DISSOLVE_2]);
  (0x1f763, [w_ALCHEMICAL;w_SYMBOL;w_FOR;w_PURIFY]);
  (0x1f764, [w_ALCHEMICAL;w_SYMBOL;w_FOR;w_PUTREFACTION]);
  (0x1f765, [w_ALCHEMICAL;w_SYMBOL;w_FOR;w_CRUCIBLE]);
  (0x1f766, [w_ALCHEMICAL;w_SYMBOL;w_FOR;w_CRUCIBLE_2]);
  (0x1f767, [w_ALCHEMICAL;w_SYMBOL;w_FOR;w_CRUCIBLE_3]);
  (0x1f768, [w_ALCHEMICAL;w_SYMBOL;w_FOR;w_CRUCIBLE_4]);
  (0x1f769, [w_ALCHEMICAL;w_SYMBOL;w_FOR;w_CRUCIBLE_5]);
  (0x1f76a, [w_ALCHEMICAL;w_SYMBOL;w_FOR;w_ALEMBIC]);
  (0x1f76b, [w_ALCHEMICAL;w_SYMBOL;w_FOR;w_BATH;w_OF;w_MARY]);
  (0x1f76c, [w_ALCHEMICAL;w_SYMBOL;w_FOR;w_BATH;w_OF;w_VAPOURS]);
  (0x1f76d, [w_ALCHEMICAL;w_SYMBOL;w_FOR;w_RETORT]);
  (0x1f76e, [w_ALCHEMICAL;w_SYMBOL;w_FOR;w_HOUR]);
  (0x1f76f, [w_ALCHEMICAL;w_SYMBOL;w_FOR;w_NIGHT]);
  (0x1f770, [w_ALCHEMICAL;w_SYMBOL;w_FOR;w_DAY_NIGHT]);
  (0x1f771, [w_ALCHEMICAL;w_SYMBOL;w_FOR;w_MONTH]);
  (0x1f772, [w_ALCHEMICAL;w_SYMBOL;w_FOR;w_HALF;w_DRAM]);
  (0x1f773, [w_ALCHEMICAL;w_SYMBOL;w_FOR;w_HALF;w_OUNCE]);
  (0x1f780, [w_BLACK;w_LEFT_POINTING;w_ISOSCELES;w_RIGHT;w_TRIANGLE]);
  (0x1f781, [w_BLACK;w_UP_POINTING;w_ISOSCELES;w_RIGHT;w_TRIANGLE]);
  (0x1f782, [w_BLACK;w_RIGHT_POINTING;w_ISOSCELES;w_RIGHT;w_TRIANGLE]);
  (0x1f783, [w_BLACK;w_DOWN_POINTING;w_ISOSCELES;w_RIGHT;w_TRIANGLE]);
  (0x1f784, [w_BLACK;w_SLIGHTLY;w_SMALL;w_CIRCLE]);
  (0x1f785, [w_MEDIUM;w_BOLD;w_WHITE;w_CIRCLE]);
  (0x1f786, [w_BOLD;w_WHITE;w_CIRCLE]);
  (0x1f787, [w_HEAVY;w_WHITE;w_CIRCLE]);
  (0x1f788, [w_VERY;w_HEAVY;w_WHITE;w_CIRCLE]);
  (0x1f789, [w_EXTREMELY;w_HEAVY;w_WHITE;w_CIRCLE]);
  (0x1f78a, [w_WHITE;w_CIRCLE;w_CONTAINING;w_BLACK;w_SMALL;w_CIRCLE]);
  (0x1f78b, [w_ROUND;w_TARGET]);
  (0x1f78c, [w_BLACK;w_TINY;w_SQUARE]);
  (0x1f78d, [w_BLACK;w_SLIGHTLY;w_SMALL;w_SQUARE]);
  (0x1f78e, [w_LIGHT;w_WHITE;w_SQUARE]);
  (0x1f78f, [w_MEDIUM;w_WHITE;w_SQUARE]);
  (0x1f790, [w_BOLD;w_WHITE;w_SQUARE]);
  (0x1f791, [w_HEAVY;w_WHITE;w_SQUARE]);
  (0x1f792, [w_VERY;w_HEAVY;w_WHITE;w_SQUARE]);
  (0x1f793, [w_EXTREMELY;w_HEAVY;w_WHITE;w_SQUARE]);
  (0x1f794, [w_WHITE;w_SQUARE;w_CONTAINING;w_BLACK;w_VERY;w_SMALL;w_SQUARE]);
  (0x1f795, [w_WHITE;w_SQUARE;w_CONTAINING;w_BLACK;w_MEDIUM;w_SQUARE]);
  (0x1f796, [w_SQUARE;w_TARGET]);
  (0x1f797, [w_BLACK;w_TINY;w_DIAMOND]);
  (0x1f798, [w_BLACK;w_VERY;w_SMALL;w_DIAMOND]);
  (0x1f799, [w_BLACK;w_MEDIUM;w_SMALL;w_DIAMOND]);
  (0x1f79a, [w_WHITE;w_DIAMOND;w_CONTAINING;w_BLACK;w_VERY;w_SMALL;w_DIAMOND]);
  (0x1f79b, [w_WHITE;w_DIAMOND;w_CONTAINING;w_BLACK;w_MEDIUM;w_DIAMOND]);
  (0x1f79c, [w_DIAMOND;w_TARGET]);
  (0x1f79d, [w_BLACK;w_TINY;w_LOZENGE]);
  (0x1f79e, [w_BLACK;w_VERY;w_SMALL;w_LOZENGE]);
  (0x1f79f, [w_BLACK;w_MEDIUM;w_SMALL;w_LOZENGE]);
  (0x1f7a0, [w_WHITE;w_LOZENGE;w_CONTAINING;w_BLACK;w_SMALL;w_LOZENGE]);
  (0x1f7a1, [w_THIN;w_GREEK;w_CROSS]);
  (0x1f7a2, [w_LIGHT;w_GREEK;w_CROSS]);
  (0x1f7a3, [w_MEDIUM;w_GREEK;w_CROSS]);
  (0x1f7a4, [w_BOLD;w_GREEK;w_CROSS]);
  (0x1f7a5, [w_VERY;w_BOLD;w_GREEK;w_CROSS]);
  (0x1f7a6, [w_VERY;w_HEAVY;w_GREEK;w_CROSS]);
  (0x1f7a7, [w_EXTREMELY;w_HEAVY;w_GREEK;w_CROSS]);
  (0x1f7a8, [w_THIN;w_SALTIRE]);
  (0x1f7a9, [w_LIGHT;w_SALTIRE]);
  (0x1f7aa, [w_MEDIUM;w_SALTIRE]);
  (0x1f7ab, [w_BOLD;w_SALTIRE]);
  (0x1f7ac, [w_HEAVY;w_SALTIRE]);
  (0x1f7ad, [w_VERY;w_HEAVY;w_SALTIRE]);
  (0x1f7ae, [w_EXTREMELY;w_HEAVY;w_SALTIRE]);
  (0x1f7af, [w_LIGHT;w_FIVE;w_SPOKED;w_ASTERISK]);
  (0x1f7b0, [w_MEDIUM;w_FIVE;w_SPOKED;w_ASTERISK]);
  (0x1f7b1, [w_BOLD;w_FIVE;w_SPOKED;w_ASTERISK]);
  (0x1f7b2, [w_HEAVY;w_FIVE;w_SPOKED;w_ASTERISK]);
  (0x1f7b3, [w_VERY;w_HEAVY;w_FIVE;w_SPOKED;w_ASTERISK]);
  (0x1f7b4, [w_EXTREMELY;w_HEAVY;w_FIVE;w_SPOKED;w_ASTERISK]);
  (0x1f7b5, [w_LIGHT;w_SIX;w_SPOKED;w_ASTERISK]);
  (0x1f7b6, [w_MEDIUM;w_SIX;w_SPOKED;w_ASTERISK]);
  (0x1f7b7, [w_BOLD;w_SIX;w_SPOKED;w_ASTERISK]);
  (0x1f7b8, [w_HEAVY;w_SIX;w_SPOKED;w_ASTERISK]);
  (0x1f7b9, [w_VERY;w_HEAVY;w_SIX;w_SPOKED;w_ASTERISK]);
  (0x1f7ba, [w_EXTREMELY;w_HEAVY;w_SIX;w_SPOKED;w_ASTERISK]);
  (0x1f7bb, [w_LIGHT;w_EIGHT;w_SPOKED;w_ASTERISK]);
  (0x1f7bc, [w_MEDIUM;w_EIGHT;w_SPOKED;w_ASTERISK]);
  (0x1f7bd, [w_BOLD;w_EIGHT;w_SPOKED;w_ASTERISK]);
  (0x1f7be, [w_HEAVY;w_EIGHT;w_SPOKED;w_ASTERISK]);
  (0x1f7bf, [w_VERY;w_HEAVY;w_EIGHT;w_SPOKED;w_ASTERISK]);
  (0x1f7c0, [w_LIGHT;w_THREE;w_POINTED;w_BLACK;w_STAR]);
  (0x1f7c1, [w_MEDIUM;w_THREE;w_POINTED;w_BLACK;w_STAR]);
  (0x1f7c2, [w_THREE;w_POINTED;w_BLACK;w_STAR]);
  (0x1f7c3, [w_MEDIUM;w_THREE;w_POINTED;w_PINWHEEL;w_STAR]);
  (0x1f7c4, [w_LIGHT;w_FOUR;w_POINTED;w_BLACK;w_STAR]);
  (0x1f7c5, [w_MEDIUM;w_FOUR;w_POINTED;w_BLACK;w_STAR]);
  (0x1f7c6, [w_FOUR;w_POINTED;w_BLACK;w_STAR]);
  (0x1f7c7, [w_MEDIUM;w_FOUR;w_POINTED;w_PINWHEEL;w_STAR]);
  (0x1f7c8, [w_REVERSE;w_LIGHT;w_FOUR;w_POINTED;w_PINWHEEL;w_STAR]);
  (0x1f7c9, [w_LIGHT;w_FIVE;w_POINTED;w_BLACK;w_STAR]);
  (0x1f7ca, [w_HEAVY;w_FIVE;w_POINTED;w_BLACK;w_STAR]);
  (0x1f7cb, [w_MEDIUM;w_SIX;w_POINTED;w_BLACK;w_STAR]);
  (0x1f7cc, [w_HEAVY;w_SIX;w_POINTED;w_BLACK;w_STAR]);
  (0x1f7cd, [w_SIX;w_POINTED;w_PINWHEEL;w_STAR]);
  (0x1f7ce, [w_MEDIUM;w_EIGHT;w_POINTED;w_BLACK;w_STAR]);
  (0x1f7cf, [w_HEAVY;w_EIGHT;w_POINTED;w_BLACK;w_STAR]);
  (0x1f7d0, [w_VERY;w_HEAVY;w_EIGHT;w_POINTED;w_BLACK;w_STAR]);
  (0x1f7d1, [w_HEAVY;w_EIGHT;w_POINTED;w_PINWHEEL;w_STAR]);
  (0x1f7d2, [w_LIGHT;w_TWELVE;w_POINTED;w_BLACK;w_STAR]);
  (0x1f7d3, [w_HEAVY;w_TWELVE;w_POINTED;w_BLACK;w_STAR]);
  (0x1f7d4, [w_HEAVY;w_TWELVE;w_POINTED;w_PINWHEEL;w_STAR]);
  (0x1f800, [w_LEFTWARDS;w_ARROW;w_WITH;w_SMALL;w_TRIANGLE;w_ARROWHEAD]);
  (0x1f801, [w_UPWARDS;w_ARROW;w_WITH;w_SMALL;w_TRIANGLE;w_ARROWHEAD]);
  (0x1f802, [w_RIGHTWARDS;w_ARROW;w_WITH;w_SMALL;w_TRIANGLE;w_ARROWHEAD]);
  (0x1f803, [w_DOWNWARDS;w_ARROW;w_WITH;w_SMALL;w_TRIANGLE;w_ARROWHEAD]);
  (0x1f804, [w_LEFTWARDS;w_ARROW;w_WITH;w_MEDIUM;w_TRIANGLE;w_ARROWHEAD]);
  (0x1f805, [w_UPWARDS;w_ARROW;w_WITH;w_MEDIUM;w_TRIANGLE;w_ARROWHEAD]);
  (0x1f806, [w_RIGHTWARDS;w_ARROW;w_WITH;w_MEDIUM;w_TRIANGLE;w_ARROWHEAD]);
  (0x1f807, [w_DOWNWARDS;w_ARROW;w_WITH;w_MEDIUM;w_TRIANGLE;w_ARROWHEAD]);
  (0x1f808, [w_LEFTWARDS;w_ARROW;w_WITH;w_LARGE;w_TRIANGLE;w_ARROWHEAD]);
  (0x1f809, [w_UPWARDS;w_ARROW;w_WITH;w_LARGE;w_TRIANGLE;w_ARROWHEAD]);
  (0x1f80a, [w_RIGHTWARDS;w_ARROW;w_WITH;w_LARGE;w_TRIANGLE;w_ARROWHEAD]);
  (0x1f80b, [w_DOWNWARDS;w_ARROW;w_WITH;w_LARGE;w_TRIANGLE;w_ARROWHEAD]);
  (0x1f810, [w_LEFTWARDS;w_ARROW;w_WITH;w_SMALL;w_EQUILATERAL;w_ARROWHEAD]);
  (0x1f811, [w_UPWARDS;w_ARROW;w_WITH;w_SMALL;w_EQUILATERAL;w_ARROWHEAD]);
  (0x1f812, [w_RIGHTWARDS;w_ARROW;w_WITH;w_SMALL;w_EQUILATERAL;w_ARROWHEAD]);
  (0x1f813, [w_DOWNWARDS;w_ARROW;w_WITH;w_SMALL;w_EQUILATERAL;w_ARROWHEAD]);
  (0x1f814, [w_LEFTWARDS;w_ARROW;w_WITH;w_EQUILATERAL;w_ARROWHEAD]);
  (0x1f815, [w_UPWARDS;w_ARROW;w_WITH;w_EQUILATERAL;w_ARROWHEAD]);
  (0x1f816, [w_RIGHTWARDS;w_ARROW;w_WITH;w_EQUILATERAL;w_ARROWHEAD]);
  (0x1f817, [w_DOWNWARDS;w_ARROW;w_WITH;w_EQUILATERAL;w_ARROWHEAD]);
  (0x1f818, [w_HEAVY;w_LEFTWARDS;w_ARROW;w_WITH;w_EQUILATERAL;w_ARROWHEAD]);
  (0x1f819, [w_HEAVY;w_UPWARDS;w_ARROW;w_WITH;w_EQUILATERAL;w_ARROWHEAD]);
  (0x1f81a, [w_HEAVY;w_RIGHTWARDS;w_ARROW;w_WITH;w_EQUILATERAL;w_ARROWHEAD]);
  (0x1f81b, [w_HEAVY;w_DOWNWARDS;w_ARROW;w_WITH;w_EQUILATERAL;w_ARROWHEAD]);
  (0x1f81c, [w_HEAVY;w_LEFTWARDS;w_ARROW;w_WITH;w_LARGE;w_EQUILATERAL;w_ARROWHEAD]);
  (0x1f81d, [w_HEAVY;w_UPWARDS;w_ARROW;w_WITH;w_LARGE;w_EQUILATERAL;w_ARROWHEAD]);
  (0x1f81e, [w_HEAVY;w_RIGHTWARDS;w_ARROW;w_WITH;w_LARGE;w_EQUILATERAL;w_ARROWHEAD]);
  (0x1f81f, [w_HEAVY;w_DOWNWARDS;w_ARROW;w_WITH;w_LARGE;w_EQUILATERAL;w_ARROWHEAD]);
  (0x1f820, [w_LEFTWARDS;w_TRIANGLE_HEADED;w_ARROW;w_WITH;w_NARROW;w_SHAFT]);
  (0x1f821, [w_UPWARDS;w_TRIANGLE_HEADED;w_ARROW;w_WITH;w_NARROW;w_SHAFT]);
  (0x1f822, [w_RIGHTWARDS;w_TRIANGLE_HEADED;w_ARROW;w_WITH;w_NARROW;w_SHAFT]);
  (0x1f823, [w_DOWNWARDS;w_TRIANGLE_HEADED;w_ARROW;w_WITH;w_NARROW;w_SHAFT]);
  (0x1f824, [w_LEFTWARDS;w_TRIANGLE_HEADED;w_ARROW;w_WITH;w_MEDIUM;w_SHAFT]);
  (0x1f825, [w_UPWARDS;w_TRIANGLE_HEADED;w_ARROW;w_WITH;w_MEDIUM;w_SHAFT]);
  (0x1f826, [w_RIGHTWARDS;w_TRIANGLE_HEADED;w_ARROW;w_WITH;w_MEDIUM;w_SHAFT]);
  (0x1f827, [w_DOWNWARDS;w_TRIANGLE_HEADED;w_ARROW;w_WITH;w_MEDIUM;w_SHAFT]);
  (0x1f828, [w_LEFTWARDS;w_TRIANGLE_HEADED;w_ARROW;w_WITH;w_BOLD;w_SHAFT]);
  (0x1f829, [w_UPWARDS;w_TRIANGLE_HEADED;w_ARROW;w_WITH;w_BOLD;w_SHAFT]);
  (0x1f82a, [w_RIGHTWARDS;w_TRIANGLE_HEADED;w_ARROW;w_WITH;w_BOLD;w_SHAFT]);
  (0x1f82b, [w_DOWNWARDS;w_TRIANGLE_HEADED;w_ARROW;w_WITH;w_BOLD;w_SHAFT]);
  (0x1f82c, [w_LEFTWARDS;w_TRIANGLE_HEADED;w_ARROW;w_WITH;w_HEAVY;w_SHAFT]);
  (0x1f82d, [w_UPWARDS;w_TRIANGLE_HEADED;w_ARROW;w_WITH;w_HEAVY;w_SHAFT]);
  (0x1f82e, [w_RIGHTWARDS;w_TRIANGLE_HEADED;w_ARROW;w_WITH;w_HEAVY;w_SHAFT]);
  (0x1f82f, [w_DOWNWARDS;w_TRIANGLE_HEADED;w_ARROW;w_WITH;w_HEAVY;w_SHAFT]);
  (0x1f830, [w_LEFTWARDS;w_TRIANGLE_HEADED;w_ARROW;w_WITH;w_VERY;w_HEAVY;w_SHAFT]);
  (0x1f831, [w_UPWARDS;w_TRIANGLE_HEADED;w_ARROW;w_WITH;w_VERY;w_HEAVY;w_SHAFT]);
  (0x1f832, [w_RIGHTWARDS;w_TRIANGLE_HEADED;w_ARROW;w_WITH;w_VERY;w_HEAVY;w_SHAFT]);
  (0x1f833, [w_DOWNWARDS;w_TRIANGLE_HEADED;w_ARROW;w_WITH;w_VERY;w_HEAVY;w_SHAFT]);
  (0x1f834, [w_LEFTWARDS;w_FINGER_POST;w_ARROW]);
  (0x1f835, [w_UPWARDS;w_FINGER_POST;w_ARROW]);
  (0x1f836, [w_RIGHTWARDS;w_FINGER_POST;w_ARROW]);
  (0x1f837, [w_DOWNWARDS;w_FINGER_POST;w_ARROW])].

Definition NAMES_76 : list (N * (list str)) := [
  (0x1f838, [w_LEFTWARDS;w_SQUARED;w_ARROW]);
  (0x1f839, [w_UPWARDS;w_SQUARED;w_ARROW]);
  (0x1f83a, [w_RIGHTWARDS;w_SQUARED;w_ARROW]);
  (0x1f83b, [w_DOWNWARDS;w_SQUARED;w_ARROW]);
  (0x1f83c, [w_LEFTWARDS;w_COMPRESSED;w_ARROW]);
  (0x1f83d, [w_UPWARDS;w_COMPRESSED;w_ARROW]);
  (0x1f83e, [w_RIGHTWARDS;w_COMPRESSED;w_ARROW]);
  (0x1f83f, [w_DOWNWARDS;w_COMPRESSED;w_ARROW]);
  (0x1f840, [w_LEFTWARDS;w_HEAVY;w_COMPRESSED;w_ARROW]);
  (0x1f841, [w_UPWARDS;w_HEAVY;w_COMPRESSED;w_ARROW]);
  (0x1f842, [w_RIGHTWARDS;w_HEAVY;w_COMPRESSED;w_ARROW]);
  (0x1f843, [w_DOWNWARDS;w_HEAVY;w_COMPRESSED;w_ARROW]);
  (0x1f844, [w_LEFTWARDS;w_HEAVY;w_ARROW]);
  (0x1f845, [w_UPWARDS;w_HEAVY;w_ARROW]);
  (0x1f846, [w_RIGHTWARDS;w_HEAVY;w_ARROW]);
  (0x1f847, [w_DOWNWARDS;w_HEAVY;w_ARROW]);
  (0x1f850, [w_LEFTWARDS;w_SANS_SERIF;w_ARROW]);
  (0x1f851, [w_UPWARDS;w_SANS_SERIF;w_ARROW]);
  (0x1f852, [w_RIGHTWARDS;w_SANS_SERIF;w_ARROW]);
  (0x1f853, [w_DOWNWARDS;w_SANS_SERIF;w_ARROW]);
  (0x1f854, [w_NORTH;w_WEST;w_SANS_SERIF;w_ARROW]);
  (0x1f855, [w_NORTH;w_EAST;w_SANS_SERIF;w_ARROW]);
  (0x1f856, [w_SOUTH;w_EAST;w_SANS_SERIF;w_ARROW]);
  (0x1f857, [w_SOUTH;w_WEST;w_SANS_SERIF;w_ARROW]);
  (0x1f858, [w_LEFT;w_RIGHT;w_SANS_SERIF;w_ARROW]);
  (0x1f859, [w_UP;w_DOWN;w_SANS_SERIF;w_ARROW]);
  (0x1f860, [w_WIDE_HEADED;w_LEFTWARDS;w_LIGHT;w_BARB;w_ARROW]);
  (0x1f861, [w_WIDE_HEADED;w_UPWARDS;w_LIGHT;w_BARB;w_ARROW]);
  (0x1f862, [w_WIDE_HEADED;w_RIGHTWARDS;w_LIGHT;w_BARB;w_ARROW]);
  (0x1f863, [w_WIDE_HEADED;w_DOWNWARDS;w_LIGHT;w_BARB;w_ARROW]);
  (0x1f864, [w_WIDE_HEADED;w_NORTH;w_WEST;w_LIGHT;w_BARB;w_ARROW]);
  (0x1f865, [w_WIDE_HEADED;w_NORTH;w_EAST;w_LIGHT;w_BARB;w_ARROW]);
  (0x1f866, [w_WIDE_HEADED;w_SOUTH;w_EAST;w_LIGHT;w_BARB;w_ARROW]);
  (0x1f867, [w_WIDE_HEADED;w_SOUTH;w_WEST;w_LIGHT;w_BARB;w_ARROW]);
  (0x1f868, [w_WIDE_HEADED;w_LEFTWARDS;w_BARB;w_ARROW]);
  (0x1f869, [w_WIDE_HEADED;w_UPWARDS;w_BARB;w_ARROW]);
  (0x1f86a, [w_WIDE_HEADED;w_RIGHTWARDS;w_BARB;w_ARROW]);
  (0x1f86b, [w_WIDE_HEADED;w_DOWNWARDS;w_BARB;w_ARROW]);
  (0x1f86c, [w_WIDE_HEADED;w_NORTH;w_WEST;w_BARB;w_ARROW]);
  (0x1f86d, [w_WIDE_HEADED;w_NORTH;w_EAST;w_BARB;w_ARROW]);
  (0x1f86e, [w_WIDE_HEADED;w_SOUTH;w_EAST;w_BARB;w_ARROW]);
  (0x1f86f, [w_WIDE_HEADED;w_SOUTH;w_WEST;w_BARB;w_ARROW]);
  (0x1f870, [w_WIDE_HEADED;w_LEFTWARDS;w_MEDIUM;w_BARB;w_ARROW]);
  (0x1f871, [w_WIDE_HEADED;w_UPWARDS;w_MEDIUM;w_BARB;w_ARROW]);
  (0x1f872, [w_WIDE_HEADED;w_RIGHTWARDS;w_MEDIUM;w_BARB;w_ARROW]);
  (0x1f873, [w_WIDE_HEADED;w_DOWNWARDS;w_MEDIUM;w_BARB;w_ARROW]);
  (0x1f874, [w_WIDE_HEADED;w_NORTH;w_WEST;w_MEDIUM;w_BARB;w_ARROW]);
  (0x1f875, [w_WIDE_HEADED;w_NORTH;w_EAST;w_MEDIUM;w_BARB;w_ARROW]);
  (0x1f876, [w_WIDE_HEADED;w_SOUTH;w_EAST;w_MEDIUM;w_BARB;w_ARROW]);
  (0x1f877, [w_WIDE_HEADED;w_SOUTH;w_WEST;w_MEDIUM;w_BARB;w_ARROW]);
  (0x1f878, [w_WIDE_HEADED;w_LEFTWARDS;w_HEAVY;w_BARB;w_ARROW]);
  (0x1f879, [w_WIDE_HEADED;w_UPWARDS;w_HEAVY;w_BARB;w_ARROW]);
  (0x1f87a, [w_WIDE_HEADED;w_RIGHTWARDS;w_HEAVY;w_BARB;w_ARROW]);
  (0x1f87b, [w_WIDE_HEADED;w_DOWNWARDS;w_HEAVY;w_BARB;w_ARROW]);
  (0x1f87c, [w_WIDE_HEADED;w_NORTH;w_WEST;w_HEAVY;w_BARB;w_ARROW]);
  (0x1f87d, [w_WIDE_HEADED;w_NORTH;w_EAST;w_HEAVY;w_BARB;w_ARROW]);
  (0x1f87e, [w_WIDE_HEADED;w_SOUTH;w_EAST;w_HEAVY;w_BARB;w_ARROW]);
  (0x1f87f, [w_WIDE_HEADED;w_SOUTH;w_WEST;w_HEAVY;w_BARB;w_ARROW]);
  (0x1f880, [w_WIDE_HEADED;w_LEFTWARDS;w_VERY;w_HEAVY;w_BARB;w_ARROW]);
  (0x1f881, [w_WIDE_HEADED;w_UPWARDS;w_VERY;w_HEAVY;w_BARB;w_ARROW]);
  (0x1f882, [w_WIDE_HEADED;w_RIGHTWARDS;w_VERY;w_HEAVY;w_BARB;w_ARROW]);
  (0x1f883, [w_WIDE_HEADED;w_DOWNWARDS;w_VERY;w_HEAVY;w_BARB;w_ARROW]);
  (0x1f884, [w_WIDE_HEADED;w_NORTH;w_WEST;w_VERY;w_HEAVY;w_BARB;w_ARROW]);
  (0x1f885, [w_WIDE_HEADED;w_NORTH;w_EAST;w_VERY;w_HEAVY;w_BARB;w_ARROW]);
  (0x1f886, [w_WIDE_HEADED;w_SOUTH;w_EAST;w_VERY;w_HEAVY;w_BARB;w_ARROW]);
  (0x1f887, [w_WIDE_HEADED;w_SOUTH;w_WEST;w_VERY;w_HEAVY;w_BARB;w_ARROW]);
  (0x1f890, [w_LEFTWARDS;w_TRIANGLE;w_ARROWHEAD]);
  (0x1f891, [w_UPWARDS;w_TRIANGLE;w_ARROWHEAD]);
  (0x1f892, [w_RIGHTWARDS;w_TRIANGLE;w_ARROWHEAD]);
  (0x1f893, [w_DOWNWARDS;w_TRIANGLE;w_ARROWHEAD]);
  (0x1f894, [w_LEFTWARDS;w_WHITE;w_ARROW;w_WITHIN;w_TRIANGLE;w_ARROWHEAD]);
  (0x1f895, [w_UPWARDS;w_WHITE;w_ARROW;w_WITHIN;w_TRIANGLE;w_ARROWHEAD]);
  (0x1f896, [w_RIGHTWARDS;w_WHITE;w_ARROW;w_WITHIN;w_TRIANGLE;w_ARROWHEAD]);
  (0x1f897, [w_DOWNWARDS;w_WHITE;w_ARROW;w_WITHIN;w_TRIANGLE;w_ARROWHEAD]);
  (0x1f898, [w_LEFTWARDS;w_ARROW;w_WITH;w_NOTCHED;w_TAIL]);
  (0x1f899, [w_UPWARDS;w_ARROW;w_WITH;w_NOTCHED;w_TAIL]);
  (0x1f89a, [w_RIGHTWARDS;w_ARROW;w_WITH;w_NOTCHED;w_TAIL]);
  (0x1f89b, [w_DOWNWARDS;w_ARROW;w_WITH;w_NOTCHED;w_TAIL]);
  (0x1f89c, [w_HEAVY;w_ARROW;w_SHAFT;w_WIDTH;w_ONE]);
  (0x1f89d, [w_HEAVY;w_ARROW;w_SHAFT;w_WIDTH;w_TWO;w_THIRDS]);
  (0x1f89e, [w_HEAVY;w_ARROW;w_SHAFT;w_WIDTH;w_ONE;w_HALF]);
  (0x1f89f, [w_HEAVY;w_ARROW;w_SHAFT;w_WIDTH;w_ONE;w_THIRD]);
  (0x1f8a0, [w_LEFTWARDS;w_BOTTOM_SHADED;w_WHITE;w_ARROW]);
  (0x1f8a1, [w_RIGHTWARDS;w_BOTTOM;w_SHADED;w_WHITE;w_ARROW]);
  (0x1f8a2, [w_LEFTWARDS;w_TOP;w_SHADED;w_WHITE;w_ARROW]);
  (0x1f8a3, [w_RIGHTWARDS;w_TOP;w_SHADED;w_WHITE;w_ARROW]);
  (0x1f8a4, [w_LEFTWARDS;w_LEFT_SHADED;w_WHITE;w_ARROW]);
  (0x1f8a5, [w_RIGHTWARDS;w_RIGHT_SHADED;w_WHITE;w_ARROW]);
  (0x1f8a6, [w_LEFTWARDS;w_RIGHT_SHADED;w_WHITE;w_ARROW]);
  (0x1f8a7, [w_RIGHTWARDS;w_LEFT_SHADED;w_WHITE;w_ARROW]);
  (0x1f8a8, [w_LEFTWARDS;w_BACK_TILTED;w_SHADOWED;w_WHITE;w_ARROW]);
  (0x1f8a9, [w_RIGHTWARDS;w_BACK_TILTED;w_SHADOWED;w_WHITE;w_ARROW]);
  (0x1f8aa, [w_LEFTWARDS;w_FRONT_TILTED;w_SHADOWED;w_WHITE;w_ARROW]);
  (0x1f8ab, [w_RIGHTWARDS;w_FRONT_TILTED;w_SHADOWED;w_WHITE;w_ARROW]);
  (0x1f8ac, [w_WHITE;w_ARROW;w_SHAFT;w_WIDTH;w_ONE]);
  (0x1f8ad, [w_WHITE;w_ARROW;w_SHAFT;w_WIDTH;w_TWO;w_THIRDS]);
  (0x1f900, [w_CIRCLED;w_CROSS;w_FORMEE;w_WITH;w_FOUR;w_DOTS]);
  (0x1f901, [w_CIRCLED;w_CROSS;w_FORMEE;w_WITH;w_TWO;w_DOTS]);
  (0x1f902, [w_CIRCLED;w_CROSS;w_FORMEE]);
  (0x1f903, [w_LEFT;w_HALF;w_CIRCLE;w_WITH;w_FOUR;w_DOTS]);
  (0x1f904, [w_LEFT;w_HALF;w_CIRCLE;w_WITH;w_THREE;w_DOTS]);
  (0x1f905, [w_LEFT;w_HALF;w_CIRCLE;w_WITH;w_TWO;w_DOTS]);
  (0x1f906, [w_LEFT;w_HALF;w_CIRCLE;w_WITH;w_DOT]);
  (0x1f907, [w_LEFT;w_HALF;w_CIRCLE]);
  (0x1f908, [w_DOWNWARD;w_FACING;w_HOOK]);
  (0x1f909, [w_DOWNWARD;w_FACING;w_NOTCHED;w_HOOK]);
  (0x1f90a, [w_DOWNWARD;w_FACING;w_HOOK;w_WITH;w_DOT]);
  (0x1f90b, [w_DOWNWARD;w_FACING;w_NOTCHED;w_HOOK;w_WITH;w_DOT]);
  (0x1f910, [w_ZIPPER_MOUTH;w_FACE]);
  (0x1f911, [w_MONEY_MOUTH;w_FACE]);
  (0x1f912, [w_FACE;w_WITH;w_THERMOMETER]);
  (0x1f913, [w_NERD;w_FACE]);
  (0x1f914, [w_THINKING;w_FACE]);
  (0x1f915, [w_FACE;w_WITH;w_HEAD_BANDAGE]);
  (0x1f916, [w_ROBOT;w_FACE]);
  (0x1f917, [w_HUGGING;w_FACE]);
  (0x1f918, [w_SIGN;w_OF;w_THE;w_HORNS]);
  (0x1f919, [w_CALL;w_ME;w_HAND]);
  (0x1f91a, [w_RAISED;w_BACK;w_OF;w_HAND]);
  (0x1f91b, [w_LEFT_FACING;w_FIST]);
  (0x1f91c, [w_RIGHT_FACING;w_FIST]);
  (0x1f91d, [w_HANDSHAKE]);
  (0x1f91e, [w_HAND;w_WITH;w_INDEX;w_AND;w_MIDDLE;w_FINGERS;w_CROSSED]);
  (0x1f91f, [w_I;w_LOVE;w_YOU;w_HAND;w_SIGN]);
  (0x1f920, [w_FACE;w_WITH;w_COWBOY;w_HAT]);
  (0x1f921, [w_CLOWN;w_FACE]);
  (0x1f922, [w_NAUSEATED;w_FACE]);
  (0x1f923, [w_ROLLING;w_ON;w_THE;w_FLOOR;w_LAUGHING]);
  (0x1f924, [w_DROOLING;w_FACE]);
  (0x1f925, [w_LYING;w_FACE]);
  (0x1f926, [w_FACE;w_PALM]);
  (0x1f927, [w_SNEEZING;w_FACE]);
  (0x1f928, [w_FACE;w_WITH;w_ONE;w_EYEBROW;w_RAISED]);
  (0x1f929, [w_GRINNING;w_FACE;w_WITH;w_STAR;w_EYES]);
  (0x1f92a, [w_GRINNING;w_FACE;w_WITH;w_ONE;w_LARGE;w_AND;w_ONE;w_SMALL;w_EYE]);
  (0x1f92b, [w_FACE;w_WITH;w_FINGER;w_COVERING;w_CLOSED;w_LIPS]);
  (0x1f92c, [w_SERIOUS;w_FACE;w_WITH;w_SYMBOLS;w_COVERING;w_MOUTH]);
  (0x1f92d, [w_SMILING;w_FACE;w_WITH;w_SMILING;w_EYES;w_AND;w_HAND;w_COVERING;w_MOUTH]);
  (0x1f92e, [w_FACE;w_WITH;w_OPEN;w_MOUTH;w_VOMITING]);
  (0x1f92f, [w_SHOCKED;w_FACE;w_WITH;w_EXPLODING;w_HEAD]);
  (0x1f930, [w_PREGNANT;w_WOMAN]);
  (0x1f931, [w_BREAST_FEEDING]);
  (0x1f932, [w_PALMS;w_UP;w_TOGETHER]);
  (0x1f933, [w_SELFIE]);
  (0x1f934, [w_PRINCE]);
  (0x1f935, [w_MAN;w_IN;w_TUXEDO]);
  (0x1f936, [w_MOTHER;w_CHRISTMAS]);
  (0x1f937, [w_SHRUG]);
  (0x1f938, [w_PERSON;w_DOING;w_CARTWHEEL]);
  (0x1f939, [w_JUGGLING]);
  (0x1f93a, [w_FENCER]);
  (0x1f93b, [w_MODERN;w_PENTATHLON]);
  (0x1f93c, [w_WRESTLERS]);
  (0x1f93d, [w_WATER;w_POLO]);
  (0x1f93e, [w_HANDBALL]);
  (0x1f940, [w_WILTED;w_FLOWER]);
  (0x1f941, [w_DRUM;w_WITH;w_DRUMSTICKS]);
  (0x1f942, [w_CLINKING;w_GLASSES]);
  (0x1f943, [w_TUMBLER;w_GLASS]);
  (0x1f944, [w_SPOON]);
  (0x1f945, [w_GOAL;w_NET]);
  (0x1f946, [w_RIFLE]);
  (0x1f947, [w_FIRST;w_PLACE;w_MEDAL]);
  (0x1f948, [w_SECOND;w_PLACE;w_MEDAL]);
  (0x1f949, [w_THIRD;w_PLACE;w_MEDAL]);
  (0x1f94a, [w_BOXING;w_GLOVE]);
  (0x1f94b, [w_MARTIAL;w_ARTS;w_UNIFORM]);
  (0x1f94c, [w_CURLING;w_STONE]);
  (0x1f950, [w_CROISSANT]);
  (0x1f951, [w_AVOCADO]);
  (0x1f952, [w_CUCUMBER]);
  (0x1f953, [w_BACON]);
  (0x1f954, [w_POTATO]);
  (0x1f955, [w_CARROT]);
  (0x1f956, [w_BAGUETTE;w_BREAD]);
  (0x1f957, [w_GREEN;w_SALAD]);
  (0x1f958, [w_SHALLOW;w_PAN;w_OF;w_FOOD]);
  (0x1f959, [w_STUFFED;w_FLATBREAD]);
  (0x1f95a, [w_EGG]);
  (0x1f95b, [w_GLASS;w_OF;w_MILK]);
  (0x1f95c, [w_PEANUTS]);
  (0x1f95d, [w_KIWIFRUIT]);
  (0x1f95e, [w_PANCAKES]);
  (0x1f95f, [w_DUMPLING]);
  (0x1f960, [w_FORTUNE;w_COOKIE]);
  (0x1f961, [w_TAKEOUT;w_BOX]);
  (0x1f962, [w_CHOPSTICKS]);
  (0x1f963, [w_BOWL;w_WITH;w_SPOON]);
  (0x1f964, [w_CUP;w_WITH;w_STRAW]);
  (0x1f965, [w_COCONUT]);
  (0x1f966, [w_BROCCOLI]);
  (0x1f967, [w_PIE]);
  (0x1f968, [w_PRETZEL]);
  (0x1f969, [w_CUT;w_OF;w_MEAT]);
  (0x1f96a, [w_SANDWICH]);
  (0x1f96b, [w_CANNED;w_FOOD]);
  (0x1f980, [w_CRAB]);
  (0x1f981, [w_LION;w_FACE]);
  (0x1f982, [w_SCORPION]);
  (0x1f983, [w_TURKEY]);
  (0x1f984, [w_UNICORN;w_FACE]);
  (0x1f985, [w_EAGLE]);
  (0x1f986, [w_DUCK]);
  (0x1f987, [w_BAT]);
  (0x1f988, [w_SHARK]);
  (0x1f989, [w_OWL]);
  (0x1f98a, [w_FOX;w_FACE]);
  (0x1f98b, [w_BUTTERFLY]);
  (0x1f98c, [w_DEER]);
  (0x1f98d, [w_GORILLA]);
  (0x1f98e, [w_LIZARD]);
  (0x1f98f, [w_RHINOCEROS]);
  (0x1f990, [w_SHRIMP]);
  (0x1f991, [w_SQUID]);
  (0x1f992, [w_GIRAFFE;w_FACE]);
  (0x1f993, [w_ZEBRA;w_FACE]);
  (0x1f994, [w_HEDGEHOG]);
  (0x1f995, [w_SAUROPOD]);
  (0x1f996, [w_T_REX]);
  (0x1f997, [w_CRICKET]);
  (0x1f9c0, [w_CHEESE;w_WEDGE]);
  (0x1f9d0, [w_FACE;w_WITH;w_MONOCLE]);
  (0x1f9d1, [w_ADULT]);
  (0x1f9d2, [w_CHILD]);
  (0x1f9d3, [w_OLDER;w_ADULT]);
  (0x1f9d4, [w_BEARDED;w_PERSON]);
  (0x1f9d5, [w_PERSON;w_WITH;w_HEADSCARF]);
  (0x1f9d6, [w_PERSON;w_IN;w_STEAMY;w_ROOM]);
  (0x1f9d7, [w_PERSON;w_CLIMBING]);
  (0x1f9d8, [w_PERSON;w_IN;w_LOTUS;w_POSITION]);
  (0x1f9d9, [w_MAGE]);
  (0x1f9da, [w_FAIRY]);
  (0x1f9db, [w_VAMPIRE]);
  (0x1f9dc, [w_MERPERSON]);
  (0x1f9dd, [w_ELF]);
  (0x1f9de, [w_GENIE]);
  (0x1f9df, [w_ZOMBIE]);
  (0x1f9e0, [w_BRAIN]);
  (0x1f9e1, [w_ORANGE;w_HEART]);
  (0x1f9e2, [w_BILLED;w_CAP]);
  (0x1f9e3, [w_SCARF]);
  (0x1f9e4, [w_GLOVES]);
  (0x1f9e5, [w_COAT]);
  (0x1f9e6, [w_SOCKS]);
  (0x2f800, [w_CJK;w_COMPATIBILITY;w_IDEOGRAPH_2F800]);
  (0x2f801, [w_CJK;w_COMPATIBILITY;w_IDEOGRAPH_2F801]);
  (0x2f802, [w_CJK;w_COMPATIBILITY;w_IDEOGRAPH_2F802]);
  (0x2f803, [w_CJK;w_COMPATIBILITY;w_IDEOGRAPH_2F803]);
  (0x2f804, [w_CJK;w_COMPATIBILITY;w_IDEOGRAPH_2F804]);
  (0x2f805, [w_CJK;w_COMPATIBILITY;w_IDEOGRAPH_2F805]);
  (0x2f806, [w_CJK;w_COMPATIBILITY;w_IDEOGRAPH_2F806]);
  (0x2f807, [w_CJK;w_COMPATIBILITY;w_IDEOGRAPH_2F807]);
  (0x2f808, [w_CJK;w_COMPATIBILITY;w_IDEOGRAPH_2F808]);
  (0x2f809, [w_CJK;w_COMPATIBILITY;w_IDEOGRAPH_2F809]);
  (0x2f80a, [w_CJK;w_COMPATIBILITY;w_IDEOGRAPH_2F80A]);
  (0x2f80b, [w_CJK;w_COMPATIBILITY;w_IDEOGRAPH_2F80B]);
  (0x2f80c, [w_CJK;w_COMPATIBILITY;w_IDEOGRAPH_2F80C]);
  (0x2f80d, [w_CJK;w_COMPATIBILITY;w_IDEOGRAPH_2F80D]);
  (0x2f80e, [w_CJK;w_COMPATIBILITY;w_IDEOGRAPH_2F80E]);
  (0x2f80f, [w_CJK;w_COMPATIBILITY;w_IDEOGRAPH_2F80F]);
  (0x2f810, [w_CJK;w_COMPATIBILITY;w_IDEOGRAPH_2F810]);
  (0x2f811, [w_CJK;w_COMPATIBILITY;w_IDEOGRAPH_2F811]);
  (0x2f812, [w_CJK;w_COMPATIBILITY;w_IDEOGRAPH_2F812]);
  (0x2f813, [w_CJK;w_COMPATIBILITY;w_IDEOGRAPH_2F813]);
  (0x2f814, [w_CJK;w_COMPATIBILITY;w_IDEOGRAPH_2F814]);
  (0x2f815, [w_CJK;w_COMPATIBILITY;w_IDEOGRAPH_2F815]);
  (0x2f816, [w_CJK;w_COMPATIBILITY;w_IDEOGRAPH_2F816]);
  (0x2f817, [w_CJK;w_COMPATIBILITY;w_IDEOGRAPH_2F817]);
  (0x2f818, [w_CJK;w_COMPATIBILITY;w_IDEOGRAPH_2F818]);
  (0x2f819, [w_CJK;w_COMPATIBILITY;w_IDEOGRAPH_2F819]);
  (0x2f81a, [w_CJK;w_COMPATIBILITY;w_IDEOGRAPH_2F81A]);
  (0x2f81b, [w_CJK;w_COMPATIBILITY;w_IDEOGRAPH_2F81B]);
  (0x2f81c, [w_CJK;w_COMPATIBILITY;w_IDEOGRAPH_2F81C]);
  (0x2f81d, [w_CJK;w_COMPATIBILITY;w_IDEOGRAPH_2F81D]);
  (0x2f81e, [w_CJK;w_COMPATIBILITY;w_IDEOGRAPH_2F81E]);
  (0x2f81f, [w_CJK;w_COMPATIBILITY;w_IDEOGRAPH_2F81F]);
  (0x2f820, [w_CJK;w_COMPATIBILITY;w_IDEOGRAPH_2F820]);
  (0x2f821, [w_CJK;w_COMPATIBILITY;w_IDEOGRAPH_2F821]);
  (0x2f822, [w_CJK;w_COMPATIBILITY;w_IDEOGRAPH_2F822]);
  (0x2f823, [w_CJK;w_COMPATIBILITY;w_IDEOGRAPH_2F823]);
  (0x2f824, [w_CJK;w_COMPATIBILITY;w_IDEOGRAPH_2F824]);
  (0x2f825, [w_CJK;w_COMPATIBILITY;w_IDEOGRAPH_2F825]);
  (0x2f826, [w_CJK;w_COMPATIBILITY;w_IDEOGRAPH_2F826]);
  (0x2f827, [w_CJK;w_COMPATIBILITY;w_IDEOGRAPH_2F827]);
  (0x2f828, [w_CJK;w_COMPATIBILITY;w_IDEOGRAPH_2F828]);
  (0x2f829, [w_CJK;w_COMPATIBILITY;w_IDEOGRAPH_2F829]);
  (0x2f82a, [w_CJK;w_COMPATIBILITY;w_IDEOGRAPH_2F82A]);
  (0x2f82b, [w_CJK;w_COMPATIBILITY;w_IDEOGRAPH_2F82B]);
  (0x2f82c, [w_CJK;w_COMPATIBILITY;w_IDEOGRAPH_2F82C]);
  (0x2f82d, [w_CJK;w_COMPATIBILITY;w_IDEOGRAPH_2F82D]);
  (0x2f82e, [w_CJK;w_COMPATIBILITY;w_IDEOGRAPH_2F82E]);
  (0x2f82f, [w_CJK;w_COMPATIBILITY;w_IDEOGRAPH_2F82F]);
  (0x2f830, [w_CJK;w_COMPATIBILITY;w_IDEOGRAPH_2F830]);
  (0x2f831, [w_CJK;w_COMPATIBILITY;w_IDEOGRAPH_2F831]);
  (0x2f832, [w_CJK;w_COMPATIBILITY;w_IDEOGRAPH_2F832]);
  (0x2f833, [w_CJK;w_COMPATIBILITY;w_IDEOGRAPH_2F833]);
  (0x2f834, [w_CJK;w_COMPATIBILITY;w_IDEOGRAPH_2F834]);
  (0x2f835, [w_CJK;w_COMPATIBILITY;w_IDEOGRAPH_2F835]);
  (0x2f836, [w_CJK;w_COMPATIBILITY;w_IDEOGRAPH_2F836]);
  (0x2f837, [w_CJK;w_COMPATIBILITY;w_IDEOGRAPH_2F837]);
  (0x2f838, [w_CJK;w_COMPATIBILITY;w_IDEOGRAPH_2F838]);
  (0x2f839, [w_CJK;w_COMPATIBILITY;w_IDEOGRAPH_2F839]);
  (0x2f83a, [w_CJK;w_COMPATIBILITY;w_IDEOGRAPH_2F83A]);
  (0x2f83b, [w_CJK;w_COMPATIBILITY;w_IDEOGRAPH_2F83B]);
  (0x2f83c, [w_CJK;w_COMPATIBILITY;w_IDEOGRAPH_2F83C]);
  (0x2f83d, [w_CJK;w_COMPATIBILITY;w_IDEOGRAPH_2F83D]);
  (0x2f83e, [w_CJK;w_COMPATIBILITY;w_IDEOGRAPH_2F83E]);
  (0x2f83f, [w_CJK;w_COMPATIBILITY;w_IDEOGRAPH_2F83F]);
  (0x2f840, [w_CJK;w_COMPATIBILITY;w_IDEOGRAPH_2F840]);
  (0x2f841, [w_CJK;w_COMPATIBILITY;w_IDEOGRAPH_2F841]);
  (0x2f842, [w_CJK;w_COMPATIBILITY;w_IDEOGRAPH_2F842]);
  (0x2f843, [w_CJK;w_COMPATIBILITY;w_IDEOGRAPH_2F843]);
  (0x2f844, [w_CJK;w_COMPATIBILITY;w_IDEOGRAPH_2F844]);
  (0x2f845, [w_CJK;w_COMPATIBILITY;w_IDEOGRAPH_2F845]);
  (0x2f846, [w_CJK;w_COMPATIBILITY;w_IDEOGRAPH_2F846]);
  (0x2f847, [w_CJK;w_COMPATIBILITY;w_IDEOGRAPH_2F847]);
  (0x2f848, [w_CJK;w_COMPATIBILITY;w_IDEOGRAPH_2F848]);
  (0x2f849, [w_CJK;w_COMPATIBILITY;w_IDEOGRAPH_2F849]);
  (0x2f84a, [w_CJK;w_COMPATIBILITY;w_IDEOGRAPH_2F84A]);
  (0x2f84b, [w_CJK;w_COMPATIBILITY;w_IDEOGRAPH_2F84B]);
  (0x2f84c, [w_CJK;w_COMPATIBILITY;w_IDEOGRAPH_2F84C]);
  (0x2f84d, [w_CJK;w_COMPATIBILITY;w_IDEOGRAPH_2F84D]);
  (0x2f84e, [w_CJK;w_COMPATIBILITY;w_IDEOGRAPH_2F84E]);
  (0x2f84f, [w_CJK;w_COMPATIBILITY;w_IDEOGRAPH_2F84F]);
  (0x2f850, [w_CJK;w_COMPATIBILITY;w_IDEOGRAPH_2F850]);
  (0x2f851, [w_CJK;w_COMPATIBILITY;w_IDEOGRAPH_2F851]);
  (0x2f852, [w_CJK;w_COMPATIBILITY;w_IDEOGRAPH_2F852]);
  (0x2f853, [w_CJK;w_COMPATIBILITY;w_IDEOGRAPH_2F853]);
  (0x2f854, [w_CJK;w_COMPATIBILITY;w_IDEOGRAPH_2F854]);
  (0x2f855, [w_CJK;w_COMPATIBILITY;w_IDEOGRAPH_2F855]);
  (0x2f856, [w_CJK;w_COMPATIBILITY;w_IDEOGRAPH_2F856]);
  (0x2f857, [w_CJK;w_COMPATIBILITY;w_IDEOGRAPH_2F857]);
  (0x2f858, [w_CJK;w_COMPATIBILITY;w_IDEOGRAPH_2F858]);
  (0x2f859, [w_CJK;w_COMPATIBILITY;w_IDEOGRAPH_2F859]);
  (0x2f85a, [w_CJK;w_COMPATIBILITY;w_IDEOGRAPH_2F85A]);
  (0x2f85b, [w_CJK;w_COMPATIBILITY;w_IDEOGRAPH_2F85B]);
  (0x2f85c, [w_CJK;w_COMPATIBILITY;w_IDEOGRAPH_2F85C]);
  (0x2f85d, [w_CJK;w_COMPATIBILITY;w_IDEOGRAPH_2F85D]);
  (0x2f85e, [w_CJK;w_COMPATIBILITY;w_IDEOGRAPH_2F85E]);
  (0x2f85f, [w_CJK;w_COMPATIBILITY;w_IDEOGRAPH_2F85F]);
  (0x2f860, [w_CJK;w_COMPATIBILITY;w_IDEOGRAPH_2F860]);
  (0x2f861, [w_CJK;w_COMPATIBILITY;w_IDEOGRAPH_2F861]);
  (0x2f862, [w_CJK;w_COMPATIBILITY;w_IDEOGRAPH_2F862]);
  (0x2f863, [w_CJK;w_COMPATIBILITY;w_IDEOGRAPH_2F863]);
  (0x2f864, [w_CJK;w_COMPATIBILITY;w_IDEOGRAPH_2F864]);
  (0x2f865, [w_CJK;w_COMPATIBILITY;w_IDEOGRAPH_2F865]);
  (0x2f866, [w_CJK;w_COMPATIBILITY;w_IDEOGRAPH_2F866]);
  (0x2f867, [w_CJK;w_COMPATIBILITY;w_IDEOGRAPH_2F867]);
  (0x2f868, [w_CJK;w_COMPATIBILITY;w_IDEOGRAPH_2F868]);
  (0x2f869, [w_CJK;w_COMPATIBILITY;w_IDEOGRAPH_2F869]);
  (0x2f86a, [w_CJK;w_COMPATIBILITY;w_IDEOGRAPH_2F86A]);
  (0x2f86b, [w_CJK;w_COMPATIBILITY;w_IDEOGRAPH_2F86B]);
  (0x2f86c, [w_CJK;w_COMPATIBILITY;w_IDEOGRAPH_2F86C]);
  (0x2f86d, [w_CJK;w_COMPATIBILITY;w_IDEOGRAPH_2F86D]);
  (0x2f86e, [w_CJK;w_COMPATIBILITY;w_IDEOGRAPH_2F86E]);
  (0x2f86f, [w_CJK;w_COMPATIBILITY;w_IDEOGRAPH_2F86F]);
  (0x2f870, [w_CJK;w_COMPATIBILITY;w_IDEOGRAPH_2F870]);
  (0x2f871, [w_CJK;w_COMPATIBILITY;w_IDEOGRAPH_2F871]);
  (0x2f872, [w_CJK;w_COMPATIBILITY;w_IDEOGRAPH_2F872]);
  (0x2f873, [w_CJK;w_COMPATIBILITY;w_IDEOGRAPH_2F873]);
  (0x2f874, [w_CJK;w_COMPATIBILITY;w_IDEOGRAPH_2F874]);
  (0x2f875, [w_CJK;w_COMPATIBILITY;w_IDEOGRAPH_2F875]);
  (0x2f876, [w_CJK;w_COMPATIBILITY;w_IDEOGRAPH_2F876]);
  (0x2f877, [w_CJK;w_COMPATIBILITY;w_IDEOGRAPH_2F877]);
  (0x2f878, [w_CJK;w_COMPATIBILITY;w_IDEOGRAPH_2F878]);
  (0x2f879, [w_CJK;w_COMPATIBILITY;w_IDEOGRAPH_2F879]);
  (0x2f87a, [w_CJK;w_COMPATIBILITY;w_IDEOGRAPH_2F87A]);
  (0x2f87b, [w_CJK;w_COMPATIBILITY;w_IDEOGRAPH_2F87B]);
  (0x2f87c, [w_CJK;w_COMPATIBILITY;w_IDEOGRAPH_2F87C]);
  (0x2f87d, [w_CJK;w_COMPATIBILITY;w_IDEOGRAPH_2F87D]);
  (0x2f87e, [w_CJK;w_COMPATIBILITY;w_IDEOGRAPH_2F87E]);
  (0x2f87f, [w_CJK;w_COMPATIBILITY;w_IDEOGRAPH_2F87F]);
  (0x2f880, [w_CJK;w_COMPATIBILITY;w_IDEOGRAPH_2F880]);
  (0x2f881, [w_CJK;w_COMPATIBILITY;w_IDEOGRAPH_2F881]);
  (0x2f882, [w_CJK;w_COMPATIBILITY;w_IDEOGRAPH_2F882]);
  (0x2f883, [w_CJK;w_COMPATIBILITY;w_IDEOGRAPH_2F883]);
  (0x2f884, [w_CJK;w_COMPATIBILITY;w_IDEOGRAPH_2F884]);
  (0x2f885, [w_CJK;w_COMPATIBILITY;w_IDEOGRAPH_2F885]);
  (0x2f886, [w_CJK;w_COMPATIBILITY;w_IDEOGRAPH_2F886]);
  (0x2f887, [w_CJK;w_COMPATIBILITY;w_IDEOGRAPH_2F887]);
  (0x2f888, [w_CJK;w_COMPATIBILITY;w_IDEOGRAPH_2F888]);
  (0x2f889, [w_CJK;w_COMPATIBILITY;w_IDEOGRAPH_2F889]);
  (0x2f88a, [w_CJK;w_COMPATIBILITY;w_IDEOGRAPH_2F88A]);
  (0x2f88b, [w_CJK;w_COMPATIBILITY;w_IDEOGRAPH_2F88B]);
  (0x2f88c, [w_CJK;w_COMPATIBILITY;w_IDEOGRAPH_2F88C]);
  (0x2f88d, [w_CJK;w_COMPATIBILITY;w_IDEOGRAPH_2F88D]);
  (0x2f88e, [w_CJK;w_COMPATIBILITY;w_IDEOGRAPH_2F88E]);
  (0x2f88f, [w_CJK;w_COMPATIBILITY;w_IDEOGRAPH_2F88F]);
  (0x2f890, [w_CJK;w_COMPATIBILITY;w_IDEOGRAPH_2F890]);
  (0x2f891, [w_CJK;w_COMPATIBILITY;w_IDEOGRAPH_2F891]);
  (0x2f892, [w_CJK;w_COMPATIBILITY;w_IDEOGRAPH_2F892]);
  (0x2f893, [w_CJK;w_COMPATIBILITY;w_IDEOGRAPH_2F893]);
  (0x2f894, [w_CJK;w_COMPATIBILITY;w_IDEOGRAPH_2F894]);
  (0x2f895, [w_CJK;w_COMPATIBILITY;w_IDEOGRAPH_2F895]);
  (0x2f896, [w_CJK;w_COMPATIBILITY;w_IDEOGRAPH_2F896]);
  (0x2f897, [w_CJK;w_COMPATIBILITY;w_IDEOGRAPH_2F897]);
  (0x2f898, [w_CJK;w_COMPATIBILITY;w_IDEOGRAPH_2F898]);
  (0x2f899, [w_CJK;w_COMPATIBILITY;w_IDEOGRAPH_2F899]);
  (0x2f89a, [w_CJK;w_COMPATIBILITY;w_IDEOGRAPH_2F89A]);
  (0x2f89b, [w_CJK;w_COMPATIBILITY;w_IDEOGRAPH_2F89B])].

Definition NAMES_77 : list (N * (list str)) := [
  (0x2f89c, [w_CJK;w_COMPATIBILITY;w_IDEOGRAPH_2F89C]);
  (0x2f89d, [w_CJK;w_COMPATIBILITY;w_IDEOGRAPH_2F89D]);
  (0x2f89e, [w_CJK;w_COMPATIBILITY;w_IDEOGRAPH_2F89E]);
  (0x2f89f, [w_CJK;w_COMPATIBILITY;w_IDEOGRAPH_2F89F]);
  (0x2f8a0, [w_CJK;w_COMPATIBILITY;w_IDEOGRAPH_2F8A0]);
  (0x2f8a1, [w_CJK;w_COMPATIBILITY;w_IDEOGRAPH_2F8A1]);
  (0x2f8a2, [w_CJK;w_COMPATIBILITY;w_IDEOGRAPH_2F8A2]);
  (0x2f8a3, [w_CJK;w_COMPATIBILITY;w_IDEOGRAPH_2F8A3]);
  (0x2f8a4, [w_CJK;w_COMPATIBILITY;w_IDEOGRAPH_2F8A4]);
  (0x2f8a5, [w_CJK;w_COMPATIBILITY;w_IDEOGRAPH_2F8A5]);
  (0x2f8a6, [w_CJK;w_COMPATIBILITY;w_IDEOGRAPH_2F8A6]);
  (0x2f8a7, [w_CJK;w_COMPATIBILITY;w_IDEOGRAPH_2F8A7]);
  (0x2f8a8, [w_CJK;w_COMPATIBILITY;w_IDEOGRAPH_2F8A8]);
  (0x2f8a9, [w_CJK;w_COMPATIBILITY;w_IDEOGRAPH_2F8A9]);
  (0x2f8aa, [w_CJK;w_COMPATIBILITY;w_IDEOGRAPH_2F8AA]);
  (0x2f8ab, [w_CJK;w_COMPATIBILITY;w_IDEOGRAPH_2F8AB]);
  (0x2f8ac, [w_CJK;w_COMPATIBILITY;w_IDEOGRAPH_2F8AC]);
  (0x2f8ad, [w_CJK;w_COMPATIBILITY;w_IDEOGRAPH_2F8AD]);
  (0x2f8ae, [w_CJK;w_COMPATIBILITY;w_IDEOGRAPH_2F8AE]);
  (0x2f8af, [w_CJK;w_COMPATIBILITY;w_IDEOGRAPH_2F8AF]);
  (0x2f8b0, [w_CJK;w_COMPATIBILITY;w_IDEOGRAPH_2F8B0]);
  (0x2f8b1, [w_CJK;w_COMPATIBILITY;w_IDEOGRAPH_2F8B1]);
  (0x2f8b2, [w_CJK;w_COMPATIBILITY;w_IDEOGRAPH_2F8B2]);
  (0x2f8b3, [w_CJK;w_COMPATIBILITY;w_IDEOGRAPH_2F8B3]);
  (0x2f8b4, [w_CJK;w_COMPATIBILITY;w_IDEOGRAPH_2F8B4]);
  (0x2f8b5, [w_CJK;w_COMPATIBILITY;w_IDEOGRAPH_2F8B5]);
  (0x2f8b6, [w_CJK;w_COMPATIBILITY;w_IDEOGRAPH_2F8B6]);
  (0x2f8b7, [w_CJK;w_COMPATIBILITY;w_IDEOGRAPH_2F8B7]);
  (0x2f8b8, [w_CJK;w_COMPATIBILITY;w_IDEOGRAPH_2F8B8]);
  (0x2f8b9, [w_CJK;w_COMPATIBILITY;w_IDEOGRAPH_2F8B9]);
  (0x2f8ba, [w_CJK;w_COMPATIBILITY;w_IDEOGRAPH_2F8BA]);
  (0x2f8bb, [w_CJK;w_COMPATIBILITY;w_IDEOGRAPH_2F8BB]);
  (0x2f8bc, [w_CJK;w_COMPATIBILITY;w_IDEOGRAPH_2F8BC]);
  (0x2f8bd, [w_CJK;w_COMPATIBILITY;w_IDEOGRAPH_2F8BD]);
  (0x2f8be, [w_CJK;w_COMPATIBILITY;w_IDEOGRAPH_2F8BE]);
  (0x2f8bf, [w_CJK;w_COMPATIBILITY;w_IDEOGRAPH_2F8BF]);
  (0x2f8c0, [w_CJK;w_COMPATIBILITY;w_IDEOGRAPH_2F8C0]);
  (0x2f8c1, [w_CJK;w_COMPATIBILITY;w_IDEOGRAPH_2F8C1]);
  (0x2f8c2, [w_CJK;w_COMPATIBILITY;w_IDEOGRAPH_2F8C2]);
  (0x2f8c3, [w_CJK;w_COMPATIBILITY;w_IDEOGRAPH_2F8C3]);
  (0x2f8c4, [w_CJK;w_COMPATIBILITY;w_IDEOGRAPH_2F8C4]);
  (0x2f8c5, [w_CJK;w_COMPATIBILITY;w_IDEOGRAPH_2F8C5]);
  (0x2f8c6, [w_CJK;w_COMPATIBILITY;w_IDEOGRAPH_2F8C6]);
  (0x2f8c7, [w_CJK;w_COMPATIBILITY;w_IDEOGRAPH_2F8C7]);
  (0x2f8c8, [w_CJK;w_COMPATIBILITY;w_IDEOGRAPH_2F8C8]);
  (0x2f8c9, [w_CJK;w_COMPATIBILITY;w_IDEOGRAPH_2F8C9]);
  (0x2f8ca, [w_CJK;w_COMPATIBILITY;w_IDEOGRAPH_2F8CA]);
  (0x2f8cb, [w_CJK;w_COMPATIBILITY;w_IDEOGRAPH_2F8CB]);
  (0x2f8cc, [w_CJK;w_COMPATIBILITY;w_IDEOGRAPH_2F8CC]);
  (0x2f8cd, [w_CJK;w_COMPATIBILITY;w_IDEOGRAPH_2F8CD]);
  (0x2f8ce, [w_CJK;w_COMPATIBILITY;w_IDEOGRAPH_2F8CE]);
  (0x2f8cf, [w_CJK;w_COMPATIBILITY;w_IDEOGRAPH_2F8CF]);
  (0x2f8d0, [w_CJK;w_COMPATIBILITY;w_IDEOGRAPH_2F8D0]);
  (0x2f8d1, [w_CJK;w_COMPATIBILITY;w_IDEOGRAPH_2F8D1]);
  (0x2f8d2, [w_CJK;w_COMPATIBILITY;w_IDEOGRAPH_2F8D2]);
  (0x2f8d3, [w_CJK;w_COMPATIBILITY;w_IDEOGRAPH_2F8D3]);
  (0x2f8d4, [w_CJK;w_COMPATIBILITY;w_IDEOGRAPH_2F8D4]);
  (0x2f8d5, [w_CJK;w_COMPATIBILITY;w_IDEOGRAPH_2F8D5]);
  (0x2f8d6, [w_CJK;w_COMPATIBILITY;w_IDEOGRAPH_2F8D6]);
  (0x2f8d7, [w_CJK;w_COMPATIBILITY;w_IDEOGRAPH_2F8D7]);
  (0x2f8d8, [w_CJK;w_COMPATIBILITY;w_IDEOGRAPH_2F8D8]);
  (0x2f8d9, [w_CJK;w_COMPATIBILITY;w_IDEOGRAPH_2F8D9]);
  (0x2f8da, [w_CJK;w_COMPATIBILITY;w_IDEOGRAPH_2F8DA]);
  (0x2f8db, [w_CJK;w_COMPATIBILITY;w_IDEOGRAPH_2F8DB]);
  (0x2f8dc, [w_CJK;w_COMPATIBILITY;w_IDEOGRAPH_2F8DC]);
  (0x2f8dd, [w_CJK;w_COMPATIBILITY;w_IDEOGRAPH_2F8DD]);
  (0x2f8de, [w_CJK;w_COMPATIBILITY;w_IDEOGRAPH_2F8DE]);
  (0x2f8df, [w_CJK;w_COMPATIBILITY;w_IDEOGRAPH_2F8DF]);
  (0x2f8e0, [w_CJK;w_COMPATIBILITY;w_IDEOGRAPH_2F8E0]);
  (0x2f8e1, [w_CJK;w_COMPATIBILITY;w_IDEOGRAPH_2F8E1]);
  (0x2f8e2, [w_CJK;w_COMPATIBILITY;w_IDEOGRAPH_2F8E2]);
  (0x2f8e3, [w_CJK;w_COMPATIBILITY;w_IDEOGRAPH_2F8E3]);
  (0x2f8e4, [w_CJK;w_COMPATIBILITY;w_IDEOGRAPH_2F8E4]);
  (0x2f8e5, [w_CJK;w_COMPATIBILITY;w_IDEOGRAPH_2F8E5]);
  (0x2f8e6, [w_CJK;w_COMPATIBILITY;w_IDEOGRAPH_2F8E6]);
  (0x2f8e7, [w_CJK;w_COMPATIBILITY;w_IDEOGRAPH_2F8E7]);
  (0x2f8e8, [w_CJK;w_COMPATIBILITY;w_IDEOGRAPH_2F8E8]);
  (0x2f8e9, [w_CJK;w_COMPATIBILITY;w_IDEOGRAPH_2F8E9]);
  (0x2f8ea, [w_CJK;w_COMPATIBILITY;w_IDEOGRAPH_2F8EA]);
  (0x2f8eb, [w_CJK;w_COMPATIBILITY;w_IDEOGRAPH_2F8EB]);
  (0x2f8ec, [w_CJK;w_COMPATIBILITY;w_IDEOGRAPH_2F8EC]);
  (0x2f8ed, [w_CJK;w_COMPATIBILITY;w_IDEOGRAPH_2F8ED]);
  (0x2f8ee, [w_CJK;w_COMPATIBILITY;w_IDEOGRAPH_2F8EE]);
  (0x2f8ef, [w_CJK;w_COMPATIBILITY;w_IDEOGRAPH_2F8EF]);
  (0x2f8f0, [w_CJK;w_COMPATIBILITY;w_IDEOGRAPH_2F8F0]);
  (0x2f8f1, [w_CJK;w_COMPATIBILITY;w_IDEOGRAPH_2F8F1]);
  (0x2f8f2, [w_CJK;w_COMPATIBILITY;w_IDEOGRAPH_2F8F2]);
  (0x2f8f3, [w_CJK;w_COMPATIBILITY;w_IDEOGRAPH_2F8F3]);
  (0x2f8f4, [w_CJK;w_COMPATIBILITY;w_IDEOGRAPH_2F8F4]);
  (0x2f8f5, [w_CJK;w_COMPATIBILITY;w_IDEOGRAPH_2F8F5]);
  (0x2f8f6, [w_CJK;w_COMPATIBILITY;w_IDEOGRAPH_2F8F6]);
  (0x2f8f7, [w_CJK;w_COMPATIBILITY;w_IDEOGRAPH_2F8F7]);
  (0x2f8f8, [w_CJK;w_COMPATIBILITY;w_IDEOGRAPH_2F8F8]);
  (0x2f8f9, [w_CJK;w_COMPATIBILITY;w_IDEOGRAPH_2F8F9]);
  (0x2f8fa, [w_CJK;w_COMPATIBILITY;w_IDEOGRAPH_2F8FA]);
  (0x2f8fb, [w_CJK;w_COMPATIBILITY;w_IDEOGRAPH_2F8FB]);
  (0x2f8fc, [w_CJK;w_COMPATIBILITY;w_IDEOGRAPH_2F8FC]);
  (0x2f8fd, [w_CJK;w_COMPATIBILITY;w_IDEOGRAPH_2F8FD]);
  (0x2f8fe, [w_CJK;w_COMPATIBILITY;w_IDEOGRAPH_2F8FE]);
  (0x2f8ff, [w_CJK;w_COMPATIBILITY;w_IDEOGRAPH_2F8FF]);
  (0x2f900, [w_CJK;w_COMPATIBILITY;w_IDEOGRAPH_2F900]);
  (0x2f901, [w_CJK;w_COMPATIBILITY;w_IDEOGRAPH_2F901]);
  (0x2f902, [w_CJK;w_COMPATIBILITY;w_IDEOGRAPH_2F902]);
  (0x2f903, [w_CJK;w_COMPATIBILITY;w_IDEOGRAPH_2F903]);
  (0x2f904, [w_CJK;w_COMPATIBILITY;w_IDEOGRAPH_2F904]);
  (0x2f905, [w_CJK;w_COMPATIBILITY;w_IDEOGRAPH_2F905]);
  (0x2f906, [w_CJK;w_COMPATIBILITY;w_IDEOGRAPH_2F906]);
  (0x2f907, [w_CJK;w_COMPATIBILITY;w_IDEOGRAPH_2F907]);
  (0x2f908, [w_CJK;w_COMPATIBILITY;w_IDEOGRAPH_2F908]);
  (0x2f909, [w_CJK;w_COMPATIBILITY;w_IDEOGRAPH_2F909]);
  (0x2f90a, [w_CJK;w_COMPATIBILITY;w_IDEOGRAPH_2F90A]);
  (0x2f90b, [w_CJK;w_COMPATIBILITY;w_IDEOGRAPH_2F90B]);
  (0x2f90c, [w_CJK;w_COMPATIBILITY;w_IDEOGRAPH_2F90C]);
  (0x2f90d, [w_CJK;w_COMPATIBILITY;w_IDEOGRAPH_2F90D]);
  (0x2f90e, [w_CJK;w_COMPATIBILITY;w_IDEOGRAPH_2F90E]);
  (0x2f90f, [w_CJK;w_COMPATIBILITY;w_IDEOGRAPH_2F90F]);
  (0x2f910, [w_CJK;w_COMPATIBILITY;w_IDEOGRAPH_2F910]);
  (0x2f911, [w_CJK;w_COMPATIBILITY;w_IDEOGRAPH_2F911]);
  (0x2f912, [w_CJK;w_COMPATIBILITY;w_IDEOGRAPH_2F912]);
  (0x2f913, [w_CJK;w_COMPATIBILITY;w_IDEOGRAPH_2F913]);
  (0x2f914, [w_CJK;w_COMPATIBILITY;w_IDEOGRAPH_2F914]);
  (0x2f915, [w_CJK;w_COMPATIBILITY;w_IDEOGRAPH_2F915]);
  (0x2f916, [w_CJK;w_COMPATIBILITY;w_IDEOGRAPH_2F916]);
  (0x2f917, [w_CJK;w_COMPATIBILITY;w_IDEOGRAPH_2F917]);
  (0x2f918, [w_CJK;w_COMPATIBILITY;w_IDEOGRAPH_2F918]);
  (0x2f919, [w_CJK;w_COMPATIBILITY;w_IDEOGRAPH_2F919]);
  (0x2f91a, [w_CJK;w_COMPATIBILITY;w_IDEOGRAPH_2F91A]);
  (0x2f91b, [w_CJK;w_COMPATIBILITY;w_IDEOGRAPH_2F91B]);
  (0x2f91c, [w_CJK;w_COMPATIBILITY;w_IDEOGRAPH_2F91C]);
  (0x2f91d, [w_CJK;w_COMPATIBILITY;w_IDEOGRAPH_2F91D]);
  (0x2f91e, [w_CJK;w_COMPATIBILITY;w_IDEOGRAPH_2F91E]);
  (0x2f91f, [w_CJK;w_COMPATIBILITY;w_IDEOGRAPH_2F91F]);
  (0x2f920, [w_CJK;w_COMPATIBILITY;w_IDEOGRAPH_2F920]);
  (0x2f921, [w_CJK;w_COMPATIBILITY;w_IDEOGRAPH_2F921]);
  (0x2f922, [w_CJK;w_COMPATIBILITY;w_IDEOGRAPH_2F922]);
  (0x2f923, [w_CJK;w_COMPATIBILITY;w_IDEOGRAPH_2F923]);
  (0x2f924, [w_CJK;w_COMPATIBILITY;w_IDEOGRAPH_2F924]);
  (0x2f925, [w_CJK;w_COMPATIBILITY;w_IDEOGRAPH_2F925]);
  (0x2f926, [w_CJK;w_COMPATIBILITY;w_IDEOGRAPH_2F926]);
  (0x2f927, [w_CJK;w_COMPATIBILITY;w_IDEOGRAPH_2F927]);
  (0x2f928, [w_CJK;w_COMPATIBILITY;w_IDEOGRAPH_2F928]);
  (0x2f929, [w_CJK;w_COMPATIBILITY;w_IDEOGRAPH_2F929]);
  (0x2f92a, [w_CJK;w_COMPATIBILITY;w_IDEOGRAPH_2F92A]);
  (0x2f92b, [w_CJK;w_COMPATIBILITY;w_IDEOGRAPH_2F92B]);
  (0x2f92c, [w_CJK;w_COMPATIBILITY;w_IDEOGRAPH_2F92C]);
  (0x2f92d, [w_CJK;w_COMPATIBILITY;w_IDEOGRAPH_2F92D]);
  (0x2f92e, [w_CJK;w_COMPATIBILITY;w_IDEOGRAPH_2F92E]);
  (0x2f92f, [w_CJK;w_COMPATIBILITY;w_IDEOGRAPH_2F92F]);
  (0x2f930, [w_CJK;w_COMPATIBILITY;w_IDEOGRAPH_2F930]);
  (0x2f931, [w_CJK;w_COMPATIBILITY;w_IDEOGRAPH_2F931]);
  (0x2f932, [w_CJK;w_COMPATIBILITY;w_IDEOGRAPH_2F932]);
  (0x2f933, [w_CJK;w_COMPATIBILITY;w_IDEOGRAPH_2F933]);
  (0x2f934, [w_CJK;w_COMPATIBILITY;w_IDEOGRAPH_2F934]);
  (0x2f935, [w_CJK;w_COMPATIBILITY;w_IDEOGRAPH_2F935]);
  (0x2f936, [w_CJK;w_COMPATIBILITY;w_IDEOGRAPH_2F936]);
  (0x2f937, [w_CJK;w_COMPATIBILITY;w_IDEOGRAPH_2F937]);
  (0x2f938, [w_CJK;w_COMPATIBILITY;w_IDEOGRAPH_2F938]);
  (0x2f939, [w_CJK;w_COMPATIBILITY;w_IDEOGRAPH_2F939]);
  (0x2f93a, [w_CJK;w_COMPATIBILITY;w_IDEOGRAPH_2F93A]);
  (0x2f93b, [w_CJK;w_COMPATIBILITY;w_IDEOGRAPH_2F93B]);
  (0x2f93c, [w_CJK;w_COMPATIBILITY;w_IDEOGRAPH_2F93C]);
  (0x2f93d, [w_CJK;w_COMPATIBILITY;w_IDEOGRAPH_2F93D]);
  (0x2f93e, [w_CJK;w_COMPATIBILITY;w_IDEOGRAPH_2F93E]);
  (0x2f93f, [w_CJK;w_COMPATIBILITY;w_IDEOGRAPH_2F93F]);
  (0x2f940, [w_CJK;w_COMPATIBILITY;w_IDEOGRAPH_2F940]);
  (0x2f941, [w_CJK;w_COMPATIBILITY;w_IDEOGRAPH_2F941]);
  (0x2f942, [w_CJK;w_COMPATIBILITY;w_IDEOGRAPH_2F942]);
  (0x2f943, [w_CJK;w_COMPATIBILITY;w_IDEOGRAPH_2F943]);
  (0x2f944, [w_CJK;w_COMPATIBILITY;w_IDEOGRAPH_2F944]);
  (0x2f945, [w_CJK;w_COMPATIBILITY;w_IDEOGRAPH_2F945]);
  (0x2f946, [w_CJK;w_COMPATIBILITY;w_IDEOGRAPH_2F946]);
  (0x2f947, [w_CJK;w_COMPATIBILITY;w_IDEOGRAPH_2F947]);
  (0x2f948, [w_CJK;w_COMPATIBILITY;w_IDEOGRAPH_2F948]);
  (0x2f949, [w_CJK;w_COMPATIBILITY;w_IDEOGRAPH_2F949]);
  (0x2f94a, [w_CJK;w_COMPATIBILITY;w_IDEOGRAPH_2F94A]);
  (0x2f94b, [w_CJK;w_COMPATIBILITY;w_IDEOGRAPH_2F94B]);
  (0x2f94c, [w_CJK;w_COMPATIBILITY;w_IDEOGRAPH_2F94C]);
  (0x2f94d, [w_CJK;w_COMPATIBILITY;w_IDEOGRAPH_2F94D]);
  (0x2f94e, [w_CJK;w_COMPATIBILITY;w_IDEOGRAPH_2F94E]);
  (0x2f94f, [w_CJK;w_COMPATIBILITY;w_IDEOGRAPH_2F94F]);
  (0x2f950, [w_CJK;w_COMPATIBILITY;w_IDEOGRAPH_2F950]);
  (0x2f951, [w_CJK;w_COMPATIBILITY;w_IDEOGRAPH_2F951]);
  (0x2f952, [w_CJK;w_COMPATIBILITY;w_IDEOGRAPH_2F952]);
  (0x2f953, [w_CJK;w_COMPATIBILITY;w_IDEOGRAPH_2F953]);
  (0x2f954, [w_CJK;w_COMPATIBILITY;w_IDEOGRAPH_2F954]);
  (0x2f955, [w_CJK;w_COMPATIBILITY;w_IDEOGRAPH_2F955]);
  (0x2f956, [w_CJK;w_COMPATIBILITY;w_IDEOGRAPH_2F956]);
  (0x2f957, [w_CJK;w_COMPATIBILITY;w_IDEOGRAPH_2F957]);
  (0x2f958, [w_CJK;w_COMPATIBILITY;w_IDEOGRAPH_2F958]);
  (0x2f959, [w_CJK;w_COMPATIBILITY;w_IDEOGRAPH_2F959]);
  (0x2f95a, [w_CJK;w_COMPATIBILITY;w_IDEOGRAPH_2F95A]);
  (0x2f95b, [w_CJK;w_COMPATIBILITY;w_IDEOGRAPH_2F95B]);
  (0x2f95c, [w_CJK;w_COMPATIBILITY;w_IDEOGRAPH_2F95C]);
  (0x2f95d, [w_CJK;w_COMPATIBILITY;w_IDEOGRAPH_2F95D]);
  (0x2f95e, [w_CJK;w_COMPATIBILITY;w_IDEOGRAPH_2F95E]);
  (0x2f95f, [w_CJK;w_COMPATIBILITY;w_IDEOGRAPH_2F95F]);
  (0x2f960, [w_CJK;w_COMPATIBILITY;w_IDEOGRAPH_2F960]);
  (0x2f961, [w_CJK;w_COMPATIBILITY;w_IDEOGRAPH_2F961]);
  (0x2f962, [w_CJK;w_COMPATIBILITY;w_IDEOGRAPH_2F962]);
  (0x2f963, [w_CJK;w_COMPATIBILITY;w_IDEOGRAPH_2F963]);
  (0x2f964, [w_CJK;w_COMPATIBILITY;w_IDEOGRAPH_2F964]);
  (0x2f965, [w_CJK;w_COMPATIBILITY;w_IDEOGRAPH_2F965]);
  (0x2f966, [w_CJK;w_COMPATIBILITY;w_IDEOGRAPH_2F966]);
  (0x2f967, [w_CJK;w_COMPATIBILITY;w_IDEOGRAPH_2F967]);
  (0x2f968, [w_CJK;w_COMPATIBILITY;w_IDEOGRAPH_2F968]);
  (0x2f969, [w_CJK;w_COMPATIBILITY;w_IDEOGRAPH_2F969]);
  (0x2f96a, [w_CJK;w_COMPATIBILITY;w_IDEOGRAPH_2F96A]);
  (0x2f96b, [w_CJK;w_COMPATIBILITY;w_IDEOGRAPH_2F96B]);
  (0x2f96c, [w_CJK;w_COMPATIBILITY;w_IDEOGRAPH_2F96C]);
  (0x2f96d, [w_CJK;w_COMPATIBILITY;w_IDEOGRAPH_2F96D]);
  (0x2f96e, [w_CJK;w_COMPATIBILITY;w_IDEOGRAPH_2F96E]);
  (0x2f96f, [w_CJK;w_COMPATIBILITY;w_IDEOGRAPH_2F96F]);
  (0x2f970, [w_CJK;w_COMPATIBILITY;w_IDEOGRAPH_2F970]);
  (0x2f971, [w_CJK;w_COMPATIBILITY;w_IDEOGRAPH_2F971]);
  (0x2f972, [w_CJK;w_COMPATIBILITY;w_IDEOGRAPH_2F972]);
  (0x2f973, [w_CJK;w_COMPATIBILITY;w_IDEOGRAPH_2F973]);
  (0x2f974, [w_CJK;w_COMPATIBILITY;w_IDEOGRAPH_2F974]);
  (0x2f975, [w_CJK;w_COMPATIBILITY;w_IDEOGRAPH_2F975]);
  (0x2f976, [w_CJK;w_COMPATIBILITY;w_IDEOGRAPH_2F976]);
  (0x2f977, [w_CJK;w_COMPATIBILITY;w_IDEOGRAPH_2F977]);
  (0x2f978, [w_CJK;w_COMPATIBILITY;w_IDEOGRAPH_2F978]);
  (0x2f979, [w_CJK;w_COMPATIBILITY;w_IDEOGRAPH_2F979]);
  (0x2f97a, [w_CJK;w_COMPATIBILITY;w_IDEOGRAPH_2F97A]);
  (0x2f97b, [w_CJK;w_COMPATIBILITY;w_IDEOGRAPH_2F97B]);
  (0x2f97c, [w_CJK;w_COMPATIBILITY;w_IDEOGRAPH_2F97C]);
  (0x2f97d, [w_CJK;w_COMPATIBILITY;w_IDEOGRAPH_2F97D]);
  (0x2f97e, [w_CJK;w_COMPATIBILITY;w_IDEOGRAPH_2F97E]);
  (0x2f97f, [w_CJK;w_COMPATIBILITY;w_IDEOGRAPH_2F97F]);
  (0x2f980, [w_CJK;w_COMPATIBILITY;w_IDEOGRAPH_2F980]);
  (0x2f981, [w_CJK;w_COMPATIBILITY;w_IDEOGRAPH_2F981]);
  (0x2f982, [w_CJK;w_COMPATIBILITY;w_IDEOGRAPH_2F982]);
  (0x2f983, [w_CJK;w_COMPATIBILITY;w_IDEOGRAPH_2F983]);
  (0x2f984, [w_CJK;w_COMPATIBILITY;w_IDEOGRAPH_2F984]);
  (0x2f985, [w_CJK;w_COMPATIBILITY;w_IDEOGRAPH_2F985]);
  (0x2f986, [w_CJK;w_COMPATIBILITY;w_IDEOGRAPH_2F986]);
  (0x2f987, [w_CJK;w_COMPATIBILITY;w_IDEOGRAPH_2F987]);
  (0x2f988, [w_CJK;w_COMPATIBILITY;w_IDEOGRAPH_2F988]);
  (0x2f989, [w_CJK;w_COMPATIBILITY;w_IDEOGRAPH_2F989]);
  (0x2f98a, [w_CJK;w_COMPATIBILITY;w_IDEOGRAPH_2F98A]);
  (0x2f98b, [w_CJK;w_COMPATIBILITY;w_IDEOGRAPH_2F98B]);
  (0x2f98c, [w_CJK;w_COMPATIBILITY;w_IDEOGRAPH_2F98C]);
  (0x2f98d, [w_CJK;w_COMPATIBILITY;w_IDEOGRAPH_2F98D]);
  (0x2f98e, [w_CJK;w_COMPATIBILITY;w_IDEOGRAPH_2F98E]);
  (0x2f98f, [w_CJK;w_COMPATIBILITY;w_IDEOGRAPH_2F98F]);
  (0x2f990, [w_CJK;w_COMPATIBILITY;w_IDEOGRAPH_2F990]);
  (0x2f991, [w_CJK;w_COMPATIBILITY;w_IDEOGRAPH_2F991]);
  (0x2f992, [w_CJK;w_COMPATIBILITY;w_IDEOGRAPH_2F992]);
  (0x2f993, [w_CJK;w_COMPATIBILITY;w_IDEOGRAPH_2F993]);
  (0x2f994, [w_CJK;w_COMPATIBILITY;w_IDEOGRAPH_2F994]);
  (0x2f995, [w_CJK;w_COMPATIBILITY;w_IDEOGRAPH_2F995]);
  (0x2f996, [w_CJK;w_COMPATIBILITY;w_IDEOGRAPH_2F996]);
  (0x2f997, [w_CJK;w_COMPATIBILITY;w_IDEOGRAPH_2F997]);
  (0x2f998, [w_CJK;w_COMPATIBILITY;w_IDEOGRAPH_2F998]);
  (0x2f999, [w_CJK;w_COMPATIBILITY;w_IDEOGRAPH_2F999]);
  (0x2f99a, [w_CJK;w_COMPATIBILITY;w_IDEOGRAPH_2F99A]);
  (0x2f99b, [w_CJK;w_COMPATIBILITY;w_IDEOGRAPH_2F99B]);
  (0x2f99c, [w_CJK;w_COMPATIBILITY;w_IDEOGRAPH_2F99C]);
  (0x2f99d, [w_CJK;w_COMPATIBILITY;w_IDEOGRAPH_2F99D]);
  (0x2f99e, [w_CJK;w_COMPATIBILITY;w_IDEOGRAPH_2F99E]);
  (0x2f99f, [w_CJK;w_COMPATIBILITY;w_IDEOGRAPH_2F99F]);
  (0x2f9a0, [w_CJK;w_COMPATIBILITY;w_IDEOGRAPH_2F9A0]);
  (0x2f9a1, [w_CJK;w_COMPATIBILITY;w_IDEOGRAPH_2F9A1]);
  (0x2f9a2, [w_CJK;w_COMPATIBILITY;w_IDEOGRAPH_2F9A2]);
  (0x2f9a3, [w_CJK;w_COMPATIBILITY;w_IDEOGRAPH_2F9A3]);
  (0x2f9a4, [w_CJK;w_COMPATIBILITY;w_IDEOGRAPH_2F9A4]);
  (0x2f9a5, [w_CJK;w_COMPATIBILITY;w_IDEOGRAPH_2F9A5]);
  (0x2f9a6, [w_CJK;w_COMPATIBILITY;w_IDEOGRAPH_2F9A6]);
  (0x2f9a7, [w_CJK;w_COMPATIBILITY;w_IDEOGRAPH_2F9A7]);
  (0x2f9a8, [w_CJK;w_COMPATIBILITY;w_IDEOGRAPH_2F9A8]);
  (0x2f9a9, [w_CJK;w_COMPATIBILITY;w_IDEOGRAPH_2F9A9]);
  (0x2f9aa, [w_CJK;w_COMPATIBILITY;w_IDEOGRAPH_2F9AA]);
  (0x2f9ab, [w_CJK;w_COMPATIBILITY;w_IDEOGRAPH_2F9AB]);
  (0x2f9ac, [w_CJK;w_COMPATIBILITY;w_IDEOGRAPH_2F9AC]);
  (0x2f9ad, [w_CJK;w_COMPATIBILITY;w_IDEOGRAPH_2F9AD]);
  (0x2f9ae, [w_CJK;w_COMPATIBILITY;w_IDEOGRAPH_2F9AE]);
  (0x2f9af, [w_CJK;w_COMPATIBILITY;w_IDEOGRAPH_2F9AF]);
  (0x2f9b0, [w_CJK;w_COMPATIBILITY;w_IDEOGRAPH_2F9B0]);
  (0x2f9b1, [w_CJK;w_COMPATIBILITY;w_IDEOGRAPH_2F9B1]);
  (0x2f9b2, [w_CJK;w_COMPATIBILITY;w_IDEOGRAPH_2F9B2]);
  (0x2f9b3, [w_CJK;w_COMPATIBILITY;w_IDEOGRAPH_2F9B3]);
  (0x2f9b4, [w_CJK;w_COMPATIBILITY;w_IDEOGRAPH_2F9B4]);
  (0x2f9b5, [w_CJK;w_COMPATIBILITY;w_IDEOGRAPH_2F9B5]);
  (0x2f9b6, [w_CJK;w_COMPATIBILITY;w_IDEOGRAPH_2F9B6]);
  (0x2f9b7, [w_CJK;w_COMPATIBILITY;w_IDEOGRAPH_2F9B7]);
  (0x2f9b8, [w_CJK;w_COMPATIBILITY;w_IDEOGRAPH_2F9B8]);
  (0x2f9b9, [w_CJK;w_COMPATIBILITY;w_IDEOGRAPH_2F9B9]);
  (0x2f9ba, [w_CJK;w_COMPATIBILITY;w_IDEOGRAPH_2F9BA]);
  (0x2f9bb, [w_CJK;w_COMPATIBILITY;w_IDEOGRAPH_2F9BB]);
  (0x2f9bc, [w_CJK;w_COMPATIBILITY;w_IDEOGRAPH_2F9BC]);
  (0x2f9bd, [w_CJK;w_COMPATIBILITY;w_IDEOGRAPH_2F9BD]);
  (0x2f9be, [w_CJK;w_COMPATIBILITY;w_IDEOGRAPH_2F9BE]);
  (0x2f9bf, [w_CJK;w_COMPATIBILITY;w_IDEOGRAPH_2F9BF]);
  (0x2f9c0, [w_CJK;w_COMPATIBILITY;w_IDEOGRAPH_2F9C0]);
  (0x2f9c1, [w_CJK;w_COMPATIBILITY;w_IDEOGRAPH_2F9C1]);
  (0x2f9c2, [w_CJK;w_COMPATIBILITY;w_IDEOGRAPH_2F9C2]);
  (0x2f9c3, [w_CJK;w_COMPATIBILITY;w_IDEOGRAPH_2F9C3]);
  (0x2f9c4, [w_CJK;w_COMPATIBILITY;w_IDEOGRAPH_2F9C4]);
  (0x2f9c5, [w_CJK;w_COMPATIBILITY;w_IDEOGRAPH_2F9C5]);
  (0x2f9c6, [w_CJK;w_COMPATIBILITY;w_IDEOGRAPH_2F9C6]);
  (0x2f9c7, [w_CJK;w_COMPATIBILITY;w_IDEOGRAPH_2F9C7]);
  (0x2f9c8, [w_CJK;w_COMPATIBILITY;w_IDEOGRAPH_2F9C8]);
  (0x2f9c9, [w_CJK;w_COMPATIBILITY;w_IDEOGRAPH_2F9C9]);
  (0x2f9ca, [w_CJK;w_COMPATIBILITY;w_IDEOGRAPH_2F9CA]);
  (0x2f9cb, [w_CJK;w_COMPATIBILITY;w_IDEOGRAPH_2F9CB]);
  (0x2f9cc, [w_CJK;w_COMPATIBILITY;w_IDEOGRAPH_2F9CC]);
  (0x2f9cd, [w_CJK;w_COMPATIBILITY;w_IDEOGRAPH_2F9CD]);
  (0x2f9ce, [w_CJK;w_COMPATIBILITY;w_IDEOGRAPH_2F9CE]);
  (0x2f9cf, [w_CJK;w_COMPATIBILITY;w_IDEOGRAPH_2F9CF]);
  (0x2f9d0, [w_CJK;w_COMPATIBILITY;w_IDEOGRAPH_2F9D0]);
  (0x2f9d1, [w_CJK;w_COMPATIBILITY;w_IDEOGRAPH_2F9D1]);
  (0x2f9d2, [w_CJK;w_COMPATIBILITY;w_IDEOGRAPH_2F9D2]);
  (0x2f9d3, [w_CJK;w_COMPATIBILITY;w_IDEOGRAPH_2F9D3]);
  (0x2f9d4, [w_CJK;w_COMPATIBILITY;w_IDEOGRAPH_2F9D4]);
  (0x2f9d5, [w_CJK;w_COMPATIBILITY;w_IDEOGRAPH_2F9D5]);
  (0x2f9d6, [w_CJK;w_COMPATIBILITY;w_IDEOGRAPH_2F9D6]);
  (0x2f9d7, [w_CJK;w_COMPATIBILITY;w_IDEOGRAPH_2F9D7]);
  (0x2f9d8, [w_CJK;w_COMPATIBILITY;w_IDEOGRAPH_2F9D8]);
  (0x2f9d9, [w_CJK;w_COMPATIBILITY;w_IDEOGRAPH_2F9D9]);
  (0x2f9da, [w_CJK;w_COMPATIBILITY;w_IDEOGRAPH_2F9DA]);
  (0x2f9db, [w_CJK;w_COMPATIBILITY;w_IDEOGRAPH_2F9DB]);
  (0x2f9dc, [w_CJK;w_COMPATIBILITY;w_IDEOGRAPH_2F9DC]);
  (0x2f9dd, [w_CJK;w_COMPATIBILITY;w_IDEOGRAPH_2F9DD]);
  (0x2f9de, [w_CJK;w_COMPATIBILITY;w_IDEOGRAPH_2F9DE]);
  (0x2f9df, [w_CJK;w_COMPATIBILITY;w_IDEOGRAPH_2F9DF]);
  (0x2f9e0, [w_CJK;w_COMPATIBILITY;w_IDEOGRAPH_2F9E0]);
  (0x2f9e1, [w_CJK;w_COMPATIBILITY;w_IDEOGRAPH_2F9E1]);
  (0x2f9e2, [w_CJK;w_COMPATIBILITY;w_IDEOGRAPH_2F9E2]);
  (0x2f9e3, [w_CJK;w_COMPATIBILITY;w_IDEOGRAPH_2F9E3]);
  (0x2f9e4, [w_CJK;w_COMPATIBILITY;w_IDEOGRAPH_2F9E4]);
  (0x2f9e5, [w_CJK;w_COMPATIBILITY;w_IDEOGRAPH_2F9E5]);
  (0x2f9e6, [w_CJK;w_COMPATIBILITY;w_IDEOGRAPH_2F9E6]);
  (0x2f9e7, [w_CJK;w_COMPATIBILITY;w_IDEOGRAPH_2F9E7]);
  (0x2f9e8, [w_CJK;w_COMPATIBILITY;w_IDEOGRAPH_2F9E8]);
  (0x2f9e9, [w_CJK;w_COMPATIBILITY;w_IDEOGRAPH_2F9E9]);
  (0x2f9ea, [w_CJK;w_COMPATIBILITY;w_IDEOGRAPH_2F9EA]);
  (0x2f9eb, [w_CJK;w_COMPATIBILITY;w_IDEOGRAPH_2F9EB]);
  (0x2f9ec, [w_CJK;w_COMPATIBILITY;w_IDEOGRAPH_2F9EC]);
  (0x2f9ed, [w_CJK;w_COMPATIBILITY;w_IDEOGRAPH_2F9ED]);
  (0x2f9ee, [w_CJK;w_COMPATIBILITY;w_IDEOGRAPH_2F9EE]);
  (0x2f9ef, [w_CJK;w_COMPATIBILITY;w_IDEOGRAPH_2F9EF]);
  (0x2f9f0, [w_CJK;w_COMPATIBILITY;w_IDEOGRAPH_2F9F0]);
  (0x2f9f1, [w_CJK;w_COMPATIBILITY;w_IDEOGRAPH_2F9F1]);
  (0x2f9f2, [w_CJK;w_COMPATIBILITY;w_IDEOGRAPH_2F9F2]);
  (0x2f9f3, [w_CJK;w_COMPATIBILITY;w_IDEOGRAPH_2F9F3]);
  (0x2f9f4, [w_CJK;w_COMPATIBILITY;w_IDEOGRAPH_2F9F4]);
  (0x2f9f5, [w_CJK;w_COMPATIBILITY;w_IDEOGRAPH_2F9F5]);
  (0x2f9f6, [w_CJK;w_COMPATIBILITY;w_IDEOGRAPH_2F9F6]);
  (0x2f9f7, [w_CJK;w_COMPATIBILITY;w_IDEOGRAPH_2F9F7]);
  (0x2f9f8, [w_CJK;w_COMPATIBILITY;w_IDEOGRAPH_2F9F8]);
  (0x2f9f9, [w_CJK;w_COMPATIBILITY;w_IDEOGRAPH_2F9F9]);
  (0x2f9fa, [w_CJK;w_COMPATIBILITY;w_IDEOGRAPH_2F9FA]);
  (0x2f9fb, [w_CJK;w_COMPATIBILITY;w_IDEOGRAPH_2F9FB]);
  (0x2f9fc, [w_CJK;w_COMPATIBILITY;w_IDEOGRAPH_2F9FC]);
  (0x2f9fd, [w_CJK;w_COMPATIBILITY;w_IDEOGRAPH_2F9FD]);
  (0x2f9fe, [w_CJK;w_COMPATIBILITY;w_IDEOGRAPH_2F9FE]);
  (0x2f9ff, [w_CJK;w_COMPATIBILITY;w_IDEOGRAPH_2F9FF]);
  (0x2fa00, [w_CJK;w_COMPATIBILITY;w_IDEOGRAPH_2FA00]);
  (0x2fa01, [w_CJK;w_COMPATIBILITY;w_IDEOGRAPH_2FA01]);
  (0x2fa02, [w_CJK;w_COMPATIBILITY;w_IDEOGRAPH_2FA02]);
  (0x2fa03, [w_CJK;w_COMPATIBILITY;w_IDEOGRAPH_2FA03]);
  (0x2fa04, [w_CJK;w_COMPATIBILITY;w_IDEOGRAPH_2FA04]);
  (0x2fa05, [w_CJK;w_COMPATIBILITY;w_IDEOGRAPH_2FA05]);
  (0x2fa06, [w_CJK;w_COMPATIBILITY;w_IDEOGRAPH_2FA06]);
  (0x2fa07, [w_CJK;w_COMPATIBILITY;w_IDEOGRAPH_2FA07]);
  (0x2fa08, [w_CJK;w_COMPATIBILITY;w_IDEOGRAPH_2FA08]);
  (0x2fa09, [w_CJK;w_COMPATIBILITY;w_IDEOGRAPH_2FA09]);
  (0x2fa0a, [w_CJK;w_COMPATIBILITY;w_IDEOGRAPH_2FA0A]);
  (0x2fa0b, [w_CJK;w_COMPATIBILITY;w_IDEOGRAPH_2FA0B]);
  (0x2fa0c, [w_CJK;w_COMPATIBILITY;w_IDEOGRAPH_2FA0C]);
  (0x2fa0d, [w_CJK;w_COMPATIBILITY;w_IDEOGRAPH_2FA0D]);
  (0x2fa0e, [w_CJK;w_COMPATIBILITY;w_IDEOGRAPH_2FA0E]);
  (0x2fa0f, [w_CJK;w_COMPATIBILITY;w_IDEOGRAPH_2FA0F]);
  (0x2fa10, [w_CJK;w_COMPATIBILITY;w_IDEOGRAPH_2FA10]);
  (0x2fa11, [w_CJK;w_COMPATIBILITY;w_IDEOGRAPH_2FA11]);
  (0x2fa12, [w_CJK;w_COMPATIBILITY;w_IDEOGRAPH_2FA12]);
  (0x2fa13, [w_CJK;w_COMPATIBILITY;w_IDEOGRAPH_2FA13]);
  (0x2fa14, [w_CJK;w_COMPATIBILITY;w_IDEOGRAPH_2FA14]);
  (0x2fa15, [w_CJK;w_COMPATIBILITY;w_IDEOGRAPH_2FA15]);
  (0x2fa16, [w_CJK;w_COMPATIBILITY;w_IDEOGRAPH_2FA16]);
  (0x2fa17, [w_CJK;w_COMPATIBILITY;w_IDEOGRAPH_2FA17]);
  (0x2fa18, [w_CJK;w_COMPATIBILITY;w_IDEOGRAPH_2FA18]);
  (0x2fa19, [w_CJK;w_COMPATIBILITY;w_IDEOGRAPH_2FA19]);
  (0x2fa1a, [w_CJK;w_COMPATIBILITY;w_IDEOGRAPH_2FA1A]);
  (0x2fa1b, [w_CJK;w_COMPATIBILITY;w_IDEOGRAPH_2FA1B]);
  (0x2fa1c, [w_CJK;w_COMPATIBILITY;w_IDEOGRAPH_2FA1C]);
  (0x2fa1d, [w_CJK;w_COMPATIBILITY;w_IDEOGRAPH_2FA1D]);
  (0xe0001, [w_LANGUAGE;w_TAG]);
  (0xe0020, [w_TAG;w_SPACE]);
  (0xe0021, [w_TAG;w_EXCLAMATION;w_MARK]);
  (0xe0022, [w_TAG;w_QUOTATION;w_MARK]);
  (0xe0023, [w_TAG;w_NUMBER;w_SIGN]);
  (0xe0024, [w_TAG;w_DOLLAR;w_SIGN]);
  (0xe0025, [w_TAG;w_PERCENT;w_SIGN]);
  (0xe0026, [w_TAG;w_AMPERSAND]);
  (0xe0027, [w_TAG;w_APOSTROPHE]);
  (0xe0028, [w_TAG;w_LEFT;w_PARENTHESIS]);
  (0xe0029, [w_TAG;w_RIGHT;w_PARENTHESIS]);
  (0xe002a, [w_TAG;w_ASTERISK]);
  (0xe002b, [w_TAG;w_PLUS;w_SIGN]);
  (0xe002c, [w_TAG;w_COMMA])].

Definition NAMES_78 : list (N * (list str)) := [
  (0xe002d, [w_TAG;w_HYPHEN_MINUS]);
  (0xe002e, [w_TAG;w_FULL;w_STOP]);
  (0xe002f, [w_TAG;w_SOLIDUS]);
  (0xe0030, [w_TAG;w_DIGIT;w_ZERO]);
  (0xe0031, [w_TAG;w_DIGIT;w_ONE]);
  (0xe0032, [w_TAG;w_DIGIT;w_TWO]);
  (0xe0033, [w_TAG;w_DIGIT;w_THREE]);
  (0xe0034, [w_TAG;w_DIGIT;w_FOUR]);
  (0xe0035, [w_TAG;w_DIGIT;w_FIVE]);
  (0xe0036, [w_TAG;w_DIGIT;w_SIX]);
  (0xe0037, [w_TAG;w_DIGIT;w_SEVEN]);
  (0xe0038, [w_TAG;w_DIGIT;w_EIGHT]);
  (0xe0039, [w_TAG;w_DIGIT;w_NINE]);
  (0xe003a, [w_TAG;w_COLON]);
  (0xe003b, [w_TAG;w_SEMICOLON]);
  (0xe003c, [w_TAG;w_LESS_THAN;w_SIGN]);
  (0xe003d, [w_TAG;w_EQUALS;w_SIGN]);
  (0xe003e, [w_TAG;w_GREATER_THAN;w_SIGN]);
  (0xe003f, [w_TAG;w_QUESTION;w_MARK]);
  (0xe0040, [w_TAG;w_COMMERCIAL;w_AT]);
  (0xe0041, [w_TAG;w_LATIN;w_CAPITAL;w_LETTER;w_A]);
  (0xe0042, [w_TAG;w_LATIN;w_CAPITAL;w_LETTER;w_B]);
  (0xe0043, [w_TAG;w_LATIN;w_CAPITAL;w_LETTER;w_C]);
  (0xe0044, [w_TAG;w_LATIN;w_CAPITAL;w_LETTER;w_D]);
  (0xe0045, [w_TAG;w_LATIN;w_CAPITAL;w_LETTER;w_E]);
  (0xe0046, [w_TAG;w_LATIN;w_CAPITAL;w_LETTER;w_F]);
  (0xe0047, [w_TAG;w_LATIN;w_CAPITAL;w_LETTER;w_G]);
  (0xe0048, [w_TAG;w_LATIN;w_CAPITAL;w_LETTER;w_H]);
  (0xe0049, [w_TAG;w_LATIN;w_CAPITAL;w_LETTER;w_I]);
  (0xe004a, [w_TAG;w_LATIN;w_CAPITAL;w_LETTER;w_J]);
  (0xe004b, [w_TAG;w_LATIN;w_CAPITAL;w_LETTER;w_K]);
  (0xe004c, [w_TAG;w_LATIN;w_CAPITAL;w_LETTER;w_L]);
  (0xe004d, [w_TAG;w_LATIN;w_CAPITAL;w_LETTER;w_M]);
  (0xe004e, [w_TAG;w_LATIN;w_CAPITAL;w_LETTER;w_N]);
  (0xe004f, [w_TAG;w_LATIN;w_CAPITAL;w_LETTER;w_O]);
  (0xe0050, [w_TAG;w_LATIN;w_CAPITAL;w_LETTER;w_P]);
  (0xe0051, [w_TAG;w_LATIN;w_CAPITAL;w_LETTER;w_Q]);
  (0xe0052, [w_TAG;w_LATIN;w_CAPITAL;w_LETTER;w_R]);
  (0xe0053, [w_TAG;w_LATIN;w_CAPITAL;w_LETTER;w_S]);
  (0xe0054, [w_TAG;w_LATIN;w_CAPITAL;w_LETTER;w_T]);
  (0xe0055, [w_TAG;w_LATIN;w_CAPITAL;w_LETTER;w_U]);
  (0xe0056, [w_TAG;w_LATIN;w_CAPITAL;w_LETTER;w_V]);
  (0xe0057, [w_TAG;w_LATIN;w_CAPITAL;w_LETTER;w_W]);
  (0xe0058, [w_TAG;w_LATIN;w_CAPITAL;w_LETTER;w_X]);
  (0xe0059, [w_TAG;w_LATIN;w_CAPITAL;w_LETTER;w_Y]);
  (0xe005a, [w_TAG;w_LATIN;w_CAPITAL;w_LETTER;w_Z]);
  (0xe005b, [w_TAG;w_LEFT;w_SQUARE;w_BRACKET]);
  (0xe005c, [w_TAG;w_REVERSE;w_SOLIDUS]);
  (0xe005d, [w_TAG;w_RIGHT;w_SQUARE;w_BRACKET]);
  (0xe005e, [w_TAG;w_CIRCUMFLEX;w_ACCENT]);
  (0xe005f, [w_TAG;w_LOW;w_LINE]);
  (0xe0060, [w_TAG;w_GRAVE;w_ACCENT]);
  (0xe0061, [w_TAG;w_LATIN;w_SMALL;w_LETTER;w_A]);
  (0xe0062, [w_TAG;w_LATIN;w_SMALL;w_LETTER;w_B]);
  (0xe0063, [w_TAG;w_LATIN;w_SMALL;w_LETTER;w_C]);
  (0xe0064, [w_TAG;w_LATIN;w_SMALL;w_LETTER;w_D]);
  (0xe0065, [w_TAG;w_LATIN;w_SMALL;w_LETTER;w_E]);
  (0xe0066, [w_TAG;w_LATIN;w_SMALL;w_LETTER;w_F]);
  (0xe0067, [w_TAG;w_LATIN;w_SMALL;w_LETTER;w_G]);
  (0xe0068, [w_TAG;w_LATIN;w_SMALL;w_LETTER;w_H]);
  (0xe0069, [w_TAG;w_LATIN;w_SMALL;w_LETTER;w_I]);
  (0xe006a, [w_TAG;w_LATIN;w_SMALL;w_LETTER;w_J]);
  (0xe006b, [w_TAG;w_LATIN;w_SMALL;w_LETTER;w_K]);
  (0xe006c, [w_TAG;w_LATIN;w_SMALL;w_LETTER;w_L]);
  (0xe006d, [w_TAG;w_LATIN;w_SMALL;w_LETTER;w_M]);
  (0xe006e, [w_TAG;w_LATIN;w_SMALL;w_LETTER;w_N]);
  (0xe006f, [w_TAG;w_LATIN;w_SMALL;w_LETTER;w_O]);
  (0xe0070, [w_TAG;w_LATIN;w_SMALL;w_LETTER;w_P]);
  (0xe0071, [w_TAG;w_LATIN;w_SMALL;w_LETTER;w_Q]);
  (0xe0072, [w_TAG;w_LATIN;w_SMALL;w_LETTER;w_R]);
  (0xe0073, [w_TAG;w_LATIN;w_SMALL;w_LETTER;w_S]);
  (0xe0074, [w_TAG;w_LATIN;w_SMALL;w_LETTER;w_T]);
  (0xe0075, [w_TAG;w_LATIN;w_SMALL;w_LETTER;w_U]);
  (0xe0076, [w_TAG;w_LATIN;w_SMALL;w_LETTER;w_V]);
  (0xe0077, [w_TAG;w_LATIN;w_SMALL;w_LETTER;w_W]);
  (0xe0078, [w_TAG;w_LATIN;w_SMALL;w_LETTER;w_X]);
  (0xe0079, [w_TAG;w_LATIN;w_SMALL;w_LETTER;w_Y]);
  (0xe007a, [w_TAG;w_LATIN;w_SMALL;w_LETTER;w_Z]);
  (0xe007b, [w_TAG;w_LEFT;w_CURLY;w_BRACKET]);
  (0xe007c, [w_TAG;w_VERTICAL;w_LINE]);
  (0xe007d, [w_TAG;w_RIGHT;w_CURLY;w_BRACKET]);
  (0xe007e, [w_TAG;w_TILDE]);
  (0xe007f, [w_CANCEL;w_TAG]);
  (0xe0100, [w_VARIATION;w_SELECTOR_17]);
  (0xe0101, [w_VARIATION;w_SELECTOR_18]);
  (0xe0102, [w_VARIATION;w_SELECTOR_19]);
  (0xe0103, [w_VARIATION;w_SELECTOR_20]);
  (0xe0104, [w_VARIATION;w_SELECTOR_21]);
  (0xe0105, [w_VARIATION;w_SELECTOR_22]);
  (0xe0106, [w_VARIATION;w_SELECTOR_23]);
  (0xe0107, [w_VARIATION;w_SELECTOR_24]);
  (0xe0108, [w_VARIATION;w_SELECTOR_25]);
  (0xe0109, [w_VARIATION;w_SELECTOR_26]);
  (0xe010a, [w_VARIATION;w_SELECTOR_27]);
  (0xe010b, [w_VARIATION;w_SELECTOR_28]);
  (0xe010c, [w_VARIATION;w_SELECTOR_29]);
  (0xe010d, [w_VARIATION;w_SELECTOR_30]);
  (0xe010e, [w_VARIATION;w_SELECTOR_31]);
  (0xe010f, [w_VARIATION;w_SELECTOR_32]);
  (0xe0110, [w_VARIATION;w_SELECTOR_33]);
  (0xe0111, [w_VARIATION;w_SELECTOR_34]);
  (0xe0112, [w_VARIATION;w_SELECTOR_35]);
  (0xe0113, [w_VARIATION;w_SELECTOR_36]);
  (0xe0114, [w_VARIATION;w_SELECTOR_37]);
  (0xe0115, [w_VARIATION;w_SELECTOR_38]);
  (0xe0116, [w_VARIATION;w_SELECTOR_39]);
  (0xe0117, [w_VARIATION;w_SELECTOR_40]);
  (0xe0118, [w_VARIATION;w_SELECTOR_41]);
  (0xe0119, [w_VARIATION;w_SELECTOR_42]);
  (0xe011a, [w_VARIATION;w_SELECTOR_43]);
  (0xe011b, [w_VARIATION;w_SELECTOR_44]);
  (0xe011c, [w_VARIATION;w_SELECTOR_45]);
  (0xe011d, [w_VARIATION;w_SELECTOR_46]);
  (0xe011e, [w_VARIATION;w_SELECTOR_47]);
  (0xe011f, [w_VARIATION;w_SELECTOR_48]);
  (0xe0120, [w_VARIATION;w_SELECTOR_49]);
  (0xe0121, [w_VARIATION;w_SELECTOR_50]);
  (0xe0122, [w_VARIATION;w_SELECTOR_51]);
  (0xe0123, [w_VARIATION;w_SELECTOR_52]);
  (0xe0124, [w_VARIATION;w_SELECTOR_53]);
  (0xe0125, [w_VARIATION;w_SELECTOR_54]);
  (0xe0126, [w_VARIATION;w_SELECTOR_55]);
  (0xe0127, [w_VARIATION;w_SELECTOR_56]);
  (0xe0128, [w_VARIATION;w_SELECTOR_57]);
  (0xe0129, [w_VARIATION;w_SELECTOR_58]);
  (0xe012a, [w_VARIATION;w_SELECTOR_59]);
  (0xe012b, [w_VARIATION;w_SELECTOR_60]);
  (0xe012c, [w_VARIATION;w_SELECTOR_61]);
  (0xe012d, [w_VARIATION;w_SELECTOR_62]);
  (0xe012e, [w_VARIATION;w_SELECTOR_63]);
  (0xe012f, [w_VARIATION;w_SELECTOR_64]);
  (0xe0130, [w_VARIATION;w_SELECTOR_65]);
  (0xe0131, [w_VARIATION;w_SELECTOR_66]);
  (0xe0132, [w_VARIATION;w_SELECTOR_67]);
  (0xe0133, [w_VARIATION;w_SELECTOR_68]);
  (0xe0134, [w_VARIATION;w_SELECTOR_69]);
  (0xe0135, [w_VARIATION;w_SELECTOR_70]);
  (0xe0136, [w_VARIATION;w_SELECTOR_71]);
  (0xe0137, [w_VARIATION;w_SELECTOR_72]);
  (0xe0138, [w_VARIATION;w_SELECTOR_73]);
  (0xe0139, [w_VARIATION;w_SELECTOR_74]);
  (0xe013a, [w_VARIATION;w_SELECTOR_75]);
  (0xe013b, [w_VARIATION;w_SELECTOR_76]);
  (0xe013c, [w_VARIATION;w_SELECTOR_77]);
  (0xe013d, [w_VARIATION;w_SELECTOR_78]);
  (0xe013e, [w_VARIATION;w_SELECTOR_79]);
  (0xe013f, [w_VARIATION;w_SELECTOR_80]);
  (0xe0140, [w_VARIATION;w_SELECTOR_81]);
  (0xe0141, [w_VARIATION;w_SELECTOR_82]);
  (0xe0142, [w_VARIATION;w_SELECTOR_83]);
  (0xe0143, [w_VARIATION;w_SELECTOR_84]);
  (0xe0144, [w_VARIATION;w_SELECTOR_85]);
  (0xe0145, [w_VARIATION;w_SELECTOR_86]);
  (0xe0146, [w_VARIATION;w_SELECTOR_87]);
  (0xe0147, [w_VARIATION;w_SELECTOR_88]);
  (0xe0148, [w_VARIATION;w_SELECTOR_89]);
  (0xe0149, [w_VARIATION;w_SELECTOR_90]);
  (0xe014a, [w_VARIATION;w_SELECTOR_91]);
  (0xe014b, [w_VARIATION;w_SELECTOR_92]);
  (0xe014c, [w_VARIATION;w_SELECTOR_93]);
  (0xe014d, [w_VARIATION;w_SELECTOR_94]);
  (0xe014e, [w_VARIATION;w_SELECTOR_95]);
  (0xe014f, [w_VARIATION;w_SELECTOR_96]);
  (0xe0150, [w_VARIATION;w_SELECTOR_97]);
  (0xe0151, [w_VARIATION;w_SELECTOR_98]);
  (0xe0152, [w_VARIATION;w_SELECTOR_99]);
  (0xe0153, [w_VARIATION;w_SELECTOR_100]);
  (0xe0154, [w_VARIATION;w_SELECTOR_101]);
  (0xe0155, [w_VARIATION;w_SELECTOR_102]);
  (0xe0156, [w_VARIATION;w_SELECTOR_103]);
  (0xe0157, [w_VARIATION;w_SELECTOR_104]);
  (0xe0158, [w_VARIATION;w_SELECTOR_105]);
  (0xe0159, [w_VARIATION;w_SELECTOR_106]);
  (0xe015a, [w_VARIATION;w_SELECTOR_107]);
  (0xe015b, [w_VARIATION;w_SELECTOR_108]);
  (0xe015c, [w_VARIATION;w_SELECTOR_109]);
  (0xe015d, [w_VARIATION;w_SELECTOR_110]);
  (0xe015e, [w_VARIATION;w_SELECTOR_111]);
  (0xe015f, [w_VARIATION;w_SELECTOR_112]);
  (0xe0160, [w_VARIATION;w_SELECTOR_113]);
  (0xe0161, [w_VARIATION;w_SELECTOR_114]);
  (0xe0162, [w_VARIATION;w_SELECTOR_115]);
  (0xe0163, [w_VARIATION;w_SELECTOR_116]);
  (0xe0164, [w_VARIATION;w_SELECTOR_117]);
  (0xe0165, [w_VARIATION;w_SELECTOR_118]);
  (0xe0166, [w_VARIATION;w_SELECTOR_119]);
  (0xe0167, [w_VARIATION;w_SELECTOR_120]);
  (0xe0168, [w_VARIATION;w_SELECTOR_121]);
  (0xe0169, [w_VARIATION;w_SELECTOR_122]);
  (0xe016a, [w_VARIATION;w_SELECTOR_123]);
  (0xe016b, [w_VARIATION;w_SELECTOR_124]);
  (0xe016c, [w_VARIATION;w_SELECTOR_125]);
  (0xe016d, [w_VARIATION;w_SELECTOR_126]);
  (0xe016e, [w_VARIATION;w_SELECTOR_127]);
  (0xe016f, [w_VARIATION;w_SELECTOR_128]);
  (0xe0170, [w_VARIATION;w_SELECTOR_129]);
  (0xe0171, [w_VARIATION;w_SELECTOR_130]);
  (0xe0172, [w_VARIATION;w_SELECTOR_131]);
  (0xe0173, [w_VARIATION;w_SELECTOR_132]);
  (0xe0174, [w_VARIATION;w_SELECTOR_133]);
  (0xe0175, [w_VARIATION;w_SELECTOR_134]);
  (0xe0176, [w_VARIATION;w_SELECTOR_135]);
  (0xe0177, [w_VARIATION;w_SELECTOR_136]);
  (0xe0178, [w_VARIATION;w_SELECTOR_137]);
  (0xe0179, [w_VARIATION;w_SELECTOR_138]);
  (0xe017a, [w_VARIATION;w_SELECTOR_139]);
  (0xe017b, [w_VARIATION;w_SELECTOR_140]);
  (0xe017c, [w_VARIATION;w_SELECTOR_141]);
  (0xe017d, [w_VARIATION;w_SELECTOR_142]);
  (0xe017e, [w_VARIATION;w_SELECTOR_143]);
  (0xe017f, [w_VARIATION;w_SELECTOR_144]);
  (0xe0180, [w_VARIATION;w_SELECTOR_145]);
  (0xe0181, [w_VARIATION;w_SELECTOR_146]);
  (0xe0182, [w_VARIATION;w_SELECTOR_147]);
  (0xe0183, [w_VARIATION;w_SELECTOR_148]);
  (0xe0184, [w_VARIATION;w_SELECTOR_149]);
  (0xe0185, [w_VARIATION;w_SELECTOR_150]);
  (0xe0186, [w_VARIATION;w_SELECTOR_151]);
  (0xe0187, [w_VARIATION;w_SELECTOR_152]);
  (0xe0188, [w_VARIATION;w_SELECTOR_153]);
  (0xe0189, [w_VARIATION;w_SELECTOR_154]);
  (0xe018a, [w_VARIATION;w_SELECTOR_155]);
  (0xe018b, [w_VARIATION;w_SELECTOR_156]);
  (0xe018c, [w_VARIATION;w_SELECTOR_157]);
  (0xe018d, [w_VARIATION;w_SELECTOR_158]);
  (0xe018e, [w_VARIATION;w_SELECTOR_159]);
  (0xe018f, [w_VARIATION;w_SELECTOR_160]);
  (0xe0190, [w_VARIATION;w_SELECTOR_161]);
  (0xe0191, [w_VARIATION;w_SELECTOR_162]);
  (0xe0192, [w_VARIATION;w_SELECTOR_163]);
  (0xe0193, [w_VARIATION;w_SELECTOR_164]);
  (0xe0194, [w_VARIATION;w_SELECTOR_165]);
  (0xe0195, [w_VARIATION;w_SELECTOR_166]);
  (0xe0196, [w_VARIATION;w_SELECTOR_167]);
  (0xe0197, [w_VARIATION;w_SELECTOR_168]);
  (0xe0198, [w_VARIATION;w_SELECTOR_169]);
  (0xe0199, [w_VARIATION;w_SELECTOR_170]);
  (0xe019a, [w_VARIATION;w_SELECTOR_171]);
  (0xe019b, [w_VARIATION;w_SELECTOR_172]);
  (0xe019c, [w_VARIATION;w_SELECTOR_173]);
  (0xe019d, [w_VARIATION;w_SELECTOR_174]);
  (0xe019e, [w_VARIATION;w_SELECTOR_175]);
  (0xe019f, [w_VARIATION;w_SELECTOR_176]);
  (0xe01a0, [w_VARIATION;w_SELECTOR_177]);
  (0xe01a1, [w_VARIATION;w_SELECTOR_178]);
  (0xe01a2, [w_VARIATION;w_SELECTOR_179]);
  (0xe01a3, [w_VARIATION;w_SELECTOR_180]);
  (0xe01a4, [w_VARIATION;w_SELECTOR_181]);
  (0xe01a5, [w_VARIATION;w_SELECTOR_182]);
  (0xe01a6, [w_VARIATION;w_SELECTOR_183]);
  (0xe01a7, [w_VARIATION;w_SELECTOR_184]);
  (0xe01a8, [w_VARIATION;w_SELECTOR_185]);
  (0xe01a9, [w_VARIATION;w_SELECTOR_186]);
  (0xe01aa, [w_VARIATION;w_SELECTOR_187]);
  (0xe01ab, [w_VARIATION;w_SELECTOR_188]);
  (0xe01ac, [w_VARIATION;w_SELECTOR_189]);
  (0xe01ad, [w_VARIATION;w_SELECTOR_190]);
  (0xe01ae, [w_VARIATION;w_SELECTOR_191]);
  (0xe01af, [w_VARIATION;w_SELECTOR_192]);
  (0xe01b0, [w_VARIATION;w_SELECTOR_193]);
  (0xe01b1, [w_VARIATION;w_SELECTOR_194]);
  (0xe01b2, [w_VARIATION;w_SELECTOR_195]);
  (0xe01b3, [w_VARIATION;w_SELECTOR_196]);
  (0xe01b4, [w_VARIATION;w_SELECTOR_197]);
  (0xe01b5, [w_VARIATION;w_SELECTOR_198]);
  (0xe01b6, [w_VARIATION;w_SELECTOR_199]);
  (0xe01b7, [w_VARIATION;w_SELECTOR_200]);
  (0xe01b8, [w_VARIATION;w_SELECTOR_201]);
  (0xe01b9, [w_VARIATION;w_SELECTOR_202]);
  (0xe01ba, [w_VARIATION;w_SELECTOR_203]);
  (0xe01bb, [w_VARIATION;w_SELECTOR_204]);
  (0xe01bc, [w_VARIATION;w_SELECTOR_205]);
  (0xe01bd, [w_VARIATION;w_SELECTOR_206]);
  (0xe01be, [w_VARIATION;w_SELECTOR_207]);
  (0xe01bf, [w_VARIATION;w_SELECTOR_208]);
  (0xe01c0, [w_VARIATION;w_SELECTOR_209]);
  (0xe01c1, [w_VARIATION;w_SELECTOR_210]);
  (0xe01c2, [w_VARIATION;w_SELECTOR_211]);
  (0xe01c3, [w_VARIATION;w_SELECTOR_212]);
  (0xe01c4, [w_VARIATION;w_SELECTOR_213]);
  (0xe01c5, [w_VARIATION;w_SELECTOR_214]);
  (0xe01c6, [w_VARIATION;w_SELECTOR_215]);
  (0xe01c7, [w_VARIATION;w_SELECTOR_216]);
  (0xe01c8, [w_VARIATION;w_SELECTOR_217]);
  (0xe01c9, [w_VARIATION;w_SELECTOR_218]);
  (0xe01ca, [w_VARIATION;w_SELECTOR_219]);
  (0xe01cb, [w_VARIATION;w_SELECTOR_220]);
  (0xe01cc, [w_VARIATION;w_SELECTOR_221]);
  (0xe01cd, [w_VARIATION;w_SELECTOR_222]);
  (0xe01ce, [w_VARIATION;w_SELECTOR_223]);
  (0xe01cf, [w_VARIATION;w_SELECTOR_224]);
  (0xe01d0, [w_VARIATION;w_SELECTOR_225]);
  (0xe01d1, [w_VARIATION;w_SELECTOR_226]);
  (0xe01d2, [w_VARIATION;w_SELECTOR_227]);
  (0xe01d3, [w_VARIATION;w_SELECTOR_228]);
  (0xe01d4, [w_VARIATION;w_SELECTOR_229]);
  (0xe01d5, [w_VARIATION;w_SELECTOR_230]);
  (0xe01d6, [w_VARIATION;w_SELECTOR_231]);
  (0xe01d7, [w_VARIATION;w_SELECTOR_232]);
  (0xe01d8, [w_VARIATION;w_SELECTOR_233]);
  (0xe01d9, [w_VARIATION;w_SELECTOR_234]);
  (0xe01da, [w_VARIATION;w_SELECTOR_235]);
  (0xe01db, [w_VARIATION;w_SELECTOR_236]);
  (0xe01dc, [w_VARIATION;w_SELECTOR_237]);
  (0xe01dd, [w_VARIATION;w_SELECTOR_238]);
  (0xe01de, [w_VARIATION;w_SELECTOR_239]);
  (0xe01df, [w_VARIATION;w_SELECTOR_240]);
  (0xe01e0, [w_VARIATION;w_SELECTOR_241]);
  (0xe01e1, [w_VARIATION;w_SELECTOR_242]);
  (0xe01e2, [w_VARIATION;w_SELECTOR_243]);
  (0xe01e3, [w_VARIATION;w_SELECTOR_244]);
  (0xe01e4, [w_VARIATION;w_SELECTOR_245]);
  (0xe01e5, [w_VARIATION;w_SELECTOR_246]);
  (0xe01e6, [w_VARIATION;w_SELECTOR_247]);
  (0xe01e7, [w_VARIATION;w_SELECTOR_248]);
  (0xe01e8, [w_VARIATION;w_SELECTOR_249]);
  (0xe01e9, [w_VARIATION;w_SELECTOR_250]);
  (0xe01ea, [w_VARIATION;w_SELECTOR_251]);
  (0xe01eb, [w_VARIATION;w_SELECTOR_252]);
  (0xe01ec, [w_VARIATION;w_SELECTOR_253]);
  (0xe01ed, [w_VARIATION;w_SELECTOR_254]);
  (0xe01ee, [w_VARIATION;w_SELECTOR_255]);
  (0xe01ef, [w_VARIATION;w_SELECTOR_256])].

Definition NAMES : CharDataTable (list str) :=
  Direct (NAMES_0 ++ NAMES_1 ++ NAMES_2 ++ NAMES_3 ++ NAMES_4 ++ NAMES_5 ++ NAMES_6 ++ NAMES_7 ++ NAMES_8 ++ NAMES_9 ++ NAMES_10 ++ NAMES_11 ++ NAMES_12 ++ NAMES_13 ++ NAMES_14 ++ NAMES_15 ++ NAMES_16 ++ NAMES_17 ++ NAMES_18 ++ NAMES_19 ++ NAMES_20 ++ NAMES_21 ++ NAMES_22 ++ NAMES_23 ++ NAMES_24 ++ NAMES_25 ++ NAMES_26 ++ NAMES_27 ++ NAMES_28 ++ NAMES_29 ++ NAMES_30 ++ NAMES_31 ++ NAMES_32 ++ NAMES_33 ++ NAMES_34 ++ NAMES_35 ++ NAMES_36 ++ NAMES_37 ++ NAMES_38 ++ NAMES_39 ++ NAMES_40 ++ NAMES_41 ++ NAMES_42 ++ NAMES_43 ++ NAMES_44 ++ NAMES_45 ++ NAMES_46 ++ NAMES_47 ++ NAMES_48 ++ NAMES_49 ++ NAMES_50 ++ NAMES_51 ++ NAMES_52 ++ NAMES_53 ++ NAMES_54 ++ NAMES_55 ++ NAMES_56 ++ NAMES_57 ++ NAMES_58 ++ NAMES_59 ++ NAMES_60 ++ NAMES_61 ++ NAMES_62 ++ NAMES_63 ++ NAMES_64 ++ NAMES_65 ++ NAMES_66 ++ NAMES_67 ++ NAMES_68 ++ NAMES_69 ++ NAMES_70 ++ NAMES_71 ++ NAMES_72 ++ NAMES_73 ++ NAMES_74 ++ NAMES_75 ++ NAMES_76 ++ NAMES_77 ++ NAMES_78).
