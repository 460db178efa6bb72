(** GENERATED by tools/gen_tables.py from /repo.  Do not edit. *)
From Coq Require Import List NArith.
From Verif Require Import Base.
Import ListNotations.
Open Scope N_scope.

(** unic/ucd/name/tables/name_values.rsd:1-13767 *)
Definition w__A : str := [45;65].
Definition w__CHAL : str := [45;67;72;65;76].
Definition w__CHAR : str := [45;67;72;65;82].
Definition w__DZUD : str := [45;68;90;85;68].
Definition w__KHYIL : str := [45;75;72;89;73;76].
Definition w__KHYUD : str := [45;75;72;89;85;68].
Definition w__PHRU : str := [45;80;72;82;85].
Definition w__UM : str := [45;85;77].
Definition w_A : str := [65].
Definition w_A_1 : str := [65;45;49].
Definition w_A_2 : str := [65;45;50].
Definition w_A_3 : str := [65;45;51].
Definition w_A_EU : str := [65;45;69;85].
Definition w_A_O : str := [65;45;79].
Definition w_A_U : str := [65;45;85].
Definition w_A_WO : str := [65;45;87;79].
Definition w_A001 : str := [65;48;48;49].
Definition w_A002 : str := [65;48;48;50].
Definition w_A003 : str := [65;48;48;51].
Definition w_A004 : str := [65;48;48;52].
Definition w_A005 : str := [65;48;48;53].
Definition w_A005A : str := [65;48;48;53;65].
Definition w_A006 : str := [65;48;48;54].
Definition w_A006A : str := [65;48;48;54;65].
Definition w_A006B : str := [65;48;48;54;66].
Definition w_A007 : str := [65;48;48;55].
Definition w_A008 : str := [65;48;48;56].
Definition w_A009 : str := [65;48;48;57].
Definition w_A010 : str := [65;48;49;48].
Definition w_A010A : str := [65;48;49;48;65].
Definition w_A011 : str := [65;48;49;49].
Definition w_A012 : str := [65;48;49;50].
Definition w_A013 : str := [65;48;49;51].
Definition w_A014 : str := [65;48;49;52].
Definition w_A014A : str := [65;48;49;52;65].
Definition w_A015 : str := [65;48;49;53].
Definition w_A016 : str := [65;48;49;54].
Definition w_A017 : str := [65;48;49;55].
Definition w_A017A : str := [65;48;49;55;65].
Definition w_A018 : str := [65;48;49;56].
Definition w_A019 : str := [65;48;49;57].
Definition w_A020 : str := [65;48;50;48].
Definition w_A021 : str := [65;48;50;49].
Definition w_A022 : str := [65;48;50;50].
Definition w_A023 : str := [65;48;50;51].
Definition w_A024 : str := [65;48;50;52].
Definition w_A025 : str := [65;48;50;53].
Definition w_A026 : str := [65;48;50;54].
Definition w_A026A : str := [65;48;50;54;65].
Definition w_A027 : str := [65;48;50;55].
Definition w_A028 : str := [65;48;50;56].
Definition w_A028B : str := [65;48;50;56;66].
Definition w_A029 : str := [65;48;50;57].
Definition w_A030 : str := [65;48;51;48].
Definition w_A031 : str := [65;48;51;49].
Definition w_A032 : str := [65;48;51;50].
Definition w_A032A : str := [65;48;51;50;65].
Definition w_A033 : str := [65;48;51;51].
Definition w_A034 : str := [65;48;51;52].
Definition w_A035 : str := [65;48;51;53].
Definition w_A036 : str := [65;48;51;54].
Definition w_A037 : str := [65;48;51;55].
Definition w_A038 : str := [65;48;51;56].
Definition w_A039 : str := [65;48;51;57].
Definition w_A039A : str := [65;48;51;57;65].
Definition w_A040 : str := [65;48;52;48].
Definition w_A040A : str := [65;48;52;48;65].
Definition w_A041 : str := [65;48;52;49].
Definition w_A041A : str := [65;48;52;49;65].
Definition w_A042 : str := [65;48;52;50].
Definition w_A042A : str := [65;48;52;50;65].
Definition w_A043 : str := [65;48;52;51].
Definition w_A043A : str := [65;48;52;51;65].
Definition w_A044 : str := [65;48;52;52].
Definition w_A045 : str := [65;48;52;53].
Definition w_A045A : str := [65;48;52;53;65].
Definition w_A046 : str := [65;48;52;54].
Definition w_A046A : str := [65;48;52;54;65].
Definition w_A046B : str := [65;48;52;54;66].
Definition w_A047 : str := [65;48;52;55].
Definition w_A048 : str := [65;48;52;56].
Definition w_A049 : str := [65;48;52;57].
Definition w_A050 : str := [65;48;53;48].
Definition w_A051 : str := [65;48;53;49].
Definition w_A052 : str := [65;48;53;50].
Definition w_A053 : str := [65;48;53;51].
Definition w_A054 : str := [65;48;53;52].
Definition w_A055 : str := [65;48;53;53].
Definition w_A056 : str := [65;48;53;54].
Definition w_A057 : str := [65;48;53;55].
Definition w_A058 : str := [65;48;53;56].
Definition w_A059 : str := [65;48;53;57].
Definition w_A060 : str := [65;48;54;48].
Definition w_A061 : str := [65;48;54;49].
Definition w_A062 : str := [65;48;54;50].
Definition w_A063 : str := [65;48;54;51].
Definition w_A064 : str := [65;48;54;52].
Definition w_A065 : str := [65;48;54;53].
Definition w_A066 : str := [65;48;54;54].
Definition w_A066A : str := [65;48;54;54;65].
Definition w_A066B : str := [65;48;54;54;66].
Definition w_A066C : str := [65;48;54;54;67].
Definition w_A067 : str := [65;48;54;55].
Definition w_A068 : str := [65;48;54;56].
Definition w_A069 : str := [65;48;54;57].
Definition w_A070 : str := [65;48;55;48].
Definition w_A071 : str := [65;48;55;49].
Definition w_A072 : str := [65;48;55;50].
Definition w_A073 : str := [65;48;55;51].
Definition w_A074 : str := [65;48;55;52].
Definition w_A075 : str := [65;48;55;53].
Definition w_A076 : str := [65;48;55;54].
Definition w_A077 : str := [65;48;55;55].
Definition w_A078 : str := [65;48;55;56].
Definition w_A079 : str := [65;48;55;57].
Definition w_A080 : str := [65;48;56;48].
Definition w_A081 : str := [65;48;56;49].
Definition w_A082 : str := [65;48;56;50].
Definition w_A083 : str := [65;48;56;51].
Definition w_A084 : str := [65;48;56;52].
Definition w_A085 : str := [65;48;56;53].
Definition w_A086 : str := [65;48;56;54].
Definition w_A087 : str := [65;48;56;55].
Definition w_A088 : str := [65;48;56;56].
Definition w_A089 : str := [65;48;56;57].
Definition w_A090 : str := [65;48;57;48].
Definition w_A091 : str := [65;48;57;49].
Definition w_A092 : str := [65;48;57;50].
Definition w_A093 : str := [65;48;57;51].
Definition w_A094 : str := [65;48;57;52].
Definition w_A095 : str := [65;48;57;53].
Definition w_A096 : str := [65;48;57;54].
Definition w_A097 : str := [65;48;57;55].
Definition w_A097A : str := [65;48;57;55;65].
Definition w_A098 : str := [65;48;57;56].
Definition w_A098A : str := [65;48;57;56;65].
Definition w_A099 : str := [65;48;57;57].
Definition w_A100 : str := [65;49;48;48].
Definition w_A100_102 : str := [65;49;48;48;45;49;48;50].
Definition w_A100A : str := [65;49;48;48;65].
Definition w_A101 : str := [65;49;48;49].
Definition w_A101A : str := [65;49;48;49;65].
Definition w_A102 : str := [65;49;48;50].
Definition w_A102A : str := [65;49;48;50;65].
Definition w_A103 : str := [65;49;48;51].
Definition w_A104 : str := [65;49;48;52].
Definition w_A104A : str := [65;49;48;52;65].
Definition w_A104B : str := [65;49;48;52;66].
Definition w_A104C : str := [65;49;48;52;67].
Definition w_A105 : str := [65;49;48;53].
Definition w_A105A : str := [65;49;48;53;65].
Definition w_A105B : str := [65;49;48;53;66].
Definition w_A106 : str := [65;49;48;54].
Definition w_A107 : str := [65;49;48;55].
Definition w_A107A : str := [65;49;48;55;65].
Definition w_A107B : str := [65;49;48;55;66].
Definition w_A107C : str := [65;49;48;55;67].
Definition w_A108 : str := [65;49;48;56].
Definition w_A109 : str := [65;49;48;57].
Definition w_A110 : str := [65;49;49;48].
Definition w_A110A : str := [65;49;49;48;65].
Definition w_A110B : str := [65;49;49;48;66].
Definition w_A111 : str := [65;49;49;49].
Definition w_A112 : str := [65;49;49;50].
Definition w_A113 : str := [65;49;49;51].
Definition w_A114 : str := [65;49;49;52].
Definition w_A115 : str := [65;49;49;53].
Definition w_A115A : str := [65;49;49;53;65].
Definition w_A116 : str := [65;49;49;54].
Definition w_A117 : str := [65;49;49;55].
Definition w_A118 : str := [65;49;49;56].
Definition w_A119 : str := [65;49;49;57].
Definition w_A120 : str := [65;49;50;48].
Definition w_A120B : str := [65;49;50;48;66].
Definition w_A121 : str := [65;49;50;49].
Definition w_A122 : str := [65;49;50;50].
Definition w_A123 : str := [65;49;50;51].
Definition w_A124 : str := [65;49;50;52].
Definition w_A125 : str := [65;49;50;53].
Definition w_A125A : str := [65;49;50;53;65].
Definition w_A126 : str := [65;49;50;54].
Definition w_A127 : str := [65;49;50;55].
Definition w_A128 : str := [65;49;50;56].
Definition w_A129 : str := [65;49;50;57].
Definition w_A130 : str := [65;49;51;48].
Definition w_A131 : str := [65;49;51;49].
Definition w_A131C : str := [65;49;51;49;67].
Definition w_A132 : str := [65;49;51;50].
Definition w_A133 : str := [65;49;51;51].
Definition w_A134 : str := [65;49;51;52].
Definition w_A135 : str := [65;49;51;53].
Definition w_A135A : str := [65;49;51;53;65].
Definition w_A136 : str := [65;49;51;54].
Definition w_A137 : str := [65;49;51;55].
Definition w_A138 : str := [65;49;51;56].
Definition w_A139 : str := [65;49;51;57].
Definition w_A140 : str := [65;49;52;48].
Definition w_A141 : str := [65;49;52;49].
Definition w_A142 : str := [65;49;52;50].
Definition w_A143 : str := [65;49;52;51].
Definition w_A144 : str := [65;49;52;52].
Definition w_A145 : str := [65;49;52;53].
Definition w_A146 : str := [65;49;52;54].
Definition w_A147 : str := [65;49;52;55].
Definition w_A148 : str := [65;49;52;56].
Definition w_A149 : str := [65;49;52;57].
Definition w_A150 : str := [65;49;53;48].
Definition w_A151 : str := [65;49;53;49].
Definition w_A152 : str := [65;49;53;50].
Definition w_A153 : str := [65;49;53;51].
Definition w_A154 : str := [65;49;53;52].
Definition w_A155 : str := [65;49;53;53].
Definition w_A156 : str := [65;49;53;54].
Definition w_A157 : str := [65;49;53;55].
Definition w_A158 : str := [65;49;53;56].
Definition w_A159 : str := [65;49;53;57].
Definition w_A160 : str := [65;49;54;48].
Definition w_A161 : str := [65;49;54;49].
Definition w_A162 : str := [65;49;54;50].
Definition w_A163 : str := [65;49;54;51].
Definition w_A164 : str := [65;49;54;52].
Definition w_A165 : str := [65;49;54;53].
Definition w_A166 : str := [65;49;54;54].
Definition w_A167 : str := [65;49;54;55].
Definition w_A168 : str := [65;49;54;56].
Definition w_A169 : str := [65;49;54;57].
Definition w_A170 : str := [65;49;55;48].
Definition w_A171 : str := [65;49;55;49].
Definition w_A172 : str := [65;49;55;50].
Definition w_A173 : str := [65;49;55;51].
Definition w_A174 : str := [65;49;55;52].
Definition w_A175 : str := [65;49;55;53].
Definition w_A176 : str := [65;49;55;54].
Definition w_A177 : str := [65;49;55;55].
Definition w_A178 : str := [65;49;55;56].
Definition w_A179 : str := [65;49;55;57].
Definition w_A180 : str := [65;49;56;48].
Definition w_A181 : str := [65;49;56;49].
Definition w_A182 : str := [65;49;56;50].
Definition w_A183 : str := [65;49;56;51].
Definition w_A184 : str := [65;49;56;52].
Definition w_A185 : str := [65;49;56;53].
Definition w_A186 : str := [65;49;56;54].
Definition w_A187 : str := [65;49;56;55].
Definition w_A188 : str := [65;49;56;56].
Definition w_A189 : str := [65;49;56;57].
Definition w_A190 : str := [65;49;57;48].
Definition w_A191 : str := [65;49;57;49].
Definition w_A192 : str := [65;49;57;50].
Definition w_A193 : str := [65;49;57;51].
Definition w_A194 : str := [65;49;57;52].
Definition w_A195 : str := [65;49;57;53].
Definition w_A196 : str := [65;49;57;54].
Definition w_A197 : str := [65;49;57;55].
Definition w_A198 : str := [65;49;57;56].
Definition w_A199 : str := [65;49;57;57].
Definition w_A2 : str := [65;50].
Definition w_A200 : str := [65;50;48;48].
Definition w_A201 : str := [65;50;48;49].
Definition w_A202 : str := [65;50;48;50].
Definition w_A202A : str := [65;50;48;50;65].
Definition w_A202B : str := [65;50;48;50;66].
Definition w_A203 : str := [65;50;48;51].
Definition w_A204 : str := [65;50;48;52].
Definition w_A205 : str := [65;50;48;53].
Definition w_A206 : str := [65;50;48;54].
Definition w_A207 : str := [65;50;48;55].
Definition w_A207A : str := [65;50;48;55;65].
Definition w_A208 : str := [65;50;48;56].
Definition w_A209 : str := [65;50;48;57].
Definition w_A209A : str := [65;50;48;57;65].
Definition w_A210 : str := [65;50;49;48].
Definition w_A211 : str := [65;50;49;49].
Definition w_A212 : str := [65;50;49;50].
Definition w_A213 : str := [65;50;49;51].
Definition w_A214 : str := [65;50;49;52].
Definition w_A215 : str := [65;50;49;53].
Definition w_A215A : str := [65;50;49;53;65].
Definition w_A216 : str := [65;50;49;54].
Definition w_A216A : str := [65;50;49;54;65].
Definition w_A217 : str := [65;50;49;55].
Definition w_A218 : str := [65;50;49;56].
Definition w_A219 : str := [65;50;49;57].
Definition w_A220 : str := [65;50;50;48].
Definition w_A221 : str := [65;50;50;49].
Definition w_A222 : str := [65;50;50;50].
Definition w_A223 : str := [65;50;50;51].
Definition w_A224 : str := [65;50;50;52].
Definition w_A225 : str := [65;50;50;53].
Definition w_A226 : str := [65;50;50;54].
Definition w_A227 : str := [65;50;50;55].
Definition w_A227A : str := [65;50;50;55;65].
Definition w_A228 : str := [65;50;50;56].
Definition w_A229 : str := [65;50;50;57].
Definition w_A230 : str := [65;50;51;48].
Definition w_A231 : str := [65;50;51;49].
Definition w_A232 : str := [65;50;51;50].
Definition w_A233 : str := [65;50;51;51].
Definition w_A234 : str := [65;50;51;52].
Definition w_A235 : str := [65;50;51;53].
Definition w_A236 : str := [65;50;51;54].
Definition w_A237 : str := [65;50;51;55].
Definition w_A238 : str := [65;50;51;56].
Definition w_A239 : str := [65;50;51;57].
Definition w_A240 : str := [65;50;52;48].
Definition w_A241 : str := [65;50;52;49].
Definition w_A242 : str := [65;50;52;50].
Definition w_A243 : str := [65;50;52;51].
Definition w_A244 : str := [65;50;52;52].
Definition w_A245 : str := [65;50;52;53].
Definition w_A246 : str := [65;50;52;54].
Definition w_A247 : str := [65;50;52;55].
Definition w_A248 : str := [65;50;52;56].
Definition w_A249 : str := [65;50;52;57].
Definition w_A250 : str := [65;50;53;48].
Definition w_A251 : str := [65;50;53;49].
Definition w_A252 : str := [65;50;53;50].
Definition w_A253 : str := [65;50;53;51].
Definition w_A254 : str := [65;50;53;52].
Definition w_A255 : str := [65;50;53;53].
Definition w_A256 : str := [65;50;53;54].
Definition w_A257 : str := [65;50;53;55].
Definition w_A258 : str := [65;50;53;56].
Definition w_A259 : str := [65;50;53;57].
Definition w_A260 : str := [65;50;54;48].
Definition w_A261 : str := [65;50;54;49].
Definition w_A262 : str := [65;50;54;50].
Definition w_A263 : str := [65;50;54;51].
Definition w_A264 : str := [65;50;54;52].
Definition w_A265 : str := [65;50;54;53].
Definition w_A266 : str := [65;50;54;54].
Definition w_A267 : str := [65;50;54;55].
Definition w_A267A : str := [65;50;54;55;65].
Definition w_A268 : str := [65;50;54;56].
Definition w_A269 : str := [65;50;54;57].
Definition w_A270 : str := [65;50;55;48].
Definition w_A271 : str := [65;50;55;49].
Definition w_A272 : str := [65;50;55;50].
Definition w_A273 : str := [65;50;55;51].
Definition w_A274 : str := [65;50;55;52].
Definition w_A275 : str := [65;50;55;53].
Definition w_A276 : str := [65;50;55;54].
Definition w_A277 : str := [65;50;55;55].
Definition w_A278 : str := [65;50;55;56].
Definition w_A279 : str := [65;50;55;57].
Definition w_A280 : str := [65;50;56;48].
Definition w_A281 : str := [65;50;56;49].
Definition w_A282 : str := [65;50;56;50].
Definition w_A283 : str := [65;50;56;51].
Definition w_A284 : str := [65;50;56;52].
Definition w_A285 : str := [65;50;56;53].
Definition w_A286 : str := [65;50;56;54].
Definition w_A287 : str := [65;50;56;55].
Definition w_A288 : str := [65;50;56;56].
Definition w_A289 : str := [65;50;56;57].
Definition w_A289A : str := [65;50;56;57;65].
Definition w_A290 : str := [65;50;57;48].
Definition w_A291 : str := [65;50;57;49].
Definition w_A292 : str := [65;50;57;50].
Definition w_A293 : str := [65;50;57;51].
Definition w_A294 : str := [65;50;57;52].
Definition w_A294A : str := [65;50;57;52;65].
Definition w_A295 : str := [65;50;57;53].
Definition w_A296 : str := [65;50;57;54].
Definition w_A297 : str := [65;50;57;55].
Definition w_A298 : str := [65;50;57;56].
Definition w_A299 : str := [65;50;57;57].
Definition w_A299A : str := [65;50;57;57;65].
Definition w_A3 : str := [65;51].
Definition w_A300 : str := [65;51;48;48].
Definition w_A301 : str := [65;51;48;49].
Definition w_A302 : str := [65;51;48;50].
Definition w_A303 : str := [65;51;48;51].
Definition w_A304 : str := [65;51;48;52].
Definition w_A305 : str := [65;51;48;53].
Definition w_A306 : str := [65;51;48;54].
Definition w_A307 : str := [65;51;48;55].
Definition w_A308 : str := [65;51;48;56].
Definition w_A309 : str := [65;51;48;57].
Definition w_A309A : str := [65;51;48;57;65].
Definition w_A309B : str := [65;51;48;57;66].
Definition w_A309C : str := [65;51;48;57;67].
Definition w_A310 : str := [65;51;49;48].
Definition w_A311 : str := [65;51;49;49].
Definition w_A312 : str := [65;51;49;50].
Definition w_A313 : str := [65;51;49;51].
Definition w_A313A : str := [65;51;49;51;65].
Definition w_A313B : str := [65;51;49;51;66].
Definition w_A313C : str := [65;51;49;51;67].
Definition w_A314 : str := [65;51;49;52].
Definition w_A315 : str := [65;51;49;53].
Definition w_A316 : str := [65;51;49;54].
Definition w_A317 : str := [65;51;49;55].
Definition w_A318 : str := [65;51;49;56].
Definition w_A319 : str := [65;51;49;57].
Definition w_A320 : str := [65;51;50;48].
Definition w_A321 : str := [65;51;50;49].
Definition w_A322 : str := [65;51;50;50].
Definition w_A323 : str := [65;51;50;51].
Definition w_A324 : str := [65;51;50;52].
Definition w_A325 : str := [65;51;50;53].
Definition w_A326 : str := [65;51;50;54].
Definition w_A327 : str := [65;51;50;55].
Definition w_A328 : str := [65;51;50;56].
Definition w_A329 : str := [65;51;50;57].
Definition w_A329A : str := [65;51;50;57;65].
Definition w_A330 : str := [65;51;51;48].
Definition w_A331 : str := [65;51;51;49].
Definition w_A332 : str := [65;51;51;50].
Definition w_A332A : str := [65;51;51;50;65].
Definition w_A332B : str := [65;51;51;50;66].
Definition w_A332C : str := [65;51;51;50;67].
Definition w_A333 : str := [65;51;51;51].
Definition w_A334 : str := [65;51;51;52].
Definition w_A335 : str := [65;51;51;53].
Definition w_A336 : str := [65;51;51;54].
Definition w_A336A : str := [65;51;51;54;65].
Definition w_A336B : str := [65;51;51;54;66].
Definition w_A336C : str := [65;51;51;54;67].
Definition w_A337 : str := [65;51;51;55].
Definition w_A338 : str := [65;51;51;56].
Definition w_A339 : str := [65;51;51;57].
Definition w_A340 : str := [65;51;52;48].
Definition w_A341 : str := [65;51;52;49].
Definition w_A342 : str := [65;51;52;50].
Definition w_A343 : str := [65;51;52;51].
Definition w_A344 : str := [65;51;52;52].
Definition w_A345 : str := [65;51;52;53].
Definition w_A346 : str := [65;51;52;54].
Definition w_A347 : str := [65;51;52;55].
Definition w_A348 : str := [65;51;52;56].
Definition w_A349 : str := [65;51;52;57].
Definition w_A350 : str := [65;51;53;48].
Definition w_A351 : str := [65;51;53;49].
Definition w_A352 : str := [65;51;53;50].
Definition w_A353 : str := [65;51;53;51].
Definition w_A354 : str := [65;51;53;52].
Definition w_A355 : str := [65;51;53;53].
Definition w_A356 : str := [65;51;53;54].
Definition w_A357 : str := [65;51;53;55].
Definition w_A358 : str := [65;51;53;56].
Definition w_A359 : str := [65;51;53;57].
Definition w_A359A : str := [65;51;53;57;65].
Definition w_A360 : str := [65;51;54;48].
Definition w_A361 : str := [65;51;54;49].
Definition w_A362 : str := [65;51;54;50].
Definition w_A363 : str := [65;51;54;51].
Definition w_A364 : str := [65;51;54;52].
Definition w_A364A : str := [65;51;54;52;65].
Definition w_A365 : str := [65;51;54;53].
Definition w_A366 : str := [65;51;54;54].
Definition w_A367 : str := [65;51;54;55].
Definition w_A368 : str := [65;51;54;56].
Definition w_A368A : str := [65;51;54;56;65].
Definition w_A369 : str := [65;51;54;57].
Definition w_A370 : str := [65;51;55;48].
Definition w_A371 : str := [65;51;55;49].
Definition w_A371A : str := [65;51;55;49;65].
Definition w_A372 : str := [65;51;55;50].
Definition w_A373 : str := [65;51;55;51].
Definition w_A374 : str := [65;51;55;52].
Definition w_A375 : str := [65;51;55;53].
Definition w_A376 : str := [65;51;55;54].
Definition w_A377 : str := [65;51;55;55].
Definition w_A378 : str := [65;51;55;56].
Definition w_A379 : str := [65;51;55;57].
Definition w_A380 : str := [65;51;56;48].
Definition w_A381 : str := [65;51;56;49].
Definition w_A381A : str := [65;51;56;49;65].
Definition w_A382 : str := [65;51;56;50].
Definition w_A383 : str := [65;51;56;51].
Definition w_A383A : str := [65;51;56;51;65].
Definition w_A384 : str := [65;51;56;52].
Definition w_A385 : str := [65;51;56;53].
Definition w_A386 : str := [65;51;56;54].
Definition w_A386A : str := [65;51;56;54;65].
Definition w_A387 : str := [65;51;56;55].
Definition w_A388 : str := [65;51;56;56].
Definition w_A389 : str := [65;51;56;57].
Definition w_A390 : str := [65;51;57;48].
Definition w_A391 : str := [65;51;57;49].
Definition w_A392 : str := [65;51;57;50].
Definition w_A393 : str := [65;51;57;51].
Definition w_A394 : str := [65;51;57;52].
Definition w_A395 : str := [65;51;57;53].
Definition w_A396 : str := [65;51;57;54].
Definition w_A397 : str := [65;51;57;55].
Definition w_A398 : str := [65;51;57;56].
Definition w_A399 : str := [65;51;57;57].
Definition w_A400 : str := [65;52;48;48].
Definition w_A400_VAS : str := [65;52;48;48;45;86;65;83].
Definition w_A401 : str := [65;52;48;49].
Definition w_A401_VAS : str := [65;52;48;49;45;86;65;83].
Definition w_A402 : str := [65;52;48;50].
Definition w_A402_VAS : str := [65;52;48;50;45;86;65;83].
Definition w_A403 : str := [65;52;48;51].
Definition w_A403_VAS : str := [65;52;48;51;45;86;65;83].
Definition w_A404 : str := [65;52;48;52].
Definition w_A404_VAS : str := [65;52;48;52;45;86;65;83].
Definition w_A405 : str := [65;52;48;53].
Definition w_A405_VAS : str := [65;52;48;53;45;86;65;83].
Definition w_A406 : str := [65;52;48;54].
Definition w_A406_VAS : str := [65;52;48;54;45;86;65;83].
Definition w_A407 : str := [65;52;48;55].
Definition w_A407_VAS : str := [65;52;48;55;45;86;65;83].
Definition w_A408 : str := [65;52;48;56].
Definition w_A408_VAS : str := [65;52;48;56;45;86;65;83].
Definition w_A409 : str := [65;52;48;57].
Definition w_A409_VAS : str := [65;52;48;57;45;86;65;83].
Definition w_A410 : str := [65;52;49;48].
Definition w_A410_VAS : str := [65;52;49;48;45;86;65;83].
Definition w_A410A : str := [65;52;49;48;65].
Definition w_A411 : str := [65;52;49;49].
Definition w_A411_VAS : str := [65;52;49;49;45;86;65;83].
Definition w_A412 : str := [65;52;49;50].
Definition w_A412_VAS : str := [65;52;49;50;45;86;65;83].
Definition w_A413 : str := [65;52;49;51].
Definition w_A413_VAS : str := [65;52;49;51;45;86;65;83].
Definition w_A414 : str := [65;52;49;52].
Definition w_A414_VAS : str := [65;52;49;52;45;86;65;83].
Definition w_A415 : str := [65;52;49;53].
Definition w_A415_VAS : str := [65;52;49;53;45;86;65;83].
Definition w_A416 : str := [65;52;49;54].
Definition w_A416_VAS : str := [65;52;49;54;45;86;65;83].
Definition w_A417 : str := [65;52;49;55].
Definition w_A417_VAS : str := [65;52;49;55;45;86;65;83].
Definition w_A418 : str := [65;52;49;56].
Definition w_A418_VAS : str := [65;52;49;56;45;86;65;83].
Definition w_A419 : str := [65;52;49;57].
Definition w_A420 : str := [65;52;50;48].
Definition w_A421 : str := [65;52;50;49].
Definition w_A422 : str := [65;52;50;50].
Definition w_A423 : str := [65;52;50;51].
Definition w_A424 : str := [65;52;50;52].
Definition w_A425 : str := [65;52;50;53].
Definition w_A426 : str := [65;52;50;54].
Definition w_A427 : str := [65;52;50;55].
Definition w_A428 : str := [65;52;50;56].
Definition w_A429 : str := [65;52;50;57].
Definition w_A430 : str := [65;52;51;48].
Definition w_A431 : str := [65;52;51;49].
Definition w_A432 : str := [65;52;51;50].
Definition w_A433 : str := [65;52;51;51].
Definition w_A434 : str := [65;52;51;52].
Definition w_A435 : str := [65;52;51;53].
Definition w_A436 : str := [65;52;51;54].
Definition w_A437 : str := [65;52;51;55].
Definition w_A438 : str := [65;52;51;56].
Definition w_A439 : str := [65;52;51;57].
Definition w_A440 : str := [65;52;52;48].
Definition w_A441 : str := [65;52;52;49].
Definition w_A442 : str := [65;52;52;50].
Definition w_A443 : str := [65;52;52;51].
Definition w_A444 : str := [65;52;52;52].
Definition w_A445 : str := [65;52;52;53].
Definition w_A446 : str := [65;52;52;54].
Definition w_A447 : str := [65;52;52;55].
Definition w_A448 : str := [65;52;52;56].
Definition w_A449 : str := [65;52;52;57].
Definition w_A450 : str := [65;52;53;48].
Definition w_A450A : str := [65;52;53;48;65].
Definition w_A451 : str := [65;52;53;49].
Definition w_A452 : str := [65;52;53;50].
Definition w_A453 : str := [65;52;53;51].
Definition w_A454 : str := [65;52;53;52].
Definition w_A455 : str := [65;52;53;53].
Definition w_A456 : str := [65;52;53;54].
Definition w_A457 : str := [65;52;53;55].
Definition w_A457A : str := [65;52;53;55;65].
Definition w_A458 : str := [65;52;53;56].
Definition w_A459 : str := [65;52;53;57].
Definition w_A460 : str := [65;52;54;48].
Definition w_A461 : str := [65;52;54;49].
Definition w_A462 : str := [65;52;54;50].
Definition w_A463 : str := [65;52;54;51].
Definition w_A464 : str := [65;52;54;52].
Definition w_A465 : str := [65;52;54;53].
Definition w_A466 : str := [65;52;54;54].
Definition w_A467 : str := [65;52;54;55].
Definition w_A468 : str := [65;52;54;56].
Definition w_A469 : str := [65;52;54;57].
Definition w_A470 : str := [65;52;55;48].
Definition w_A471 : str := [65;52;55;49].
Definition w_A472 : str := [65;52;55;50].
Definition w_A473 : str := [65;52;55;51].
Definition w_A474 : str := [65;52;55;52].
Definition w_A475 : str := [65;52;55;53].
Definition w_A476 : str := [65;52;55;54].
Definition w_A477 : str := [65;52;55;55].
Definition w_A478 : str := [65;52;55;56].
Definition w_A479 : str := [65;52;55;57].
Definition w_A480 : str := [65;52;56;48].
Definition w_A481 : str := [65;52;56;49].
Definition w_A482 : str := [65;52;56;50].
Definition w_A483 : str := [65;52;56;51].
Definition w_A484 : str := [65;52;56;52].
Definition w_A485 : str := [65;52;56;53].
Definition w_A486 : str := [65;52;56;54].
Definition w_A487 : str := [65;52;56;55].
Definition w_A488 : str := [65;52;56;56].
Definition w_A489 : str := [65;52;56;57].
Definition w_A490 : str := [65;52;57;48].
Definition w_A491 : str := [65;52;57;49].
Definition w_A492 : str := [65;52;57;50].
Definition w_A493 : str := [65;52;57;51].
Definition w_A494 : str := [65;52;57;52].
Definition w_A495 : str := [65;52;57;53].
Definition w_A496 : str := [65;52;57;54].
Definition w_A497 : str := [65;52;57;55].
Definition w_A501 : str := [65;53;48;49].
Definition w_A502 : str := [65;53;48;50].
Definition w_A503 : str := [65;53;48;51].
Definition w_A504 : str := [65;53;48;52].
Definition w_A505 : str := [65;53;48;53].
Definition w_A506 : str := [65;53;48;54].
Definition w_A507 : str := [65;53;48;55].
Definition w_A508 : str := [65;53;48;56].
Definition w_A509 : str := [65;53;48;57].
Definition w_A510 : str := [65;53;49;48].
Definition w_A511 : str := [65;53;49;49].
Definition w_A512 : str := [65;53;49;50].
Definition w_A513 : str := [65;53;49;51].
Definition w_A514 : str := [65;53;49;52].
Definition w_A515 : str := [65;53;49;53].
Definition w_A516 : str := [65;53;49;54].
Definition w_A517 : str := [65;53;49;55].
Definition w_A518 : str := [65;53;49;56].
Definition w_A519 : str := [65;53;49;57].
Definition w_A520 : str := [65;53;50;48].
Definition w_A521 : str := [65;53;50;49].
Definition w_A522 : str := [65;53;50;50].
Definition w_A523 : str := [65;53;50;51].
Definition w_A524 : str := [65;53;50;52].
Definition w_A525 : str := [65;53;50;53].
Definition w_A526 : str := [65;53;50;54].
Definition w_A527 : str := [65;53;50;55].
Definition w_A528 : str := [65;53;50;56].
Definition w_A529 : str := [65;53;50;57].
Definition w_A530 : str := [65;53;51;48].
Definition w_A531 : str := [65;53;51;49].
Definition w_A532 : str := [65;53;51;50].
Definition w_A534 : str := [65;53;51;52].
Definition w_A535 : str := [65;53;51;53].
Definition w_A536 : str := [65;53;51;54].
Definition w_A537 : str := [65;53;51;55].
Definition w_A538 : str := [65;53;51;56].
Definition w_A539 : str := [65;53;51;57].
Definition w_A540 : str := [65;53;52;48].
Definition w_A541 : str := [65;53;52;49].
Definition w_A542 : str := [65;53;52;50].
Definition w_A545 : str := [65;53;52;53].
Definition w_A547 : str := [65;53;52;55].
Definition w_A548 : str := [65;53;52;56].
Definition w_A549 : str := [65;53;52;57].
Definition w_A550 : str := [65;53;53;48].
Definition w_A551 : str := [65;53;53;49].
Definition w_A552 : str := [65;53;53;50].
Definition w_A553 : str := [65;53;53;51].
Definition w_A554 : str := [65;53;53;52].
Definition w_A555 : str := [65;53;53;53].
Definition w_A556 : str := [65;53;53;54].
Definition w_A557 : str := [65;53;53;55].
Definition w_A559 : str := [65;53;53;57].
Definition w_A563 : str := [65;53;54;51].
Definition w_A564 : str := [65;53;54;52].
Definition w_A565 : str := [65;53;54;53].
Definition w_A566 : str := [65;53;54;54].
Definition w_A568 : str := [65;53;54;56].
Definition w_A569 : str := [65;53;54;57].
Definition w_A570 : str := [65;53;55;48].
Definition w_A571 : str := [65;53;55;49].
Definition w_A572 : str := [65;53;55;50].
Definition w_A573 : str := [65;53;55;51].
Definition w_A574 : str := [65;53;55;52].
Definition w_A575 : str := [65;53;55;53].
Definition w_A576 : str := [65;53;55;54].
Definition w_A577 : str := [65;53;55;55].
Definition w_A578 : str := [65;53;55;56].
Definition w_A579 : str := [65;53;55;57].
Definition w_A580 : str := [65;53;56;48].
Definition w_A581 : str := [65;53;56;49].
Definition w_A582 : str := [65;53;56;50].
Definition w_A583 : str := [65;53;56;51].
Definition w_A584 : str := [65;53;56;52].
Definition w_A585 : str := [65;53;56;53].
Definition w_A586 : str := [65;53;56;54].
Definition w_A587 : str := [65;53;56;55].
Definition w_A588 : str := [65;53;56;56].
Definition w_A589 : str := [65;53;56;57].
Definition w_A591 : str := [65;53;57;49].
Definition w_A592 : str := [65;53;57;50].
Definition w_A594 : str := [65;53;57;52].
Definition w_A595 : str := [65;53;57;53].
Definition w_A596 : str := [65;53;57;54].
Definition w_A598 : str := [65;53;57;56].
Definition w_A600 : str := [65;54;48;48].
Definition w_A601 : str := [65;54;48;49].
Definition w_A602 : str := [65;54;48;50].
Definition w_A603 : str := [65;54;48;51].
Definition w_A604 : str := [65;54;48;52].
Definition w_A606 : str := [65;54;48;54].
Definition w_A608 : str := [65;54;48;56].
Definition w_A609 : str := [65;54;48;57].
Definition w_A610 : str := [65;54;49;48].
Definition w_A611 : str := [65;54;49;49].
Definition w_A612 : str := [65;54;49;50].
Definition w_A613 : str := [65;54;49;51].
Definition w_A614 : str := [65;54;49;52].
Definition w_A615 : str := [65;54;49;53].
Definition w_A616 : str := [65;54;49;54].
Definition w_A617 : str := [65;54;49;55].
Definition w_A618 : str := [65;54;49;56].
Definition w_A619 : str := [65;54;49;57].
Definition w_A620 : str := [65;54;50;48].
Definition w_A621 : str := [65;54;50;49].
Definition w_A622 : str := [65;54;50;50].
Definition w_A623 : str := [65;54;50;51].
Definition w_A624 : str := [65;54;50;52].
Definition w_A626 : str := [65;54;50;54].
Definition w_A627 : str := [65;54;50;55].
Definition w_A628 : str := [65;54;50;56].
Definition w_A629 : str := [65;54;50;57].
Definition w_A634 : str := [65;54;51;52].
Definition w_A637 : str := [65;54;51;55].
Definition w_A638 : str := [65;54;51;56].
Definition w_A640 : str := [65;54;52;48].
Definition w_A642 : str := [65;54;52;50].
Definition w_A643 : str := [65;54;52;51].
Definition w_A644 : str := [65;54;52;52].
Definition w_A645 : str := [65;54;52;53].
Definition w_A646 : str := [65;54;52;54].
Definition w_A648 : str := [65;54;52;56].
Definition w_A649 : str := [65;54;52;57].
Definition w_A651 : str := [65;54;53;49].
Definition w_A652 : str := [65;54;53;50].
Definition w_A653 : str := [65;54;53;51].
Definition w_A654 : str := [65;54;53;52].
Definition w_A655 : str := [65;54;53;53].
Definition w_A656 : str := [65;54;53;54].
Definition w_A657 : str := [65;54;53;55].
Definition w_A658 : str := [65;54;53;56].
Definition w_A659 : str := [65;54;53;57].
Definition w_A660 : str := [65;54;54;48].
Definition w_A661 : str := [65;54;54;49].
Definition w_A662 : str := [65;54;54;50].
Definition w_A663 : str := [65;54;54;51].
Definition w_A664 : str := [65;54;54;52].
Definition w_A701 : str := [65;55;48;49].
Definition w_A702 : str := [65;55;48;50].
Definition w_A703 : str := [65;55;48;51].
Definition w_A704 : str := [65;55;48;52].
Definition w_A705 : str := [65;55;48;53].
Definition w_A706 : str := [65;55;48;54].
Definition w_A707 : str := [65;55;48;55].
Definition w_A708 : str := [65;55;48;56].
Definition w_A709 : str := [65;55;48;57].
Definition w_A709_2 : str := [65;55;48;57;45;50].
Definition w_A709_3 : str := [65;55;48;57;45;51].
Definition w_A709_4 : str := [65;55;48;57;45;52].
Definition w_A709_6 : str := [65;55;48;57;45;54].
Definition w_A710 : str := [65;55;49;48].
Definition w_A711 : str := [65;55;49;49].
Definition w_A712 : str := [65;55;49;50].
Definition w_A713 : str := [65;55;49;51].
Definition w_A714 : str := [65;55;49;52].
Definition w_A715 : str := [65;55;49;53].
Definition w_A717 : str := [65;55;49;55].
Definition w_A726 : str := [65;55;50;54].
Definition w_A732 : str := [65;55;51;50].
Definition w_A800 : str := [65;56;48;48].
Definition w_A801 : str := [65;56;48;49].
Definition w_A802 : str := [65;56;48;50].
Definition w_A803 : str := [65;56;48;51].
Definition w_A804 : str := [65;56;48;52].
Definition w_A805 : str := [65;56;48;53].
Definition w_A806 : str := [65;56;48;54].
Definition w_A807 : str := [65;56;48;55].
Definition w_AA : str := [65;65].
Definition w_AA001 : str := [65;65;48;48;49].
Definition w_AA002 : str := [65;65;48;48;50].
Definition w_AA003 : str := [65;65;48;48;51].
Definition w_AA004 : str := [65;65;48;48;52].
Definition w_AA005 : str := [65;65;48;48;53].
Definition w_AA006 : str := [65;65;48;48;54].
Definition w_AA007 : str := [65;65;48;48;55].
Definition w_AA007A : str := [65;65;48;48;55;65].
Definition w_AA007B : str := [65;65;48;48;55;66].
Definition w_AA008 : str := [65;65;48;48;56].
Definition w_AA009 : str := [65;65;48;48;57].
Definition w_AA010 : str := [65;65;48;49;48].
Definition w_AA011 : str := [65;65;48;49;49].
Definition w_AA012 : str := [65;65;48;49;50].
Definition w_AA013 : str := [65;65;48;49;51].
Definition w_AA014 : str := [65;65;48;49;52].
Definition w_AA015 : str := [65;65;48;49;53].
Definition w_AA016 : str := [65;65;48;49;54].
Definition w_AA017 : str := [65;65;48;49;55].
Definition w_AA018 : str := [65;65;48;49;56].
Definition w_AA019 : str := [65;65;48;49;57].
Definition w_AA020 : str := [65;65;48;50;48].
Definition w_AA021 : str := [65;65;48;50;49].
Definition w_AA022 : str := [65;65;48;50;50].
Definition w_AA023 : str := [65;65;48;50;51].
Definition w_AA024 : str := [65;65;48;50;52].
Definition w_AA025 : str := [65;65;48;50;53].
Definition w_AA026 : str := [65;65;48;50;54].
Definition w_AA027 : str := [65;65;48;50;55].
Definition w_AA028 : str := [65;65;48;50;56].
Definition w_AA029 : str := [65;65;48;50;57].
Definition w_AA030 : str := [65;65;48;51;48].
Definition w_AA031 : str := [65;65;48;51;49].
Definition w_AA032 : str := [65;65;48;51;50].
Definition w_AABAAFILI : str := [65;65;66;65;65;70;73;76;73].
Definition w_AAI : str := [65;65;73].
Definition w_AAJ : str := [65;65;74].
Definition w_AAK : str := [65;65;75].
Definition w_AAM : str := [65;65;77].
Definition w_AAN : str := [65;65;78].
Definition w_AAO : str := [65;65;79].
Definition w_AARU : str := [65;65;82;85].
Definition w_AAU : str := [65;65;85].
Definition w_AAW : str := [65;65;87].
Definition w_AAY : str := [65;65;89].
Definition w_AAYANNA : str := [65;65;89;65;78;78;65].
Definition w_AAYIN : str := [65;65;89;73;78].
Definition w_AB : str := [65;66].
Definition w_AB001 : str := [65;66;48;48;49].
Definition w_AB002 : str := [65;66;48;48;50].
Definition w_AB003 : str := [65;66;48;48;51].
Definition w_AB004 : str := [65;66;48;48;52].
Definition w_AB005 : str := [65;66;48;48;53].
Definition w_AB006 : str := [65;66;48;48;54].
Definition w_AB007 : str := [65;66;48;48;55].
Definition w_AB008 : str := [65;66;48;48;56].
Definition w_AB009 : str := [65;66;48;48;57].
Definition w_AB010 : str := [65;66;48;49;48].
Definition w_AB011 : str := [65;66;48;49;49].
Definition w_AB013 : str := [65;66;48;49;51].
Definition w_AB016 : str := [65;66;48;49;54].
Definition w_AB017 : str := [65;66;48;49;55].
Definition w_AB020 : str := [65;66;48;50;48].
Definition w_AB021 : str := [65;66;48;50;49].
Definition w_AB021F : str := [65;66;48;50;49;70].
Definition w_AB021M : str := [65;66;48;50;49;77].
Definition w_AB022 : str := [65;66;48;50;50].
Definition w_AB022F : str := [65;66;48;50;50;70].
Definition w_AB022M : str := [65;66;48;50;50;77].
Definition w_AB023 : str := [65;66;48;50;51].
Definition w_AB023M : str := [65;66;48;50;51;77].
Definition w_AB024 : str := [65;66;48;50;52].
Definition w_AB026 : str := [65;66;48;50;54].
Definition w_AB027 : str := [65;66;48;50;55].
Definition w_AB028 : str := [65;66;48;50;56].
Definition w_AB029 : str := [65;66;48;50;57].
Definition w_AB030 : str := [65;66;48;51;48].
Definition w_AB031 : str := [65;66;48;51;49].
Definition w_AB034 : str := [65;66;48;51;52].
Definition w_AB037 : str := [65;66;48;51;55].
Definition w_AB038 : str := [65;66;48;51;56].
Definition w_AB039 : str := [65;66;48;51;57].
Definition w_AB040 : str := [65;66;48;52;48].
Definition w_AB041 : str := [65;66;48;52;49].
Definition w_AB044 : str := [65;66;48;52;52].
Definition w_AB045 : str := [65;66;48;52;53].
Definition w_AB046 : str := [65;66;48;52;54].
Definition w_AB047 : str := [65;66;48;52;55].
Definition w_AB048 : str := [65;66;48;52;56].
Definition w_AB049 : str := [65;66;48;52;57].
Definition w_AB050 : str := [65;66;48;53;48].
Definition w_AB051 : str := [65;66;48;53;49].
Definition w_AB053 : str := [65;66;48;53;51].
Definition w_AB054 : str := [65;66;48;53;52].
Definition w_AB055 : str := [65;66;48;53;53].
Definition w_AB056 : str := [65;66;48;53;54].
Definition w_AB057 : str := [65;66;48;53;55].
Definition w_AB058 : str := [65;66;48;53;56].
Definition w_AB059 : str := [65;66;48;53;57].
Definition w_AB060 : str := [65;66;48;54;48].
Definition w_AB061 : str := [65;66;48;54;49].
Definition w_AB065 : str := [65;66;48;54;53].
Definition w_AB066 : str := [65;66;48;54;54].
Definition w_AB067 : str := [65;66;48;54;55].
Definition w_AB069 : str := [65;66;48;54;57].
Definition w_AB070 : str := [65;66;48;55;48].
Definition w_AB073 : str := [65;66;48;55;51].
Definition w_AB074 : str := [65;66;48;55;52].
Definition w_AB076 : str := [65;66;48;55;54].
Definition w_AB077 : str := [65;66;48;55;55].
Definition w_AB078 : str := [65;66;48;55;56].
Definition w_AB079 : str := [65;66;48;55;57].
Definition w_AB080 : str := [65;66;48;56;48].
Definition w_AB081 : str := [65;66;48;56;49].
Definition w_AB082 : str := [65;66;48;56;50].
Definition w_AB085 : str := [65;66;48;56;53].
Definition w_AB086 : str := [65;66;48;56;54].
Definition w_AB087 : str := [65;66;48;56;55].
Definition w_AB118 : str := [65;66;49;49;56].
Definition w_AB120 : str := [65;66;49;50;48].
Definition w_AB122 : str := [65;66;49;50;50].
Definition w_AB123 : str := [65;66;49;50;51].
Definition w_AB131A : str := [65;66;49;51;49;65].
Definition w_AB131B : str := [65;66;49;51;49;66].
Definition w_AB164 : str := [65;66;49;54;52].
Definition w_AB171 : str := [65;66;49;55;49].
Definition w_AB180 : str := [65;66;49;56;48].
Definition w_AB188 : str := [65;66;49;56;56].
Definition w_AB191 : str := [65;66;49;57;49].
Definition w_AB2 : str := [65;66;50].
Definition w_ABAFILI : str := [65;66;65;70;73;76;73].
Definition w_ABB : str := [65;66;66].
Definition w_ABBREVIATION : str := [65;66;66;82;69;86;73;65;84;73;79;78].
Definition w_ABKHASIAN : str := [65;66;75;72;65;83;73;65;78].
Definition w_ABOVE : str := [65;66;79;86;69].
Definition w_ABUNDANCE : str := [65;66;85;78;68;65;78;67;69].
Definition w_ABYSMAL : str := [65;66;89;83;77;65;76].
Definition w_AC : str := [65;67].
Definition w_ACADEMY : str := [65;67;65;68;69;77;89].
Definition w_ACCENT : str := [65;67;67;69;78;84].
Definition w_ACCENT_STACCATO : str := [65;67;67;69;78;84;45;83;84;65;67;67;65;84;79].
Definition w_ACCEPT : str := [65;67;67;69;80;84].
Definition w_ACCOMMODATION : str := [65;67;67;79;77;77;79;68;65;84;73;79;78].
Definition w_ACCOUNT : str := [65;67;67;79;85;78;84].
Definition w_ACCUMULATION : str := [65;67;67;85;77;85;76;65;84;73;79;78].
Definition w_ACE : str := [65;67;69].
Definition w_ACKNOWLEDGE : str := [65;67;75;78;79;87;76;69;68;71;69].
Definition w_ACROPHONIC : str := [65;67;82;79;80;72;79;78;73;67].
Definition w_ACTIVATE : str := [65;67;84;73;86;65;84;69].
Definition w_ACTUALLY : str := [65;67;84;85;65;76;76;89].
Definition w_ACUTE : str := [65;67;85;84;69].
Definition w_ACUTE_GRAVE_ACUTE : str := [65;67;85;84;69;45;71;82;65;86;69;45;65;67;85;84;69].
Definition w_ACUTE_MACRON : str := [65;67;85;84;69;45;77;65;67;82;79;78].
Definition w_AD : str := [65;68].
Definition w_ADAK : str := [65;68;65;75].
Definition w_ADDAK : str := [65;68;68;65;75].
Definition w_ADDRESS : str := [65;68;68;82;69;83;83].
Definition w_ADDRESSED : str := [65;68;68;82;69;83;83;69;68].
Definition w_ADEG : str := [65;68;69;71].
Definition w_ADI : str := [65;68;73].
Definition w_ADLAM : str := [65;68;76;65;77].
Definition w_ADMISSION : str := [65;68;77;73;83;83;73;79;78].
Definition w_ADO : str := [65;68;79].
Definition w_ADULT : str := [65;68;85;76;84].
Definition w_ADVANCE : str := [65;68;86;65;78;67;69].
Definition w_ADVANTAGE : str := [65;68;86;65;78;84;65;71;69].
Definition w_AE : str := [65;69].
Definition w_AEB : str := [65;69;66].
Definition w_AED : str := [65;69;68].
Definition w_AEDA_PILLA : str := [65;69;68;65;45;80;73;76;76;65].
Definition w_AEE : str := [65;69;69].
Definition w_AEEYANNA : str := [65;69;69;89;65;78;78;65].
Definition w_AEG : str := [65;69;71].
Definition w_AEGEAN : str := [65;69;71;69;65;78].
Definition w_AEK : str := [65;69;75].
Definition w_AEL : str := [65;69;76].
Definition w_AELA_PILLA : str := [65;69;76;65;45;80;73;76;76;65].
Definition w_AEN : str := [65;69;78].
Definition w_AENG : str := [65;69;78;71].
Definition w_AER : str := [65;69;82].
Definition w_AERIAL : str := [65;69;82;73;65;76].
Definition w_AES : str := [65;69;83].
Definition w_AESC : str := [65;69;83;67].
Definition w_AESCULAPIUS : str := [65;69;83;67;85;76;65;80;73;85;83].
Definition w_AET : str := [65;69;84].
Definition w_AEY : str := [65;69;89].
Definition w_AEYANNA : str := [65;69;89;65;78;78;65].
Definition w_AFFIX : str := [65;70;70;73;88].
Definition w_AFFRICATION : str := [65;70;70;82;73;67;65;84;73;79;78].
Definition w_AFGHANI : str := [65;70;71;72;65;78;73].
Definition w_AFOREMENTIONED : str := [65;70;79;82;69;77;69;78;84;73;79;78;69;68].
Definition w_AFRICAN : str := [65;70;82;73;67;65;78].
Definition w_AFSAAQ : str := [65;70;83;65;65;81].
Definition w_AFTER : str := [65;70;84;69;82].
Definition w_AG : str := [65;71].
Definition w_AGAIN : str := [65;71;65;73;78].
Definition w_AGAINST : str := [65;71;65;73;78;83;84].
Definition w_AGE : str := [65;71;69].
Definition w_AGGRAVATED : str := [65;71;71;82;65;86;65;84;69;68].
Definition w_AGGRAVATION : str := [65;71;71;82;65;86;65;84;73;79;78].
Definition w_AGOGI : str := [65;71;79;71;73].
Definition w_AGUNG : str := [65;71;85;78;71].
Definition w_AH : str := [65;72].
Definition w_AHAD : str := [65;72;65;68].
Definition w_AHAGGAR : str := [65;72;65;71;71;65;82].
Definition w_AHANG : str := [65;72;65;78;71].
Definition w_AHH : str := [65;72;72].
Definition w_AHOM : str := [65;72;79;77].
Definition w_AHSA : str := [65;72;83;65].
Definition w_AHSDA : str := [65;72;83;68;65].
Definition w_AI : str := [65;73].
Definition w_AIHVUS : str := [65;73;72;86;85;83].
Definition w_AIKARA : str := [65;73;75;65;82;65].
Definition w_AILM : str := [65;73;76;77].
Definition w_AIN : str := [65;73;78].
Definition w_AINN : str := [65;73;78;78].
Definition w_AINU : str := [65;73;78;85].
Definition w_AIR : str := [65;73;82].
Definition w_AIRPLANE : str := [65;73;82;80;76;65;78;69].
Definition w_AITON : str := [65;73;84;79;78].
Definition w_AIVILIK : str := [65;73;86;73;76;73;75].
Definition w_AIYANNA : str := [65;73;89;65;78;78;65].
Definition w_AK : str := [65;75].
Definition w_AKARA : str := [65;75;65;82;65].
Definition w_AKBAR : str := [65;75;66;65;82].
Definition w_AKHMIMIC : str := [65;75;72;77;73;77;73;67].
Definition w_AKSA : str := [65;75;83;65].
Definition w_AKTIESELSKAB : str := [65;75;84;73;69;83;69;76;83;75;65;66].
Definition w_AL : str := [65;76].
Definition w_AL_LAKUNA : str := [65;76;45;76;65;75;85;78;65].
Definition w_ALAF : str := [65;76;65;70].
Definition w_ALAN : str := [65;76;65;78].
Definition w_ALAPH : str := [65;76;65;80;72].
Definition w_ALARM : str := [65;76;65;82;77].
Definition w_ALAYHE : str := [65;76;65;89;72;69].
Definition w_ALBANIAN : str := [65;76;66;65;78;73;65;78].
Definition w_ALCHEMICAL : str := [65;76;67;72;69;77;73;67;65;76].
Definition w_ALEF : str := [65;76;69;70].
Definition w_ALEMBIC : str := [65;76;69;77;66;73;67].
Definition w_ALEPH : str := [65;76;69;80;72].
Definition w_ALEUT : str := [65;76;69;85;84].
Definition w_ALF : str := [65;76;70].
Definition w_ALFA : str := [65;76;70;65].
Definition w_ALGIZ : str := [65;76;71;73;90].
Definition w_ALI : str := [65;76;73].
Definition w_ALIEN : str := [65;76;73;69;78].
Definition w_ALIF : str := [65;76;73;70].
Definition w_ALIFU : str := [65;76;73;70;85].
Definition w_ALIGNED : str := [65;76;73;71;78;69;68].
Definition w_ALKALI : str := [65;76;75;65;76;73].
Definition w_ALKALI_2 : str := [65;76;75;65;76;73;45;50].
Definition w_ALL : str := [65;76;76].
Definition w_ALLAH : str := [65;76;76;65;72].
Definition w_ALLAHOU : str := [65;76;76;65;72;79;85].
Definition w_ALLI : str := [65;76;76;73].
Definition w_ALLIANCE : str := [65;76;76;73;65;78;67;69].
Definition w_ALLO : str := [65;76;76;79].
Definition w_ALMOST : str := [65;76;77;79;83;84].
Definition w_ALPA : str := [65;76;80;65].
Definition w_ALPAPRAANA : str := [65;76;80;65;80;82;65;65;78;65].
Definition w_ALPAPRANA : str := [65;76;80;65;80;82;65;78;65].
Definition w_ALPHA : str := [65;76;80;72;65].
Definition w_ALT : str := [65;76;84].
Definition w_ALTA : str := [65;76;84;65].
Definition w_ALTERNATE : str := [65;76;84;69;82;78;65;84;69].
Definition w_ALTERNATING : str := [65;76;84;69;82;78;65;84;73;78;71].
Definition w_ALTERNATION : str := [65;76;84;69;82;78;65;84;73;79;78].
Definition w_ALTERNATIVE : str := [65;76;84;69;82;78;65;84;73;86;69].
Definition w_ALUM : str := [65;76;85;77].
Definition w_ALVEOLAR : str := [65;76;86;69;79;76;65;82].
Definition w_AM : str := [65;77].
Definition w_AMALGAM : str := [65;77;65;76;71;65;77].
Definition w_AMALGAMATION : str := [65;77;65;76;71;65;77;65;84;73;79;78].
Definition w_AMAR : str := [65;77;65;82].
Definition w_AMB : str := [65;77;66].
Definition w_AMBA : str := [65;77;66;65].
Definition w_AMBULANCE : str := [65;77;66;85;76;65;78;67;69].
Definition w_AMERICAN : str := [65;77;69;82;73;67;65;78].
Definition w_AMERICAS : str := [65;77;69;82;73;67;65;83].
Definition w_AMOUNT : str := [65;77;79;85;78;84].
Definition w_AMPERSAND : str := [65;77;80;69;82;83;65;78;68].
Definition w_AMPHORA : str := [65;77;80;72;79;82;65].
Definition w_AMPS : str := [65;77;80;83].
Definition w_AN : str := [65;78].
Definition w_AN_NISF : str := [65;78;45;78;73;83;70].
Definition w_ANAP : str := [65;78;65;80].
Definition w_ANATOLIAN : str := [65;78;65;84;79;76;73;65;78].
Definition w_ANATRICHISMA : str := [65;78;65;84;82;73;67;72;73;83;77;65].
Definition w_ANCHOR : str := [65;78;67;72;79;82].
Definition w_ANCORA : str := [65;78;67;79;82;65].
Definition w_AND : str := [65;78;68].
Definition w_ANDAP : str := [65;78;68;65;80].
Definition w_ANG : str := [65;78;71].
Definition w_ANGED : str := [65;78;71;69;68].
Definition w_ANGEL : str := [65;78;71;69;76].
Definition w_ANGER : str := [65;78;71;69;82].
Definition w_ANGKHANKHU : str := [65;78;71;75;72;65;78;75;72;85].
Definition w_ANGLE : str := [65;78;71;76;69].
Definition w_ANGLED : str := [65;78;71;76;69;68].
Definition w_ANGRY : str := [65;78;71;82;89].
Definition w_ANGSTROM : str := [65;78;71;83;84;82;79;77].
Definition w_ANGUISHED : str := [65;78;71;85;73;83;72;69;68].
Definition w_ANGULAR : str := [65;78;71;85;76;65;82].
Definition w_ANHU : str := [65;78;72;85].
Definition w_ANJI : str := [65;78;74;73].
Definition w_ANKH : str := [65;78;75;72].
Definition w_ANN : str := [65;78;78].
Definition w_ANNAAU : str := [65;78;78;65;65;85].
Definition w_ANNOTATION : str := [65;78;78;79;84;65;84;73;79;78].
Definition w_ANNUITY : str := [65;78;78;85;73;84;89].
Definition w_ANO : str := [65;78;79].
Definition w_ANPEA : str := [65;78;80;69;65].
Definition w_ANSHE : str := [65;78;83;72;69].
Definition w_ANSUZ : str := [65;78;83;85;90].
Definition w_ANT : str := [65;78;84].
Definition w_ANTARGOMUKHA : str := [65;78;84;65;82;71;79;77;85;75;72;65].
Definition w_ANTENNA : str := [65;78;84;69;78;78;65].
Definition w_ANTICLOCKWISE : str := [65;78;84;73;67;76;79;67;75;87;73;83;69].
Definition w_ANTICLOCKWISE_ROTATED : str := [65;78;84;73;67;76;79;67;75;87;73;83;69;45;82;79;84;65;84;69;68].
Definition w_ANTIFONIA : str := [65;78;84;73;70;79;78;73;65].
Definition w_ANTIKENOKYLISMA : str := [65;78;84;73;75;69;78;79;75;89;76;73;83;77;65].
Definition w_ANTIKENOMA : str := [65;78;84;73;75;69;78;79;77;65].
Definition w_ANTIMONIATE : str := [65;78;84;73;77;79;78;73;65;84;69].
Definition w_ANTIMONY : str := [65;78;84;73;77;79;78;89].
Definition w_ANTIMONY_2 : str := [65;78;84;73;77;79;78;89;45;50].
Definition w_ANTIRESTRICTION : str := [65;78;84;73;82;69;83;84;82;73;67;84;73;79;78].
Definition w_ANUDATTA : str := [65;78;85;68;65;84;84;65].
Definition w_ANUSVARA : str := [65;78;85;83;86;65;82;65].
Definition w_ANUSVARAYA : str := [65;78;85;83;86;65;82;65;89;65].
Definition w_AO : str := [65;79].
Definition w_AOR : str := [65;79;82].
Definition w_AOU : str := [65;79;85].
Definition w_AP : str := [65;80].
Definition w_APAATO : str := [65;80;65;65;84;79].
Definition w_APART : str := [65;80;65;82;84].
Definition w_APESO : str := [65;80;69;83;79].
Definition w_APIN : str := [65;80;73;78].
Definition w_APL : str := [65;80;76].
Definition w_APLI : str := [65;80;76;73].
Definition w_APLOUN : str := [65;80;76;79;85;78].
Definition w_APODERMA : str := [65;80;79;68;69;82;77;65].
Definition w_APODEXIA : str := [65;80;79;68;69;88;73;65].
Definition w_APOSTROFOI : str := [65;80;79;83;84;82;79;70;79;73].
Definition w_APOSTROFOS : str := [65;80;79;83;84;82;79;70;79;83].
Definition w_APOSTROPHE : str := [65;80;79;83;84;82;79;80;72;69].
Definition w_APOTHEMA : str := [65;80;79;84;72;69;77;65].
Definition w_APOTHES : str := [65;80;79;84;72;69;83].
Definition w_APPLE : str := [65;80;80;76;69].
Definition w_APPLICATION : str := [65;80;80;76;73;67;65;84;73;79;78].
Definition w_APPROACH : str := [65;80;80;82;79;65;67;72].
Definition w_APPROACHES : str := [65;80;80;82;79;65;67;72;69;83].
Definition w_APPROXIMATE : str := [65;80;80;82;79;88;73;77;65;84;69].
Definition w_APPROXIMATELY : str := [65;80;80;82;79;88;73;77;65;84;69;76;89].
Definition w_APRIL : str := [65;80;82;73;76].
Definition w_APUN : str := [65;80;85;78].
Definition w_AQ : str := [65;81].
Definition w_AQUA : str := [65;81;85;65].
Definition w_AQUAFORTIS : str := [65;81;85;65;70;79;82;84;73;83].
Definition w_AQUARIUS : str := [65;81;85;65;82;73;85;83].
Definition w_AR : str := [65;82].
Definition w_AR_RAHEEM : str := [65;82;45;82;65;72;69;69;77].
Definition w_AR_RAHMAN : str := [65;82;45;82;65;72;77;65;78].
Definition w_AR_RUB : str := [65;82;45;82;85;66].
Definition w_ARABIAN : str := [65;82;65;66;73;65;78].
Definition w_ARABIC : str := [65;82;65;66;73;67].
Definition w_ARABIC_INDIC : str := [65;82;65;66;73;67;45;73;78;68;73;67].
Definition w_ARAD : str := [65;82;65;68].
Definition w_ARAEA : str := [65;82;65;69;65].
Definition w_ARAEA_A : str := [65;82;65;69;65;45;65].
Definition w_ARAEA_E : str := [65;82;65;69;65;45;69].
Definition w_ARAEA_EO : str := [65;82;65;69;65;45;69;79].
Definition w_ARAEA_I : str := [65;82;65;69;65;45;73].
Definition w_ARAEA_U : str := [65;82;65;69;65;45;85].
Definition w_ARAEAE : str := [65;82;65;69;65;69].
Definition w_ARAMAIC : str := [65;82;65;77;65;73;67].
Definition w_ARC : str := [65;82;67].
Definition w_ARCH : str := [65;82;67;72].
Definition w_ARCHAIC : str := [65;82;67;72;65;73;67].
Definition w_ARCHAION : str := [65;82;67;72;65;73;79;78].
Definition w_ARDHACANDRA : str := [65;82;68;72;65;67;65;78;68;82;65].
Definition w_ARDHAVISARGA : str := [65;82;68;72;65;86;73;83;65;82;71;65].
Definition w_ARE : str := [65;82;69].
Definition w_AREPA : str := [65;82;69;80;65].
Definition w_ARGI : str := [65;82;71;73].
Definition w_ARGON : str := [65;82;71;79;78].
Definition w_ARGOSYNTHETON : str := [65;82;71;79;83;89;78;84;72;69;84;79;78].
Definition w_ARGOTERI : str := [65;82;71;79;84;69;82;73].
Definition w_ARIES : str := [65;82;73;69;83].
Definition w_ARISTERA : str := [65;82;73;83;84;69;82;65].
Definition w_ARKAANU : str := [65;82;75;65;65;78;85].
Definition w_ARKAB : str := [65;82;75;65;66].
Definition w_ARKTIKO : str := [65;82;75;84;73;75;79].
Definition w_ARLAUG : str := [65;82;76;65;85;71].
Definition w_ARM : str := [65;82;77].
Definition w_ARMENIAN : str := [65;82;77;69;78;73;65;78].
Definition w_ARMOUR : str := [65;82;77;79;85;82].
Definition w_ARMY : str := [65;82;77;89].
Definition w_AROUND : str := [65;82;79;85;78;68].
Definition w_AROUND_PROFILE : str := [65;82;79;85;78;68;45;80;82;79;70;73;76;69].
Definition w_AROURA : str := [65;82;79;85;82;65].
Definition w_AROUSING : str := [65;82;79;85;83;73;78;71].
Definition w_ARPEGGIATO : str := [65;82;80;69;71;71;73;65;84;79].
Definition w_ARRAY : str := [65;82;82;65;89].
Definition w_ARRIVE : str := [65;82;82;73;86;69].
Definition w_ARRIVING : str := [65;82;82;73;86;73;78;71].
Definition w_ARROW : str := [65;82;82;79;87].
Definition w_ARROW_TAIL : str := [65;82;82;79;87;45;84;65;73;76].
Definition w_ARROWHEAD : str := [65;82;82;79;87;72;69;65;68].
Definition w_ARROWHEADS : str := [65;82;82;79;87;72;69;65;68;83].
Definition w_ARROWS : str := [65;82;82;79;87;83].
Definition w_ARSENIC : str := [65;82;83;69;78;73;67].
Definition w_ARSEOS : str := [65;82;83;69;79;83].
Definition w_ARTABE : str := [65;82;84;65;66;69].
Definition w_ARTICULATED : str := [65;82;84;73;67;85;76;65;84;69;68].
Definition w_ARTIST : str := [65;82;84;73;83;84].
Definition w_ARTS : str := [65;82;84;83].
Definition w_ARUHUA : str := [65;82;85;72;85;65].
Definition w_AS : str := [65;83].
Definition w_AS_SAJDA : str := [65;83;45;83;65;74;68;65].
Definition w_ASAL2 : str := [65;83;65;76;50].
Definition w_ASAT : str := [65;83;65;84].
Definition w_ASCENDING : str := [65;83;67;69;78;68;73;78;71].
Definition w_ASCENT : str := [65;83;67;69;78;84].
Definition w_ASH : str := [65;83;72].
Definition w_ASH2 : str := [65;83;72;50].
Definition w_ASH3 : str := [65;83;72;51].
Definition w_ASH9 : str := [65;83;72;57].
Definition w_ASHES : str := [65;83;72;69;83].
Definition w_ASHGAB : str := [65;83;72;71;65;66].
Definition w_ASIA_AUSTRALIA : str := [65;83;73;65;45;65;85;83;84;82;65;76;73;65].
Definition w_ASPER : str := [65;83;80;69;82].
Definition w_ASPIRATED : str := [65;83;80;73;82;65;84;69;68].
Definition w_ASPIRATION : str := [65;83;80;73;82;65;84;73;79;78].
Definition w_ASSALLAM : str := [65;83;83;65;76;76;65;77].
Definition w_ASSERTION : str := [65;83;83;69;82;84;73;79;78].
Definition w_ASSYRIAN : str := [65;83;83;89;82;73;65;78].
Definition w_ASTERISCUS : str := [65;83;84;69;82;73;83;67;85;83].
Definition w_ASTERISK : str := [65;83;84;69;82;73;83;75].
Definition w_ASTERISKS : str := [65;83;84;69;82;73;83;75;83].
Definition w_ASTERISM : str := [65;83;84;69;82;73;83;77].
Definition w_ASTONISHED : str := [65;83;84;79;78;73;83;72;69;68].
Definition w_ASTROLOGICAL : str := [65;83;84;82;79;76;79;71;73;67;65;76].
Definition w_ASTRONOMICAL : str := [65;83;84;82;79;78;79;77;73;67;65;76].
Definition w_ASYMPTOTICALLY : str := [65;83;89;77;80;84;79;84;73;67;65;76;76;89].
Definition w_ASYURA : str := [65;83;89;85;82;65].
Definition w_ASZ : str := [65;83;90].
Definition w_AT : str := [65;84].
Definition w_ATH_THALATHA : str := [65;84;72;45;84;72;65;76;65;84;72;65].
Definition w_ATHAPASCAN : str := [65;84;72;65;80;65;83;67;65;78].
Definition w_ATHARVAVEDIC : str := [65;84;72;65;82;86;65;86;69;68;73;67].
Definition w_ATHLETIC : str := [65;84;72;76;69;84;73;67].
Definition w_ATIKRAMA : str := [65;84;73;75;82;65;77;65].
Definition w_ATIYA : str := [65;84;73;89;65].
Definition w_ATMAAU : str := [65;84;77;65;65;85].
Definition w_ATNAH : str := [65;84;78;65;72].
Definition w_ATOM : str := [65;84;79;77].
Definition w_ATT : str := [65;84;84].
Definition w_ATTACHED : str := [65;84;84;65;67;72;69;68].
Definition w_ATTAK : str := [65;84;84;65;75].
Definition w_ATTENTION : str := [65;84;84;69;78;84;73;79;78].
Definition w_ATTHACAN : str := [65;84;84;72;65;67;65;78].
Definition w_ATTIC : str := [65;84;84;73;67].
Definition w_AU : str := [65;85].
Definition w_AUBERGINE : str := [65;85;66;69;82;71;73;78;69].
Definition w_AUE : str := [65;85;69].
Definition w_AUGMENTATION : str := [65;85;71;77;69;78;84;65;84;73;79;78].
Definition w_AUGUST : str := [65;85;71;85;83;84].
Definition w_AUNN : str := [65;85;78;78].
Definition w_AURAMAZDAA : str := [65;85;82;65;77;65;90;68;65;65].
Definition w_AURAMAZDAA_2 : str := [65;85;82;65;77;65;90;68;65;65;45;50].
Definition w_AURAMAZDAAHA : str := [65;85;82;65;77;65;90;68;65;65;72;65].
Definition w_AURIPIGMENT : str := [65;85;82;73;80;73;71;77;69;78;84].
Definition w_AUSTRAL : str := [65;85;83;84;82;65;76].
Definition w_AUTOMATED : str := [65;85;84;79;77;65;84;69;68].
Definition w_AUTOMOBILE : str := [65;85;84;79;77;79;66;73;76;69].
Definition w_AUTUMN : str := [65;85;84;85;77;78].
Definition w_AUYANNA : str := [65;85;89;65;78;78;65].
Definition w_AV : str := [65;86].
Definition w_AVAGRAHA : str := [65;86;65;71;82;65;72;65].
Definition w_AVAKRAHASANYA : str := [65;86;65;75;82;65;72;65;83;65;78;89;65].
Definition w_AVERAGE : str := [65;86;69;82;65;71;69].
Definition w_AVESTAN : str := [65;86;69;83;84;65;78].
Definition w_AVOCADO : str := [65;86;79;67;65;68;79].
Definition w_AW : str := [65;87].
Definition w_AWAY : str := [65;87;65;89].
Definition w_AWE : str := [65;87;69].
Definition w_AX : str := [65;88].
Definition w_AXE : str := [65;88;69].
Definition w_AY : str := [65;89].
Definition w_AYAH : str := [65;89;65;72].
Definition w_AYANNA : str := [65;89;65;78;78;65].
Definition w_AYB : str := [65;89;66].
Definition w_AYER : str := [65;89;69;82].
Definition w_AYIN : str := [65;89;73;78].
Definition w_AYN : str := [65;89;78].
Definition w_AZ : str := [65;90].
Definition w_AZU : str := [65;90;85].
Definition w_B : str := [66].
Definition w_B001 : str := [66;48;48;49].
Definition w_B002 : str := [66;48;48;50].
Definition w_B003 : str := [66;48;48;51].
Definition w_B004 : str := [66;48;48;52].
Definition w_B005 : str := [66;48;48;53].
Definition w_B005A : str := [66;48;48;53;65].
Definition w_B006 : str := [66;48;48;54].
Definition w_B007 : str := [66;48;48;55].
Definition w_B008 : str := [66;48;48;56].
Definition w_B009 : str := [66;48;48;57].
Definition w_B010 : str := [66;48;49;48].
Definition w_B011 : str := [66;48;49;49].
Definition w_B012 : str := [66;48;49;50].
Definition w_B013 : str := [66;48;49;51].
Definition w_B014 : str := [66;48;49;52].
Definition w_B015 : str := [66;48;49;53].
Definition w_B016 : str := [66;48;49;54].
Definition w_B017 : str := [66;48;49;55].
Definition w_B018 : str := [66;48;49;56].
Definition w_B019 : str := [66;48;49;57].
Definition w_B020 : str := [66;48;50;48].
Definition w_B021 : str := [66;48;50;49].
Definition w_B022 : str := [66;48;50;50].
Definition w_B023 : str := [66;48;50;51].
Definition w_B024 : str := [66;48;50;52].
Definition w_B025 : str := [66;48;50;53].
Definition w_B026 : str := [66;48;50;54].
Definition w_B027 : str := [66;48;50;55].
Definition w_B028 : str := [66;48;50;56].
Definition w_B029 : str := [66;48;50;57].
Definition w_B030 : str := [66;48;51;48].
Definition w_B031 : str := [66;48;51;49].
Definition w_B032 : str := [66;48;51;50].
Definition w_B033 : str := [66;48;51;51].
Definition w_B034 : str := [66;48;51;52].
Definition w_B036 : str := [66;48;51;54].
Definition w_B037 : str := [66;48;51;55].
Definition w_B038 : str := [66;48;51;56].
Definition w_B039 : str := [66;48;51;57].
Definition w_B040 : str := [66;48;52;48].
Definition w_B041 : str := [66;48;52;49].
Definition w_B042 : str := [66;48;52;50].
Definition w_B043 : str := [66;48;52;51].
Definition w_B044 : str := [66;48;52;52].
Definition w_B045 : str := [66;48;52;53].
Definition w_B046 : str := [66;48;52;54].
Definition w_B047 : str := [66;48;52;55].
Definition w_B048 : str := [66;48;52;56].
Definition w_B049 : str := [66;48;52;57].
Definition w_B050 : str := [66;48;53;48].
Definition w_B051 : str := [66;48;53;49].
Definition w_B052 : str := [66;48;53;50].
Definition w_B053 : str := [66;48;53;51].
Definition w_B054 : str := [66;48;53;52].
Definition w_B055 : str := [66;48;53;53].
Definition w_B056 : str := [66;48;53;54].
Definition w_B057 : str := [66;48;53;55].
Definition w_B058 : str := [66;48;53;56].
Definition w_B059 : str := [66;48;53;57].
Definition w_B060 : str := [66;48;54;48].
Definition w_B061 : str := [66;48;54;49].
Definition w_B062 : str := [66;48;54;50].
Definition w_B063 : str := [66;48;54;51].
Definition w_B064 : str := [66;48;54;52].
Definition w_B065 : str := [66;48;54;53].
Definition w_B066 : str := [66;48;54;54].
Definition w_B067 : str := [66;48;54;55].
Definition w_B068 : str := [66;48;54;56].
Definition w_B069 : str := [66;48;54;57].
Definition w_B070 : str := [66;48;55;48].
Definition w_B071 : str := [66;48;55;49].
Definition w_B072 : str := [66;48;55;50].
Definition w_B073 : str := [66;48;55;51].
Definition w_B074 : str := [66;48;55;52].
Definition w_B075 : str := [66;48;55;53].
Definition w_B076 : str := [66;48;55;54].
Definition w_B077 : str := [66;48;55;55].
Definition w_B078 : str := [66;48;55;56].
Definition w_B079 : str := [66;48;55;57].
Definition w_B080 : str := [66;48;56;48].
Definition w_B081 : str := [66;48;56;49].
Definition w_B082 : str := [66;48;56;50].
Definition w_B083 : str := [66;48;56;51].
Definition w_B085 : str := [66;48;56;53].
Definition w_B086 : str := [66;48;56;54].
Definition w_B087 : str := [66;48;56;55].
Definition w_B089 : str := [66;48;56;57].
Definition w_B090 : str := [66;48;57;48].
Definition w_B091 : str := [66;48;57;49].
Definition w_B100 : str := [66;49;48;48].
Definition w_B102 : str := [66;49;48;50].
Definition w_B104 : str := [66;49;48;52].
Definition w_B105 : str := [66;49;48;53].
Definition w_B105F : str := [66;49;48;53;70].
Definition w_B105M : str := [66;49;48;53;77].
Definition w_B106F : str := [66;49;48;54;70].
Definition w_B106M : str := [66;49;48;54;77].
Definition w_B107F : str := [66;49;48;55;70].
Definition w_B107M : str := [66;49;48;55;77].
Definition w_B108F : str := [66;49;48;56;70].
Definition w_B108M : str := [66;49;48;56;77].
Definition w_B109F : str := [66;49;48;57;70].
Definition w_B109M : str := [66;49;48;57;77].
Definition w_B120 : str := [66;49;50;48].
Definition w_B121 : str := [66;49;50;49].
Definition w_B122 : str := [66;49;50;50].
Definition w_B123 : str := [66;49;50;51].
Definition w_B125 : str := [66;49;50;53].
Definition w_B127 : str := [66;49;50;55].
Definition w_B128 : str := [66;49;50;56].
Definition w_B130 : str := [66;49;51;48].
Definition w_B131 : str := [66;49;51;49].
Definition w_B132 : str := [66;49;51;50].
Definition w_B133 : str := [66;49;51;51].
Definition w_B135 : str := [66;49;51;53].
Definition w_B140 : str := [66;49;52;48].
Definition w_B141 : str := [66;49;52;49].
Definition w_B142 : str := [66;49;52;50].
Definition w_B145 : str := [66;49;52;53].
Definition w_B146 : str := [66;49;52;54].
Definition w_B150 : str := [66;49;53;48].
Definition w_B151 : str := [66;49;53;49].
Definition w_B152 : str := [66;49;53;50].
Definition w_B153 : str := [66;49;53;51].
Definition w_B154 : str := [66;49;53;52].
Definition w_B155 : str := [66;49;53;53].
Definition w_B156 : str := [66;49;53;54].
Definition w_B157 : str := [66;49;53;55].
Definition w_B158 : str := [66;49;53;56].
Definition w_B159 : str := [66;49;53;57].
Definition w_B160 : str := [66;49;54;48].
Definition w_B161 : str := [66;49;54;49].
Definition w_B162 : str := [66;49;54;50].
Definition w_B163 : str := [66;49;54;51].
Definition w_B164 : str := [66;49;54;52].
Definition w_B165 : str := [66;49;54;53].
Definition w_B166 : str := [66;49;54;54].
Definition w_B167 : str := [66;49;54;55].
Definition w_B168 : str := [66;49;54;56].
Definition w_B169 : str := [66;49;54;57].
Definition w_B170 : str := [66;49;55;48].
Definition w_B171 : str := [66;49;55;49].
Definition w_B172 : str := [66;49;55;50].
Definition w_B173 : str := [66;49;55;51].
Definition w_B174 : str := [66;49;55;52].
Definition w_B176 : str := [66;49;55;54].
Definition w_B177 : str := [66;49;55;55].
Definition w_B178 : str := [66;49;55;56].
Definition w_B179 : str := [66;49;55;57].
Definition w_B180 : str := [66;49;56;48].
Definition w_B181 : str := [66;49;56;49].
Definition w_B182 : str := [66;49;56;50].
Definition w_B183 : str := [66;49;56;51].
Definition w_B184 : str := [66;49;56;52].
Definition w_B185 : str := [66;49;56;53].
Definition w_B189 : str := [66;49;56;57].
Definition w_B190 : str := [66;49;57;48].
Definition w_B191 : str := [66;49;57;49].
Definition w_B200 : str := [66;50;48;48].
Definition w_B201 : str := [66;50;48;49].
Definition w_B202 : str := [66;50;48;50].
Definition w_B203 : str := [66;50;48;51].
Definition w_B204 : str := [66;50;48;52].
Definition w_B205 : str := [66;50;48;53].
Definition w_B206 : str := [66;50;48;54].
Definition w_B207 : str := [66;50;48;55].
Definition w_B208 : str := [66;50;48;56].
Definition w_B209 : str := [66;50;48;57].
Definition w_B210 : str := [66;50;49;48].
Definition w_B211 : str := [66;50;49;49].
Definition w_B212 : str := [66;50;49;50].
Definition w_B213 : str := [66;50;49;51].
Definition w_B214 : str := [66;50;49;52].
Definition w_B215 : str := [66;50;49;53].
Definition w_B216 : str := [66;50;49;54].
Definition w_B217 : str := [66;50;49;55].
Definition w_B218 : str := [66;50;49;56].
Definition w_B219 : str := [66;50;49;57].
Definition w_B220 : str := [66;50;50;48].
Definition w_B221 : str := [66;50;50;49].
Definition w_B222 : str := [66;50;50;50].
Definition w_B225 : str := [66;50;50;53].
Definition w_B226 : str := [66;50;50;54].
Definition w_B227 : str := [66;50;50;55].
Definition w_B228 : str := [66;50;50;56].
Definition w_B229 : str := [66;50;50;57].
Definition w_B230 : str := [66;50;51;48].
Definition w_B231 : str := [66;50;51;49].
Definition w_B232 : str := [66;50;51;50].
Definition w_B233 : str := [66;50;51;51].
Definition w_B234 : str := [66;50;51;52].
Definition w_B236 : str := [66;50;51;54].
Definition w_B240 : str := [66;50;52;48].
Definition w_B241 : str := [66;50;52;49].
Definition w_B242 : str := [66;50;52;50].
Definition w_B243 : str := [66;50;52;51].
Definition w_B245 : str := [66;50;52;53].
Definition w_B246 : str := [66;50;52;54].
Definition w_B247 : str := [66;50;52;55].
Definition w_B248 : str := [66;50;52;56].
Definition w_B249 : str := [66;50;52;57].
Definition w_B250 : str := [66;50;53;48].
Definition w_B251 : str := [66;50;53;49].
Definition w_B252 : str := [66;50;53;50].
Definition w_B253 : str := [66;50;53;51].
Definition w_B254 : str := [66;50;53;52].
Definition w_B255 : str := [66;50;53;53].
Definition w_B256 : str := [66;50;53;54].
Definition w_B257 : str := [66;50;53;55].
Definition w_B258 : str := [66;50;53;56].
Definition w_B259 : str := [66;50;53;57].
Definition w_B305 : str := [66;51;48;53].
Definition w_BA : str := [66;65].
Definition w_BA_2 : str := [66;65;45;50].
Definition w_BAA : str := [66;65;65].
Definition w_BAARERU : str := [66;65;65;82;69;82;85].
Definition w_BABY : str := [66;65;66;89].
Definition w_BACK : str := [66;65;67;75].
Definition w_BACK_TILTED : str := [66;65;67;75;45;84;73;76;84;69;68].
Definition w_BACKHAND : str := [66;65;67;75;72;65;78;68].
Definition w_BACKSLANTED : str := [66;65;67;75;83;76;65;78;84;69;68].
Definition w_BACKSLASH : str := [66;65;67;75;83;76;65;83;72].
Definition w_BACKSPACE : str := [66;65;67;75;83;80;65;67;69].
Definition w_BACON : str := [66;65;67;79;78].
Definition w_BACTRIAN : str := [66;65;67;84;82;73;65;78].
Definition w_BAD : str := [66;65;68].
Definition w_BADGE : str := [66;65;68;71;69].
Definition w_BADGER : str := [66;65;68;71;69;82].
Definition w_BADMINTON : str := [66;65;68;77;73;78;84;79;78].
Definition w_BAG : str := [66;65;71].
Definition w_BAG3 : str := [66;65;71;51].
Definition w_BAGA : str := [66;65;71;65].
Definition w_BAGGAGE : str := [66;65;71;71;65;71;69].
Definition w_BAGS : str := [66;65;71;83].
Definition w_BAGUETTE : str := [66;65;71;85;69;84;84;69].
Definition w_BAH : str := [66;65;72].
Definition w_BAHAR2 : str := [66;65;72;65;82;50].
Definition w_BAHIRGOMUKHA : str := [66;65;72;73;82;71;79;77;85;75;72;65].
Definition w_BAHT : str := [66;65;72;84].
Definition w_BAIMAI : str := [66;65;73;77;65;73].
Definition w_BAIRKAN : str := [66;65;73;82;75;65;78].
Definition w_BAL : str := [66;65;76].
Definition w_BALAG : str := [66;65;76;65;71].
Definition w_BALINESE : str := [66;65;76;73;78;69;83;69].
Definition w_BALL : str := [66;65;76;76].
Definition w_BALLOON : str := [66;65;76;76;79;79;78].
Definition w_BALLOON_SPOKED : str := [66;65;76;76;79;79;78;45;83;80;79;75;69;68].
Definition w_BALLOT : str := [66;65;76;76;79;84].
Definition w_BALLPOINT : str := [66;65;76;76;80;79;73;78;84].
Definition w_BALUDA : str := [66;65;76;85;68;65].
Definition w_BAMBOO : str := [66;65;77;66;79;79].
Definition w_BAMBOOS : str := [66;65;77;66;79;79;83].
Definition w_BAMUM : str := [66;65;77;85;77].
Definition w_BAN : str := [66;65;78].
Definition w_BAN2 : str := [66;65;78;50].
Definition w_BANANA : str := [66;65;78;65;78;65].
Definition w_BAND : str := [66;65;78;68].
Definition w_BANG : str := [66;65;78;71].
Definition w_BANK : str := [66;65;78;75].
Definition w_BANKNOTE : str := [66;65;78;75;78;79;84;69].
Definition w_BANTOC : str := [66;65;78;84;79;67].
Definition w_BAP : str := [66;65;80].
Definition w_BAR : str := [66;65;82].
Definition w_BARA2 : str := [66;65;82;65;50].
Definition w_BARB : str := [66;65;82;66].
Definition w_BARBER : str := [66;65;82;66;69;82].
Definition w_BARIYOOSAN : str := [66;65;82;73;89;79;79;83;65;78].
Definition w_BARLEY : str := [66;65;82;76;69;89].
Definition w_BARLINE : str := [66;65;82;76;73;78;69].
Definition w_BARRED : str := [66;65;82;82;69;68].
Definition w_BARREE : str := [66;65;82;82;69;69].
Definition w_BARREKH : str := [66;65;82;82;69;75;72].
Definition w_BARRIER : str := [66;65;82;82;73;69;82].
Definition w_BARS : str := [66;65;82;83].
Definition w_BASE : str := [66;65;83;69].
Definition w_BASEBALL : str := [66;65;83;69;66;65;76;76].
Definition w_BASELINE : str := [66;65;83;69;76;73;78;69].
Definition w_BASH : str := [66;65;83;72].
Definition w_BASHKIR : str := [66;65;83;72;75;73;82].
Definition w_BASKETBALL : str := [66;65;83;75;69;84;66;65;76;76].
Definition w_BASSA : str := [66;65;83;83;65].
Definition w_BAT : str := [66;65;84].
Definition w_BATAK : str := [66;65;84;65;75].
Definition w_BATH : str := [66;65;84;72].
Definition w_BATHAMASAT : str := [66;65;84;72;65;77;65;83;65;84].
Definition w_BATHTUB : str := [66;65;84;72;84;85;66].
Definition w_BATTERY : str := [66;65;84;84;69;82;89].
Definition w_BAU : str := [66;65;85].
Definition w_BAX : str := [66;65;88].
Definition w_BAYANNA : str := [66;65;89;65;78;78;65].
Definition w_BB : str := [66;66].
Definition w_BBA : str := [66;66;65].
Definition w_BBAA : str := [66;66;65;65].
Definition w_BBAP : str := [66;66;65;80].
Definition w_BBAT : str := [66;66;65;84].
Definition w_BBAX : str := [66;66;65;88].
Definition w_BBE : str := [66;66;69].
Definition w_BBEE : str := [66;66;69;69].
Definition w_BBEP : str := [66;66;69;80].
Definition w_BBEX : str := [66;66;69;88].
Definition w_BBI : str := [66;66;73].
Definition w_BBIE : str := [66;66;73;69].
Definition w_BBIEP : str := [66;66;73;69;80].
Definition w_BBIET : str := [66;66;73;69;84].
Definition w_BBIEX : str := [66;66;73;69;88].
Definition w_BBIP : str := [66;66;73;80].
Definition w_BBIT : str := [66;66;73;84].
Definition w_BBIX : str := [66;66;73;88].
Definition w_BBO : str := [66;66;79].
Definition w_BBOP : str := [66;66;79;80].
Definition w_BBOT : str := [66;66;79;84].
Definition w_BBOX : str := [66;66;79;88].
Definition w_BBU : str := [66;66;85].
Definition w_BBUO : str := [66;66;85;79].
Definition w_BBUOP : str := [66;66;85;79;80].
Definition w_BBUOX : str := [66;66;85;79;88].
Definition w_BBUP : str := [66;66;85;80].
Definition w_BBUR : str := [66;66;85;82].
Definition w_BBURX : str := [66;66;85;82;88].
Definition w_BBUT : str := [66;66;85;84].
Definition w_BBUX : str := [66;66;85;88].
Definition w_BBY : str := [66;66;89].
Definition w_BBYP : str := [66;66;89;80].
Definition w_BBYT : str := [66;66;89;84].
Definition w_BBYX : str := [66;66;89;88].
Definition w_BCAD : str := [66;67;65;68].
Definition w_BE : str := [66;69].
Definition w_BEACH : str := [66;69;65;67;72].
Definition w_BEADS : str := [66;69;65;68;83].
Definition w_BEAM : str := [66;69;65;77].
Definition w_BEAMED : str := [66;69;65;77;69;68].
Definition w_BEAN : str := [66;69;65;78].
Definition w_BEAR : str := [66;69;65;82].
Definition w_BEARDED : str := [66;69;65;82;68;69;68].
Definition w_BEAT : str := [66;69;65;84].
Definition w_BEATING : str := [66;69;65;84;73;78;71].
Definition w_BEAVER : str := [66;69;65;86;69;82].
Definition w_BECAUSE : str := [66;69;67;65;85;83;69].
Definition w_BED : str := [66;69;68].
Definition w_BEE : str := [66;69;69].
Definition w_BEEH : str := [66;69;69;72].
Definition w_BEEHIVE : str := [66;69;69;72;73;86;69].
Definition w_BEER : str := [66;69;69;82].
Definition w_BEETA : str := [66;69;69;84;65].
Definition w_BEETLE : str := [66;69;69;84;76;69].
Definition w_BEFORE : str := [66;69;70;79;82;69].
Definition w_BEGIN : str := [66;69;71;73;78].
Definition w_BEGINNER : str := [66;69;71;73;78;78;69;82].
Definition w_BEGINNING : str := [66;69;71;73;78;78;73;78;71].
Definition w_BEH : str := [66;69;72].
Definition w_BEHEH : str := [66;69;72;69;72].
Definition w_BEHIND : str := [66;69;72;73;78;68].
Definition w_BEI : str := [66;69;73].
Definition w_BEITH : str := [66;69;73;84;72].
Definition w_BELGTHOR : str := [66;69;76;71;84;72;79;82].
Definition w_BELL : str := [66;69;76;76].
Definition w_BELLHOP : str := [66;69;76;76;72;79;80].
Definition w_BELOW : str := [66;69;76;79;87].
Definition w_BELT : str := [66;69;76;84].
Definition w_BEN : str := [66;69;78].
Definition w_BEND : str := [66;69;78;68].
Definition w_BENDE : str := [66;69;78;68;69].
Definition w_BENGALI : str := [66;69;78;71;65;76;73].
Definition w_BENT : str := [66;69;78;84].
Definition w_BENTO : str := [66;69;78;84;79].
Definition w_BENZENE : str := [66;69;78;90;69;78;69].
Definition w_BEORC : str := [66;69;79;82;67].
Definition w_BEP : str := [66;69;80].
Definition w_BERBER : str := [66;69;82;66;69;82].
Definition w_BERKANAN : str := [66;69;82;75;65;78;65;78].
Definition w_BESIDE : str := [66;69;83;73;68;69].
Definition w_BET : str := [66;69;84].
Definition w_BETA : str := [66;69;84;65].
Definition w_BETH : str := [66;69;84;72].
Definition w_BETWEEN : str := [66;69;84;87;69;69;78].
Definition w_BEVERAGE : str := [66;69;86;69;82;65;71;69].
Definition w_BEX : str := [66;69;88].
Definition w_BEYYAL : str := [66;69;89;89;65;76].
Definition w_BH : str := [66;72].
Definition w_BHA : str := [66;72;65].
Definition w_BHAA : str := [66;72;65;65].
Definition w_BHAIKSUKI : str := [66;72;65;73;75;83;85;75;73].
Definition w_BHAM : str := [66;72;65;77].
Definition w_BHATTIPROLU : str := [66;72;65;84;84;73;80;82;79;76;85].
Definition w_BHE : str := [66;72;69].
Definition w_BHEE : str := [66;72;69;69].
Definition w_BHETH : str := [66;72;69;84;72].
Definition w_BHI : str := [66;72;73].
Definition w_BHO : str := [66;72;79].
Definition w_BHOO : str := [66;72;79;79].
Definition w_BHU : str := [66;72;85].
Definition w_BI : str := [66;73].
Definition w_BIB : str := [66;73;66].
Definition w_BIBLE_CREE : str := [66;73;66;76;69;45;67;82;69;69].
Definition w_BICEPS : str := [66;73;67;69;80;83].
Definition w_BICYCLE : str := [66;73;67;89;67;76;69].
Definition w_BICYCLES : str := [66;73;67;89;67;76;69;83].
Definition w_BICYCLIST : str := [66;73;67;89;67;76;73;83;84].
Definition w_BIDENTAL : str := [66;73;68;69;78;84;65;76].
Definition w_BIE : str := [66;73;69].
Definition w_BIEP : str := [66;73;69;80].
Definition w_BIET : str := [66;73;69;84].
Definition w_BIEX : str := [66;73;69;88].
Definition w_BIG : str := [66;73;71].
Definition w_BIKINI : str := [66;73;75;73;78;73].
Definition w_BILABIAL : str := [66;73;76;65;66;73;65;76].
Definition w_BILLED : str := [66;73;76;76;69;68].
Definition w_BILLIARDS : str := [66;73;76;76;73;65;82;68;83].
Definition w_BILLIONS : str := [66;73;76;76;73;79;78;83].
Definition w_BINARY : str := [66;73;78;65;82;89].
Definition w_BINDI : str := [66;73;78;68;73].
Definition w_BINDING : str := [66;73;78;68;73;78;71].
Definition w_BINDU : str := [66;73;78;68;85].
Definition w_BINOCULAR : str := [66;73;78;79;67;85;76;65;82].
Definition w_BIOHAZARD : str := [66;73;79;72;65;90;65;82;68].
Definition w_BIP : str := [66;73;80].
Definition w_BIRD : str := [66;73;82;68].
Definition w_BIRGA : str := [66;73;82;71;65].
Definition w_BIRTHDAY : str := [66;73;82;84;72;68;65;89].
Definition w_BIRU : str := [66;73;82;85].
Definition w_BISAH : str := [66;73;83;65;72].
Definition w_BISECTING : str := [66;73;83;69;67;84;73;78;71].
Definition w_BISHOP : str := [66;73;83;72;79;80].
Definition w_BISMILLAH : str := [66;73;83;77;73;76;76;65;72].
Definition w_BISMUTH : str := [66;73;83;77;85;84;72].
Definition w_BIT : str := [66;73;84].
Definition w_BITCOIN : str := [66;73;84;67;79;73;78].
Definition w_BITE : str := [66;73;84;69].
Definition w_BITING : str := [66;73;84;73;78;71].
Definition w_BITTER : str := [66;73;84;84;69;82].
Definition w_BIX : str := [66;73;88].
Definition w_BJARKAN : str := [66;74;65;82;75;65;78].
Definition w_BKA_ : str := [66;75;65;45].
Definition w_BLA : str := [66;76;65].
Definition w_BLACK : str := [66;76;65;67;75].
Definition w_BLACK_FEATHERED : str := [66;76;65;67;75;45;70;69;65;84;72;69;82;69;68].
Definition w_BLACK_LETTER : str := [66;76;65;67;75;45;76;69;84;84;69;82].
Definition w_BLACKFOOT : str := [66;76;65;67;75;70;79;79;84].
Definition w_BLACKLETTER : str := [66;76;65;67;75;76;69;84;84;69;82].
Definition w_BLADE : str := [66;76;65;68;69].
Definition w_BLANK : str := [66;76;65;78;75].
Definition w_BLENDED : str := [66;76;69;78;68;69;68].
Definition w_BLINK : str := [66;76;73;78;75].
Definition w_BLOCK : str := [66;76;79;67;75].
Definition w_BLOND : str := [66;76;79;78;68].
Definition w_BLOOD : str := [66;76;79;79;68].
Definition w_BLOSSOM : str := [66;76;79;83;83;79;77].
Definition w_BLOW : str := [66;76;79;87].
Definition w_BLOWFISH : str := [66;76;79;87;70;73;83;72].
Definition w_BLOWING : str := [66;76;79;87;73;78;71].
Definition w_BLUE : str := [66;76;85;69].
Definition w_BO : str := [66;79].
Definition w_BOA : str := [66;79;65].
Definition w_BOAR : str := [66;79;65;82].
Definition w_BOARD : str := [66;79;65;82;68].
Definition w_BOAT : str := [66;79;65;84].
Definition w_BODY : str := [66;79;68;89].
Definition w_BOHAIRIC : str := [66;79;72;65;73;82;73;67].
Definition w_BOLD : str := [66;79;76;68].
Definition w_BOLT : str := [66;79;76;84].
Definition w_BOMB : str := [66;79;77;66].
Definition w_BONE : str := [66;79;78;69].
Definition w_BOO : str := [66;79;79].
Definition w_BOOK : str := [66;79;79;75].
Definition w_BOOKMARK : str := [66;79;79;75;77;65;82;75].
Definition w_BOOKS : str := [66;79;79;75;83].
Definition w_BOOMERANG : str := [66;79;79;77;69;82;65;78;71].
Definition w_BOOT : str := [66;79;79;84].
Definition w_BOOTS : str := [66;79;79;84;83].
Definition w_BOP : str := [66;79;80].
Definition w_BOPOMOFO : str := [66;79;80;79;77;79;70;79].
Definition w_BORAX : str := [66;79;82;65;88].
Definition w_BORAX_2 : str := [66;79;82;65;88;45;50].
Definition w_BORAX_3 : str := [66;79;82;65;88;45;51].
Definition w_BORUTO : str := [66;79;82;85;84;79].
Definition w_BOT : str := [66;79;84].
Definition w_BOTH : str := [66;79;84;72].
Definition w_BOTTLE : str := [66;79;84;84;76;69].
Definition w_BOTTOM : str := [66;79;84;84;79;77].
Definition w_BOTTOM_LIGHTED : str := [66;79;84;84;79;77;45;76;73;71;72;84;69;68].
Definition w_BOTTOM_SHADED : str := [66;79;84;84;79;77;45;83;72;65;68;69;68].
Definition w_BOUNDARY : str := [66;79;85;78;68;65;82;89].
Definition w_BOUQUET : str := [66;79;85;81;85;69;84].
Definition w_BOW : str := [66;79;87].
Definition w_BOWING : str := [66;79;87;73;78;71].
Definition w_BOWL : str := [66;79;87;76].
Definition w_BOWLING : str := [66;79;87;76;73;78;71].
Definition w_BOWTIE : str := [66;79;87;84;73;69].
Definition w_BOX : str := [66;79;88].
Definition w_BOXING : str := [66;79;88;73;78;71].
Definition w_BOY : str := [66;79;89].
Definition w_BOYS : str := [66;79;89;83].
Definition w_BQ : str := [66;81].
Definition w_BRA : str := [66;82;65].
Definition w_BRACE : str := [66;82;65;67;69].
Definition w_BRACKET : str := [66;82;65;67;75;69;84].
Definition w_BRACKETED : str := [66;82;65;67;75;69;84;69;68].
Definition w_BRAHMI : str := [66;82;65;72;77;73].
Definition w_BRAILLE : str := [66;82;65;73;76;76;69].
Definition w_BRAIN : str := [66;82;65;73;78].
Definition w_BRAKCET : str := [66;82;65;75;67;69;84].
Definition w_BRANCH : str := [66;82;65;78;67;72].
Definition w_BRANCHES : str := [66;82;65;78;67;72;69;83].
Definition w_BRANCHING : str := [66;82;65;78;67;72;73;78;71].
Definition w_BRDA : str := [66;82;68;65].
Definition w_BREAD : str := [66;82;69;65;68].
Definition w_BREAKTHROUGH : str := [66;82;69;65;75;84;72;82;79;85;71;72].
Definition w_BREAST_FEEDING : str := [66;82;69;65;83;84;45;70;69;69;68;73;78;71].
Definition w_BREATH : str := [66;82;69;65;84;72].
Definition w_BREVE : str := [66;82;69;86;69].
Definition w_BREVE_MACRON : str := [66;82;69;86;69;45;77;65;67;82;79;78].
Definition w_BREVIS : str := [66;82;69;86;73;83].
Definition w_BRICK : str := [66;82;73;67;75].
Definition w_BRIDE : str := [66;82;73;68;69].
Definition w_BRIDGE : str := [66;82;73;68;71;69].
Definition w_BRIEFCASE : str := [66;82;73;69;70;67;65;83;69].
Definition w_BRIGHTNESS : str := [66;82;73;71;72;84;78;69;83;83].
Definition w_BRISTLE : str := [66;82;73;83;84;76;69].
Definition w_BROAD : str := [66;82;79;65;68].
Definition w_BROCCOLI : str := [66;82;79;67;67;79;76;73].
Definition w_BROKEN : str := [66;82;79;75;69;78].
Definition w_BRONZE : str := [66;82;79;78;90;69].
Definition w_BRUSH : str := [66;82;85;83;72].
Definition w_BSDUS : str := [66;83;68;85;83].
Definition w_BSKA_ : str := [66;83;75;65;45].
Definition w_BSKUR : str := [66;83;75;85;82].
Definition w_BSTAR : str := [66;83;84;65;82].
Definition w_BU : str := [66;85].
Definition w_BUBBLE : str := [66;85;66;66;76;69].
Definition w_BUBBLES : str := [66;85;66;66;76;69;83].
Definition w_BUCKLE : str := [66;85;67;75;76;69].
Definition w_BUD : str := [66;85;68].
Definition w_BUFFALO : str := [66;85;70;70;65;76;79].
Definition w_BUG : str := [66;85;71].
Definition w_BUGINESE : str := [66;85;71;73;78;69;83;69].
Definition w_BUHID : str := [66;85;72;73;68].
Definition w_BUILDING : str := [66;85;73;76;68;73;78;71].
Definition w_BUILDINGS : str := [66;85;73;76;68;73;78;71;83].
Definition w_BUKY : str := [66;85;75;89].
Definition w_BULB : str := [66;85;76;66].
Definition w_BULL : str := [66;85;76;76].
Definition w_BULLET : str := [66;85;76;76;69;84].
Definition w_BULLHORN : str := [66;85;76;76;72;79;82;78].
Definition w_BULLS : str := [66;85;76;76;83].
Definition w_BULLSEYE : str := [66;85;76;76;83;69;89;69].
Definition w_BULUG : str := [66;85;76;85;71].
Definition w_BUMPY : str := [66;85;77;80;89].
Definition w_BUNG : str := [66;85;78;71].
Definition w_BUNNY : str := [66;85;78;78;89].
Definition w_BUO : str := [66;85;79].
Definition w_BUON : str := [66;85;79;78].
Definition w_BUOP : str := [66;85;79;80].
Definition w_BUOX : str := [66;85;79;88].
Definition w_BUP : str := [66;85;80].
Definition w_BUR : str := [66;85;82].
Definition w_BUR2 : str := [66;85;82;50].
Definition w_BURRITO : str := [66;85;82;82;73;84;79].
Definition w_BURU : str := [66;85;82;85].
Definition w_BURX : str := [66;85;82;88].
Definition w_BUS : str := [66;85;83].
Definition w_BUSINESS : str := [66;85;83;73;78;69;83;83].
Definition w_BUSSYERU : str := [66;85;83;83;89;69;82;85].
Definition w_BUST : str := [66;85;83;84].
Definition w_BUSTS : str := [66;85;83;84;83].
Definition w_BUT : str := [66;85;84].
Definition w_BUTTERFLY : str := [66;85;84;84;69;82;70;76;89].
Definition w_BUTTON : str := [66;85;84;84;79;78].
Definition w_BUUMISH : str := [66;85;85;77;73;83;72].
Definition w_BUX : str := [66;85;88].
Definition w_BWA : str := [66;87;65].
Definition w_BWE : str := [66;87;69].
Definition w_BWEE : str := [66;87;69;69].
Definition w_BWI : str := [66;87;73].
Definition w_BXG : str := [66;88;71].
Definition w_BY : str := [66;89].
Definition w_BYELORUSSIAN_UKRAINIAN : str := [66;89;69;76;79;82;85;83;83;73;65;78;45;85;75;82;65;73;78;73;65;78].
Definition w_BYP : str := [66;89;80].
Definition w_BYR : str := [66;89;82].
Definition w_BYRX : str := [66;89;82;88].
Definition w_BYT : str := [66;89;84].
Definition w_BYX : str := [66;89;88].
Definition w_BYZANTINE : str := [66;89;90;65;78;84;73;78;69].
Definition w_BZHI : str := [66;90;72;73].
Definition w_BZUNG : str := [66;90;85;78;71].
Definition w_C : str := [67].
Definition w_C_18 : str := [67;45;49;56].
Definition w_C_39 : str := [67;45;51;57].
Definition w_C_SIMPLIFIED : str := [67;45;83;73;77;80;76;73;70;73;69;68].
Definition w_C001 : str := [67;48;48;49].
Definition w_C002 : str := [67;48;48;50].
Definition w_C002A : str := [67;48;48;50;65].
Definition w_C002B : str := [67;48;48;50;66].
Definition w_C002C : str := [67;48;48;50;67].
Definition w_C003 : str := [67;48;48;51].
Definition w_C004 : str := [67;48;48;52].
Definition w_C005 : str := [67;48;48;53].
Definition w_C006 : str := [67;48;48;54].
Definition w_C007 : str := [67;48;48;55].
Definition w_C008 : str := [67;48;48;56].
Definition w_C009 : str := [67;48;48;57].
Definition w_C010 : str := [67;48;49;48].
Definition w_C010A : str := [67;48;49;48;65].
Definition w_C011 : str := [67;48;49;49].
Definition w_C012 : str := [67;48;49;50].
Definition w_C013 : str := [67;48;49;51].
Definition w_C014 : str := [67;48;49;52].
Definition w_C015 : str := [67;48;49;53].
Definition w_C016 : str := [67;48;49;54].
Definition w_C017 : str := [67;48;49;55].
Definition w_C018 : str := [67;48;49;56].
Definition w_C019 : str := [67;48;49;57].
Definition w_C020 : str := [67;48;50;48].
Definition w_C021 : str := [67;48;50;49].
Definition w_C022 : str := [67;48;50;50].
Definition w_C023 : str := [67;48;50;51].
Definition w_C024 : str := [67;48;50;52].
Definition w_CA : str := [67;65].
Definition w_CAA : str := [67;65;65].
Definition w_CAAI : str := [67;65;65;73].
Definition w_CAANG : str := [67;65;65;78;71].
Definition w_CABBAGE_TREE : str := [67;65;66;66;65;71;69;45;84;82;69;69].
Definition w_CABINET : str := [67;65;66;73;78;69;84].
Definition w_CABLEWAY : str := [67;65;66;76;69;87;65;89].
Definition w_CACTUS : str := [67;65;67;84;85;83].
Definition w_CADA : str := [67;65;68;65].
Definition w_CADUCEUS : str := [67;65;68;85;67;69;85;83].
Definition w_CAESURA : str := [67;65;69;83;85;82;65].
Definition w_CAH : str := [67;65;72].
Definition w_CAI : str := [67;65;73].
Definition w_CAKE : str := [67;65;75;69].
Definition w_CAKRA : str := [67;65;75;82;65].
Definition w_CAL : str := [67;65;76].
Definition w_CALC : str := [67;65;76;67].
Definition w_CALCULATOR : str := [67;65;76;67;85;76;65;84;79;82].
Definition w_CALENDAR : str := [67;65;76;69;78;68;65;82].
Definition w_CALL : str := [67;65;76;76].
Definition w_CALX : str := [67;65;76;88].
Definition w_CALYA : str := [67;65;76;89;65].
Definition w_CAMEL : str := [67;65;77;69;76].
Definition w_CAMERA : str := [67;65;77;69;82;65].
Definition w_CAMNUC : str := [67;65;77;78;85;67].
Definition w_CAMPING : str := [67;65;77;80;73;78;71].
Definition w_CAN : str := [67;65;78].
Definition w_CANADIAN : str := [67;65;78;65;68;73;65;78].
Definition w_CANCEL : str := [67;65;78;67;69;76].
Definition w_CANCELLATION : str := [67;65;78;67;69;76;76;65;84;73;79;78].
Definition w_CANCER : str := [67;65;78;67;69;82].
Definition w_CANDLE : str := [67;65;78;68;76;69].
Definition w_CANDRA : str := [67;65;78;68;82;65].
Definition w_CANDRABINDU : str := [67;65;78;68;82;65;66;73;78;68;85].
Definition w_CANDY : str := [67;65;78;68;89].
Definition w_CANG : str := [67;65;78;71].
Definition w_CANNED : str := [67;65;78;78;69;68].
Definition w_CANOE : str := [67;65;78;79;69].
Definition w_CANTILLATION : str := [67;65;78;84;73;76;76;65;84;73;79;78].
Definition w_CAP : str := [67;65;80].
Definition w_CAPITAL : str := [67;65;80;73;84;65;76].
Definition w_CAPITULUM : str := [67;65;80;73;84;85;76;85;77].
Definition w_CAPO : str := [67;65;80;79].
Definition w_CAPPED : str := [67;65;80;80;69;68].
Definition w_CAPRICORN : str := [67;65;80;82;73;67;79;82;78].
Definition w_CAPTIVE : str := [67;65;80;84;73;86;69].
Definition w_CAPUT : str := [67;65;80;85;84].
Definition w_CAR : str := [67;65;82].
Definition w_CARD : str := [67;65;82;68].
Definition w_CARDS : str := [67;65;82;68;83].
Definition w_CARE : str := [67;65;82;69].
Definition w_CARET : str := [67;65;82;69;84].
Definition w_CARIAN : str := [67;65;82;73;65;78].
Definition w_CARIK : str := [67;65;82;73;75].
Definition w_CARON : str := [67;65;82;79;78].
Definition w_CAROUSEL : str := [67;65;82;79;85;83;69;76].
Definition w_CARP : str := [67;65;82;80].
Definition w_CARPENTRY : str := [67;65;82;80;69;78;84;82;89].
Definition w_CARRIAGE : str := [67;65;82;82;73;65;71;69].
Definition w_CARRIER : str := [67;65;82;82;73;69;82].
Definition w_CARROT : str := [67;65;82;82;79;84].
Definition w_CARS : str := [67;65;82;83].
Definition w_CART : str := [67;65;82;84].
Definition w_CARTRIDGE : str := [67;65;82;84;82;73;68;71;69].
Definition w_CARTWHEEL : str := [67;65;82;84;87;72;69;69;76].
Definition w_CARYSTIAN : str := [67;65;82;89;83;84;73;65;78].
Definition w_CASKET : str := [67;65;83;75;69;84].
Definition w_CASTLE : str := [67;65;83;84;76;69].
Definition w_CAT : str := [67;65;84].
Definition w_CATAWA : str := [67;65;84;65;87;65].
Definition w_CAU : str := [67;65;85].
Definition w_CAUCASIAN : str := [67;65;85;67;65;83;73;65;78].
Definition w_CAUDA : str := [67;65;85;68;65].
Definition w_CAULDRON : str := [67;65;85;76;68;82;79;78].
Definition w_CAUTION : str := [67;65;85;84;73;79;78].
Definition w_CAVE : str := [67;65;86;69].
Definition w_CAX : str := [67;65;88].
Definition w_CAYANNA : str := [67;65;89;65;78;78;65].
Definition w_CAYN : str := [67;65;89;78].
Definition w_CC : str := [67;67].
Definition w_CCA : str := [67;67;65].
Definition w_CCAA : str := [67;67;65;65].
Definition w_CCE : str := [67;67;69].
Definition w_CCEE : str := [67;67;69;69].
Definition w_CCHA : str := [67;67;72;65].
Definition w_CCHAA : str := [67;67;72;65;65].
Definition w_CCHE : str := [67;67;72;69].
Definition w_CCHEE : str := [67;67;72;69;69].
Definition w_CCHHA : str := [67;67;72;72;65].
Definition w_CCHHAA : str := [67;67;72;72;65;65].
Definition w_CCHHE : str := [67;67;72;72;69].
Definition w_CCHHEE : str := [67;67;72;72;69;69].
Definition w_CCHHI : str := [67;67;72;72;73].
Definition w_CCHHO : str := [67;67;72;72;79].
Definition w_CCHHU : str := [67;67;72;72;85].
Definition w_CCHI : str := [67;67;72;73].
Definition w_CCHO : str := [67;67;72;79].
Definition w_CCHU : str := [67;67;72;85].
Definition w_CCI : str := [67;67;73].
Definition w_CCO : str := [67;67;79].
Definition w_CCU : str := [67;67;85].
Definition w_CD : str := [67;68].
Definition w_CE : str := [67;69].
Definition w_CEALC : str := [67;69;65;76;67].
Definition w_CECAK : str := [67;69;67;65;75].
Definition w_CECEK : str := [67;69;67;69;75].
Definition w_CEDI : str := [67;69;68;73].
Definition w_CEDILLA : str := [67;69;68;73;76;76;65].
Definition w_CEE : str := [67;69;69].
Definition w_CEEB : str := [67;69;69;66].
Definition w_CEEV : str := [67;69;69;86].
Definition w_CEILING : str := [67;69;73;76;73;78;71].
Definition w_CEIRT : str := [67;69;73;82;84].
Definition w_CELEBRATION : str := [67;69;76;69;66;82;65;84;73;79;78].
Definition w_CELSIUS : str := [67;69;76;83;73;85;83].
Definition w_CELTIC : str := [67;69;76;84;73;67].
Definition w_CEN : str := [67;69;78].
Definition w_CENT : str := [67;69;78;84].
Definition w_CENTRALIZATION : str := [67;69;78;84;82;65;76;73;90;65;84;73;79;78].
Definition w_CENTRE : str := [67;69;78;84;82;69].
Definition w_CENTRED : str := [67;69;78;84;82;69;68].
Definition w_CENTRELINE : str := [67;69;78;84;82;69;76;73;78;69].
Definition w_CENTURIAL : str := [67;69;78;84;85;82;73;65;76].
Definition w_CEONGCHIEUMCHIEUCH : str := [67;69;79;78;71;67;72;73;69;85;77;67;72;73;69;85;67;72].
Definition w_CEONGCHIEUMCIEUC : str := [67;69;79;78;71;67;72;73;69;85;77;67;73;69;85;67].
Definition w_CEONGCHIEUMSIOS : str := [67;69;79;78;71;67;72;73;69;85;77;83;73;79;83].
Definition w_CEONGCHIEUMSSANGCIEUC : str := [67;69;79;78;71;67;72;73;69;85;77;83;83;65;78;71;67;73;69;85;67].
Definition w_CEONGCHIEUMSSANGSIOS : str := [67;69;79;78;71;67;72;73;69;85;77;83;83;65;78;71;83;73;79;83].
Definition w_CEP : str := [67;69;80].
Definition w_CER_WA : str := [67;69;82;45;87;65].
Definition w_CEREK : str := [67;69;82;69;75].
Definition w_CEREMONY : str := [67;69;82;69;77;79;78;89].
Definition w_CERES : str := [67;69;82;69;83].
Definition w_CEX : str := [67;69;88].
Definition w_CH : str := [67;72].
Definition w_CHA : str := [67;72;65].
Definition w_CHAA : str := [67;72;65;65].
Definition w_CHAD : str := [67;72;65;68].
Definition w_CHADA : str := [67;72;65;68;65].
Definition w_CHAINS : str := [67;72;65;73;78;83].
Definition w_CHAIR : str := [67;72;65;73;82].
Definition w_CHAKMA : str := [67;72;65;75;77;65].
Definition w_CHAM : str := [67;72;65;77].
Definition w_CHAMILI : str := [67;72;65;77;73;76;73].
Definition w_CHAMILON : str := [67;72;65;77;73;76;79;78].
Definition w_CHAMKO : str := [67;72;65;77;75;79].
Definition w_CHAN : str := [67;72;65;78].
Definition w_CHANG : str := [67;72;65;78;71].
Definition w_CHANGE : str := [67;72;65;78;71;69].
Definition w_CHAP : str := [67;72;65;80].
Definition w_CHAPTER : str := [67;72;65;80;84;69;82].
Definition w_CHAR : str := [67;72;65;82].
Definition w_CHARACTER : str := [67;72;65;82;65;67;84;69;82].
Definition w_CHARACTER_1B170 : str := [67;72;65;82;65;67;84;69;82;45;49;66;49;55;48].
Definition w_CHARACTER_1B171 : str := [67;72;65;82;65;67;84;69;82;45;49;66;49;55;49].
Definition w_CHARACTER_1B172 : str := [67;72;65;82;65;67;84;69;82;45;49;66;49;55;50].
Definition w_CHARACTER_1B173 : str := [67;72;65;82;65;67;84;69;82;45;49;66;49;55;51].
Definition w_CHARACTER_1B174 : str := [67;72;65;82;65;67;84;69;82;45;49;66;49;55;52].
Definition w_CHARACTER_1B175 : str := [67;72;65;82;65;67;84;69;82;45;49;66;49;55;53].
Definition w_CHARACTER_1B176 : str := [67;72;65;82;65;67;84;69;82;45;49;66;49;55;54].
Definition w_CHARACTER_1B177 : str := [67;72;65;82;65;67;84;69;82;45;49;66;49;55;55].
Definition w_CHARACTER_1B178 : str := [67;72;65;82;65;67;84;69;82;45;49;66;49;55;56].
Definition w_CHARACTER_1B179 : str := [67;72;65;82;65;67;84;69;82;45;49;66;49;55;57].
Definition w_CHARACTER_1B17A : str := [67;72;65;82;65;67;84;69;82;45;49;66;49;55;65].
Definition w_CHARACTER_1B17B : str := [67;72;65;82;65;67;84;69;82;45;49;66;49;55;66].
Definition w_CHARACTER_1B17C : str := [67;72;65;82;65;67;84;69;82;45;49;66;49;55;67].
Definition w_CHARACTER_1B17D : str := [67;72;65;82;65;67;84;69;82;45;49;66;49;55;68].
Definition w_CHARACTER_1B17E : str := [67;72;65;82;65;67;84;69;82;45;49;66;49;55;69].
Definition w_CHARACTER_1B17F : str := [67;72;65;82;65;67;84;69;82;45;49;66;49;55;70].
Definition w_CHARACTER_1B180 : str := [67;72;65;82;65;67;84;69;82;45;49;66;49;56;48].
Definition w_CHARACTER_1B181 : str := [67;72;65;82;65;67;84;69;82;45;49;66;49;56;49].
Definition w_CHARACTER_1B182 : str := [67;72;65;82;65;67;84;69;82;45;49;66;49;56;50].
Definition w_CHARACTER_1B183 : str := [67;72;65;82;65;67;84;69;82;45;49;66;49;56;51].
Definition w_CHARACTER_1B184 : str := [67;72;65;82;65;67;84;69;82;45;49;66;49;56;52].
Definition w_CHARACTER_1B185 : str := [67;72;65;82;65;67;84;69;82;45;49;66;49;56;53].
Definition w_CHARACTER_1B186 : str := [67;72;65;82;65;67;84;69;82;45;49;66;49;56;54].
Definition w_CHARACTER_1B187 : str := [67;72;65;82;65;67;84;69;82;45;49;66;49;56;55].
Definition w_CHARACTER_1B188 : str := [67;72;65;82;65;67;84;69;82;45;49;66;49;56;56].
Definition w_CHARACTER_1B189 : str := [67;72;65;82;65;67;84;69;82;45;49;66;49;56;57].
Definition w_CHARACTER_1B18A : str := [67;72;65;82;65;67;84;69;82;45;49;66;49;56;65].
Definition w_CHARACTER_1B18B : str := [67;72;65;82;65;67;84;69;82;45;49;66;49;56;66].
Definition w_CHARACTER_1B18C : str := [67;72;65;82;65;67;84;69;82;45;49;66;49;56;67].
Definition w_CHARACTER_1B18D : str := [67;72;65;82;65;67;84;69;82;45;49;66;49;56;68].
Definition w_CHARACTER_1B18E : str := [67;72;65;82;65;67;84;69;82;45;49;66;49;56;69].
Definition w_CHARACTER_1B18F : str := [67;72;65;82;65;67;84;69;82;45;49;66;49;56;70].
Definition w_CHARACTER_1B190 : str := [67;72;65;82;65;67;84;69;82;45;49;66;49;57;48].
Definition w_CHARACTER_1B191 : str := [67;72;65;82;65;67;84;69;82;45;49;66;49;57;49].
Definition w_CHARACTER_1B192 : str := [67;72;65;82;65;67;84;69;82;45;49;66;49;57;50].
Definition w_CHARACTER_1B193 : str := [67;72;65;82;65;67;84;69;82;45;49;66;49;57;51].
Definition w_CHARACTER_1B194 : str := [67;72;65;82;65;67;84;69;82;45;49;66;49;57;52].
Definition w_CHARACTER_1B195 : str := [67;72;65;82;65;67;84;69;82;45;49;66;49;57;53].
Definition w_CHARACTER_1B196 : str := [67;72;65;82;65;67;84;69;82;45;49;66;49;57;54].
Definition w_CHARACTER_1B197 : str := [67;72;65;82;65;67;84;69;82;45;49;66;49;57;55].
Definition w_CHARACTER_1B198 : str := [67;72;65;82;65;67;84;69;82;45;49;66;49;57;56].
Definition w_CHARACTER_1B199 : str := [67;72;65;82;65;67;84;69;82;45;49;66;49;57;57].
Definition w_CHARACTER_1B19A : str := [67;72;65;82;65;67;84;69;82;45;49;66;49;57;65].
Definition w_CHARACTER_1B19B : str := [67;72;65;82;65;67;84;69;82;45;49;66;49;57;66].
Definition w_CHARACTER_1B19C : str := [67;72;65;82;65;67;84;69;82;45;49;66;49;57;67].
Definition w_CHARACTER_1B19D : str := [67;72;65;82;65;67;84;69;82;45;49;66;49;57;68].
Definition w_CHARACTER_1B19E : str := [67;72;65;82;65;67;84;69;82;45;49;66;49;57;69].
Definition w_CHARACTER_1B19F : str := [67;72;65;82;65;67;84;69;82;45;49;66;49;57;70].
Definition w_CHARACTER_1B1A0 : str := [67;72;65;82;65;67;84;69;82;45;49;66;49;65;48].
Definition w_CHARACTER_1B1A1 : str := [67;72;65;82;65;67;84;69;82;45;49;66;49;65;49].
Definition w_CHARACTER_1B1A2 : str := [67;72;65;82;65;67;84;69;82;45;49;66;49;65;50].
Definition w_CHARACTER_1B1A3 : str := [67;72;65;82;65;67;84;69;82;45;49;66;49;65;51].
Definition w_CHARACTER_1B1A4 : str := [67;72;65;82;65;67;84;69;82;45;49;66;49;65;52].
Definition w_CHARACTER_1B1A5 : str := [67;72;65;82;65;67;84;69;82;45;49;66;49;65;53].
Definition w_CHARACTER_1B1A6 : str := [67;72;65;82;65;67;84;69;82;45;49;66;49;65;54].
Definition w_CHARACTER_1B1A7 : str := [67;72;65;82;65;67;84;69;82;45;49;66;49;65;55].
Definition w_CHARACTER_1B1A8 : str := [67;72;65;82;65;67;84;69;82;45;49;66;49;65;56].
Definition w_CHARACTER_1B1A9 : str := [67;72;65;82;65;67;84;69;82;45;49;66;49;65;57].
Definition w_CHARACTER_1B1AA : str := [67;72;65;82;65;67;84;69;82;45;49;66;49;65;65].
Definition w_CHARACTER_1B1AB : str := [67;72;65;82;65;67;84;69;82;45;49;66;49;65;66].
Definition w_CHARACTER_1B1AC : str := [67;72;65;82;65;67;84;69;82;45;49;66;49;65;67].
Definition w_CHARACTER_1B1AD : str := [67;72;65;82;65;67;84;69;82;45;49;66;49;65;68].
Definition w_CHARACTER_1B1AE : str := [67;72;65;82;65;67;84;69;82;45;49;66;49;65;69].
Definition w_CHARACTER_1B1AF : str := [67;72;65;82;65;67;84;69;82;45;49;66;49;65;70].
Definition w_CHARACTER_1B1B0 : str := [67;72;65;82;65;67;84;69;82;45;49;66;49;66;48].
Definition w_CHARACTER_1B1B1 : str := [67;72;65;82;65;67;84;69;82;45;49;66;49;66;49].
Definition w_CHARACTER_1B1B2 : str := [67;72;65;82;65;67;84;69;82;45;49;66;49;66;50].
Definition w_CHARACTER_1B1B3 : str := [67;72;65;82;65;67;84;69;82;45;49;66;49;66;51].
Definition w_CHARACTER_1B1B4 : str := [67;72;65;82;65;67;84;69;82;45;49;66;49;66;52].
Definition w_CHARACTER_1B1B5 : str := [67;72;65;82;65;67;84;69;82;45;49;66;49;66;53].
Definition w_CHARACTER_1B1B6 : str := [67;72;65;82;65;67;84;69;82;45;49;66;49;66;54].
Definition w_CHARACTER_1B1B7 : str := [67;72;65;82;65;67;84;69;82;45;49;66;49;66;55].
Definition w_CHARACTER_1B1B8 : str := [67;72;65;82;65;67;84;69;82;45;49;66;49;66;56].
Definition w_CHARACTER_1B1B9 : str := [67;72;65;82;65;67;84;69;82;45;49;66;49;66;57].
Definition w_CHARACTER_1B1BA : str := [67;72;65;82;65;67;84;69;82;45;49;66;49;66;65].
Definition w_CHARACTER_1B1BB : str := [67;72;65;82;65;67;84;69;82;45;49;66;49;66;66].
Definition w_CHARACTER_1B1BC : str := [67;72;65;82;65;67;84;69;82;45;49;66;49;66;67].
Definition w_CHARACTER_1B1BD : str := [67;72;65;82;65;67;84;69;82;45;49;66;49;66;68].
Definition w_CHARACTER_1B1BE : str := [67;72;65;82;65;67;84;69;82;45;49;66;49;66;69].
Definition w_CHARACTER_1B1BF : str := [67;72;65;82;65;67;84;69;82;45;49;66;49;66;70].
Definition w_CHARACTER_1B1C0 : str := [67;72;65;82;65;67;84;69;82;45;49;66;49;67;48].
Definition w_CHARACTER_1B1C1 : str := [67;72;65;82;65;67;84;69;82;45;49;66;49;67;49].
Definition w_CHARACTER_1B1C2 : str := [67;72;65;82;65;67;84;69;82;45;49;66;49;67;50].
Definition w_CHARACTER_1B1C3 : str := [67;72;65;82;65;67;84;69;82;45;49;66;49;67;51].
Definition w_CHARACTER_1B1C4 : str := [67;72;65;82;65;67;84;69;82;45;49;66;49;67;52].
Definition w_CHARACTER_1B1C5 : str := [67;72;65;82;65;67;84;69;82;45;49;66;49;67;53].
Definition w_CHARACTER_1B1C6 : str := [67;72;65;82;65;67;84;69;82;45;49;66;49;67;54].
Definition w_CHARACTER_1B1C7 : str := [67;72;65;82;65;67;84;69;82;45;49;66;49;67;55].
Definition w_CHARACTER_1B1C8 : str := [67;72;65;82;65;67;84;69;82;45;49;66;49;67;56].
Definition w_CHARACTER_1B1C9 : str := [67;72;65;82;65;67;84;69;82;45;49;66;49;67;57].
Definition w_CHARACTER_1B1CA : str := [67;72;65;82;65;67;84;69;82;45;49;66;49;67;65].
Definition w_CHARACTER_1B1CB : str := [67;72;65;82;65;67;84;69;82;45;49;66;49;67;66].
Definition w_CHARACTER_1B1CC : str := [67;72;65;82;65;67;84;69;82;45;49;66;49;67;67].
Definition w_CHARACTER_1B1CD : str := [67;72;65;82;65;67;84;69;82;45;49;66;49;67;68].
Definition w_CHARACTER_1B1CE : str := [67;72;65;82;65;67;84;69;82;45;49;66;49;67;69].
Definition w_CHARACTER_1B1CF : str := [67;72;65;82;65;67;84;69;82;45;49;66;49;67;70].
Definition w_CHARACTER_1B1D0 : str := [67;72;65;82;65;67;84;69;82;45;49;66;49;68;48].
Definition w_CHARACTER_1B1D1 : str := [67;72;65;82;65;67;84;69;82;45;49;66;49;68;49].
Definition w_CHARACTER_1B1D2 : str := [67;72;65;82;65;67;84;69;82;45;49;66;49;68;50].
Definition w_CHARACTER_1B1D3 : str := [67;72;65;82;65;67;84;69;82;45;49;66;49;68;51].
Definition w_CHARACTER_1B1D4 : str := [67;72;65;82;65;67;84;69;82;45;49;66;49;68;52].
Definition w_CHARACTER_1B1D5 : str := [67;72;65;82;65;67;84;69;82;45;49;66;49;68;53].
Definition w_CHARACTER_1B1D6 : str := [67;72;65;82;65;67;84;69;82;45;49;66;49;68;54].
Definition w_CHARACTER_1B1D7 : str := [67;72;65;82;65;67;84;69;82;45;49;66;49;68;55].
Definition w_CHARACTER_1B1D8 : str := [67;72;65;82;65;67;84;69;82;45;49;66;49;68;56].
Definition w_CHARACTER_1B1D9 : str := [67;72;65;82;65;67;84;69;82;45;49;66;49;68;57].
Definition w_CHARACTER_1B1DA : str := [67;72;65;82;65;67;84;69;82;45;49;66;49;68;65].
Definition w_CHARACTER_1B1DB : str := [67;72;65;82;65;67;84;69;82;45;49;66;49;68;66].
Definition w_CHARACTER_1B1DC : str := [67;72;65;82;65;67;84;69;82;45;49;66;49;68;67].
Definition w_CHARACTER_1B1DD : str := [67;72;65;82;65;67;84;69;82;45;49;66;49;68;68].
Definition w_CHARACTER_1B1DE : str := [67;72;65;82;65;67;84;69;82;45;49;66;49;68;69].
Definition w_CHARACTER_1B1DF : str := [67;72;65;82;65;67;84;69;82;45;49;66;49;68;70].
Definition w_CHARACTER_1B1E0 : str := [67;72;65;82;65;67;84;69;82;45;49;66;49;69;48].
Definition w_CHARACTER_1B1E1 : str := [67;72;65;82;65;67;84;69;82;45;49;66;49;69;49].
Definition w_CHARACTER_1B1E2 : str := [67;72;65;82;65;67;84;69;82;45;49;66;49;69;50].
Definition w_CHARACTER_1B1E3 : str := [67;72;65;82;65;67;84;69;82;45;49;66;49;69;51].
Definition w_CHARACTER_1B1E4 : str := [67;72;65;82;65;67;84;69;82;45;49;66;49;69;52].
Definition w_CHARACTER_1B1E5 : str := [67;72;65;82;65;67;84;69;82;45;49;66;49;69;53].
Definition w_CHARACTER_1B1E6 : str := [67;72;65;82;65;67;84;69;82;45;49;66;49;69;54].
Definition w_CHARACTER_1B1E7 : str := [67;72;65;82;65;67;84;69;82;45;49;66;49;69;55].
Definition w_CHARACTER_1B1E8 : str := [67;72;65;82;65;67;84;69;82;45;49;66;49;69;56].
Definition w_CHARACTER_1B1E9 : str := [67;72;65;82;65;67;84;69;82;45;49;66;49;69;57].
Definition w_CHARACTER_1B1EA : str := [67;72;65;82;65;67;84;69;82;45;49;66;49;69;65].
Definition w_CHARACTER_1B1EB : str := [67;72;65;82;65;67;84;69;82;45;49;66;49;69;66].
Definition w_CHARACTER_1B1EC : str := [67;72;65;82;65;67;84;69;82;45;49;66;49;69;67].
Definition w_CHARACTER_1B1ED : str := [67;72;65;82;65;67;84;69;82;45;49;66;49;69;68].
Definition w_CHARACTER_1B1EE : str := [67;72;65;82;65;67;84;69;82;45;49;66;49;69;69].
Definition w_CHARACTER_1B1EF : str := [67;72;65;82;65;67;84;69;82;45;49;66;49;69;70].
Definition w_CHARACTER_1B1F0 : str := [67;72;65;82;65;67;84;69;82;45;49;66;49;70;48].
Definition w_CHARACTER_1B1F1 : str := [67;72;65;82;65;67;84;69;82;45;49;66;49;70;49].
Definition w_CHARACTER_1B1F2 : str := [67;72;65;82;65;67;84;69;82;45;49;66;49;70;50].
Definition w_CHARACTER_1B1F3 : str := [67;72;65;82;65;67;84;69;82;45;49;66;49;70;51].
Definition w_CHARACTER_1B1F4 : str := [67;72;65;82;65;67;84;69;82;45;49;66;49;70;52].
Definition w_CHARACTER_1B1F5 : str := [67;72;65;82;65;67;84;69;82;45;49;66;49;70;53].
Definition w_CHARACTER_1B1F6 : str := [67;72;65;82;65;67;84;69;82;45;49;66;49;70;54].
Definition w_CHARACTER_1B1F7 : str := [67;72;65;82;65;67;84;69;82;45;49;66;49;70;55].
Definition w_CHARACTER_1B1F8 : str := [67;72;65;82;65;67;84;69;82;45;49;66;49;70;56].
Definition w_CHARACTER_1B1F9 : str := [67;72;65;82;65;67;84;69;82;45;49;66;49;70;57].
Definition w_CHARACTER_1B1FA : str := [67;72;65;82;65;67;84;69;82;45;49;66;49;70;65].
Definition w_CHARACTER_1B1FB : str := [67;72;65;82;65;67;84;69;82;45;49;66;49;70;66].
Definition w_CHARACTER_1B1FC : str := [67;72;65;82;65;67;84;69;82;45;49;66;49;70;67].
Definition w_CHARACTER_1B1FD : str := [67;72;65;82;65;67;84;69;82;45;49;66;49;70;68].
Definition w_CHARACTER_1B1FE : str := [67;72;65;82;65;67;84;69;82;45;49;66;49;70;69].
Definition w_CHARACTER_1B1FF : str := [67;72;65;82;65;67;84;69;82;45;49;66;49;70;70].
Definition w_CHARACTER_1B200 : str := [67;72;65;82;65;67;84;69;82;45;49;66;50;48;48].
Definition w_CHARACTER_1B201 : str := [67;72;65;82;65;67;84;69;82;45;49;66;50;48;49].
Definition w_CHARACTER_1B202 : str := [67;72;65;82;65;67;84;69;82;45;49;66;50;48;50].
Definition w_CHARACTER_1B203 : str := [67;72;65;82;65;67;84;69;82;45;49;66;50;48;51].
Definition w_CHARACTER_1B204 : str := [67;72;65;82;65;67;84;69;82;45;49;66;50;48;52].
Definition w_CHARACTER_1B205 : str := [67;72;65;82;65;67;84;69;82;45;49;66;50;48;53].
Definition w_CHARACTER_1B206 : str := [67;72;65;82;65;67;84;69;82;45;49;66;50;48;54].
Definition w_CHARACTER_1B207 : str := [67;72;65;82;65;67;84;69;82;45;49;66;50;48;55].
Definition w_CHARACTER_1B208 : str := [67;72;65;82;65;67;84;69;82;45;49;66;50;48;56].
Definition w_CHARACTER_1B209 : str := [67;72;65;82;65;67;84;69;82;45;49;66;50;48;57].
Definition w_CHARACTER_1B20A : str := [67;72;65;82;65;67;84;69;82;45;49;66;50;48;65].
Definition w_CHARACTER_1B20B : str := [67;72;65;82;65;67;84;69;82;45;49;66;50;48;66].
Definition w_CHARACTER_1B20C : str := [67;72;65;82;65;67;84;69;82;45;49;66;50;48;67].
Definition w_CHARACTER_1B20D : str := [67;72;65;82;65;67;84;69;82;45;49;66;50;48;68].
Definition w_CHARACTER_1B20E : str := [67;72;65;82;65;67;84;69;82;45;49;66;50;48;69].
Definition w_CHARACTER_1B20F : str := [67;72;65;82;65;67;84;69;82;45;49;66;50;48;70].
Definition w_CHARACTER_1B210 : str := [67;72;65;82;65;67;84;69;82;45;49;66;50;49;48].
Definition w_CHARACTER_1B211 : str := [67;72;65;82;65;67;84;69;82;45;49;66;50;49;49].
Definition w_CHARACTER_1B212 : str := [67;72;65;82;65;67;84;69;82;45;49;66;50;49;50].
Definition w_CHARACTER_1B213 : str := [67;72;65;82;65;67;84;69;82;45;49;66;50;49;51].
Definition w_CHARACTER_1B214 : str := [67;72;65;82;65;67;84;69;82;45;49;66;50;49;52].
Definition w_CHARACTER_1B215 : str := [67;72;65;82;65;67;84;69;82;45;49;66;50;49;53].
Definition w_CHARACTER_1B216 : str := [67;72;65;82;65;67;84;69;82;45;49;66;50;49;54].
Definition w_CHARACTER_1B217 : str := [67;72;65;82;65;67;84;69;82;45;49;66;50;49;55].
Definition w_CHARACTER_1B218 : str := [67;72;65;82;65;67;84;69;82;45;49;66;50;49;56].
Definition w_CHARACTER_1B219 : str := [67;72;65;82;65;67;84;69;82;45;49;66;50;49;57].
Definition w_CHARACTER_1B21A : str := [67;72;65;82;65;67;84;69;82;45;49;66;50;49;65].
Definition w_CHARACTER_1B21B : str := [67;72;65;82;65;67;84;69;82;45;49;66;50;49;66].
Definition w_CHARACTER_1B21C : str := [67;72;65;82;65;67;84;69;82;45;49;66;50;49;67].
Definition w_CHARACTER_1B21D : str := [67;72;65;82;65;67;84;69;82;45;49;66;50;49;68].
Definition w_CHARACTER_1B21E : str := [67;72;65;82;65;67;84;69;82;45;49;66;50;49;69].
Definition w_CHARACTER_1B21F : str := [67;72;65;82;65;67;84;69;82;45;49;66;50;49;70].
Definition w_CHARACTER_1B220 : str := [67;72;65;82;65;67;84;69;82;45;49;66;50;50;48].
Definition w_CHARACTER_1B221 : str := [67;72;65;82;65;67;84;69;82;45;49;66;50;50;49].
Definition w_CHARACTER_1B222 : str := [67;72;65;82;65;67;84;69;82;45;49;66;50;50;50].
Definition w_CHARACTER_1B223 : str := [67;72;65;82;65;67;84;69;82;45;49;66;50;50;51].
Definition w_CHARACTER_1B224 : str := [67;72;65;82;65;67;84;69;82;45;49;66;50;50;52].
Definition w_CHARACTER_1B225 : str := [67;72;65;82;65;67;84;69;82;45;49;66;50;50;53].
Definition w_CHARACTER_1B226 : str := [67;72;65;82;65;67;84;69;82;45;49;66;50;50;54].
Definition w_CHARACTER_1B227 : str := [67;72;65;82;65;67;84;69;82;45;49;66;50;50;55].
Definition w_CHARACTER_1B228 : str := [67;72;65;82;65;67;84;69;82;45;49;66;50;50;56].
Definition w_CHARACTER_1B229 : str := [67;72;65;82;65;67;84;69;82;45;49;66;50;50;57].
Definition w_CHARACTER_1B22A : str := [67;72;65;82;65;67;84;69;82;45;49;66;50;50;65].
Definition w_CHARACTER_1B22B : str := [67;72;65;82;65;67;84;69;82;45;49;66;50;50;66].
Definition w_CHARACTER_1B22C : str := [67;72;65;82;65;67;84;69;82;45;49;66;50;50;67].
Definition w_CHARACTER_1B22D : str := [67;72;65;82;65;67;84;69;82;45;49;66;50;50;68].
Definition w_CHARACTER_1B22E : str := [67;72;65;82;65;67;84;69;82;45;49;66;50;50;69].
Definition w_CHARACTER_1B22F : str := [67;72;65;82;65;67;84;69;82;45;49;66;50;50;70].
Definition w_CHARACTER_1B230 : str := [67;72;65;82;65;67;84;69;82;45;49;66;50;51;48].
Definition w_CHARACTER_1B231 : str := [67;72;65;82;65;67;84;69;82;45;49;66;50;51;49].
Definition w_CHARACTER_1B232 : str := [67;72;65;82;65;67;84;69;82;45;49;66;50;51;50].
Definition w_CHARACTER_1B233 : str := [67;72;65;82;65;67;84;69;82;45;49;66;50;51;51].
Definition w_CHARACTER_1B234 : str := [67;72;65;82;65;67;84;69;82;45;49;66;50;51;52].
Definition w_CHARACTER_1B235 : str := [67;72;65;82;65;67;84;69;82;45;49;66;50;51;53].
Definition w_CHARACTER_1B236 : str := [67;72;65;82;65;67;84;69;82;45;49;66;50;51;54].
Definition w_CHARACTER_1B237 : str := [67;72;65;82;65;67;84;69;82;45;49;66;50;51;55].
Definition w_CHARACTER_1B238 : str := [67;72;65;82;65;67;84;69;82;45;49;66;50;51;56].
Definition w_CHARACTER_1B239 : str := [67;72;65;82;65;67;84;69;82;45;49;66;50;51;57].
Definition w_CHARACTER_1B23A : str := [67;72;65;82;65;67;84;69;82;45;49;66;50;51;65].
Definition w_CHARACTER_1B23B : str := [67;72;65;82;65;67;84;69;82;45;49;66;50;51;66].
Definition w_CHARACTER_1B23C : str := [67;72;65;82;65;67;84;69;82;45;49;66;50;51;67].
Definition w_CHARACTER_1B23D : str := [67;72;65;82;65;67;84;69;82;45;49;66;50;51;68].
Definition w_CHARACTER_1B23E : str := [67;72;65;82;65;67;84;69;82;45;49;66;50;51;69].
Definition w_CHARACTER_1B23F : str := [67;72;65;82;65;67;84;69;82;45;49;66;50;51;70].
Definition w_CHARACTER_1B240 : str := [67;72;65;82;65;67;84;69;82;45;49;66;50;52;48].
Definition w_CHARACTER_1B241 : str := [67;72;65;82;65;67;84;69;82;45;49;66;50;52;49].
Definition w_CHARACTER_1B242 : str := [67;72;65;82;65;67;84;69;82;45;49;66;50;52;50].
Definition w_CHARACTER_1B243 : str := [67;72;65;82;65;67;84;69;82;45;49;66;50;52;51].
Definition w_CHARACTER_1B244 : str := [67;72;65;82;65;67;84;69;82;45;49;66;50;52;52].
Definition w_CHARACTER_1B245 : str := [67;72;65;82;65;67;84;69;82;45;49;66;50;52;53].
Definition w_CHARACTER_1B246 : str := [67;72;65;82;65;67;84;69;82;45;49;66;50;52;54].
Definition w_CHARACTER_1B247 : str := [67;72;65;82;65;67;84;69;82;45;49;66;50;52;55].
Definition w_CHARACTER_1B248 : str := [67;72;65;82;65;67;84;69;82;45;49;66;50;52;56].
Definition w_CHARACTER_1B249 : str := [67;72;65;82;65;67;84;69;82;45;49;66;50;52;57].
Definition w_CHARACTER_1B24A : str := [67;72;65;82;65;67;84;69;82;45;49;66;50;52;65].
Definition w_CHARACTER_1B24B : str := [67;72;65;82;65;67;84;69;82;45;49;66;50;52;66].
Definition w_CHARACTER_1B24C : str := [67;72;65;82;65;67;84;69;82;45;49;66;50;52;67].
Definition w_CHARACTER_1B24D : str := [67;72;65;82;65;67;84;69;82;45;49;66;50;52;68].
Definition w_CHARACTER_1B24E : str := [67;72;65;82;65;67;84;69;82;45;49;66;50;52;69].
Definition w_CHARACTER_1B24F : str := [67;72;65;82;65;67;84;69;82;45;49;66;50;52;70].
Definition w_CHARACTER_1B250 : str := [67;72;65;82;65;67;84;69;82;45;49;66;50;53;48].
Definition w_CHARACTER_1B251 : str := [67;72;65;82;65;67;84;69;82;45;49;66;50;53;49].
Definition w_CHARACTER_1B252 : str := [67;72;65;82;65;67;84;69;82;45;49;66;50;53;50].
Definition w_CHARACTER_1B253 : str := [67;72;65;82;65;67;84;69;82;45;49;66;50;53;51].
Definition w_CHARACTER_1B254 : str := [67;72;65;82;65;67;84;69;82;45;49;66;50;53;52].
Definition w_CHARACTER_1B255 : str := [67;72;65;82;65;67;84;69;82;45;49;66;50;53;53].
Definition w_CHARACTER_1B256 : str := [67;72;65;82;65;67;84;69;82;45;49;66;50;53;54].
Definition w_CHARACTER_1B257 : str := [67;72;65;82;65;67;84;69;82;45;49;66;50;53;55].
Definition w_CHARACTER_1B258 : str := [67;72;65;82;65;67;84;69;82;45;49;66;50;53;56].
Definition w_CHARACTER_1B259 : str := [67;72;65;82;65;67;84;69;82;45;49;66;50;53;57].
Definition w_CHARACTER_1B25A : str := [67;72;65;82;65;67;84;69;82;45;49;66;50;53;65].
Definition w_CHARACTER_1B25B : str := [67;72;65;82;65;67;84;69;82;45;49;66;50;53;66].
Definition w_CHARACTER_1B25C : str := [67;72;65;82;65;67;84;69;82;45;49;66;50;53;67].
Definition w_CHARACTER_1B25D : str := [67;72;65;82;65;67;84;69;82;45;49;66;50;53;68].
Definition w_CHARACTER_1B25E : str := [67;72;65;82;65;67;84;69;82;45;49;66;50;53;69].
Definition w_CHARACTER_1B25F : str := [67;72;65;82;65;67;84;69;82;45;49;66;50;53;70].
Definition w_CHARACTER_1B260 : str := [67;72;65;82;65;67;84;69;82;45;49;66;50;54;48].
Definition w_CHARACTER_1B261 : str := [67;72;65;82;65;67;84;69;82;45;49;66;50;54;49].
Definition w_CHARACTER_1B262 : str := [67;72;65;82;65;67;84;69;82;45;49;66;50;54;50].
Definition w_CHARACTER_1B263 : str := [67;72;65;82;65;67;84;69;82;45;49;66;50;54;51].
Definition w_CHARACTER_1B264 : str := [67;72;65;82;65;67;84;69;82;45;49;66;50;54;52].
Definition w_CHARACTER_1B265 : str := [67;72;65;82;65;67;84;69;82;45;49;66;50;54;53].
Definition w_CHARACTER_1B266 : str := [67;72;65;82;65;67;84;69;82;45;49;66;50;54;54].
Definition w_CHARACTER_1B267 : str := [67;72;65;82;65;67;84;69;82;45;49;66;50;54;55].
Definition w_CHARACTER_1B268 : str := [67;72;65;82;65;67;84;69;82;45;49;66;50;54;56].
Definition w_CHARACTER_1B269 : str := [67;72;65;82;65;67;84;69;82;45;49;66;50;54;57].
Definition w_CHARACTER_1B26A : str := [67;72;65;82;65;67;84;69;82;45;49;66;50;54;65].
Definition w_CHARACTER_1B26B : str := [67;72;65;82;65;67;84;69;82;45;49;66;50;54;66].
Definition w_CHARACTER_1B26C : str := [67;72;65;82;65;67;84;69;82;45;49;66;50;54;67].
Definition w_CHARACTER_1B26D : str := [67;72;65;82;65;67;84;69;82;45;49;66;50;54;68].
Definition w_CHARACTER_1B26E : str := [67;72;65;82;65;67;84;69;82;45;49;66;50;54;69].
Definition w_CHARACTER_1B26F : str := [67;72;65;82;65;67;84;69;82;45;49;66;50;54;70].
Definition w_CHARACTER_1B270 : str := [67;72;65;82;65;67;84;69;82;45;49;66;50;55;48].
Definition w_CHARACTER_1B271 : str := [67;72;65;82;65;67;84;69;82;45;49;66;50;55;49].
Definition w_CHARACTER_1B272 : str := [67;72;65;82;65;67;84;69;82;45;49;66;50;55;50].
Definition w_CHARACTER_1B273 : str := [67;72;65;82;65;67;84;69;82;45;49;66;50;55;51].
Definition w_CHARACTER_1B274 : str := [67;72;65;82;65;67;84;69;82;45;49;66;50;55;52].
Definition w_CHARACTER_1B275 : str := [67;72;65;82;65;67;84;69;82;45;49;66;50;55;53].
Definition w_CHARACTER_1B276 : str := [67;72;65;82;65;67;84;69;82;45;49;66;50;55;54].
Definition w_CHARACTER_1B277 : str := [67;72;65;82;65;67;84;69;82;45;49;66;50;55;55].
Definition w_CHARACTER_1B278 : str := [67;72;65;82;65;67;84;69;82;45;49;66;50;55;56].
Definition w_CHARACTER_1B279 : str := [67;72;65;82;65;67;84;69;82;45;49;66;50;55;57].
Definition w_CHARACTER_1B27A : str := [67;72;65;82;65;67;84;69;82;45;49;66;50;55;65].
Definition w_CHARACTER_1B27B : str := [67;72;65;82;65;67;84;69;82;45;49;66;50;55;66].
Definition w_CHARACTER_1B27C : str := [67;72;65;82;65;67;84;69;82;45;49;66;50;55;67].
Definition w_CHARACTER_1B27D : str := [67;72;65;82;65;67;84;69;82;45;49;66;50;55;68].
Definition w_CHARACTER_1B27E : str := [67;72;65;82;65;67;84;69;82;45;49;66;50;55;69].
Definition w_CHARACTER_1B27F : str := [67;72;65;82;65;67;84;69;82;45;49;66;50;55;70].
Definition w_CHARACTER_1B280 : str := [67;72;65;82;65;67;84;69;82;45;49;66;50;56;48].
Definition w_CHARACTER_1B281 : str := [67;72;65;82;65;67;84;69;82;45;49;66;50;56;49].
Definition w_CHARACTER_1B282 : str := [67;72;65;82;65;67;84;69;82;45;49;66;50;56;50].
Definition w_CHARACTER_1B283 : str := [67;72;65;82;65;67;84;69;82;45;49;66;50;56;51].
Definition w_CHARACTER_1B284 : str := [67;72;65;82;65;67;84;69;82;45;49;66;50;56;52].
Definition w_CHARACTER_1B285 : str := [67;72;65;82;65;67;84;69;82;45;49;66;50;56;53].
Definition w_CHARACTER_1B286 : str := [67;72;65;82;65;67;84;69;82;45;49;66;50;56;54].
Definition w_CHARACTER_1B287 : str := [67;72;65;82;65;67;84;69;82;45;49;66;50;56;55].
Definition w_CHARACTER_1B288 : str := [67;72;65;82;65;67;84;69;82;45;49;66;50;56;56].
Definition w_CHARACTER_1B289 : str := [67;72;65;82;65;67;84;69;82;45;49;66;50;56;57].
Definition w_CHARACTER_1B28A : str := [67;72;65;82;65;67;84;69;82;45;49;66;50;56;65].
Definition w_CHARACTER_1B28B : str := [67;72;65;82;65;67;84;69;82;45;49;66;50;56;66].
Definition w_CHARACTER_1B28C : str := [67;72;65;82;65;67;84;69;82;45;49;66;50;56;67].
Definition w_CHARACTER_1B28D : str := [67;72;65;82;65;67;84;69;82;45;49;66;50;56;68].
Definition w_CHARACTER_1B28E : str := [67;72;65;82;65;67;84;69;82;45;49;66;50;56;69].
Definition w_CHARACTER_1B28F : str := [67;72;65;82;65;67;84;69;82;45;49;66;50;56;70].
Definition w_CHARACTER_1B290 : str := [67;72;65;82;65;67;84;69;82;45;49;66;50;57;48].
Definition w_CHARACTER_1B291 : str := [67;72;65;82;65;67;84;69;82;45;49;66;50;57;49].
Definition w_CHARACTER_1B292 : str := [67;72;65;82;65;67;84;69;82;45;49;66;50;57;50].
Definition w_CHARACTER_1B293 : str := [67;72;65;82;65;67;84;69;82;45;49;66;50;57;51].
Definition w_CHARACTER_1B294 : str := [67;72;65;82;65;67;84;69;82;45;49;66;50;57;52].
Definition w_CHARACTER_1B295 : str := [67;72;65;82;65;67;84;69;82;45;49;66;50;57;53].
Definition w_CHARACTER_1B296 : str := [67;72;65;82;65;67;84;69;82;45;49;66;50;57;54].
Definition w_CHARACTER_1B297 : str := [67;72;65;82;65;67;84;69;82;45;49;66;50;57;55].
Definition w_CHARACTER_1B298 : str := [67;72;65;82;65;67;84;69;82;45;49;66;50;57;56].
Definition w_CHARACTER_1B299 : str := [67;72;65;82;65;67;84;69;82;45;49;66;50;57;57].
Definition w_CHARACTER_1B29A : str := [67;72;65;82;65;67;84;69;82;45;49;66;50;57;65].
Definition w_CHARACTER_1B29B : str := [67;72;65;82;65;67;84;69;82;45;49;66;50;57;66].
Definition w_CHARACTER_1B29C : str := [67;72;65;82;65;67;84;69;82;45;49;66;50;57;67].
Definition w_CHARACTER_1B29D : str := [67;72;65;82;65;67;84;69;82;45;49;66;50;57;68].
Definition w_CHARACTER_1B29E : str := [67;72;65;82;65;67;84;69;82;45;49;66;50;57;69].
Definition w_CHARACTER_1B29F : str := [67;72;65;82;65;67;84;69;82;45;49;66;50;57;70].
Definition w_CHARACTER_1B2A0 : str := [67;72;65;82;65;67;84;69;82;45;49;66;50;65;48].
Definition w_CHARACTER_1B2A1 : str := [67;72;65;82;65;67;84;69;82;45;49;66;50;65;49].
Definition w_CHARACTER_1B2A2 : str := [67;72;65;82;65;67;84;69;82;45;49;66;50;65;50].
Definition w_CHARACTER_1B2A3 : str := [67;72;65;82;65;67;84;69;82;45;49;66;50;65;51].
Definition w_CHARACTER_1B2A4 : str := [67;72;65;82;65;67;84;69;82;45;49;66;50;65;52].
Definition w_CHARACTER_1B2A5 : str := [67;72;65;82;65;67;84;69;82;45;49;66;50;65;53].
Definition w_CHARACTER_1B2A6 : str := [67;72;65;82;65;67;84;69;82;45;49;66;50;65;54].
Definition w_CHARACTER_1B2A7 : str := [67;72;65;82;65;67;84;69;82;45;49;66;50;65;55].
Definition w_CHARACTER_1B2A8 : str := [67;72;65;82;65;67;84;69;82;45;49;66;50;65;56].
Definition w_CHARACTER_1B2A9 : str := [67;72;65;82;65;67;84;69;82;45;49;66;50;65;57].
Definition w_CHARACTER_1B2AA : str := [67;72;65;82;65;67;84;69;82;45;49;66;50;65;65].
Definition w_CHARACTER_1B2AB : str := [67;72;65;82;65;67;84;69;82;45;49;66;50;65;66].
Definition w_CHARACTER_1B2AC : str := [67;72;65;82;65;67;84;69;82;45;49;66;50;65;67].
Definition w_CHARACTER_1B2AD : str := [67;72;65;82;65;67;84;69;82;45;49;66;50;65;68].
Definition w_CHARACTER_1B2AE : str := [67;72;65;82;65;67;84;69;82;45;49;66;50;65;69].
Definition w_CHARACTER_1B2AF : str := [67;72;65;82;65;67;84;69;82;45;49;66;50;65;70].
Definition w_CHARACTER_1B2B0 : str := [67;72;65;82;65;67;84;69;82;45;49;66;50;66;48].
Definition w_CHARACTER_1B2B1 : str := [67;72;65;82;65;67;84;69;82;45;49;66;50;66;49].
Definition w_CHARACTER_1B2B2 : str := [67;72;65;82;65;67;84;69;82;45;49;66;50;66;50].
Definition w_CHARACTER_1B2B3 : str := [67;72;65;82;65;67;84;69;82;45;49;66;50;66;51].
Definition w_CHARACTER_1B2B4 : str := [67;72;65;82;65;67;84;69;82;45;49;66;50;66;52].
Definition w_CHARACTER_1B2B5 : str := [67;72;65;82;65;67;84;69;82;45;49;66;50;66;53].
Definition w_CHARACTER_1B2B6 : str := [67;72;65;82;65;67;84;69;82;45;49;66;50;66;54].
Definition w_CHARACTER_1B2B7 : str := [67;72;65;82;65;67;84;69;82;45;49;66;50;66;55].
Definition w_CHARACTER_1B2B8 : str := [67;72;65;82;65;67;84;69;82;45;49;66;50;66;56].
Definition w_CHARACTER_1B2B9 : str := [67;72;65;82;65;67;84;69;82;45;49;66;50;66;57].
Definition w_CHARACTER_1B2BA : str := [67;72;65;82;65;67;84;69;82;45;49;66;50;66;65].
Definition w_CHARACTER_1B2BB : str := [67;72;65;82;65;67;84;69;82;45;49;66;50;66;66].
Definition w_CHARACTER_1B2BC : str := [67;72;65;82;65;67;84;69;82;45;49;66;50;66;67].
Definition w_CHARACTER_1B2BD : str := [67;72;65;82;65;67;84;69;82;45;49;66;50;66;68].
Definition w_CHARACTER_1B2BE : str := [67;72;65;82;65;67;84;69;82;45;49;66;50;66;69].
Definition w_CHARACTER_1B2BF : str := [67;72;65;82;65;67;84;69;82;45;49;66;50;66;70].
Definition w_CHARACTER_1B2C0 : str := [67;72;65;82;65;67;84;69;82;45;49;66;50;67;48].
Definition w_CHARACTER_1B2C1 : str := [67;72;65;82;65;67;84;69;82;45;49;66;50;67;49].
Definition w_CHARACTER_1B2C2 : str := [67;72;65;82;65;67;84;69;82;45;49;66;50;67;50].
Definition w_CHARACTER_1B2C3 : str := [67;72;65;82;65;67;84;69;82;45;49;66;50;67;51].
Definition w_CHARACTER_1B2C4 : str := [67;72;65;82;65;67;84;69;82;45;49;66;50;67;52].
Definition w_CHARACTER_1B2C5 : str := [67;72;65;82;65;67;84;69;82;45;49;66;50;67;53].
Definition w_CHARACTER_1B2C6 : str := [67;72;65;82;65;67;84;69;82;45;49;66;50;67;54].
Definition w_CHARACTER_1B2C7 : str := [67;72;65;82;65;67;84;69;82;45;49;66;50;67;55].
Definition w_CHARACTER_1B2C8 : str := [67;72;65;82;65;67;84;69;82;45;49;66;50;67;56].
Definition w_CHARACTER_1B2C9 : str := [67;72;65;82;65;67;84;69;82;45;49;66;50;67;57].
Definition w_CHARACTER_1B2CA : str := [67;72;65;82;65;67;84;69;82;45;49;66;50;67;65].
Definition w_CHARACTER_1B2CB : str := [67;72;65;82;65;67;84;69;82;45;49;66;50;67;66].
Definition w_CHARACTER_1B2CC : str := [67;72;65;82;65;67;84;69;82;45;49;66;50;67;67].
Definition w_CHARACTER_1B2CD : str := [67;72;65;82;65;67;84;69;82;45;49;66;50;67;68].
Definition w_CHARACTER_1B2CE : str := [67;72;65;82;65;67;84;69;82;45;49;66;50;67;69].
Definition w_CHARACTER_1B2CF : str := [67;72;65;82;65;67;84;69;82;45;49;66;50;67;70].
Definition w_CHARACTER_1B2D0 : str := [67;72;65;82;65;67;84;69;82;45;49;66;50;68;48].
Definition w_CHARACTER_1B2D1 : str := [67;72;65;82;65;67;84;69;82;45;49;66;50;68;49].
Definition w_CHARACTER_1B2D2 : str := [67;72;65;82;65;67;84;69;82;45;49;66;50;68;50].
Definition w_CHARACTER_1B2D3 : str := [67;72;65;82;65;67;84;69;82;45;49;66;50;68;51].
Definition w_CHARACTER_1B2D4 : str := [67;72;65;82;65;67;84;69;82;45;49;66;50;68;52].
Definition w_CHARACTER_1B2D5 : str := [67;72;65;82;65;67;84;69;82;45;49;66;50;68;53].
Definition w_CHARACTER_1B2D6 : str := [67;72;65;82;65;67;84;69;82;45;49;66;50;68;54].
Definition w_CHARACTER_1B2D7 : str := [67;72;65;82;65;67;84;69;82;45;49;66;50;68;55].
Definition w_CHARACTER_1B2D8 : str := [67;72;65;82;65;67;84;69;82;45;49;66;50;68;56].
Definition w_CHARACTER_1B2D9 : str := [67;72;65;82;65;67;84;69;82;45;49;66;50;68;57].
Definition w_CHARACTER_1B2DA : str := [67;72;65;82;65;67;84;69;82;45;49;66;50;68;65].
Definition w_CHARACTER_1B2DB : str := [67;72;65;82;65;67;84;69;82;45;49;66;50;68;66].
Definition w_CHARACTER_1B2DC : str := [67;72;65;82;65;67;84;69;82;45;49;66;50;68;67].
Definition w_CHARACTER_1B2DD : str := [67;72;65;82;65;67;84;69;82;45;49;66;50;68;68].
Definition w_CHARACTER_1B2DE : str := [67;72;65;82;65;67;84;69;82;45;49;66;50;68;69].
Definition w_CHARACTER_1B2DF : str := [67;72;65;82;65;67;84;69;82;45;49;66;50;68;70].
Definition w_CHARACTER_1B2E0 : str := [67;72;65;82;65;67;84;69;82;45;49;66;50;69;48].
Definition w_CHARACTER_1B2E1 : str := [67;72;65;82;65;67;84;69;82;45;49;66;50;69;49].
Definition w_CHARACTER_1B2E2 : str := [67;72;65;82;65;67;84;69;82;45;49;66;50;69;50].
Definition w_CHARACTER_1B2E3 : str := [67;72;65;82;65;67;84;69;82;45;49;66;50;69;51].
Definition w_CHARACTER_1B2E4 : str := [67;72;65;82;65;67;84;69;82;45;49;66;50;69;52].
Definition w_CHARACTER_1B2E5 : str := [67;72;65;82;65;67;84;69;82;45;49;66;50;69;53].
Definition w_CHARACTER_1B2E6 : str := [67;72;65;82;65;67;84;69;82;45;49;66;50;69;54].
Definition w_CHARACTER_1B2E7 : str := [67;72;65;82;65;67;84;69;82;45;49;66;50;69;55].
Definition w_CHARACTER_1B2E8 : str := [67;72;65;82;65;67;84;69;82;45;49;66;50;69;56].
Definition w_CHARACTER_1B2E9 : str := [67;72;65;82;65;67;84;69;82;45;49;66;50;69;57].
Definition w_CHARACTER_1B2EA : str := [67;72;65;82;65;67;84;69;82;45;49;66;50;69;65].
Definition w_CHARACTER_1B2EB : str := [67;72;65;82;65;67;84;69;82;45;49;66;50;69;66].
Definition w_CHARACTER_1B2EC : str := [67;72;65;82;65;67;84;69;82;45;49;66;50;69;67].
Definition w_CHARACTER_1B2ED : str := [67;72;65;82;65;67;84;69;82;45;49;66;50;69;68].
Definition w_CHARACTER_1B2EE : str := [67;72;65;82;65;67;84;69;82;45;49;66;50;69;69].
Definition w_CHARACTER_1B2EF : str := [67;72;65;82;65;67;84;69;82;45;49;66;50;69;70].
Definition w_CHARACTER_1B2F0 : str := [67;72;65;82;65;67;84;69;82;45;49;66;50;70;48].
Definition w_CHARACTER_1B2F1 : str := [67;72;65;82;65;67;84;69;82;45;49;66;50;70;49].
Definition w_CHARACTER_1B2F2 : str := [67;72;65;82;65;67;84;69;82;45;49;66;50;70;50].
Definition w_CHARACTER_1B2F3 : str := [67;72;65;82;65;67;84;69;82;45;49;66;50;70;51].
Definition w_CHARACTER_1B2F4 : str := [67;72;65;82;65;67;84;69;82;45;49;66;50;70;52].
Definition w_CHARACTER_1B2F5 : str := [67;72;65;82;65;67;84;69;82;45;49;66;50;70;53].
Definition w_CHARACTER_1B2F6 : str := [67;72;65;82;65;67;84;69;82;45;49;66;50;70;54].
Definition w_CHARACTER_1B2F7 : str := [67;72;65;82;65;67;84;69;82;45;49;66;50;70;55].
Definition w_CHARACTER_1B2F8 : str := [67;72;65;82;65;67;84;69;82;45;49;66;50;70;56].
Definition w_CHARACTER_1B2F9 : str := [67;72;65;82;65;67;84;69;82;45;49;66;50;70;57].
Definition w_CHARACTER_1B2FA : str := [67;72;65;82;65;67;84;69;82;45;49;66;50;70;65].
Definition w_CHARACTER_1B2FB : str := [67;72;65;82;65;67;84;69;82;45;49;66;50;70;66].
Definition w_CHARACTERS : str := [67;72;65;82;65;67;84;69;82;83].
Definition w_CHARIOT : str := [67;72;65;82;73;79;84].
Definition w_CHART : str := [67;72;65;82;84].
Definition w_CHAT : str := [67;72;65;84].
Definition w_CHATTAWA : str := [67;72;65;84;84;65;87;65].
Definition w_CHAU : str := [67;72;65;85].
Definition w_CHAVIYANI : str := [67;72;65;86;73;89;65;78;73].
Definition w_CHAX : str := [67;72;65;88].
Definition w_CHE : str := [67;72;69].
Definition w_CHECK : str := [67;72;69;67;75].
Definition w_CHECKER : str := [67;72;69;67;75;69;82].
Definition w_CHEE : str := [67;72;69;69].
Definition w_CHEEK : str := [67;72;69;69;75].
Definition w_CHEEKS : str := [67;72;69;69;75;83].
Definition w_CHEEM : str := [67;72;69;69;77].
Definition w_CHEERING : str := [67;72;69;69;82;73;78;71].
Definition w_CHEESE : str := [67;72;69;69;83;69].
Definition w_CHEH : str := [67;72;69;72].
Definition w_CHEIKHAN : str := [67;72;69;73;75;72;65;78].
Definition w_CHEIKHEI : str := [67;72;69;73;75;72;69;73].
Definition w_CHEINAP : str := [67;72;69;73;78;65;80].
Definition w_CHEN : str := [67;72;69;78].
Definition w_CHEP : str := [67;72;69;80].
Definition w_CHEQUERED : str := [67;72;69;81;85;69;82;69;68].
Definition w_CHEROKEE : str := [67;72;69;82;79;75;69;69].
Definition w_CHERRIES : str := [67;72;69;82;82;73;69;83].
Definition w_CHERRY : str := [67;72;69;82;82;89].
Definition w_CHERY : str := [67;72;69;82;89].
Definition w_CHESS : str := [67;72;69;83;83].
Definition w_CHEST : str := [67;72;69;83;84].
Definition w_CHESTNUT : str := [67;72;69;83;84;78;85;84].
Definition w_CHET : str := [67;72;69;84].
Definition w_CHEVRON : str := [67;72;69;86;82;79;78].
Definition w_CHEX : str := [67;72;69;88].
Definition w_CHHA : str := [67;72;72;65].
Definition w_CHI : str := [67;72;73].
Definition w_CHICK : str := [67;72;73;67;75].
Definition w_CHICKEN : str := [67;72;73;67;75;69;78].
Definition w_CHIEUCH : str := [67;72;73;69;85;67;72].
Definition w_CHIEUCH_HIEUH : str := [67;72;73;69;85;67;72;45;72;73;69;85;72].
Definition w_CHIEUCH_KHIEUKH : str := [67;72;73;69;85;67;72;45;75;72;73;69;85;75;72].
Definition w_CHIKI : str := [67;72;73;75;73].
Definition w_CHIL : str := [67;72;73;76].
Definition w_CHILD : str := [67;72;73;76;68].
Definition w_CHILDREN : str := [67;72;73;76;68;82;69;78].
Definition w_CHILLU : str := [67;72;73;76;76;85].
Definition w_CHIME : str := [67;72;73;77;69].
Definition w_CHIN : str := [67;72;73;78].
Definition w_CHINESE : str := [67;72;73;78;69;83;69].
Definition w_CHING : str := [67;72;73;78;71].
Definition w_CHINOOK : str := [67;72;73;78;79;79;75].
Definition w_CHIPMUNK : str := [67;72;73;80;77;85;78;75].
Definition w_CHIRET : str := [67;72;73;82;69;84].
Definition w_CHIRON : str := [67;72;73;82;79;78].
Definition w_CHITUEUMCHIEUCH : str := [67;72;73;84;85;69;85;77;67;72;73;69;85;67;72].
Definition w_CHITUEUMCIEUC : str := [67;72;73;84;85;69;85;77;67;73;69;85;67].
Definition w_CHITUEUMSIOS : str := [67;72;73;84;85;69;85;77;83;73;79;83].
Definition w_CHITUEUMSSANGCIEUC : str := [67;72;73;84;85;69;85;77;83;83;65;78;71;67;73;69;85;67].
Definition w_CHITUEUMSSANGSIOS : str := [67;72;73;84;85;69;85;77;83;83;65;78;71;83;73;79;83].
Definition w_CHO : str := [67;72;79].
Definition w_CHOA : str := [67;72;79;65].
Definition w_CHOCOLATE : str := [67;72;79;67;79;76;65;84;69].
Definition w_CHOE : str := [67;72;79;69].
Definition w_CHOKE : str := [67;72;79;75;69].
Definition w_CHOP : str := [67;72;79;80].
Definition w_CHOPSTICKS : str := [67;72;79;80;83;84;73;67;75;83].
Definition w_CHOREVMA : str := [67;72;79;82;69;86;77;65].
Definition w_CHOSEONG : str := [67;72;79;83;69;79;78;71].
Definition w_CHOT : str := [67;72;79;84].
Definition w_CHOX : str := [67;72;79;88].
Definition w_CHOY : str := [67;72;79;89].
Definition w_CHRISTMAS : str := [67;72;82;73;83;84;77;65;83].
Definition w_CHRIVI : str := [67;72;82;73;86;73].
Definition w_CHROA : str := [67;72;82;79;65].
Definition w_CHROMA : str := [67;72;82;79;77;65].
Definition w_CHRONON : str := [67;72;82;79;78;79;78].
Definition w_CHRONOU : str := [67;72;82;79;78;79;85].
Definition w_CHRYSANTHEMUM : str := [67;72;82;89;83;65;78;84;72;69;77;85;77].
Definition w_CHU : str := [67;72;85].
Definition w_CHULA : str := [67;72;85;76;65].
Definition w_CHUO : str := [67;72;85;79].
Definition w_CHUOP : str := [67;72;85;79;80].
Definition w_CHUOT : str := [67;72;85;79;84].
Definition w_CHUOX : str := [67;72;85;79;88].
Definition w_CHUP : str := [67;72;85;80].
Definition w_CHUR : str := [67;72;85;82].
Definition w_CHURCH : str := [67;72;85;82;67;72].
Definition w_CHURX : str := [67;72;85;82;88].
Definition w_CHUX : str := [67;72;85;88].
Definition w_CHWA : str := [67;72;87;65].
Definition w_CHWV : str := [67;72;87;86].
Definition w_CHY : str := [67;72;89].
Definition w_CHYP : str := [67;72;89;80].
Definition w_CHYR : str := [67;72;89;82].
Definition w_CHYRX : str := [67;72;89;82;88].
Definition w_CHYT : str := [67;72;89;84].
Definition w_CHYX : str := [67;72;89;88].
Definition w_CI : str := [67;73].
Definition w_CIE : str := [67;73;69].
Definition w_CIEP : str := [67;73;69;80].
Definition w_CIET : str := [67;73;69;84].
Definition w_CIEUC : str := [67;73;69;85;67].
Definition w_CIEUC_IEUNG : str := [67;73;69;85;67;45;73;69;85;78;71].
Definition w_CIEUC_PIEUP : str := [67;73;69;85;67;45;80;73;69;85;80].
Definition w_CIEUC_SSANGPIEUP : str := [67;73;69;85;67;45;83;83;65;78;71;80;73;69;85;80].
Definition w_CIEX : str := [67;73;69;88].
Definition w_CII : str := [67;73;73].
Definition w_CIL : str := [67;73;76].
Definition w_CIM : str := [67;73;77].
Definition w_CIN : str := [67;73;78].
Definition w_CINEMA : str := [67;73;78;69;77;65].
Definition w_CINNABAR : str := [67;73;78;78;65;66;65;82].
Definition w_CIP : str := [67;73;80].
Definition w_CIRCLE : str := [67;73;82;67;76;69].
Definition w_CIRCLED : str := [67;73;82;67;76;69;68].
Definition w_CIRCLES : str := [67;73;82;67;76;69;83].
Definition w_CIRCLING : str := [67;73;82;67;76;73;78;71].
Definition w_CIRCULAR : str := [67;73;82;67;85;76;65;82].
Definition w_CIRCULATION : str := [67;73;82;67;85;76;65;84;73;79;78].
Definition w_CIRCUMFLEX : str := [67;73;82;67;85;77;70;76;69;88].
Definition w_CIRCUS : str := [67;73;82;67;85;83].
Definition w_CIT : str := [67;73;84].
Definition w_CITATION : str := [67;73;84;65;84;73;79;78].
Definition w_CITI : str := [67;73;84;73].
Definition w_CITY : str := [67;73;84;89].
Definition w_CITYSCAPE : str := [67;73;84;89;83;67;65;80;69].
Definition w_CIVILIAN : str := [67;73;86;73;76;73;65;78].
Definition w_CIX : str := [67;73;88].
Definition w_CJK : str := [67;74;75].
Definition w_CL : str := [67;76].
Definition w_CLAIM : str := [67;76;65;73;77].
Definition w_CLAMSHELL : str := [67;76;65;77;83;72;69;76;76].
Definition w_CLAN : str := [67;76;65;78].
Definition w_CLAPPER : str := [67;76;65;80;80;69;82].
Definition w_CLAPPING : str := [67;76;65;80;80;73;78;71].
Definition w_CLASSICAL : str := [67;76;65;83;83;73;67;65;76].
Definition w_CLAW : str := [67;76;65;87].
Definition w_CLEAR : str := [67;76;69;65;82].
Definition w_CLEAVER : str := [67;76;69;65;86;69;82].
Definition w_CLEF : str := [67;76;69;70].
Definition w_CLEF_1 : str := [67;76;69;70;45;49].
Definition w_CLEF_2 : str := [67;76;69;70;45;50].
Definition w_CLICK : str := [67;76;73;67;75].
Definition w_CLIFF : str := [67;76;73;70;70].
Definition w_CLIMACUS : str := [67;76;73;77;65;67;85;83].
Definition w_CLIMBING : str := [67;76;73;77;66;73;78;71].
Definition w_CLINGING : str := [67;76;73;78;71;73;78;71].
Definition w_CLINKING : str := [67;76;73;78;75;73;78;71].
Definition w_CLIPBOARD : str := [67;76;73;80;66;79;65;82;68].
Definition w_CLIVIS : str := [67;76;73;86;73;83].
Definition w_CLOCK : str := [67;76;79;67;75].
Definition w_CLOCKWISE : str := [67;76;79;67;75;87;73;83;69].
Definition w_CLOSE : str := [67;76;79;83;69].
Definition w_CLOSED : str := [67;76;79;83;69;68].
Definition w_CLOSENESS : str := [67;76;79;83;69;78;69;83;83].
Definition w_CLOSET : str := [67;76;79;83;69;84].
Definition w_CLOSING : str := [67;76;79;83;73;78;71].
Definition w_CLOSURE : str := [67;76;79;83;85;82;69].
Definition w_CLOTH : str := [67;76;79;84;72].
Definition w_CLOTHES : str := [67;76;79;84;72;69;83].
Definition w_CLOUD : str := [67;76;79;85;68].
Definition w_CLOVER : str := [67;76;79;86;69;82].
Definition w_CLOWN : str := [67;76;79;87;78].
Definition w_CLUB : str := [67;76;85;66].
Definition w_CLUB_SPOKED : str := [67;76;85;66;45;83;80;79;75;69;68].
Definition w_CLUBS : str := [67;76;85;66;83].
Definition w_CLUSTER : str := [67;76;85;83;84;69;82].
Definition w_CLUSTER_FINAL : str := [67;76;85;83;84;69;82;45;70;73;78;65;76].
Definition w_CLUSTER_INITIAL : str := [67;76;85;83;84;69;82;45;73;78;73;84;73;65;76].
Definition w_CM : str := [67;77].
Definition w_CO : str := [67;79].
Definition w_COA : str := [67;79;65].
Definition w_COASTER : str := [67;79;65;83;84;69;82].
Definition w_COAT : str := [67;79;65;84].
Definition w_COCKTAIL : str := [67;79;67;75;84;65;73;76].
Definition w_COCONUT : str := [67;79;67;79;78;85;84].
Definition w_CODA : str := [67;79;68;65].
Definition w_COENG : str := [67;79;69;78;71].
Definition w_COFFIN : str := [67;79;70;70;73;78].
Definition w_COLD : str := [67;79;76;68].
Definition w_COLL : str := [67;79;76;76].
Definition w_COLLISION : str := [67;79;76;76;73;83;73;79;78].
Definition w_COLON : str := [67;79;76;79;78].
Definition w_COLOR : str := [67;79;76;79;82].
Definition w_COLUMN : str := [67;79;76;85;77;78].
Definition w_COMB : str := [67;79;77;66].
Definition w_COMBINATION : str := [67;79;77;66;73;78;65;84;73;79;78].
Definition w_COMBINED : str := [67;79;77;66;73;78;69;68].
Definition w_COMBINING : str := [67;79;77;66;73;78;73;78;71].
Definition w_COMET : str := [67;79;77;69;84].
Definition w_COMING : str := [67;79;77;73;78;71].
Definition w_COMMA : str := [67;79;77;77;65].
Definition w_COMMERCIAL : str := [67;79;77;77;69;82;67;73;65;76].
Definition w_COMMON : str := [67;79;77;77;79;78].
Definition w_COMPARE : str := [67;79;77;80;65;82;69].
Definition w_COMPATIBILITY : str := [67;79;77;80;65;84;73;66;73;76;73;84;89].
Definition w_COMPLEMENT : str := [67;79;77;80;76;69;77;69;78;84].
Definition w_COMPLETED : str := [67;79;77;80;76;69;84;69;68].
Definition w_COMPLETION : str := [67;79;77;80;76;69;84;73;79;78].
Definition w_COMPLIANCE : str := [67;79;77;80;76;73;65;78;67;69].
Definition w_COMPONENT_001 : str := [67;79;77;80;79;78;69;78;84;45;48;48;49].
Definition w_COMPONENT_002 : str := [67;79;77;80;79;78;69;78;84;45;48;48;50].
Definition w_COMPONENT_003 : str := [67;79;77;80;79;78;69;78;84;45;48;48;51].
Definition w_COMPONENT_004 : str := [67;79;77;80;79;78;69;78;84;45;48;48;52].
Definition w_COMPONENT_005 : str := [67;79;77;80;79;78;69;78;84;45;48;48;53].
Definition w_COMPONENT_006 : str := [67;79;77;80;79;78;69;78;84;45;48;48;54].
Definition w_COMPONENT_007 : str := [67;79;77;80;79;78;69;78;84;45;48;48;55].
Definition w_COMPONENT_008 : str := [67;79;77;80;79;78;69;78;84;45;48;48;56].
Definition w_COMPONENT_009 : str := [67;79;77;80;79;78;69;78;84;45;48;48;57].
Definition w_COMPONENT_010 : str := [67;79;77;80;79;78;69;78;84;45;48;49;48].
Definition w_COMPONENT_011 : str := [67;79;77;80;79;78;69;78;84;45;48;49;49].
Definition w_COMPONENT_012 : str := [67;79;77;80;79;78;69;78;84;45;48;49;50].
Definition w_COMPONENT_013 : str := [67;79;77;80;79;78;69;78;84;45;48;49;51].
Definition w_COMPONENT_014 : str := [67;79;77;80;79;78;69;78;84;45;48;49;52].
Definition w_COMPONENT_015 : str := [67;79;77;80;79;78;69;78;84;45;48;49;53].
Definition w_COMPONENT_016 : str := [67;79;77;80;79;78;69;78;84;45;48;49;54].
Definition w_COMPONENT_017 : str := [67;79;77;80;79;78;69;78;84;45;48;49;55].
Definition w_COMPONENT_018 : str := [67;79;77;80;79;78;69;78;84;45;48;49;56].
Definition w_COMPONENT_019 : str := [67;79;77;80;79;78;69;78;84;45;48;49;57].
Definition w_COMPONENT_020 : str := [67;79;77;80;79;78;69;78;84;45;48;50;48].
Definition w_COMPONENT_021 : str := [67;79;77;80;79;78;69;78;84;45;48;50;49].
Definition w_COMPONENT_022 : str := [67;79;77;80;79;78;69;78;84;45;48;50;50].
Definition w_COMPONENT_023 : str := [67;79;77;80;79;78;69;78;84;45;48;50;51].
Definition w_COMPONENT_024 : str := [67;79;77;80;79;78;69;78;84;45;48;50;52].
Definition w_COMPONENT_025 : str := [67;79;77;80;79;78;69;78;84;45;48;50;53].
Definition w_COMPONENT_026 : str := [67;79;77;80;79;78;69;78;84;45;48;50;54].
Definition w_COMPONENT_027 : str := [67;79;77;80;79;78;69;78;84;45;48;50;55].
Definition w_COMPONENT_028 : str := [67;79;77;80;79;78;69;78;84;45;48;50;56].
Definition w_COMPONENT_029 : str := [67;79;77;80;79;78;69;78;84;45;48;50;57].
Definition w_COMPONENT_030 : str := [67;79;77;80;79;78;69;78;84;45;48;51;48].
Definition w_COMPONENT_031 : str := [67;79;77;80;79;78;69;78;84;45;48;51;49].
Definition w_COMPONENT_032 : str := [67;79;77;80;79;78;69;78;84;45;48;51;50].
Definition w_COMPONENT_033 : str := [67;79;77;80;79;78;69;78;84;45;48;51;51].
Definition w_COMPONENT_034 : str := [67;79;77;80;79;78;69;78;84;45;48;51;52].
Definition w_COMPONENT_035 : str := [67;79;77;80;79;78;69;78;84;45;48;51;53].
Definition w_COMPONENT_036 : str := [67;79;77;80;79;78;69;78;84;45;48;51;54].
Definition w_COMPONENT_037 : str := [67;79;77;80;79;78;69;78;84;45;48;51;55].
Definition w_COMPONENT_038 : str := [67;79;77;80;79;78;69;78;84;45;48;51;56].
Definition w_COMPONENT_039 : str := [67;79;77;80;79;78;69;78;84;45;48;51;57].
Definition w_COMPONENT_040 : str := [67;79;77;80;79;78;69;78;84;45;48;52;48].
Definition w_COMPONENT_041 : str := [67;79;77;80;79;78;69;78;84;45;48;52;49].
Definition w_COMPONENT_042 : str := [67;79;77;80;79;78;69;78;84;45;48;52;50].
Definition w_COMPONENT_043 : str := [67;79;77;80;79;78;69;78;84;45;48;52;51].
Definition w_COMPONENT_044 : str := [67;79;77;80;79;78;69;78;84;45;48;52;52].
Definition w_COMPONENT_045 : str := [67;79;77;80;79;78;69;78;84;45;48;52;53].
Definition w_COMPONENT_046 : str := [67;79;77;80;79;78;69;78;84;45;48;52;54].
Definition w_COMPONENT_047 : str := [67;79;77;80;79;78;69;78;84;45;48;52;55].
Definition w_COMPONENT_048 : str := [67;79;77;80;79;78;69;78;84;45;48;52;56].
Definition w_COMPONENT_049 : str := [67;79;77;80;79;78;69;78;84;45;48;52;57].
Definition w_COMPONENT_050 : str := [67;79;77;80;79;78;69;78;84;45;48;53;48].
Definition w_COMPONENT_051 : str := [67;79;77;80;79;78;69;78;84;45;48;53;49].
Definition w_COMPONENT_052 : str := [67;79;77;80;79;78;69;78;84;45;48;53;50].
Definition w_COMPONENT_053 : str := [67;79;77;80;79;78;69;78;84;45;48;53;51].
Definition w_COMPONENT_054 : str := [67;79;77;80;79;78;69;78;84;45;48;53;52].
Definition w_COMPONENT_055 : str := [67;79;77;80;79;78;69;78;84;45;48;53;53].
Definition w_COMPONENT_056 : str := [67;79;77;80;79;78;69;78;84;45;48;53;54].
Definition w_COMPONENT_057 : str := [67;79;77;80;79;78;69;78;84;45;48;53;55].
Definition w_COMPONENT_058 : str := [67;79;77;80;79;78;69;78;84;45;48;53;56].
Definition w_COMPONENT_059 : str := [67;79;77;80;79;78;69;78;84;45;48;53;57].
Definition w_COMPONENT_060 : str := [67;79;77;80;79;78;69;78;84;45;48;54;48].
Definition w_COMPONENT_061 : str := [67;79;77;80;79;78;69;78;84;45;48;54;49].
Definition w_COMPONENT_062 : str := [67;79;77;80;79;78;69;78;84;45;48;54;50].
Definition w_COMPONENT_063 : str := [67;79;77;80;79;78;69;78;84;45;48;54;51].
Definition w_COMPONENT_064 : str := [67;79;77;80;79;78;69;78;84;45;48;54;52].
Definition w_COMPONENT_065 : str := [67;79;77;80;79;78;69;78;84;45;48;54;53].
Definition w_COMPONENT_066 : str := [67;79;77;80;79;78;69;78;84;45;48;54;54].
Definition w_COMPONENT_067 : str := [67;79;77;80;79;78;69;78;84;45;48;54;55].
Definition w_COMPONENT_068 : str := [67;79;77;80;79;78;69;78;84;45;48;54;56].
Definition w_COMPONENT_069 : str := [67;79;77;80;79;78;69;78;84;45;48;54;57].
Definition w_COMPONENT_070 : str := [67;79;77;80;79;78;69;78;84;45;48;55;48].
Definition w_COMPONENT_071 : str := [67;79;77;80;79;78;69;78;84;45;48;55;49].
Definition w_COMPONENT_072 : str := [67;79;77;80;79;78;69;78;84;45;48;55;50].
Definition w_COMPONENT_073 : str := [67;79;77;80;79;78;69;78;84;45;48;55;51].
Definition w_COMPONENT_074 : str := [67;79;77;80;79;78;69;78;84;45;48;55;52].
Definition w_COMPONENT_075 : str := [67;79;77;80;79;78;69;78;84;45;48;55;53].
Definition w_COMPONENT_076 : str := [67;79;77;80;79;78;69;78;84;45;48;55;54].
Definition w_COMPONENT_077 : str := [67;79;77;80;79;78;69;78;84;45;48;55;55].
Definition w_COMPONENT_078 : str := [67;79;77;80;79;78;69;78;84;45;48;55;56].
Definition w_COMPONENT_079 : str := [67;79;77;80;79;78;69;78;84;45;48;55;57].
Definition w_COMPONENT_080 : str := [67;79;77;80;79;78;69;78;84;45;48;56;48].
Definition w_COMPONENT_081 : str := [67;79;77;80;79;78;69;78;84;45;48;56;49].
Definition w_COMPONENT_082 : str := [67;79;77;80;79;78;69;78;84;45;48;56;50].
Definition w_COMPONENT_083 : str := [67;79;77;80;79;78;69;78;84;45;48;56;51].
Definition w_COMPONENT_084 : str := [67;79;77;80;79;78;69;78;84;45;48;56;52].
Definition w_COMPONENT_085 : str := [67;79;77;80;79;78;69;78;84;45;48;56;53].
Definition w_COMPONENT_086 : str := [67;79;77;80;79;78;69;78;84;45;48;56;54].
Definition w_COMPONENT_087 : str := [67;79;77;80;79;78;69;78;84;45;48;56;55].
Definition w_COMPONENT_088 : str := [67;79;77;80;79;78;69;78;84;45;48;56;56].
Definition w_COMPONENT_089 : str := [67;79;77;80;79;78;69;78;84;45;48;56;57].
Definition w_COMPONENT_090 : str := [67;79;77;80;79;78;69;78;84;45;48;57;48].
Definition w_COMPONENT_091 : str := [67;79;77;80;79;78;69;78;84;45;48;57;49].
Definition w_COMPONENT_092 : str := [67;79;77;80;79;78;69;78;84;45;48;57;50].
Definition w_COMPONENT_093 : str := [67;79;77;80;79;78;69;78;84;45;48;57;51].
Definition w_COMPONENT_094 : str := [67;79;77;80;79;78;69;78;84;45;48;57;52].
Definition w_COMPONENT_095 : str := [67;79;77;80;79;78;69;78;84;45;48;57;53].
Definition w_COMPONENT_096 : str := [67;79;77;80;79;78;69;78;84;45;48;57;54].
Definition w_COMPONENT_097 : str := [67;79;77;80;79;78;69;78;84;45;48;57;55].
Definition w_COMPONENT_098 : str := [67;79;77;80;79;78;69;78;84;45;48;57;56].
Definition w_COMPONENT_099 : str := [67;79;77;80;79;78;69;78;84;45;48;57;57].
Definition w_COMPONENT_100 : str := [67;79;77;80;79;78;69;78;84;45;49;48;48].
Definition w_COMPONENT_101 : str := [67;79;77;80;79;78;69;78;84;45;49;48;49].
Definition w_COMPONENT_102 : str := [67;79;77;80;79;78;69;78;84;45;49;48;50].
Definition w_COMPONENT_103 : str := [67;79;77;80;79;78;69;78;84;45;49;48;51].
Definition w_COMPONENT_104 : str := [67;79;77;80;79;78;69;78;84;45;49;48;52].
Definition w_COMPONENT_105 : str := [67;79;77;80;79;78;69;78;84;45;49;48;53].
Definition w_COMPONENT_106 : str := [67;79;77;80;79;78;69;78;84;45;49;48;54].
Definition w_COMPONENT_107 : str := [67;79;77;80;79;78;69;78;84;45;49;48;55].
Definition w_COMPONENT_108 : str := [67;79;77;80;79;78;69;78;84;45;49;48;56].
Definition w_COMPONENT_109 : str := [67;79;77;80;79;78;69;78;84;45;49;48;57].
Definition w_COMPONENT_110 : str := [67;79;77;80;79;78;69;78;84;45;49;49;48].
Definition w_COMPONENT_111 : str := [67;79;77;80;79;78;69;78;84;45;49;49;49].
Definition w_COMPONENT_112 : str := [67;79;77;80;79;78;69;78;84;45;49;49;50].
Definition w_COMPONENT_113 : str := [67;79;77;80;79;78;69;78;84;45;49;49;51].
Definition w_COMPONENT_114 : str := [67;79;77;80;79;78;69;78;84;45;49;49;52].
Definition w_COMPONENT_115 : str := [67;79;77;80;79;78;69;78;84;45;49;49;53].
Definition w_COMPONENT_116 : str := [67;79;77;80;79;78;69;78;84;45;49;49;54].
Definition w_COMPONENT_117 : str := [67;79;77;80;79;78;69;78;84;45;49;49;55].
Definition w_COMPONENT_118 : str := [67;79;77;80;79;78;69;78;84;45;49;49;56].
Definition w_COMPONENT_119 : str := [67;79;77;80;79;78;69;78;84;45;49;49;57].
Definition w_COMPONENT_120 : str := [67;79;77;80;79;78;69;78;84;45;49;50;48].
Definition w_COMPONENT_121 : str := [67;79;77;80;79;78;69;78;84;45;49;50;49].
Definition w_COMPONENT_122 : str := [67;79;77;80;79;78;69;78;84;45;49;50;50].
Definition w_COMPONENT_123 : str := [67;79;77;80;79;78;69;78;84;45;49;50;51].
Definition w_COMPONENT_124 : str := [67;79;77;80;79;78;69;78;84;45;49;50;52].
Definition w_COMPONENT_125 : str := [67;79;77;80;79;78;69;78;84;45;49;50;53].
Definition w_COMPONENT_126 : str := [67;79;77;80;79;78;69;78;84;45;49;50;54].
Definition w_COMPONENT_127 : str := [67;79;77;80;79;78;69;78;84;45;49;50;55].
Definition w_COMPONENT_128 : str := [67;79;77;80;79;78;69;78;84;45;49;50;56].
Definition w_COMPONENT_129 : str := [67;79;77;80;79;78;69;78;84;45;49;50;57].
Definition w_COMPONENT_130 : str := [67;79;77;80;79;78;69;78;84;45;49;51;48].
Definition w_COMPONENT_131 : str := [67;79;77;80;79;78;69;78;84;45;49;51;49].
Definition w_COMPONENT_132 : str := [67;79;77;80;79;78;69;78;84;45;49;51;50].
Definition w_COMPONENT_133 : str := [67;79;77;80;79;78;69;78;84;45;49;51;51].
Definition w_COMPONENT_134 : str := [67;79;77;80;79;78;69;78;84;45;49;51;52].
Definition w_COMPONENT_135 : str := [67;79;77;80;79;78;69;78;84;45;49;51;53].
Definition w_COMPONENT_136 : str := [67;79;77;80;79;78;69;78;84;45;49;51;54].
Definition w_COMPONENT_137 : str := [67;79;77;80;79;78;69;78;84;45;49;51;55].
Definition w_COMPONENT_138 : str := [67;79;77;80;79;78;69;78;84;45;49;51;56].
Definition w_COMPONENT_139 : str := [67;79;77;80;79;78;69;78;84;45;49;51;57].
Definition w_COMPONENT_140 : str := [67;79;77;80;79;78;69;78;84;45;49;52;48].
Definition w_COMPONENT_141 : str := [67;79;77;80;79;78;69;78;84;45;49;52;49].
Definition w_COMPONENT_142 : str := [67;79;77;80;79;78;69;78;84;45;49;52;50].
Definition w_COMPONENT_143 : str := [67;79;77;80;79;78;69;78;84;45;49;52;51].
Definition w_COMPONENT_144 : str := [67;79;77;80;79;78;69;78;84;45;49;52;52].
Definition w_COMPONENT_145 : str := [67;79;77;80;79;78;69;78;84;45;49;52;53].
Definition w_COMPONENT_146 : str := [67;79;77;80;79;78;69;78;84;45;49;52;54].
Definition w_COMPONENT_147 : str := [67;79;77;80;79;78;69;78;84;45;49;52;55].
Definition w_COMPONENT_148 : str := [67;79;77;80;79;78;69;78;84;45;49;52;56].
Definition w_COMPONENT_149 : str := [67;79;77;80;79;78;69;78;84;45;49;52;57].
Definition w_COMPONENT_150 : str := [67;79;77;80;79;78;69;78;84;45;49;53;48].
Definition w_COMPONENT_151 : str := [67;79;77;80;79;78;69;78;84;45;49;53;49].
Definition w_COMPONENT_152 : str := [67;79;77;80;79;78;69;78;84;45;49;53;50].
Definition w_COMPONENT_153 : str := [67;79;77;80;79;78;69;78;84;45;49;53;51].
Definition w_COMPONENT_154 : str := [67;79;77;80;79;78;69;78;84;45;49;53;52].
Definition w_COMPONENT_155 : str := [67;79;77;80;79;78;69;78;84;45;49;53;53].
Definition w_COMPONENT_156 : str := [67;79;77;80;79;78;69;78;84;45;49;53;54].
Definition w_COMPONENT_157 : str := [67;79;77;80;79;78;69;78;84;45;49;53;55].
Definition w_COMPONENT_158 : str := [67;79;77;80;79;78;69;78;84;45;49;53;56].
Definition w_COMPONENT_159 : str := [67;79;77;80;79;78;69;78;84;45;49;53;57].
Definition w_COMPONENT_160 : str := [67;79;77;80;79;78;69;78;84;45;49;54;48].
Definition w_COMPONENT_161 : str := [67;79;77;80;79;78;69;78;84;45;49;54;49].
Definition w_COMPONENT_162 : str := [67;79;77;80;79;78;69;78;84;45;49;54;50].
Definition w_COMPONENT_163 : str := [67;79;77;80;79;78;69;78;84;45;49;54;51].
Definition w_COMPONENT_164 : str := [67;79;77;80;79;78;69;78;84;45;49;54;52].
Definition w_COMPONENT_165 : str := [67;79;77;80;79;78;69;78;84;45;49;54;53].
Definition w_COMPONENT_166 : str := [67;79;77;80;79;78;69;78;84;45;49;54;54].
Definition w_COMPONENT_167 : str := [67;79;77;80;79;78;69;78;84;45;49;54;55].
Definition w_COMPONENT_168 : str := [67;79;77;80;79;78;69;78;84;45;49;54;56].
Definition w_COMPONENT_169 : str := [67;79;77;80;79;78;69;78;84;45;49;54;57].
Definition w_COMPONENT_170 : str := [67;79;77;80;79;78;69;78;84;45;49;55;48].
Definition w_COMPONENT_171 : str := [67;79;77;80;79;78;69;78;84;45;49;55;49].
Definition w_COMPONENT_172 : str := [67;79;77;80;79;78;69;78;84;45;49;55;50].
Definition w_COMPONENT_173 : str := [67;79;77;80;79;78;69;78;84;45;49;55;51].
Definition w_COMPONENT_174 : str := [67;79;77;80;79;78;69;78;84;45;49;55;52].
Definition w_COMPONENT_175 : str := [67;79;77;80;79;78;69;78;84;45;49;55;53].
Definition w_COMPONENT_176 : str := [67;79;77;80;79;78;69;78;84;45;49;55;54].
Definition w_COMPONENT_177 : str := [67;79;77;80;79;78;69;78;84;45;49;55;55].
Definition w_COMPONENT_178 : str := [67;79;77;80;79;78;69;78;84;45;49;55;56].
Definition w_COMPONENT_179 : str := [67;79;77;80;79;78;69;78;84;45;49;55;57].
Definition w_COMPONENT_180 : str := [67;79;77;80;79;78;69;78;84;45;49;56;48].
Definition w_COMPONENT_181 : str := [67;79;77;80;79;78;69;78;84;45;49;56;49].
Definition w_COMPONENT_182 : str := [67;79;77;80;79;78;69;78;84;45;49;56;50].
Definition w_COMPONENT_183 : str := [67;79;77;80;79;78;69;78;84;45;49;56;51].
Definition w_COMPONENT_184 : str := [67;79;77;80;79;78;69;78;84;45;49;56;52].
Definition w_COMPONENT_185 : str := [67;79;77;80;79;78;69;78;84;45;49;56;53].
Definition w_COMPONENT_186 : str := [67;79;77;80;79;78;69;78;84;45;49;56;54].
Definition w_COMPONENT_187 : str := [67;79;77;80;79;78;69;78;84;45;49;56;55].
Definition w_COMPONENT_188 : str := [67;79;77;80;79;78;69;78;84;45;49;56;56].
Definition w_COMPONENT_189 : str := [67;79;77;80;79;78;69;78;84;45;49;56;57].
Definition w_COMPONENT_190 : str := [67;79;77;80;79;78;69;78;84;45;49;57;48].
Definition w_COMPONENT_191 : str := [67;79;77;80;79;78;69;78;84;45;49;57;49].
Definition w_COMPONENT_192 : str := [67;79;77;80;79;78;69;78;84;45;49;57;50].
Definition w_COMPONENT_193 : str := [67;79;77;80;79;78;69;78;84;45;49;57;51].
Definition w_COMPONENT_194 : str := [67;79;77;80;79;78;69;78;84;45;49;57;52].
Definition w_COMPONENT_195 : str := [67;79;77;80;79;78;69;78;84;45;49;57;53].
Definition w_COMPONENT_196 : str := [67;79;77;80;79;78;69;78;84;45;49;57;54].
Definition w_COMPONENT_197 : str := [67;79;77;80;79;78;69;78;84;45;49;57;55].
Definition w_COMPONENT_198 : str := [67;79;77;80;79;78;69;78;84;45;49;57;56].
Definition w_COMPONENT_199 : str := [67;79;77;80;79;78;69;78;84;45;49;57;57].
Definition w_COMPONENT_200 : str := [67;79;77;80;79;78;69;78;84;45;50;48;48].
Definition w_COMPONENT_201 : str := [67;79;77;80;79;78;69;78;84;45;50;48;49].
Definition w_COMPONENT_202 : str := [67;79;77;80;79;78;69;78;84;45;50;48;50].
Definition w_COMPONENT_203 : str := [67;79;77;80;79;78;69;78;84;45;50;48;51].
Definition w_COMPONENT_204 : str := [67;79;77;80;79;78;69;78;84;45;50;48;52].
Definition w_COMPONENT_205 : str := [67;79;77;80;79;78;69;78;84;45;50;48;53].
Definition w_COMPONENT_206 : str := [67;79;77;80;79;78;69;78;84;45;50;48;54].
Definition w_COMPONENT_207 : str := [67;79;77;80;79;78;69;78;84;45;50;48;55].
Definition w_COMPONENT_208 : str := [67;79;77;80;79;78;69;78;84;45;50;48;56].
Definition w_COMPONENT_209 : str := [67;79;77;80;79;78;69;78;84;45;50;48;57].
Definition w_COMPONENT_210 : str := [67;79;77;80;79;78;69;78;84;45;50;49;48].
Definition w_COMPONENT_211 : str := [67;79;77;80;79;78;69;78;84;45;50;49;49].
Definition w_COMPONENT_212 : str := [67;79;77;80;79;78;69;78;84;45;50;49;50].
Definition w_COMPONENT_213 : str := [67;79;77;80;79;78;69;78;84;45;50;49;51].
Definition w_COMPONENT_214 : str := [67;79;77;80;79;78;69;78;84;45;50;49;52].
Definition w_COMPONENT_215 : str := [67;79;77;80;79;78;69;78;84;45;50;49;53].
Definition w_COMPONENT_216 : str := [67;79;77;80;79;78;69;78;84;45;50;49;54].
Definition w_COMPONENT_217 : str := [67;79;77;80;79;78;69;78;84;45;50;49;55].
Definition w_COMPONENT_218 : str := [67;79;77;80;79;78;69;78;84;45;50;49;56].
Definition w_COMPONENT_219 : str := [67;79;77;80;79;78;69;78;84;45;50;49;57].
Definition w_COMPONENT_220 : str := [67;79;77;80;79;78;69;78;84;45;50;50;48].
Definition w_COMPONENT_221 : str := [67;79;77;80;79;78;69;78;84;45;50;50;49].
Definition w_COMPONENT_222 : str := [67;79;77;80;79;78;69;78;84;45;50;50;50].
Definition w_COMPONENT_223 : str := [67;79;77;80;79;78;69;78;84;45;50;50;51].
Definition w_COMPONENT_224 : str := [67;79;77;80;79;78;69;78;84;45;50;50;52].
Definition w_COMPONENT_225 : str := [67;79;77;80;79;78;69;78;84;45;50;50;53].
Definition w_COMPONENT_226 : str := [67;79;77;80;79;78;69;78;84;45;50;50;54].
Definition w_COMPONENT_227 : str := [67;79;77;80;79;78;69;78;84;45;50;50;55].
Definition w_COMPONENT_228 : str := [67;79;77;80;79;78;69;78;84;45;50;50;56].
Definition w_COMPONENT_229 : str := [67;79;77;80;79;78;69;78;84;45;50;50;57].
Definition w_COMPONENT_230 : str := [67;79;77;80;79;78;69;78;84;45;50;51;48].
Definition w_COMPONENT_231 : str := [67;79;77;80;79;78;69;78;84;45;50;51;49].
Definition w_COMPONENT_232 : str := [67;79;77;80;79;78;69;78;84;45;50;51;50].
Definition w_COMPONENT_233 : str := [67;79;77;80;79;78;69;78;84;45;50;51;51].
Definition w_COMPONENT_234 : str := [67;79;77;80;79;78;69;78;84;45;50;51;52].
Definition w_COMPONENT_235 : str := [67;79;77;80;79;78;69;78;84;45;50;51;53].
Definition w_COMPONENT_236 : str := [67;79;77;80;79;78;69;78;84;45;50;51;54].
Definition w_COMPONENT_237 : str := [67;79;77;80;79;78;69;78;84;45;50;51;55].
Definition w_COMPONENT_238 : str := [67;79;77;80;79;78;69;78;84;45;50;51;56].
Definition w_COMPONENT_239 : str := [67;79;77;80;79;78;69;78;84;45;50;51;57].
Definition w_COMPONENT_240 : str := [67;79;77;80;79;78;69;78;84;45;50;52;48].
Definition w_COMPONENT_241 : str := [67;79;77;80;79;78;69;78;84;45;50;52;49].
Definition w_COMPONENT_242 : str := [67;79;77;80;79;78;69;78;84;45;50;52;50].
Definition w_COMPONENT_243 : str := [67;79;77;80;79;78;69;78;84;45;50;52;51].
Definition w_COMPONENT_244 : str := [67;79;77;80;79;78;69;78;84;45;50;52;52].
Definition w_COMPONENT_245 : str := [67;79;77;80;79;78;69;78;84;45;50;52;53].
Definition w_COMPONENT_246 : str := [67;79;77;80;79;78;69;78;84;45;50;52;54].
Definition w_COMPONENT_247 : str := [67;79;77;80;79;78;69;78;84;45;50;52;55].
Definition w_COMPONENT_248 : str := [67;79;77;80;79;78;69;78;84;45;50;52;56].
Definition w_COMPONENT_249 : str := [67;79;77;80;79;78;69;78;84;45;50;52;57].
Definition w_COMPONENT_250 : str := [67;79;77;80;79;78;69;78;84;45;50;53;48].
Definition w_COMPONENT_251 : str := [67;79;77;80;79;78;69;78;84;45;50;53;49].
Definition w_COMPONENT_252 : str := [67;79;77;80;79;78;69;78;84;45;50;53;50].
Definition w_COMPONENT_253 : str := [67;79;77;80;79;78;69;78;84;45;50;53;51].
Definition w_COMPONENT_254 : str := [67;79;77;80;79;78;69;78;84;45;50;53;52].
Definition w_COMPONENT_255 : str := [67;79;77;80;79;78;69;78;84;45;50;53;53].
Definition w_COMPONENT_256 : str := [67;79;77;80;79;78;69;78;84;45;50;53;54].
Definition w_COMPONENT_257 : str := [67;79;77;80;79;78;69;78;84;45;50;53;55].
Definition w_COMPONENT_258 : str := [67;79;77;80;79;78;69;78;84;45;50;53;56].
Definition w_COMPONENT_259 : str := [67;79;77;80;79;78;69;78;84;45;50;53;57].
Definition w_COMPONENT_260 : str := [67;79;77;80;79;78;69;78;84;45;50;54;48].
Definition w_COMPONENT_261 : str := [67;79;77;80;79;78;69;78;84;45;50;54;49].
Definition w_COMPONENT_262 : str := [67;79;77;80;79;78;69;78;84;45;50;54;50].
Definition w_COMPONENT_263 : str := [67;79;77;80;79;78;69;78;84;45;50;54;51].
Definition w_COMPONENT_264 : str := [67;79;77;80;79;78;69;78;84;45;50;54;52].
Definition w_COMPONENT_265 : str := [67;79;77;80;79;78;69;78;84;45;50;54;53].
Definition w_COMPONENT_266 : str := [67;79;77;80;79;78;69;78;84;45;50;54;54].
Definition w_COMPONENT_267 : str := [67;79;77;80;79;78;69;78;84;45;50;54;55].
Definition w_COMPONENT_268 : str := [67;79;77;80;79;78;69;78;84;45;50;54;56].
Definition w_COMPONENT_269 : str := [67;79;77;80;79;78;69;78;84;45;50;54;57].
Definition w_COMPONENT_270 : str := [67;79;77;80;79;78;69;78;84;45;50;55;48].
Definition w_COMPONENT_271 : str := [67;79;77;80;79;78;69;78;84;45;50;55;49].
Definition w_COMPONENT_272 : str := [67;79;77;80;79;78;69;78;84;45;50;55;50].
Definition w_COMPONENT_273 : str := [67;79;77;80;79;78;69;78;84;45;50;55;51].
Definition w_COMPONENT_274 : str := [67;79;77;80;79;78;69;78;84;45;50;55;52].
Definition w_COMPONENT_275 : str := [67;79;77;80;79;78;69;78;84;45;50;55;53].
Definition w_COMPONENT_276 : str := [67;79;77;80;79;78;69;78;84;45;50;55;54].
Definition w_COMPONENT_277 : str := [67;79;77;80;79;78;69;78;84;45;50;55;55].
Definition w_COMPONENT_278 : str := [67;79;77;80;79;78;69;78;84;45;50;55;56].
Definition w_COMPONENT_279 : str := [67;79;77;80;79;78;69;78;84;45;50;55;57].
Definition w_COMPONENT_280 : str := [67;79;77;80;79;78;69;78;84;45;50;56;48].
Definition w_COMPONENT_281 : str := [67;79;77;80;79;78;69;78;84;45;50;56;49].
Definition w_COMPONENT_282 : str := [67;79;77;80;79;78;69;78;84;45;50;56;50].
Definition w_COMPONENT_283 : str := [67;79;77;80;79;78;69;78;84;45;50;56;51].
Definition w_COMPONENT_284 : str := [67;79;77;80;79;78;69;78;84;45;50;56;52].
Definition w_COMPONENT_285 : str := [67;79;77;80;79;78;69;78;84;45;50;56;53].
Definition w_COMPONENT_286 : str := [67;79;77;80;79;78;69;78;84;45;50;56;54].
Definition w_COMPONENT_287 : str := [67;79;77;80;79;78;69;78;84;45;50;56;55].
Definition w_COMPONENT_288 : str := [67;79;77;80;79;78;69;78;84;45;50;56;56].
Definition w_COMPONENT_289 : str := [67;79;77;80;79;78;69;78;84;45;50;56;57].
Definition w_COMPONENT_290 : str := [67;79;77;80;79;78;69;78;84;45;50;57;48].
Definition w_COMPONENT_291 : str := [67;79;77;80;79;78;69;78;84;45;50;57;49].
Definition w_COMPONENT_292 : str := [67;79;77;80;79;78;69;78;84;45;50;57;50].
Definition w_COMPONENT_293 : str := [67;79;77;80;79;78;69;78;84;45;50;57;51].
Definition w_COMPONENT_294 : str := [67;79;77;80;79;78;69;78;84;45;50;57;52].
Definition w_COMPONENT_295 : str := [67;79;77;80;79;78;69;78;84;45;50;57;53].
Definition w_COMPONENT_296 : str := [67;79;77;80;79;78;69;78;84;45;50;57;54].
Definition w_COMPONENT_297 : str := [67;79;77;80;79;78;69;78;84;45;50;57;55].
Definition w_COMPONENT_298 : str := [67;79;77;80;79;78;69;78;84;45;50;57;56].
Definition w_COMPONENT_299 : str := [67;79;77;80;79;78;69;78;84;45;50;57;57].
Definition w_COMPONENT_300 : str := [67;79;77;80;79;78;69;78;84;45;51;48;48].
Definition w_COMPONENT_301 : str := [67;79;77;80;79;78;69;78;84;45;51;48;49].
Definition w_COMPONENT_302 : str := [67;79;77;80;79;78;69;78;84;45;51;48;50].
Definition w_COMPONENT_303 : str := [67;79;77;80;79;78;69;78;84;45;51;48;51].
Definition w_COMPONENT_304 : str := [67;79;77;80;79;78;69;78;84;45;51;48;52].
Definition w_COMPONENT_305 : str := [67;79;77;80;79;78;69;78;84;45;51;48;53].
Definition w_COMPONENT_306 : str := [67;79;77;80;79;78;69;78;84;45;51;48;54].
Definition w_COMPONENT_307 : str := [67;79;77;80;79;78;69;78;84;45;51;48;55].
Definition w_COMPONENT_308 : str := [67;79;77;80;79;78;69;78;84;45;51;48;56].
Definition w_COMPONENT_309 : str := [67;79;77;80;79;78;69;78;84;45;51;48;57].
Definition w_COMPONENT_310 : str := [67;79;77;80;79;78;69;78;84;45;51;49;48].
Definition w_COMPONENT_311 : str := [67;79;77;80;79;78;69;78;84;45;51;49;49].
Definition w_COMPONENT_312 : str := [67;79;77;80;79;78;69;78;84;45;51;49;50].
Definition w_COMPONENT_313 : str := [67;79;77;80;79;78;69;78;84;45;51;49;51].
Definition w_COMPONENT_314 : str := [67;79;77;80;79;78;69;78;84;45;51;49;52].
Definition w_COMPONENT_315 : str := [67;79;77;80;79;78;69;78;84;45;51;49;53].
Definition w_COMPONENT_316 : str := [67;79;77;80;79;78;69;78;84;45;51;49;54].
Definition w_COMPONENT_317 : str := [67;79;77;80;79;78;69;78;84;45;51;49;55].
Definition w_COMPONENT_318 : str := [67;79;77;80;79;78;69;78;84;45;51;49;56].
Definition w_COMPONENT_319 : str := [67;79;77;80;79;78;69;78;84;45;51;49;57].
Definition w_COMPONENT_320 : str := [67;79;77;80;79;78;69;78;84;45;51;50;48].
Definition w_COMPONENT_321 : str := [67;79;77;80;79;78;69;78;84;45;51;50;49].
Definition w_COMPONENT_322 : str := [67;79;77;80;79;78;69;78;84;45;51;50;50].
Definition w_COMPONENT_323 : str := [67;79;77;80;79;78;69;78;84;45;51;50;51].
Definition w_COMPONENT_324 : str := [67;79;77;80;79;78;69;78;84;45;51;50;52].
Definition w_COMPONENT_325 : str := [67;79;77;80;79;78;69;78;84;45;51;50;53].
Definition w_COMPONENT_326 : str := [67;79;77;80;79;78;69;78;84;45;51;50;54].
Definition w_COMPONENT_327 : str := [67;79;77;80;79;78;69;78;84;45;51;50;55].
Definition w_COMPONENT_328 : str := [67;79;77;80;79;78;69;78;84;45;51;50;56].
Definition w_COMPONENT_329 : str := [67;79;77;80;79;78;69;78;84;45;51;50;57].
Definition w_COMPONENT_330 : str := [67;79;77;80;79;78;69;78;84;45;51;51;48].
Definition w_COMPONENT_331 : str := [67;79;77;80;79;78;69;78;84;45;51;51;49].
Definition w_COMPONENT_332 : str := [67;79;77;80;79;78;69;78;84;45;51;51;50].
Definition w_COMPONENT_333 : str := [67;79;77;80;79;78;69;78;84;45;51;51;51].
Definition w_COMPONENT_334 : str := [67;79;77;80;79;78;69;78;84;45;51;51;52].
Definition w_COMPONENT_335 : str := [67;79;77;80;79;78;69;78;84;45;51;51;53].
Definition w_COMPONENT_336 : str := [67;79;77;80;79;78;69;78;84;45;51;51;54].
Definition w_COMPONENT_337 : str := [67;79;77;80;79;78;69;78;84;45;51;51;55].
Definition w_COMPONENT_338 : str := [67;79;77;80;79;78;69;78;84;45;51;51;56].
Definition w_COMPONENT_339 : str := [67;79;77;80;79;78;69;78;84;45;51;51;57].
Definition w_COMPONENT_340 : str := [67;79;77;80;79;78;69;78;84;45;51;52;48].
Definition w_COMPONENT_341 : str := [67;79;77;80;79;78;69;78;84;45;51;52;49].
Definition w_COMPONENT_342 : str := [67;79;77;80;79;78;69;78;84;45;51;52;50].
Definition w_COMPONENT_343 : str := [67;79;77;80;79;78;69;78;84;45;51;52;51].
Definition w_COMPONENT_344 : str := [67;79;77;80;79;78;69;78;84;45;51;52;52].
Definition w_COMPONENT_345 : str := [67;79;77;80;79;78;69;78;84;45;51;52;53].
Definition w_COMPONENT_346 : str := [67;79;77;80;79;78;69;78;84;45;51;52;54].
Definition w_COMPONENT_347 : str := [67;79;77;80;79;78;69;78;84;45;51;52;55].
Definition w_COMPONENT_348 : str := [67;79;77;80;79;78;69;78;84;45;51;52;56].
Definition w_COMPONENT_349 : str := [67;79;77;80;79;78;69;78;84;45;51;52;57].
Definition w_COMPONENT_350 : str := [67;79;77;80;79;78;69;78;84;45;51;53;48].
Definition w_COMPONENT_351 : str := [67;79;77;80;79;78;69;78;84;45;51;53;49].
Definition w_COMPONENT_352 : str := [67;79;77;80;79;78;69;78;84;45;51;53;50].
Definition w_COMPONENT_353 : str := [67;79;77;80;79;78;69;78;84;45;51;53;51].
Definition w_COMPONENT_354 : str := [67;79;77;80;79;78;69;78;84;45;51;53;52].
Definition w_COMPONENT_355 : str := [67;79;77;80;79;78;69;78;84;45;51;53;53].
Definition w_COMPONENT_356 : str := [67;79;77;80;79;78;69;78;84;45;51;53;54].
Definition w_COMPONENT_357 : str := [67;79;77;80;79;78;69;78;84;45;51;53;55].
Definition w_COMPONENT_358 : str := [67;79;77;80;79;78;69;78;84;45;51;53;56].
Definition w_COMPONENT_359 : str := [67;79;77;80;79;78;69;78;84;45;51;53;57].
Definition w_COMPONENT_360 : str := [67;79;77;80;79;78;69;78;84;45;51;54;48].
Definition w_COMPONENT_361 : str := [67;79;77;80;79;78;69;78;84;45;51;54;49].
Definition w_COMPONENT_362 : str := [67;79;77;80;79;78;69;78;84;45;51;54;50].
Definition w_COMPONENT_363 : str := [67;79;77;80;79;78;69;78;84;45;51;54;51].
Definition w_COMPONENT_364 : str := [67;79;77;80;79;78;69;78;84;45;51;54;52].
Definition w_COMPONENT_365 : str := [67;79;77;80;79;78;69;78;84;45;51;54;53].
Definition w_COMPONENT_366 : str := [67;79;77;80;79;78;69;78;84;45;51;54;54].
Definition w_COMPONENT_367 : str := [67;79;77;80;79;78;69;78;84;45;51;54;55].
Definition w_COMPONENT_368 : str := [67;79;77;80;79;78;69;78;84;45;51;54;56].
Definition w_COMPONENT_369 : str := [67;79;77;80;79;78;69;78;84;45;51;54;57].
Definition w_COMPONENT_370 : str := [67;79;77;80;79;78;69;78;84;45;51;55;48].
Definition w_COMPONENT_371 : str := [67;79;77;80;79;78;69;78;84;45;51;55;49].
Definition w_COMPONENT_372 : str := [67;79;77;80;79;78;69;78;84;45;51;55;50].
Definition w_COMPONENT_373 : str := [67;79;77;80;79;78;69;78;84;45;51;55;51].
Definition w_COMPONENT_374 : str := [67;79;77;80;79;78;69;78;84;45;51;55;52].
Definition w_COMPONENT_375 : str := [67;79;77;80;79;78;69;78;84;45;51;55;53].
Definition w_COMPONENT_376 : str := [67;79;77;80;79;78;69;78;84;45;51;55;54].
Definition w_COMPONENT_377 : str := [67;79;77;80;79;78;69;78;84;45;51;55;55].
Definition w_COMPONENT_378 : str := [67;79;77;80;79;78;69;78;84;45;51;55;56].
Definition w_COMPONENT_379 : str := [67;79;77;80;79;78;69;78;84;45;51;55;57].
Definition w_COMPONENT_380 : str := [67;79;77;80;79;78;69;78;84;45;51;56;48].
Definition w_COMPONENT_381 : str := [67;79;77;80;79;78;69;78;84;45;51;56;49].
Definition w_COMPONENT_382 : str := [67;79;77;80;79;78;69;78;84;45;51;56;50].
Definition w_COMPONENT_383 : str := [67;79;77;80;79;78;69;78;84;45;51;56;51].
Definition w_COMPONENT_384 : str := [67;79;77;80;79;78;69;78;84;45;51;56;52].
Definition w_COMPONENT_385 : str := [67;79;77;80;79;78;69;78;84;45;51;56;53].
Definition w_COMPONENT_386 : str := [67;79;77;80;79;78;69;78;84;45;51;56;54].
Definition w_COMPONENT_387 : str := [67;79;77;80;79;78;69;78;84;45;51;56;55].
Definition w_COMPONENT_388 : str := [67;79;77;80;79;78;69;78;84;45;51;56;56].
Definition w_COMPONENT_389 : str := [67;79;77;80;79;78;69;78;84;45;51;56;57].
Definition w_COMPONENT_390 : str := [67;79;77;80;79;78;69;78;84;45;51;57;48].
Definition w_COMPONENT_391 : str := [67;79;77;80;79;78;69;78;84;45;51;57;49].
Definition w_COMPONENT_392 : str := [67;79;77;80;79;78;69;78;84;45;51;57;50].
Definition w_COMPONENT_393 : str := [67;79;77;80;79;78;69;78;84;45;51;57;51].
Definition w_COMPONENT_394 : str := [67;79;77;80;79;78;69;78;84;45;51;57;52].
Definition w_COMPONENT_395 : str := [67;79;77;80;79;78;69;78;84;45;51;57;53].
Definition w_COMPONENT_396 : str := [67;79;77;80;79;78;69;78;84;45;51;57;54].
Definition w_COMPONENT_397 : str := [67;79;77;80;79;78;69;78;84;45;51;57;55].
Definition w_COMPONENT_398 : str := [67;79;77;80;79;78;69;78;84;45;51;57;56].
Definition w_COMPONENT_399 : str := [67;79;77;80;79;78;69;78;84;45;51;57;57].
Definition w_COMPONENT_400 : str := [67;79;77;80;79;78;69;78;84;45;52;48;48].
Definition w_COMPONENT_401 : str := [67;79;77;80;79;78;69;78;84;45;52;48;49].
Definition w_COMPONENT_402 : str := [67;79;77;80;79;78;69;78;84;45;52;48;50].
Definition w_COMPONENT_403 : str := [67;79;77;80;79;78;69;78;84;45;52;48;51].
Definition w_COMPONENT_404 : str := [67;79;77;80;79;78;69;78;84;45;52;48;52].
Definition w_COMPONENT_405 : str := [67;79;77;80;79;78;69;78;84;45;52;48;53].
Definition w_COMPONENT_406 : str := [67;79;77;80;79;78;69;78;84;45;52;48;54].
Definition w_COMPONENT_407 : str := [67;79;77;80;79;78;69;78;84;45;52;48;55].
Definition w_COMPONENT_408 : str := [67;79;77;80;79;78;69;78;84;45;52;48;56].
Definition w_COMPONENT_409 : str := [67;79;77;80;79;78;69;78;84;45;52;48;57].
Definition w_COMPONENT_410 : str := [67;79;77;80;79;78;69;78;84;45;52;49;48].
Definition w_COMPONENT_411 : str := [67;79;77;80;79;78;69;78;84;45;52;49;49].
Definition w_COMPONENT_412 : str := [67;79;77;80;79;78;69;78;84;45;52;49;50].
Definition w_COMPONENT_413 : str := [67;79;77;80;79;78;69;78;84;45;52;49;51].
Definition w_COMPONENT_414 : str := [67;79;77;80;79;78;69;78;84;45;52;49;52].
Definition w_COMPONENT_415 : str := [67;79;77;80;79;78;69;78;84;45;52;49;53].
Definition w_COMPONENT_416 : str := [67;79;77;80;79;78;69;78;84;45;52;49;54].
Definition w_COMPONENT_417 : str := [67;79;77;80;79;78;69;78;84;45;52;49;55].
Definition w_COMPONENT_418 : str := [67;79;77;80;79;78;69;78;84;45;52;49;56].
Definition w_COMPONENT_419 : str := [67;79;77;80;79;78;69;78;84;45;52;49;57].
Definition w_COMPONENT_420 : str := [67;79;77;80;79;78;69;78;84;45;52;50;48].
Definition w_COMPONENT_421 : str := [67;79;77;80;79;78;69;78;84;45;52;50;49].
Definition w_COMPONENT_422 : str := [67;79;77;80;79;78;69;78;84;45;52;50;50].
Definition w_COMPONENT_423 : str := [67;79;77;80;79;78;69;78;84;45;52;50;51].
Definition w_COMPONENT_424 : str := [67;79;77;80;79;78;69;78;84;45;52;50;52].
Definition w_COMPONENT_425 : str := [67;79;77;80;79;78;69;78;84;45;52;50;53].
Definition w_COMPONENT_426 : str := [67;79;77;80;79;78;69;78;84;45;52;50;54].
Definition w_COMPONENT_427 : str := [67;79;77;80;79;78;69;78;84;45;52;50;55].
Definition w_COMPONENT_428 : str := [67;79;77;80;79;78;69;78;84;45;52;50;56].
Definition w_COMPONENT_429 : str := [67;79;77;80;79;78;69;78;84;45;52;50;57].
Definition w_COMPONENT_430 : str := [67;79;77;80;79;78;69;78;84;45;52;51;48].
Definition w_COMPONENT_431 : str := [67;79;77;80;79;78;69;78;84;45;52;51;49].
Definition w_COMPONENT_432 : str := [67;79;77;80;79;78;69;78;84;45;52;51;50].
Definition w_COMPONENT_433 : str := [67;79;77;80;79;78;69;78;84;45;52;51;51].
Definition w_COMPONENT_434 : str := [67;79;77;80;79;78;69;78;84;45;52;51;52].
Definition w_COMPONENT_435 : str := [67;79;77;80;79;78;69;78;84;45;52;51;53].
Definition w_COMPONENT_436 : str := [67;79;77;80;79;78;69;78;84;45;52;51;54].
Definition w_COMPONENT_437 : str := [67;79;77;80;79;78;69;78;84;45;52;51;55].
Definition w_COMPONENT_438 : str := [67;79;77;80;79;78;69;78;84;45;52;51;56].
Definition w_COMPONENT_439 : str := [67;79;77;80;79;78;69;78;84;45;52;51;57].
Definition w_COMPONENT_440 : str := [67;79;77;80;79;78;69;78;84;45;52;52;48].
Definition w_COMPONENT_441 : str := [67;79;77;80;79;78;69;78;84;45;52;52;49].
Definition w_COMPONENT_442 : str := [67;79;77;80;79;78;69;78;84;45;52;52;50].
Definition w_COMPONENT_443 : str := [67;79;77;80;79;78;69;78;84;45;52;52;51].
Definition w_COMPONENT_444 : str := [67;79;77;80;79;78;69;78;84;45;52;52;52].
Definition w_COMPONENT_445 : str := [67;79;77;80;79;78;69;78;84;45;52;52;53].
Definition w_COMPONENT_446 : str := [67;79;77;80;79;78;69;78;84;45;52;52;54].
Definition w_COMPONENT_447 : str := [67;79;77;80;79;78;69;78;84;45;52;52;55].
Definition w_COMPONENT_448 : str := [67;79;77;80;79;78;69;78;84;45;52;52;56].
Definition w_COMPONENT_449 : str := [67;79;77;80;79;78;69;78;84;45;52;52;57].
Definition w_COMPONENT_450 : str := [67;79;77;80;79;78;69;78;84;45;52;53;48].
Definition w_COMPONENT_451 : str := [67;79;77;80;79;78;69;78;84;45;52;53;49].
Definition w_COMPONENT_452 : str := [67;79;77;80;79;78;69;78;84;45;52;53;50].
Definition w_COMPONENT_453 : str := [67;79;77;80;79;78;69;78;84;45;52;53;51].
Definition w_COMPONENT_454 : str := [67;79;77;80;79;78;69;78;84;45;52;53;52].
Definition w_COMPONENT_455 : str := [67;79;77;80;79;78;69;78;84;45;52;53;53].
Definition w_COMPONENT_456 : str := [67;79;77;80;79;78;69;78;84;45;52;53;54].
Definition w_COMPONENT_457 : str := [67;79;77;80;79;78;69;78;84;45;52;53;55].
Definition w_COMPONENT_458 : str := [67;79;77;80;79;78;69;78;84;45;52;53;56].
Definition w_COMPONENT_459 : str := [67;79;77;80;79;78;69;78;84;45;52;53;57].
Definition w_COMPONENT_460 : str := [67;79;77;80;79;78;69;78;84;45;52;54;48].
Definition w_COMPONENT_461 : str := [67;79;77;80;79;78;69;78;84;45;52;54;49].
Definition w_COMPONENT_462 : str := [67;79;77;80;79;78;69;78;84;45;52;54;50].
Definition w_COMPONENT_463 : str := [67;79;77;80;79;78;69;78;84;45;52;54;51].
Definition w_COMPONENT_464 : str := [67;79;77;80;79;78;69;78;84;45;52;54;52].
Definition w_COMPONENT_465 : str := [67;79;77;80;79;78;69;78;84;45;52;54;53].
Definition w_COMPONENT_466 : str := [67;79;77;80;79;78;69;78;84;45;52;54;54].
Definition w_COMPONENT_467 : str := [67;79;77;80;79;78;69;78;84;45;52;54;55].
Definition w_COMPONENT_468 : str := [67;79;77;80;79;78;69;78;84;45;52;54;56].
Definition w_COMPONENT_469 : str := [67;79;77;80;79;78;69;78;84;45;52;54;57].
Definition w_COMPONENT_470 : str := [67;79;77;80;79;78;69;78;84;45;52;55;48].
Definition w_COMPONENT_471 : str := [67;79;77;80;79;78;69;78;84;45;52;55;49].
Definition w_COMPONENT_472 : str := [67;79;77;80;79;78;69;78;84;45;52;55;50].
Definition w_COMPONENT_473 : str := [67;79;77;80;79;78;69;78;84;45;52;55;51].
Definition w_COMPONENT_474 : str := [67;79;77;80;79;78;69;78;84;45;52;55;52].
Definition w_COMPONENT_475 : str := [67;79;77;80;79;78;69;78;84;45;52;55;53].
Definition w_COMPONENT_476 : str := [67;79;77;80;79;78;69;78;84;45;52;55;54].
Definition w_COMPONENT_477 : str := [67;79;77;80;79;78;69;78;84;45;52;55;55].
Definition w_COMPONENT_478 : str := [67;79;77;80;79;78;69;78;84;45;52;55;56].
Definition w_COMPONENT_479 : str := [67;79;77;80;79;78;69;78;84;45;52;55;57].
Definition w_COMPONENT_480 : str := [67;79;77;80;79;78;69;78;84;45;52;56;48].
Definition w_COMPONENT_481 : str := [67;79;77;80;79;78;69;78;84;45;52;56;49].
Definition w_COMPONENT_482 : str := [67;79;77;80;79;78;69;78;84;45;52;56;50].
Definition w_COMPONENT_483 : str := [67;79;77;80;79;78;69;78;84;45;52;56;51].
Definition w_COMPONENT_484 : str := [67;79;77;80;79;78;69;78;84;45;52;56;52].
Definition w_COMPONENT_485 : str := [67;79;77;80;79;78;69;78;84;45;52;56;53].
Definition w_COMPONENT_486 : str := [67;79;77;80;79;78;69;78;84;45;52;56;54].
Definition w_COMPONENT_487 : str := [67;79;77;80;79;78;69;78;84;45;52;56;55].
Definition w_COMPONENT_488 : str := [67;79;77;80;79;78;69;78;84;45;52;56;56].
Definition w_COMPONENT_489 : str := [67;79;77;80;79;78;69;78;84;45;52;56;57].
Definition w_COMPONENT_490 : str := [67;79;77;80;79;78;69;78;84;45;52;57;48].
Definition w_COMPONENT_491 : str := [67;79;77;80;79;78;69;78;84;45;52;57;49].
Definition w_COMPONENT_492 : str := [67;79;77;80;79;78;69;78;84;45;52;57;50].
Definition w_COMPONENT_493 : str := [67;79;77;80;79;78;69;78;84;45;52;57;51].
Definition w_COMPONENT_494 : str := [67;79;77;80;79;78;69;78;84;45;52;57;52].
Definition w_COMPONENT_495 : str := [67;79;77;80;79;78;69;78;84;45;52;57;53].
Definition w_COMPONENT_496 : str := [67;79;77;80;79;78;69;78;84;45;52;57;54].
Definition w_COMPONENT_497 : str := [67;79;77;80;79;78;69;78;84;45;52;57;55].
Definition w_COMPONENT_498 : str := [67;79;77;80;79;78;69;78;84;45;52;57;56].
Definition w_COMPONENT_499 : str := [67;79;77;80;79;78;69;78;84;45;52;57;57].
Definition w_COMPONENT_500 : str := [67;79;77;80;79;78;69;78;84;45;53;48;48].
Definition w_COMPONENT_501 : str := [67;79;77;80;79;78;69;78;84;45;53;48;49].
Definition w_COMPONENT_502 : str := [67;79;77;80;79;78;69;78;84;45;53;48;50].
Definition w_COMPONENT_503 : str := [67;79;77;80;79;78;69;78;84;45;53;48;51].
Definition w_COMPONENT_504 : str := [67;79;77;80;79;78;69;78;84;45;53;48;52].
Definition w_COMPONENT_505 : str := [67;79;77;80;79;78;69;78;84;45;53;48;53].
Definition w_COMPONENT_506 : str := [67;79;77;80;79;78;69;78;84;45;53;48;54].
Definition w_COMPONENT_507 : str := [67;79;77;80;79;78;69;78;84;45;53;48;55].
Definition w_COMPONENT_508 : str := [67;79;77;80;79;78;69;78;84;45;53;48;56].
Definition w_COMPONENT_509 : str := [67;79;77;80;79;78;69;78;84;45;53;48;57].
Definition w_COMPONENT_510 : str := [67;79;77;80;79;78;69;78;84;45;53;49;48].
Definition w_COMPONENT_511 : str := [67;79;77;80;79;78;69;78;84;45;53;49;49].
Definition w_COMPONENT_512 : str := [67;79;77;80;79;78;69;78;84;45;53;49;50].
Definition w_COMPONENT_513 : str := [67;79;77;80;79;78;69;78;84;45;53;49;51].
Definition w_COMPONENT_514 : str := [67;79;77;80;79;78;69;78;84;45;53;49;52].
Definition w_COMPONENT_515 : str := [67;79;77;80;79;78;69;78;84;45;53;49;53].
Definition w_COMPONENT_516 : str := [67;79;77;80;79;78;69;78;84;45;53;49;54].
Definition w_COMPONENT_517 : str := [67;79;77;80;79;78;69;78;84;45;53;49;55].
Definition w_COMPONENT_518 : str := [67;79;77;80;79;78;69;78;84;45;53;49;56].
Definition w_COMPONENT_519 : str := [67;79;77;80;79;78;69;78;84;45;53;49;57].
Definition w_COMPONENT_520 : str := [67;79;77;80;79;78;69;78;84;45;53;50;48].
Definition w_COMPONENT_521 : str := [67;79;77;80;79;78;69;78;84;45;53;50;49].
Definition w_COMPONENT_522 : str := [67;79;77;80;79;78;69;78;84;45;53;50;50].
Definition w_COMPONENT_523 : str := [67;79;77;80;79;78;69;78;84;45;53;50;51].
Definition w_COMPONENT_524 : str := [67;79;77;80;79;78;69;78;84;45;53;50;52].
Definition w_COMPONENT_525 : str := [67;79;77;80;79;78;69;78;84;45;53;50;53].
Definition w_COMPONENT_526 : str := [67;79;77;80;79;78;69;78;84;45;53;50;54].
Definition w_COMPONENT_527 : str := [67;79;77;80;79;78;69;78;84;45;53;50;55].
Definition w_COMPONENT_528 : str := [67;79;77;80;79;78;69;78;84;45;53;50;56].
Definition w_COMPONENT_529 : str := [67;79;77;80;79;78;69;78;84;45;53;50;57].
Definition w_COMPONENT_530 : str := [67;79;77;80;79;78;69;78;84;45;53;51;48].
Definition w_COMPONENT_531 : str := [67;79;77;80;79;78;69;78;84;45;53;51;49].
Definition w_COMPONENT_532 : str := [67;79;77;80;79;78;69;78;84;45;53;51;50].
Definition w_COMPONENT_533 : str := [67;79;77;80;79;78;69;78;84;45;53;51;51].
Definition w_COMPONENT_534 : str := [67;79;77;80;79;78;69;78;84;45;53;51;52].
Definition w_COMPONENT_535 : str := [67;79;77;80;79;78;69;78;84;45;53;51;53].
Definition w_COMPONENT_536 : str := [67;79;77;80;79;78;69;78;84;45;53;51;54].
Definition w_COMPONENT_537 : str := [67;79;77;80;79;78;69;78;84;45;53;51;55].
Definition w_COMPONENT_538 : str := [67;79;77;80;79;78;69;78;84;45;53;51;56].
Definition w_COMPONENT_539 : str := [67;79;77;80;79;78;69;78;84;45;53;51;57].
Definition w_COMPONENT_540 : str := [67;79;77;80;79;78;69;78;84;45;53;52;48].
Definition w_COMPONENT_541 : str := [67;79;77;80;79;78;69;78;84;45;53;52;49].
Definition w_COMPONENT_542 : str := [67;79;77;80;79;78;69;78;84;45;53;52;50].
Definition w_COMPONENT_543 : str := [67;79;77;80;79;78;69;78;84;45;53;52;51].
Definition w_COMPONENT_544 : str := [67;79;77;80;79;78;69;78;84;45;53;52;52].
Definition w_COMPONENT_545 : str := [67;79;77;80;79;78;69;78;84;45;53;52;53].
Definition w_COMPONENT_546 : str := [67;79;77;80;79;78;69;78;84;45;53;52;54].
Definition w_COMPONENT_547 : str := [67;79;77;80;79;78;69;78;84;45;53;52;55].
Definition w_COMPONENT_548 : str := [67;79;77;80;79;78;69;78;84;45;53;52;56].
Definition w_COMPONENT_549 : str := [67;79;77;80;79;78;69;78;84;45;53;52;57].
Definition w_COMPONENT_550 : str := [67;79;77;80;79;78;69;78;84;45;53;53;48].
Definition w_COMPONENT_551 : str := [67;79;77;80;79;78;69;78;84;45;53;53;49].
Definition w_COMPONENT_552 : str := [67;79;77;80;79;78;69;78;84;45;53;53;50].
Definition w_COMPONENT_553 : str := [67;79;77;80;79;78;69;78;84;45;53;53;51].
Definition w_COMPONENT_554 : str := [67;79;77;80;79;78;69;78;84;45;53;53;52].
Definition w_COMPONENT_555 : str := [67;79;77;80;79;78;69;78;84;45;53;53;53].
Definition w_COMPONENT_556 : str := [67;79;77;80;79;78;69;78;84;45;53;53;54].
Definition w_COMPONENT_557 : str := [67;79;77;80;79;78;69;78;84;45;53;53;55].
Definition w_COMPONENT_558 : str := [67;79;77;80;79;78;69;78;84;45;53;53;56].
Definition w_COMPONENT_559 : str := [67;79;77;80;79;78;69;78;84;45;53;53;57].
Definition w_COMPONENT_560 : str := [67;79;77;80;79;78;69;78;84;45;53;54;48].
Definition w_COMPONENT_561 : str := [67;79;77;80;79;78;69;78;84;45;53;54;49].
Definition w_COMPONENT_562 : str := [67;79;77;80;79;78;69;78;84;45;53;54;50].
Definition w_COMPONENT_563 : str := [67;79;77;80;79;78;69;78;84;45;53;54;51].
Definition w_COMPONENT_564 : str := [67;79;77;80;79;78;69;78;84;45;53;54;52].
Definition w_COMPONENT_565 : str := [67;79;77;80;79;78;69;78;84;45;53;54;53].
Definition w_COMPONENT_566 : str := [67;79;77;80;79;78;69;78;84;45;53;54;54].
Definition w_COMPONENT_567 : str := [67;79;77;80;79;78;69;78;84;45;53;54;55].
Definition w_COMPONENT_568 : str := [67;79;77;80;79;78;69;78;84;45;53;54;56].
Definition w_COMPONENT_569 : str := [67;79;77;80;79;78;69;78;84;45;53;54;57].
Definition w_COMPONENT_570 : str := [67;79;77;80;79;78;69;78;84;45;53;55;48].
Definition w_COMPONENT_571 : str := [67;79;77;80;79;78;69;78;84;45;53;55;49].
Definition w_COMPONENT_572 : str := [67;79;77;80;79;78;69;78;84;45;53;55;50].
Definition w_COMPONENT_573 : str := [67;79;77;80;79;78;69;78;84;45;53;55;51].
Definition w_COMPONENT_574 : str := [67;79;77;80;79;78;69;78;84;45;53;55;52].
Definition w_COMPONENT_575 : str := [67;79;77;80;79;78;69;78;84;45;53;55;53].
Definition w_COMPONENT_576 : str := [67;79;77;80;79;78;69;78;84;45;53;55;54].
Definition w_COMPONENT_577 : str := [67;79;77;80;79;78;69;78;84;45;53;55;55].
Definition w_COMPONENT_578 : str := [67;79;77;80;79;78;69;78;84;45;53;55;56].
Definition w_COMPONENT_579 : str := [67;79;77;80;79;78;69;78;84;45;53;55;57].
Definition w_COMPONENT_580 : str := [67;79;77;80;79;78;69;78;84;45;53;56;48].
Definition w_COMPONENT_581 : str := [67;79;77;80;79;78;69;78;84;45;53;56;49].
Definition w_COMPONENT_582 : str := [67;79;77;80;79;78;69;78;84;45;53;56;50].
Definition w_COMPONENT_583 : str := [67;79;77;80;79;78;69;78;84;45;53;56;51].
Definition w_COMPONENT_584 : str := [67;79;77;80;79;78;69;78;84;45;53;56;52].
Definition w_COMPONENT_585 : str := [67;79;77;80;79;78;69;78;84;45;53;56;53].
Definition w_COMPONENT_586 : str := [67;79;77;80;79;78;69;78;84;45;53;56;54].
Definition w_COMPONENT_587 : str := [67;79;77;80;79;78;69;78;84;45;53;56;55].
Definition w_COMPONENT_588 : str := [67;79;77;80;79;78;69;78;84;45;53;56;56].
Definition w_COMPONENT_589 : str := [67;79;77;80;79;78;69;78;84;45;53;56;57].
Definition w_COMPONENT_590 : str := [67;79;77;80;79;78;69;78;84;45;53;57;48].
Definition w_COMPONENT_591 : str := [67;79;77;80;79;78;69;78;84;45;53;57;49].
Definition w_COMPONENT_592 : str := [67;79;77;80;79;78;69;78;84;45;53;57;50].
Definition w_COMPONENT_593 : str := [67;79;77;80;79;78;69;78;84;45;53;57;51].
Definition w_COMPONENT_594 : str := [67;79;77;80;79;78;69;78;84;45;53;57;52].
Definition w_COMPONENT_595 : str := [67;79;77;80;79;78;69;78;84;45;53;57;53].
Definition w_COMPONENT_596 : str := [67;79;77;80;79;78;69;78;84;45;53;57;54].
Definition w_COMPONENT_597 : str := [67;79;77;80;79;78;69;78;84;45;53;57;55].
Definition w_COMPONENT_598 : str := [67;79;77;80;79;78;69;78;84;45;53;57;56].
Definition w_COMPONENT_599 : str := [67;79;77;80;79;78;69;78;84;45;53;57;57].
Definition w_COMPONENT_600 : str := [67;79;77;80;79;78;69;78;84;45;54;48;48].
Definition w_COMPONENT_601 : str := [67;79;77;80;79;78;69;78;84;45;54;48;49].
Definition w_COMPONENT_602 : str := [67;79;77;80;79;78;69;78;84;45;54;48;50].
Definition w_COMPONENT_603 : str := [67;79;77;80;79;78;69;78;84;45;54;48;51].
Definition w_COMPONENT_604 : str := [67;79;77;80;79;78;69;78;84;45;54;48;52].
Definition w_COMPONENT_605 : str := [67;79;77;80;79;78;69;78;84;45;54;48;53].
Definition w_COMPONENT_606 : str := [67;79;77;80;79;78;69;78;84;45;54;48;54].
Definition w_COMPONENT_607 : str := [67;79;77;80;79;78;69;78;84;45;54;48;55].
Definition w_COMPONENT_608 : str := [67;79;77;80;79;78;69;78;84;45;54;48;56].
Definition w_COMPONENT_609 : str := [67;79;77;80;79;78;69;78;84;45;54;48;57].
Definition w_COMPONENT_610 : str := [67;79;77;80;79;78;69;78;84;45;54;49;48].
Definition w_COMPONENT_611 : str := [67;79;77;80;79;78;69;78;84;45;54;49;49].
Definition w_COMPONENT_612 : str := [67;79;77;80;79;78;69;78;84;45;54;49;50].
Definition w_COMPONENT_613 : str := [67;79;77;80;79;78;69;78;84;45;54;49;51].
Definition w_COMPONENT_614 : str := [67;79;77;80;79;78;69;78;84;45;54;49;52].
Definition w_COMPONENT_615 : str := [67;79;77;80;79;78;69;78;84;45;54;49;53].
Definition w_COMPONENT_616 : str := [67;79;77;80;79;78;69;78;84;45;54;49;54].
Definition w_COMPONENT_617 : str := [67;79;77;80;79;78;69;78;84;45;54;49;55].
Definition w_COMPONENT_618 : str := [67;79;77;80;79;78;69;78;84;45;54;49;56].
Definition w_COMPONENT_619 : str := [67;79;77;80;79;78;69;78;84;45;54;49;57].
Definition w_COMPONENT_620 : str := [67;79;77;80;79;78;69;78;84;45;54;50;48].
Definition w_COMPONENT_621 : str := [67;79;77;80;79;78;69;78;84;45;54;50;49].
Definition w_COMPONENT_622 : str := [67;79;77;80;79;78;69;78;84;45;54;50;50].
Definition w_COMPONENT_623 : str := [67;79;77;80;79;78;69;78;84;45;54;50;51].
Definition w_COMPONENT_624 : str := [67;79;77;80;79;78;69;78;84;45;54;50;52].
Definition w_COMPONENT_625 : str := [67;79;77;80;79;78;69;78;84;45;54;50;53].
Definition w_COMPONENT_626 : str := [67;79;77;80;79;78;69;78;84;45;54;50;54].
Definition w_COMPONENT_627 : str := [67;79;77;80;79;78;69;78;84;45;54;50;55].
Definition w_COMPONENT_628 : str := [67;79;77;80;79;78;69;78;84;45;54;50;56].
Definition w_COMPONENT_629 : str := [67;79;77;80;79;78;69;78;84;45;54;50;57].
Definition w_COMPONENT_630 : str := [67;79;77;80;79;78;69;78;84;45;54;51;48].
Definition w_COMPONENT_631 : str := [67;79;77;80;79;78;69;78;84;45;54;51;49].
Definition w_COMPONENT_632 : str := [67;79;77;80;79;78;69;78;84;45;54;51;50].
Definition w_COMPONENT_633 : str := [67;79;77;80;79;78;69;78;84;45;54;51;51].
Definition w_COMPONENT_634 : str := [67;79;77;80;79;78;69;78;84;45;54;51;52].
Definition w_COMPONENT_635 : str := [67;79;77;80;79;78;69;78;84;45;54;51;53].
Definition w_COMPONENT_636 : str := [67;79;77;80;79;78;69;78;84;45;54;51;54].
Definition w_COMPONENT_637 : str := [67;79;77;80;79;78;69;78;84;45;54;51;55].
Definition w_COMPONENT_638 : str := [67;79;77;80;79;78;69;78;84;45;54;51;56].
Definition w_COMPONENT_639 : str := [67;79;77;80;79;78;69;78;84;45;54;51;57].
Definition w_COMPONENT_640 : str := [67;79;77;80;79;78;69;78;84;45;54;52;48].
Definition w_COMPONENT_641 : str := [67;79;77;80;79;78;69;78;84;45;54;52;49].
Definition w_COMPONENT_642 : str := [67;79;77;80;79;78;69;78;84;45;54;52;50].
Definition w_COMPONENT_643 : str := [67;79;77;80;79;78;69;78;84;45;54;52;51].
Definition w_COMPONENT_644 : str := [67;79;77;80;79;78;69;78;84;45;54;52;52].
Definition w_COMPONENT_645 : str := [67;79;77;80;79;78;69;78;84;45;54;52;53].
Definition w_COMPONENT_646 : str := [67;79;77;80;79;78;69;78;84;45;54;52;54].
Definition w_COMPONENT_647 : str := [67;79;77;80;79;78;69;78;84;45;54;52;55].
Definition w_COMPONENT_648 : str := [67;79;77;80;79;78;69;78;84;45;54;52;56].
Definition w_COMPONENT_649 : str := [67;79;77;80;79;78;69;78;84;45;54;52;57].
Definition w_COMPONENT_650 : str := [67;79;77;80;79;78;69;78;84;45;54;53;48].
Definition w_COMPONENT_651 : str := [67;79;77;80;79;78;69;78;84;45;54;53;49].
Definition w_COMPONENT_652 : str := [67;79;77;80;79;78;69;78;84;45;54;53;50].
Definition w_COMPONENT_653 : str := [67;79;77;80;79;78;69;78;84;45;54;53;51].
Definition w_COMPONENT_654 : str := [67;79;77;80;79;78;69;78;84;45;54;53;52].
Definition w_COMPONENT_655 : str := [67;79;77;80;79;78;69;78;84;45;54;53;53].
Definition w_COMPONENT_656 : str := [67;79;77;80;79;78;69;78;84;45;54;53;54].
Definition w_COMPONENT_657 : str := [67;79;77;80;79;78;69;78;84;45;54;53;55].
Definition w_COMPONENT_658 : str := [67;79;77;80;79;78;69;78;84;45;54;53;56].
Definition w_COMPONENT_659 : str := [67;79;77;80;79;78;69;78;84;45;54;53;57].
Definition w_COMPONENT_660 : str := [67;79;77;80;79;78;69;78;84;45;54;54;48].
Definition w_COMPONENT_661 : str := [67;79;77;80;79;78;69;78;84;45;54;54;49].
Definition w_COMPONENT_662 : str := [67;79;77;80;79;78;69;78;84;45;54;54;50].
Definition w_COMPONENT_663 : str := [67;79;77;80;79;78;69;78;84;45;54;54;51].
Definition w_COMPONENT_664 : str := [67;79;77;80;79;78;69;78;84;45;54;54;52].
Definition w_COMPONENT_665 : str := [67;79;77;80;79;78;69;78;84;45;54;54;53].
Definition w_COMPONENT_666 : str := [67;79;77;80;79;78;69;78;84;45;54;54;54].
Definition w_COMPONENT_667 : str := [67;79;77;80;79;78;69;78;84;45;54;54;55].
Definition w_COMPONENT_668 : str := [67;79;77;80;79;78;69;78;84;45;54;54;56].
Definition w_COMPONENT_669 : str := [67;79;77;80;79;78;69;78;84;45;54;54;57].
Definition w_COMPONENT_670 : str := [67;79;77;80;79;78;69;78;84;45;54;55;48].
Definition w_COMPONENT_671 : str := [67;79;77;80;79;78;69;78;84;45;54;55;49].
Definition w_COMPONENT_672 : str := [67;79;77;80;79;78;69;78;84;45;54;55;50].
Definition w_COMPONENT_673 : str := [67;79;77;80;79;78;69;78;84;45;54;55;51].
Definition w_COMPONENT_674 : str := [67;79;77;80;79;78;69;78;84;45;54;55;52].
Definition w_COMPONENT_675 : str := [67;79;77;80;79;78;69;78;84;45;54;55;53].
Definition w_COMPONENT_676 : str := [67;79;77;80;79;78;69;78;84;45;54;55;54].
Definition w_COMPONENT_677 : str := [67;79;77;80;79;78;69;78;84;45;54;55;55].
Definition w_COMPONENT_678 : str := [67;79;77;80;79;78;69;78;84;45;54;55;56].
Definition w_COMPONENT_679 : str := [67;79;77;80;79;78;69;78;84;45;54;55;57].
Definition w_COMPONENT_680 : str := [67;79;77;80;79;78;69;78;84;45;54;56;48].
Definition w_COMPONENT_681 : str := [67;79;77;80;79;78;69;78;84;45;54;56;49].
Definition w_COMPONENT_682 : str := [67;79;77;80;79;78;69;78;84;45;54;56;50].
Definition w_COMPONENT_683 : str := [67;79;77;80;79;78;69;78;84;45;54;56;51].
Definition w_COMPONENT_684 : str := [67;79;77;80;79;78;69;78;84;45;54;56;52].
Definition w_COMPONENT_685 : str := [67;79;77;80;79;78;69;78;84;45;54;56;53].
Definition w_COMPONENT_686 : str := [67;79;77;80;79;78;69;78;84;45;54;56;54].
Definition w_COMPONENT_687 : str := [67;79;77;80;79;78;69;78;84;45;54;56;55].
Definition w_COMPONENT_688 : str := [67;79;77;80;79;78;69;78;84;45;54;56;56].
Definition w_COMPONENT_689 : str := [67;79;77;80;79;78;69;78;84;45;54;56;57].
Definition w_COMPONENT_690 : str := [67;79;77;80;79;78;69;78;84;45;54;57;48].
Definition w_COMPONENT_691 : str := [67;79;77;80;79;78;69;78;84;45;54;57;49].
Definition w_COMPONENT_692 : str := [67;79;77;80;79;78;69;78;84;45;54;57;50].
Definition w_COMPONENT_693 : str := [67;79;77;80;79;78;69;78;84;45;54;57;51].
Definition w_COMPONENT_694 : str := [67;79;77;80;79;78;69;78;84;45;54;57;52].
Definition w_COMPONENT_695 : str := [67;79;77;80;79;78;69;78;84;45;54;57;53].
Definition w_COMPONENT_696 : str := [67;79;77;80;79;78;69;78;84;45;54;57;54].
Definition w_COMPONENT_697 : str := [67;79;77;80;79;78;69;78;84;45;54;57;55].
Definition w_COMPONENT_698 : str := [67;79;77;80;79;78;69;78;84;45;54;57;56].
Definition w_COMPONENT_699 : str := [67;79;77;80;79;78;69;78;84;45;54;57;57].
Definition w_COMPONENT_700 : str := [67;79;77;80;79;78;69;78;84;45;55;48;48].
Definition w_COMPONENT_701 : str := [67;79;77;80;79;78;69;78;84;45;55;48;49].
Definition w_COMPONENT_702 : str := [67;79;77;80;79;78;69;78;84;45;55;48;50].
Definition w_COMPONENT_703 : str := [67;79;77;80;79;78;69;78;84;45;55;48;51].
Definition w_COMPONENT_704 : str := [67;79;77;80;79;78;69;78;84;45;55;48;52].
Definition w_COMPONENT_705 : str := [67;79;77;80;79;78;69;78;84;45;55;48;53].
Definition w_COMPONENT_706 : str := [67;79;77;80;79;78;69;78;84;45;55;48;54].
Definition w_COMPONENT_707 : str := [67;79;77;80;79;78;69;78;84;45;55;48;55].
Definition w_COMPONENT_708 : str := [67;79;77;80;79;78;69;78;84;45;55;48;56].
Definition w_COMPONENT_709 : str := [67;79;77;80;79;78;69;78;84;45;55;48;57].
Definition w_COMPONENT_710 : str := [67;79;77;80;79;78;69;78;84;45;55;49;48].
Definition w_COMPONENT_711 : str := [67;79;77;80;79;78;69;78;84;45;55;49;49].
Definition w_COMPONENT_712 : str := [67;79;77;80;79;78;69;78;84;45;55;49;50].
Definition w_COMPONENT_713 : str := [67;79;77;80;79;78;69;78;84;45;55;49;51].
Definition w_COMPONENT_714 : str := [67;79;77;80;79;78;69;78;84;45;55;49;52].
Definition w_COMPONENT_715 : str := [67;79;77;80;79;78;69;78;84;45;55;49;53].
Definition w_COMPONENT_716 : str := [67;79;77;80;79;78;69;78;84;45;55;49;54].
Definition w_COMPONENT_717 : str := [67;79;77;80;79;78;69;78;84;45;55;49;55].
Definition w_COMPONENT_718 : str := [67;79;77;80;79;78;69;78;84;45;55;49;56].
Definition w_COMPONENT_719 : str := [67;79;77;80;79;78;69;78;84;45;55;49;57].
Definition w_COMPONENT_720 : str := [67;79;77;80;79;78;69;78;84;45;55;50;48].
Definition w_COMPONENT_721 : str := [67;79;77;80;79;78;69;78;84;45;55;50;49].
Definition w_COMPONENT_722 : str := [67;79;77;80;79;78;69;78;84;45;55;50;50].
Definition w_COMPONENT_723 : str := [67;79;77;80;79;78;69;78;84;45;55;50;51].
Definition w_COMPONENT_724 : str := [67;79;77;80;79;78;69;78;84;45;55;50;52].
Definition w_COMPONENT_725 : str := [67;79;77;80;79;78;69;78;84;45;55;50;53].
Definition w_COMPONENT_726 : str := [67;79;77;80;79;78;69;78;84;45;55;50;54].
Definition w_COMPONENT_727 : str := [67;79;77;80;79;78;69;78;84;45;55;50;55].
Definition w_COMPONENT_728 : str := [67;79;77;80;79;78;69;78;84;45;55;50;56].
Definition w_COMPONENT_729 : str := [67;79;77;80;79;78;69;78;84;45;55;50;57].
Definition w_COMPONENT_730 : str := [67;79;77;80;79;78;69;78;84;45;55;51;48].
Definition w_COMPONENT_731 : str := [67;79;77;80;79;78;69;78;84;45;55;51;49].
Definition w_COMPONENT_732 : str := [67;79;77;80;79;78;69;78;84;45;55;51;50].
Definition w_COMPONENT_733 : str := [67;79;77;80;79;78;69;78;84;45;55;51;51].
Definition w_COMPONENT_734 : str := [67;79;77;80;79;78;69;78;84;45;55;51;52].
Definition w_COMPONENT_735 : str := [67;79;77;80;79;78;69;78;84;45;55;51;53].
Definition w_COMPONENT_736 : str := [67;79;77;80;79;78;69;78;84;45;55;51;54].
Definition w_COMPONENT_737 : str := [67;79;77;80;79;78;69;78;84;45;55;51;55].
Definition w_COMPONENT_738 : str := [67;79;77;80;79;78;69;78;84;45;55;51;56].
Definition w_COMPONENT_739 : str := [67;79;77;80;79;78;69;78;84;45;55;51;57].
Definition w_COMPONENT_740 : str := [67;79;77;80;79;78;69;78;84;45;55;52;48].
Definition w_COMPONENT_741 : str := [67;79;77;80;79;78;69;78;84;45;55;52;49].
Definition w_COMPONENT_742 : str := [67;79;77;80;79;78;69;78;84;45;55;52;50].
Definition w_COMPONENT_743 : str := [67;79;77;80;79;78;69;78;84;45;55;52;51].
Definition w_COMPONENT_744 : str := [67;79;77;80;79;78;69;78;84;45;55;52;52].
Definition w_COMPONENT_745 : str := [67;79;77;80;79;78;69;78;84;45;55;52;53].
Definition w_COMPONENT_746 : str := [67;79;77;80;79;78;69;78;84;45;55;52;54].
Definition w_COMPONENT_747 : str := [67;79;77;80;79;78;69;78;84;45;55;52;55].
Definition w_COMPONENT_748 : str := [67;79;77;80;79;78;69;78;84;45;55;52;56].
Definition w_COMPONENT_749 : str := [67;79;77;80;79;78;69;78;84;45;55;52;57].
Definition w_COMPONENT_750 : str := [67;79;77;80;79;78;69;78;84;45;55;53;48].
Definition w_COMPONENT_751 : str := [67;79;77;80;79;78;69;78;84;45;55;53;49].
Definition w_COMPONENT_752 : str := [67;79;77;80;79;78;69;78;84;45;55;53;50].
Definition w_COMPONENT_753 : str := [67;79;77;80;79;78;69;78;84;45;55;53;51].
Definition w_COMPONENT_754 : str := [67;79;77;80;79;78;69;78;84;45;55;53;52].
Definition w_COMPONENT_755 : str := [67;79;77;80;79;78;69;78;84;45;55;53;53].
Definition w_COMPOSITION : str := [67;79;77;80;79;83;73;84;73;79;78].
Definition w_COMPRESSED : str := [67;79;77;80;82;69;83;83;69;68].
Definition w_COMPRESSION : str := [67;79;77;80;82;69;83;83;73;79;78].
Definition w_COMPUTER : str := [67;79;77;80;85;84;69;82].
Definition w_COMPUTERS : str := [67;79;77;80;85;84;69;82;83].
Definition w_CON : str := [67;79;78].
Definition w_CONCAVE_POINTED : str := [67;79;78;67;65;86;69;45;80;79;73;78;84;69;68].
Definition w_CONCAVE_SIDED : str := [67;79;78;67;65;86;69;45;83;73;68;69;68].
Definition w_CONFETTI : str := [67;79;78;70;69;84;84;73].
Definition w_CONFLICT : str := [67;79;78;70;76;73;67;84].
Definition w_CONFOUNDED : str := [67;79;78;70;79;85;78;68;69;68].
Definition w_CONFUSED : str := [67;79;78;70;85;83;69;68].
Definition w_CONGRATULATION : str := [67;79;78;71;82;65;84;85;76;65;84;73;79;78].
Definition w_CONGRUENT : str := [67;79;78;71;82;85;69;78;84].
Definition w_CONICAL : str := [67;79;78;73;67;65;76].
Definition w_CONJOINED : str := [67;79;78;74;79;73;78;69;68].
Definition w_CONJOINING : str := [67;79;78;74;79;73;78;73;78;71].
Definition w_CONJUGATE : str := [67;79;78;74;85;71;65;84;69].
Definition w_CONJUNCTION : str := [67;79;78;74;85;78;67;84;73;79;78].
Definition w_CONSECUTIVE : str := [67;79;78;83;69;67;85;84;73;86;69].
Definition w_CONSONANT : str := [67;79;78;83;79;78;65;78;84].
Definition w_CONSTANCY : str := [67;79;78;83;84;65;78;67;89].
Definition w_CONSTANT : str := [67;79;78;83;84;65;78;84].
Definition w_CONSTRUCTION : str := [67;79;78;83;84;82;85;67;84;73;79;78].
Definition w_CONTACT : str := [67;79;78;84;65;67;84].
Definition w_CONTAIN : str := [67;79;78;84;65;73;78].
Definition w_CONTAINING : str := [67;79;78;84;65;73;78;73;78;71].
Definition w_CONTAINS : str := [67;79;78;84;65;73;78;83].
Definition w_CONTEMPLATION : str := [67;79;78;84;69;77;80;76;65;84;73;79;78].
Definition w_CONTENTION : str := [67;79;78;84;69;78;84;73;79;78].
Definition w_CONTINUATION : str := [67;79;78;84;73;78;85;65;84;73;79;78].
Definition w_CONTINUING : str := [67;79;78;84;73;78;85;73;78;71].
Definition w_CONTINUOUS : str := [67;79;78;84;73;78;85;79;85;83].
Definition w_CONTOUR : str := [67;79;78;84;79;85;82].
Definition w_CONTOURED : str := [67;79;78;84;79;85;82;69;68].
Definition w_CONTRACTION : str := [67;79;78;84;82;65;67;84;73;79;78].
Definition w_CONTRARIETY : str := [67;79;78;84;82;65;82;73;69;84;89].
Definition w_CONTROL : str := [67;79;78;84;82;79;76].
Definition w_CONVENIENCE : str := [67;79;78;86;69;78;73;69;78;67;69].
Definition w_CONVERGING : str := [67;79;78;86;69;82;71;73;78;71].
Definition w_COO : str := [67;79;79].
Definition w_COOKED : str := [67;79;79;75;69;68].
Definition w_COOKIE : str := [67;79;79;75;73;69].
Definition w_COOKING : str := [67;79;79;75;73;78;71].
Definition w_COOL : str := [67;79;79;76].
Definition w_COP : str := [67;79;80].
Definition w_COPPER : str := [67;79;80;80;69;82].
Definition w_COPPER_2 : str := [67;79;80;80;69;82;45;50].
Definition w_COPRODUCT : str := [67;79;80;82;79;68;85;67;84].
Definition w_COPTIC : str := [67;79;80;84;73;67].
Definition w_COPY : str := [67;79;80;89].
Definition w_COPYRIGHT : str := [67;79;80;89;82;73;71;72;84].
Definition w_CORK : str := [67;79;82;75].
Definition w_CORNER : str := [67;79;82;78;69;82].
Definition w_CORNERS : str := [67;79;82;78;69;82;83].
Definition w_CORONIS : str := [67;79;82;79;78;73;83].
Definition w_CORPORATION : str := [67;79;82;80;79;82;65;84;73;79;78].
Definition w_CORPSE : str := [67;79;82;80;83;69].
Definition w_CORRECT : str := [67;79;82;82;69;67;84].
Definition w_CORRESPONDS : str := [67;79;82;82;69;83;80;79;78;68;83].
Definition w_COT : str := [67;79;84].
Definition w_COUCH : str := [67;79;85;67;72].
Definition w_COUNCIL : str := [67;79;85;78;67;73;76].
Definition w_COUNTERBORE : str := [67;79;85;78;84;69;82;66;79;82;69].
Definition w_COUNTERSINK : str := [67;79;85;78;84;69;82;83;73;78;75].
Definition w_COUNTING : str := [67;79;85;78;84;73;78;71].
Definition w_COUPLE : str := [67;79;85;80;76;69].
Definition w_COVER : str := [67;79;86;69;82].
Definition w_COVERING : str := [67;79;86;69;82;73;78;71].
Definition w_COW : str := [67;79;87].
Definition w_COWBOY : str := [67;79;87;66;79;89].
Definition w_COX : str := [67;79;88].
Definition w_CRAB : str := [67;82;65;66].
Definition w_CRACKER : str := [67;82;65;67;75;69;82].
Definition w_CRAYON : str := [67;82;65;89;79;78].
Definition w_CREAM : str := [67;82;69;65;77].
Definition w_CREATIVE : str := [67;82;69;65;84;73;86;69].
Definition w_CREDIT : str := [67;82;69;68;73;84].
Definition w_CRESCENDO : str := [67;82;69;83;67;69;78;68;79].
Definition w_CRESCENT : str := [67;82;69;83;67;69;78;84].
Definition w_CRESCENTS : str := [67;82;69;83;67;69;78;84;83].
Definition w_CRICKET : str := [67;82;73;67;75;69;84].
Definition w_CROCODILE : str := [67;82;79;67;79;68;73;76;69].
Definition w_CROCUS : str := [67;82;79;67;85;83].
Definition w_CROISSANT : str := [67;82;79;73;83;83;65;78;84].
Definition w_CROIX : str := [67;82;79;73;88].
Definition w_CROP : str := [67;82;79;80].
Definition w_CROSS : str := [67;82;79;83;83].
Definition w_CROSSBONES : str := [67;82;79;83;83;66;79;78;69;83].
Definition w_CROSSED : str := [67;82;79;83;83;69;68].
Definition w_CROSSED_TAIL : str := [67;82;79;83;83;69;68;45;84;65;73;76].
Definition w_CROSSHATCH : str := [67;82;79;83;83;72;65;84;67;72].
Definition w_CROSSING : str := [67;82;79;83;83;73;78;71].
Definition w_CROWN : str := [67;82;79;87;78].
Definition w_CRUCIBLE : str := [67;82;85;67;73;66;76;69].
Definition w_CRUCIBLE_2 : str := [67;82;85;67;73;66;76;69;45;50].
Definition w_CRUCIBLE_3 : str := [67;82;85;67;73;66;76;69;45;51].
Definition w_CRUCIBLE_4 : str := [67;82;85;67;73;66;76;69;45;52].
Definition w_CRUCIBLE_5 : str := [67;82;85;67;73;66;76;69;45;53].
Definition w_CRUCIFORM : str := [67;82;85;67;73;70;79;82;77].
Definition w_CRUZEIRO : str := [67;82;85;90;69;73;82;79].
Definition w_CRYING : str := [67;82;89;73;78;71].
Definition w_CRYPTOGRAMMIC : str := [67;82;89;80;84;79;71;82;65;77;77;73;67].
Definition w_CRYSTAL : str := [67;82;89;83;84;65;76].
Definition w_CU : str := [67;85].
Definition w_CUAM : str := [67;85;65;77].
Definition w_CUATRILLO : str := [67;85;65;84;82;73;76;76;79].
Definition w_CUBE : str := [67;85;66;69].
Definition w_CUBED : str := [67;85;66;69;68].
Definition w_CUCUMBER : str := [67;85;67;85;77;66;69;82].
Definition w_CUM : str := [67;85;77].
Definition w_CUNEIFORM : str := [67;85;78;69;73;70;79;82;77].
Definition w_CUO : str := [67;85;79].
Definition w_CUOP : str := [67;85;79;80].
Definition w_CUOX : str := [67;85;79;88].
Definition w_CUP : str := [67;85;80].
Definition w_CUPPED : str := [67;85;80;80;69;68].
Definition w_CUR : str := [67;85;82].
Definition w_CURL : str := [67;85;82;76].
Definition w_CURLICUE : str := [67;85;82;76;73;67;85;69].
Definition w_CURLING : str := [67;85;82;76;73;78;71].
Definition w_CURLY : str := [67;85;82;76;89].
Definition w_CURRENCY : str := [67;85;82;82;69;78;67;89].
Definition w_CURRENT : str := [67;85;82;82;69;78;84].
Definition w_CURRY : str := [67;85;82;82;89].
Definition w_CURSIVE : str := [67;85;82;83;73;86;69].
Definition w_CURVE : str := [67;85;82;86;69].
Definition w_CURVED : str := [67;85;82;86;69;68].
Definition w_CURVING : str := [67;85;82;86;73;78;71].
Definition w_CURX : str := [67;85;82;88].
Definition w_CUSP : str := [67;85;83;80].
Definition w_CUSTARD : str := [67;85;83;84;65;82;68].
Definition w_CUSTOMER : str := [67;85;83;84;79;77;69;82].
Definition w_CUSTOMS : str := [67;85;83;84;79;77;83].
Definition w_CUT : str := [67;85;84].
Definition w_CUX : str := [67;85;88].
Definition w_CWA : str := [67;87;65].
Definition w_CWAA : str := [67;87;65;65].
Definition w_CWE : str := [67;87;69].
Definition w_CWEORTH : str := [67;87;69;79;82;84;72].
Definition w_CWI : str := [67;87;73].
Definition w_CWII : str := [67;87;73;73].
Definition w_CWO : str := [67;87;79].
Definition w_CWOO : str := [67;87;79;79].
Definition w_CY : str := [67;89].
Definition w_CYA : str := [67;89;65].
Definition w_CYAW : str := [67;89;65;87].
Definition w_CYAY : str := [67;89;65;89].
Definition w_CYCLONE : str := [67;89;67;76;79;78;69].
Definition w_CYLINDRICITY : str := [67;89;76;73;78;68;82;73;67;73;84;89].
Definition w_CYP : str := [67;89;80].
Definition w_CYPERUS : str := [67;89;80;69;82;85;83].
Definition w_CYPRIOT : str := [67;89;80;82;73;79;84].
Definition w_CYR : str := [67;89;82].
Definition w_CYRENAIC : str := [67;89;82;69;78;65;73;67].
Definition w_CYRILLIC : str := [67;89;82;73;76;76;73;67].
Definition w_CYRX : str := [67;89;82;88].
Definition w_CYT : str := [67;89;84].
Definition w_CYX : str := [67;89;88].
Definition w_D : str := [68].
Definition w_D001 : str := [68;48;48;49].
Definition w_D002 : str := [68;48;48;50].
Definition w_D003 : str := [68;48;48;51].
Definition w_D004 : str := [68;48;48;52].
Definition w_D005 : str := [68;48;48;53].
Definition w_D006 : str := [68;48;48;54].
Definition w_D007 : str := [68;48;48;55].
Definition w_D008 : str := [68;48;48;56].
Definition w_D008A : str := [68;48;48;56;65].
Definition w_D009 : str := [68;48;48;57].
Definition w_D010 : str := [68;48;49;48].
Definition w_D011 : str := [68;48;49;49].
Definition w_D012 : str := [68;48;49;50].
Definition w_D013 : str := [68;48;49;51].
Definition w_D014 : str := [68;48;49;52].
Definition w_D015 : str := [68;48;49;53].
Definition w_D016 : str := [68;48;49;54].
Definition w_D017 : str := [68;48;49;55].
Definition w_D018 : str := [68;48;49;56].
Definition w_D019 : str := [68;48;49;57].
Definition w_D020 : str := [68;48;50;48].
Definition w_D021 : str := [68;48;50;49].
Definition w_D022 : str := [68;48;50;50].
Definition w_D023 : str := [68;48;50;51].
Definition w_D024 : str := [68;48;50;52].
Definition w_D025 : str := [68;48;50;53].
Definition w_D026 : str := [68;48;50;54].
Definition w_D027 : str := [68;48;50;55].
Definition w_D027A : str := [68;48;50;55;65].
Definition w_D028 : str := [68;48;50;56].
Definition w_D029 : str := [68;48;50;57].
Definition w_D030 : str := [68;48;51;48].
Definition w_D031 : str := [68;48;51;49].
Definition w_D031A : str := [68;48;51;49;65].
Definition w_D032 : str := [68;48;51;50].
Definition w_D033 : str := [68;48;51;51].
Definition w_D034 : str := [68;48;51;52].
Definition w_D034A : str := [68;48;51;52;65].
Definition w_D035 : str := [68;48;51;53].
Definition w_D036 : str := [68;48;51;54].
Definition w_D037 : str := [68;48;51;55].
Definition w_D038 : str := [68;48;51;56].
Definition w_D039 : str := [68;48;51;57].
Definition w_D040 : str := [68;48;52;48].
Definition w_D041 : str := [68;48;52;49].
Definition w_D042 : str := [68;48;52;50].
Definition w_D043 : str := [68;48;52;51].
Definition w_D044 : str := [68;48;52;52].
Definition w_D045 : str := [68;48;52;53].
Definition w_D046 : str := [68;48;52;54].
Definition w_D046A : str := [68;48;52;54;65].
Definition w_D047 : str := [68;48;52;55].
Definition w_D048 : str := [68;48;52;56].
Definition w_D048A : str := [68;48;52;56;65].
Definition w_D049 : str := [68;48;52;57].
Definition w_D050 : str := [68;48;53;48].
Definition w_D050A : str := [68;48;53;48;65].
Definition w_D050B : str := [68;48;53;48;66].
Definition w_D050C : str := [68;48;53;48;67].
Definition w_D050D : str := [68;48;53;48;68].
Definition w_D050E : str := [68;48;53;48;69].
Definition w_D050F : str := [68;48;53;48;70].
Definition w_D050G : str := [68;48;53;48;71].
Definition w_D050H : str := [68;48;53;48;72].
Definition w_D050I : str := [68;48;53;48;73].
Definition w_D051 : str := [68;48;53;49].
Definition w_D052 : str := [68;48;53;50].
Definition w_D052A : str := [68;48;53;50;65].
Definition w_D053 : str := [68;48;53;51].
Definition w_D054 : str := [68;48;53;52].
Definition w_D054A : str := [68;48;53;52;65].
Definition w_D055 : str := [68;48;53;53].
Definition w_D056 : str := [68;48;53;54].
Definition w_D057 : str := [68;48;53;55].
Definition w_D058 : str := [68;48;53;56].
Definition w_D059 : str := [68;48;53;57].
Definition w_D060 : str := [68;48;54;48].
Definition w_D061 : str := [68;48;54;49].
Definition w_D062 : str := [68;48;54;50].
Definition w_D063 : str := [68;48;54;51].
Definition w_D064 : str := [68;48;54;52].
Definition w_D065 : str := [68;48;54;53].
Definition w_D066 : str := [68;48;54;54].
Definition w_D067 : str := [68;48;54;55].
Definition w_D067A : str := [68;48;54;55;65].
Definition w_D067B : str := [68;48;54;55;66].
Definition w_D067C : str := [68;48;54;55;67].
Definition w_D067D : str := [68;48;54;55;68].
Definition w_D067E : str := [68;48;54;55;69].
Definition w_D067F : str := [68;48;54;55;70].
Definition w_D067G : str := [68;48;54;55;71].
Definition w_D067H : str := [68;48;54;55;72].
Definition w_D2 : str := [68;50].
Definition w_DA : str := [68;65].
Definition w_DAA : str := [68;65;65].
Definition w_DAADHU : str := [68;65;65;68;72;85].
Definition w_DAALI : str := [68;65;65;76;73].
Definition w_DAASU : str := [68;65;65;83;85].
Definition w_DAD : str := [68;65;68].
Definition w_DAEG : str := [68;65;69;71].
Definition w_DAENG : str := [68;65;69;78;71].
Definition w_DAG : str := [68;65;71].
Definition w_DAG3 : str := [68;65;71;51].
Definition w_DAGALGA : str := [68;65;71;65;76;71;65].
Definition w_DAGAZ : str := [68;65;71;65;90].
Definition w_DAGBASINNA : str := [68;65;71;66;65;83;73;78;78;65].
Definition w_DAGESH : str := [68;65;71;69;83;72].
Definition w_DAGGER : str := [68;65;71;71;69;82].
Definition w_DAGS : str := [68;65;71;83].
Definition w_DAH : str := [68;65;72].
Definition w_DAHAL : str := [68;65;72;65;76].
Definition w_DAHYAAUSH : str := [68;65;72;89;65;65;85;83;72].
Definition w_DAHYAAUSH_2 : str := [68;65;72;89;65;65;85;83;72;45;50].
Definition w_DAI : str := [68;65;73].
Definition w_DAING : str := [68;65;73;78;71].
Definition w_DAIR : str := [68;65;73;82].
Definition w_DAL : str := [68;65;76].
Definition w_DALAT : str := [68;65;76;65;84].
Definition w_DALATH : str := [68;65;76;65;84;72].
Definition w_DALDA : str := [68;65;76;68;65].
Definition w_DALET : str := [68;65;76;69;84].
Definition w_DALETH : str := [68;65;76;69;84;72].
Definition w_DALETH_RESH : str := [68;65;76;69;84;72;45;82;69;83;72].
Definition w_DAM : str := [68;65;77].
Definition w_DAMARU : str := [68;65;77;65;82;85].
Definition w_DAMMA : str := [68;65;77;77;65].
Definition w_DAMMATAN : str := [68;65;77;77;65;84;65;78].
Definition w_DAMP : str := [68;65;77;80].
Definition w_DANCER : str := [68;65;78;67;69;82].
Definition w_DANCING : str := [68;65;78;67;73;78;71].
Definition w_DANDA : str := [68;65;78;68;65].
Definition w_DANG : str := [68;65;78;71].
Definition w_DANGO : str := [68;65;78;71;79].
Definition w_DANTAJA : str := [68;65;78;84;65;74;65].
Definition w_DAP : str := [68;65;80].
Definition w_DAP_BEI : str := [68;65;80;45;66;69;73].
Definition w_DAP_BUON : str := [68;65;80;45;66;85;79;78].
Definition w_DAP_MUOY : str := [68;65;80;45;77;85;79;89].
Definition w_DAP_PII : str := [68;65;80;45;80;73;73].
Definition w_DAP_PRAM : str := [68;65;80;45;80;82;65;77].
Definition w_DAR : str := [68;65;82].
Definition w_DARA3 : str := [68;65;82;65;51].
Definition w_DARA4 : str := [68;65;82;65;52].
Definition w_DARGA : str := [68;65;82;71;65].
Definition w_DARK : str := [68;65;82;75].
Definition w_DARKENING : str := [68;65;82;75;69;78;73;78;71].
Definition w_DART : str := [68;65;82;84].
Definition w_DASEIA : str := [68;65;83;69;73;65].
Definition w_DASH : str := [68;65;83;72].
Definition w_DASHED : str := [68;65;83;72;69;68].
Definition w_DASIA : str := [68;65;83;73;65].
Definition w_DAT : str := [68;65;84].
Definition w_DATA : str := [68;65;84;65].
Definition w_DATE : str := [68;65;84;69].
Definition w_DAVID : str := [68;65;86;73;68].
Definition w_DAVIYANI : str := [68;65;86;73;89;65;78;73].
Definition w_DAWB : str := [68;65;87;66].
Definition w_DAX : str := [68;65;88].
Definition w_DAY : str := [68;65;89].
Definition w_DAY_NIGHT : str := [68;65;89;45;78;73;71;72;84].
Definition w_DAYANNA : str := [68;65;89;65;78;78;65].
Definition w_DB : str := [68;66].
Definition w_DCHE : str := [68;67;72;69].
Definition w_DD : str := [68;68].
Definition w_DDA : str := [68;68;65].
Definition w_DDAA : str := [68;68;65;65].
Definition w_DDAHAL : str := [68;68;65;72;65;76].
Definition w_DDAL : str := [68;68;65;76].
Definition w_DDAP : str := [68;68;65;80].
Definition w_DDAT : str := [68;68;65;84].
Definition w_DDAX : str := [68;68;65;88].
Definition w_DDAYANNA : str := [68;68;65;89;65;78;78;65].
Definition w_DDDA : str := [68;68;68;65].
Definition w_DDDHA : str := [68;68;68;72;65].
Definition w_DDE : str := [68;68;69].
Definition w_DDEE : str := [68;68;69;69].
Definition w_DDEP : str := [68;68;69;80].
Definition w_DDEX : str := [68;68;69;88].
Definition w_DDHA : str := [68;68;72;65].
Definition w_DDHAA : str := [68;68;72;65;65].
Definition w_DDHE : str := [68;68;72;69].
Definition w_DDHEE : str := [68;68;72;69;69].
Definition w_DDHI : str := [68;68;72;73].
Definition w_DDHO : str := [68;68;72;79].
Definition w_DDHU : str := [68;68;72;85].
Definition w_DDI : str := [68;68;73].
Definition w_DDIE : str := [68;68;73;69].
Definition w_DDIEP : str := [68;68;73;69;80].
Definition w_DDIEX : str := [68;68;73;69;88].
Definition w_DDIP : str := [68;68;73;80].
Definition w_DDIT : str := [68;68;73;84].
Definition w_DDIX : str := [68;68;73;88].
Definition w_DDO : str := [68;68;79].
Definition w_DDOA : str := [68;68;79;65].
Definition w_DDOP : str := [68;68;79;80].
Definition w_DDOT : str := [68;68;79;84].
Definition w_DDOX : str := [68;68;79;88].
Definition w_DDU : str := [68;68;85].
Definition w_DDUO : str := [68;68;85;79].
Definition w_DDUOP : str := [68;68;85;79;80].
Definition w_DDUOX : str := [68;68;85;79;88].
Definition w_DDUP : str := [68;68;85;80].
Definition w_DDUR : str := [68;68;85;82].
Definition w_DDURX : str := [68;68;85;82;88].
Definition w_DDUT : str := [68;68;85;84].
Definition w_DDUX : str := [68;68;85;88].
Definition w_DDWA : str := [68;68;87;65].
Definition w_DE : str := [68;69].
Definition w_DEAD : str := [68;69;65;68].
Definition w_DEATH : str := [68;69;65;84;72].
Definition w_DEBIT : str := [68;69;66;73;84].
Definition w_DECAYED : str := [68;69;67;65;89;69;68].
Definition w_DECEMBER : str := [68;69;67;69;77;66;69;82].
Definition w_DECIDUOUS : str := [68;69;67;73;68;85;79;85;83].
Definition w_DECIMAL : str := [68;69;67;73;77;65;76].
Definition w_DECISIVENESS : str := [68;69;67;73;83;73;86;69;78;69;83;83].
Definition w_DECORATION : str := [68;69;67;79;82;65;84;73;79;78].
Definition w_DECORATIVE : str := [68;69;67;79;82;65;84;73;86;69].
Definition w_DECREASE : str := [68;69;67;82;69;65;83;69].
Definition w_DECRESCENDO : str := [68;69;67;82;69;83;67;69;78;68;79].
Definition w_DEE : str := [68;69;69].
Definition w_DEEL : str := [68;69;69;76].
Definition w_DEEPLY : str := [68;69;69;80;76;89].
Definition w_DEER : str := [68;69;69;82].
Definition w_DEFECTIVENESS : str := [68;69;70;69;67;84;73;86;69;78;69;83;83].
Definition w_DEFINITION : str := [68;69;70;73;78;73;84;73;79;78].
Definition w_DEGREE : str := [68;69;71;82;69;69].
Definition w_DEGREES : str := [68;69;71;82;69;69;83].
Definition w_DEHI : str := [68;69;72;73].
Definition w_DEI : str := [68;69;73].
Definition w_DEK : str := [68;69;75].
Definition w_DEKA : str := [68;69;75;65].
Definition w_DEL : str := [68;69;76].
Definition w_DELETE : str := [68;69;76;69;84;69].
Definition w_DELETION : str := [68;69;76;69;84;73;79;78].
Definition w_DELICIOUS : str := [68;69;76;73;67;73;79;85;83].
Definition w_DELIMITER : str := [68;69;76;73;77;73;84;69;82].
Definition w_DELIVERANCE : str := [68;69;76;73;86;69;82;65;78;67;69].
Definition w_DELIVERY : str := [68;69;76;73;86;69;82;89].
Definition w_DELPHIC : str := [68;69;76;80;72;73;67].
Definition w_DELT : str := [68;69;76;84].
Definition w_DELTA : str := [68;69;76;84;65].
Definition w_DENARIUS : str := [68;69;78;65;82;73;85;83].
Definition w_DENE : str := [68;69;78;69].
Definition w_DENG : str := [68;69;78;71].
Definition w_DENNEN : str := [68;69;78;78;69;78].
Definition w_DENOMINATOR : str := [68;69;78;79;77;73;78;65;84;79;82].
Definition w_DENTAL : str := [68;69;78;84;65;76].
Definition w_DENTISTRY : str := [68;69;78;84;73;83;84;82;89].
Definition w_DEP : str := [68;69;80].
Definition w_DEPARTING : str := [68;69;80;65;82;84;73;78;71].
Definition w_DEPARTMENT : str := [68;69;80;65;82;84;77;69;78;84].
Definition w_DEPARTURE : str := [68;69;80;65;82;84;85;82;69].
Definition w_DEPTH : str := [68;69;80;84;72].
Definition w_DERELICT : str := [68;69;82;69;76;73;67;84].
Definition w_DERET : str := [68;69;82;69;84].
Definition w_DERET_HIDET : str := [68;69;82;69;84;45;72;73;68;69;84].
Definition w_DESCENDER : str := [68;69;83;67;69;78;68;69;82].
Definition w_DESCENDING : str := [68;69;83;67;69;78;68;73;78;71].
Definition w_DESCRIPTION : str := [68;69;83;67;82;73;80;84;73;79;78].
Definition w_DESERET : str := [68;69;83;69;82;69;84].
Definition w_DESERT : str := [68;69;83;69;82;84].
Definition w_DESI : str := [68;69;83;73].
Definition w_DESIGN : str := [68;69;83;73;71;78].
Definition w_DESK : str := [68;69;83;75].
Definition w_DESKTOP : str := [68;69;83;75;84;79;80].
Definition w_DEUNG : str := [68;69;85;78;71].
Definition w_DEVANAGARI : str := [68;69;86;65;78;65;71;65;82;73].
Definition w_DEVELOPMENT : str := [68;69;86;69;76;79;80;77;69;78;84].
Definition w_DEVICE : str := [68;69;86;73;67;69].
Definition w_DEX : str := [68;69;88].
Definition w_DEXIA : str := [68;69;88;73;65].
Definition w_DEYTEROS : str := [68;69;89;84;69;82;79;83].
Definition w_DEYTEROU : str := [68;69;89;84;69;82;79;85].
Definition w_DEZH : str := [68;69;90;72].
Definition w_DH : str := [68;72].
Definition w_DHA : str := [68;72;65].
Definition w_DHAA : str := [68;72;65;65].
Definition w_DHAALU : str := [68;72;65;65;76;85].
Definition w_DHADHE : str := [68;72;65;68;72;69].
Definition w_DHAL : str := [68;72;65;76].
Definition w_DHALATH : str := [68;72;65;76;65;84;72].
Definition w_DHALETH : str := [68;72;65;76;69;84;72].
Definition w_DHAMEDH : str := [68;72;65;77;69;68;72].
Definition w_DHARMA : str := [68;72;65;82;77;65].
Definition w_DHE : str := [68;72;69].
Definition w_DHEE : str := [68;72;69;69].
Definition w_DHHA : str := [68;72;72;65].
Definition w_DHHE : str := [68;72;72;69].
Definition w_DHHEE : str := [68;72;72;69;69].
Definition w_DHHI : str := [68;72;72;73].
Definition w_DHHO : str := [68;72;72;79].
Definition w_DHHOO : str := [68;72;72;79;79].
Definition w_DHHU : str := [68;72;72;85].
Definition w_DHI : str := [68;72;73].
Definition w_DHII : str := [68;72;73;73].
Definition w_DHO : str := [68;72;79].
Definition w_DHOO : str := [68;72;79;79].
Definition w_DHOU : str := [68;72;79;85].
Definition w_DHU : str := [68;72;85].
Definition w_DI : str := [68;73].
Definition w_DIAERESIS : str := [68;73;65;69;82;69;83;73;83].
Definition w_DIAERESIS_RING : str := [68;73;65;69;82;69;83;73;83;45;82;73;78;71].
Definition w_DIAERESIZED : str := [68;73;65;69;82;69;83;73;90;69;68].
Definition w_DIAGONAL : str := [68;73;65;71;79;78;65;76].
Definition w_DIALECT_P : str := [68;73;65;76;69;67;84;45;80].
Definition w_DIALYTIKA : str := [68;73;65;76;89;84;73;75;65].
Definition w_DIAMETER : str := [68;73;65;77;69;84;69;82].
Definition w_DIAMOND : str := [68;73;65;77;79;78;68].
Definition w_DIAMONDS : str := [68;73;65;77;79;78;68;83].
Definition w_DIARGON : str := [68;73;65;82;71;79;78].
Definition w_DIASTOLI : str := [68;73;65;83;84;79;76;73].
Definition w_DIATONIKI : str := [68;73;65;84;79;78;73;75;73].
Definition w_DIATONON : str := [68;73;65;84;79;78;79;78].
Definition w_DIB : str := [68;73;66].
Definition w_DIE : str := [68;73;69].
Definition w_DIEP : str := [68;73;69;80].
Definition w_DIESEL : str := [68;73;69;83;69;76].
Definition w_DIESIS : str := [68;73;69;83;73;83].
Definition w_DIEX : str := [68;73;69;88].
Definition w_DIFAT : str := [68;73;70;65;84].
Definition w_DIFFERENCE : str := [68;73;70;70;69;82;69;78;67;69].
Definition w_DIFFERENTIAL : str := [68;73;70;70;69;82;69;78;84;73;65;76].
Definition w_DIFFICULTIES : str := [68;73;70;70;73;67;85;76;84;73;69;83].
Definition w_DIFFICULTY : str := [68;73;70;70;73;67;85;76;84;89].
Definition w_DIFONIAS : str := [68;73;70;79;78;73;65;83].
Definition w_DIFTOGGOS : str := [68;73;70;84;79;71;71;79;83].
Definition w_DIGA : str := [68;73;71;65].
Definition w_DIGAMMA : str := [68;73;71;65;77;77;65].
Definition w_DIGIT : str := [68;73;71;73;84].
Definition w_DIGITS : str := [68;73;71;73;84;83].
Definition w_DIGORGON : str := [68;73;71;79;82;71;79;78].
Definition w_DIGRAM : str := [68;73;71;82;65;77].
Definition w_DIGRAMMA : str := [68;73;71;82;65;77;77;65].
Definition w_DIGRAMMOS : str := [68;73;71;82;65;77;77;79;83].
Definition w_DIGRAPH : str := [68;73;71;82;65;80;72].
Definition w_DIL : str := [68;73;76].
Definition w_DIM : str := [68;73;77].
Definition w_DIM2 : str := [68;73;77;50].
Definition w_DIMENSION : str := [68;73;77;69;78;83;73;79;78].
Definition w_DIMENSIONAL : str := [68;73;77;69;78;83;73;79;78;65;76].
Definition w_DIMIDIA : str := [68;73;77;73;68;73;65].
Definition w_DIMINISHMENT : str := [68;73;77;73;78;73;83;72;77;69;78;84].
Definition w_DIMINUTION_1 : str := [68;73;77;73;78;85;84;73;79;78;45;49].
Definition w_DIMINUTION_2 : str := [68;73;77;73;78;85;84;73;79;78;45;50].
Definition w_DIMINUTION_3 : str := [68;73;77;73;78;85;84;73;79;78;45;51].
Definition w_DIMMING : str := [68;73;77;77;73;78;71].
Definition w_DIN : str := [68;73;78].
Definition w_DING : str := [68;73;78;71].
Definition w_DINGBAT : str := [68;73;78;71;66;65;84].
Definition w_DIP : str := [68;73;80].
Definition w_DIPLI : str := [68;73;80;76;73].
Definition w_DIPLOUN : str := [68;73;80;76;79;85;78].
Definition w_DIPPER : str := [68;73;80;80;69;82].
Definition w_DIPTE : str := [68;73;80;84;69].
Definition w_DIRECT : str := [68;73;82;69;67;84].
Definition w_DIRECTION : str := [68;73;82;69;67;84;73;79;78].
Definition w_DIRECTIONAL : str := [68;73;82;69;67;84;73;79;78;65;76].
Definition w_DIRECTLY : str := [68;73;82;69;67;84;76;89].
Definition w_DIRGA : str := [68;73;82;71;65].
Definition w_DISABLED : str := [68;73;83;65;66;76;69;68].
Definition w_DISAPPOINTED : str := [68;73;83;65;80;80;79;73;78;84;69;68].
Definition w_DISC : str := [68;73;83;67].
Definition w_DISCONTINUOUS : str := [68;73;83;67;79;78;84;73;78;85;79;85;83].
Definition w_DISH : str := [68;73;83;72].
Definition w_DISIMOU : str := [68;73;83;73;77;79;85].
Definition w_DISK : str := [68;73;83;75].
Definition w_DISPERSION : str := [68;73;83;80;69;82;83;73;79;78].
Definition w_DISPUTED : str := [68;73;83;80;85;84;69;68].
Definition w_DISSOLVE : str := [68;73;83;83;79;76;86;69].
Definition w_DISSOLVE_2 : str := [68;73;83;83;79;76;86;69;45;50].
Definition w_DISTILL : str := [68;73;83;84;73;76;76].
Definition w_DISTINGUISH : str := [68;73;83;84;73;78;71;85;73;83;72].
Definition w_DISTORTION : str := [68;73;83;84;79;82;84;73;79;78].
Definition w_DIT : str := [68;73;84].
Definition w_DITTO : str := [68;73;84;84;79].
Definition w_DIVERGENCE : str := [68;73;86;69;82;71;69;78;67;69].
Definition w_DIVIDE : str := [68;73;86;73;68;69].
Definition w_DIVIDED : str := [68;73;86;73;68;69;68].
Definition w_DIVIDER : str := [68;73;86;73;68;69;82].
Definition w_DIVIDERS : str := [68;73;86;73;68;69;82;83].
Definition w_DIVIDES : str := [68;73;86;73;68;69;83].
Definition w_DIVINATION : str := [68;73;86;73;78;65;84;73;79;78].
Definition w_DIVISION : str := [68;73;86;73;83;73;79;78].
Definition w_DIVORCE : str := [68;73;86;79;82;67;69].
Definition w_DIX : str := [68;73;88].
Definition w_DIZZY : str := [68;73;90;90;89].
Definition w_DJ : str := [68;74].
Definition w_DJA : str := [68;74;65].
Definition w_DJE : str := [68;74;69].
Definition w_DJERV : str := [68;74;69;82;86].
Definition w_DJERVI : str := [68;74;69;82;86;73].
Definition w_DKAR : str := [68;75;65;82].
Definition w_DL : str := [68;76].
Definition w_DLA : str := [68;76;65].
Definition w_DLE : str := [68;76;69].
Definition w_DLEE : str := [68;76;69;69].
Definition w_DLHA : str := [68;76;72;65].
Definition w_DLHYA : str := [68;76;72;89;65].
Definition w_DLI : str := [68;76;73].
Definition w_DLO : str := [68;76;79].
Definition w_DLU : str := [68;76;85].
Definition w_DM : str := [68;77].
Definition w_DO : str := [68;79].
Definition w_DO_O : str := [68;79;45;79].
Definition w_DOA : str := [68;79;65].
Definition w_DOACHASHMEE : str := [68;79;65;67;72;65;83;72;77;69;69].
Definition w_DOBRO : str := [68;79;66;82;79].
Definition w_DOCUMENT : str := [68;79;67;85;77;69;78;84].
Definition w_DODEKATA : str := [68;79;68;69;75;65;84;65].
Definition w_DOES : str := [68;79;69;83].
Definition w_DOG : str := [68;79;71].
Definition w_DOI : str := [68;79;73].
Definition w_DOING : str := [68;79;73;78;71].
Definition w_DOIT : str := [68;79;73;84].
Definition w_DOKMAI : str := [68;79;75;77;65;73].
Definition w_DOLIUM : str := [68;79;76;73;85;77].
Definition w_DOLLAR : str := [68;79;76;76;65;82].
Definition w_DOLLS : str := [68;79;76;76;83].
Definition w_DOLPHIN : str := [68;79;76;80;72;73;78].
Definition w_DOMAIN : str := [68;79;77;65;73;78].
Definition w_DOMINO : str := [68;79;77;73;78;79].
Definition w_DON : str := [68;79;78].
Definition w_DONG : str := [68;79;78;71].
Definition w_DOO : str := [68;79;79].
Definition w_DOONG : str := [68;79;79;78;71].
Definition w_DOOR : str := [68;79;79;82].
Definition w_DOP : str := [68;79;80].
Definition w_DORU : str := [68;79;82;85].
Definition w_DOT : str := [68;79;84].
Definition w_DOTLESS : str := [68;79;84;76;69;83;83].
Definition w_DOTS : str := [68;79;84;83].
Definition w_DOTS_1 : str := [68;79;84;83;45;49].
Definition w_DOTS_12 : str := [68;79;84;83;45;49;50].
Definition w_DOTS_123 : str := [68;79;84;83;45;49;50;51].
Definition w_DOTS_1234 : str := [68;79;84;83;45;49;50;51;52].
Definition w_DOTS_12345 : str := [68;79;84;83;45;49;50;51;52;53].
Definition w_DOTS_123456 : str := [68;79;84;83;45;49;50;51;52;53;54].
Definition w_DOTS_1234567 : str := [68;79;84;83;45;49;50;51;52;53;54;55].
Definition w_DOTS_12345678 : str := [68;79;84;83;45;49;50;51;52;53;54;55;56].
Definition w_DOTS_1234568 : str := [68;79;84;83;45;49;50;51;52;53;54;56].
Definition w_DOTS_123457 : str := [68;79;84;83;45;49;50;51;52;53;55].
Definition w_DOTS_1234578 : str := [68;79;84;83;45;49;50;51;52;53;55;56].
Definition w_DOTS_123458 : str := [68;79;84;83;45;49;50;51;52;53;56].
Definition w_DOTS_12346 : str := [68;79;84;83;45;49;50;51;52;54].
Definition w_DOTS_123467 : str := [68;79;84;83;45;49;50;51;52;54;55].
Definition w_DOTS_1234678 : str := [68;79;84;83;45;49;50;51;52;54;55;56].
Definition w_DOTS_123468 : str := [68;79;84;83;45;49;50;51;52;54;56].
Definition w_DOTS_12347 : str := [68;79;84;83;45;49;50;51;52;55].
Definition w_DOTS_123478 : str := [68;79;84;83;45;49;50;51;52;55;56].
Definition w_DOTS_12348 : str := [68;79;84;83;45;49;50;51;52;56].
Definition w_DOTS_1235 : str := [68;79;84;83;45;49;50;51;53].
Definition w_DOTS_12356 : str := [68;79;84;83;45;49;50;51;53;54].
Definition w_DOTS_123567 : str := [68;79;84;83;45;49;50;51;53;54;55].
Definition w_DOTS_1235678 : str := [68;79;84;83;45;49;50;51;53;54;55;56].
Definition w_DOTS_123568 : str := [68;79;84;83;45;49;50;51;53;54;56].
Definition w_DOTS_12357 : str := [68;79;84;83;45;49;50;51;53;55].
Definition w_DOTS_123578 : str := [68;79;84;83;45;49;50;51;53;55;56].
Definition w_DOTS_12358 : str := [68;79;84;83;45;49;50;51;53;56].
Definition w_DOTS_1236 : str := [68;79;84;83;45;49;50;51;54].
Definition w_DOTS_12367 : str := [68;79;84;83;45;49;50;51;54;55].
Definition w_DOTS_123678 : str := [68;79;84;83;45;49;50;51;54;55;56].
Definition w_DOTS_12368 : str := [68;79;84;83;45;49;50;51;54;56].
Definition w_DOTS_1237 : str := [68;79;84;83;45;49;50;51;55].
Definition w_DOTS_12378 : str := [68;79;84;83;45;49;50;51;55;56].
Definition w_DOTS_1238 : str := [68;79;84;83;45;49;50;51;56].
Definition w_DOTS_124 : str := [68;79;84;83;45;49;50;52].
Definition w_DOTS_1245 : str := [68;79;84;83;45;49;50;52;53].
Definition w_DOTS_12456 : str := [68;79;84;83;45;49;50;52;53;54].
Definition w_DOTS_124567 : str := [68;79;84;83;45;49;50;52;53;54;55].
Definition w_DOTS_1245678 : str := [68;79;84;83;45;49;50;52;53;54;55;56].
Definition w_DOTS_124568 : str := [68;79;84;83;45;49;50;52;53;54;56].
Definition w_DOTS_12457 : str := [68;79;84;83;45;49;50;52;53;55].
Definition w_DOTS_124578 : str := [68;79;84;83;45;49;50;52;53;55;56].
Definition w_DOTS_12458 : str := [68;79;84;83;45;49;50;52;53;56].
Definition w_DOTS_1246 : str := [68;79;84;83;45;49;50;52;54].
Definition w_DOTS_12467 : str := [68;79;84;83;45;49;50;52;54;55].
Definition w_DOTS_124678 : str := [68;79;84;83;45;49;50;52;54;55;56].
Definition w_DOTS_12468 : str := [68;79;84;83;45;49;50;52;54;56].
Definition w_DOTS_1247 : str := [68;79;84;83;45;49;50;52;55].
Definition w_DOTS_12478 : str := [68;79;84;83;45;49;50;52;55;56].
Definition w_DOTS_1248 : str := [68;79;84;83;45;49;50;52;56].
Definition w_DOTS_125 : str := [68;79;84;83;45;49;50;53].
Definition w_DOTS_1256 : str := [68;79;84;83;45;49;50;53;54].
Definition w_DOTS_12567 : str := [68;79;84;83;45;49;50;53;54;55].
Definition w_DOTS_125678 : str := [68;79;84;83;45;49;50;53;54;55;56].
Definition w_DOTS_12568 : str := [68;79;84;83;45;49;50;53;54;56].
Definition w_DOTS_1257 : str := [68;79;84;83;45;49;50;53;55].
Definition w_DOTS_12578 : str := [68;79;84;83;45;49;50;53;55;56].
Definition w_DOTS_1258 : str := [68;79;84;83;45;49;50;53;56].
Definition w_DOTS_126 : str := [68;79;84;83;45;49;50;54].
Definition w_DOTS_1267 : str := [68;79;84;83;45;49;50;54;55].
Definition w_DOTS_12678 : str := [68;79;84;83;45;49;50;54;55;56].
Definition w_DOTS_1268 : str := [68;79;84;83;45;49;50;54;56].
Definition w_DOTS_127 : str := [68;79;84;83;45;49;50;55].
Definition w_DOTS_1278 : str := [68;79;84;83;45;49;50;55;56].
Definition w_DOTS_128 : str := [68;79;84;83;45;49;50;56].
Definition w_DOTS_13 : str := [68;79;84;83;45;49;51].
Definition w_DOTS_134 : str := [68;79;84;83;45;49;51;52].
Definition w_DOTS_1345 : str := [68;79;84;83;45;49;51;52;53].
Definition w_DOTS_13456 : str := [68;79;84;83;45;49;51;52;53;54].
Definition w_DOTS_134567 : str := [68;79;84;83;45;49;51;52;53;54;55].
Definition w_DOTS_1345678 : str := [68;79;84;83;45;49;51;52;53;54;55;56].
Definition w_DOTS_134568 : str := [68;79;84;83;45;49;51;52;53;54;56].
Definition w_DOTS_13457 : str := [68;79;84;83;45;49;51;52;53;55].
Definition w_DOTS_134578 : str := [68;79;84;83;45;49;51;52;53;55;56].
Definition w_DOTS_13458 : str := [68;79;84;83;45;49;51;52;53;56].
Definition w_DOTS_1346 : str := [68;79;84;83;45;49;51;52;54].
Definition w_DOTS_13467 : str := [68;79;84;83;45;49;51;52;54;55].
Definition w_DOTS_134678 : str := [68;79;84;83;45;49;51;52;54;55;56].
Definition w_DOTS_13468 : str := [68;79;84;83;45;49;51;52;54;56].
Definition w_DOTS_1347 : str := [68;79;84;83;45;49;51;52;55].
Definition w_DOTS_13478 : str := [68;79;84;83;45;49;51;52;55;56].
Definition w_DOTS_1348 : str := [68;79;84;83;45;49;51;52;56].
Definition w_DOTS_135 : str := [68;79;84;83;45;49;51;53].
Definition w_DOTS_1356 : str := [68;79;84;83;45;49;51;53;54].
Definition w_DOTS_13567 : str := [68;79;84;83;45;49;51;53;54;55].
Definition w_DOTS_135678 : str := [68;79;84;83;45;49;51;53;54;55;56].
Definition w_DOTS_13568 : str := [68;79;84;83;45;49;51;53;54;56].
Definition w_DOTS_1357 : str := [68;79;84;83;45;49;51;53;55].
Definition w_DOTS_13578 : str := [68;79;84;83;45;49;51;53;55;56].
Definition w_DOTS_1358 : str := [68;79;84;83;45;49;51;53;56].
Definition w_DOTS_136 : str := [68;79;84;83;45;49;51;54].
Definition w_DOTS_1367 : str := [68;79;84;83;45;49;51;54;55].
Definition w_DOTS_13678 : str := [68;79;84;83;45;49;51;54;55;56].
Definition w_DOTS_1368 : str := [68;79;84;83;45;49;51;54;56].
Definition w_DOTS_137 : str := [68;79;84;83;45;49;51;55].
Definition w_DOTS_1378 : str := [68;79;84;83;45;49;51;55;56].
Definition w_DOTS_138 : str := [68;79;84;83;45;49;51;56].
Definition w_DOTS_14 : str := [68;79;84;83;45;49;52].
Definition w_DOTS_145 : str := [68;79;84;83;45;49;52;53].
Definition w_DOTS_1456 : str := [68;79;84;83;45;49;52;53;54].
Definition w_DOTS_14567 : str := [68;79;84;83;45;49;52;53;54;55].
Definition w_DOTS_145678 : str := [68;79;84;83;45;49;52;53;54;55;56].
Definition w_DOTS_14568 : str := [68;79;84;83;45;49;52;53;54;56].
Definition w_DOTS_1457 : str := [68;79;84;83;45;49;52;53;55].
Definition w_DOTS_14578 : str := [68;79;84;83;45;49;52;53;55;56].
Definition w_DOTS_1458 : str := [68;79;84;83;45;49;52;53;56].
Definition w_DOTS_146 : str := [68;79;84;83;45;49;52;54].
Definition w_DOTS_1467 : str := [68;79;84;83;45;49;52;54;55].
Definition w_DOTS_14678 : str := [68;79;84;83;45;49;52;54;55;56].
Definition w_DOTS_1468 : str := [68;79;84;83;45;49;52;54;56].
Definition w_DOTS_147 : str := [68;79;84;83;45;49;52;55].
Definition w_DOTS_1478 : str := [68;79;84;83;45;49;52;55;56].
Definition w_DOTS_148 : str := [68;79;84;83;45;49;52;56].
Definition w_DOTS_15 : str := [68;79;84;83;45;49;53].
Definition w_DOTS_156 : str := [68;79;84;83;45;49;53;54].
Definition w_DOTS_1567 : str := [68;79;84;83;45;49;53;54;55].
Definition w_DOTS_15678 : str := [68;79;84;83;45;49;53;54;55;56].
Definition w_DOTS_1568 : str := [68;79;84;83;45;49;53;54;56].
Definition w_DOTS_157 : str := [68;79;84;83;45;49;53;55].
Definition w_DOTS_1578 : str := [68;79;84;83;45;49;53;55;56].
Definition w_DOTS_158 : str := [68;79;84;83;45;49;53;56].
Definition w_DOTS_16 : str := [68;79;84;83;45;49;54].
Definition w_DOTS_167 : str := [68;79;84;83;45;49;54;55].
Definition w_DOTS_1678 : str := [68;79;84;83;45;49;54;55;56].
Definition w_DOTS_168 : str := [68;79;84;83;45;49;54;56].
Definition w_DOTS_17 : str := [68;79;84;83;45;49;55].
Definition w_DOTS_178 : str := [68;79;84;83;45;49;55;56].
Definition w_DOTS_18 : str := [68;79;84;83;45;49;56].
Definition w_DOTS_2 : str := [68;79;84;83;45;50].
Definition w_DOTS_23 : str := [68;79;84;83;45;50;51].
Definition w_DOTS_234 : str := [68;79;84;83;45;50;51;52].
Definition w_DOTS_2345 : str := [68;79;84;83;45;50;51;52;53].
Definition w_DOTS_23456 : str := [68;79;84;83;45;50;51;52;53;54].
Definition w_DOTS_234567 : str := [68;79;84;83;45;50;51;52;53;54;55].
Definition w_DOTS_2345678 : str := [68;79;84;83;45;50;51;52;53;54;55;56].
Definition w_DOTS_234568 : str := [68;79;84;83;45;50;51;52;53;54;56].
Definition w_DOTS_23457 : str := [68;79;84;83;45;50;51;52;53;55].
Definition w_DOTS_234578 : str := [68;79;84;83;45;50;51;52;53;55;56].
Definition w_DOTS_23458 : str := [68;79;84;83;45;50;51;52;53;56].
Definition w_DOTS_2346 : str := [68;79;84;83;45;50;51;52;54].
Definition w_DOTS_23467 : str := [68;79;84;83;45;50;51;52;54;55].
Definition w_DOTS_234678 : str := [68;79;84;83;45;50;51;52;54;55;56].
Definition w_DOTS_23468 : str := [68;79;84;83;45;50;51;52;54;56].
Definition w_DOTS_2347 : str := [68;79;84;83;45;50;51;52;55].
Definition w_DOTS_23478 : str := [68;79;84;83;45;50;51;52;55;56].
Definition w_DOTS_2348 : str := [68;79;84;83;45;50;51;52;56].
Definition w_DOTS_235 : str := [68;79;84;83;45;50;51;53].
Definition w_DOTS_2356 : str := [68;79;84;83;45;50;51;53;54].
Definition w_DOTS_23567 : str := [68;79;84;83;45;50;51;53;54;55].
Definition w_DOTS_235678 : str := [68;79;84;83;45;50;51;53;54;55;56].
Definition w_DOTS_23568 : str := [68;79;84;83;45;50;51;53;54;56].
Definition w_DOTS_2357 : str := [68;79;84;83;45;50;51;53;55].
Definition w_DOTS_23578 : str := [68;79;84;83;45;50;51;53;55;56].
Definition w_DOTS_2358 : str := [68;79;84;83;45;50;51;53;56].
Definition w_DOTS_236 : str := [68;79;84;83;45;50;51;54].
Definition w_DOTS_2367 : str := [68;79;84;83;45;50;51;54;55].
Definition w_DOTS_23678 : str := [68;79;84;83;45;50;51;54;55;56].
Definition w_DOTS_2368 : str := [68;79;84;83;45;50;51;54;56].
Definition w_DOTS_237 : str := [68;79;84;83;45;50;51;55].
Definition w_DOTS_2378 : str := [68;79;84;83;45;50;51;55;56].
Definition w_DOTS_238 : str := [68;79;84;83;45;50;51;56].
Definition w_DOTS_24 : str := [68;79;84;83;45;50;52].
Definition w_DOTS_245 : str := [68;79;84;83;45;50;52;53].
Definition w_DOTS_2456 : str := [68;79;84;83;45;50;52;53;54].
Definition w_DOTS_24567 : str := [68;79;84;83;45;50;52;53;54;55].
Definition w_DOTS_245678 : str := [68;79;84;83;45;50;52;53;54;55;56].
Definition w_DOTS_24568 : str := [68;79;84;83;45;50;52;53;54;56].
Definition w_DOTS_2457 : str := [68;79;84;83;45;50;52;53;55].
Definition w_DOTS_24578 : str := [68;79;84;83;45;50;52;53;55;56].
Definition w_DOTS_2458 : str := [68;79;84;83;45;50;52;53;56].
Definition w_DOTS_246 : str := [68;79;84;83;45;50;52;54].
Definition w_DOTS_2467 : str := [68;79;84;83;45;50;52;54;55].
Definition w_DOTS_24678 : str := [68;79;84;83;45;50;52;54;55;56].
Definition w_DOTS_2468 : str := [68;79;84;83;45;50;52;54;56].
Definition w_DOTS_247 : str := [68;79;84;83;45;50;52;55].
Definition w_DOTS_2478 : str := [68;79;84;83;45;50;52;55;56].
Definition w_DOTS_248 : str := [68;79;84;83;45;50;52;56].
Definition w_DOTS_25 : str := [68;79;84;83;45;50;53].
Definition w_DOTS_256 : str := [68;79;84;83;45;50;53;54].
Definition w_DOTS_2567 : str := [68;79;84;83;45;50;53;54;55].
Definition w_DOTS_25678 : str := [68;79;84;83;45;50;53;54;55;56].
Definition w_DOTS_2568 : str := [68;79;84;83;45;50;53;54;56].
Definition w_DOTS_257 : str := [68;79;84;83;45;50;53;55].
Definition w_DOTS_2578 : str := [68;79;84;83;45;50;53;55;56].
Definition w_DOTS_258 : str := [68;79;84;83;45;50;53;56].
Definition w_DOTS_26 : str := [68;79;84;83;45;50;54].
Definition w_DOTS_267 : str := [68;79;84;83;45;50;54;55].
Definition w_DOTS_2678 : str := [68;79;84;83;45;50;54;55;56].
Definition w_DOTS_268 : str := [68;79;84;83;45;50;54;56].
Definition w_DOTS_27 : str := [68;79;84;83;45;50;55].
Definition w_DOTS_278 : str := [68;79;84;83;45;50;55;56].
Definition w_DOTS_28 : str := [68;79;84;83;45;50;56].
Definition w_DOTS_3 : str := [68;79;84;83;45;51].
Definition w_DOTS_34 : str := [68;79;84;83;45;51;52].
Definition w_DOTS_345 : str := [68;79;84;83;45;51;52;53].
Definition w_DOTS_3456 : str := [68;79;84;83;45;51;52;53;54].
Definition w_DOTS_34567 : str := [68;79;84;83;45;51;52;53;54;55].
Definition w_DOTS_345678 : str := [68;79;84;83;45;51;52;53;54;55;56].
Definition w_DOTS_34568 : str := [68;79;84;83;45;51;52;53;54;56].
Definition w_DOTS_3457 : str := [68;79;84;83;45;51;52;53;55].
Definition w_DOTS_34578 : str := [68;79;84;83;45;51;52;53;55;56].
Definition w_DOTS_3458 : str := [68;79;84;83;45;51;52;53;56].
Definition w_DOTS_346 : str := [68;79;84;83;45;51;52;54].
Definition w_DOTS_3467 : str := [68;79;84;83;45;51;52;54;55].
Definition w_DOTS_34678 : str := [68;79;84;83;45;51;52;54;55;56].
Definition w_DOTS_3468 : str := [68;79;84;83;45;51;52;54;56].
Definition w_DOTS_347 : str := [68;79;84;83;45;51;52;55].
Definition w_DOTS_3478 : str := [68;79;84;83;45;51;52;55;56].
Definition w_DOTS_348 : str := [68;79;84;83;45;51;52;56].
Definition w_DOTS_35 : str := [68;79;84;83;45;51;53].
Definition w_DOTS_356 : str := [68;79;84;83;45;51;53;54].
Definition w_DOTS_3567 : str := [68;79;84;83;45;51;53;54;55].
Definition w_DOTS_35678 : str := [68;79;84;83;45;51;53;54;55;56].
Definition w_DOTS_3568 : str := [68;79;84;83;45;51;53;54;56].
Definition w_DOTS_357 : str := [68;79;84;83;45;51;53;55].
Definition w_DOTS_3578 : str := [68;79;84;83;45;51;53;55;56].
Definition w_DOTS_358 : str := [68;79;84;83;45;51;53;56].
Definition w_DOTS_36 : str := [68;79;84;83;45;51;54].
Definition w_DOTS_367 : str := [68;79;84;83;45;51;54;55].
Definition w_DOTS_3678 : str := [68;79;84;83;45;51;54;55;56].
Definition w_DOTS_368 : str := [68;79;84;83;45;51;54;56].
Definition w_DOTS_37 : str := [68;79;84;83;45;51;55].
Definition w_DOTS_378 : str := [68;79;84;83;45;51;55;56].
Definition w_DOTS_38 : str := [68;79;84;83;45;51;56].
Definition w_DOTS_4 : str := [68;79;84;83;45;52].
Definition w_DOTS_45 : str := [68;79;84;83;45;52;53].
Definition w_DOTS_456 : str := [68;79;84;83;45;52;53;54].
Definition w_DOTS_4567 : str := [68;79;84;83;45;52;53;54;55].
Definition w_DOTS_45678 : str := [68;79;84;83;45;52;53;54;55;56].
Definition w_DOTS_4568 : str := [68;79;84;83;45;52;53;54;56].
Definition w_DOTS_457 : str := [68;79;84;83;45;52;53;55].
Definition w_DOTS_4578 : str := [68;79;84;83;45;52;53;55;56].
Definition w_DOTS_458 : str := [68;79;84;83;45;52;53;56].
Definition w_DOTS_46 : str := [68;79;84;83;45;52;54].
Definition w_DOTS_467 : str := [68;79;84;83;45;52;54;55].
Definition w_DOTS_4678 : str := [68;79;84;83;45;52;54;55;56].
Definition w_DOTS_468 : str := [68;79;84;83;45;52;54;56].
Definition w_DOTS_47 : str := [68;79;84;83;45;52;55].
Definition w_DOTS_478 : str := [68;79;84;83;45;52;55;56].
Definition w_DOTS_48 : str := [68;79;84;83;45;52;56].
Definition w_DOTS_5 : str := [68;79;84;83;45;53].
Definition w_DOTS_56 : str := [68;79;84;83;45;53;54].
Definition w_DOTS_567 : str := [68;79;84;83;45;53;54;55].
Definition w_DOTS_5678 : str := [68;79;84;83;45;53;54;55;56].
Definition w_DOTS_568 : str := [68;79;84;83;45;53;54;56].
Definition w_DOTS_57 : str := [68;79;84;83;45;53;55].
Definition w_DOTS_578 : str := [68;79;84;83;45;53;55;56].
Definition w_DOTS_58 : str := [68;79;84;83;45;53;56].
Definition w_DOTS_6 : str := [68;79;84;83;45;54].
Definition w_DOTS_67 : str := [68;79;84;83;45;54;55].
Definition w_DOTS_678 : str := [68;79;84;83;45;54;55;56].
Definition w_DOTS_68 : str := [68;79;84;83;45;54;56].
Definition w_DOTS_7 : str := [68;79;84;83;45;55].
Definition w_DOTS_78 : str := [68;79;84;83;45;55;56].
Definition w_DOTS_8 : str := [68;79;84;83;45;56].
Definition w_DOTTED : str := [68;79;84;84;69;68].
Definition w_DOTTED_L : str := [68;79;84;84;69;68;45;76].
Definition w_DOTTED_N : str := [68;79;84;84;69;68;45;78].
Definition w_DOTTED_P : str := [68;79;84;84;69;68;45;80].
Definition w_DOUBLE : str := [68;79;85;66;76;69].
Definition w_DOUBLE_ENDED : str := [68;79;85;66;76;69;45;69;78;68;69;68].
Definition w_DOUBLE_LINE : str := [68;79;85;66;76;69;45;76;73;78;69].
Definition w_DOUBLE_LINED : str := [68;79;85;66;76;69;45;76;73;78;69;68].
Definition w_DOUBLE_STRUCK : str := [68;79;85;66;76;69;45;83;84;82;85;67;75].
Definition w_DOUBLED : str := [68;79;85;66;76;69;68].
Definition w_DOUBT : str := [68;79;85;66;84].
Definition w_DOUGHNUT : str := [68;79;85;71;72;78;85;84].
Definition w_DOVE : str := [68;79;86;69].
Definition w_DOWN : str := [68;79;87;78].
Definition w_DOWN_POINTING : str := [68;79;87;78;45;80;79;73;78;84;73;78;71].
Definition w_DOWNWARD : str := [68;79;87;78;87;65;82;68].
Definition w_DOWNWARDS : str := [68;79;87;78;87;65;82;68;83].
Definition w_DOX : str := [68;79;88].
Definition w_DRACHMA : str := [68;82;65;67;72;77;65].
Definition w_DRACHMAS : str := [68;82;65;67;72;77;65;83].
Definition w_DRAFTING : str := [68;82;65;70;84;73;78;71].
Definition w_DRAGON : str := [68;82;65;71;79;78].
Definition w_DRAM : str := [68;82;65;77].
Definition w_DRAUGHTS : str := [68;82;65;85;71;72;84;83].
Definition w_DRAWINGS : str := [68;82;65;87;73;78;71;83].
Definition w_DREAMY : str := [68;82;69;65;77;89].
Definition w_DRESS : str := [68;82;69;83;83].
Definition w_DRIL : str := [68;82;73;76].
Definition w_DRINK : str := [68;82;73;78;75].
Definition w_DRIVE : str := [68;82;73;86;69].
Definition w_DROMEDARY : str := [68;82;79;77;69;68;65;82;89].
Definition w_DROOLING : str := [68;82;79;79;76;73;78;71].
Definition w_DROP_SHADOWED : str := [68;82;79;80;45;83;72;65;68;79;87;69;68].
Definition w_DROPLET : str := [68;82;79;80;76;69;84].
Definition w_DROPS : str := [68;82;79;80;83].
Definition w_DRUM : str := [68;82;85;77].
Definition w_DRUMSTICKS : str := [68;82;85;77;83;84;73;67;75;83].
Definition w_DRY : str := [68;82;89].
Definition w_DU : str := [68;85].
Definition w_DUB : str := [68;85;66].
Definition w_DUB2 : str := [68;85;66;50].
Definition w_DUCK : str := [68;85;67;75].
Definition w_DUG : str := [68;85;71].
Definition w_DUGUD : str := [68;85;71;85;68].
Definition w_DUH : str := [68;85;72].
Definition w_DUL : str := [68;85;76].
Definition w_DUM : str := [68;85;77].
Definition w_DUMPLING : str := [68;85;77;80;76;73;78;71].
Definition w_DUN : str := [68;85;78].
Definition w_DUN3 : str := [68;85;78;51].
Definition w_DUN4 : str := [68;85;78;52].
Definition w_DUNG : str := [68;85;78;71].
Definition w_DUO : str := [68;85;79].
Definition w_DUOX : str := [68;85;79;88].
Definition w_DUP : str := [68;85;80].
Definition w_DUPLOYAN : str := [68;85;80;76;79;89;65;78].
Definition w_DUPONDIUS : str := [68;85;80;79;78;68;73;85;83].
Definition w_DUR : str := [68;85;82].
Definition w_DUR2 : str := [68;85;82;50].
Definition w_DURATION : str := [68;85;82;65;84;73;79;78].
Definition w_DURX : str := [68;85;82;88].
Definition w_DUSHENNA : str := [68;85;83;72;69;78;78;65].
Definition w_DUSK : str := [68;85;83;75].
Definition w_DUT : str := [68;85;84].
Definition w_DUTIES : str := [68;85;84;73;69;83].
Definition w_DUX : str := [68;85;88].
Definition w_DV : str := [68;86].
Definition w_DVD : str := [68;86;68].
Definition w_DVISVARA : str := [68;86;73;83;86;65;82;65].
Definition w_DWA : str := [68;87;65].
Definition w_DWE : str := [68;87;69].
Definition w_DWO : str := [68;87;79].
Definition w_DYAN : str := [68;89;65;78].
Definition w_DYEH : str := [68;89;69;72].
Definition w_DYNAMIC : str := [68;89;78;65;77;73;67].
Definition w_DYO : str := [68;89;79].
Definition w_DZ : str := [68;90].
Definition w_DZA : str := [68;90;65].
Definition w_DZAA : str := [68;90;65;65].
Definition w_DZAY : str := [68;90;65;89].
Definition w_DZE : str := [68;90;69].
Definition w_DZEE : str := [68;90;69;69].
Definition w_DZELO : str := [68;90;69;76;79].
Definition w_DZHA : str := [68;90;72;65].
Definition w_DZHE : str := [68;90;72;69].
Definition w_DZHOI : str := [68;90;72;79;73].
Definition w_DZI : str := [68;90;73].
Definition w_DZITA : str := [68;90;73;84;65].
Definition w_DZJE : str := [68;90;74;69].
Definition w_DZO : str := [68;90;79].
Definition w_DZU : str := [68;90;85].
Definition w_DZWE : str := [68;90;87;69].
Definition w_DZYAY : str := [68;90;89;65;89].
Definition w_DZZA : str := [68;90;90;65].
Definition w_DZZE : str := [68;90;90;69].
Definition w_DZZHE : str := [68;90;90;72;69].
Definition w_E : str := [69].
Definition w_E_2 : str := [69;45;50].
Definition w_E_3 : str := [69;45;51].
Definition w_E_4 : str := [69;45;52].
Definition w_E_5 : str := [69;45;53].
Definition w_E_6 : str := [69;45;54].
Definition w_E_MAIL : str := [69;45;77;65;73;76].
Definition w_E001 : str := [69;48;48;49].
Definition w_E002 : str := [69;48;48;50].
Definition w_E003 : str := [69;48;48;51].
Definition w_E004 : str := [69;48;48;52].
Definition w_E005 : str := [69;48;48;53].
Definition w_E006 : str := [69;48;48;54].
Definition w_E007 : str := [69;48;48;55].
Definition w_E008 : str := [69;48;48;56].
Definition w_E008A : str := [69;48;48;56;65].
Definition w_E009 : str := [69;48;48;57].
Definition w_E009A : str := [69;48;48;57;65].
Definition w_E010 : str := [69;48;49;48].
Definition w_E011 : str := [69;48;49;49].
Definition w_E012 : str := [69;48;49;50].
Definition w_E013 : str := [69;48;49;51].
Definition w_E014 : str := [69;48;49;52].
Definition w_E015 : str := [69;48;49;53].
Definition w_E016 : str := [69;48;49;54].
Definition w_E016A : str := [69;48;49;54;65].
Definition w_E017 : str := [69;48;49;55].
Definition w_E017A : str := [69;48;49;55;65].
Definition w_E018 : str := [69;48;49;56].
Definition w_E019 : str := [69;48;49;57].
Definition w_E020 : str := [69;48;50;48].
Definition w_E020A : str := [69;48;50;48;65].
Definition w_E021 : str := [69;48;50;49].
Definition w_E022 : str := [69;48;50;50].
Definition w_E023 : str := [69;48;50;51].
Definition w_E024 : str := [69;48;50;52].
Definition w_E025 : str := [69;48;50;53].
Definition w_E026 : str := [69;48;50;54].
Definition w_E027 : str := [69;48;50;55].
Definition w_E028 : str := [69;48;50;56].
Definition w_E028A : str := [69;48;50;56;65].
Definition w_E029 : str := [69;48;50;57].
Definition w_E030 : str := [69;48;51;48].
Definition w_E031 : str := [69;48;51;49].
Definition w_E032 : str := [69;48;51;50].
Definition w_E033 : str := [69;48;51;51].
Definition w_E034 : str := [69;48;51;52].
Definition w_E034A : str := [69;48;51;52;65].
Definition w_E036 : str := [69;48;51;54].
Definition w_E037 : str := [69;48;51;55].
Definition w_E038 : str := [69;48;51;56].
Definition w_E2 : str := [69;50].
Definition w_EA : str := [69;65].
Definition w_EABHADH : str := [69;65;66;72;65;68;72].
Definition w_EADHADH : str := [69;65;68;72;65;68;72].
Definition w_EAGLE : str := [69;65;71;76;69].
Definition w_EAMHANCHOLL : str := [69;65;77;72;65;78;67;72;79;76;76].
Definition w_EAR : str := [69;65;82].
Definition w_EARLY : str := [69;65;82;76;89].
Definition w_EARS : str := [69;65;82;83].
Definition w_EARTH : str := [69;65;82;84;72].
Definition w_EARTHLY : str := [69;65;82;84;72;76;89].
Definition w_EASE : str := [69;65;83;69].
Definition w_EAST : str := [69;65;83;84].
Definition w_EASTERN : str := [69;65;83;84;69;82;78].
Definition w_EAT : str := [69;65;84].
Definition w_EB : str := [69;66].
Definition w_EBEFILI : str := [69;66;69;70;73;76;73].
Definition w_EC : str := [69;67].
Definition w_ECH : str := [69;67;72].
Definition w_ECS : str := [69;67;83].
Definition w_ED : str := [69;68].
Definition w_EDD : str := [69;68;68].
Definition w_EDIN : str := [69;68;73;78].
Definition w_EDITORIAL : str := [69;68;73;84;79;82;73;65;76].
Definition w_EE : str := [69;69].
Definition w_EEBEEFILI : str := [69;69;66;69;69;70;73;76;73].
Definition w_EEH : str := [69;69;72].
Definition w_EEKAA : str := [69;69;75;65;65].
Definition w_EEN : str := [69;69;78].
Definition w_EEYANNA : str := [69;69;89;65;78;78;65].
Definition w_EF : str := [69;70].
Definition w_EG : str := [69;71].
Definition w_EGG : str := [69;71;71].
Definition w_EGIR : str := [69;71;73;82].
Definition w_EGY : str := [69;71;89].
Definition w_EGYPTIAN : str := [69;71;89;80;84;73;65;78].
Definition w_EGYPTOLOGICAL : str := [69;71;89;80;84;79;76;79;71;73;67;65;76].
Definition w_EH : str := [69;72].
Definition w_EHCHA : str := [69;72;67;72;65].
Definition w_EHKA : str := [69;72;75;65].
Definition w_EHPA : str := [69;72;80;65].
Definition w_EHTA : str := [69;72;84;65].
Definition w_EHTSA : str := [69;72;84;83;65].
Definition w_EHWAZ : str := [69;72;87;65;90].
Definition w_EI : str := [69;73].
Definition w_EIE : str := [69;73;69].
Definition w_EIGHT : str := [69;73;71;72;84].
Definition w_EIGHT_THIRTY : str := [69;73;71;72;84;45;84;72;73;82;84;89].
Definition w_EIGHTEEN : str := [69;73;71;72;84;69;69;78].
Definition w_EIGHTH : str := [69;73;71;72;84;72].
Definition w_EIGHTHS : str := [69;73;71;72;84;72;83].
Definition w_EIGHTIETHS : str := [69;73;71;72;84;73;69;84;72;83].
Definition w_EIGHTY : str := [69;73;71;72;84;89].
Definition w_EIN : str := [69;73;78].
Definition w_EIS : str := [69;73;83].
Definition w_EJ : str := [69;74].
Definition w_EJECT : str := [69;74;69;67;84].
Definition w_EK : str := [69;75].
Definition w_EKAM : str := [69;75;65;77].
Definition w_EKARA : str := [69;75;65;82;65].
Definition w_EKFONITIKON : str := [69;75;70;79;78;73;84;73;75;79;78].
Definition w_EKS : str := [69;75;83].
Definition w_EKSTREPTON : str := [69;75;83;84;82;69;80;84;79;78].
Definition w_EL : str := [69;76].
Definition w_ELAFRON : str := [69;76;65;70;82;79;78].
Definition w_ELAMITE : str := [69;76;65;77;73;84;69].
Definition w_ELBASAN : str := [69;76;66;65;83;65;78].
Definition w_ELECTRIC : str := [69;76;69;67;84;82;73;67].
Definition w_ELECTRICAL : str := [69;76;69;67;84;82;73;67;65;76].
Definition w_ELEMENT : str := [69;76;69;77;69;78;84].
Definition w_ELEPHANT : str := [69;76;69;80;72;65;78;84].
Definition w_ELEVEN : str := [69;76;69;86;69;78].
Definition w_ELEVEN_THIRTY : str := [69;76;69;86;69;78;45;84;72;73;82;84;89].
Definition w_ELF : str := [69;76;70].
Definition w_ELIFI : str := [69;76;73;70;73].
Definition w_ELLIPSE : str := [69;76;76;73;80;83;69].
Definition w_ELLIPSIS : str := [69;76;76;73;80;83;73;83].
Definition w_ELT : str := [69;76;84].
Definition w_ELY : str := [69;76;89].
Definition w_EM : str := [69;77].
Definition w_EMBEDDING : str := [69;77;66;69;68;68;73;78;71].
Definition w_EMBELLISHMENT : str := [69;77;66;69;76;76;73;83;72;77;69;78;84].
Definition w_EMBLEM : str := [69;77;66;76;69;77].
Definition w_EMBROIDERY : str := [69;77;66;82;79;73;68;69;82;89].
Definition w_EMOJI : str := [69;77;79;74;73].
Definition w_EMP : str := [69;77;80].
Definition w_EMPHASIS : str := [69;77;80;72;65;83;73;83].
Definition w_EMPHATIC : str := [69;77;80;72;65;84;73;67].
Definition w_EMPTY : str := [69;77;80;84;89].
Definition w_EN : str := [69;78].
Definition w_ENARMONIOS : str := [69;78;65;82;77;79;78;73;79;83].
Definition w_ENARXIS : str := [69;78;65;82;88;73;83].
Definition w_ENC : str := [69;78;67].
Definition w_ENCLOSING : str := [69;78;67;76;79;83;73;78;71].
Definition w_ENCLOSURE : str := [69;78;67;76;79;83;85;82;69].
Definition w_ENCLOSURES : str := [69;78;67;76;79;83;85;82;69;83].
Definition w_ENCOUNTERS : str := [69;78;67;79;85;78;84;69;82;83].
Definition w_END : str := [69;78;68].
Definition w_ENDEAVOUR : str := [69;78;68;69;65;86;79;85;82].
Definition w_ENDEP : str := [69;78;68;69;80].
Definition w_ENDING : str := [69;78;68;73;78;71].
Definition w_ENDOFONON : str := [69;78;68;79;70;79;78;79;78].
Definition w_ENG : str := [69;78;71].
Definition w_ENGINE : str := [69;78;71;73;78;69].
Definition w_ENLARGEMENT : str := [69;78;76;65;82;71;69;77;69;78;84].
Definition w_ENN : str := [69;78;78].
Definition w_ENNI : str := [69;78;78;73].
Definition w_ENOS : str := [69;78;79;83].
Definition w_ENQUIRY : str := [69;78;81;85;73;82;89].
Definition w_ENT : str := [69;78;84].
Definition w_ENT_SHAPED : str := [69;78;84;45;83;72;65;80;69;68].
Definition w_ENTER : str := [69;78;84;69;82].
Definition w_ENTERING : str := [69;78;84;69;82;73;78;71].
Definition w_ENTERPRISE : str := [69;78;84;69;82;80;82;73;83;69].
Definition w_ENTHUSIASM : str := [69;78;84;72;85;83;73;65;83;77].
Definition w_ENTRY : str := [69;78;84;82;89].
Definition w_ENTRY_1 : str := [69;78;84;82;89;45;49].
Definition w_ENTRY_2 : str := [69;78;84;82;89;45;50].
Definition w_ENUMERATION : str := [69;78;85;77;69;82;65;84;73;79;78].
Definition w_ENVELOPE : str := [69;78;86;69;76;79;80;69].
Definition w_ENY : str := [69;78;89].
Definition w_EO : str := [69;79].
Definition w_EO_EU : str := [69;79;45;69;85].
Definition w_EO_O : str := [69;79;45;79].
Definition w_EO_U : str := [69;79;45;85].
Definition w_EOH : str := [69;79;72].
Definition w_EOLHX : str := [69;79;76;72;88].
Definition w_EP : str := [69;80].
Definition w_EPACT : str := [69;80;65;67;84].
Definition w_EPEGERMA : str := [69;80;69;71;69;82;77;65].
Definition w_EPENTHETIC : str := [69;80;69;78;84;72;69;84;73;67].
Definition w_EPIDAUREAN : str := [69;80;73;68;65;85;82;69;65;78].
Definition w_EPIGRAPHIC : str := [69;80;73;71;82;65;80;72;73;67].
Definition w_EPOCH : str := [69;80;79;67;72].
Definition w_EPSILON : str := [69;80;83;73;76;79;78].
Definition w_EQUAL : str := [69;81;85;65;76].
Definition w_EQUALS : str := [69;81;85;65;76;83].
Definition w_EQUIANGULAR : str := [69;81;85;73;65;78;71;85;76;65;82].
Definition w_EQUID : str := [69;81;85;73;68].
Definition w_EQUILATERAL : str := [69;81;85;73;76;65;84;69;82;65;76].
Definition w_EQUIVALENT : str := [69;81;85;73;86;65;76;69;78;84].
Definition w_ER : str := [69;82].
Definition w_ERA : str := [69;82;65].
Definition w_ERASE : str := [69;82;65;83;69].
Definition w_EREN : str := [69;82;69;78].
Definition w_ERG : str := [69;82;71].
Definition w_ERIN2 : str := [69;82;73;78;50].
Definition w_ERR : str := [69;82;82].
Definition w_ERROR_BARRED : str := [69;82;82;79;82;45;66;65;82;82;69;68].
Definition w_ERS : str := [69;82;83].
Definition w_ES : str := [69;83].
Definition w_ES_1 : str := [69;83;45;49].
Definition w_ES_2 : str := [69;83;45;50].
Definition w_ES_3 : str := [69;83;45;51].
Definition w_ES_TE : str := [69;83;45;84;69].
Definition w_ESASA : str := [69;83;65;83;65].
Definition w_ESCAPE : str := [69;83;67;65;80;69].
Definition w_ESH : str := [69;83;72].
Definition w_ESH16 : str := [69;83;72;49;54].
Definition w_ESH2 : str := [69;83;72;50].
Definition w_ESH21 : str := [69;83;72;50;49].
Definition w_ESHE3 : str := [69;83;72;69;51].
Definition w_ESO : str := [69;83;79].
Definition w_ESS : str := [69;83;83].
Definition w_ESTIMATED : str := [69;83;84;73;77;65;84;69;68].
Definition w_ESTIMATES : str := [69;83;84;73;77;65;84;69;83].
Definition w_ESUKUUDO : str := [69;83;85;75;85;85;68;79].
Definition w_ESZ : str := [69;83;90].
Definition w_ET : str := [69;84].
Definition w_ETA : str := [69;84;65].
Definition w_ETERNITY : str := [69;84;69;82;78;73;84;89].
Definition w_ETERON : str := [69;84;69;82;79;78].
Definition w_ETH : str := [69;84;72].
Definition w_ETHEL : str := [69;84;72;69;76].
Definition w_ETHIOPIC : str := [69;84;72;73;79;80;73;67].
Definition w_ETNAHTA : str := [69;84;78;65;72;84;65].
Definition w_ETY : str := [69;84;89].
Definition w_EU : str := [69;85].
Definition w_EU_A : str := [69;85;45;65].
Definition w_EU_E : str := [69;85;45;69].
Definition w_EU_EO : str := [69;85;45;69;79].
Definition w_EU_EU : str := [69;85;45;69;85].
Definition w_EU_O : str := [69;85;45;79].
Definition w_EU_U : str := [69;85;45;85].
Definition w_EULER : str := [69;85;76;69;82].
Definition w_EURO : str := [69;85;82;79].
Definition w_EURO_CURRENCY : str := [69;85;82;79;45;67;85;82;82;69;78;67;89].
Definition w_EUROPE_AFRICA : str := [69;85;82;79;80;69;45;65;70;82;73;67;65].
Definition w_EUROPEAN : str := [69;85;82;79;80;69;65;78].
Definition w_EV : str := [69;86].
Definition w_EVEN : str := [69;86;69;78].
Definition w_EVENING : str := [69;86;69;78;73;78;71].
Definition w_EVERGREEN : str := [69;86;69;82;71;82;69;69;78].
Definition w_EVERY : str := [69;86;69;82;89].
Definition w_EW : str := [69;87].
Definition w_EWE : str := [69;87;69].
Definition w_EX : str := [69;88].
Definition w_EXCELLENT : str := [69;88;67;69;76;76;69;78;84].
Definition w_EXCESS : str := [69;88;67;69;83;83].
Definition w_EXCHANGE : str := [69;88;67;72;65;78;71;69].
Definition w_EXCITEMENT : str := [69;88;67;73;84;69;77;69;78;84].
Definition w_EXCLAMATION : str := [69;88;67;76;65;77;65;84;73;79;78].
Definition w_EXHALE : str := [69;88;72;65;76;69].
Definition w_EXHAUSTION : str := [69;88;72;65;85;83;84;73;79;78].
Definition w_EXIST : str := [69;88;73;83;84].
Definition w_EXISTS : str := [69;88;73;83;84;83].
Definition w_EXO : str := [69;88;79].
Definition w_EXPLODING : str := [69;88;80;76;79;68;73;78;71].
Definition w_EXPONENT : str := [69;88;80;79;78;69;78;84].
Definition w_EXPRESSIONLESS : str := [69;88;80;82;69;83;83;73;79;78;76;69;83;83].
Definition w_EXTENDED : str := [69;88;84;69;78;68;69;68].
Definition w_EXTENSION : str := [69;88;84;69;78;83;73;79;78].
Definition w_EXTRA : str := [69;88;84;82;65].
Definition w_EXTRA_HIGH : str := [69;88;84;82;65;45;72;73;71;72].
Definition w_EXTRA_LOW : str := [69;88;84;82;65;45;76;79;87].
Definition w_EXTRATERRESTRIAL : str := [69;88;84;82;65;84;69;82;82;69;83;84;82;73;65;76].
Definition w_EXTREMELY : str := [69;88;84;82;69;77;69;76;89].
Definition w_EYANNA : str := [69;89;65;78;78;65].
Definition w_EYBEYFILI : str := [69;89;66;69;89;70;73;76;73].
Definition w_EYE : str := [69;89;69].
Definition w_EYEBROW : str := [69;89;69;66;82;79;87].
Definition w_EYEBROWS : str := [69;89;69;66;82;79;87;83].
Definition w_EYEGAZE_FLOORPLANE : str := [69;89;69;71;65;90;69;45;70;76;79;79;82;80;76;65;78;69].
Definition w_EYEGAZE_WALLPLANE : str := [69;89;69;71;65;90;69;45;87;65;76;76;80;76;65;78;69].
Definition w_EYEGLASSES : str := [69;89;69;71;76;65;83;83;69;83].
Definition w_EYELASHES : str := [69;89;69;76;65;83;72;69;83].
Definition w_EYES : str := [69;89;69;83].
Definition w_EYN : str := [69;89;78].
Definition w_EYYY : str := [69;89;89;89].
Definition w_EZ : str := [69;90].
Definition w_EZEN : str := [69;90;69;78].
Definition w_EZH : str := [69;90;72].
Definition w_EZS : str := [69;90;83].
Definition w_F : str := [70].
Definition w_F001 : str := [70;48;48;49].
Definition w_F001A : str := [70;48;48;49;65].
Definition w_F002 : str := [70;48;48;50].
Definition w_F003 : str := [70;48;48;51].
Definition w_F004 : str := [70;48;48;52].
Definition w_F005 : str := [70;48;48;53].
Definition w_F006 : str := [70;48;48;54].
Definition w_F007 : str := [70;48;48;55].
Definition w_F008 : str := [70;48;48;56].
Definition w_F009 : str := [70;48;48;57].
Definition w_F010 : str := [70;48;49;48].
Definition w_F011 : str := [70;48;49;49].
Definition w_F012 : str := [70;48;49;50].
Definition w_F013 : str := [70;48;49;51].
Definition w_F013A : str := [70;48;49;51;65].
Definition w_F014 : str := [70;48;49;52].
Definition w_F015 : str := [70;48;49;53].
Definition w_F016 : str := [70;48;49;54].
Definition w_F017 : str := [70;48;49;55].
Definition w_F018 : str := [70;48;49;56].
Definition w_F019 : str := [70;48;49;57].
Definition w_F020 : str := [70;48;50;48].
Definition w_F021 : str := [70;48;50;49].
Definition w_F021A : str := [70;48;50;49;65].
Definition w_F022 : str := [70;48;50;50].
Definition w_F023 : str := [70;48;50;51].
Definition w_F024 : str := [70;48;50;52].
Definition w_F025 : str := [70;48;50;53].
Definition w_F026 : str := [70;48;50;54].
Definition w_F027 : str := [70;48;50;55].
Definition w_F028 : str := [70;48;50;56].
Definition w_F029 : str := [70;48;50;57].
Definition w_F030 : str := [70;48;51;48].
Definition w_F031 : str := [70;48;51;49].
Definition w_F031A : str := [70;48;51;49;65].
Definition w_F032 : str := [70;48;51;50].
Definition w_F033 : str := [70;48;51;51].
Definition w_F034 : str := [70;48;51;52].
Definition w_F035 : str := [70;48;51;53].
Definition w_F036 : str := [70;48;51;54].
Definition w_F037 : str := [70;48;51;55].
Definition w_F037A : str := [70;48;51;55;65].
Definition w_F038 : str := [70;48;51;56].
Definition w_F038A : str := [70;48;51;56;65].
Definition w_F039 : str := [70;48;51;57].
Definition w_F040 : str := [70;48;52;48].
Definition w_F041 : str := [70;48;52;49].
Definition w_F042 : str := [70;48;52;50].
Definition w_F043 : str := [70;48;52;51].
Definition w_F044 : str := [70;48;52;52].
Definition w_F045 : str := [70;48;52;53].
Definition w_F045A : str := [70;48;52;53;65].
Definition w_F046 : str := [70;48;52;54].
Definition w_F046A : str := [70;48;52;54;65].
Definition w_F047 : str := [70;48;52;55].
Definition w_F047A : str := [70;48;52;55;65].
Definition w_F048 : str := [70;48;52;56].
Definition w_F049 : str := [70;48;52;57].
Definition w_F050 : str := [70;48;53;48].
Definition w_F051 : str := [70;48;53;49].
Definition w_F051A : str := [70;48;53;49;65].
Definition w_F051B : str := [70;48;53;49;66].
Definition w_F051C : str := [70;48;53;49;67].
Definition w_F052 : str := [70;48;53;50].
Definition w_F053 : str := [70;48;53;51].
Definition w_FA : str := [70;65].
Definition w_FAA : str := [70;65;65].
Definition w_FAAFU : str := [70;65;65;70;85].
Definition w_FAAI : str := [70;65;65;73].
Definition w_FAAMAE : str := [70;65;65;77;65;69].
Definition w_FACE : str := [70;65;67;69].
Definition w_FACE_1 : str := [70;65;67;69;45;49].
Definition w_FACE_2 : str := [70;65;67;69;45;50].
Definition w_FACE_3 : str := [70;65;67;69;45;51].
Definition w_FACE_4 : str := [70;65;67;69;45;52].
Definition w_FACE_5 : str := [70;65;67;69;45;53].
Definition w_FACE_6 : str := [70;65;67;69;45;54].
Definition w_FACING : str := [70;65;67;73;78;71].
Definition w_FACINGS : str := [70;65;67;73;78;71;83].
Definition w_FACSIMILE : str := [70;65;67;83;73;77;73;76;69].
Definition w_FACTOR : str := [70;65;67;84;79;82].
Definition w_FACTORY : str := [70;65;67;84;79;82;89].
Definition w_FAHRENHEIT : str := [70;65;72;82;69;78;72;69;73;84].
Definition w_FAIB : str := [70;65;73;66].
Definition w_FAIHU : str := [70;65;73;72;85].
Definition w_FAILURE : str := [70;65;73;76;85;82;69].
Definition w_FAIRY : str := [70;65;73;82;89].
Definition w_FAJ : str := [70;65;74].
Definition w_FALLEN : str := [70;65;76;76;69;78].
Definition w_FALLING : str := [70;65;76;76;73;78;71].
Definition w_FAM : str := [70;65;77].
Definition w_FAMILY : str := [70;65;77;73;76;89].
Definition w_FAN : str := [70;65;78].
Definition w_FANEROSIS : str := [70;65;78;69;82;79;83;73;83].
Definition w_FANG : str := [70;65;78;71].
Definition w_FAP : str := [70;65;80].
Definition w_FAQ : str := [70;65;81].
Definition w_FAR : str := [70;65;82].
Definition w_FARSI : str := [70;65;82;83;73].
Definition w_FAST : str := [70;65;83;84].
Definition w_FAT : str := [70;65;84].
Definition w_FATHA : str := [70;65;84;72;65].
Definition w_FATHATAN : str := [70;65;84;72;65;84;65;78].
Definition w_FATHER : str := [70;65;84;72;69;82].
Definition w_FATIGUE : str := [70;65;84;73;71;85;69].
Definition w_FAX : str := [70;65;88].
Definition w_FAYANNA : str := [70;65;89;65;78;78;65].
Definition w_FE : str := [70;69].
Definition w_FEAR : str := [70;69;65;82].
Definition w_FEARFUL : str := [70;69;65;82;70;85;76].
Definition w_FEARN : str := [70;69;65;82;78].
Definition w_FEATHER : str := [70;69;65;84;72;69;82].
Definition w_FEBRUARY : str := [70;69;66;82;85;65;82;89].
Definition w_FEE : str := [70;69;69].
Definition w_FEED : str := [70;69;69;68].
Definition w_FEEM : str := [70;69;69;77].
Definition w_FEENG : str := [70;69;69;78;71].
Definition w_FEH : str := [70;69;72].
Definition w_FEHU : str := [70;69;72;85].
Definition w_FEI : str := [70;69;73].
Definition w_FELLOWSHIP : str := [70;69;76;76;79;87;83;72;73;80].
Definition w_FEMALE : str := [70;69;77;65;76;69].
Definition w_FEMININE : str := [70;69;77;73;78;73;78;69].
Definition w_FENCE : str := [70;69;78;67;69].
Definition w_FENCER : str := [70;69;78;67;69;82].
Definition w_FENG : str := [70;69;78;71].
Definition w_FEOH : str := [70;69;79;72].
Definition w_FERMATA : str := [70;69;82;77;65;84;65].
Definition w_FERRIS : str := [70;69;82;82;73;83].
Definition w_FERRY : str := [70;69;82;82;89].
Definition w_FESTIVAL : str := [70;69;83;84;73;86;65;76].
Definition w_FEUFEUAET : str := [70;69;85;70;69;85;65;69;84].
Definition w_FEUX : str := [70;69;85;88].
Definition w_FF : str := [70;70].
Definition w_FFI : str := [70;70;73].
Definition w_FFL : str := [70;70;76].
Definition w_FHTORA : str := [70;72;84;79;82;65].
Definition w_FI : str := [70;73].
Definition w_FIELD : str := [70;73;69;76;68].
Definition w_FIFTEEN : str := [70;73;70;84;69;69;78].
Definition w_FIFTH : str := [70;73;70;84;72].
Definition w_FIFTHS : str := [70;73;70;84;72;83].
Definition w_FIFTY : str := [70;73;70;84;89].
Definition w_FIGHT : str := [70;73;71;72;84].
Definition w_FIGURE : str := [70;73;71;85;82;69].
Definition w_FIGURE_1 : str := [70;73;71;85;82;69;45;49].
Definition w_FIGURE_2 : str := [70;73;71;85;82;69;45;50].
Definition w_FIGURE_3 : str := [70;73;71;85;82;69;45;51].
Definition w_FII : str := [70;73;73].
Definition w_FILE : str := [70;73;76;69].
Definition w_FILL : str := [70;73;76;76].
Definition w_FILLED : str := [70;73;76;76;69;68].
Definition w_FILLER : str := [70;73;76;76;69;82].
Definition w_FILLER_1 : str := [70;73;76;76;69;82;45;49].
Definition w_FILLER_2 : str := [70;73;76;76;69;82;45;50].
Definition w_FILM : str := [70;73;76;77].
Definition w_FINAL : str := [70;73;78;65;76].
Definition w_FINANCIAL : str := [70;73;78;65;78;67;73;65;76].
Definition w_FINGER : str := [70;73;78;71;69;82].
Definition w_FINGER_POST : str := [70;73;78;71;69;82;45;80;79;83;84].
Definition w_FINGERED : str := [70;73;78;71;69;82;69;68].
Definition w_FINGERNAILS : str := [70;73;78;71;69;82;78;65;73;76;83].
Definition w_FINGERS : str := [70;73;78;71;69;82;83].
Definition w_FINITE : str := [70;73;78;73;84;69].
Definition w_FIP : str := [70;73;80].
Definition w_FIRE : str := [70;73;82;69].
Definition w_FIREWORK : str := [70;73;82;69;87;79;82;75].
Definition w_FIREWORKS : str := [70;73;82;69;87;79;82;75;83].
Definition w_FIRI : str := [70;73;82;73].
Definition w_FIRST : str := [70;73;82;83;84].
Definition w_FISH : str := [70;73;83;72].
Definition w_FISHEYE : str := [70;73;83;72;69;89;69].
Definition w_FISHHOOK : str := [70;73;83;72;72;79;79;75].
Definition w_FISHING : str := [70;73;83;72;73;78;71].
Definition w_FIST : str := [70;73;83;84].
Definition w_FISTED : str := [70;73;83;84;69;68].
Definition w_FIT : str := [70;73;84].
Definition w_FITA : str := [70;73;84;65].
Definition w_FITZPATRICK : str := [70;73;84;90;80;65;84;82;73;67;75].
Definition w_FIVE : str := [70;73;86;69].
Definition w_FIVE_LINE : str := [70;73;86;69;45;76;73;78;69].
Definition w_FIVE_THIRTY : str := [70;73;86;69;45;84;72;73;82;84;89].
Definition w_FIX : str := [70;73;88].
Definition w_FIXED_FORM : str := [70;73;88;69;68;45;70;79;82;77].
Definition w_FL : str := [70;76].
Definition w_FLA : str := [70;76;65].
Definition w_FLAG : str := [70;76;65;71].
Definition w_FLAG_1 : str := [70;76;65;71;45;49].
Definition w_FLAG_2 : str := [70;76;65;71;45;50].
Definition w_FLAG_3 : str := [70;76;65;71;45;51].
Definition w_FLAG_4 : str := [70;76;65;71;45;52].
Definition w_FLAG_5 : str := [70;76;65;71;45;53].
Definition w_FLAGS : str := [70;76;65;71;83].
Definition w_FLAME : str := [70;76;65;77;69].
Definition w_FLASH : str := [70;76;65;83;72].
Definition w_FLAT : str := [70;76;65;84].
Definition w_FLATBREAD : str := [70;76;65;84;66;82;69;65;68].
Definition w_FLATNESS : str := [70;76;65;84;78;69;83;83].
Definition w_FLATTENED : str := [70;76;65;84;84;69;78;69;68].
Definition w_FLEUR_DE_LIS : str := [70;76;69;85;82;45;68;69;45;76;73;83].
Definition w_FLEURON : str := [70;76;69;85;82;79;78].
Definition w_FLEX : str := [70;76;69;88].
Definition w_FLEXED : str := [70;76;69;88;69;68].
Definition w_FLEXUS : str := [70;76;69;88;85;83].
Definition w_FLICK : str := [70;76;73;67;75].
Definition w_FLIGHT : str := [70;76;73;71;72;84].
Definition w_FLIP : str := [70;76;73;80].
Definition w_FLOOR : str := [70;76;79;79;82].
Definition w_FLOORPLANE : str := [70;76;79;79;82;80;76;65;78;69].
Definition w_FLOPPY : str := [70;76;79;80;80;89].
Definition w_FLORAL : str := [70;76;79;82;65;76].
Definition w_FLORETTE : str := [70;76;79;82;69;84;84;69].
Definition w_FLOURISH : str := [70;76;79;85;82;73;83;72].
Definition w_FLOWER : str := [70;76;79;87;69;82].
Definition w_FLOWERS : str := [70;76;79;87;69;82;83].
Definition w_FLOWING : str := [70;76;79;87;73;78;71].
Definition w_FLUSHED : str := [70;76;85;83;72;69;68].
Definition w_FLUTE : str := [70;76;85;84;69].
Definition w_FLUTTERING : str := [70;76;85;84;84;69;82;73;78;71].
Definition w_FLY : str := [70;76;89].
Definition w_FLYING : str := [70;76;89;73;78;71].
Definition w_FM : str := [70;77].
Definition w_FO : str := [70;79].
Definition w_FOG : str := [70;79;71].
Definition w_FOGGY : str := [70;79;71;71;89].
Definition w_FOLDED : str := [70;79;76;68;69;68].
Definition w_FOLDER : str := [70;79;76;68;69;82].
Definition w_FOLLOWING : str := [70;79;76;76;79;87;73;78;71].
Definition w_FOLLY : str := [70;79;76;76;89].
Definition w_FOM : str := [70;79;77].
Definition w_FON : str := [70;79;78].
Definition w_FONGMAN : str := [70;79;78;71;77;65;78].
Definition w_FONT : str := [70;79;78;84].
Definition w_FOO : str := [70;79;79].
Definition w_FOOD : str := [70;79;79;68].
Definition w_FOOL : str := [70;79;79;76].
Definition w_FOOT : str := [70;79;79;84].
Definition w_FOOTBALL : str := [70;79;79;84;66;65;76;76].
Definition w_FOOTNOTE : str := [70;79;79;84;78;79;84;69].
Definition w_FOOTPRINTS : str := [70;79;79;84;80;82;73;78;84;83].
Definition w_FOOTSTOOL : str := [70;79;79;84;83;84;79;79;76].
Definition w_FOP : str := [70;79;80].
Definition w_FOR : str := [70;79;82].
Definition w_FORCE : str := [70;79;82;67;69].
Definition w_FORCES : str := [70;79;82;67;69;83].
Definition w_FOREHEAD : str := [70;79;82;69;72;69;65;68].
Definition w_FORK : str := [70;79;82;75].
Definition w_FORKED : str := [70;79;82;75;69;68].
Definition w_FORKING : str := [70;79;82;75;73;78;71].
Definition w_FORM : str := [70;79;82;77].
Definition w_FORMAT : str := [70;79;82;77;65;84].
Definition w_FORMATTING : str := [70;79;82;77;65;84;84;73;78;71].
Definition w_FORMEE : str := [70;79;82;77;69;69].
Definition w_FORMS : str := [70;79;82;77;83].
Definition w_FORTE : str := [70;79;82;84;69].
Definition w_FORTIETH : str := [70;79;82;84;73;69;84;72].
Definition w_FORTUNE : str := [70;79;82;84;85;78;69].
Definition w_FORTY : str := [70;79;82;84;89].
Definition w_FORWARD : str := [70;79;82;87;65;82;68].
Definition w_FOSTERING : str := [70;79;83;84;69;82;73;78;71].
Definition w_FOUNTAIN : str := [70;79;85;78;84;65;73;78].
Definition w_FOUR : str := [70;79;85;82].
Definition w_FOUR_LINE : str := [70;79;85;82;45;76;73;78;69].
Definition w_FOUR_PER_EM : str := [70;79;85;82;45;80;69;82;45;69;77].
Definition w_FOUR_STRING : str := [70;79;85;82;45;83;84;82;73;78;71].
Definition w_FOUR_THIRTY : str := [70;79;85;82;45;84;72;73;82;84;89].
Definition w_FOURTEEN : str := [70;79;85;82;84;69;69;78].
Definition w_FOURTH : str := [70;79;85;82;84;72].
Definition w_FOX : str := [70;79;88].
Definition w_FRACTION : str := [70;82;65;67;84;73;79;78].
Definition w_FRAGMENT : str := [70;82;65;71;77;69;78;84].
Definition w_FRAGRANT : str := [70;82;65;71;82;65;78;84].
Definition w_FRAKTUR : str := [70;82;65;75;84;85;82].
Definition w_FRAME : str := [70;82;65;77;69].
Definition w_FRAMES : str := [70;82;65;77;69;83].
Definition w_FRANC : str := [70;82;65;78;67].
Definition w_FRANKS : str := [70;82;65;78;75;83].
Definition w_FREE : str := [70;82;69;69].
Definition w_FRENCH : str := [70;82;69;78;67;72].
Definition w_FRETBOARD : str := [70;82;69;84;66;79;65;82;68].
Definition w_FRICATIVE : str := [70;82;73;67;65;84;73;86;69].
Definition w_FRIED : str := [70;82;73;69;68].
Definition w_FRIES : str := [70;82;73;69;83].
Definition w_FRITU : str := [70;82;73;84;85].
Definition w_FROG : str := [70;82;79;71].
Definition w_FROM : str := [70;82;79;77].
Definition w_FRONT : str := [70;82;79;78;84].
Definition w_FRONT_FACING : str := [70;82;79;78;84;45;70;65;67;73;78;71].
Definition w_FRONT_TILTED : str := [70;82;79;78;84;45;84;73;76;84;69;68].
Definition w_FROWN : str := [70;82;79;87;78].
Definition w_FROWNING : str := [70;82;79;87;78;73;78;71].
Definition w_FTHORA : str := [70;84;72;79;82;65].
Definition w_FU : str := [70;85].
Definition w_FUA : str := [70;85;65].
Definition w_FUE : str := [70;85;69].
Definition w_FUEL : str := [70;85;69;76].
Definition w_FUET : str := [70;85;69;84].
Definition w_FUJI : str := [70;85;74;73].
Definition w_FULL : str := [70;85;76;76].
Definition w_FULLNESS : str := [70;85;76;76;78;69;83;83].
Definition w_FULLWIDTH : str := [70;85;76;76;87;73;68;84;72].
Definition w_FUNCTION : str := [70;85;78;67;84;73;79;78].
Definition w_FUNCTIONAL : str := [70;85;78;67;84;73;79;78;65;76].
Definition w_FUNERAL : str := [70;85;78;69;82;65;76].
Definition w_FUP : str := [70;85;80].
Definition w_FUR : str := [70;85;82].
Definition w_FURX : str := [70;85;82;88].
Definition w_FUSA : str := [70;85;83;65].
Definition w_FUSE : str := [70;85;83;69].
Definition w_FUT : str := [70;85;84].
Definition w_FUX : str := [70;85;88].
Definition w_FWA : str := [70;87;65].
Definition w_FWAA : str := [70;87;65;65].
Definition w_FWE : str := [70;87;69].
Definition w_FWEE : str := [70;87;69;69].
Definition w_FWI : str := [70;87;73].
Definition w_FY : str := [70;89].
Definition w_FYA : str := [70;89;65].
Definition w_FYP : str := [70;89;80].
Definition w_FYT : str := [70;89;84].
Definition w_FYX : str := [70;89;88].
Definition w_G : str := [71].
Definition w_G001 : str := [71;48;48;49].
Definition w_G002 : str := [71;48;48;50].
Definition w_G003 : str := [71;48;48;51].
Definition w_G004 : str := [71;48;48;52].
Definition w_G005 : str := [71;48;48;53].
Definition w_G006 : str := [71;48;48;54].
Definition w_G006A : str := [71;48;48;54;65].
Definition w_G007 : str := [71;48;48;55].
Definition w_G007A : str := [71;48;48;55;65].
Definition w_G007B : str := [71;48;48;55;66].
Definition w_G008 : str := [71;48;48;56].
Definition w_G009 : str := [71;48;48;57].
Definition w_G010 : str := [71;48;49;48].
Definition w_G011 : str := [71;48;49;49].
Definition w_G011A : str := [71;48;49;49;65].
Definition w_G012 : str := [71;48;49;50].
Definition w_G013 : str := [71;48;49;51].
Definition w_G014 : str := [71;48;49;52].
Definition w_G015 : str := [71;48;49;53].
Definition w_G016 : str := [71;48;49;54].
Definition w_G017 : str := [71;48;49;55].
Definition w_G018 : str := [71;48;49;56].
Definition w_G019 : str := [71;48;49;57].
Definition w_G020 : str := [71;48;50;48].
Definition w_G020A : str := [71;48;50;48;65].
Definition w_G021 : str := [71;48;50;49].
Definition w_G022 : str := [71;48;50;50].
Definition w_G023 : str := [71;48;50;51].
Definition w_G024 : str := [71;48;50;52].
Definition w_G025 : str := [71;48;50;53].
Definition w_G026 : str := [71;48;50;54].
Definition w_G026A : str := [71;48;50;54;65].
Definition w_G027 : str := [71;48;50;55].
Definition w_G028 : str := [71;48;50;56].
Definition w_G029 : str := [71;48;50;57].
Definition w_G030 : str := [71;48;51;48].
Definition w_G031 : str := [71;48;51;49].
Definition w_G032 : str := [71;48;51;50].
Definition w_G033 : str := [71;48;51;51].
Definition w_G034 : str := [71;48;51;52].
Definition w_G035 : str := [71;48;51;53].
Definition w_G036 : str := [71;48;51;54].
Definition w_G036A : str := [71;48;51;54;65].
Definition w_G037 : str := [71;48;51;55].
Definition w_G037A : str := [71;48;51;55;65].
Definition w_G038 : str := [71;48;51;56].
Definition w_G039 : str := [71;48;51;57].
Definition w_G040 : str := [71;48;52;48].
Definition w_G041 : str := [71;48;52;49].
Definition w_G042 : str := [71;48;52;50].
Definition w_G043 : str := [71;48;52;51].
Definition w_G043A : str := [71;48;52;51;65].
Definition w_G044 : str := [71;48;52;52].
Definition w_G045 : str := [71;48;52;53].
Definition w_G045A : str := [71;48;52;53;65].
Definition w_G046 : str := [71;48;52;54].
Definition w_G047 : str := [71;48;52;55].
Definition w_G048 : str := [71;48;52;56].
Definition w_G049 : str := [71;48;52;57].
Definition w_G050 : str := [71;48;53;48].
Definition w_G051 : str := [71;48;53;49].
Definition w_G052 : str := [71;48;53;50].
Definition w_G053 : str := [71;48;53;51].
Definition w_G054 : str := [71;48;53;52].
Definition w_G2 : str := [71;50].
Definition w_GA : str := [71;65].
Definition w_GA2 : str := [71;65;50].
Definition w_GAA : str := [71;65;65].
Definition w_GAAFU : str := [71;65;65;70;85].
Definition w_GAAHLAA : str := [71;65;65;72;76;65;65].
Definition w_GABA : str := [71;65;66;65].
Definition w_GAD : str := [71;65;68].
Definition w_GADOL : str := [71;65;68;79;76].
Definition w_GAETTA_PILLA : str := [71;65;69;84;84;65;45;80;73;76;76;65].
Definition w_GAF : str := [71;65;70].
Definition w_GAG : str := [71;65;71].
Definition w_GAH : str := [71;65;72].
Definition w_GAI : str := [71;65;73].
Definition w_GAL : str := [71;65;76].
Definition w_GALAM : str := [71;65;76;65;77].
Definition w_GALI : str := [71;65;76;73].
Definition w_GAM : str := [71;65;77].
Definition w_GAMAL : str := [71;65;77;65;76].
Definition w_GAMAN : str := [71;65;77;65;78].
Definition w_GAME : str := [71;65;77;69].
Definition w_GAML : str := [71;65;77;76].
Definition w_GAMLA : str := [71;65;77;76;65].
Definition w_GAMMA : str := [71;65;77;77;65].
Definition w_GAN : str := [71;65;78].
Definition w_GAN2 : str := [71;65;78;50].
Definition w_GANDA : str := [71;65;78;68;65].
Definition w_GANGIA : str := [71;65;78;71;73;65].
Definition w_GANMA : str := [71;65;78;77;65].
Definition w_GAP : str := [71;65;80].
Definition w_GAPPED : str := [71;65;80;80;69;68].
Definition w_GAR : str := [71;65;82].
Definition w_GAR3 : str := [71;65;82;51].
Definition w_GARDEN : str := [71;65;82;68;69;78].
Definition w_GARMENT : str := [71;65;82;77;69;78;84].
Definition w_GARON : str := [71;65;82;79;78].
Definition w_GARSHUNI : str := [71;65;82;83;72;85;78;73].
Definition w_GASHAN : str := [71;65;83;72;65;78].
Definition w_GAT : str := [71;65;84].
Definition w_GATE : str := [71;65;84;69].
Definition w_GATHERING : str := [71;65;84;72;69;82;73;78;71].
Definition w_GAUNTLET : str := [71;65;85;78;84;76;69;84].
Definition w_GAX : str := [71;65;88].
Definition w_GAY : str := [71;65;89].
Definition w_GAYANNA : str := [71;65;89;65;78;78;65].
Definition w_GAYANUKITTA : str := [71;65;89;65;78;85;75;73;84;84;65].
Definition w_GB : str := [71;66].
Definition w_GBA : str := [71;66;65].
Definition w_GBAKURUNEN : str := [71;66;65;75;85;82;85;78;69;78].
Definition w_GBAYI : str := [71;66;65;89;73].
Definition w_GBE : str := [71;66;69].
Definition w_GBEE : str := [71;66;69;69].
Definition w_GBEN : str := [71;66;69;78].
Definition w_GBET : str := [71;66;69;84].
Definition w_GBEUX : str := [71;66;69;85;88].
Definition w_GBI : str := [71;66;73].
Definition w_GBIEE : str := [71;66;73;69;69].
Definition w_GBO : str := [71;66;79].
Definition w_GBON : str := [71;66;79;78].
Definition w_GBOO : str := [71;66;79;79].
Definition w_GBU : str := [71;66;85].
Definition w_GCAN : str := [71;67;65;78].
Definition w_GCIG : str := [71;67;73;71].
Definition w_GDAN : str := [71;68;65;78].
Definition w_GE : str := [71;69].
Definition w_GE22 : str := [71;69;50;50].
Definition w_GEAR : str := [71;69;65;82].
Definition w_GEBA : str := [71;69;66;65].
Definition w_GEBO : str := [71;69;66;79].
Definition w_GEDE : str := [71;69;68;69].
Definition w_GEDOLA : str := [71;69;68;79;76;65].
Definition w_GEE : str := [71;69;69].
Definition w_GEEM : str := [71;69;69;77].
Definition w_GEM : str := [71;69;77].
Definition w_GEMINATE : str := [71;69;77;73;78;65;84;69].
Definition w_GEMINATION : str := [71;69;77;73;78;65;84;73;79;78].
Definition w_GEMINI : str := [71;69;77;73;78;73].
Definition w_GEN : str := [71;69;78].
Definition w_GENERIC : str := [71;69;78;69;82;73;67].
Definition w_GENIE : str := [71;69;78;73;69].
Definition w_GENIKI : str := [71;69;78;73;75;73].
Definition w_GENITIVE : str := [71;69;78;73;84;73;86;69].
Definition w_GENTLE : str := [71;69;78;84;76;69].
Definition w_GEOMETRIC : str := [71;69;79;77;69;84;82;73;67].
Definition w_GEOMETRICALLY : str := [71;69;79;77;69;84;82;73;67;65;76;76;89].
Definition w_GEORGIAN : str := [71;69;79;82;71;73;65;78].
Definition w_GEP : str := [71;69;80].
Definition w_GER : str := [71;69;82].
Definition w_GERESH : str := [71;69;82;69;83;72].
Definition w_GERMAN : str := [71;69;82;77;65;78].
Definition w_GERSHAYIM : str := [71;69;82;83;72;65;89;73;77].
Definition w_GESH2 : str := [71;69;83;72;50].
Definition w_GESHTIN : str := [71;69;83;72;84;73;78].
Definition w_GESHU : str := [71;69;83;72;85].
Definition w_GESTURE : str := [71;69;83;84;85;82;69].
Definition w_GET : str := [71;69;84].
Definition w_GETA : str := [71;69;84;65].
Definition w_GEX : str := [71;69;88].
Definition w_GG : str := [71;71].
Definition w_GGA : str := [71;71;65].
Definition w_GGAA : str := [71;71;65;65].
Definition w_GGAP : str := [71;71;65;80].
Definition w_GGAT : str := [71;71;65;84].
Definition w_GGAX : str := [71;71;65;88].
Definition w_GGE : str := [71;71;69].
Definition w_GGEE : str := [71;71;69;69].
Definition w_GGEP : str := [71;71;69;80].
Definition w_GGET : str := [71;71;69;84].
Definition w_GGEX : str := [71;71;69;88].
Definition w_GGI : str := [71;71;73].
Definition w_GGIE : str := [71;71;73;69].
Definition w_GGIEP : str := [71;71;73;69;80].
Definition w_GGIEX : str := [71;71;73;69;88].
Definition w_GGIT : str := [71;71;73;84].
Definition w_GGIX : str := [71;71;73;88].
Definition w_GGO : str := [71;71;79].
Definition w_GGOP : str := [71;71;79;80].
Definition w_GGOT : str := [71;71;79;84].
Definition w_GGOX : str := [71;71;79;88].
Definition w_GGU : str := [71;71;85].
Definition w_GGUO : str := [71;71;85;79].
Definition w_GGUOP : str := [71;71;85;79;80].
Definition w_GGUOT : str := [71;71;85;79;84].
Definition w_GGUOX : str := [71;71;85;79;88].
Definition w_GGUP : str := [71;71;85;80].
Definition w_GGUR : str := [71;71;85;82].
Definition w_GGURX : str := [71;71;85;82;88].
Definition w_GGUT : str := [71;71;85;84].
Definition w_GGUX : str := [71;71;85;88].
Definition w_GGWA : str := [71;71;87;65].
Definition w_GGWAA : str := [71;71;87;65;65].
Definition w_GGWE : str := [71;71;87;69].
Definition w_GGWEE : str := [71;71;87;69;69].
Definition w_GGWI : str := [71;71;87;73].
Definition w_GH : str := [71;72].
Definition w_GHA : str := [71;72;65].
Definition w_GHAA : str := [71;72;65;65].
Definition w_GHAAMAE : str := [71;72;65;65;77;65;69].
Definition w_GHAD : str := [71;72;65;68].
Definition w_GHAIN : str := [71;72;65;73;78].
Definition w_GHAINU : str := [71;72;65;73;78;85].
Definition w_GHAMAL : str := [71;72;65;77;65;76].
Definition w_GHAMMA : str := [71;72;65;77;77;65].
Definition w_GHAN : str := [71;72;65;78].
Definition w_GHAP : str := [71;72;65;80].
Definition w_GHARAE : str := [71;72;65;82;65;69].
Definition w_GHAYN : str := [71;72;65;89;78].
Definition w_GHE : str := [71;72;69].
Definition w_GHEE : str := [71;72;69;69].
Definition w_GHET : str := [71;72;69;84].
Definition w_GHEUAE : str := [71;72;69;85;65;69].
Definition w_GHEUAEGHEUAE : str := [71;72;69;85;65;69;71;72;69;85;65;69].
Definition w_GHEUAERAE : str := [71;72;69;85;65;69;82;65;69].
Definition w_GHEUGHEN : str := [71;72;69;85;71;72;69;78].
Definition w_GHEUGHEUAEM : str := [71;72;69;85;71;72;69;85;65;69;77].
Definition w_GHEUN : str := [71;72;69;85;78].
Definition w_GHEUX : str := [71;72;69;85;88].
Definition w_GHEYS : str := [71;72;69;89;83].
Definition w_GHHA : str := [71;72;72;65].
Definition w_GHI : str := [71;72;73].
Definition w_GHIMEL : str := [71;72;73;77;69;76].
Definition w_GHO : str := [71;72;79].
Definition w_GHOM : str := [71;72;79;77].
Definition w_GHOST : str := [71;72;79;83;84].
Definition w_GHOU : str := [71;72;79;85].
Definition w_GHU : str := [71;72;85].
Definition w_GHUNNA : str := [71;72;85;78;78;65].
Definition w_GHWA : str := [71;72;87;65].
Definition w_GHZ : str := [71;72;90].
Definition w_GI : str := [71;73].
Definition w_GI4 : str := [71;73;52].
Definition w_GIBA : str := [71;73;66;65].
Definition w_GIBBOUS : str := [71;73;66;66;79;85;83].
Definition w_GIDIM : str := [71;73;68;73;77].
Definition w_GIE : str := [71;73;69].
Definition w_GIEP : str := [71;73;69;80].
Definition w_GIET : str := [71;73;69;84].
Definition w_GIEX : str := [71;73;69;88].
Definition w_GIG : str := [71;73;71].
Definition w_GIGA : str := [71;73;71;65].
Definition w_GIM : str := [71;73;77].
Definition w_GIMEL : str := [71;73;77;69;76].
Definition w_GINII : str := [71;73;78;73;73].
Definition w_GIP : str := [71;73;80].
Definition w_GIR2 : str := [71;73;82;50].
Definition w_GIR3 : str := [71;73;82;51].
Definition w_GIRAFFE : str := [71;73;82;65;70;70;69].
Definition w_GIRL : str := [71;73;82;76].
Definition w_GIRLS : str := [71;73;82;76;83].
Definition w_GIRUDAA : str := [71;73;82;85;68;65;65].
Definition w_GISAL : str := [71;73;83;65;76].
Definition w_GISH : str := [71;73;83;72].
Definition w_GIT : str := [71;73;84].
Definition w_GIX : str := [71;73;88].
Definition w_GJE : str := [71;74;69].
Definition w_GLA : str := [71;76;65].
Definition w_GLAGOLI : str := [71;76;65;71;79;76;73].
Definition w_GLAGOLITIC : str := [71;76;65;71;79;76;73;84;73;67].
Definition w_GLASS : str := [71;76;65;83;83].
Definition w_GLASSES : str := [71;76;65;83;83;69;83].
Definition w_GLEICH : str := [71;76;69;73;67;72].
Definition w_GLISSANDO : str := [71;76;73;83;83;65;78;68;79].
Definition w_GLOBE : str := [71;76;79;66;69].
Definition w_GLOTTAL : str := [71;76;79;84;84;65;76].
Definition w_GLOVE : str := [71;76;79;86;69].
Definition w_GLOVES : str := [71;76;79;86;69;83].
Definition w_GLOWING : str := [71;76;79;87;73;78;71].
Definition w_GN : str := [71;78].
Definition w_GNAVIYANI : str := [71;78;65;86;73;89;65;78;73].
Definition w_GNYIS : str := [71;78;89;73;83].
Definition w_GO : str := [71;79].
Definition w_GOA : str := [71;79;65].
Definition w_GOAL : str := [71;79;65;76].
Definition w_GOAT : str := [71;79;65;84].
Definition w_GOBLIN : str := [71;79;66;76;73;78].
Definition w_GOING : str := [71;79;73;78;71].
Definition w_GOK : str := [71;79;75].
Definition w_GOLD : str := [71;79;76;68].
Definition w_GOLFER : str := [71;79;76;70;69;82].
Definition w_GONDI : str := [71;79;78;68;73].
Definition w_GONG : str := [71;79;78;71].
Definition w_GOO : str := [71;79;79].
Definition w_GOOD : str := [71;79;79;68].
Definition w_GOP : str := [71;79;80].
Definition w_GORA : str := [71;79;82;65].
Definition w_GORGI : str := [71;79;82;71;73].
Definition w_GORGON : str := [71;79;82;71;79;78].
Definition w_GORGOSYNTHETON : str := [71;79;82;71;79;83;89;78;84;72;69;84;79;78].
Definition w_GORGOTERI : str := [71;79;82;71;79;84;69;82;73].
Definition w_GORILLA : str := [71;79;82;73;76;76;65].
Definition w_GORT : str := [71;79;82;84].
Definition w_GORTHMIKON : str := [71;79;82;84;72;77;73;75;79;78].
Definition w_GOT : str := [71;79;84].
Definition w_GOTHIC : str := [71;79;84;72;73;67].
Definition w_GOX : str := [71;79;88].
Definition w_GPA : str := [71;80;65].
Definition w_GRACE : str := [71;82;65;67;69].
Definition w_GRADUAL : str := [71;82;65;68;85;65;76].
Definition w_GRADUATION : str := [71;82;65;68;85;65;84;73;79;78].
Definition w_GRAIN : str := [71;82;65;73;78].
Definition w_GRAM : str := [71;82;65;77].
Definition w_GRAMMA : str := [71;82;65;77;77;65].
Definition w_GRANTHA : str := [71;82;65;78;84;72;65].
Definition w_GRAPES : str := [71;82;65;80;69;83].
Definition w_GRAPHEME : str := [71;82;65;80;72;69;77;69].
Definition w_GRASP : str := [71;82;65;83;80].
Definition w_GRASS : str := [71;82;65;83;83].
Definition w_GRATER : str := [71;82;65;84;69;82].
Definition w_GRAVE : str := [71;82;65;86;69].
Definition w_GRAVE_ACUTE_GRAVE : str := [71;82;65;86;69;45;65;67;85;84;69;45;71;82;65;86;69].
Definition w_GRAVE_MACRON : str := [71;82;65;86;69;45;77;65;67;82;79;78].
Definition w_GRAVEYARD : str := [71;82;65;86;69;89;65;82;68].
Definition w_GREAT : str := [71;82;69;65;84].
Definition w_GREATER : str := [71;82;69;65;84;69;82].
Definition w_GREATER_THAN : str := [71;82;69;65;84;69;82;45;84;72;65;78].
Definition w_GREATNESS : str := [71;82;69;65;84;78;69;83;83].
Definition w_GREEK : str := [71;82;69;69;75].
Definition w_GREEN : str := [71;82;69;69;78].
Definition w_GREGORIAN : str := [71;82;69;71;79;82;73;65;78].
Definition w_GRIMACING : str := [71;82;73;77;65;67;73;78;71].
Definition w_GRINNING : str := [71;82;73;78;78;73;78;71].
Definition w_GRONTHISMATA : str := [71;82;79;78;84;72;73;83;77;65;84;65].
Definition w_GROUND : str := [71;82;79;85;78;68].
Definition w_GROUP : str := [71;82;79;85;80].
Definition w_GROWING : str := [71;82;79;87;73;78;71].
Definition w_GRU : str := [71;82;85].
Definition w_GSUM : str := [71;83;85;77].
Definition w_GTER : str := [71;84;69;82].
Definition w_GU : str := [71;85].
Definition w_GU2 : str := [71;85;50].
Definition w_GUA : str := [71;85;65].
Definition w_GUAN : str := [71;85;65;78].
Definition w_GUARANI : str := [71;85;65;82;65;78;73].
Definition w_GUARD : str := [71;85;65;82;68].
Definition w_GUARDEDNESS : str := [71;85;65;82;68;69;68;78;69;83;83].
Definition w_GUARDSMAN : str := [71;85;65;82;68;83;77;65;78].
Definition w_GUD : str := [71;85;68].
Definition w_GUEH : str := [71;85;69;72].
Definition w_GUEI : str := [71;85;69;73].
Definition w_GUG : str := [71;85;71].
Definition w_GUITAR : str := [71;85;73;84;65;82].
Definition w_GUJARATI : str := [71;85;74;65;82;65;84;73].
Definition w_GUL : str := [71;85;76].
Definition w_GUM : str := [71;85;77].
Definition w_GUNU : str := [71;85;78;85].
Definition w_GUO : str := [71;85;79].
Definition w_GUOP : str := [71;85;79;80].
Definition w_GUOT : str := [71;85;79;84].
Definition w_GUOX : str := [71;85;79;88].
Definition w_GUP : str := [71;85;80].
Definition w_GUR : str := [71;85;82].
Definition w_GUR7 : str := [71;85;82;55].
Definition w_GURAMU : str := [71;85;82;65;77;85].
Definition w_GURAMUTON : str := [71;85;82;65;77;85;84;79;78].
Definition w_GURMUKHI : str := [71;85;82;77;85;75;72;73].
Definition w_GURUN : str := [71;85;82;85;78].
Definition w_GURUSH : str := [71;85;82;85;83;72].
Definition w_GURX : str := [71;85;82;88].
Definition w_GUT : str := [71;85;84].
Definition w_GUX : str := [71;85;88].
Definition w_GV : str := [71;86].
Definition w_GVANG : str := [71;86;65;78;71].
Definition w_GWA : str := [71;87;65].
Definition w_GWAA : str := [71;87;65;65].
Definition w_GWE : str := [71;87;69].
Definition w_GWEE : str := [71;87;69;69].
Definition w_GWI : str := [71;87;73].
Definition w_GWU : str := [71;87;85].
Definition w_GY : str := [71;89].
Definition w_GYA : str := [71;89;65].
Definition w_GYAA : str := [71;89;65;65].
Definition w_GYAN : str := [71;89;65;78].
Definition w_GYAS : str := [71;89;65;83].
Definition w_GYE : str := [71;89;69].
Definition w_GYEE : str := [71;89;69;69].
Definition w_GYFU : str := [71;89;70;85].
Definition w_GYI : str := [71;89;73].
Definition w_GYO : str := [71;89;79].
Definition w_GYON : str := [71;89;79;78].
Definition w_GYU : str := [71;89;85].
Definition w_H : str := [72].
Definition w_H_TYPE : str := [72;45;84;89;80;69].
Definition w_H001 : str := [72;48;48;49].
Definition w_H002 : str := [72;48;48;50].
Definition w_H003 : str := [72;48;48;51].
Definition w_H004 : str := [72;48;48;52].
Definition w_H005 : str := [72;48;48;53].
Definition w_H006 : str := [72;48;48;54].
Definition w_H006A : str := [72;48;48;54;65].
Definition w_H007 : str := [72;48;48;55].
Definition w_H008 : str := [72;48;48;56].
Definition w_HA : str := [72;65].
Definition w_HA_1 : str := [72;65;45;49].
Definition w_HA_10 : str := [72;65;45;49;48].
Definition w_HA_11 : str := [72;65;45;49;49].
Definition w_HA_2 : str := [72;65;45;50].
Definition w_HA_3 : str := [72;65;45;51].
Definition w_HA_4 : str := [72;65;45;52].
Definition w_HA_5 : str := [72;65;45;53].
Definition w_HA_6 : str := [72;65;45;54].
Definition w_HA_7 : str := [72;65;45;55].
Definition w_HA_8 : str := [72;65;45;56].
Definition w_HA_9 : str := [72;65;45;57].
Definition w_HA_HA : str := [72;65;45;72;65].
Definition w_HAA : str := [72;65;65].
Definition w_HAAM : str := [72;65;65;77].
Definition w_HAARU : str := [72;65;65;82;85].
Definition w_HAE : str := [72;65;69].
Definition w_HAEGL : str := [72;65;69;71;76].
Definition w_HAFUKH : str := [72;65;70;85;75;72].
Definition w_HAFUKHA : str := [72;65;70;85;75;72;65].
Definition w_HAGL : str := [72;65;71;76].
Definition w_HAGLAZ : str := [72;65;71;76;65;90].
Definition w_HAH : str := [72;65;72].
Definition w_HAI : str := [72;65;73].
Definition w_HAIR : str := [72;65;73;82].
Definition w_HAIRCUT : str := [72;65;73;82;67;85;84].
Definition w_HAIS : str := [72;65;73;83].
Definition w_HAITU : str := [72;65;73;84;85].
Definition w_HAL : str := [72;65;76].
Definition w_HALANTA : str := [72;65;76;65;78;84;65].
Definition w_HALBERD : str := [72;65;76;66;69;82;68].
Definition w_HALF : str := [72;65;76;70].
Definition w_HALF_CIRCLE : str := [72;65;76;70;45;67;73;82;67;76;69].
Definition w_HALFWIDTH : str := [72;65;76;70;87;73;68;84;72].
Definition w_HALO : str := [72;65;76;79].
Definition w_HALQA : str := [72;65;76;81;65].
Definition w_HAM : str := [72;65;77].
Definition w_HAMBURGER : str := [72;65;77;66;85;82;71;69;82].
Definition w_HAMMER : str := [72;65;77;77;69;82].
Definition w_HAMSTER : str := [72;65;77;83;84;69;82].
Definition w_HAMZA : str := [72;65;77;90;65].
Definition w_HAN : str := [72;65;78].
Definition w_HAN_AKAT : str := [72;65;78;45;65;75;65;84].
Definition w_HAND : str := [72;65;78;68].
Definition w_HAND_ANGLE : str := [72;65;78;68;45;65;78;71;76;69].
Definition w_HAND_CIRCLE : str := [72;65;78;68;45;67;73;82;67;76;69].
Definition w_HAND_CLAW : str := [72;65;78;68;45;67;76;65;87].
Definition w_HAND_CUP : str := [72;65;78;68;45;67;85;80].
Definition w_HAND_CURLICUE : str := [72;65;78;68;45;67;85;82;76;73;67;85;69].
Definition w_HAND_FIST : str := [72;65;78;68;45;70;73;83;84].
Definition w_HAND_FLAT : str := [72;65;78;68;45;70;76;65;84].
Definition w_HAND_HINGE : str := [72;65;78;68;45;72;73;78;71;69].
Definition w_HAND_HOOK : str := [72;65;78;68;45;72;79;79;75].
Definition w_HAND_OVAL : str := [72;65;78;68;45;79;86;65;76].
Definition w_HANDBAG : str := [72;65;78;68;66;65;71].
Definition w_HANDBALL : str := [72;65;78;68;66;65;76;76].
Definition w_HANDLE : str := [72;65;78;68;76;69].
Definition w_HANDLES : str := [72;65;78;68;76;69;83].
Definition w_HANDS : str := [72;65;78;68;83].
Definition w_HANDSHAKE : str := [72;65;78;68;83;72;65;75;69].
Definition w_HANG : str := [72;65;78;71].
Definition w_HANGUL : str := [72;65;78;71;85;76].
Definition w_HANGZHOU : str := [72;65;78;71;90;72;79;85].
Definition w_HANUNOO : str := [72;65;78;85;78;79;79].
Definition w_HAO : str := [72;65;79].
Definition w_HAP : str := [72;65;80].
Definition w_HAPPY : str := [72;65;80;80;89].
Definition w_HAR : str := [72;65;82].
Definition w_HARD : str := [72;65;82;68].
Definition w_HARDNESS : str := [72;65;82;68;78;69;83;83].
Definition w_HARKLEAN : str := [72;65;82;75;76;69;65;78].
Definition w_HARMONIC : str := [72;65;82;77;79;78;73;67].
Definition w_HARPOON : str := [72;65;82;80;79;79;78].
Definition w_HASANTA : str := [72;65;83;65;78;84;65].
Definition w_HASER : str := [72;65;83;69;82].
Definition w_HAT : str := [72;65;84].
Definition w_HATAF : str := [72;65;84;65;70].
Definition w_HATCHING : str := [72;65;84;67;72;73;78;71].
Definition w_HATE : str := [72;65;84;69].
Definition w_HATHI : str := [72;65;84;72;73].
Definition w_HATRAN : str := [72;65;84;82;65;78].
Definition w_HAU : str := [72;65;85].
Definition w_HAUPTSTIMME : str := [72;65;85;80;84;83;84;73;77;77;69].
Definition w_HAVE : str := [72;65;86;69].
Definition w_HAWJ : str := [72;65;87;74].
Definition w_HAX : str := [72;65;88].
Definition w_HAYANNA : str := [72;65;89;65;78;78;65].
Definition w_HBASA : str := [72;66;65;83;65].
Definition w_HBASA_ESASA : str := [72;66;65;83;65;45;69;83;65;83;65].
Definition w_HC : str := [72;67].
Definition w_HDR : str := [72;68;82].
Definition w_HE : str := [72;69].
Definition w_HE_1 : str := [72;69;45;49].
Definition w_HE_2 : str := [72;69;45;50].
Definition w_HE_3 : str := [72;69;45;51].
Definition w_HE_4 : str := [72;69;45;52].
Definition w_HE_5 : str := [72;69;45;53].
Definition w_HE_6 : str := [72;69;45;54].
Definition w_HE_7 : str := [72;69;45;55].
Definition w_HE_GOAT : str := [72;69;45;71;79;65;84].
Definition w_HEAD : str := [72;69;65;68].
Definition w_HEAD_BANDAGE : str := [72;69;65;68;45;66;65;78;68;65;71;69].
Definition w_HEADED : str := [72;69;65;68;69;68].
Definition w_HEADING : str := [72;69;65;68;73;78;71].
Definition w_HEADPHONE : str := [72;69;65;68;80;72;79;78;69].
Definition w_HEADSCARF : str := [72;69;65;68;83;67;65;82;70].
Definition w_HEADSTONE : str := [72;69;65;68;83;84;79;78;69].
Definition w_HEADSTROKE : str := [72;69;65;68;83;84;82;79;75;69].
Definition w_HEAR_NO_EVIL : str := [72;69;65;82;45;78;79;45;69;86;73;76].
Definition w_HEART : str := [72;69;65;82;84].
Definition w_HEART_SHAPED : str := [72;69;65;82;84;45;83;72;65;80;69;68].
Definition w_HEARTS : str := [72;69;65;82;84;83].
Definition w_HEAVEN : str := [72;69;65;86;69;78].
Definition w_HEAVENLY : str := [72;69;65;86;69;78;76;89].
Definition w_HEAVY : str := [72;69;65;86;89].
Definition w_HEBREW : str := [72;69;66;82;69;87].
Definition w_HEDGEHOG : str := [72;69;68;71;69;72;79;71].
Definition w_HEE : str := [72;69;69].
Definition w_HEEI : str := [72;69;69;73].
Definition w_HEEL : str := [72;69;69;76].
Definition w_HEH : str := [72;69;72].
Definition w_HEI : str := [72;69;73].
Definition w_HEIGHT : str := [72;69;73;71;72;84].
Definition w_HEISEI : str := [72;69;73;83;69;73].
Definition w_HEKUTAARU : str := [72;69;75;85;84;65;65;82;85].
Definition w_HELICOPTER : str := [72;69;76;73;67;79;80;84;69;82].
Definition w_HELM : str := [72;69;76;77].
Definition w_HELMET : str := [72;69;76;77;69;84].
Definition w_HEMP : str := [72;69;77;80].
Definition w_HEN : str := [72;69;78].
Definition w_HENG : str := [72;69;78;71].
Definition w_HENTAIGANA : str := [72;69;78;84;65;73;71;65;78;65].
Definition w_HEP : str := [72;69;80].
Definition w_HERAEUM : str := [72;69;82;65;69;85;77].
Definition w_HERB : str := [72;69;82;66].
Definition w_HERMES : str := [72;69;82;77;69;83].
Definition w_HERMIONIAN : str := [72;69;82;77;73;79;78;73;65;78].
Definition w_HERMITIAN : str := [72;69;82;77;73;84;73;65;78].
Definition w_HERU : str := [72;69;82;85].
Definition w_HERUTU : str := [72;69;82;85;84;85].
Definition w_HET : str := [72;69;84].
Definition w_HETA : str := [72;69;84;65].
Definition w_HETH : str := [72;69;84;72].
Definition w_HEX : str := [72;69;88].
Definition w_HEXAGON : str := [72;69;88;65;71;79;78].
Definition w_HEXAGRAM : str := [72;69;88;65;71;82;65;77].
Definition w_HEXIFORM : str := [72;69;88;73;70;79;82;77].
Definition w_HEYT : str := [72;69;89;84].
Definition w_HG : str := [72;71].
Definition w_HHA : str := [72;72;65].
Definition w_HHAA : str := [72;72;65;65].
Definition w_HHE : str := [72;72;69].
Definition w_HHEE : str := [72;72;69;69].
Definition w_HHI : str := [72;72;73].
Definition w_HHO : str := [72;72;79].
Definition w_HHU : str := [72;72;85].
Definition w_HHWA : str := [72;72;87;65].
Definition w_HI : str := [72;73].
Definition w_HI_1 : str := [72;73;45;49].
Definition w_HI_2 : str := [72;73;45;50].
Definition w_HI_3 : str := [72;73;45;51].
Definition w_HI_4 : str := [72;73;45;52].
Definition w_HI_5 : str := [72;73;45;53].
Definition w_HI_6 : str := [72;73;45;54].
Definition w_HI_7 : str := [72;73;45;55].
Definition w_HI_RES : str := [72;73;45;82;69;83].
Definition w_HIBISCUS : str := [72;73;66;73;83;67;85;83].
Definition w_HIDE : str := [72;73;68;69].
Definition w_HIDET : str := [72;73;68;69;84].
Definition w_HIDING : str := [72;73;68;73;78;71].
Definition w_HIE : str := [72;73;69].
Definition w_HIEROGLYPH : str := [72;73;69;82;79;71;76;89;80;72].
Definition w_HIEROGLYPHIC : str := [72;73;69;82;79;71;76;89;80;72;73;67].
Definition w_HIEUH : str := [72;73;69;85;72].
Definition w_HIEUH_MIEUM : str := [72;73;69;85;72;45;77;73;69;85;77].
Definition w_HIEUH_NIEUN : str := [72;73;69;85;72;45;78;73;69;85;78].
Definition w_HIEUH_PIEUP : str := [72;73;69;85;72;45;80;73;69;85;80].
Definition w_HIEUH_RIEUL : str := [72;73;69;85;72;45;82;73;69;85;76].
Definition w_HIEUH_SIOS : str := [72;73;69;85;72;45;83;73;79;83].
Definition w_HIEX : str := [72;73;69;88].
Definition w_HIGH : str := [72;73;71;72].
Definition w_HIGH_HEELED : str := [72;73;71;72;45;72;69;69;76;69;68].
Definition w_HIGH_LOW : str := [72;73;71;72;45;76;79;87].
Definition w_HIGH_REVERSED_9 : str := [72;73;71;72;45;82;69;86;69;82;83;69;68;45;57].
Definition w_HIGH_SPEED : str := [72;73;71;72;45;83;80;69;69;68].
Definition w_HII : str := [72;73;73].
Definition w_HIN : str := [72;73;78].
Definition w_HINGE : str := [72;73;78;71;69].
Definition w_HINGED : str := [72;73;78;71;69;68].
Definition w_HIP : str := [72;73;80].
Definition w_HIRAGANA : str := [72;73;82;65;71;65;78;65].
Definition w_HIRIQ : str := [72;73;82;73;81].
Definition w_HISTORIC : str := [72;73;83;84;79;82;73;67].
Definition w_HIT : str := [72;73;84].
Definition w_HITTING : str := [72;73;84;84;73;78;71].
Definition w_HIYO : str := [72;73;89;79].
Definition w_HIZB : str := [72;73;90;66].
Definition w_HK : str := [72;75].
Definition w_HL : str := [72;76].
Definition w_HLA : str := [72;76;65].
Definition w_HLAP : str := [72;76;65;80].
Definition w_HLAT : str := [72;76;65;84].
Definition w_HLAU : str := [72;76;65;85].
Definition w_HLAX : str := [72;76;65;88].
Definition w_HLE : str := [72;76;69].
Definition w_HLEP : str := [72;76;69;80].
Definition w_HLEX : str := [72;76;69;88].
Definition w_HLI : str := [72;76;73].
Definition w_HLIE : str := [72;76;73;69].
Definition w_HLIEP : str := [72;76;73;69;80].
Definition w_HLIEX : str := [72;76;73;69;88].
Definition w_HLIP : str := [72;76;73;80].
Definition w_HLIT : str := [72;76;73;84].
Definition w_HLIX : str := [72;76;73;88].
Definition w_HLO : str := [72;76;79].
Definition w_HLOP : str := [72;76;79;80].
Definition w_HLOX : str := [72;76;79;88].
Definition w_HLU : str := [72;76;85].
Definition w_HLUO : str := [72;76;85;79].
Definition w_HLUOP : str := [72;76;85;79;80].
Definition w_HLUOX : str := [72;76;85;79;88].
Definition w_HLUP : str := [72;76;85;80].
Definition w_HLUR : str := [72;76;85;82].
Definition w_HLURX : str := [72;76;85;82;88].
Definition w_HLUT : str := [72;76;85;84].
Definition w_HLUX : str := [72;76;85;88].
Definition w_HLY : str := [72;76;89].
Definition w_HLYP : str := [72;76;89;80].
Definition w_HLYR : str := [72;76;89;82].
Definition w_HLYRX : str := [72;76;89;82;88].
Definition w_HLYT : str := [72;76;89;84].
Definition w_HLYX : str := [72;76;89;88].
Definition w_HM : str := [72;77].
Definition w_HMA : str := [72;77;65].
Definition w_HMAP : str := [72;77;65;80].
Definition w_HMAT : str := [72;77;65;84].
Definition w_HMAX : str := [72;77;65;88].
Definition w_HME : str := [72;77;69].
Definition w_HMI : str := [72;77;73].
Definition w_HMIE : str := [72;77;73;69].
Definition w_HMIEP : str := [72;77;73;69;80].
Definition w_HMIEX : str := [72;77;73;69;88].
Definition w_HMIP : str := [72;77;73;80].
Definition w_HMIT : str := [72;77;73;84].
Definition w_HMIX : str := [72;77;73;88].
Definition w_HMO : str := [72;77;79].
Definition w_HMONG : str := [72;77;79;78;71].
Definition w_HMOP : str := [72;77;79;80].
Definition w_HMOT : str := [72;77;79;84].
Definition w_HMOX : str := [72;77;79;88].
Definition w_HMU : str := [72;77;85].
Definition w_HMUO : str := [72;77;85;79].
Definition w_HMUOP : str := [72;77;85;79;80].
Definition w_HMUOX : str := [72;77;85;79;88].
Definition w_HMUP : str := [72;77;85;80].
Definition w_HMUR : str := [72;77;85;82].
Definition w_HMURX : str := [72;77;85;82;88].
Definition w_HMUT : str := [72;77;85;84].
Definition w_HMUX : str := [72;77;85;88].
Definition w_HMY : str := [72;77;89].
Definition w_HMYP : str := [72;77;89;80].
Definition w_HMYR : str := [72;77;89;82].
Definition w_HMYRX : str := [72;77;89;82;88].
Definition w_HMYX : str := [72;77;89;88].
Definition w_HNA : str := [72;78;65].
Definition w_HNAP : str := [72;78;65;80].
Definition w_HNAT : str := [72;78;65;84].
Definition w_HNAU : str := [72;78;65;85].
Definition w_HNAX : str := [72;78;65;88].
Definition w_HNE : str := [72;78;69].
Definition w_HNEP : str := [72;78;69;80].
Definition w_HNEX : str := [72;78;69;88].
Definition w_HNI : str := [72;78;73].
Definition w_HNIE : str := [72;78;73;69].
Definition w_HNIEP : str := [72;78;73;69;80].
Definition w_HNIET : str := [72;78;73;69;84].
Definition w_HNIEX : str := [72;78;73;69;88].
Definition w_HNIP : str := [72;78;73;80].
Definition w_HNIT : str := [72;78;73;84].
Definition w_HNIX : str := [72;78;73;88].
Definition w_HNOP : str := [72;78;79;80].
Definition w_HNOT : str := [72;78;79;84].
Definition w_HNOX : str := [72;78;79;88].
Definition w_HNUB : str := [72;78;85;66].
Definition w_HNUO : str := [72;78;85;79].
Definition w_HNUOX : str := [72;78;85;79;88].
Definition w_HNUT : str := [72;78;85;84].
Definition w_HO : str := [72;79].
Definition w_HO_1 : str := [72;79;45;49].
Definition w_HO_2 : str := [72;79;45;50].
Definition w_HO_3 : str := [72;79;45;51].
Definition w_HO_4 : str := [72;79;45;52].
Definition w_HO_5 : str := [72;79;45;53].
Definition w_HO_6 : str := [72;79;45;54].
Definition w_HO_7 : str := [72;79;45;55].
Definition w_HO_8 : str := [72;79;45;56].
Definition w_HOA : str := [72;79;65].
Definition w_HOCHO : str := [72;79;67;72;79].
Definition w_HOCKEY : str := [72;79;67;75;69;89].
Definition w_HOE : str := [72;79;69].
Definition w_HOI : str := [72;79;73].
Definition w_HOKA : str := [72;79;75;65].
Definition w_HOLAM : str := [72;79;76;65;77].
Definition w_HOLDING : str := [72;79;76;68;73;78;71].
Definition w_HOLE : str := [72;79;76;69].
Definition w_HOLLOW : str := [72;79;76;76;79;87].
Definition w_HOLO : str := [72;79;76;79].
Definition w_HOM : str := [72;79;77].
Definition w_HOMOTHETIC : str := [72;79;77;79;84;72;69;84;73;67].
Definition w_HON : str := [72;79;78].
Definition w_HONEY : str := [72;79;78;69;89].
Definition w_HONEYBEE : str := [72;79;78;69;89;66;69;69].
Definition w_HOO : str := [72;79;79].
Definition w_HOOK : str := [72;79;79;75].
Definition w_HOOKED : str := [72;79;79;75;69;68].
Definition w_HOON : str := [72;79;79;78].
Definition w_HOOP : str := [72;79;79;80].
Definition w_HOORU : str := [72;79;79;82;85].
Definition w_HOOU : str := [72;79;79;85].
Definition w_HOP : str := [72;79;80].
Definition w_HORA : str := [72;79;82;65].
Definition w_HORI : str := [72;79;82;73].
Definition w_HORIZONTAL : str := [72;79;82;73;90;79;78;84;65;76].
Definition w_HORIZONTAL_00_00 : str := [72;79;82;73;90;79;78;84;65;76;45;48;48;45;48;48].
Definition w_HORIZONTAL_00_01 : str := [72;79;82;73;90;79;78;84;65;76;45;48;48;45;48;49].
Definition w_HORIZONTAL_00_02 : str := [72;79;82;73;90;79;78;84;65;76;45;48;48;45;48;50].
Definition w_HORIZONTAL_00_03 : str := [72;79;82;73;90;79;78;84;65;76;45;48;48;45;48;51].
Definition w_HORIZONTAL_00_04 : str := [72;79;82;73;90;79;78;84;65;76;45;48;48;45;48;52].
Definition w_HORIZONTAL_00_05 : str := [72;79;82;73;90;79;78;84;65;76;45;48;48;45;48;53].
Definition w_HORIZONTAL_00_06 : str := [72;79;82;73;90;79;78;84;65;76;45;48;48;45;48;54].
Definition w_HORIZONTAL_01_00 : str := [72;79;82;73;90;79;78;84;65;76;45;48;49;45;48;48].
Definition w_HORIZONTAL_01_01 : str := [72;79;82;73;90;79;78;84;65;76;45;48;49;45;48;49].
Definition w_HORIZONTAL_01_02 : str := [72;79;82;73;90;79;78;84;65;76;45;48;49;45;48;50].
Definition w_HORIZONTAL_01_03 : str := [72;79;82;73;90;79;78;84;65;76;45;48;49;45;48;51].
Definition w_HORIZONTAL_01_04 : str := [72;79;82;73;90;79;78;84;65;76;45;48;49;45;48;52].
Definition w_HORIZONTAL_01_05 : str := [72;79;82;73;90;79;78;84;65;76;45;48;49;45;48;53].
Definition w_HORIZONTAL_01_06 : str := [72;79;82;73;90;79;78;84;65;76;45;48;49;45;48;54].
Definition w_HORIZONTAL_02_00 : str := [72;79;82;73;90;79;78;84;65;76;45;48;50;45;48;48].
Definition w_HORIZONTAL_02_01 : str := [72;79;82;73;90;79;78;84;65;76;45;48;50;45;48;49].
Definition w_HORIZONTAL_02_02 : str := [72;79;82;73;90;79;78;84;65;76;45;48;50;45;48;50].
Definition w_HORIZONTAL_02_03 : str := [72;79;82;73;90;79;78;84;65;76;45;48;50;45;48;51].
Definition w_HORIZONTAL_02_04 : str := [72;79;82;73;90;79;78;84;65;76;45;48;50;45;48;52].
Definition w_HORIZONTAL_02_05 : str := [72;79;82;73;90;79;78;84;65;76;45;48;50;45;48;53].
Definition w_HORIZONTAL_02_06 : str := [72;79;82;73;90;79;78;84;65;76;45;48;50;45;48;54].
Definition w_HORIZONTAL_03_00 : str := [72;79;82;73;90;79;78;84;65;76;45;48;51;45;48;48].
Definition w_HORIZONTAL_03_01 : str := [72;79;82;73;90;79;78;84;65;76;45;48;51;45;48;49].
Definition w_HORIZONTAL_03_02 : str := [72;79;82;73;90;79;78;84;65;76;45;48;51;45;48;50].
Definition w_HORIZONTAL_03_03 : str := [72;79;82;73;90;79;78;84;65;76;45;48;51;45;48;51].
Definition w_HORIZONTAL_03_04 : str := [72;79;82;73;90;79;78;84;65;76;45;48;51;45;48;52].
Definition w_HORIZONTAL_03_05 : str := [72;79;82;73;90;79;78;84;65;76;45;48;51;45;48;53].
Definition w_HORIZONTAL_03_06 : str := [72;79;82;73;90;79;78;84;65;76;45;48;51;45;48;54].
Definition w_HORIZONTAL_04_00 : str := [72;79;82;73;90;79;78;84;65;76;45;48;52;45;48;48].
Definition w_HORIZONTAL_04_01 : str := [72;79;82;73;90;79;78;84;65;76;45;48;52;45;48;49].
Definition w_HORIZONTAL_04_02 : str := [72;79;82;73;90;79;78;84;65;76;45;48;52;45;48;50].
Definition w_HORIZONTAL_04_03 : str := [72;79;82;73;90;79;78;84;65;76;45;48;52;45;48;51].
Definition w_HORIZONTAL_04_04 : str := [72;79;82;73;90;79;78;84;65;76;45;48;52;45;48;52].
Definition w_HORIZONTAL_04_05 : str := [72;79;82;73;90;79;78;84;65;76;45;48;52;45;48;53].
Definition w_HORIZONTAL_04_06 : str := [72;79;82;73;90;79;78;84;65;76;45;48;52;45;48;54].
Definition w_HORIZONTAL_05_00 : str := [72;79;82;73;90;79;78;84;65;76;45;48;53;45;48;48].
Definition w_HORIZONTAL_05_01 : str := [72;79;82;73;90;79;78;84;65;76;45;48;53;45;48;49].
Definition w_HORIZONTAL_05_02 : str := [72;79;82;73;90;79;78;84;65;76;45;48;53;45;48;50].
Definition w_HORIZONTAL_05_03 : str := [72;79;82;73;90;79;78;84;65;76;45;48;53;45;48;51].
Definition w_HORIZONTAL_05_04 : str := [72;79;82;73;90;79;78;84;65;76;45;48;53;45;48;52].
Definition w_HORIZONTAL_05_05 : str := [72;79;82;73;90;79;78;84;65;76;45;48;53;45;48;53].
Definition w_HORIZONTAL_05_06 : str := [72;79;82;73;90;79;78;84;65;76;45;48;53;45;48;54].
Definition w_HORIZONTAL_06_00 : str := [72;79;82;73;90;79;78;84;65;76;45;48;54;45;48;48].
Definition w_HORIZONTAL_06_01 : str := [72;79;82;73;90;79;78;84;65;76;45;48;54;45;48;49].
Definition w_HORIZONTAL_06_02 : str := [72;79;82;73;90;79;78;84;65;76;45;48;54;45;48;50].
Definition w_HORIZONTAL_06_03 : str := [72;79;82;73;90;79;78;84;65;76;45;48;54;45;48;51].
Definition w_HORIZONTAL_06_04 : str := [72;79;82;73;90;79;78;84;65;76;45;48;54;45;48;52].
Definition w_HORIZONTAL_06_05 : str := [72;79;82;73;90;79;78;84;65;76;45;48;54;45;48;53].
Definition w_HORIZONTAL_06_06 : str := [72;79;82;73;90;79;78;84;65;76;45;48;54;45;48;54].
Definition w_HORIZONTALLY : str := [72;79;82;73;90;79;78;84;65;76;76;89].
Definition w_HORN : str := [72;79;82;78].
Definition w_HORNS : str := [72;79;82;78;83].
Definition w_HORR : str := [72;79;82;82].
Definition w_HORSE : str := [72;79;82;83;69].
Definition w_HOSPITAL : str := [72;79;83;80;73;84;65;76].
Definition w_HOT : str := [72;79;84].
Definition w_HOTA : str := [72;79;84;65].
Definition w_HOTEL : str := [72;79;84;69;76].
Definition w_HOUR : str := [72;79;85;82].
Definition w_HOURGLASS : str := [72;79;85;82;71;76;65;83;83].
Definition w_HOUSE : str := [72;79;85;83;69].
Definition w_HOX : str := [72;79;88].
Definition w_HOY : str := [72;79;89].
Definition w_HP : str := [72;80].
Definition w_HPA : str := [72;80;65].
Definition w_HPWG : str := [72;80;87;71].
Definition w_HRYVNIA : str := [72;82;89;86;78;73;65].
Definition w_HTA : str := [72;84;65].
Definition w_HU : str := [72;85].
Definition w_HU_1 : str := [72;85;45;49].
Definition w_HU_2 : str := [72;85;45;50].
Definition w_HU_3 : str := [72;85;45;51].
Definition w_HUAN : str := [72;85;65;78].
Definition w_HUARADDO : str := [72;85;65;82;65;68;68;79].
Definition w_HUB : str := [72;85;66].
Definition w_HUB2 : str := [72;85;66;50].
Definition w_HUGGING : str := [72;85;71;71;73;78;71].
Definition w_HUIITO : str := [72;85;73;73;84;79].
Definition w_HUK : str := [72;85;75].
Definition w_HUL2 : str := [72;85;76;50].
Definition w_HUMAN : str := [72;85;77;65;78].
Definition w_HUMP : str := [72;85;77;80].
Definition w_HUN : str := [72;85;78].
Definition w_HUNDRED : str := [72;85;78;68;82;69;68].
Definition w_HUNDREDS : str := [72;85;78;68;82;69;68;83].
Definition w_HUNG : str := [72;85;78;71].
Definition w_HUNGARIAN : str := [72;85;78;71;65;82;73;65;78].
Definition w_HUO : str := [72;85;79].
Definition w_HUOP : str := [72;85;79;80].
Definition w_HUOT : str := [72;85;79;84].
Definition w_HUOX : str := [72;85;79;88].
Definition w_HURAN : str := [72;85;82;65;78].
Definition w_HUSH : str := [72;85;83;72].
Definition w_HUSHED : str := [72;85;83;72;69;68].
Definition w_HUVA : str := [72;85;86;65].
Definition w_HV : str := [72;86].
Definition w_HWA : str := [72;87;65].
Definition w_HWAH : str := [72;87;65;72].
Definition w_HWAIR : str := [72;87;65;73;82].
Definition w_HWE : str := [72;87;69].
Definition w_HWEE : str := [72;87;69;69].
Definition w_HWI : str := [72;87;73].
Definition w_HWO : str := [72;87;79].
Definition w_HWU : str := [72;87;85].
Definition w_HXA : str := [72;88;65].
Definition w_HXAP : str := [72;88;65;80].
Definition w_HXAT : str := [72;88;65;84].
Definition w_HXAX : str := [72;88;65;88].
Definition w_HXE : str := [72;88;69].
Definition w_HXEP : str := [72;88;69;80].
Definition w_HXEX : str := [72;88;69;88].
Definition w_HXI : str := [72;88;73].
Definition w_HXIE : str := [72;88;73;69].
Definition w_HXIEP : str := [72;88;73;69;80].
Definition w_HXIET : str := [72;88;73;69;84].
Definition w_HXIEX : str := [72;88;73;69;88].
Definition w_HXIP : str := [72;88;73;80].
Definition w_HXIT : str := [72;88;73;84].
Definition w_HXIX : str := [72;88;73;88].
Definition w_HXO : str := [72;88;79].
Definition w_HXOP : str := [72;88;79;80].
Definition w_HXOT : str := [72;88;79;84].
Definition w_HXOX : str := [72;88;79;88].
Definition w_HXUO : str := [72;88;85;79].
Definition w_HXUOP : str := [72;88;85;79;80].
Definition w_HXUOT : str := [72;88;85;79;84].
Definition w_HXUOX : str := [72;88;85;79;88].
Definition w_HXWG : str := [72;88;87;71].
Definition w_HYA : str := [72;89;65].
Definition w_HYGIEIA : str := [72;89;71;73;69;73;65].
Definition w_HYPHEN : str := [72;89;80;72;69;78].
Definition w_HYPHEN_MINUS : str := [72;89;80;72;69;78;45;77;73;78;85;83].
Definition w_HYPHENATION : str := [72;89;80;72;69;78;65;84;73;79;78].
Definition w_HYPODIASTOLE : str := [72;89;80;79;68;73;65;83;84;79;76;69].
Definition w_HYSTERESIS : str := [72;89;83;84;69;82;69;83;73;83].
Definition w_HZ : str := [72;90].
Definition w_HZG : str := [72;90;71].
Definition w_HZT : str := [72;90;84].
Definition w_HZW : str := [72;90;87].
Definition w_HZWG : str := [72;90;87;71].
Definition w_HZZ : str := [72;90;90].
Definition w_HZZP : str := [72;90;90;80].
Definition w_HZZZ : str := [72;90;90;90].
Definition w_HZZZG : str := [72;90;90;90;71].
Definition w_I : str := [73].
Definition w_I_1 : str := [73;45;49].
Definition w_I_2 : str := [73;45;50].
Definition w_I_3 : str := [73;45;51].
Definition w_I_4 : str := [73;45;52].
Definition w_I_A : str := [73;45;65].
Definition w_I_ARAEA : str := [73;45;65;82;65;69;65].
Definition w_I_BEAM : str := [73;45;66;69;65;77].
Definition w_I_EU : str := [73;45;69;85].
Definition w_I_I : str := [73;45;73].
Definition w_I_O : str := [73;45;79].
Definition w_I_O_I : str := [73;45;79;45;73].
Definition w_I_U : str := [73;45;85].
Definition w_I_YA : str := [73;45;89;65].
Definition w_I_YA_O : str := [73;45;89;65;45;79].
Definition w_I_YAE : str := [73;45;89;65;69].
Definition w_I_YE : str := [73;45;89;69].
Definition w_I_YEO : str := [73;45;89;69;79].
Definition w_I_YO : str := [73;45;89;79].
Definition w_I_YU : str := [73;45;89;85].
Definition w_I001 : str := [73;48;48;49].
Definition w_I002 : str := [73;48;48;50].
Definition w_I003 : str := [73;48;48;51].
Definition w_I004 : str := [73;48;48;52].
Definition w_I005 : str := [73;48;48;53].
Definition w_I005A : str := [73;48;48;53;65].
Definition w_I006 : str := [73;48;48;54].
Definition w_I007 : str := [73;48;48;55].
Definition w_I008 : str := [73;48;48;56].
Definition w_I009 : str := [73;48;48;57].
Definition w_I009A : str := [73;48;48;57;65].
Definition w_I010 : str := [73;48;49;48].
Definition w_I010A : str := [73;48;49;48;65].
Definition w_I011 : str := [73;48;49;49].
Definition w_I011A : str := [73;48;49;49;65].
Definition w_I012 : str := [73;48;49;50].
Definition w_I013 : str := [73;48;49;51].
Definition w_I014 : str := [73;48;49;52].
Definition w_I015 : str := [73;48;49;53].
Definition w_IA : str := [73;65].
Definition w_IAN : str := [73;65;78].
Definition w_IANG : str := [73;65;78;71].
Definition w_IAUDA : str := [73;65;85;68;65].
Definition w_IB : str := [73;66].
Definition w_IBIFILI : str := [73;66;73;70;73;76;73].
Definition w_IC : str := [73;67].
Definition w_ICE : str := [73;67;69].
Definition w_ICELANDIC_YR : str := [73;67;69;76;65;78;68;73;67;45;89;82].
Definition w_ICHADIN : str := [73;67;72;65;68;73;78].
Definition w_ICHIMATOS : str := [73;67;72;73;77;65;84;79;83].
Definition w_ICHOS : str := [73;67;72;79;83].
Definition w_ICHOU : str := [73;67;72;79;85].
Definition w_ICON : str := [73;67;79;78].
Definition w_ID : str := [73;68].
Definition w_IDENTICAL : str := [73;68;69;78;84;73;67;65;76].
Definition w_IDENTIFICATION : str := [73;68;69;78;84;73;70;73;67;65;84;73;79;78].
Definition w_IDEOGRAM : str := [73;68;69;79;71;82;65;77].
Definition w_IDEOGRAPH : str := [73;68;69;79;71;82;65;80;72].
Definition w_IDEOGRAPH_2F800 : str := [73;68;69;79;71;82;65;80;72;45;50;70;56;48;48].
Definition w_IDEOGRAPH_2F801 : str := [73;68;69;79;71;82;65;80;72;45;50;70;56;48;49].
Definition w_IDEOGRAPH_2F802 : str := [73;68;69;79;71;82;65;80;72;45;50;70;56;48;50].
Definition w_IDEOGRAPH_2F803 : str := [73;68;69;79;71;82;65;80;72;45;50;70;56;48;51].
Definition w_IDEOGRAPH_2F804 : str := [73;68;69;79;71;82;65;80;72;45;50;70;56;48;52].
Definition w_IDEOGRAPH_2F805 : str := [73;68;69;79;71;82;65;80;72;45;50;70;56;48;53].
Definition w_IDEOGRAPH_2F806 : str := [73;68;69;79;71;82;65;80;72;45;50;70;56;48;54].
Definition w_IDEOGRAPH_2F807 : str := [73;68;69;79;71;82;65;80;72;45;50;70;56;48;55].
Definition w_IDEOGRAPH_2F808 : str := [73;68;69;79;71;82;65;80;72;45;50;70;56;48;56].
Definition w_IDEOGRAPH_2F809 : str := [73;68;69;79;71;82;65;80;72;45;50;70;56;48;57].
Definition w_IDEOGRAPH_2F80A : str := [73;68;69;79;71;82;65;80;72;45;50;70;56;48;65].
Definition w_IDEOGRAPH_2F80B : str := [73;68;69;79;71;82;65;80;72;45;50;70;56;48;66].
Definition w_IDEOGRAPH_2F80C : str := [73;68;69;79;71;82;65;80;72;45;50;70;56;48;67].
Definition w_IDEOGRAPH_2F80D : str := [73;68;69;79;71;82;65;80;72;45;50;70;56;48;68].
Definition w_IDEOGRAPH_2F80E : str := [73;68;69;79;71;82;65;80;72;45;50;70;56;48;69].
Definition w_IDEOGRAPH_2F80F : str := [73;68;69;79;71;82;65;80;72;45;50;70;56;48;70].
Definition w_IDEOGRAPH_2F810 : str := [73;68;69;79;71;82;65;80;72;45;50;70;56;49;48].
Definition w_IDEOGRAPH_2F811 : str := [73;68;69;79;71;82;65;80;72;45;50;70;56;49;49].
Definition w_IDEOGRAPH_2F812 : str := [73;68;69;79;71;82;65;80;72;45;50;70;56;49;50].
Definition w_IDEOGRAPH_2F813 : str := [73;68;69;79;71;82;65;80;72;45;50;70;56;49;51].
Definition w_IDEOGRAPH_2F814 : str := [73;68;69;79;71;82;65;80;72;45;50;70;56;49;52].
Definition w_IDEOGRAPH_2F815 : str := [73;68;69;79;71;82;65;80;72;45;50;70;56;49;53].
Definition w_IDEOGRAPH_2F816 : str := [73;68;69;79;71;82;65;80;72;45;50;70;56;49;54].
Definition w_IDEOGRAPH_2F817 : str := [73;68;69;79;71;82;65;80;72;45;50;70;56;49;55].
Definition w_IDEOGRAPH_2F818 : str := [73;68;69;79;71;82;65;80;72;45;50;70;56;49;56].
Definition w_IDEOGRAPH_2F819 : str := [73;68;69;79;71;82;65;80;72;45;50;70;56;49;57].
Definition w_IDEOGRAPH_2F81A : str := [73;68;69;79;71;82;65;80;72;45;50;70;56;49;65].
Definition w_IDEOGRAPH_2F81B : str := [73;68;69;79;71;82;65;80;72;45;50;70;56;49;66].
Definition w_IDEOGRAPH_2F81C : str := [73;68;69;79;71;82;65;80;72;45;50;70;56;49;67].
Definition w_IDEOGRAPH_2F81D : str := [73;68;69;79;71;82;65;80;72;45;50;70;56;49;68].
Definition w_IDEOGRAPH_2F81E : str := [73;68;69;79;71;82;65;80;72;45;50;70;56;49;69].
Definition w_IDEOGRAPH_2F81F : str := [73;68;69;79;71;82;65;80;72;45;50;70;56;49;70].
Definition w_IDEOGRAPH_2F820 : str := [73;68;69;79;71;82;65;80;72;45;50;70;56;50;48].
Definition w_IDEOGRAPH_2F821 : str := [73;68;69;79;71;82;65;80;72;45;50;70;56;50;49].
Definition w_IDEOGRAPH_2F822 : str := [73;68;69;79;71;82;65;80;72;45;50;70;56;50;50].
Definition w_IDEOGRAPH_2F823 : str := [73;68;69;79;71;82;65;80;72;45;50;70;56;50;51].
Definition w_IDEOGRAPH_2F824 : str := [73;68;69;79;71;82;65;80;72;45;50;70;56;50;52].
Definition w_IDEOGRAPH_2F825 : str := [73;68;69;79;71;82;65;80;72;45;50;70;56;50;53].
Definition w_IDEOGRAPH_2F826 : str := [73;68;69;79;71;82;65;80;72;45;50;70;56;50;54].
Definition w_IDEOGRAPH_2F827 : str := [73;68;69;79;71;82;65;80;72;45;50;70;56;50;55].
Definition w_IDEOGRAPH_2F828 : str := [73;68;69;79;71;82;65;80;72;45;50;70;56;50;56].
Definition w_IDEOGRAPH_2F829 : str := [73;68;69;79;71;82;65;80;72;45;50;70;56;50;57].
Definition w_IDEOGRAPH_2F82A : str := [73;68;69;79;71;82;65;80;72;45;50;70;56;50;65].
Definition w_IDEOGRAPH_2F82B : str := [73;68;69;79;71;82;65;80;72;45;50;70;56;50;66].
Definition w_IDEOGRAPH_2F82C : str := [73;68;69;79;71;82;65;80;72;45;50;70;56;50;67].
Definition w_IDEOGRAPH_2F82D : str := [73;68;69;79;71;82;65;80;72;45;50;70;56;50;68].
Definition w_IDEOGRAPH_2F82E : str := [73;68;69;79;71;82;65;80;72;45;50;70;56;50;69].
Definition w_IDEOGRAPH_2F82F : str := [73;68;69;79;71;82;65;80;72;45;50;70;56;50;70].
Definition w_IDEOGRAPH_2F830 : str := [73;68;69;79;71;82;65;80;72;45;50;70;56;51;48].
Definition w_IDEOGRAPH_2F831 : str := [73;68;69;79;71;82;65;80;72;45;50;70;56;51;49].
Definition w_IDEOGRAPH_2F832 : str := [73;68;69;79;71;82;65;80;72;45;50;70;56;51;50].
Definition w_IDEOGRAPH_2F833 : str := [73;68;69;79;71;82;65;80;72;45;50;70;56;51;51].
Definition w_IDEOGRAPH_2F834 : str := [73;68;69;79;71;82;65;80;72;45;50;70;56;51;52].
Definition w_IDEOGRAPH_2F835 : str := [73;68;69;79;71;82;65;80;72;45;50;70;56;51;53].
Definition w_IDEOGRAPH_2F836 : str := [73;68;69;79;71;82;65;80;72;45;50;70;56;51;54].
Definition w_IDEOGRAPH_2F837 : str := [73;68;69;79;71;82;65;80;72;45;50;70;56;51;55].
Definition w_IDEOGRAPH_2F838 : str := [73;68;69;79;71;82;65;80;72;45;50;70;56;51;56].
Definition w_IDEOGRAPH_2F839 : str := [73;68;69;79;71;82;65;80;72;45;50;70;56;51;57].
Definition w_IDEOGRAPH_2F83A : str := [73;68;69;79;71;82;65;80;72;45;50;70;56;51;65].
Definition w_IDEOGRAPH_2F83B : str := [73;68;69;79;71;82;65;80;72;45;50;70;56;51;66].
Definition w_IDEOGRAPH_2F83C : str := [73;68;69;79;71;82;65;80;72;45;50;70;56;51;67].
Definition w_IDEOGRAPH_2F83D : str := [73;68;69;79;71;82;65;80;72;45;50;70;56;51;68].
Definition w_IDEOGRAPH_2F83E : str := [73;68;69;79;71;82;65;80;72;45;50;70;56;51;69].
Definition w_IDEOGRAPH_2F83F : str := [73;68;69;79;71;82;65;80;72;45;50;70;56;51;70].
Definition w_IDEOGRAPH_2F840 : str := [73;68;69;79;71;82;65;80;72;45;50;70;56;52;48].
Definition w_IDEOGRAPH_2F841 : str := [73;68;69;79;71;82;65;80;72;45;50;70;56;52;49].
Definition w_IDEOGRAPH_2F842 : str := [73;68;69;79;71;82;65;80;72;45;50;70;56;52;50].
Definition w_IDEOGRAPH_2F843 : str := [73;68;69;79;71;82;65;80;72;45;50;70;56;52;51].
Definition w_IDEOGRAPH_2F844 : str := [73;68;69;79;71;82;65;80;72;45;50;70;56;52;52].
Definition w_IDEOGRAPH_2F845 : str := [73;68;69;79;71;82;65;80;72;45;50;70;56;52;53].
Definition w_IDEOGRAPH_2F846 : str := [73;68;69;79;71;82;65;80;72;45;50;70;56;52;54].
Definition w_IDEOGRAPH_2F847 : str := [73;68;69;79;71;82;65;80;72;45;50;70;56;52;55].
Definition w_IDEOGRAPH_2F848 : str := [73;68;69;79;71;82;65;80;72;45;50;70;56;52;56].
Definition w_IDEOGRAPH_2F849 : str := [73;68;69;79;71;82;65;80;72;45;50;70;56;52;57].
Definition w_IDEOGRAPH_2F84A : str := [73;68;69;79;71;82;65;80;72;45;50;70;56;52;65].
Definition w_IDEOGRAPH_2F84B : str := [73;68;69;79;71;82;65;80;72;45;50;70;56;52;66].
Definition w_IDEOGRAPH_2F84C : str := [73;68;69;79;71;82;65;80;72;45;50;70;56;52;67].
Definition w_IDEOGRAPH_2F84D : str := [73;68;69;79;71;82;65;80;72;45;50;70;56;52;68].
Definition w_IDEOGRAPH_2F84E : str := [73;68;69;79;71;82;65;80;72;45;50;70;56;52;69].
Definition w_IDEOGRAPH_2F84F : str := [73;68;69;79;71;82;65;80;72;45;50;70;56;52;70].
Definition w_IDEOGRAPH_2F850 : str := [73;68;69;79;71;82;65;80;72;45;50;70;56;53;48].
Definition w_IDEOGRAPH_2F851 : str := [73;68;69;79;71;82;65;80;72;45;50;70;56;53;49].
Definition w_IDEOGRAPH_2F852 : str := [73;68;69;79;71;82;65;80;72;45;50;70;56;53;50].
Definition w_IDEOGRAPH_2F853 : str := [73;68;69;79;71;82;65;80;72;45;50;70;56;53;51].
Definition w_IDEOGRAPH_2F854 : str := [73;68;69;79;71;82;65;80;72;45;50;70;56;53;52].
Definition w_IDEOGRAPH_2F855 : str := [73;68;69;79;71;82;65;80;72;45;50;70;56;53;53].
Definition w_IDEOGRAPH_2F856 : str := [73;68;69;79;71;82;65;80;72;45;50;70;56;53;54].
Definition w_IDEOGRAPH_2F857 : str := [73;68;69;79;71;82;65;80;72;45;50;70;56;53;55].
Definition w_IDEOGRAPH_2F858 : str := [73;68;69;79;71;82;65;80;72;45;50;70;56;53;56].
Definition w_IDEOGRAPH_2F859 : str := [73;68;69;79;71;82;65;80;72;45;50;70;56;53;57].
Definition w_IDEOGRAPH_2F85A : str := [73;68;69;79;71;82;65;80;72;45;50;70;56;53;65].
Definition w_IDEOGRAPH_2F85B : str := [73;68;69;79;71;82;65;80;72;45;50;70;56;53;66].
Definition w_IDEOGRAPH_2F85C : str := [73;68;69;79;71;82;65;80;72;45;50;70;56;53;67].
Definition w_IDEOGRAPH_2F85D : str := [73;68;69;79;71;82;65;80;72;45;50;70;56;53;68].
Definition w_IDEOGRAPH_2F85E : str := [73;68;69;79;71;82;65;80;72;45;50;70;56;53;69].
Definition w_IDEOGRAPH_2F85F : str := [73;68;69;79;71;82;65;80;72;45;50;70;56;53;70].
Definition w_IDEOGRAPH_2F860 : str := [73;68;69;79;71;82;65;80;72;45;50;70;56;54;48].
Definition w_IDEOGRAPH_2F861 : str := [73;68;69;79;71;82;65;80;72;45;50;70;56;54;49].
Definition w_IDEOGRAPH_2F862 : str := [73;68;69;79;71;82;65;80;72;45;50;70;56;54;50].
Definition w_IDEOGRAPH_2F863 : str := [73;68;69;79;71;82;65;80;72;45;50;70;56;54;51].
Definition w_IDEOGRAPH_2F864 : str := [73;68;69;79;71;82;65;80;72;45;50;70;56;54;52].
Definition w_IDEOGRAPH_2F865 : str := [73;68;69;79;71;82;65;80;72;45;50;70;56;54;53].
Definition w_IDEOGRAPH_2F866 : str := [73;68;69;79;71;82;65;80;72;45;50;70;56;54;54].
Definition w_IDEOGRAPH_2F867 : str := [73;68;69;79;71;82;65;80;72;45;50;70;56;54;55].
Definition w_IDEOGRAPH_2F868 : str := [73;68;69;79;71;82;65;80;72;45;50;70;56;54;56].
Definition w_IDEOGRAPH_2F869 : str := [73;68;69;79;71;82;65;80;72;45;50;70;56;54;57].
Definition w_IDEOGRAPH_2F86A : str := [73;68;69;79;71;82;65;80;72;45;50;70;56;54;65].
Definition w_IDEOGRAPH_2F86B : str := [73;68;69;79;71;82;65;80;72;45;50;70;56;54;66].
Definition w_IDEOGRAPH_2F86C : str := [73;68;69;79;71;82;65;80;72;45;50;70;56;54;67].
Definition w_IDEOGRAPH_2F86D : str := [73;68;69;79;71;82;65;80;72;45;50;70;56;54;68].
Definition w_IDEOGRAPH_2F86E : str := [73;68;69;79;71;82;65;80;72;45;50;70;56;54;69].
Definition w_IDEOGRAPH_2F86F : str := [73;68;69;79;71;82;65;80;72;45;50;70;56;54;70].
Definition w_IDEOGRAPH_2F870 : str := [73;68;69;79;71;82;65;80;72;45;50;70;56;55;48].
Definition w_IDEOGRAPH_2F871 : str := [73;68;69;79;71;82;65;80;72;45;50;70;56;55;49].
Definition w_IDEOGRAPH_2F872 : str := [73;68;69;79;71;82;65;80;72;45;50;70;56;55;50].
Definition w_IDEOGRAPH_2F873 : str := [73;68;69;79;71;82;65;80;72;45;50;70;56;55;51].
Definition w_IDEOGRAPH_2F874 : str := [73;68;69;79;71;82;65;80;72;45;50;70;56;55;52].
Definition w_IDEOGRAPH_2F875 : str := [73;68;69;79;71;82;65;80;72;45;50;70;56;55;53].
Definition w_IDEOGRAPH_2F876 : str := [73;68;69;79;71;82;65;80;72;45;50;70;56;55;54].
Definition w_IDEOGRAPH_2F877 : str := [73;68;69;79;71;82;65;80;72;45;50;70;56;55;55].
Definition w_IDEOGRAPH_2F878 : str := [73;68;69;79;71;82;65;80;72;45;50;70;56;55;56].
Definition w_IDEOGRAPH_2F879 : str := [73;68;69;79;71;82;65;80;72;45;50;70;56;55;57].
Definition w_IDEOGRAPH_2F87A : str := [73;68;69;79;71;82;65;80;72;45;50;70;56;55;65].
Definition w_IDEOGRAPH_2F87B : str := [73;68;69;79;71;82;65;80;72;45;50;70;56;55;66].
Definition w_IDEOGRAPH_2F87C : str := [73;68;69;79;71;82;65;80;72;45;50;70;56;55;67].
Definition w_IDEOGRAPH_2F87D : str := [73;68;69;79;71;82;65;80;72;45;50;70;56;55;68].
Definition w_IDEOGRAPH_2F87E : str := [73;68;69;79;71;82;65;80;72;45;50;70;56;55;69].
Definition w_IDEOGRAPH_2F87F : str := [73;68;69;79;71;82;65;80;72;45;50;70;56;55;70].
Definition w_IDEOGRAPH_2F880 : str := [73;68;69;79;71;82;65;80;72;45;50;70;56;56;48].
Definition w_IDEOGRAPH_2F881 : str := [73;68;69;79;71;82;65;80;72;45;50;70;56;56;49].
Definition w_IDEOGRAPH_2F882 : str := [73;68;69;79;71;82;65;80;72;45;50;70;56;56;50].
Definition w_IDEOGRAPH_2F883 : str := [73;68;69;79;71;82;65;80;72;45;50;70;56;56;51].
Definition w_IDEOGRAPH_2F884 : str := [73;68;69;79;71;82;65;80;72;45;50;70;56;56;52].
Definition w_IDEOGRAPH_2F885 : str := [73;68;69;79;71;82;65;80;72;45;50;70;56;56;53].
Definition w_IDEOGRAPH_2F886 : str := [73;68;69;79;71;82;65;80;72;45;50;70;56;56;54].
Definition w_IDEOGRAPH_2F887 : str := [73;68;69;79;71;82;65;80;72;45;50;70;56;56;55].
Definition w_IDEOGRAPH_2F888 : str := [73;68;69;79;71;82;65;80;72;45;50;70;56;56;56].
Definition w_IDEOGRAPH_2F889 : str := [73;68;69;79;71;82;65;80;72;45;50;70;56;56;57].
Definition w_IDEOGRAPH_2F88A : str := [73;68;69;79;71;82;65;80;72;45;50;70;56;56;65].
Definition w_IDEOGRAPH_2F88B : str := [73;68;69;79;71;82;65;80;72;45;50;70;56;56;66].
Definition w_IDEOGRAPH_2F88C : str := [73;68;69;79;71;82;65;80;72;45;50;70;56;56;67].
Definition w_IDEOGRAPH_2F88D : str := [73;68;69;79;71;82;65;80;72;45;50;70;56;56;68].
Definition w_IDEOGRAPH_2F88E : str := [73;68;69;79;71;82;65;80;72;45;50;70;56;56;69].
Definition w_IDEOGRAPH_2F88F : str := [73;68;69;79;71;82;65;80;72;45;50;70;56;56;70].
Definition w_IDEOGRAPH_2F890 : str := [73;68;69;79;71;82;65;80;72;45;50;70;56;57;48].
Definition w_IDEOGRAPH_2F891 : str := [73;68;69;79;71;82;65;80;72;45;50;70;56;57;49].
Definition w_IDEOGRAPH_2F892 : str := [73;68;69;79;71;82;65;80;72;45;50;70;56;57;50].
Definition w_IDEOGRAPH_2F893 : str := [73;68;69;79;71;82;65;80;72;45;50;70;56;57;51].
Definition w_IDEOGRAPH_2F894 : str := [73;68;69;79;71;82;65;80;72;45;50;70;56;57;52].
Definition w_IDEOGRAPH_2F895 : str := [73;68;69;79;71;82;65;80;72;45;50;70;56;57;53].
Definition w_IDEOGRAPH_2F896 : str := [73;68;69;79;71;82;65;80;72;45;50;70;56;57;54].
Definition w_IDEOGRAPH_2F897 : str := [73;68;69;79;71;82;65;80;72;45;50;70;56;57;55].
Definition w_IDEOGRAPH_2F898 : str := [73;68;69;79;71;82;65;80;72;45;50;70;56;57;56].
Definition w_IDEOGRAPH_2F899 : str := [73;68;69;79;71;82;65;80;72;45;50;70;56;57;57].
Definition w_IDEOGRAPH_2F89A : str := [73;68;69;79;71;82;65;80;72;45;50;70;56;57;65].
Definition w_IDEOGRAPH_2F89B : str := [73;68;69;79;71;82;65;80;72;45;50;70;56;57;66].
Definition w_IDEOGRAPH_2F89C : str := [73;68;69;79;71;82;65;80;72;45;50;70;56;57;67].
Definition w_IDEOGRAPH_2F89D : str := [73;68;69;79;71;82;65;80;72;45;50;70;56;57;68].
Definition w_IDEOGRAPH_2F89E : str := [73;68;69;79;71;82;65;80;72;45;50;70;56;57;69].
Definition w_IDEOGRAPH_2F89F : str := [73;68;69;79;71;82;65;80;72;45;50;70;56;57;70].
Definition w_IDEOGRAPH_2F8A0 : str := [73;68;69;79;71;82;65;80;72;45;50;70;56;65;48].
Definition w_IDEOGRAPH_2F8A1 : str := [73;68;69;79;71;82;65;80;72;45;50;70;56;65;49].
Definition w_IDEOGRAPH_2F8A2 : str := [73;68;69;79;71;82;65;80;72;45;50;70;56;65;50].
Definition w_IDEOGRAPH_2F8A3 : str := [73;68;69;79;71;82;65;80;72;45;50;70;56;65;51].
Definition w_IDEOGRAPH_2F8A4 : str := [73;68;69;79;71;82;65;80;72;45;50;70;56;65;52].
Definition w_IDEOGRAPH_2F8A5 : str := [73;68;69;79;71;82;65;80;72;45;50;70;56;65;53].
Definition w_IDEOGRAPH_2F8A6 : str := [73;68;69;79;71;82;65;80;72;45;50;70;56;65;54].
Definition w_IDEOGRAPH_2F8A7 : str := [73;68;69;79;71;82;65;80;72;45;50;70;56;65;55].
Definition w_IDEOGRAPH_2F8A8 : str := [73;68;69;79;71;82;65;80;72;45;50;70;56;65;56].
Definition w_IDEOGRAPH_2F8A9 : str := [73;68;69;79;71;82;65;80;72;45;50;70;56;65;57].
Definition w_IDEOGRAPH_2F8AA : str := [73;68;69;79;71;82;65;80;72;45;50;70;56;65;65].
Definition w_IDEOGRAPH_2F8AB : str := [73;68;69;79;71;82;65;80;72;45;50;70;56;65;66].
Definition w_IDEOGRAPH_2F8AC : str := [73;68;69;79;71;82;65;80;72;45;50;70;56;65;67].
Definition w_IDEOGRAPH_2F8AD : str := [73;68;69;79;71;82;65;80;72;45;50;70;56;65;68].
Definition w_IDEOGRAPH_2F8AE : str := [73;68;69;79;71;82;65;80;72;45;50;70;56;65;69].
Definition w_IDEOGRAPH_2F8AF : str := [73;68;69;79;71;82;65;80;72;45;50;70;56;65;70].
Definition w_IDEOGRAPH_2F8B0 : str := [73;68;69;79;71;82;65;80;72;45;50;70;56;66;48].
Definition w_IDEOGRAPH_2F8B1 : str := [73;68;69;79;71;82;65;80;72;45;50;70;56;66;49].
Definition w_IDEOGRAPH_2F8B2 : str := [73;68;69;79;71;82;65;80;72;45;50;70;56;66;50].
Definition w_IDEOGRAPH_2F8B3 : str := [73;68;69;79;71;82;65;80;72;45;50;70;56;66;51].
Definition w_IDEOGRAPH_2F8B4 : str := [73;68;69;79;71;82;65;80;72;45;50;70;56;66;52].
Definition w_IDEOGRAPH_2F8B5 : str := [73;68;69;79;71;82;65;80;72;45;50;70;56;66;53].
Definition w_IDEOGRAPH_2F8B6 : str := [73;68;69;79;71;82;65;80;72;45;50;70;56;66;54].
Definition w_IDEOGRAPH_2F8B7 : str := [73;68;69;79;71;82;65;80;72;45;50;70;56;66;55].
Definition w_IDEOGRAPH_2F8B8 : str := [73;68;69;79;71;82;65;80;72;45;50;70;56;66;56].
Definition w_IDEOGRAPH_2F8B9 : str := [73;68;69;79;71;82;65;80;72;45;50;70;56;66;57].
Definition w_IDEOGRAPH_2F8BA : str := [73;68;69;79;71;82;65;80;72;45;50;70;56;66;65].
Definition w_IDEOGRAPH_2F8BB : str := [73;68;69;79;71;82;65;80;72;45;50;70;56;66;66].
Definition w_IDEOGRAPH_2F8BC : str := [73;68;69;79;71;82;65;80;72;45;50;70;56;66;67].
Definition w_IDEOGRAPH_2F8BD : str := [73;68;69;79;71;82;65;80;72;45;50;70;56;66;68].
Definition w_IDEOGRAPH_2F8BE : str := [73;68;69;79;71;82;65;80;72;45;50;70;56;66;69].
Definition w_IDEOGRAPH_2F8BF : str := [73;68;69;79;71;82;65;80;72;45;50;70;56;66;70].
Definition w_IDEOGRAPH_2F8C0 : str := [73;68;69;79;71;82;65;80;72;45;50;70;56;67;48].
Definition w_IDEOGRAPH_2F8C1 : str := [73;68;69;79;71;82;65;80;72;45;50;70;56;67;49].
Definition w_IDEOGRAPH_2F8C2 : str := [73;68;69;79;71;82;65;80;72;45;50;70;56;67;50].
Definition w_IDEOGRAPH_2F8C3 : str := [73;68;69;79;71;82;65;80;72;45;50;70;56;67;51].
Definition w_IDEOGRAPH_2F8C4 : str := [73;68;69;79;71;82;65;80;72;45;50;70;56;67;52].
Definition w_IDEOGRAPH_2F8C5 : str := [73;68;69;79;71;82;65;80;72;45;50;70;56;67;53].
Definition w_IDEOGRAPH_2F8C6 : str := [73;68;69;79;71;82;65;80;72;45;50;70;56;67;54].
Definition w_IDEOGRAPH_2F8C7 : str := [73;68;69;79;71;82;65;80;72;45;50;70;56;67;55].
Definition w_IDEOGRAPH_2F8C8 : str := [73;68;69;79;71;82;65;80;72;45;50;70;56;67;56].
Definition w_IDEOGRAPH_2F8C9 : str := [73;68;69;79;71;82;65;80;72;45;50;70;56;67;57].
Definition w_IDEOGRAPH_2F8CA : str := [73;68;69;79;71;82;65;80;72;45;50;70;56;67;65].
Definition w_IDEOGRAPH_2F8CB : str := [73;68;69;79;71;82;65;80;72;45;50;70;56;67;66].
Definition w_IDEOGRAPH_2F8CC : str := [73;68;69;79;71;82;65;80;72;45;50;70;56;67;67].
Definition w_IDEOGRAPH_2F8CD : str := [73;68;69;79;71;82;65;80;72;45;50;70;56;67;68].
Definition w_IDEOGRAPH_2F8CE : str := [73;68;69;79;71;82;65;80;72;45;50;70;56;67;69].
Definition w_IDEOGRAPH_2F8CF : str := [73;68;69;79;71;82;65;80;72;45;50;70;56;67;70].
Definition w_IDEOGRAPH_2F8D0 : str := [73;68;69;79;71;82;65;80;72;45;50;70;56;68;48].
Definition w_IDEOGRAPH_2F8D1 : str := [73;68;69;79;71;82;65;80;72;45;50;70;56;68;49].
Definition w_IDEOGRAPH_2F8D2 : str := [73;68;69;79;71;82;65;80;72;45;50;70;56;68;50].
Definition w_IDEOGRAPH_2F8D3 : str := [73;68;69;79;71;82;65;80;72;45;50;70;56;68;51].
Definition w_IDEOGRAPH_2F8D4 : str := [73;68;69;79;71;82;65;80;72;45;50;70;56;68;52].
Definition w_IDEOGRAPH_2F8D5 : str := [73;68;69;79;71;82;65;80;72;45;50;70;56;68;53].
Definition w_IDEOGRAPH_2F8D6 : str := [73;68;69;79;71;82;65;80;72;45;50;70;56;68;54].
Definition w_IDEOGRAPH_2F8D7 : str := [73;68;69;79;71;82;65;80;72;45;50;70;56;68;55].
Definition w_IDEOGRAPH_2F8D8 : str := [73;68;69;79;71;82;65;80;72;45;50;70;56;68;56].
Definition w_IDEOGRAPH_2F8D9 : str := [73;68;69;79;71;82;65;80;72;45;50;70;56;68;57].
Definition w_IDEOGRAPH_2F8DA : str := [73;68;69;79;71;82;65;80;72;45;50;70;56;68;65].
Definition w_IDEOGRAPH_2F8DB : str := [73;68;69;79;71;82;65;80;72;45;50;70;56;68;66].
Definition w_IDEOGRAPH_2F8DC : str := [73;68;69;79;71;82;65;80;72;45;50;70;56;68;67].
Definition w_IDEOGRAPH_2F8DD : str := [73;68;69;79;71;82;65;80;72;45;50;70;56;68;68].
Definition w_IDEOGRAPH_2F8DE : str := [73;68;69;79;71;82;65;80;72;45;50;70;56;68;69].
Definition w_IDEOGRAPH_2F8DF : str := [73;68;69;79;71;82;65;80;72;45;50;70;56;68;70].
Definition w_IDEOGRAPH_2F8E0 : str := [73;68;69;79;71;82;65;80;72;45;50;70;56;69;48].
Definition w_IDEOGRAPH_2F8E1 : str := [73;68;69;79;71;82;65;80;72;45;50;70;56;69;49].
Definition w_IDEOGRAPH_2F8E2 : str := [73;68;69;79;71;82;65;80;72;45;50;70;56;69;50].
Definition w_IDEOGRAPH_2F8E3 : str := [73;68;69;79;71;82;65;80;72;45;50;70;56;69;51].
Definition w_IDEOGRAPH_2F8E4 : str := [73;68;69;79;71;82;65;80;72;45;50;70;56;69;52].
Definition w_IDEOGRAPH_2F8E5 : str := [73;68;69;79;71;82;65;80;72;45;50;70;56;69;53].
Definition w_IDEOGRAPH_2F8E6 : str := [73;68;69;79;71;82;65;80;72;45;50;70;56;69;54].
Definition w_IDEOGRAPH_2F8E7 : str := [73;68;69;79;71;82;65;80;72;45;50;70;56;69;55].
Definition w_IDEOGRAPH_2F8E8 : str := [73;68;69;79;71;82;65;80;72;45;50;70;56;69;56].
Definition w_IDEOGRAPH_2F8E9 : str := [73;68;69;79;71;82;65;80;72;45;50;70;56;69;57].
Definition w_IDEOGRAPH_2F8EA : str := [73;68;69;79;71;82;65;80;72;45;50;70;56;69;65].
Definition w_IDEOGRAPH_2F8EB : str := [73;68;69;79;71;82;65;80;72;45;50;70;56;69;66].
Definition w_IDEOGRAPH_2F8EC : str := [73;68;69;79;71;82;65;80;72;45;50;70;56;69;67].
Definition w_IDEOGRAPH_2F8ED : str := [73;68;69;79;71;82;65;80;72;45;50;70;56;69;68].
Definition w_IDEOGRAPH_2F8EE : str := [73;68;69;79;71;82;65;80;72;45;50;70;56;69;69].
Definition w_IDEOGRAPH_2F8EF : str := [73;68;69;79;71;82;65;80;72;45;50;70;56;69;70].
Definition w_IDEOGRAPH_2F8F0 : str := [73;68;69;79;71;82;65;80;72;45;50;70;56;70;48].
Definition w_IDEOGRAPH_2F8F1 : str := [73;68;69;79;71;82;65;80;72;45;50;70;56;70;49].
Definition w_IDEOGRAPH_2F8F2 : str := [73;68;69;79;71;82;65;80;72;45;50;70;56;70;50].
Definition w_IDEOGRAPH_2F8F3 : str := [73;68;69;79;71;82;65;80;72;45;50;70;56;70;51].
Definition w_IDEOGRAPH_2F8F4 : str := [73;68;69;79;71;82;65;80;72;45;50;70;56;70;52].
Definition w_IDEOGRAPH_2F8F5 : str := [73;68;69;79;71;82;65;80;72;45;50;70;56;70;53].
Definition w_IDEOGRAPH_2F8F6 : str := [73;68;69;79;71;82;65;80;72;45;50;70;56;70;54].
Definition w_IDEOGRAPH_2F8F7 : str := [73;68;69;79;71;82;65;80;72;45;50;70;56;70;55].
Definition w_IDEOGRAPH_2F8F8 : str := [73;68;69;79;71;82;65;80;72;45;50;70;56;70;56].
Definition w_IDEOGRAPH_2F8F9 : str := [73;68;69;79;71;82;65;80;72;45;50;70;56;70;57].
Definition w_IDEOGRAPH_2F8FA : str := [73;68;69;79;71;82;65;80;72;45;50;70;56;70;65].
Definition w_IDEOGRAPH_2F8FB : str := [73;68;69;79;71;82;65;80;72;45;50;70;56;70;66].
Definition w_IDEOGRAPH_2F8FC : str := [73;68;69;79;71;82;65;80;72;45;50;70;56;70;67].
Definition w_IDEOGRAPH_2F8FD : str := [73;68;69;79;71;82;65;80;72;45;50;70;56;70;68].
Definition w_IDEOGRAPH_2F8FE : str := [73;68;69;79;71;82;65;80;72;45;50;70;56;70;69].
Definition w_IDEOGRAPH_2F8FF : str := [73;68;69;79;71;82;65;80;72;45;50;70;56;70;70].
Definition w_IDEOGRAPH_2F900 : str := [73;68;69;79;71;82;65;80;72;45;50;70;57;48;48].
Definition w_IDEOGRAPH_2F901 : str := [73;68;69;79;71;82;65;80;72;45;50;70;57;48;49].
Definition w_IDEOGRAPH_2F902 : str := [73;68;69;79;71;82;65;80;72;45;50;70;57;48;50].
Definition w_IDEOGRAPH_2F903 : str := [73;68;69;79;71;82;65;80;72;45;50;70;57;48;51].
Definition w_IDEOGRAPH_2F904 : str := [73;68;69;79;71;82;65;80;72;45;50;70;57;48;52].
Definition w_IDEOGRAPH_2F905 : str := [73;68;69;79;71;82;65;80;72;45;50;70;57;48;53].
Definition w_IDEOGRAPH_2F906 : str := [73;68;69;79;71;82;65;80;72;45;50;70;57;48;54].
Definition w_IDEOGRAPH_2F907 : str := [73;68;69;79;71;82;65;80;72;45;50;70;57;48;55].
Definition w_IDEOGRAPH_2F908 : str := [73;68;69;79;71;82;65;80;72;45;50;70;57;48;56].
Definition w_IDEOGRAPH_2F909 : str := [73;68;69;79;71;82;65;80;72;45;50;70;57;48;57].
Definition w_IDEOGRAPH_2F90A : str := [73;68;69;79;71;82;65;80;72;45;50;70;57;48;65].
Definition w_IDEOGRAPH_2F90B : str := [73;68;69;79;71;82;65;80;72;45;50;70;57;48;66].
Definition w_IDEOGRAPH_2F90C : str := [73;68;69;79;71;82;65;80;72;45;50;70;57;48;67].
Definition w_IDEOGRAPH_2F90D : str := [73;68;69;79;71;82;65;80;72;45;50;70;57;48;68].
Definition w_IDEOGRAPH_2F90E : str := [73;68;69;79;71;82;65;80;72;45;50;70;57;48;69].
Definition w_IDEOGRAPH_2F90F : str := [73;68;69;79;71;82;65;80;72;45;50;70;57;48;70].
Definition w_IDEOGRAPH_2F910 : str := [73;68;69;79;71;82;65;80;72;45;50;70;57;49;48].
Definition w_IDEOGRAPH_2F911 : str := [73;68;69;79;71;82;65;80;72;45;50;70;57;49;49].
Definition w_IDEOGRAPH_2F912 : str := [73;68;69;79;71;82;65;80;72;45;50;70;57;49;50].
Definition w_IDEOGRAPH_2F913 : str := [73;68;69;79;71;82;65;80;72;45;50;70;57;49;51].
Definition w_IDEOGRAPH_2F914 : str := [73;68;69;79;71;82;65;80;72;45;50;70;57;49;52].
Definition w_IDEOGRAPH_2F915 : str := [73;68;69;79;71;82;65;80;72;45;50;70;57;49;53].
Definition w_IDEOGRAPH_2F916 : str := [73;68;69;79;71;82;65;80;72;45;50;70;57;49;54].
Definition w_IDEOGRAPH_2F917 : str := [73;68;69;79;71;82;65;80;72;45;50;70;57;49;55].
Definition w_IDEOGRAPH_2F918 : str := [73;68;69;79;71;82;65;80;72;45;50;70;57;49;56].
Definition w_IDEOGRAPH_2F919 : str := [73;68;69;79;71;82;65;80;72;45;50;70;57;49;57].
Definition w_IDEOGRAPH_2F91A : str := [73;68;69;79;71;82;65;80;72;45;50;70;57;49;65].
Definition w_IDEOGRAPH_2F91B : str := [73;68;69;79;71;82;65;80;72;45;50;70;57;49;66].
Definition w_IDEOGRAPH_2F91C : str := [73;68;69;79;71;82;65;80;72;45;50;70;57;49;67].
Definition w_IDEOGRAPH_2F91D : str := [73;68;69;79;71;82;65;80;72;45;50;70;57;49;68].
Definition w_IDEOGRAPH_2F91E : str := [73;68;69;79;71;82;65;80;72;45;50;70;57;49;69].
Definition w_IDEOGRAPH_2F91F : str := [73;68;69;79;71;82;65;80;72;45;50;70;57;49;70].
Definition w_IDEOGRAPH_2F920 : str := [73;68;69;79;71;82;65;80;72;45;50;70;57;50;48].
Definition w_IDEOGRAPH_2F921 : str := [73;68;69;79;71;82;65;80;72;45;50;70;57;50;49].
Definition w_IDEOGRAPH_2F922 : str := [73;68;69;79;71;82;65;80;72;45;50;70;57;50;50].
Definition w_IDEOGRAPH_2F923 : str := [73;68;69;79;71;82;65;80;72;45;50;70;57;50;51].
Definition w_IDEOGRAPH_2F924 : str := [73;68;69;79;71;82;65;80;72;45;50;70;57;50;52].
Definition w_IDEOGRAPH_2F925 : str := [73;68;69;79;71;82;65;80;72;45;50;70;57;50;53].
Definition w_IDEOGRAPH_2F926 : str := [73;68;69;79;71;82;65;80;72;45;50;70;57;50;54].
Definition w_IDEOGRAPH_2F927 : str := [73;68;69;79;71;82;65;80;72;45;50;70;57;50;55].
Definition w_IDEOGRAPH_2F928 : str := [73;68;69;79;71;82;65;80;72;45;50;70;57;50;56].
Definition w_IDEOGRAPH_2F929 : str := [73;68;69;79;71;82;65;80;72;45;50;70;57;50;57].
Definition w_IDEOGRAPH_2F92A : str := [73;68;69;79;71;82;65;80;72;45;50;70;57;50;65].
Definition w_IDEOGRAPH_2F92B : str := [73;68;69;79;71;82;65;80;72;45;50;70;57;50;66].
Definition w_IDEOGRAPH_2F92C : str := [73;68;69;79;71;82;65;80;72;45;50;70;57;50;67].
Definition w_IDEOGRAPH_2F92D : str := [73;68;69;79;71;82;65;80;72;45;50;70;57;50;68].
Definition w_IDEOGRAPH_2F92E : str := [73;68;69;79;71;82;65;80;72;45;50;70;57;50;69].
Definition w_IDEOGRAPH_2F92F : str := [73;68;69;79;71;82;65;80;72;45;50;70;57;50;70].
Definition w_IDEOGRAPH_2F930 : str := [73;68;69;79;71;82;65;80;72;45;50;70;57;51;48].
Definition w_IDEOGRAPH_2F931 : str := [73;68;69;79;71;82;65;80;72;45;50;70;57;51;49].
Definition w_IDEOGRAPH_2F932 : str := [73;68;69;79;71;82;65;80;72;45;50;70;57;51;50].
Definition w_IDEOGRAPH_2F933 : str := [73;68;69;79;71;82;65;80;72;45;50;70;57;51;51].
Definition w_IDEOGRAPH_2F934 : str := [73;68;69;79;71;82;65;80;72;45;50;70;57;51;52].
Definition w_IDEOGRAPH_2F935 : str := [73;68;69;79;71;82;65;80;72;45;50;70;57;51;53].
Definition w_IDEOGRAPH_2F936 : str := [73;68;69;79;71;82;65;80;72;45;50;70;57;51;54].
Definition w_IDEOGRAPH_2F937 : str := [73;68;69;79;71;82;65;80;72;45;50;70;57;51;55].
Definition w_IDEOGRAPH_2F938 : str := [73;68;69;79;71;82;65;80;72;45;50;70;57;51;56].
Definition w_IDEOGRAPH_2F939 : str := [73;68;69;79;71;82;65;80;72;45;50;70;57;51;57].
Definition w_IDEOGRAPH_2F93A : str := [73;68;69;79;71;82;65;80;72;45;50;70;57;51;65].
Definition w_IDEOGRAPH_2F93B : str := [73;68;69;79;71;82;65;80;72;45;50;70;57;51;66].
Definition w_IDEOGRAPH_2F93C : str := [73;68;69;79;71;82;65;80;72;45;50;70;57;51;67].
Definition w_IDEOGRAPH_2F93D : str := [73;68;69;79;71;82;65;80;72;45;50;70;57;51;68].
Definition w_IDEOGRAPH_2F93E : str := [73;68;69;79;71;82;65;80;72;45;50;70;57;51;69].
Definition w_IDEOGRAPH_2F93F : str := [73;68;69;79;71;82;65;80;72;45;50;70;57;51;70].
Definition w_IDEOGRAPH_2F940 : str := [73;68;69;79;71;82;65;80;72;45;50;70;57;52;48].
Definition w_IDEOGRAPH_2F941 : str := [73;68;69;79;71;82;65;80;72;45;50;70;57;52;49].
Definition w_IDEOGRAPH_2F942 : str := [73;68;69;79;71;82;65;80;72;45;50;70;57;52;50].
Definition w_IDEOGRAPH_2F943 : str := [73;68;69;79;71;82;65;80;72;45;50;70;57;52;51].
Definition w_IDEOGRAPH_2F944 : str := [73;68;69;79;71;82;65;80;72;45;50;70;57;52;52].
Definition w_IDEOGRAPH_2F945 : str := [73;68;69;79;71;82;65;80;72;45;50;70;57;52;53].
Definition w_IDEOGRAPH_2F946 : str := [73;68;69;79;71;82;65;80;72;45;50;70;57;52;54].
Definition w_IDEOGRAPH_2F947 : str := [73;68;69;79;71;82;65;80;72;45;50;70;57;52;55].
Definition w_IDEOGRAPH_2F948 : str := [73;68;69;79;71;82;65;80;72;45;50;70;57;52;56].
Definition w_IDEOGRAPH_2F949 : str := [73;68;69;79;71;82;65;80;72;45;50;70;57;52;57].
Definition w_IDEOGRAPH_2F94A : str := [73;68;69;79;71;82;65;80;72;45;50;70;57;52;65].
Definition w_IDEOGRAPH_2F94B : str := [73;68;69;79;71;82;65;80;72;45;50;70;57;52;66].
Definition w_IDEOGRAPH_2F94C : str := [73;68;69;79;71;82;65;80;72;45;50;70;57;52;67].
Definition w_IDEOGRAPH_2F94D : str := [73;68;69;79;71;82;65;80;72;45;50;70;57;52;68].
Definition w_IDEOGRAPH_2F94E : str := [73;68;69;79;71;82;65;80;72;45;50;70;57;52;69].
Definition w_IDEOGRAPH_2F94F : str := [73;68;69;79;71;82;65;80;72;45;50;70;57;52;70].
Definition w_IDEOGRAPH_2F950 : str := [73;68;69;79;71;82;65;80;72;45;50;70;57;53;48].
Definition w_IDEOGRAPH_2F951 : str := [73;68;69;79;71;82;65;80;72;45;50;70;57;53;49].
Definition w_IDEOGRAPH_2F952 : str := [73;68;69;79;71;82;65;80;72;45;50;70;57;53;50].
Definition w_IDEOGRAPH_2F953 : str := [73;68;69;79;71;82;65;80;72;45;50;70;57;53;51].
Definition w_IDEOGRAPH_2F954 : str := [73;68;69;79;71;82;65;80;72;45;50;70;57;53;52].
Definition w_IDEOGRAPH_2F955 : str := [73;68;69;79;71;82;65;80;72;45;50;70;57;53;53].
Definition w_IDEOGRAPH_2F956 : str := [73;68;69;79;71;82;65;80;72;45;50;70;57;53;54].
Definition w_IDEOGRAPH_2F957 : str := [73;68;69;79;71;82;65;80;72;45;50;70;57;53;55].
Definition w_IDEOGRAPH_2F958 : str := [73;68;69;79;71;82;65;80;72;45;50;70;57;53;56].
Definition w_IDEOGRAPH_2F959 : str := [73;68;69;79;71;82;65;80;72;45;50;70;57;53;57].
Definition w_IDEOGRAPH_2F95A : str := [73;68;69;79;71;82;65;80;72;45;50;70;57;53;65].
Definition w_IDEOGRAPH_2F95B : str := [73;68;69;79;71;82;65;80;72;45;50;70;57;53;66].
Definition w_IDEOGRAPH_2F95C : str := [73;68;69;79;71;82;65;80;72;45;50;70;57;53;67].
Definition w_IDEOGRAPH_2F95D : str := [73;68;69;79;71;82;65;80;72;45;50;70;57;53;68].
Definition w_IDEOGRAPH_2F95E : str := [73;68;69;79;71;82;65;80;72;45;50;70;57;53;69].
Definition w_IDEOGRAPH_2F95F : str := [73;68;69;79;71;82;65;80;72;45;50;70;57;53;70].
Definition w_IDEOGRAPH_2F960 : str := [73;68;69;79;71;82;65;80;72;45;50;70;57;54;48].
Definition w_IDEOGRAPH_2F961 : str := [73;68;69;79;71;82;65;80;72;45;50;70;57;54;49].
Definition w_IDEOGRAPH_2F962 : str := [73;68;69;79;71;82;65;80;72;45;50;70;57;54;50].
Definition w_IDEOGRAPH_2F963 : str := [73;68;69;79;71;82;65;80;72;45;50;70;57;54;51].
Definition w_IDEOGRAPH_2F964 : str := [73;68;69;79;71;82;65;80;72;45;50;70;57;54;52].
Definition w_IDEOGRAPH_2F965 : str := [73;68;69;79;71;82;65;80;72;45;50;70;57;54;53].
Definition w_IDEOGRAPH_2F966 : str := [73;68;69;79;71;82;65;80;72;45;50;70;57;54;54].
Definition w_IDEOGRAPH_2F967 : str := [73;68;69;79;71;82;65;80;72;45;50;70;57;54;55].
Definition w_IDEOGRAPH_2F968 : str := [73;68;69;79;71;82;65;80;72;45;50;70;57;54;56].
Definition w_IDEOGRAPH_2F969 : str := [73;68;69;79;71;82;65;80;72;45;50;70;57;54;57].
Definition w_IDEOGRAPH_2F96A : str := [73;68;69;79;71;82;65;80;72;45;50;70;57;54;65].
Definition w_IDEOGRAPH_2F96B : str := [73;68;69;79;71;82;65;80;72;45;50;70;57;54;66].
Definition w_IDEOGRAPH_2F96C : str := [73;68;69;79;71;82;65;80;72;45;50;70;57;54;67].
Definition w_IDEOGRAPH_2F96D : str := [73;68;69;79;71;82;65;80;72;45;50;70;57;54;68].
Definition w_IDEOGRAPH_2F96E : str := [73;68;69;79;71;82;65;80;72;45;50;70;57;54;69].
Definition w_IDEOGRAPH_2F96F : str := [73;68;69;79;71;82;65;80;72;45;50;70;57;54;70].
Definition w_IDEOGRAPH_2F970 : str := [73;68;69;79;71;82;65;80;72;45;50;70;57;55;48].
Definition w_IDEOGRAPH_2F971 : str := [73;68;69;79;71;82;65;80;72;45;50;70;57;55;49].
Definition w_IDEOGRAPH_2F972 : str := [73;68;69;79;71;82;65;80;72;45;50;70;57;55;50].
Definition w_IDEOGRAPH_2F973 : str := [73;68;69;79;71;82;65;80;72;45;50;70;57;55;51].
Definition w_IDEOGRAPH_2F974 : str := [73;68;69;79;71;82;65;80;72;45;50;70;57;55;52].
Definition w_IDEOGRAPH_2F975 : str := [73;68;69;79;71;82;65;80;72;45;50;70;57;55;53].
Definition w_IDEOGRAPH_2F976 : str := [73;68;69;79;71;82;65;80;72;45;50;70;57;55;54].
Definition w_IDEOGRAPH_2F977 : str := [73;68;69;79;71;82;65;80;72;45;50;70;57;55;55].
Definition w_IDEOGRAPH_2F978 : str := [73;68;69;79;71;82;65;80;72;45;50;70;57;55;56].
Definition w_IDEOGRAPH_2F979 : str := [73;68;69;79;71;82;65;80;72;45;50;70;57;55;57].
Definition w_IDEOGRAPH_2F97A : str := [73;68;69;79;71;82;65;80;72;45;50;70;57;55;65].
Definition w_IDEOGRAPH_2F97B : str := [73;68;69;79;71;82;65;80;72;45;50;70;57;55;66].
Definition w_IDEOGRAPH_2F97C : str := [73;68;69;79;71;82;65;80;72;45;50;70;57;55;67].
Definition w_IDEOGRAPH_2F97D : str := [73;68;69;79;71;82;65;80;72;45;50;70;57;55;68].
Definition w_IDEOGRAPH_2F97E : str := [73;68;69;79;71;82;65;80;72;45;50;70;57;55;69].
Definition w_IDEOGRAPH_2F97F : str := [73;68;69;79;71;82;65;80;72;45;50;70;57;55;70].
Definition w_IDEOGRAPH_2F980 : str := [73;68;69;79;71;82;65;80;72;45;50;70;57;56;48].
Definition w_IDEOGRAPH_2F981 : str := [73;68;69;79;71;82;65;80;72;45;50;70;57;56;49].
Definition w_IDEOGRAPH_2F982 : str := [73;68;69;79;71;82;65;80;72;45;50;70;57;56;50].
Definition w_IDEOGRAPH_2F983 : str := [73;68;69;79;71;82;65;80;72;45;50;70;57;56;51].
Definition w_IDEOGRAPH_2F984 : str := [73;68;69;79;71;82;65;80;72;45;50;70;57;56;52].
Definition w_IDEOGRAPH_2F985 : str := [73;68;69;79;71;82;65;80;72;45;50;70;57;56;53].
Definition w_IDEOGRAPH_2F986 : str := [73;68;69;79;71;82;65;80;72;45;50;70;57;56;54].
Definition w_IDEOGRAPH_2F987 : str := [73;68;69;79;71;82;65;80;72;45;50;70;57;56;55].
Definition w_IDEOGRAPH_2F988 : str := [73;68;69;79;71;82;65;80;72;45;50;70;57;56;56].
Definition w_IDEOGRAPH_2F989 : str := [73;68;69;79;71;82;65;80;72;45;50;70;57;56;57].
Definition w_IDEOGRAPH_2F98A : str := [73;68;69;79;71;82;65;80;72;45;50;70;57;56;65].
Definition w_IDEOGRAPH_2F98B : str := [73;68;69;79;71;82;65;80;72;45;50;70;57;56;66].
Definition w_IDEOGRAPH_2F98C : str := [73;68;69;79;71;82;65;80;72;45;50;70;57;56;67].
Definition w_IDEOGRAPH_2F98D : str := [73;68;69;79;71;82;65;80;72;45;50;70;57;56;68].
Definition w_IDEOGRAPH_2F98E : str := [73;68;69;79;71;82;65;80;72;45;50;70;57;56;69].
Definition w_IDEOGRAPH_2F98F : str := [73;68;69;79;71;82;65;80;72;45;50;70;57;56;70].
Definition w_IDEOGRAPH_2F990 : str := [73;68;69;79;71;82;65;80;72;45;50;70;57;57;48].
Definition w_IDEOGRAPH_2F991 : str := [73;68;69;79;71;82;65;80;72;45;50;70;57;57;49].
Definition w_IDEOGRAPH_2F992 : str := [73;68;69;79;71;82;65;80;72;45;50;70;57;57;50].
Definition w_IDEOGRAPH_2F993 : str := [73;68;69;79;71;82;65;80;72;45;50;70;57;57;51].
Definition w_IDEOGRAPH_2F994 : str := [73;68;69;79;71;82;65;80;72;45;50;70;57;57;52].
Definition w_IDEOGRAPH_2F995 : str := [73;68;69;79;71;82;65;80;72;45;50;70;57;57;53].
Definition w_IDEOGRAPH_2F996 : str := [73;68;69;79;71;82;65;80;72;45;50;70;57;57;54].
Definition w_IDEOGRAPH_2F997 : str := [73;68;69;79;71;82;65;80;72;45;50;70;57;57;55].
Definition w_IDEOGRAPH_2F998 : str := [73;68;69;79;71;82;65;80;72;45;50;70;57;57;56].
Definition w_IDEOGRAPH_2F999 : str := [73;68;69;79;71;82;65;80;72;45;50;70;57;57;57].
Definition w_IDEOGRAPH_2F99A : str := [73;68;69;79;71;82;65;80;72;45;50;70;57;57;65].
Definition w_IDEOGRAPH_2F99B : str := [73;68;69;79;71;82;65;80;72;45;50;70;57;57;66].
Definition w_IDEOGRAPH_2F99C : str := [73;68;69;79;71;82;65;80;72;45;50;70;57;57;67].
Definition w_IDEOGRAPH_2F99D : str := [73;68;69;79;71;82;65;80;72;45;50;70;57;57;68].
Definition w_IDEOGRAPH_2F99E : str := [73;68;69;79;71;82;65;80;72;45;50;70;57;57;69].
Definition w_IDEOGRAPH_2F99F : str := [73;68;69;79;71;82;65;80;72;45;50;70;57;57;70].
Definition w_IDEOGRAPH_2F9A0 : str := [73;68;69;79;71;82;65;80;72;45;50;70;57;65;48].
Definition w_IDEOGRAPH_2F9A1 : str := [73;68;69;79;71;82;65;80;72;45;50;70;57;65;49].
Definition w_IDEOGRAPH_2F9A2 : str := [73;68;69;79;71;82;65;80;72;45;50;70;57;65;50].
Definition w_IDEOGRAPH_2F9A3 : str := [73;68;69;79;71;82;65;80;72;45;50;70;57;65;51].
Definition w_IDEOGRAPH_2F9A4 : str := [73;68;69;79;71;82;65;80;72;45;50;70;57;65;52].
Definition w_IDEOGRAPH_2F9A5 : str := [73;68;69;79;71;82;65;80;72;45;50;70;57;65;53].
Definition w_IDEOGRAPH_2F9A6 : str := [73;68;69;79;71;82;65;80;72;45;50;70;57;65;54].
Definition w_IDEOGRAPH_2F9A7 : str := [73;68;69;79;71;82;65;80;72;45;50;70;57;65;55].
Definition w_IDEOGRAPH_2F9A8 : str := [73;68;69;79;71;82;65;80;72;45;50;70;57;65;56].
Definition w_IDEOGRAPH_2F9A9 : str := [73;68;69;79;71;82;65;80;72;45;50;70;57;65;57].
Definition w_IDEOGRAPH_2F9AA : str := [73;68;69;79;71;82;65;80;72;45;50;70;57;65;65].
Definition w_IDEOGRAPH_2F9AB : str := [73;68;69;79;71;82;65;80;72;45;50;70;57;65;66].
Definition w_IDEOGRAPH_2F9AC : str := [73;68;69;79;71;82;65;80;72;45;50;70;57;65;67].
Definition w_IDEOGRAPH_2F9AD : str := [73;68;69;79;71;82;65;80;72;45;50;70;57;65;68].
Definition w_IDEOGRAPH_2F9AE : str := [73;68;69;79;71;82;65;80;72;45;50;70;57;65;69].
Definition w_IDEOGRAPH_2F9AF : str := [73;68;69;79;71;82;65;80;72;45;50;70;57;65;70].
Definition w_IDEOGRAPH_2F9B0 : str := [73;68;69;79;71;82;65;80;72;45;50;70;57;66;48].
Definition w_IDEOGRAPH_2F9B1 : str := [73;68;69;79;71;82;65;80;72;45;50;70;57;66;49].
Definition w_IDEOGRAPH_2F9B2 : str := [73;68;69;79;71;82;65;80;72;45;50;70;57;66;50].
Definition w_IDEOGRAPH_2F9B3 : str := [73;68;69;79;71;82;65;80;72;45;50;70;57;66;51].
Definition w_IDEOGRAPH_2F9B4 : str := [73;68;69;79;71;82;65;80;72;45;50;70;57;66;52].
Definition w_IDEOGRAPH_2F9B5 : str := [73;68;69;79;71;82;65;80;72;45;50;70;57;66;53].
Definition w_IDEOGRAPH_2F9B6 : str := [73;68;69;79;71;82;65;80;72;45;50;70;57;66;54].
Definition w_IDEOGRAPH_2F9B7 : str := [73;68;69;79;71;82;65;80;72;45;50;70;57;66;55].
Definition w_IDEOGRAPH_2F9B8 : str := [73;68;69;79;71;82;65;80;72;45;50;70;57;66;56].
Definition w_IDEOGRAPH_2F9B9 : str := [73;68;69;79;71;82;65;80;72;45;50;70;57;66;57].
Definition w_IDEOGRAPH_2F9BA : str := [73;68;69;79;71;82;65;80;72;45;50;70;57;66;65].
Definition w_IDEOGRAPH_2F9BB : str := [73;68;69;79;71;82;65;80;72;45;50;70;57;66;66].
Definition w_IDEOGRAPH_2F9BC : str := [73;68;69;79;71;82;65;80;72;45;50;70;57;66;67].
Definition w_IDEOGRAPH_2F9BD : str := [73;68;69;79;71;82;65;80;72;45;50;70;57;66;68].
Definition w_IDEOGRAPH_2F9BE : str := [73;68;69;79;71;82;65;80;72;45;50;70;57;66;69].
Definition w_IDEOGRAPH_2F9BF : str := [73;68;69;79;71;82;65;80;72;45;50;70;57;66;70].
Definition w_IDEOGRAPH_2F9C0 : str := [73;68;69;79;71;82;65;80;72;45;50;70;57;67;48].
Definition w_IDEOGRAPH_2F9C1 : str := [73;68;69;79;71;82;65;80;72;45;50;70;57;67;49].
Definition w_IDEOGRAPH_2F9C2 : str := [73;68;69;79;71;82;65;80;72;45;50;70;57;67;50].
Definition w_IDEOGRAPH_2F9C3 : str := [73;68;69;79;71;82;65;80;72;45;50;70;57;67;51].
Definition w_IDEOGRAPH_2F9C4 : str := [73;68;69;79;71;82;65;80;72;45;50;70;57;67;52].
Definition w_IDEOGRAPH_2F9C5 : str := [73;68;69;79;71;82;65;80;72;45;50;70;57;67;53].
Definition w_IDEOGRAPH_2F9C6 : str := [73;68;69;79;71;82;65;80;72;45;50;70;57;67;54].
Definition w_IDEOGRAPH_2F9C7 : str := [73;68;69;79;71;82;65;80;72;45;50;70;57;67;55].
Definition w_IDEOGRAPH_2F9C8 : str := [73;68;69;79;71;82;65;80;72;45;50;70;57;67;56].
Definition w_IDEOGRAPH_2F9C9 : str := [73;68;69;79;71;82;65;80;72;45;50;70;57;67;57].
Definition w_IDEOGRAPH_2F9CA : str := [73;68;69;79;71;82;65;80;72;45;50;70;57;67;65].
Definition w_IDEOGRAPH_2F9CB : str := [73;68;69;79;71;82;65;80;72;45;50;70;57;67;66].
Definition w_IDEOGRAPH_2F9CC : str := [73;68;69;79;71;82;65;80;72;45;50;70;57;67;67].
Definition w_IDEOGRAPH_2F9CD : str := [73;68;69;79;71;82;65;80;72;45;50;70;57;67;68].
Definition w_IDEOGRAPH_2F9CE : str := [73;68;69;79;71;82;65;80;72;45;50;70;57;67;69].
Definition w_IDEOGRAPH_2F9CF : str := [73;68;69;79;71;82;65;80;72;45;50;70;57;67;70].
Definition w_IDEOGRAPH_2F9D0 : str := [73;68;69;79;71;82;65;80;72;45;50;70;57;68;48].
Definition w_IDEOGRAPH_2F9D1 : str := [73;68;69;79;71;82;65;80;72;45;50;70;57;68;49].
Definition w_IDEOGRAPH_2F9D2 : str := [73;68;69;79;71;82;65;80;72;45;50;70;57;68;50].
Definition w_IDEOGRAPH_2F9D3 : str := [73;68;69;79;71;82;65;80;72;45;50;70;57;68;51].
Definition w_IDEOGRAPH_2F9D4 : str := [73;68;69;79;71;82;65;80;72;45;50;70;57;68;52].
Definition w_IDEOGRAPH_2F9D5 : str := [73;68;69;79;71;82;65;80;72;45;50;70;57;68;53].
Definition w_IDEOGRAPH_2F9D6 : str := [73;68;69;79;71;82;65;80;72;45;50;70;57;68;54].
Definition w_IDEOGRAPH_2F9D7 : str := [73;68;69;79;71;82;65;80;72;45;50;70;57;68;55].
Definition w_IDEOGRAPH_2F9D8 : str := [73;68;69;79;71;82;65;80;72;45;50;70;57;68;56].
Definition w_IDEOGRAPH_2F9D9 : str := [73;68;69;79;71;82;65;80;72;45;50;70;57;68;57].
Definition w_IDEOGRAPH_2F9DA : str := [73;68;69;79;71;82;65;80;72;45;50;70;57;68;65].
Definition w_IDEOGRAPH_2F9DB : str := [73;68;69;79;71;82;65;80;72;45;50;70;57;68;66].
Definition w_IDEOGRAPH_2F9DC : str := [73;68;69;79;71;82;65;80;72;45;50;70;57;68;67].
Definition w_IDEOGRAPH_2F9DD : str := [73;68;69;79;71;82;65;80;72;45;50;70;57;68;68].
Definition w_IDEOGRAPH_2F9DE : str := [73;68;69;79;71;82;65;80;72;45;50;70;57;68;69].
Definition w_IDEOGRAPH_2F9DF : str := [73;68;69;79;71;82;65;80;72;45;50;70;57;68;70].
Definition w_IDEOGRAPH_2F9E0 : str := [73;68;69;79;71;82;65;80;72;45;50;70;57;69;48].
Definition w_IDEOGRAPH_2F9E1 : str := [73;68;69;79;71;82;65;80;72;45;50;70;57;69;49].
Definition w_IDEOGRAPH_2F9E2 : str := [73;68;69;79;71;82;65;80;72;45;50;70;57;69;50].
Definition w_IDEOGRAPH_2F9E3 : str := [73;68;69;79;71;82;65;80;72;45;50;70;57;69;51].
Definition w_IDEOGRAPH_2F9E4 : str := [73;68;69;79;71;82;65;80;72;45;50;70;57;69;52].
Definition w_IDEOGRAPH_2F9E5 : str := [73;68;69;79;71;82;65;80;72;45;50;70;57;69;53].
Definition w_IDEOGRAPH_2F9E6 : str := [73;68;69;79;71;82;65;80;72;45;50;70;57;69;54].
Definition w_IDEOGRAPH_2F9E7 : str := [73;68;69;79;71;82;65;80;72;45;50;70;57;69;55].
Definition w_IDEOGRAPH_2F9E8 : str := [73;68;69;79;71;82;65;80;72;45;50;70;57;69;56].
Definition w_IDEOGRAPH_2F9E9 : str := [73;68;69;79;71;82;65;80;72;45;50;70;57;69;57].
Definition w_IDEOGRAPH_2F9EA : str := [73;68;69;79;71;82;65;80;72;45;50;70;57;69;65].
Definition w_IDEOGRAPH_2F9EB : str := [73;68;69;79;71;82;65;80;72;45;50;70;57;69;66].
Definition w_IDEOGRAPH_2F9EC : str := [73;68;69;79;71;82;65;80;72;45;50;70;57;69;67].
Definition w_IDEOGRAPH_2F9ED : str := [73;68;69;79;71;82;65;80;72;45;50;70;57;69;68].
Definition w_IDEOGRAPH_2F9EE : str := [73;68;69;79;71;82;65;80;72;45;50;70;57;69;69].
Definition w_IDEOGRAPH_2F9EF : str := [73;68;69;79;71;82;65;80;72;45;50;70;57;69;70].
Definition w_IDEOGRAPH_2F9F0 : str := [73;68;69;79;71;82;65;80;72;45;50;70;57;70;48].
Definition w_IDEOGRAPH_2F9F1 : str := [73;68;69;79;71;82;65;80;72;45;50;70;57;70;49].
Definition w_IDEOGRAPH_2F9F2 : str := [73;68;69;79;71;82;65;80;72;45;50;70;57;70;50].
Definition w_IDEOGRAPH_2F9F3 : str := [73;68;69;79;71;82;65;80;72;45;50;70;57;70;51].
Definition w_IDEOGRAPH_2F9F4 : str := [73;68;69;79;71;82;65;80;72;45;50;70;57;70;52].
Definition w_IDEOGRAPH_2F9F5 : str := [73;68;69;79;71;82;65;80;72;45;50;70;57;70;53].
Definition w_IDEOGRAPH_2F9F6 : str := [73;68;69;79;71;82;65;80;72;45;50;70;57;70;54].
Definition w_IDEOGRAPH_2F9F7 : str := [73;68;69;79;71;82;65;80;72;45;50;70;57;70;55].
Definition w_IDEOGRAPH_2F9F8 : str := [73;68;69;79;71;82;65;80;72;45;50;70;57;70;56].
Definition w_IDEOGRAPH_2F9F9 : str := [73;68;69;79;71;82;65;80;72;45;50;70;57;70;57].
Definition w_IDEOGRAPH_2F9FA : str := [73;68;69;79;71;82;65;80;72;45;50;70;57;70;65].
Definition w_IDEOGRAPH_2F9FB : str := [73;68;69;79;71;82;65;80;72;45;50;70;57;70;66].
Definition w_IDEOGRAPH_2F9FC : str := [73;68;69;79;71;82;65;80;72;45;50;70;57;70;67].
Definition w_IDEOGRAPH_2F9FD : str := [73;68;69;79;71;82;65;80;72;45;50;70;57;70;68].
Definition w_IDEOGRAPH_2F9FE : str := [73;68;69;79;71;82;65;80;72;45;50;70;57;70;69].
Definition w_IDEOGRAPH_2F9FF : str := [73;68;69;79;71;82;65;80;72;45;50;70;57;70;70].
Definition w_IDEOGRAPH_2FA00 : str := [73;68;69;79;71;82;65;80;72;45;50;70;65;48;48].
Definition w_IDEOGRAPH_2FA01 : str := [73;68;69;79;71;82;65;80;72;45;50;70;65;48;49].
Definition w_IDEOGRAPH_2FA02 : str := [73;68;69;79;71;82;65;80;72;45;50;70;65;48;50].
Definition w_IDEOGRAPH_2FA03 : str := [73;68;69;79;71;82;65;80;72;45;50;70;65;48;51].
Definition w_IDEOGRAPH_2FA04 : str := [73;68;69;79;71;82;65;80;72;45;50;70;65;48;52].
Definition w_IDEOGRAPH_2FA05 : str := [73;68;69;79;71;82;65;80;72;45;50;70;65;48;53].
Definition w_IDEOGRAPH_2FA06 : str := [73;68;69;79;71;82;65;80;72;45;50;70;65;48;54].
Definition w_IDEOGRAPH_2FA07 : str := [73;68;69;79;71;82;65;80;72;45;50;70;65;48;55].
Definition w_IDEOGRAPH_2FA08 : str := [73;68;69;79;71;82;65;80;72;45;50;70;65;48;56].
Definition w_IDEOGRAPH_2FA09 : str := [73;68;69;79;71;82;65;80;72;45;50;70;65;48;57].
Definition w_IDEOGRAPH_2FA0A : str := [73;68;69;79;71;82;65;80;72;45;50;70;65;48;65].
Definition w_IDEOGRAPH_2FA0B : str := [73;68;69;79;71;82;65;80;72;45;50;70;65;48;66].
Definition w_IDEOGRAPH_2FA0C : str := [73;68;69;79;71;82;65;80;72;45;50;70;65;48;67].
Definition w_IDEOGRAPH_2FA0D : str := [73;68;69;79;71;82;65;80;72;45;50;70;65;48;68].
Definition w_IDEOGRAPH_2FA0E : str := [73;68;69;79;71;82;65;80;72;45;50;70;65;48;69].
Definition w_IDEOGRAPH_2FA0F : str := [73;68;69;79;71;82;65;80;72;45;50;70;65;48;70].
Definition w_IDEOGRAPH_2FA10 : str := [73;68;69;79;71;82;65;80;72;45;50;70;65;49;48].
Definition w_IDEOGRAPH_2FA11 : str := [73;68;69;79;71;82;65;80;72;45;50;70;65;49;49].
Definition w_IDEOGRAPH_2FA12 : str := [73;68;69;79;71;82;65;80;72;45;50;70;65;49;50].
Definition w_IDEOGRAPH_2FA13 : str := [73;68;69;79;71;82;65;80;72;45;50;70;65;49;51].
Definition w_IDEOGRAPH_2FA14 : str := [73;68;69;79;71;82;65;80;72;45;50;70;65;49;52].
Definition w_IDEOGRAPH_2FA15 : str := [73;68;69;79;71;82;65;80;72;45;50;70;65;49;53].
Definition w_IDEOGRAPH_2FA16 : str := [73;68;69;79;71;82;65;80;72;45;50;70;65;49;54].
Definition w_IDEOGRAPH_2FA17 : str := [73;68;69;79;71;82;65;80;72;45;50;70;65;49;55].
Definition w_IDEOGRAPH_2FA18 : str := [73;68;69;79;71;82;65;80;72;45;50;70;65;49;56].
Definition w_IDEOGRAPH_2FA19 : str := [73;68;69;79;71;82;65;80;72;45;50;70;65;49;57].
Definition w_IDEOGRAPH_2FA1A : str := [73;68;69;79;71;82;65;80;72;45;50;70;65;49;65].
Definition w_IDEOGRAPH_2FA1B : str := [73;68;69;79;71;82;65;80;72;45;50;70;65;49;66].
Definition w_IDEOGRAPH_2FA1C : str := [73;68;69;79;71;82;65;80;72;45;50;70;65;49;67].
Definition w_IDEOGRAPH_2FA1D : str := [73;68;69;79;71;82;65;80;72;45;50;70;65;49;68].
Definition w_IDEOGRAPH_4E00 : str := [73;68;69;79;71;82;65;80;72;45;52;69;48;48].
Definition w_IDEOGRAPH_4E09 : str := [73;68;69;79;71;82;65;80;72;45;52;69;48;57].
Definition w_IDEOGRAPH_4E2D : str := [73;68;69;79;71;82;65;80;72;45;52;69;50;68].
Definition w_IDEOGRAPH_4E8C : str := [73;68;69;79;71;82;65;80;72;45;52;69;56;67].
Definition w_IDEOGRAPH_4EA4 : str := [73;68;69;79;71;82;65;80;72;45;52;69;65;52].
Definition w_IDEOGRAPH_518D : str := [73;68;69;79;71;82;65;80;72;45;53;49;56;68].
Definition w_IDEOGRAPH_521D : str := [73;68;69;79;71;82;65;80;72;45;53;50;49;68].
Definition w_IDEOGRAPH_524D : str := [73;68;69;79;71;82;65;80;72;45;53;50;52;68].
Definition w_IDEOGRAPH_5272 : str := [73;68;69;79;71;82;65;80;72;45;53;50;55;50].
Definition w_IDEOGRAPH_52DD : str := [73;68;69;79;71;82;65;80;72;45;53;50;68;68].
Definition w_IDEOGRAPH_53CC : str := [73;68;69;79;71;82;65;80;72;45;53;51;67;67].
Definition w_IDEOGRAPH_53F3 : str := [73;68;69;79;71;82;65;80;72;45;53;51;70;51].
Definition w_IDEOGRAPH_5408 : str := [73;68;69;79;71;82;65;80;72;45;53;52;48;56].
Definition w_IDEOGRAPH_5439 : str := [73;68;69;79;71;82;65;80;72;45;53;52;51;57].
Definition w_IDEOGRAPH_55B6 : str := [73;68;69;79;71;82;65;80;72;45;53;53;66;54].
Definition w_IDEOGRAPH_58F0 : str := [73;68;69;79;71;82;65;80;72;45;53;56;70;48].
Definition w_IDEOGRAPH_591A : str := [73;68;69;79;71;82;65;80;72;45;53;57;49;65].
Definition w_IDEOGRAPH_5929 : str := [73;68;69;79;71;82;65;80;72;45;53;57;50;57].
Definition w_IDEOGRAPH_5B57 : str := [73;68;69;79;71;82;65;80;72;45;53;66;53;55].
Definition w_IDEOGRAPH_5B89 : str := [73;68;69;79;71;82;65;80;72;45;53;66;56;57].
Definition w_IDEOGRAPH_5DE6 : str := [73;68;69;79;71;82;65;80;72;45;53;68;69;54].
Definition w_IDEOGRAPH_5F8C : str := [73;68;69;79;71;82;65;80;72;45;53;70;56;67].
Definition w_IDEOGRAPH_624B : str := [73;68;69;79;71;82;65;80;72;45;54;50;52;66].
Definition w_IDEOGRAPH_6253 : str := [73;68;69;79;71;82;65;80;72;45;54;50;53;51].
Definition w_IDEOGRAPH_6295 : str := [73;68;69;79;71;82;65;80;72;45;54;50;57;53].
Definition w_IDEOGRAPH_6307 : str := [73;68;69;79;71;82;65;80;72;45;54;51;48;55].
Definition w_IDEOGRAPH_6355 : str := [73;68;69;79;71;82;65;80;72;45;54;51;53;53].
Definition w_IDEOGRAPH_6557 : str := [73;68;69;79;71;82;65;80;72;45;54;53;53;55].
Definition w_IDEOGRAPH_6599 : str := [73;68;69;79;71;82;65;80;72;45;54;53;57;57].
Definition w_IDEOGRAPH_65B0 : str := [73;68;69;79;71;82;65;80;72;45;54;53;66;48].
Definition w_IDEOGRAPH_6620 : str := [73;68;69;79;71;82;65;80;72;45;54;54;50;48].
Definition w_IDEOGRAPH_6708 : str := [73;68;69;79;71;82;65;80;72;45;54;55;48;56].
Definition w_IDEOGRAPH_6709 : str := [73;68;69;79;71;82;65;80;72;45;54;55;48;57].
Definition w_IDEOGRAPH_672C : str := [73;68;69;79;71;82;65;80;72;45;54;55;50;67].
Definition w_IDEOGRAPH_6E80 : str := [73;68;69;79;71;82;65;80;72;45;54;69;56;48].
Definition w_IDEOGRAPH_6F14 : str := [73;68;69;79;71;82;65;80;72;45;54;70;49;52].
Definition w_IDEOGRAPH_70B9 : str := [73;68;69;79;71;82;65;80;72;45;55;48;66;57].
Definition w_IDEOGRAPH_7121 : str := [73;68;69;79;71;82;65;80;72;45;55;49;50;49].
Definition w_IDEOGRAPH_751F : str := [73;68;69;79;71;82;65;80;72;45;55;53;49;70].
Definition w_IDEOGRAPH_7533 : str := [73;68;69;79;71;82;65;80;72;45;55;53;51;51].
Definition w_IDEOGRAPH_76D7 : str := [73;68;69;79;71;82;65;80;72;45;55;54;68;55].
Definition w_IDEOGRAPH_7981 : str := [73;68;69;79;71;82;65;80;72;45;55;57;56;49].
Definition w_IDEOGRAPH_7A7A : str := [73;68;69;79;71;82;65;80;72;45;55;65;55;65].
Definition w_IDEOGRAPH_7D42 : str := [73;68;69;79;71;82;65;80;72;45;55;68;52;50].
Definition w_IDEOGRAPH_89E3 : str := [73;68;69;79;71;82;65;80;72;45;56;57;69;51].
Definition w_IDEOGRAPH_8CA9 : str := [73;68;69;79;71;82;65;80;72;45;56;67;65;57].
Definition w_IDEOGRAPH_8D70 : str := [73;68;69;79;71;82;65;80;72;45;56;68;55;48].
Definition w_IDEOGRAPH_904A : str := [73;68;69;79;71;82;65;80;72;45;57;48;52;65].
Definition w_IDEOGRAPH_914D : str := [73;68;69;79;71;82;65;80;72;45;57;49;52;68].
Definition w_IDEOGRAPH_F900 : str := [73;68;69;79;71;82;65;80;72;45;70;57;48;48].
Definition w_IDEOGRAPH_F901 : str := [73;68;69;79;71;82;65;80;72;45;70;57;48;49].
Definition w_IDEOGRAPH_F902 : str := [73;68;69;79;71;82;65;80;72;45;70;57;48;50].
Definition w_IDEOGRAPH_F903 : str := [73;68;69;79;71;82;65;80;72;45;70;57;48;51].
Definition w_IDEOGRAPH_F904 : str := [73;68;69;79;71;82;65;80;72;45;70;57;48;52].
Definition w_IDEOGRAPH_F905 : str := [73;68;69;79;71;82;65;80;72;45;70;57;48;53].
Definition w_IDEOGRAPH_F906 : str := [73;68;69;79;71;82;65;80;72;45;70;57;48;54].
Definition w_IDEOGRAPH_F907 : str := [73;68;69;79;71;82;65;80;72;45;70;57;48;55].
Definition w_IDEOGRAPH_F908 : str := [73;68;69;79;71;82;65;80;72;45;70;57;48;56].
Definition w_IDEOGRAPH_F909 : str := [73;68;69;79;71;82;65;80;72;45;70;57;48;57].
Definition w_IDEOGRAPH_F90A : str := [73;68;69;79;71;82;65;80;72;45;70;57;48;65].
Definition w_IDEOGRAPH_F90B : str := [73;68;69;79;71;82;65;80;72;45;70;57;48;66].
Definition w_IDEOGRAPH_F90C : str := [73;68;69;79;71;82;65;80;72;45;70;57;48;67].
Definition w_IDEOGRAPH_F90D : str := [73;68;69;79;71;82;65;80;72;45;70;57;48;68].
Definition w_IDEOGRAPH_F90E : str := [73;68;69;79;71;82;65;80;72;45;70;57;48;69].
Definition w_IDEOGRAPH_F90F : str := [73;68;69;79;71;82;65;80;72;45;70;57;48;70].
Definition w_IDEOGRAPH_F910 : str := [73;68;69;79;71;82;65;80;72;45;70;57;49;48].
Definition w_IDEOGRAPH_F911 : str := [73;68;69;79;71;82;65;80;72;45;70;57;49;49].
Definition w_IDEOGRAPH_F912 : str := [73;68;69;79;71;82;65;80;72;45;70;57;49;50].
Definition w_IDEOGRAPH_F913 : str := [73;68;69;79;71;82;65;80;72;45;70;57;49;51].
Definition w_IDEOGRAPH_F914 : str := [73;68;69;79;71;82;65;80;72;45;70;57;49;52].
Definition w_IDEOGRAPH_F915 : str := [73;68;69;79;71;82;65;80;72;45;70;57;49;53].
Definition w_IDEOGRAPH_F916 : str := [73;68;69;79;71;82;65;80;72;45;70;57;49;54].
Definition w_IDEOGRAPH_F917 : str := [73;68;69;79;71;82;65;80;72;45;70;57;49;55].
Definition w_IDEOGRAPH_F918 : str := [73;68;69;79;71;82;65;80;72;45;70;57;49;56].
Definition w_IDEOGRAPH_F919 : str := [73;68;69;79;71;82;65;80;72;45;70;57;49;57].
Definition w_IDEOGRAPH_F91A : str := [73;68;69;79;71;82;65;80;72;45;70;57;49;65].
Definition w_IDEOGRAPH_F91B : str := [73;68;69;79;71;82;65;80;72;45;70;57;49;66].
Definition w_IDEOGRAPH_F91C : str := [73;68;69;79;71;82;65;80;72;45;70;57;49;67].
Definition w_IDEOGRAPH_F91D : str := [73;68;69;79;71;82;65;80;72;45;70;57;49;68].
Definition w_IDEOGRAPH_F91E : str := [73;68;69;79;71;82;65;80;72;45;70;57;49;69].
Definition w_IDEOGRAPH_F91F : str := [73;68;69;79;71;82;65;80;72;45;70;57;49;70].
Definition w_IDEOGRAPH_F920 : str := [73;68;69;79;71;82;65;80;72;45;70;57;50;48].
Definition w_IDEOGRAPH_F921 : str := [73;68;69;79;71;82;65;80;72;45;70;57;50;49].
Definition w_IDEOGRAPH_F922 : str := [73;68;69;79;71;82;65;80;72;45;70;57;50;50].
Definition w_IDEOGRAPH_F923 : str := [73;68;69;79;71;82;65;80;72;45;70;57;50;51].
Definition w_IDEOGRAPH_F924 : str := [73;68;69;79;71;82;65;80;72;45;70;57;50;52].
Definition w_IDEOGRAPH_F925 : str := [73;68;69;79;71;82;65;80;72;45;70;57;50;53].
Definition w_IDEOGRAPH_F926 : str := [73;68;69;79;71;82;65;80;72;45;70;57;50;54].
Definition w_IDEOGRAPH_F927 : str := [73;68;69;79;71;82;65;80;72;45;70;57;50;55].
Definition w_IDEOGRAPH_F928 : str := [73;68;69;79;71;82;65;80;72;45;70;57;50;56].
Definition w_IDEOGRAPH_F929 : str := [73;68;69;79;71;82;65;80;72;45;70;57;50;57].
Definition w_IDEOGRAPH_F92A : str := [73;68;69;79;71;82;65;80;72;45;70;57;50;65].
Definition w_IDEOGRAPH_F92B : str := [73;68;69;79;71;82;65;80;72;45;70;57;50;66].
Definition w_IDEOGRAPH_F92C : str := [73;68;69;79;71;82;65;80;72;45;70;57;50;67].
Definition w_IDEOGRAPH_F92D : str := [73;68;69;79;71;82;65;80;72;45;70;57;50;68].
Definition w_IDEOGRAPH_F92E : str := [73;68;69;79;71;82;65;80;72;45;70;57;50;69].
Definition w_IDEOGRAPH_F92F : str := [73;68;69;79;71;82;65;80;72;45;70;57;50;70].
Definition w_IDEOGRAPH_F930 : str := [73;68;69;79;71;82;65;80;72;45;70;57;51;48].
Definition w_IDEOGRAPH_F931 : str := [73;68;69;79;71;82;65;80;72;45;70;57;51;49].
Definition w_IDEOGRAPH_F932 : str := [73;68;69;79;71;82;65;80;72;45;70;57;51;50].
Definition w_IDEOGRAPH_F933 : str := [73;68;69;79;71;82;65;80;72;45;70;57;51;51].
Definition w_IDEOGRAPH_F934 : str := [73;68;69;79;71;82;65;80;72;45;70;57;51;52].
Definition w_IDEOGRAPH_F935 : str := [73;68;69;79;71;82;65;80;72;45;70;57;51;53].
Definition w_IDEOGRAPH_F936 : str := [73;68;69;79;71;82;65;80;72;45;70;57;51;54].
Definition w_IDEOGRAPH_F937 : str := [73;68;69;79;71;82;65;80;72;45;70;57;51;55].
Definition w_IDEOGRAPH_F938 : str := [73;68;69;79;71;82;65;80;72;45;70;57;51;56].
Definition w_IDEOGRAPH_F939 : str := [73;68;69;79;71;82;65;80;72;45;70;57;51;57].
Definition w_IDEOGRAPH_F93A : str := [73;68;69;79;71;82;65;80;72;45;70;57;51;65].
Definition w_IDEOGRAPH_F93B : str := [73;68;69;79;71;82;65;80;72;45;70;57;51;66].
Definition w_IDEOGRAPH_F93C : str := [73;68;69;79;71;82;65;80;72;45;70;57;51;67].
Definition w_IDEOGRAPH_F93D : str := [73;68;69;79;71;82;65;80;72;45;70;57;51;68].
Definition w_IDEOGRAPH_F93E : str := [73;68;69;79;71;82;65;80;72;45;70;57;51;69].
Definition w_IDEOGRAPH_F93F : str := [73;68;69;79;71;82;65;80;72;45;70;57;51;70].
Definition w_IDEOGRAPH_F940 : str := [73;68;69;79;71;82;65;80;72;45;70;57;52;48].
Definition w_IDEOGRAPH_F941 : str := [73;68;69;79;71;82;65;80;72;45;70;57;52;49].
Definition w_IDEOGRAPH_F942 : str := [73;68;69;79;71;82;65;80;72;45;70;57;52;50].
Definition w_IDEOGRAPH_F943 : str := [73;68;69;79;71;82;65;80;72;45;70;57;52;51].
Definition w_IDEOGRAPH_F944 : str := [73;68;69;79;71;82;65;80;72;45;70;57;52;52].
Definition w_IDEOGRAPH_F945 : str := [73;68;69;79;71;82;65;80;72;45;70;57;52;53].
Definition w_IDEOGRAPH_F946 : str := [73;68;69;79;71;82;65;80;72;45;70;57;52;54].
Definition w_IDEOGRAPH_F947 : str := [73;68;69;79;71;82;65;80;72;45;70;57;52;55].
Definition w_IDEOGRAPH_F948 : str := [73;68;69;79;71;82;65;80;72;45;70;57;52;56].
Definition w_IDEOGRAPH_F949 : str := [73;68;69;79;71;82;65;80;72;45;70;57;52;57].
Definition w_IDEOGRAPH_F94A : str := [73;68;69;79;71;82;65;80;72;45;70;57;52;65].
Definition w_IDEOGRAPH_F94B : str := [73;68;69;79;71;82;65;80;72;45;70;57;52;66].
Definition w_IDEOGRAPH_F94C : str := [73;68;69;79;71;82;65;80;72;45;70;57;52;67].
Definition w_IDEOGRAPH_F94D : str := [73;68;69;79;71;82;65;80;72;45;70;57;52;68].
Definition w_IDEOGRAPH_F94E : str := [73;68;69;79;71;82;65;80;72;45;70;57;52;69].
Definition w_IDEOGRAPH_F94F : str := [73;68;69;79;71;82;65;80;72;45;70;57;52;70].
Definition w_IDEOGRAPH_F950 : str := [73;68;69;79;71;82;65;80;72;45;70;57;53;48].
Definition w_IDEOGRAPH_F951 : str := [73;68;69;79;71;82;65;80;72;45;70;57;53;49].
Definition w_IDEOGRAPH_F952 : str := [73;68;69;79;71;82;65;80;72;45;70;57;53;50].
Definition w_IDEOGRAPH_F953 : str := [73;68;69;79;71;82;65;80;72;45;70;57;53;51].
Definition w_IDEOGRAPH_F954 : str := [73;68;69;79;71;82;65;80;72;45;70;57;53;52].
Definition w_IDEOGRAPH_F955 : str := [73;68;69;79;71;82;65;80;72;45;70;57;53;53].
Definition w_IDEOGRAPH_F956 : str := [73;68;69;79;71;82;65;80;72;45;70;57;53;54].
Definition w_IDEOGRAPH_F957 : str := [73;68;69;79;71;82;65;80;72;45;70;57;53;55].
Definition w_IDEOGRAPH_F958 : str := [73;68;69;79;71;82;65;80;72;45;70;57;53;56].
Definition w_IDEOGRAPH_F959 : str := [73;68;69;79;71;82;65;80;72;45;70;57;53;57].
Definition w_IDEOGRAPH_F95A : str := [73;68;69;79;71;82;65;80;72;45;70;57;53;65].
Definition w_IDEOGRAPH_F95B : str := [73;68;69;79;71;82;65;80;72;45;70;57;53;66].
Definition w_IDEOGRAPH_F95C : str := [73;68;69;79;71;82;65;80;72;45;70;57;53;67].
Definition w_IDEOGRAPH_F95D : str := [73;68;69;79;71;82;65;80;72;45;70;57;53;68].
Definition w_IDEOGRAPH_F95E : str := [73;68;69;79;71;82;65;80;72;45;70;57;53;69].
Definition w_IDEOGRAPH_F95F : str := [73;68;69;79;71;82;65;80;72;45;70;57;53;70].
Definition w_IDEOGRAPH_F960 : str := [73;68;69;79;71;82;65;80;72;45;70;57;54;48].
Definition w_IDEOGRAPH_F961 : str := [73;68;69;79;71;82;65;80;72;45;70;57;54;49].
Definition w_IDEOGRAPH_F962 : str := [73;68;69;79;71;82;65;80;72;45;70;57;54;50].
Definition w_IDEOGRAPH_F963 : str := [73;68;69;79;71;82;65;80;72;45;70;57;54;51].
Definition w_IDEOGRAPH_F964 : str := [73;68;69;79;71;82;65;80;72;45;70;57;54;52].
Definition w_IDEOGRAPH_F965 : str := [73;68;69;79;71;82;65;80;72;45;70;57;54;53].
Definition w_IDEOGRAPH_F966 : str := [73;68;69;79;71;82;65;80;72;45;70;57;54;54].
Definition w_IDEOGRAPH_F967 : str := [73;68;69;79;71;82;65;80;72;45;70;57;54;55].
Definition w_IDEOGRAPH_F968 : str := [73;68;69;79;71;82;65;80;72;45;70;57;54;56].
Definition w_IDEOGRAPH_F969 : str := [73;68;69;79;71;82;65;80;72;45;70;57;54;57].
Definition w_IDEOGRAPH_F96A : str := [73;68;69;79;71;82;65;80;72;45;70;57;54;65].
Definition w_IDEOGRAPH_F96B : str := [73;68;69;79;71;82;65;80;72;45;70;57;54;66].
Definition w_IDEOGRAPH_F96C : str := [73;68;69;79;71;82;65;80;72;45;70;57;54;67].
Definition w_IDEOGRAPH_F96D : str := [73;68;69;79;71;82;65;80;72;45;70;57;54;68].
Definition w_IDEOGRAPH_F96E : str := [73;68;69;79;71;82;65;80;72;45;70;57;54;69].
Definition w_IDEOGRAPH_F96F : str := [73;68;69;79;71;82;65;80;72;45;70;57;54;70].
Definition w_IDEOGRAPH_F970 : str := [73;68;69;79;71;82;65;80;72;45;70;57;55;48].
Definition w_IDEOGRAPH_F971 : str := [73;68;69;79;71;82;65;80;72;45;70;57;55;49].
Definition w_IDEOGRAPH_F972 : str := [73;68;69;79;71;82;65;80;72;45;70;57;55;50].
Definition w_IDEOGRAPH_F973 : str := [73;68;69;79;71;82;65;80;72;45;70;57;55;51].
Definition w_IDEOGRAPH_F974 : str := [73;68;69;79;71;82;65;80;72;45;70;57;55;52].
Definition w_IDEOGRAPH_F975 : str := [73;68;69;79;71;82;65;80;72;45;70;57;55;53].
Definition w_IDEOGRAPH_F976 : str := [73;68;69;79;71;82;65;80;72;45;70;57;55;54].
Definition w_IDEOGRAPH_F977 : str := [73;68;69;79;71;82;65;80;72;45;70;57;55;55].
Definition w_IDEOGRAPH_F978 : str := [73;68;69;79;71;82;65;80;72;45;70;57;55;56].
Definition w_IDEOGRAPH_F979 : str := [73;68;69;79;71;82;65;80;72;45;70;57;55;57].
Definition w_IDEOGRAPH_F97A : str := [73;68;69;79;71;82;65;80;72;45;70;57;55;65].
Definition w_IDEOGRAPH_F97B : str := [73;68;69;79;71;82;65;80;72;45;70;57;55;66].
Definition w_IDEOGRAPH_F97C : str := [73;68;69;79;71;82;65;80;72;45;70;57;55;67].
Definition w_IDEOGRAPH_F97D : str := [73;68;69;79;71;82;65;80;72;45;70;57;55;68].
Definition w_IDEOGRAPH_F97E : str := [73;68;69;79;71;82;65;80;72;45;70;57;55;69].
Definition w_IDEOGRAPH_F97F : str := [73;68;69;79;71;82;65;80;72;45;70;57;55;70].
Definition w_IDEOGRAPH_F980 : str := [73;68;69;79;71;82;65;80;72;45;70;57;56;48].
Definition w_IDEOGRAPH_F981 : str := [73;68;69;79;71;82;65;80;72;45;70;57;56;49].
Definition w_IDEOGRAPH_F982 : str := [73;68;69;79;71;82;65;80;72;45;70;57;56;50].
Definition w_IDEOGRAPH_F983 : str := [73;68;69;79;71;82;65;80;72;45;70;57;56;51].
Definition w_IDEOGRAPH_F984 : str := [73;68;69;79;71;82;65;80;72;45;70;57;56;52].
Definition w_IDEOGRAPH_F985 : str := [73;68;69;79;71;82;65;80;72;45;70;57;56;53].
Definition w_IDEOGRAPH_F986 : str := [73;68;69;79;71;82;65;80;72;45;70;57;56;54].
Definition w_IDEOGRAPH_F987 : str := [73;68;69;79;71;82;65;80;72;45;70;57;56;55].
Definition w_IDEOGRAPH_F988 : str := [73;68;69;79;71;82;65;80;72;45;70;57;56;56].
Definition w_IDEOGRAPH_F989 : str := [73;68;69;79;71;82;65;80;72;45;70;57;56;57].
Definition w_IDEOGRAPH_F98A : str := [73;68;69;79;71;82;65;80;72;45;70;57;56;65].
Definition w_IDEOGRAPH_F98B : str := [73;68;69;79;71;82;65;80;72;45;70;57;56;66].
Definition w_IDEOGRAPH_F98C : str := [73;68;69;79;71;82;65;80;72;45;70;57;56;67].
Definition w_IDEOGRAPH_F98D : str := [73;68;69;79;71;82;65;80;72;45;70;57;56;68].
Definition w_IDEOGRAPH_F98E : str := [73;68;69;79;71;82;65;80;72;45;70;57;56;69].
Definition w_IDEOGRAPH_F98F : str := [73;68;69;79;71;82;65;80;72;45;70;57;56;70].
Definition w_IDEOGRAPH_F990 : str := [73;68;69;79;71;82;65;80;72;45;70;57;57;48].
Definition w_IDEOGRAPH_F991 : str := [73;68;69;79;71;82;65;80;72;45;70;57;57;49].
Definition w_IDEOGRAPH_F992 : str := [73;68;69;79;71;82;65;80;72;45;70;57;57;50].
Definition w_IDEOGRAPH_F993 : str := [73;68;69;79;71;82;65;80;72;45;70;57;57;51].
Definition w_IDEOGRAPH_F994 : str := [73;68;69;79;71;82;65;80;72;45;70;57;57;52].
Definition w_IDEOGRAPH_F995 : str := [73;68;69;79;71;82;65;80;72;45;70;57;57;53].
Definition w_IDEOGRAPH_F996 : str := [73;68;69;79;71;82;65;80;72;45;70;57;57;54].
Definition w_IDEOGRAPH_F997 : str := [73;68;69;79;71;82;65;80;72;45;70;57;57;55].
Definition w_IDEOGRAPH_F998 : str := [73;68;69;79;71;82;65;80;72;45;70;57;57;56].
Definition w_IDEOGRAPH_F999 : str := [73;68;69;79;71;82;65;80;72;45;70;57;57;57].
Definition w_IDEOGRAPH_F99A : str := [73;68;69;79;71;82;65;80;72;45;70;57;57;65].
Definition w_IDEOGRAPH_F99B : str := [73;68;69;79;71;82;65;80;72;45;70;57;57;66].
Definition w_IDEOGRAPH_F99C : str := [73;68;69;79;71;82;65;80;72;45;70;57;57;67].
Definition w_IDEOGRAPH_F99D : str := [73;68;69;79;71;82;65;80;72;45;70;57;57;68].
Definition w_IDEOGRAPH_F99E : str := [73;68;69;79;71;82;65;80;72;45;70;57;57;69].
Definition w_IDEOGRAPH_F99F : str := [73;68;69;79;71;82;65;80;72;45;70;57;57;70].
Definition w_IDEOGRAPH_F9A0 : str := [73;68;69;79;71;82;65;80;72;45;70;57;65;48].
Definition w_IDEOGRAPH_F9A1 : str := [73;68;69;79;71;82;65;80;72;45;70;57;65;49].
Definition w_IDEOGRAPH_F9A2 : str := [73;68;69;79;71;82;65;80;72;45;70;57;65;50].
Definition w_IDEOGRAPH_F9A3 : str := [73;68;69;79;71;82;65;80;72;45;70;57;65;51].
Definition w_IDEOGRAPH_F9A4 : str := [73;68;69;79;71;82;65;80;72;45;70;57;65;52].
Definition w_IDEOGRAPH_F9A5 : str := [73;68;69;79;71;82;65;80;72;45;70;57;65;53].
Definition w_IDEOGRAPH_F9A6 : str := [73;68;69;79;71;82;65;80;72;45;70;57;65;54].
Definition w_IDEOGRAPH_F9A7 : str := [73;68;69;79;71;82;65;80;72;45;70;57;65;55].
Definition w_IDEOGRAPH_F9A8 : str := [73;68;69;79;71;82;65;80;72;45;70;57;65;56].
Definition w_IDEOGRAPH_F9A9 : str := [73;68;69;79;71;82;65;80;72;45;70;57;65;57].
Definition w_IDEOGRAPH_F9AA : str := [73;68;69;79;71;82;65;80;72;45;70;57;65;65].
Definition w_IDEOGRAPH_F9AB : str := [73;68;69;79;71;82;65;80;72;45;70;57;65;66].
Definition w_IDEOGRAPH_F9AC : str := [73;68;69;79;71;82;65;80;72;45;70;57;65;67].
Definition w_IDEOGRAPH_F9AD : str := [73;68;69;79;71;82;65;80;72;45;70;57;65;68].
Definition w_IDEOGRAPH_F9AE : str := [73;68;69;79;71;82;65;80;72;45;70;57;65;69].
Definition w_IDEOGRAPH_F9AF : str := [73;68;69;79;71;82;65;80;72;45;70;57;65;70].
Definition w_IDEOGRAPH_F9B0 : str := [73;68;69;79;71;82;65;80;72;45;70;57;66;48].
Definition w_IDEOGRAPH_F9B1 : str := [73;68;69;79;71;82;65;80;72;45;70;57;66;49].
Definition w_IDEOGRAPH_F9B2 : str := [73;68;69;79;71;82;65;80;72;45;70;57;66;50].
Definition w_IDEOGRAPH_F9B3 : str := [73;68;69;79;71;82;65;80;72;45;70;57;66;51].
Definition w_IDEOGRAPH_F9B4 : str := [73;68;69;79;71;82;65;80;72;45;70;57;66;52].
Definition w_IDEOGRAPH_F9B5 : str := [73;68;69;79;71;82;65;80;72;45;70;57;66;53].
Definition w_IDEOGRAPH_F9B6 : str := [73;68;69;79;71;82;65;80;72;45;70;57;66;54].
Definition w_IDEOGRAPH_F9B7 : str := [73;68;69;79;71;82;65;80;72;45;70;57;66;55].
Definition w_IDEOGRAPH_F9B8 : str := [73;68;69;79;71;82;65;80;72;45;70;57;66;56].
Definition w_IDEOGRAPH_F9B9 : str := [73;68;69;79;71;82;65;80;72;45;70;57;66;57].
Definition w_IDEOGRAPH_F9BA : str := [73;68;69;79;71;82;65;80;72;45;70;57;66;65].
Definition w_IDEOGRAPH_F9BB : str := [73;68;69;79;71;82;65;80;72;45;70;57;66;66].
Definition w_IDEOGRAPH_F9BC : str := [73;68;69;79;71;82;65;80;72;45;70;57;66;67].
Definition w_IDEOGRAPH_F9BD : str := [73;68;69;79;71;82;65;80;72;45;70;57;66;68].
Definition w_IDEOGRAPH_F9BE : str := [73;68;69;79;71;82;65;80;72;45;70;57;66;69].
Definition w_IDEOGRAPH_F9BF : str := [73;68;69;79;71;82;65;80;72;45;70;57;66;70].
Definition w_IDEOGRAPH_F9C0 : str := [73;68;69;79;71;82;65;80;72;45;70;57;67;48].
Definition w_IDEOGRAPH_F9C1 : str := [73;68;69;79;71;82;65;80;72;45;70;57;67;49].
Definition w_IDEOGRAPH_F9C2 : str := [73;68;69;79;71;82;65;80;72;45;70;57;67;50].
Definition w_IDEOGRAPH_F9C3 : str := [73;68;69;79;71;82;65;80;72;45;70;57;67;51].
Definition w_IDEOGRAPH_F9C4 : str := [73;68;69;79;71;82;65;80;72;45;70;57;67;52].
Definition w_IDEOGRAPH_F9C5 : str := [73;68;69;79;71;82;65;80;72;45;70;57;67;53].
Definition w_IDEOGRAPH_F9C6 : str := [73;68;69;79;71;82;65;80;72;45;70;57;67;54].
Definition w_IDEOGRAPH_F9C7 : str := [73;68;69;79;71;82;65;80;72;45;70;57;67;55].
Definition w_IDEOGRAPH_F9C8 : str := [73;68;69;79;71;82;65;80;72;45;70;57;67;56].
Definition w_IDEOGRAPH_F9C9 : str := [73;68;69;79;71;82;65;80;72;45;70;57;67;57].
Definition w_IDEOGRAPH_F9CA : str := [73;68;69;79;71;82;65;80;72;45;70;57;67;65].
Definition w_IDEOGRAPH_F9CB : str := [73;68;69;79;71;82;65;80;72;45;70;57;67;66].
Definition w_IDEOGRAPH_F9CC : str := [73;68;69;79;71;82;65;80;72;45;70;57;67;67].
Definition w_IDEOGRAPH_F9CD : str := [73;68;69;79;71;82;65;80;72;45;70;57;67;68].
Definition w_IDEOGRAPH_F9CE : str := [73;68;69;79;71;82;65;80;72;45;70;57;67;69].
Definition w_IDEOGRAPH_F9CF : str := [73;68;69;79;71;82;65;80;72;45;70;57;67;70].
Definition w_IDEOGRAPH_F9D0 : str := [73;68;69;79;71;82;65;80;72;45;70;57;68;48].
Definition w_IDEOGRAPH_F9D1 : str := [73;68;69;79;71;82;65;80;72;45;70;57;68;49].
Definition w_IDEOGRAPH_F9D2 : str := [73;68;69;79;71;82;65;80;72;45;70;57;68;50].
Definition w_IDEOGRAPH_F9D3 : str := [73;68;69;79;71;82;65;80;72;45;70;57;68;51].
Definition w_IDEOGRAPH_F9D4 : str := [73;68;69;79;71;82;65;80;72;45;70;57;68;52].
Definition w_IDEOGRAPH_F9D5 : str := [73;68;69;79;71;82;65;80;72;45;70;57;68;53].
Definition w_IDEOGRAPH_F9D6 : str := [73;68;69;79;71;82;65;80;72;45;70;57;68;54].
Definition w_IDEOGRAPH_F9D7 : str := [73;68;69;79;71;82;65;80;72;45;70;57;68;55].
Definition w_IDEOGRAPH_F9D8 : str := [73;68;69;79;71;82;65;80;72;45;70;57;68;56].
Definition w_IDEOGRAPH_F9D9 : str := [73;68;69;79;71;82;65;80;72;45;70;57;68;57].
Definition w_IDEOGRAPH_F9DA : str := [73;68;69;79;71;82;65;80;72;45;70;57;68;65].
Definition w_IDEOGRAPH_F9DB : str := [73;68;69;79;71;82;65;80;72;45;70;57;68;66].
Definition w_IDEOGRAPH_F9DC : str := [73;68;69;79;71;82;65;80;72;45;70;57;68;67].
Definition w_IDEOGRAPH_F9DD : str := [73;68;69;79;71;82;65;80;72;45;70;57;68;68].
Definition w_IDEOGRAPH_F9DE : str := [73;68;69;79;71;82;65;80;72;45;70;57;68;69].
Definition w_IDEOGRAPH_F9DF : str := [73;68;69;79;71;82;65;80;72;45;70;57;68;70].
Definition w_IDEOGRAPH_F9E0 : str := [73;68;69;79;71;82;65;80;72;45;70;57;69;48].
Definition w_IDEOGRAPH_F9E1 : str := [73;68;69;79;71;82;65;80;72;45;70;57;69;49].
Definition w_IDEOGRAPH_F9E2 : str := [73;68;69;79;71;82;65;80;72;45;70;57;69;50].
Definition w_IDEOGRAPH_F9E3 : str := [73;68;69;79;71;82;65;80;72;45;70;57;69;51].
Definition w_IDEOGRAPH_F9E4 : str := [73;68;69;79;71;82;65;80;72;45;70;57;69;52].
Definition w_IDEOGRAPH_F9E5 : str := [73;68;69;79;71;82;65;80;72;45;70;57;69;53].
Definition w_IDEOGRAPH_F9E6 : str := [73;68;69;79;71;82;65;80;72;45;70;57;69;54].
Definition w_IDEOGRAPH_F9E7 : str := [73;68;69;79;71;82;65;80;72;45;70;57;69;55].
Definition w_IDEOGRAPH_F9E8 : str := [73;68;69;79;71;82;65;80;72;45;70;57;69;56].
Definition w_IDEOGRAPH_F9E9 : str := [73;68;69;79;71;82;65;80;72;45;70;57;69;57].
Definition w_IDEOGRAPH_F9EA : str := [73;68;69;79;71;82;65;80;72;45;70;57;69;65].
Definition w_IDEOGRAPH_F9EB : str := [73;68;69;79;71;82;65;80;72;45;70;57;69;66].
Definition w_IDEOGRAPH_F9EC : str := [73;68;69;79;71;82;65;80;72;45;70;57;69;67].
Definition w_IDEOGRAPH_F9ED : str := [73;68;69;79;71;82;65;80;72;45;70;57;69;68].
Definition w_IDEOGRAPH_F9EE : str := [73;68;69;79;71;82;65;80;72;45;70;57;69;69].
Definition w_IDEOGRAPH_F9EF : str := [73;68;69;79;71;82;65;80;72;45;70;57;69;70].
Definition w_IDEOGRAPH_F9F0 : str := [73;68;69;79;71;82;65;80;72;45;70;57;70;48].
Definition w_IDEOGRAPH_F9F1 : str := [73;68;69;79;71;82;65;80;72;45;70;57;70;49].
Definition w_IDEOGRAPH_F9F2 : str := [73;68;69;79;71;82;65;80;72;45;70;57;70;50].
Definition w_IDEOGRAPH_F9F3 : str := [73;68;69;79;71;82;65;80;72;45;70;57;70;51].
Definition w_IDEOGRAPH_F9F4 : str := [73;68;69;79;71;82;65;80;72;45;70;57;70;52].
Definition w_IDEOGRAPH_F9F5 : str := [73;68;69;79;71;82;65;80;72;45;70;57;70;53].
Definition w_IDEOGRAPH_F9F6 : str := [73;68;69;79;71;82;65;80;72;45;70;57;70;54].
Definition w_IDEOGRAPH_F9F7 : str := [73;68;69;79;71;82;65;80;72;45;70;57;70;55].
Definition w_IDEOGRAPH_F9F8 : str := [73;68;69;79;71;82;65;80;72;45;70;57;70;56].
Definition w_IDEOGRAPH_F9F9 : str := [73;68;69;79;71;82;65;80;72;45;70;57;70;57].
Definition w_IDEOGRAPH_F9FA : str := [73;68;69;79;71;82;65;80;72;45;70;57;70;65].
Definition w_IDEOGRAPH_F9FB : str := [73;68;69;79;71;82;65;80;72;45;70;57;70;66].
Definition w_IDEOGRAPH_F9FC : str := [73;68;69;79;71;82;65;80;72;45;70;57;70;67].
Definition w_IDEOGRAPH_F9FD : str := [73;68;69;79;71;82;65;80;72;45;70;57;70;68].
Definition w_IDEOGRAPH_F9FE : str := [73;68;69;79;71;82;65;80;72;45;70;57;70;69].
Definition w_IDEOGRAPH_F9FF : str := [73;68;69;79;71;82;65;80;72;45;70;57;70;70].
Definition w_IDEOGRAPH_FA00 : str := [73;68;69;79;71;82;65;80;72;45;70;65;48;48].
Definition w_IDEOGRAPH_FA01 : str := [73;68;69;79;71;82;65;80;72;45;70;65;48;49].
Definition w_IDEOGRAPH_FA02 : str := [73;68;69;79;71;82;65;80;72;45;70;65;48;50].
Definition w_IDEOGRAPH_FA03 : str := [73;68;69;79;71;82;65;80;72;45;70;65;48;51].
Definition w_IDEOGRAPH_FA04 : str := [73;68;69;79;71;82;65;80;72;45;70;65;48;52].
Definition w_IDEOGRAPH_FA05 : str := [73;68;69;79;71;82;65;80;72;45;70;65;48;53].
Definition w_IDEOGRAPH_FA06 : str := [73;68;69;79;71;82;65;80;72;45;70;65;48;54].
Definition w_IDEOGRAPH_FA07 : str := [73;68;69;79;71;82;65;80;72;45;70;65;48;55].
Definition w_IDEOGRAPH_FA08 : str := [73;68;69;79;71;82;65;80;72;45;70;65;48;56].
Definition w_IDEOGRAPH_FA09 : str := [73;68;69;79;71;82;65;80;72;45;70;65;48;57].
Definition w_IDEOGRAPH_FA0A : str := [73;68;69;79;71;82;65;80;72;45;70;65;48;65].
Definition w_IDEOGRAPH_FA0B : str := [73;68;69;79;71;82;65;80;72;45;70;65;48;66].
Definition w_IDEOGRAPH_FA0C : str := [73;68;69;79;71;82;65;80;72;45;70;65;48;67].
Definition w_IDEOGRAPH_FA0D : str := [73;68;69;79;71;82;65;80;72;45;70;65;48;68].
Definition w_IDEOGRAPH_FA0E : str := [73;68;69;79;71;82;65;80;72;45;70;65;48;69].
Definition w_IDEOGRAPH_FA0F : str := [73;68;69;79;71;82;65;80;72;45;70;65;48;70].
Definition w_IDEOGRAPH_FA10 : str := [73;68;69;79;71;82;65;80;72;45;70;65;49;48].
Definition w_IDEOGRAPH_FA11 : str := [73;68;69;79;71;82;65;80;72;45;70;65;49;49].
Definition w_IDEOGRAPH_FA12 : str := [73;68;69;79;71;82;65;80;72;45;70;65;49;50].
Definition w_IDEOGRAPH_FA13 : str := [73;68;69;79;71;82;65;80;72;45;70;65;49;51].
Definition w_IDEOGRAPH_FA14 : str := [73;68;69;79;71;82;65;80;72;45;70;65;49;52].
Definition w_IDEOGRAPH_FA15 : str := [73;68;69;79;71;82;65;80;72;45;70;65;49;53].
Definition w_IDEOGRAPH_FA16 : str := [73;68;69;79;71;82;65;80;72;45;70;65;49;54].
Definition w_IDEOGRAPH_FA17 : str := [73;68;69;79;71;82;65;80;72;45;70;65;49;55].
Definition w_IDEOGRAPH_FA18 : str := [73;68;69;79;71;82;65;80;72;45;70;65;49;56].
Definition w_IDEOGRAPH_FA19 : str := [73;68;69;79;71;82;65;80;72;45;70;65;49;57].
Definition w_IDEOGRAPH_FA1A : str := [73;68;69;79;71;82;65;80;72;45;70;65;49;65].
Definition w_IDEOGRAPH_FA1B : str := [73;68;69;79;71;82;65;80;72;45;70;65;49;66].
Definition w_IDEOGRAPH_FA1C : str := [73;68;69;79;71;82;65;80;72;45;70;65;49;67].
Definition w_IDEOGRAPH_FA1D : str := [73;68;69;79;71;82;65;80;72;45;70;65;49;68].
Definition w_IDEOGRAPH_FA1E : str := [73;68;69;79;71;82;65;80;72;45;70;65;49;69].
Definition w_IDEOGRAPH_FA1F : str := [73;68;69;79;71;82;65;80;72;45;70;65;49;70].
Definition w_IDEOGRAPH_FA20 : str := [73;68;69;79;71;82;65;80;72;45;70;65;50;48].
Definition w_IDEOGRAPH_FA21 : str := [73;68;69;79;71;82;65;80;72;45;70;65;50;49].
Definition w_IDEOGRAPH_FA22 : str := [73;68;69;79;71;82;65;80;72;45;70;65;50;50].
Definition w_IDEOGRAPH_FA23 : str := [73;68;69;79;71;82;65;80;72;45;70;65;50;51].
Definition w_IDEOGRAPH_FA24 : str := [73;68;69;79;71;82;65;80;72;45;70;65;50;52].
Definition w_IDEOGRAPH_FA25 : str := [73;68;69;79;71;82;65;80;72;45;70;65;50;53].
Definition w_IDEOGRAPH_FA26 : str := [73;68;69;79;71;82;65;80;72;45;70;65;50;54].
Definition w_IDEOGRAPH_FA27 : str := [73;68;69;79;71;82;65;80;72;45;70;65;50;55].
Definition w_IDEOGRAPH_FA28 : str := [73;68;69;79;71;82;65;80;72;45;70;65;50;56].
Definition w_IDEOGRAPH_FA29 : str := [73;68;69;79;71;82;65;80;72;45;70;65;50;57].
Definition w_IDEOGRAPH_FA2A : str := [73;68;69;79;71;82;65;80;72;45;70;65;50;65].
Definition w_IDEOGRAPH_FA2B : str := [73;68;69;79;71;82;65;80;72;45;70;65;50;66].
Definition w_IDEOGRAPH_FA2C : str := [73;68;69;79;71;82;65;80;72;45;70;65;50;67].
Definition w_IDEOGRAPH_FA2D : str := [73;68;69;79;71;82;65;80;72;45;70;65;50;68].
Definition w_IDEOGRAPH_FA2E : str := [73;68;69;79;71;82;65;80;72;45;70;65;50;69].
Definition w_IDEOGRAPH_FA2F : str := [73;68;69;79;71;82;65;80;72;45;70;65;50;70].
Definition w_IDEOGRAPH_FA30 : str := [73;68;69;79;71;82;65;80;72;45;70;65;51;48].
Definition w_IDEOGRAPH_FA31 : str := [73;68;69;79;71;82;65;80;72;45;70;65;51;49].
Definition w_IDEOGRAPH_FA32 : str := [73;68;69;79;71;82;65;80;72;45;70;65;51;50].
Definition w_IDEOGRAPH_FA33 : str := [73;68;69;79;71;82;65;80;72;45;70;65;51;51].
Definition w_IDEOGRAPH_FA34 : str := [73;68;69;79;71;82;65;80;72;45;70;65;51;52].
Definition w_IDEOGRAPH_FA35 : str := [73;68;69;79;71;82;65;80;72;45;70;65;51;53].
Definition w_IDEOGRAPH_FA36 : str := [73;68;69;79;71;82;65;80;72;45;70;65;51;54].
Definition w_IDEOGRAPH_FA37 : str := [73;68;69;79;71;82;65;80;72;45;70;65;51;55].
Definition w_IDEOGRAPH_FA38 : str := [73;68;69;79;71;82;65;80;72;45;70;65;51;56].
Definition w_IDEOGRAPH_FA39 : str := [73;68;69;79;71;82;65;80;72;45;70;65;51;57].
Definition w_IDEOGRAPH_FA3A : str := [73;68;69;79;71;82;65;80;72;45;70;65;51;65].
Definition w_IDEOGRAPH_FA3B : str := [73;68;69;79;71;82;65;80;72;45;70;65;51;66].
Definition w_IDEOGRAPH_FA3C : str := [73;68;69;79;71;82;65;80;72;45;70;65;51;67].
Definition w_IDEOGRAPH_FA3D : str := [73;68;69;79;71;82;65;80;72;45;70;65;51;68].
Definition w_IDEOGRAPH_FA3E : str := [73;68;69;79;71;82;65;80;72;45;70;65;51;69].
Definition w_IDEOGRAPH_FA3F : str := [73;68;69;79;71;82;65;80;72;45;70;65;51;70].
Definition w_IDEOGRAPH_FA40 : str := [73;68;69;79;71;82;65;80;72;45;70;65;52;48].
Definition w_IDEOGRAPH_FA41 : str := [73;68;69;79;71;82;65;80;72;45;70;65;52;49].
Definition w_IDEOGRAPH_FA42 : str := [73;68;69;79;71;82;65;80;72;45;70;65;52;50].
Definition w_IDEOGRAPH_FA43 : str := [73;68;69;79;71;82;65;80;72;45;70;65;52;51].
Definition w_IDEOGRAPH_FA44 : str := [73;68;69;79;71;82;65;80;72;45;70;65;52;52].
Definition w_IDEOGRAPH_FA45 : str := [73;68;69;79;71;82;65;80;72;45;70;65;52;53].
Definition w_IDEOGRAPH_FA46 : str := [73;68;69;79;71;82;65;80;72;45;70;65;52;54].
Definition w_IDEOGRAPH_FA47 : str := [73;68;69;79;71;82;65;80;72;45;70;65;52;55].
Definition w_IDEOGRAPH_FA48 : str := [73;68;69;79;71;82;65;80;72;45;70;65;52;56].
Definition w_IDEOGRAPH_FA49 : str := [73;68;69;79;71;82;65;80;72;45;70;65;52;57].
Definition w_IDEOGRAPH_FA4A : str := [73;68;69;79;71;82;65;80;72;45;70;65;52;65].
Definition w_IDEOGRAPH_FA4B : str := [73;68;69;79;71;82;65;80;72;45;70;65;52;66].
Definition w_IDEOGRAPH_FA4C : str := [73;68;69;79;71;82;65;80;72;45;70;65;52;67].
Definition w_IDEOGRAPH_FA4D : str := [73;68;69;79;71;82;65;80;72;45;70;65;52;68].
Definition w_IDEOGRAPH_FA4E : str := [73;68;69;79;71;82;65;80;72;45;70;65;52;69].
Definition w_IDEOGRAPH_FA4F : str := [73;68;69;79;71;82;65;80;72;45;70;65;52;70].
Definition w_IDEOGRAPH_FA50 : str := [73;68;69;79;71;82;65;80;72;45;70;65;53;48].
Definition w_IDEOGRAPH_FA51 : str := [73;68;69;79;71;82;65;80;72;45;70;65;53;49].
Definition w_IDEOGRAPH_FA52 : str := [73;68;69;79;71;82;65;80;72;45;70;65;53;50].
Definition w_IDEOGRAPH_FA53 : str := [73;68;69;79;71;82;65;80;72;45;70;65;53;51].
Definition w_IDEOGRAPH_FA54 : str := [73;68;69;79;71;82;65;80;72;45;70;65;53;52].
Definition w_IDEOGRAPH_FA55 : str := [73;68;69;79;71;82;65;80;72;45;70;65;53;53].
Definition w_IDEOGRAPH_FA56 : str := [73;68;69;79;71;82;65;80;72;45;70;65;53;54].
Definition w_IDEOGRAPH_FA57 : str := [73;68;69;79;71;82;65;80;72;45;70;65;53;55].
Definition w_IDEOGRAPH_FA58 : str := [73;68;69;79;71;82;65;80;72;45;70;65;53;56].
Definition w_IDEOGRAPH_FA59 : str := [73;68;69;79;71;82;65;80;72;45;70;65;53;57].
Definition w_IDEOGRAPH_FA5A : str := [73;68;69;79;71;82;65;80;72;45;70;65;53;65].
Definition w_IDEOGRAPH_FA5B : str := [73;68;69;79;71;82;65;80;72;45;70;65;53;66].
Definition w_IDEOGRAPH_FA5C : str := [73;68;69;79;71;82;65;80;72;45;70;65;53;67].
Definition w_IDEOGRAPH_FA5D : str := [73;68;69;79;71;82;65;80;72;45;70;65;53;68].
Definition w_IDEOGRAPH_FA5E : str := [73;68;69;79;71;82;65;80;72;45;70;65;53;69].
Definition w_IDEOGRAPH_FA5F : str := [73;68;69;79;71;82;65;80;72;45;70;65;53;70].
Definition w_IDEOGRAPH_FA60 : str := [73;68;69;79;71;82;65;80;72;45;70;65;54;48].
Definition w_IDEOGRAPH_FA61 : str := [73;68;69;79;71;82;65;80;72;45;70;65;54;49].
Definition w_IDEOGRAPH_FA62 : str := [73;68;69;79;71;82;65;80;72;45;70;65;54;50].
Definition w_IDEOGRAPH_FA63 : str := [73;68;69;79;71;82;65;80;72;45;70;65;54;51].
Definition w_IDEOGRAPH_FA64 : str := [73;68;69;79;71;82;65;80;72;45;70;65;54;52].
Definition w_IDEOGRAPH_FA65 : str := [73;68;69;79;71;82;65;80;72;45;70;65;54;53].
Definition w_IDEOGRAPH_FA66 : str := [73;68;69;79;71;82;65;80;72;45;70;65;54;54].
Definition w_IDEOGRAPH_FA67 : str := [73;68;69;79;71;82;65;80;72;45;70;65;54;55].
Definition w_IDEOGRAPH_FA68 : str := [73;68;69;79;71;82;65;80;72;45;70;65;54;56].
Definition w_IDEOGRAPH_FA69 : str := [73;68;69;79;71;82;65;80;72;45;70;65;54;57].
Definition w_IDEOGRAPH_FA6A : str := [73;68;69;79;71;82;65;80;72;45;70;65;54;65].
Definition w_IDEOGRAPH_FA6B : str := [73;68;69;79;71;82;65;80;72;45;70;65;54;66].
Definition w_IDEOGRAPH_FA6C : str := [73;68;69;79;71;82;65;80;72;45;70;65;54;67].
Definition w_IDEOGRAPH_FA6D : str := [73;68;69;79;71;82;65;80;72;45;70;65;54;68].
Definition w_IDEOGRAPH_FA70 : str := [73;68;69;79;71;82;65;80;72;45;70;65;55;48].
Definition w_IDEOGRAPH_FA71 : str := [73;68;69;79;71;82;65;80;72;45;70;65;55;49].
Definition w_IDEOGRAPH_FA72 : str := [73;68;69;79;71;82;65;80;72;45;70;65;55;50].
Definition w_IDEOGRAPH_FA73 : str := [73;68;69;79;71;82;65;80;72;45;70;65;55;51].
Definition w_IDEOGRAPH_FA74 : str := [73;68;69;79;71;82;65;80;72;45;70;65;55;52].
Definition w_IDEOGRAPH_FA75 : str := [73;68;69;79;71;82;65;80;72;45;70;65;55;53].
Definition w_IDEOGRAPH_FA76 : str := [73;68;69;79;71;82;65;80;72;45;70;65;55;54].
Definition w_IDEOGRAPH_FA77 : str := [73;68;69;79;71;82;65;80;72;45;70;65;55;55].
Definition w_IDEOGRAPH_FA78 : str := [73;68;69;79;71;82;65;80;72;45;70;65;55;56].
Definition w_IDEOGRAPH_FA79 : str := [73;68;69;79;71;82;65;80;72;45;70;65;55;57].
Definition w_IDEOGRAPH_FA7A : str := [73;68;69;79;71;82;65;80;72;45;70;65;55;65].
Definition w_IDEOGRAPH_FA7B : str := [73;68;69;79;71;82;65;80;72;45;70;65;55;66].
Definition w_IDEOGRAPH_FA7C : str := [73;68;69;79;71;82;65;80;72;45;70;65;55;67].
Definition w_IDEOGRAPH_FA7D : str := [73;68;69;79;71;82;65;80;72;45;70;65;55;68].
Definition w_IDEOGRAPH_FA7E : str := [73;68;69;79;71;82;65;80;72;45;70;65;55;69].
Definition w_IDEOGRAPH_FA7F : str := [73;68;69;79;71;82;65;80;72;45;70;65;55;70].
Definition w_IDEOGRAPH_FA80 : str := [73;68;69;79;71;82;65;80;72;45;70;65;56;48].
Definition w_IDEOGRAPH_FA81 : str := [73;68;69;79;71;82;65;80;72;45;70;65;56;49].
Definition w_IDEOGRAPH_FA82 : str := [73;68;69;79;71;82;65;80;72;45;70;65;56;50].
Definition w_IDEOGRAPH_FA83 : str := [73;68;69;79;71;82;65;80;72;45;70;65;56;51].
Definition w_IDEOGRAPH_FA84 : str := [73;68;69;79;71;82;65;80;72;45;70;65;56;52].
Definition w_IDEOGRAPH_FA85 : str := [73;68;69;79;71;82;65;80;72;45;70;65;56;53].
Definition w_IDEOGRAPH_FA86 : str := [73;68;69;79;71;82;65;80;72;45;70;65;56;54].
Definition w_IDEOGRAPH_FA87 : str := [73;68;69;79;71;82;65;80;72;45;70;65;56;55].
Definition w_IDEOGRAPH_FA88 : str := [73;68;69;79;71;82;65;80;72;45;70;65;56;56].
Definition w_IDEOGRAPH_FA89 : str := [73;68;69;79;71;82;65;80;72;45;70;65;56;57].
Definition w_IDEOGRAPH_FA8A : str := [73;68;69;79;71;82;65;80;72;45;70;65;56;65].
Definition w_IDEOGRAPH_FA8B : str := [73;68;69;79;71;82;65;80;72;45;70;65;56;66].
Definition w_IDEOGRAPH_FA8C : str := [73;68;69;79;71;82;65;80;72;45;70;65;56;67].
Definition w_IDEOGRAPH_FA8D : str := [73;68;69;79;71;82;65;80;72;45;70;65;56;68].
Definition w_IDEOGRAPH_FA8E : str := [73;68;69;79;71;82;65;80;72;45;70;65;56;69].
Definition w_IDEOGRAPH_FA8F : str := [73;68;69;79;71;82;65;80;72;45;70;65;56;70].
Definition w_IDEOGRAPH_FA90 : str := [73;68;69;79;71;82;65;80;72;45;70;65;57;48].
Definition w_IDEOGRAPH_FA91 : str := [73;68;69;79;71;82;65;80;72;45;70;65;57;49].
Definition w_IDEOGRAPH_FA92 : str := [73;68;69;79;71;82;65;80;72;45;70;65;57;50].
Definition w_IDEOGRAPH_FA93 : str := [73;68;69;79;71;82;65;80;72;45;70;65;57;51].
Definition w_IDEOGRAPH_FA94 : str := [73;68;69;79;71;82;65;80;72;45;70;65;57;52].
Definition w_IDEOGRAPH_FA95 : str := [73;68;69;79;71;82;65;80;72;45;70;65;57;53].
Definition w_IDEOGRAPH_FA96 : str := [73;68;69;79;71;82;65;80;72;45;70;65;57;54].
Definition w_IDEOGRAPH_FA97 : str := [73;68;69;79;71;82;65;80;72;45;70;65;57;55].
Definition w_IDEOGRAPH_FA98 : str := [73;68;69;79;71;82;65;80;72;45;70;65;57;56].
Definition w_IDEOGRAPH_FA99 : str := [73;68;69;79;71;82;65;80;72;45;70;65;57;57].
Definition w_IDEOGRAPH_FA9A : str := [73;68;69;79;71;82;65;80;72;45;70;65;57;65].
Definition w_IDEOGRAPH_FA9B : str := [73;68;69;79;71;82;65;80;72;45;70;65;57;66].
Definition w_IDEOGRAPH_FA9C : str := [73;68;69;79;71;82;65;80;72;45;70;65;57;67].
Definition w_IDEOGRAPH_FA9D : str := [73;68;69;79;71;82;65;80;72;45;70;65;57;68].
Definition w_IDEOGRAPH_FA9E : str := [73;68;69;79;71;82;65;80;72;45;70;65;57;69].
Definition w_IDEOGRAPH_FA9F : str := [73;68;69;79;71;82;65;80;72;45;70;65;57;70].
Definition w_IDEOGRAPH_FAA0 : str := [73;68;69;79;71;82;65;80;72;45;70;65;65;48].
Definition w_IDEOGRAPH_FAA1 : str := [73;68;69;79;71;82;65;80;72;45;70;65;65;49].
Definition w_IDEOGRAPH_FAA2 : str := [73;68;69;79;71;82;65;80;72;45;70;65;65;50].
Definition w_IDEOGRAPH_FAA3 : str := [73;68;69;79;71;82;65;80;72;45;70;65;65;51].
Definition w_IDEOGRAPH_FAA4 : str := [73;68;69;79;71;82;65;80;72;45;70;65;65;52].
Definition w_IDEOGRAPH_FAA5 : str := [73;68;69;79;71;82;65;80;72;45;70;65;65;53].
Definition w_IDEOGRAPH_FAA6 : str := [73;68;69;79;71;82;65;80;72;45;70;65;65;54].
Definition w_IDEOGRAPH_FAA7 : str := [73;68;69;79;71;82;65;80;72;45;70;65;65;55].
Definition w_IDEOGRAPH_FAA8 : str := [73;68;69;79;71;82;65;80;72;45;70;65;65;56].
Definition w_IDEOGRAPH_FAA9 : str := [73;68;69;79;71;82;65;80;72;45;70;65;65;57].
Definition w_IDEOGRAPH_FAAA : str := [73;68;69;79;71;82;65;80;72;45;70;65;65;65].
Definition w_IDEOGRAPH_FAAB : str := [73;68;69;79;71;82;65;80;72;45;70;65;65;66].
Definition w_IDEOGRAPH_FAAC : str := [73;68;69;79;71;82;65;80;72;45;70;65;65;67].
Definition w_IDEOGRAPH_FAAD : str := [73;68;69;79;71;82;65;80;72;45;70;65;65;68].
Definition w_IDEOGRAPH_FAAE : str := [73;68;69;79;71;82;65;80;72;45;70;65;65;69].
Definition w_IDEOGRAPH_FAAF : str := [73;68;69;79;71;82;65;80;72;45;70;65;65;70].
Definition w_IDEOGRAPH_FAB0 : str := [73;68;69;79;71;82;65;80;72;45;70;65;66;48].
Definition w_IDEOGRAPH_FAB1 : str := [73;68;69;79;71;82;65;80;72;45;70;65;66;49].
Definition w_IDEOGRAPH_FAB2 : str := [73;68;69;79;71;82;65;80;72;45;70;65;66;50].
Definition w_IDEOGRAPH_FAB3 : str := [73;68;69;79;71;82;65;80;72;45;70;65;66;51].
Definition w_IDEOGRAPH_FAB4 : str := [73;68;69;79;71;82;65;80;72;45;70;65;66;52].
Definition w_IDEOGRAPH_FAB5 : str := [73;68;69;79;71;82;65;80;72;45;70;65;66;53].
Definition w_IDEOGRAPH_FAB6 : str := [73;68;69;79;71;82;65;80;72;45;70;65;66;54].
Definition w_IDEOGRAPH_FAB7 : str := [73;68;69;79;71;82;65;80;72;45;70;65;66;55].
Definition w_IDEOGRAPH_FAB8 : str := [73;68;69;79;71;82;65;80;72;45;70;65;66;56].
Definition w_IDEOGRAPH_FAB9 : str := [73;68;69;79;71;82;65;80;72;45;70;65;66;57].
Definition w_IDEOGRAPH_FABA : str := [73;68;69;79;71;82;65;80;72;45;70;65;66;65].
Definition w_IDEOGRAPH_FABB : str := [73;68;69;79;71;82;65;80;72;45;70;65;66;66].
Definition w_IDEOGRAPH_FABC : str := [73;68;69;79;71;82;65;80;72;45;70;65;66;67].
Definition w_IDEOGRAPH_FABD : str := [73;68;69;79;71;82;65;80;72;45;70;65;66;68].
Definition w_IDEOGRAPH_FABE : str := [73;68;69;79;71;82;65;80;72;45;70;65;66;69].
Definition w_IDEOGRAPH_FABF : str := [73;68;69;79;71;82;65;80;72;45;70;65;66;70].
Definition w_IDEOGRAPH_FAC0 : str := [73;68;69;79;71;82;65;80;72;45;70;65;67;48].
Definition w_IDEOGRAPH_FAC1 : str := [73;68;69;79;71;82;65;80;72;45;70;65;67;49].
Definition w_IDEOGRAPH_FAC2 : str := [73;68;69;79;71;82;65;80;72;45;70;65;67;50].
Definition w_IDEOGRAPH_FAC3 : str := [73;68;69;79;71;82;65;80;72;45;70;65;67;51].
Definition w_IDEOGRAPH_FAC4 : str := [73;68;69;79;71;82;65;80;72;45;70;65;67;52].
Definition w_IDEOGRAPH_FAC5 : str := [73;68;69;79;71;82;65;80;72;45;70;65;67;53].
Definition w_IDEOGRAPH_FAC6 : str := [73;68;69;79;71;82;65;80;72;45;70;65;67;54].
Definition w_IDEOGRAPH_FAC7 : str := [73;68;69;79;71;82;65;80;72;45;70;65;67;55].
Definition w_IDEOGRAPH_FAC8 : str := [73;68;69;79;71;82;65;80;72;45;70;65;67;56].
Definition w_IDEOGRAPH_FAC9 : str := [73;68;69;79;71;82;65;80;72;45;70;65;67;57].
Definition w_IDEOGRAPH_FACA : str := [73;68;69;79;71;82;65;80;72;45;70;65;67;65].
Definition w_IDEOGRAPH_FACB : str := [73;68;69;79;71;82;65;80;72;45;70;65;67;66].
Definition w_IDEOGRAPH_FACC : str := [73;68;69;79;71;82;65;80;72;45;70;65;67;67].
Definition w_IDEOGRAPH_FACD : str := [73;68;69;79;71;82;65;80;72;45;70;65;67;68].
Definition w_IDEOGRAPH_FACE : str := [73;68;69;79;71;82;65;80;72;45;70;65;67;69].
Definition w_IDEOGRAPH_FACF : str := [73;68;69;79;71;82;65;80;72;45;70;65;67;70].
Definition w_IDEOGRAPH_FAD0 : str := [73;68;69;79;71;82;65;80;72;45;70;65;68;48].
Definition w_IDEOGRAPH_FAD1 : str := [73;68;69;79;71;82;65;80;72;45;70;65;68;49].
Definition w_IDEOGRAPH_FAD2 : str := [73;68;69;79;71;82;65;80;72;45;70;65;68;50].
Definition w_IDEOGRAPH_FAD3 : str := [73;68;69;79;71;82;65;80;72;45;70;65;68;51].
Definition w_IDEOGRAPH_FAD4 : str := [73;68;69;79;71;82;65;80;72;45;70;65;68;52].
Definition w_IDEOGRAPH_FAD5 : str := [73;68;69;79;71;82;65;80;72;45;70;65;68;53].
Definition w_IDEOGRAPH_FAD6 : str := [73;68;69;79;71;82;65;80;72;45;70;65;68;54].
Definition w_IDEOGRAPH_FAD7 : str := [73;68;69;79;71;82;65;80;72;45;70;65;68;55].
Definition w_IDEOGRAPH_FAD8 : str := [73;68;69;79;71;82;65;80;72;45;70;65;68;56].
Definition w_IDEOGRAPH_FAD9 : str := [73;68;69;79;71;82;65;80;72;45;70;65;68;57].
Definition w_IDEOGRAPHIC : str := [73;68;69;79;71;82;65;80;72;73;67].
Definition w_IDIM : str := [73;68;73;77].
Definition w_IDLE : str := [73;68;76;69].
Definition w_IE : str := [73;69].
Definition w_IEP : str := [73;69;80].
Definition w_IET : str := [73;69;84].
Definition w_IEUNG : str := [73;69;85;78;71].
Definition w_IEUNG_CHIEUCH : str := [73;69;85;78;71;45;67;72;73;69;85;67;72].
Definition w_IEUNG_CIEUC : str := [73;69;85;78;71;45;67;73;69;85;67].
Definition w_IEUNG_HIEUH : str := [73;69;85;78;71;45;72;73;69;85;72].
Definition w_IEUNG_KHIEUKH : str := [73;69;85;78;71;45;75;72;73;69;85;75;72].
Definition w_IEUNG_KIYEOK : str := [73;69;85;78;71;45;75;73;89;69;79;75].
Definition w_IEUNG_MIEUM : str := [73;69;85;78;71;45;77;73;69;85;77].
Definition w_IEUNG_PANSIOS : str := [73;69;85;78;71;45;80;65;78;83;73;79;83].
Definition w_IEUNG_PHIEUPH : str := [73;69;85;78;71;45;80;72;73;69;85;80;72].
Definition w_IEUNG_PIEUP : str := [73;69;85;78;71;45;80;73;69;85;80].
Definition w_IEUNG_RIEUL : str := [73;69;85;78;71;45;82;73;69;85;76].
Definition w_IEUNG_SIOS : str := [73;69;85;78;71;45;83;73;79;83].
Definition w_IEUNG_SSANGKIYEOK : str := [73;69;85;78;71;45;83;83;65;78;71;75;73;89;69;79;75].
Definition w_IEUNG_THIEUTH : str := [73;69;85;78;71;45;84;72;73;69;85;84;72].
Definition w_IEUNG_TIKEUT : str := [73;69;85;78;71;45;84;73;75;69;85;84].
Definition w_IEX : str := [73;69;88].
Definition w_IF : str := [73;70].
Definition w_IFIN : str := [73;70;73;78].
Definition w_IG : str := [73;71].
Definition w_IGGWS : str := [73;71;71;87;83].
Definition w_IGI : str := [73;71;73].
Definition w_IH : str := [73;72].
Definition w_II : str := [73;73].
Definition w_IIYANNA : str := [73;73;89;65;78;78;65].
Definition w_IJ : str := [73;74].
Definition w_IKARA : str := [73;75;65;82;65].
Definition w_IL : str := [73;76].
Definition w_IL2 : str := [73;76;50].
Definition w_ILIMMU : str := [73;76;73;77;77;85].
Definition w_ILIMMU3 : str := [73;76;73;77;77;85;51].
Definition w_ILIMMU4 : str := [73;76;73;77;77;85;52].
Definition w_ILUT : str := [73;76;85;84].
Definition w_ILUUYANNA : str := [73;76;85;85;89;65;78;78;65].
Definition w_ILUY : str := [73;76;85;89].
Definition w_ILUYANNA : str := [73;76;85;89;65;78;78;65].
Definition w_IM : str := [73;77].
Definition w_IMAGE : str := [73;77;65;71;69].
Definition w_IMIDIARGON : str := [73;77;73;68;73;65;82;71;79;78].
Definition w_IMIFONON : str := [73;77;73;70;79;78;79;78].
Definition w_IMIFTHORA : str := [73;77;73;70;84;72;79;82;65].
Definition w_IMIFTHORON : str := [73;77;73;70;84;72;79;82;79;78].
Definition w_IMIN : str := [73;77;73;78].
Definition w_IMIN3 : str := [73;77;73;78;51].
Definition w_IMISEOS : str := [73;77;73;83;69;79;83].
Definition w_IMN : str := [73;77;78].
Definition w_IMP : str := [73;77;80].
Definition w_IMPERFECTA : str := [73;77;80;69;82;70;69;67;84;65].
Definition w_IMPERFECTUM : str := [73;77;80;69;82;70;69;67;84;85;77].
Definition w_IMPERIAL : str := [73;77;80;69;82;73;65;76].
Definition w_IN : str := [73;78].
Definition w_IN_ALAF : str := [73;78;45;65;76;65;70].
Definition w_INAP : str := [73;78;65;80].
Definition w_INBOX : str := [73;78;66;79;88].
Definition w_INCH : str := [73;78;67;72].
Definition w_INCLUDING : str := [73;78;67;76;85;68;73;78;71].
Definition w_INCOMING : str := [73;78;67;79;77;73;78;71].
Definition w_INCOMPLETE : str := [73;78;67;79;77;80;76;69;84;69].
Definition w_INCREASE : str := [73;78;67;82;69;65;83;69].
Definition w_INCREASES : str := [73;78;67;82;69;65;83;69;83].
Definition w_INCREMENT : str := [73;78;67;82;69;77;69;78;84].
Definition w_INDEPENDENT : str := [73;78;68;69;80;69;78;68;69;78;84].
Definition w_INDEX : str := [73;78;68;69;88].
Definition w_INDIAN : str := [73;78;68;73;65;78].
Definition w_INDIC : str := [73;78;68;73;67].
Definition w_INDICATOR : str := [73;78;68;73;67;65;84;79;82].
Definition w_INDICTION : str := [73;78;68;73;67;84;73;79;78].
Definition w_INDIRECT : str := [73;78;68;73;82;69;67;84].
Definition w_INDUSTRIAL : str := [73;78;68;85;83;84;82;73;65;76].
Definition w_INFINITY : str := [73;78;70;73;78;73;84;89].
Definition w_INFLUENCE : str := [73;78;70;76;85;69;78;67;69].
Definition w_INFORMATION : str := [73;78;70;79;82;77;65;84;73;79;78].
Definition w_ING : str := [73;78;71].
Definition w_INGWAZ : str := [73;78;71;87;65;90].
Definition w_INHALE : str := [73;78;72;65;76;69].
Definition w_INHERENT : str := [73;78;72;69;82;69;78;84].
Definition w_INHIBIT : str := [73;78;72;73;66;73;84].
Definition w_INI : str := [73;78;73].
Definition w_ININGU : str := [73;78;73;78;71;85].
Definition w_INITIAL : str := [73;78;73;84;73;65;76].
Definition w_INK : str := [73;78;75].
Definition w_INN : str := [73;78;78].
Definition w_INNER : str := [73;78;78;69;82].
Definition w_INNN : str := [73;78;78;78].
Definition w_INNOCENCE : str := [73;78;78;79;67;69;78;67;69].
Definition w_INPUT : str := [73;78;80;85;84].
Definition w_INSCRIPTIONAL : str := [73;78;83;67;82;73;80;84;73;79;78;65;76].
Definition w_INSECT : str := [73;78;83;69;67;84].
Definition w_INSERTION : str := [73;78;83;69;82;84;73;79;78].
Definition w_INSIDE : str := [73;78;83;73;68;69].
Definition w_INSTRUMENTAL : str := [73;78;83;84;82;85;77;69;78;84;65;76].
Definition w_INSULAR : str := [73;78;83;85;76;65;82].
Definition w_INTEGRAL : str := [73;78;84;69;71;82;65;76].
Definition w_INTEGRATION : str := [73;78;84;69;71;82;65;84;73;79;78].
Definition w_INTERCALATE : str := [73;78;84;69;82;67;65;76;65;84;69].
Definition w_INTEREST : str := [73;78;84;69;82;69;83;84].
Definition w_INTERIOR : str := [73;78;84;69;82;73;79;82].
Definition w_INTERLACED : str := [73;78;84;69;82;76;65;67;69;68].
Definition w_INTERLINEAR : str := [73;78;84;69;82;76;73;78;69;65;82].
Definition w_INTERLOCKED : str := [73;78;84;69;82;76;79;67;75;69;68].
Definition w_INTERPOLATION : str := [73;78;84;69;82;80;79;76;65;84;73;79;78].
Definition w_INTERROBANG : str := [73;78;84;69;82;82;79;66;65;78;71].
Definition w_INTERSECTING : str := [73;78;84;69;82;83;69;67;84;73;78;71].
Definition w_INTERSECTION : str := [73;78;84;69;82;83;69;67;84;73;79;78].
Definition w_INTERSYLLABIC : str := [73;78;84;69;82;83;89;76;76;65;66;73;67].
Definition w_INTI : str := [73;78;84;73].
Definition w_INVERSE : str := [73;78;86;69;82;83;69].
Definition w_INVERTED : str := [73;78;86;69;82;84;69;68].
Definition w_INVISIBLE : str := [73;78;86;73;83;73;66;76;69].
Definition w_INY : str := [73;78;89].
Definition w_INYA : str := [73;78;89;65].
Definition w_IO : str := [73;79].
Definition w_IODHADH : str := [73;79;68;72;65;68;72].
Definition w_IOR : str := [73;79;82].
Definition w_IOTA : str := [73;79;84;65].
Definition w_IOTATED : str := [73;79;84;65;84;69;68].
Definition w_IOTIFIED : str := [73;79;84;73;70;73;69;68].
Definition w_IP : str := [73;80].
Definition w_IQ : str := [73;81].
Definition w_IR : str := [73;82].
Definition w_IRB : str := [73;82;66].
Definition w_IRI : str := [73;82;73].
Definition w_IRON : str := [73;82;79;78].
Definition w_IRON_COPPER : str := [73;82;79;78;45;67;79;80;80;69;82].
Definition w_IRUUYANNA : str := [73;82;85;85;89;65;78;78;65].
Definition w_IRUYANNA : str := [73;82;85;89;65;78;78;65].
Definition w_IS : str := [73;83].
Definition w_IS_PILLA : str := [73;83;45;80;73;76;76;65].
Definition w_ISAKIA : str := [73;83;65;75;73;65].
Definition w_ISAZ : str := [73;83;65;90].
Definition w_ISEN_ISEN : str := [73;83;69;78;45;73;83;69;78].
Definition w_ISH : str := [73;83;72].
Definition w_ISLAND : str := [73;83;76;65;78;68].
Definition w_ISOLATE : str := [73;83;79;76;65;84;69].
Definition w_ISOLATED : str := [73;83;79;76;65;84;69;68].
Definition w_ISON : str := [73;83;79;78].
Definition w_ISOSCELES : str := [73;83;79;83;67;69;76;69;83].
Definition w_ISS : str := [73;83;83].
Definition w_ISSHAR : str := [73;83;83;72;65;82].
Definition w_IT : str := [73;84].
Definition w_ITALIC : str := [73;84;65;76;73;67].
Definition w_ITEM : str := [73;84;69;77].
Definition w_ITERATION : str := [73;84;69;82;65;84;73;79;78].
Definition w_ITS : str := [73;84;83].
Definition w_IU : str := [73;85].
Definition w_IUJA : str := [73;85;74;65].
Definition w_IWAZ : str := [73;87;65;90].
Definition w_IWN : str := [73;87;78].
Definition w_IX : str := [73;88].
Definition w_IY : str := [73;89].
Definition w_IYANNA : str := [73;89;65;78;78;65].
Definition w_IYEK : str := [73;89;69;75].
Definition w_IZAKAYA : str := [73;90;65;75;65;89;65].
Definition w_IZHE : str := [73;90;72;69].
Definition w_IZHITSA : str := [73;90;72;73;84;83;65].
Definition w_J : str := [74].
Definition w_J_SIMPLIFIED : str := [74;45;83;73;77;80;76;73;70;73;69;68].
Definition w_JA : str := [74;65].
Definition w_JAA : str := [74;65;65].
Definition w_JACK : str := [74;65;67;75].
Definition w_JACK_O_LANTERN : str := [74;65;67;75;45;79;45;76;65;78;84;69;82;78].
Definition w_JACKS : str := [74;65;67;75;83].
Definition w_JADE : str := [74;65;68;69].
Definition w_JAH : str := [74;65;72].
Definition w_JAIN : str := [74;65;73;78].
Definition w_JALLAJALALOUHOU : str := [74;65;76;76;65;74;65;76;65;76;79;85;72;79;85].
Definition w_JANUARY : str := [74;65;78;85;65;82;89].
Definition w_JAPAN : str := [74;65;80;65;78].
Definition w_JAPANESE : str := [74;65;80;65;78;69;83;69].
Definition w_JAR : str := [74;65;82].
Definition w_JAVANESE : str := [74;65;86;65;78;69;83;69].
Definition w_JAVIYANI : str := [74;65;86;73;89;65;78;73].
Definition w_JAW : str := [74;65;87].
Definition w_JAYANNA : str := [74;65;89;65;78;78;65].
Definition w_JAYIN : str := [74;65;89;73;78].
Definition w_JAYN : str := [74;65;89;78].
Definition w_JE : str := [74;69].
Definition w_JEANS : str := [74;69;65;78;83].
Definition w_JEE : str := [74;69;69].
Definition w_JEEM : str := [74;69;69;77].
Definition w_JEGOGAN : str := [74;69;71;79;71;65;78].
Definition w_JEH : str := [74;69;72].
Definition w_JER : str := [74;69;82].
Definition w_JERA : str := [74;69;82;65].
Definition w_JERAN : str := [74;69;82;65;78].
Definition w_JERUSALEM : str := [74;69;82;85;83;65;76;69;77].
Definition w_JEU : str := [74;69;85].
Definition w_JHA : str := [74;72;65].
Definition w_JHAA : str := [74;72;65;65].
Definition w_JHAM : str := [74;72;65;77].
Definition w_JHAN : str := [74;72;65;78].
Definition w_JHAYIN : str := [74;72;65;89;73;78].
Definition w_JHEH : str := [74;72;69;72].
Definition w_JHO : str := [74;72;79].
Definition w_JHOX : str := [74;72;79;88].
Definition w_JI : str := [74;73].
Definition w_JIA : str := [74;73;65].
Definition w_JIE : str := [74;73;69].
Definition w_JIEP : str := [74;73;69;80].
Definition w_JIET : str := [74;73;69;84].
Definition w_JIEX : str := [74;73;69;88].
Definition w_JIHVAMULIYA : str := [74;73;72;86;65;77;85;76;73;89;65].
Definition w_JIIM : str := [74;73;73;77].
Definition w_JIL : str := [74;73;76].
Definition w_JIP : str := [74;73;80].
Definition w_JIT : str := [74;73;84].
Definition w_JIX : str := [74;73;88].
Definition w_JJA : str := [74;74;65].
Definition w_JJE : str := [74;74;69].
Definition w_JJEE : str := [74;74;69;69].
Definition w_JJI : str := [74;74;73].
Definition w_JJIE : str := [74;74;73;69].
Definition w_JJIEP : str := [74;74;73;69;80].
Definition w_JJIET : str := [74;74;73;69;84].
Definition w_JJIEX : str := [74;74;73;69;88].
Definition w_JJIP : str := [74;74;73;80].
Definition w_JJIT : str := [74;74;73;84].
Definition w_JJIX : str := [74;74;73;88].
Definition w_JJO : str := [74;74;79].
Definition w_JJOP : str := [74;74;79;80].
Definition w_JJOT : str := [74;74;79;84].
Definition w_JJOX : str := [74;74;79;88].
Definition w_JJU : str := [74;74;85].
Definition w_JJUO : str := [74;74;85;79].
Definition w_JJUOP : str := [74;74;85;79;80].
Definition w_JJUOX : str := [74;74;85;79;88].
Definition w_JJUP : str := [74;74;85;80].
Definition w_JJUR : str := [74;74;85;82].
Definition w_JJURX : str := [74;74;85;82;88].
Definition w_JJUT : str := [74;74;85;84].
Definition w_JJUX : str := [74;74;85;88].
Definition w_JJY : str := [74;74;89].
Definition w_JJYP : str := [74;74;89;80].
Definition w_JJYT : str := [74;74;89;84].
Definition w_JJYX : str := [74;74;89;88].
Definition w_JNYA : str := [74;78;89;65].
Definition w_JO : str := [74;79].
Definition w_JOA : str := [74;79;65].
Definition w_JOIN : str := [74;79;73;78].
Definition w_JOINED : str := [74;79;73;78;69;68].
Definition w_JOINER : str := [74;79;73;78;69;82].
Definition w_JOINTS : str := [74;79;73;78;84;83].
Definition w_JOKER : str := [74;79;75;69;82].
Definition w_JONA : str := [74;79;78;65].
Definition w_JONG : str := [74;79;78;71].
Definition w_JONGSEONG : str := [74;79;78;71;83;69;79;78;71].
Definition w_JOO : str := [74;79;79].
Definition w_JOP : str := [74;79;80].
Definition w_JOT : str := [74;79;84].
Definition w_JOVE : str := [74;79;86;69].
Definition w_JOX : str := [74;79;88].
Definition w_JOY : str := [74;79;89].
Definition w_JOYOUS : str := [74;79;89;79;85;83].
Definition w_JOYSTICK : str := [74;79;89;83;84;73;67;75].
Definition w_JU : str := [74;85].
Definition w_JUDEO_SPANISH : str := [74;85;68;69;79;45;83;80;65;78;73;83;72].
Definition w_JUDGE : str := [74;85;68;71;69].
Definition w_JUDUL : str := [74;85;68;85;76].
Definition w_JUEUI : str := [74;85;69;85;73].
Definition w_JUGGLING : str := [74;85;71;71;76;73;78;71].
Definition w_JULY : str := [74;85;76;89].
Definition w_JUNE : str := [74;85;78;69].
Definition w_JUNGSEONG : str := [74;85;78;71;83;69;79;78;71].
Definition w_JUNO : str := [74;85;78;79].
Definition w_JUO : str := [74;85;79].
Definition w_JUOP : str := [74;85;79;80].
Definition w_JUOT : str := [74;85;79;84].
Definition w_JUOX : str := [74;85;79;88].
Definition w_JUP : str := [74;85;80].
Definition w_JUPITER : str := [74;85;80;73;84;69;82].
Definition w_JUR : str := [74;85;82].
Definition w_JURX : str := [74;85;82;88].
Definition w_JUT : str := [74;85;84].
Definition w_JUU : str := [74;85;85].
Definition w_JUX : str := [74;85;88].
Definition w_JWA : str := [74;87;65].
Definition w_JY : str := [74;89].
Definition w_JYP : str := [74;89;80].
Definition w_JYR : str := [74;89;82].
Definition w_JYRX : str := [74;89;82;88].
Definition w_JYT : str := [74;89;84].
Definition w_JYX : str := [74;89;88].
Definition w_K : str := [75].
Definition w_K001 : str := [75;48;48;49].
Definition w_K002 : str := [75;48;48;50].
Definition w_K003 : str := [75;48;48;51].
Definition w_K004 : str := [75;48;48;52].
Definition w_K005 : str := [75;48;48;53].
Definition w_K006 : str := [75;48;48;54].
Definition w_K007 : str := [75;48;48;55].
Definition w_K008 : str := [75;48;48;56].
Definition w_K2 : str := [75;50].
Definition w_KA : str := [75;65].
Definition w_KA_1 : str := [75;65;45;49].
Definition w_KA_10 : str := [75;65;45;49;48].
Definition w_KA_11 : str := [75;65;45;49;49].
Definition w_KA_2 : str := [75;65;45;50].
Definition w_KA_3 : str := [75;65;45;51].
Definition w_KA_4 : str := [75;65;45;52].
Definition w_KA_5 : str := [75;65;45;53].
Definition w_KA_6 : str := [75;65;45;54].
Definition w_KA_7 : str := [75;65;45;55].
Definition w_KA_8 : str := [75;65;45;56].
Definition w_KA_9 : str := [75;65;45;57].
Definition w_KA_KE : str := [75;65;45;75;69].
Definition w_KA2 : str := [75;65;50].
Definition w_KAA : str := [75;65;65].
Definition w_KAAB : str := [75;65;65;66].
Definition w_KAABA : str := [75;65;65;66;65].
Definition w_KAAF : str := [75;65;65;70].
Definition w_KAAFU : str := [75;65;65;70;85].
Definition w_KAAI : str := [75;65;65;73].
Definition w_KAAN : str := [75;65;65;78].
Definition w_KAANKUU : str := [75;65;65;78;75;85;85].
Definition w_KAAV : str := [75;65;65;86].
Definition w_KAB : str := [75;65;66].
Definition w_KABA : str := [75;65;66;65].
Definition w_KAD : str := [75;65;68].
Definition w_KAD2 : str := [75;65;68;50].
Definition w_KAD3 : str := [75;65;68;51].
Definition w_KAD4 : str := [75;65;68;52].
Definition w_KAD5 : str := [75;65;68;53].
Definition w_KAF : str := [75;65;70].
Definition w_KAFA : str := [75;65;70;65].
Definition w_KAH : str := [75;65;72].
Definition w_KAI : str := [75;65;73].
Definition w_KAIB : str := [75;65;73;66].
Definition w_KAIRI : str := [75;65;73;82;73].
Definition w_KAITHI : str := [75;65;73;84;72;73].
Definition w_KAIV : str := [75;65;73;86].
Definition w_KAK : str := [75;65;75].
Definition w_KAKABAT : str := [75;65;75;65;66;65;84].
Definition w_KAKO : str := [75;65;75;79].
Definition w_KAL : str := [75;65;76].
Definition w_KAM : str := [75;65;77].
Definition w_KAM2 : str := [75;65;77;50].
Definition w_KAM4 : str := [75;65;77;52].
Definition w_KAN : str := [75;65;78].
Definition w_KANA : str := [75;65;78;65].
Definition w_KANAKO : str := [75;65;78;65;75;79].
Definition w_KANG : str := [75;65;78;71].
Definition w_KANGXI : str := [75;65;78;71;88;73].
Definition w_KANNADA : str := [75;65;78;78;65;68;65].
Definition w_KANTAJA : str := [75;65;78;84;65;74;65].
Definition w_KAP : str := [75;65;80].
Definition w_KAPA : str := [75;65;80;65].
Definition w_KAPAL : str := [75;65;80;65;76].
Definition w_KAPH : str := [75;65;80;72].
Definition w_KAPO : str := [75;65;80;79].
Definition w_KAPPA : str := [75;65;80;80;65].
Definition w_KAPYEOUNMIEUM : str := [75;65;80;89;69;79;85;78;77;73;69;85;77].
Definition w_KAPYEOUNPHIEUPH : str := [75;65;80;89;69;79;85;78;80;72;73;69;85;80;72].
Definition w_KAPYEOUNPIEUP : str := [75;65;80;89;69;79;85;78;80;73;69;85;80].
Definition w_KAPYEOUNRIEUL : str := [75;65;80;89;69;79;85;78;82;73;69;85;76].
Definition w_KAPYEOUNSSANGPIEUP : str := [75;65;80;89;69;79;85;78;83;83;65;78;71;80;73;69;85;80].
Definition w_KAQ : str := [75;65;81].
Definition w_KAR : str := [75;65;82].
Definition w_KARAN : str := [75;65;82;65;78].
Definition w_KARATTO : str := [75;65;82;65;84;84;79].
Definition w_KAREN : str := [75;65;82;69;78].
Definition w_KARO : str := [75;65;82;79].
Definition w_KARORII : str := [75;65;82;79;82;73;73].
Definition w_KARSHANA : str := [75;65;82;83;72;65;78;65].
Definition w_KASHMIRI : str := [75;65;83;72;77;73;82;73].
Definition w_KASKAL : str := [75;65;83;75;65;76].
Definition w_KASRA : str := [75;65;83;82;65].
Definition w_KASRATAN : str := [75;65;83;82;65;84;65;78].
Definition w_KAT : str := [75;65;84].
Definition w_KATAKANA : str := [75;65;84;65;75;65;78;65].
Definition w_KATAKANA_HIRAGANA : str := [75;65;84;65;75;65;78;65;45;72;73;82;65;71;65;78;65].
Definition w_KATAVA : str := [75;65;84;65;86;65].
Definition w_KATAVASMA : str := [75;65;84;65;86;65;83;77;65].
Definition w_KATHAKA : str := [75;65;84;72;65;75;65].
Definition w_KATHISTI : str := [75;65;84;72;73;83;84;73].
Definition w_KATO : str := [75;65;84;79].
Definition w_KAUB : str := [75;65;85;66].
Definition w_KAUN : str := [75;65;85;78].
Definition w_KAUNA : str := [75;65;85;78;65].
Definition w_KAUV : str := [75;65;85;86].
Definition w_KAV : str := [75;65;86].
Definition w_KAVYKA : str := [75;65;86;89;75;65].
Definition w_KAWB : str := [75;65;87;66].
Definition w_KAWI : str := [75;65;87;73].
Definition w_KAWV : str := [75;65;87;86].
Definition w_KAX : str := [75;65;88].
Definition w_KAY : str := [75;65;89].
Definition w_KAYAH : str := [75;65;89;65;72].
Definition w_KAYANNA : str := [75;65;89;65;78;78;65].
Definition w_KAZAKH : str := [75;65;90;65;75;72].
Definition w_KB : str := [75;66].
Definition w_KCAL : str := [75;67;65;76].
Definition w_KE : str := [75;69].
Definition w_KE_1 : str := [75;69;45;49].
Definition w_KE_2 : str := [75;69;45;50].
Definition w_KE_3 : str := [75;69;45;51].
Definition w_KE_4 : str := [75;69;45;52].
Definition w_KE_5 : str := [75;69;45;53].
Definition w_KE_6 : str := [75;69;45;54].
Definition w_KEAAE : str := [75;69;65;65;69].
Definition w_KEB : str := [75;69;66].
Definition w_KEE : str := [75;69;69].
Definition w_KEEB : str := [75;69;69;66].
Definition w_KEENG : str := [75;69;69;78;71].
Definition w_KEEPING : str := [75;69;69;80;73;78;71].
Definition w_KEESU : str := [75;69;69;83;85].
Definition w_KEEV : str := [75;69;69;86].
Definition w_KEFULA : str := [75;69;70;85;76;65].
Definition w_KEH : str := [75;69;72].
Definition w_KEHEH : str := [75;69;72;69;72].
Definition w_KELVIN : str := [75;69;76;86;73;78].
Definition w_KEMBANG : str := [75;69;77;66;65;78;71].
Definition w_KEMPHRENG : str := [75;69;77;80;72;82;69;78;71].
Definition w_KEMPLI : str := [75;69;77;80;76;73].
Definition w_KEMPUL : str := [75;69;77;80;85;76].
Definition w_KEN : str := [75;69;78].
Definition w_KENAT : str := [75;69;78;65;84].
Definition w_KENTIMA : str := [75;69;78;84;73;77;65].
Definition w_KENTIMATA : str := [75;69;78;84;73;77;65;84;65].
Definition w_KEOW : str := [75;69;79;87].
Definition w_KEP : str := [75;69;80].
Definition w_KERET : str := [75;69;82;69;84].
Definition w_KES : str := [75;69;83].
Definition w_KESH2 : str := [75;69;83;72;50].
Definition w_KET : str := [75;69;84].
Definition w_KETTI : str := [75;69;84;84;73].
Definition w_KEUAE : str := [75;69;85;65;69].
Definition w_KEUAEM : str := [75;69;85;65;69;77].
Definition w_KEUAERI : str := [75;69;85;65;69;82;73].
Definition w_KEUAETMEUN : str := [75;69;85;65;69;84;77;69;85;78].
Definition w_KEUKAQ : str := [75;69;85;75;65;81].
Definition w_KEUKEUTNDA : str := [75;69;85;75;69;85;84;78;68;65].
Definition w_KEUM : str := [75;69;85;77].
Definition w_KEUOT : str := [75;69;85;79;84].
Definition w_KEUP : str := [75;69;85;80].
Definition w_KEUPUQ : str := [75;69;85;80;85;81].
Definition w_KEUSEUX : str := [75;69;85;83;69;85;88].
Definition w_KEUSHEUAEP : str := [75;69;85;83;72;69;85;65;69;80].
Definition w_KEUX : str := [75;69;85;88].
Definition w_KEUYEUX : str := [75;69;85;89;69;85;88].
Definition w_KEV : str := [75;69;86].
Definition w_KEX : str := [75;69;88].
Definition w_KEY : str := [75;69;89].
Definition w_KEYBOARD : str := [75;69;89;66;79;65;82;68].
Definition w_KEYCAP : str := [75;69;89;67;65;80].
Definition w_KG : str := [75;71].
Definition w_KHA : str := [75;72;65].
Definition w_KHAA : str := [75;72;65;65].
Definition w_KHAB : str := [75;72;65;66].
Definition w_KHAH : str := [75;72;65;72].
Definition w_KHAI : str := [75;72;65;73].
Definition w_KHAKASSIAN : str := [75;72;65;75;65;83;83;73;65;78].
Definition w_KHAMTI : str := [75;72;65;77;84;73].
Definition w_KHAN : str := [75;72;65;78].
Definition w_KHANDA : str := [75;72;65;78;68;65].
Definition w_KHANG : str := [75;72;65;78;71].
Definition w_KHAPH : str := [75;72;65;80;72].
Definition w_KHAR : str := [75;72;65;82].
Definition w_KHAROSHTHI : str := [75;72;65;82;79;83;72;84;72;73].
Definition w_KHAV : str := [75;72;65;86].
Definition w_KHE : str := [75;72;69].
Definition w_KHEE : str := [75;72;69;69].
Definition w_KHEI : str := [75;72;69;73].
Definition w_KHETH : str := [75;72;69;84;72].
Definition w_KHHA : str := [75;72;72;65].
Definition w_KHHO : str := [75;72;72;79].
Definition w_KHI : str := [75;72;73].
Definition w_KHIEUKH : str := [75;72;73;69;85;75;72].
Definition w_KHIT : str := [75;72;73;84].
Definition w_KHMER : str := [75;72;77;69;82].
Definition w_KHMU : str := [75;72;77;85].
Definition w_KHO : str := [75;72;79].
Definition w_KHOJKI : str := [75;72;79;74;75;73].
Definition w_KHOMUT : str := [75;72;79;77;85;84].
Definition w_KHON : str := [75;72;79;78].
Definition w_KHOT : str := [75;72;79;84].
Definition w_KHOU : str := [75;72;79;85].
Definition w_KHU : str := [75;72;85].
Definition w_KHUAT : str := [75;72;85;65;84].
Definition w_KHUDAM : str := [75;72;85;68;65;77].
Definition w_KHUDAWADI : str := [75;72;85;68;65;87;65;68;73].
Definition w_KHUEN : str := [75;72;85;69;78].
Definition w_KHUEN_LUE : str := [75;72;85;69;78;45;76;85;69].
Definition w_KHWAI : str := [75;72;87;65;73].
Definition w_KHZ : str := [75;72;90].
Definition w_KI : str := [75;73].
Definition w_KI_1 : str := [75;73;45;49].
Definition w_KI_2 : str := [75;73;45;50].
Definition w_KI_3 : str := [75;73;45;51].
Definition w_KI_4 : str := [75;73;45;52].
Definition w_KI_5 : str := [75;73;45;53].
Definition w_KI_6 : str := [75;73;45;54].
Definition w_KI_7 : str := [75;73;45;55].
Definition w_KI_8 : str := [75;73;45;56].
Definition w_KIAB : str := [75;73;65;66].
Definition w_KIAV : str := [75;73;65;86].
Definition w_KIB : str := [75;73;66].
Definition w_KICK : str := [75;73;67;75].
Definition w_KID : str := [75;73;68].
Definition w_KIE : str := [75;73;69].
Definition w_KIEEM : str := [75;73;69;69;77].
Definition w_KIEP : str := [75;73;69;80].
Definition w_KIEVAN : str := [75;73;69;86;65;78].
Definition w_KIEX : str := [75;73;69;88].
Definition w_KIH : str := [75;73;72].
Definition w_KII : str := [75;73;73].
Definition w_KIKAKUI : str := [75;73;75;65;75;85;73].
Definition w_KILLER : str := [75;73;76;76;69;82].
Definition w_KIMONO : str := [75;73;77;79;78;79].
Definition w_KIN : str := [75;73;78].
Definition w_KINDERGARTEN : str := [75;73;78;68;69;82;71;65;82;84;69;78].
Definition w_KING : str := [75;73;78;71].
Definition w_KINSHIP : str := [75;73;78;83;72;73;80].
Definition w_KIP : str := [75;73;80].
Definition w_KIQ : str := [75;73;81].
Definition w_KIRGHIZ : str := [75;73;82;71;72;73;90].
Definition w_KIRO : str := [75;73;82;79].
Definition w_KIROGURAMU : str := [75;73;82;79;71;85;82;65;77;85].
Definition w_KIROMEETORU : str := [75;73;82;79;77;69;69;84;79;82;85].
Definition w_KIROWATTO : str := [75;73;82;79;87;65;84;84;79].
Definition w_KISAL : str := [75;73;83;65;76].
Definition w_KISH : str := [75;73;83;72].
Definition w_KISIM5 : str := [75;73;83;73;77;53].
Definition w_KISS : str := [75;73;83;83].
Definition w_KISSING : str := [75;73;83;83;73;78;71].
Definition w_KIT : str := [75;73;84].
Definition w_KIV : str := [75;73;86].
Definition w_KIW : str := [75;73;87].
Definition w_KIWIFRUIT : str := [75;73;87;73;70;82;85;73;84].
Definition w_KIX : str := [75;73;88].
Definition w_KIYEOK : str := [75;73;89;69;79;75].
Definition w_KIYEOK_CHIEUCH : str := [75;73;89;69;79;75;45;67;72;73;69;85;67;72].
Definition w_KIYEOK_HIEUH : str := [75;73;89;69;79;75;45;72;73;69;85;72].
Definition w_KIYEOK_KHIEUKH : str := [75;73;89;69;79;75;45;75;72;73;69;85;75;72].
Definition w_KIYEOK_NIEUN : str := [75;73;89;69;79;75;45;78;73;69;85;78].
Definition w_KIYEOK_PIEUP : str := [75;73;89;69;79;75;45;80;73;69;85;80].
Definition w_KIYEOK_RIEUL : str := [75;73;89;69;79;75;45;82;73;69;85;76].
Definition w_KIYEOK_SIOS : str := [75;73;89;69;79;75;45;83;73;79;83].
Definition w_KIYEOK_SIOS_KIYEOK : str := [75;73;89;69;79;75;45;83;73;79;83;45;75;73;89;69;79;75].
Definition w_KIYEOK_TIKEUT : str := [75;73;89;69;79;75;45;84;73;75;69;85;84].
Definition w_KJE : str := [75;74;69].
Definition w_KK : str := [75;75].
Definition w_KKA : str := [75;75;65].
Definition w_KKE : str := [75;75;69].
Definition w_KKEE : str := [75;75;69;69].
Definition w_KKI : str := [75;75;73].
Definition w_KKO : str := [75;75;79].
Definition w_KKU : str := [75;75;85].
Definition w_KL : str := [75;76].
Definition w_KLA : str := [75;76;65].
Definition w_KLASMA : str := [75;76;65;83;77;65].
Definition w_KLITON : str := [75;76;73;84;79;78].
Definition w_KM : str := [75;77].
Definition w_KNIFE : str := [75;78;73;70;69].
Definition w_KNIGHT : str := [75;78;73;71;72;84].
Definition w_KNOBS : str := [75;78;79;66;83].
Definition w_KNUCKLE : str := [75;78;85;67;75;76;69].
Definition w_KNUCKLES : str := [75;78;85;67;75;76;69;83].
Definition w_KO : str := [75;79].
Definition w_KO_1 : str := [75;79;45;49].
Definition w_KO_2 : str := [75;79;45;50].
Definition w_KO_3 : str := [75;79;45;51].
Definition w_KO_KI : str := [75;79;45;75;73].
Definition w_KOA : str := [75;79;65].
Definition w_KOALA : str := [75;79;65;76;65].
Definition w_KOB : str := [75;79;66].
Definition w_KOET : str := [75;79;69;84].
Definition w_KOGHOM : str := [75;79;71;72;79;77].
Definition w_KOH : str := [75;79;72].
Definition w_KOI : str := [75;79;73].
Definition w_KOK : str := [75;79;75].
Definition w_KOKE : str := [75;79;75;69].
Definition w_KOKO : str := [75;79;75;79].
Definition w_KOMBU : str := [75;79;77;66;85].
Definition w_KOMBUVA : str := [75;79;77;66;85;86;65].
Definition w_KOMI : str := [75;79;77;73].
Definition w_KON : str := [75;79;78].
Definition w_KONTEVMA : str := [75;79;78;84;69;86;77;65].
Definition w_KOO : str := [75;79;79].
Definition w_KOOB : str := [75;79;79;66].
Definition w_KOOMUUT : str := [75;79;79;77;85;85;84].
Definition w_KOOPO : str := [75;79;79;80;79].
Definition w_KOOV : str := [75;79;79;86].
Definition w_KOP : str := [75;79;80].
Definition w_KOPPA : str := [75;79;80;80;65].
Definition w_KOQNDON : str := [75;79;81;78;68;79;78].
Definition w_KORANIC : str := [75;79;82;65;78;73;67].
Definition w_KOREAN : str := [75;79;82;69;65;78].
Definition w_KORONIS : str := [75;79;82;79;78;73;83].
Definition w_KORUNA : str := [75;79;82;85;78;65].
Definition w_KOT : str := [75;79;84].
Definition w_KOTO : str := [75;79;84;79].
Definition w_KOUFISMA : str := [75;79;85;70;73;83;77;65].
Definition w_KOV : str := [75;79;86].
Definition w_KOVUU : str := [75;79;86;85;85].
Definition w_KOX : str := [75;79;88].
Definition w_KPA : str := [75;80;65].
Definition w_KPAH : str := [75;80;65;72].
Definition w_KPAN : str := [75;80;65;78].
Definition w_KPARAQ : str := [75;80;65;82;65;81].
Definition w_KPE : str := [75;80;69].
Definition w_KPEE : str := [75;80;69;69].
Definition w_KPEN : str := [75;80;69;78].
Definition w_KPEUX : str := [75;80;69;85;88].
Definition w_KPI : str := [75;80;73].
Definition w_KPO : str := [75;80;79].
Definition w_KPOO : str := [75;80;79;79].
Definition w_KPOQ : str := [75;80;79;81].
Definition w_KPU : str := [75;80;85].
Definition w_KRA : str := [75;82;65].
Definition w_KRATIMA : str := [75;82;65;84;73;77;65].
Definition w_KRATIMATA : str := [75;82;65;84;73;77;65;84;65].
Definition w_KRATIMOKOUFISMA : str := [75;82;65;84;73;77;79;75;79;85;70;73;83;77;65].
Definition w_KRATIMOYPORROON : str := [75;82;65;84;73;77;79;89;80;79;82;82;79;79;78].
Definition w_KREMASTI : str := [75;82;69;77;65;83;84;73].
Definition w_KSI : str := [75;83;73].
Definition w_KSSA : str := [75;83;83;65].
Definition w_KT : str := [75;84].
Definition w_KU : str := [75;85].
Definition w_KU_1 : str := [75;85;45;49].
Definition w_KU_2 : str := [75;85;45;50].
Definition w_KU_3 : str := [75;85;45;51].
Definition w_KU_4 : str := [75;85;45;52].
Definition w_KU_5 : str := [75;85;45;53].
Definition w_KU_6 : str := [75;85;45;54].
Definition w_KU_7 : str := [75;85;45;55].
Definition w_KU3 : str := [75;85;51].
Definition w_KU4 : str := [75;85;52].
Definition w_KU7 : str := [75;85;55].
Definition w_KUA : str := [75;85;65].
Definition w_KUAB : str := [75;85;65;66].
Definition w_KUAV : str := [75;85;65;86].
Definition w_KUB : str := [75;85;66].
Definition w_KUET : str := [75;85;69;84].
Definition w_KUG : str := [75;85;71].
Definition w_KUL : str := [75;85;76].
Definition w_KUN : str := [75;85;78].
Definition w_KUNDDALIYA : str := [75;85;78;68;68;65;76;73;89;65].
Definition w_KUNG : str := [75;85;78;71].
Definition w_KUO : str := [75;85;79].
Definition w_KUOM : str := [75;85;79;77].
Definition w_KUOP : str := [75;85;79;80].
Definition w_KUOQ : str := [75;85;79;81].
Definition w_KUOX : str := [75;85;79;88].
Definition w_KUP : str := [75;85;80].
Definition w_KUQ : str := [75;85;81].
Definition w_KUR : str := [75;85;82].
Definition w_KUROONE : str := [75;85;82;79;79;78;69].
Definition w_KURT : str := [75;85;82;84].
Definition w_KURUZEIRO : str := [75;85;82;85;90;69;73;82;79].
Definition w_KURX : str := [75;85;82;88].
Definition w_KUSHU2 : str := [75;85;83;72;85;50].
Definition w_KUSMA : str := [75;85;83;77;65].
Definition w_KUT : str := [75;85;84].
Definition w_KUUH : str := [75;85;85;72].
Definition w_KUV : str := [75;85;86].
Definition w_KUX : str := [75;85;88].
Definition w_KV : str := [75;86].
Definition w_KVA : str := [75;86;65].
Definition w_KW : str := [75;87].
Definition w_KWA : str := [75;87;65].
Definition w_KWAA : str := [75;87;65;65].
Definition w_KWAET : str := [75;87;65;69;84].
Definition w_KWAY : str := [75;87;65;89].
Definition w_KWB : str := [75;87;66].
Definition w_KWE : str := [75;87;69].
Definition w_KWEE : str := [75;87;69;69].
Definition w_KWI : str := [75;87;73].
Definition w_KWII : str := [75;87;73;73].
Definition w_KWM : str := [75;87;77].
Definition w_KWO : str := [75;87;79].
Definition w_KWOO : str := [75;87;79;79].
Definition w_KWU318 : str := [75;87;85;51;49;56].
Definition w_KWV : str := [75;87;86].
Definition w_KXA : str := [75;88;65].
Definition w_KXAA : str := [75;88;65;65].
Definition w_KXE : str := [75;88;69].
Definition w_KXEE : str := [75;88;69;69].
Definition w_KXI : str := [75;88;73].
Definition w_KXO : str := [75;88;79].
Definition w_KXU : str := [75;88;85].
Definition w_KXWA : str := [75;88;87;65].
Definition w_KXWAA : str := [75;88;87;65;65].
Definition w_KXWE : str := [75;88;87;69].
Definition w_KXWEE : str := [75;88;87;69;69].
Definition w_KXWI : str := [75;88;87;73].
Definition w_KYA : str := [75;89;65].
Definition w_KYAA : str := [75;89;65;65].
Definition w_KYATHOS : str := [75;89;65;84;72;79;83].
Definition w_KYE : str := [75;89;69].
Definition w_KYEE : str := [75;89;69;69].
Definition w_KYI : str := [75;89;73].
Definition w_KYLISMA : str := [75;89;76;73;83;77;65].
Definition w_KYO : str := [75;89;79].
Definition w_KYU : str := [75;89;85].
Definition w_KYURII : str := [75;89;85;82;73;73].
Definition w_L : str := [76].
Definition w_L_SHAPED : str := [76;45;83;72;65;80;69;68].
Definition w_L_TYPE : str := [76;45;84;89;80;69].
Definition w_L001 : str := [76;48;48;49].
Definition w_L002 : str := [76;48;48;50].
Definition w_L002A : str := [76;48;48;50;65].
Definition w_L003 : str := [76;48;48;51].
Definition w_L004 : str := [76;48;48;52].
Definition w_L005 : str := [76;48;48;53].
Definition w_L006 : str := [76;48;48;54].
Definition w_L006A : str := [76;48;48;54;65].
Definition w_L007 : str := [76;48;48;55].
Definition w_L008 : str := [76;48;48;56].
Definition w_L2 : str := [76;50].
Definition w_L3 : str := [76;51].
Definition w_L4 : str := [76;52].
Definition w_L6 : str := [76;54].
Definition w_LA : str := [76;65].
Definition w_LAA : str := [76;65;65].
Definition w_LAAI : str := [76;65;65;73].
Definition w_LAAM : str := [76;65;65;77].
Definition w_LAAMU : str := [76;65;65;77;85].
Definition w_LAAN : str := [76;65;65;78].
Definition w_LAANAE : str := [76;65;65;78;65;69].
Definition w_LABAT : str := [76;65;66;65;84].
Definition w_LABEL : str := [76;65;66;69;76].
Definition w_LABIAL : str := [76;65;66;73;65;76].
Definition w_LABIALIZATION : str := [76;65;66;73;65;76;73;90;65;84;73;79;78].
Definition w_LABOR : str := [76;65;66;79;82].
Definition w_LABOURING : str := [76;65;66;79;85;82;73;78;71].
Definition w_LACA : str := [76;65;67;65].
Definition w_LACK : str := [76;65;67;75].
Definition w_LADY : str := [76;65;68;89].
Definition w_LAE : str := [76;65;69].
Definition w_LAEV : str := [76;65;69;86].
Definition w_LAGAB : str := [76;65;71;65;66].
Definition w_LAGAR : str := [76;65;71;65;82].
Definition w_LAGU : str := [76;65;71;85].
Definition w_LAGUS : str := [76;65;71;85;83].
Definition w_LAH : str := [76;65;72].
Definition w_LAHSHU : str := [76;65;72;83;72;85].
Definition w_LAI : str := [76;65;73].
Definition w_LAING : str := [76;65;73;78;71].
Definition w_LAJANYALAN : str := [76;65;74;65;78;89;65;76;65;78].
Definition w_LAK_003 : str := [76;65;75;45;48;48;51].
Definition w_LAK_020 : str := [76;65;75;45;48;50;48].
Definition w_LAK_021 : str := [76;65;75;45;48;50;49].
Definition w_LAK_025 : str := [76;65;75;45;48;50;53].
Definition w_LAK_030 : str := [76;65;75;45;48;51;48].
Definition w_LAK_050 : str := [76;65;75;45;48;53;48].
Definition w_LAK_051 : str := [76;65;75;45;48;53;49].
Definition w_LAK_062 : str := [76;65;75;45;48;54;50].
Definition w_LAK_079 : str := [76;65;75;45;48;55;57].
Definition w_LAK_080 : str := [76;65;75;45;48;56;48].
Definition w_LAK_081 : str := [76;65;75;45;48;56;49].
Definition w_LAK_092 : str := [76;65;75;45;48;57;50].
Definition w_LAK_130 : str := [76;65;75;45;49;51;48].
Definition w_LAK_142 : str := [76;65;75;45;49;52;50].
Definition w_LAK_210 : str := [76;65;75;45;50;49;48].
Definition w_LAK_219 : str := [76;65;75;45;50;49;57].
Definition w_LAK_220 : str := [76;65;75;45;50;50;48].
Definition w_LAK_225 : str := [76;65;75;45;50;50;53].
Definition w_LAK_228 : str := [76;65;75;45;50;50;56].
Definition w_LAK_238 : str := [76;65;75;45;50;51;56].
Definition w_LAK_265 : str := [76;65;75;45;50;54;53].
Definition w_LAK_266 : str := [76;65;75;45;50;54;54].
Definition w_LAK_343 : str := [76;65;75;45;51;52;51].
Definition w_LAK_347 : str := [76;65;75;45;51;52;55].
Definition w_LAK_348 : str := [76;65;75;45;51;52;56].
Definition w_LAK_383 : str := [76;65;75;45;51;56;51].
Definition w_LAK_384 : str := [76;65;75;45;51;56;52].
Definition w_LAK_390 : str := [76;65;75;45;51;57;48].
Definition w_LAK_441 : str := [76;65;75;45;52;52;49].
Definition w_LAK_449 : str := [76;65;75;45;52;52;57].
Definition w_LAK_450 : str := [76;65;75;45;52;53;48].
Definition w_LAK_457 : str := [76;65;75;45;52;53;55].
Definition w_LAK_470 : str := [76;65;75;45;52;55;48].
Definition w_LAK_483 : str := [76;65;75;45;52;56;51].
Definition w_LAK_490 : str := [76;65;75;45;52;57;48].
Definition w_LAK_492 : str := [76;65;75;45;52;57;50].
Definition w_LAK_493 : str := [76;65;75;45;52;57;51].
Definition w_LAK_495 : str := [76;65;75;45;52;57;53].
Definition w_LAK_550 : str := [76;65;75;45;53;53;48].
Definition w_LAK_608 : str := [76;65;75;45;54;48;56].
Definition w_LAK_617 : str := [76;65;75;45;54;49;55].
Definition w_LAK_636 : str := [76;65;75;45;54;51;54].
Definition w_LAK_648 : str := [76;65;75;45;54;52;56].
Definition w_LAK_668 : str := [76;65;75;45;54;54;56].
Definition w_LAK_724 : str := [76;65;75;45;55;50;52].
Definition w_LAK_749 : str := [76;65;75;45;55;52;57].
Definition w_LAKE : str := [76;65;75;69].
Definition w_LAKKHANGYAO : str := [76;65;75;75;72;65;78;71;89;65;79].
Definition w_LAL : str := [76;65;76].
Definition w_LAM : str := [76;65;77].
Definition w_LAMADH : str := [76;65;77;65;68;72].
Definition w_LAMBDA : str := [76;65;77;66;68;65].
Definition w_LAMD : str := [76;65;77;68].
Definition w_LAMDA : str := [76;65;77;68;65].
Definition w_LAME : str := [76;65;77;69].
Definition w_LAMED : str := [76;65;77;69;68].
Definition w_LAMEDH : str := [76;65;77;69;68;72].
Definition w_LAMP : str := [76;65;77;80].
Definition w_LAN : str := [76;65;78].
Definition w_LANE : str := [76;65;78;69].
Definition w_LANES : str := [76;65;78;69;83].
Definition w_LANGUAGE : str := [76;65;78;71;85;65;71;69].
Definition w_LANTERN : str := [76;65;78;84;69;82;78].
Definition w_LAO : str := [76;65;79].
Definition w_LAP : str := [76;65;80].
Definition w_LAPAQ : str := [76;65;80;65;81].
Definition w_LAQ : str := [76;65;81].
Definition w_LARGE : str := [76;65;82;71;69].
Definition w_LARGER : str := [76;65;82;71;69;82].
Definition w_LARGEST : str := [76;65;82;71;69;83;84].
Definition w_LARI : str := [76;65;82;73].
Definition w_LARYNGEAL : str := [76;65;82;89;78;71;69;65;76].
Definition w_LAS : str := [76;65;83].
Definition w_LAST : str := [76;65;83;84].
Definition w_LAT : str := [76;65;84].
Definition w_LATE : str := [76;65;84;69].
Definition w_LATERAL : str := [76;65;84;69;82;65;76].
Definition w_LATIK : str := [76;65;84;73;75].
Definition w_LATIN : str := [76;65;84;73;78].
Definition w_LATINATE : str := [76;65;84;73;78;65;84;69].
Definition w_LAU : str := [76;65;85].
Definition w_LAUGHING : str := [76;65;85;71;72;73;78;71].
Definition w_LAUJ : str := [76;65;85;74].
Definition w_LAUKAZ : str := [76;65;85;75;65;90].
Definition w_LAULA : str := [76;65;85;76;65].
Definition w_LAW : str := [76;65;87].
Definition w_LAX : str := [76;65;88].
Definition w_LAY : str := [76;65;89].
Definition w_LAYANNA : str := [76;65;89;65;78;78;65].
Definition w_LAYAR : str := [76;65;89;65;82].
Definition w_LAZY : str := [76;65;90;89].
Definition w_LCE : str := [76;67;69].
Definition w_LCI : str := [76;67;73].
Definition w_LD : str := [76;68].
Definition w_LD2 : str := [76;68;50].
Definition w_LDAN : str := [76;68;65;78].
Definition w_LE : str := [76;69].
Definition w_LEAD : str := [76;69;65;68].
Definition w_LEADER : str := [76;69;65;68;69;82].
Definition w_LEADING : str := [76;69;65;68;73;78;71].
Definition w_LEAF : str := [76;69;65;70].
Definition w_LEATHER : str := [76;69;65;84;72;69;82].
Definition w_LEDGER : str := [76;69;68;71;69;82].
Definition w_LEE : str := [76;69;69].
Definition w_LEEEE : str := [76;69;69;69;69].
Definition w_LEEK : str := [76;69;69;75].
Definition w_LEERAEWA : str := [76;69;69;82;65;69;87;65].
Definition w_LEFT : str := [76;69;70;84].
Definition w_LEFT_FACING : str := [76;69;70;84;45;70;65;67;73;78;71].
Definition w_LEFT_HAND : str := [76;69;70;84;45;72;65;78;68].
Definition w_LEFT_HANDED : str := [76;69;70;84;45;72;65;78;68;69;68].
Definition w_LEFT_LIGHTED : str := [76;69;70;84;45;76;73;71;72;84;69;68].
Definition w_LEFT_POINTING : str := [76;69;70;84;45;80;79;73;78;84;73;78;71].
Definition w_LEFT_SHADED : str := [76;69;70;84;45;83;72;65;68;69;68].
Definition w_LEFT_SIDE : str := [76;69;70;84;45;83;73;68;69].
Definition w_LEFT_STEM : str := [76;69;70;84;45;83;84;69;77].
Definition w_LEFT_TO_RIGHT : str := [76;69;70;84;45;84;79;45;82;73;71;72;84].
Definition w_LEFTWARDS : str := [76;69;70;84;87;65;82;68;83].
Definition w_LEG : str := [76;69;71].
Definition w_LEGETOS : str := [76;69;71;69;84;79;83].
Definition w_LEGION : str := [76;69;71;73;79;78].
Definition w_LEGS : str := [76;69;71;83].
Definition w_LEI : str := [76;69;73].
Definition w_LEIMMA : str := [76;69;73;77;77;65].
Definition w_LEK : str := [76;69;75].
Definition w_LELET : str := [76;69;76;69;84].
Definition w_LEMOI : str := [76;69;77;79;73].
Definition w_LEMON : str := [76;69;77;79;78].
Definition w_LENGA : str := [76;69;78;71;65].
Definition w_LENGTH : str := [76;69;78;71;84;72].
Definition w_LENGTH_1 : str := [76;69;78;71;84;72;45;49].
Definition w_LENGTH_2 : str := [76;69;78;71;84;72;45;50].
Definition w_LENGTH_3 : str := [76;69;78;71;84;72;45;51].
Definition w_LENGTH_4 : str := [76;69;78;71;84;72;45;52].
Definition w_LENGTH_5 : str := [76;69;78;71;84;72;45;53].
Definition w_LENGTH_6 : str := [76;69;78;71;84;72;45;54].
Definition w_LENGTH_7 : str := [76;69;78;71;84;72;45;55].
Definition w_LENGTHENER : str := [76;69;78;71;84;72;69;78;69;82].
Definition w_LENIS : str := [76;69;78;73;83].
Definition w_LENTICULAR : str := [76;69;78;84;73;67;85;76;65;82].
Definition w_LEO : str := [76;69;79].
Definition w_LEOPARD : str := [76;69;79;80;65;82;68].
Definition w_LEP : str := [76;69;80].
Definition w_LEPCHA : str := [76;69;80;67;72;65].
Definition w_LESS : str := [76;69;83;83].
Definition w_LESS_THAN : str := [76;69;83;83;45;84;72;65;78].
Definition w_LESSER : str := [76;69;83;83;69;82].
Definition w_LET : str := [76;69;84].
Definition w_LETTER : str := [76;69;84;84;69;82].
Definition w_LETTERS : str := [76;69;84;84;69;82;83].
Definition w_LEU : str := [76;69;85].
Definition w_LEUAEM : str := [76;69;85;65;69;77].
Definition w_LEUAEP : str := [76;69;85;65;69;80].
Definition w_LEUM : str := [76;69;85;77].
Definition w_LEVEL : str := [76;69;86;69;76].
Definition w_LEVITATING : str := [76;69;86;73;84;65;84;73;78;71].
Definition w_LEX : str := [76;69;88].
Definition w_LEZH : str := [76;69;90;72].
Definition w_LH : str := [76;72].
Definition w_LHA : str := [76;72;65].
Definition w_LHAA : str := [76;72;65;65].
Definition w_LHAG : str := [76;72;65;71].
Definition w_LHAVIYANI : str := [76;72;65;86;73;89;65;78;73].
Definition w_LHE : str := [76;72;69].
Definition w_LHEE : str := [76;72;69;69].
Definition w_LHI : str := [76;72;73].
Definition w_LHII : str := [76;72;73;73].
Definition w_LHO : str := [76;72;79].
Definition w_LHOO : str := [76;72;79;79].
Definition w_LHU : str := [76;72;85].
Definition w_LHYA : str := [76;72;89;65].
Definition w_LI : str := [76;73].
Definition w_LIABILITY : str := [76;73;65;66;73;76;73;84;89].
Definition w_LIBERTY : str := [76;73;66;69;82;84;89].
Definition w_LIBRA : str := [76;73;66;82;65].
Definition w_LICKING : str := [76;73;67;75;73;78;71].
Definition w_LID : str := [76;73;68].
Definition w_LIE : str := [76;73;69].
Definition w_LIEE : str := [76;73;69;69].
Definition w_LIEP : str := [76;73;69;80].
Definition w_LIET : str := [76;73;69;84].
Definition w_LIEX : str := [76;73;69;88].
Definition w_LIFE : str := [76;73;70;69].
Definition w_LIFTER : str := [76;73;70;84;69;82].
Definition w_LIGATING : str := [76;73;71;65;84;73;78;71].
Definition w_LIGATURE : str := [76;73;71;65;84;85;82;69].
Definition w_LIGHT : str := [76;73;71;72;84].
Definition w_LIGHTHOUSE : str := [76;73;71;72;84;72;79;85;83;69].
Definition w_LIGHTNING : str := [76;73;71;72;84;78;73;78;71].
Definition w_LII : str := [76;73;73].
Definition w_LIL : str := [76;73;76].
Definition w_LILITH : str := [76;73;76;73;84;72].
Definition w_LILY : str := [76;73;76;89].
Definition w_LIMB : str := [76;73;77;66].
Definition w_LIMBS : str := [76;73;77;66;83].
Definition w_LIMBU : str := [76;73;77;66;85].
Definition w_LIME : str := [76;73;77;69].
Definition w_LIMIT : str := [76;73;77;73;84].
Definition w_LIMITATION : str := [76;73;77;73;84;65;84;73;79;78].
Definition w_LIMITED : str := [76;73;77;73;84;69;68].
Definition w_LIMMU : str := [76;73;77;77;85].
Definition w_LIMMU2 : str := [76;73;77;77;85;50].
Definition w_LIMMU4 : str := [76;73;77;77;85;52].
Definition w_LINE : str := [76;73;78;69].
Definition w_LINE_1 : str := [76;73;78;69;45;49].
Definition w_LINE_3 : str := [76;73;78;69;45;51].
Definition w_LINE_7 : str := [76;73;78;69;45;55].
Definition w_LINE_9 : str := [76;73;78;69;45;57].
Definition w_LINEAR : str := [76;73;78;69;65;82].
Definition w_LINES : str := [76;73;78;69;83].
Definition w_LING : str := [76;73;78;71].
Definition w_LINGSA : str := [76;73;78;71;83;65].
Definition w_LINK : str := [76;73;78;75].
Definition w_LINKED : str := [76;73;78;75;69;68].
Definition w_LINKING : str := [76;73;78;75;73;78;71].
Definition w_LION : str := [76;73;79;78].
Definition w_LIP : str := [76;73;80].
Definition w_LIPS : str := [76;73;80;83].
Definition w_LIPSTICK : str := [76;73;80;83;84;73;67;75].
Definition w_LIQ : str := [76;73;81].
Definition w_LIQUID : str := [76;73;81;85;73;68].
Definition w_LIRA : str := [76;73;82;65].
Definition w_LIS : str := [76;73;83].
Definition w_LISH : str := [76;73;83;72].
Definition w_LISU : str := [76;73;83;85].
Definition w_LIT : str := [76;73;84].
Definition w_LITH : str := [76;73;84;72].
Definition w_LITRA : str := [76;73;84;82;65].
Definition w_LITTER : str := [76;73;84;84;69;82].
Definition w_LITTLE : str := [76;73;84;84;76;69].
Definition w_LIVRE : str := [76;73;86;82;69].
Definition w_LIWN : str := [76;73;87;78].
Definition w_LIX : str := [76;73;88].
Definition w_LIZARD : str := [76;73;90;65;82;68].
Definition w_LJ : str := [76;74].
Definition w_LJE : str := [76;74;69].
Definition w_LJUDIJE : str := [76;74;85;68;73;74;69].
Definition w_LL : str := [76;76].
Definition w_LLA : str := [76;76;65].
Definition w_LLE : str := [76;76;69].
Definition w_LLL : str := [76;76;76].
Definition w_LLLA : str := [76;76;76;65].
Definition w_LM : str := [76;77].
Definition w_LN : str := [76;78].
Definition w_LO : str := [76;79].
Definition w_LOA : str := [76;79;65].
Definition w_LOCATION : str := [76;79;67;65;84;73;79;78].
Definition w_LOCATION_FLOORPLANE : str := [76;79;67;65;84;73;79;78;45;70;76;79;79;82;80;76;65;78;69].
Definition w_LOCATION_WALLPLANE : str := [76;79;67;65;84;73;79;78;45;87;65;76;76;80;76;65;78;69].
Definition w_LOCATIVE : str := [76;79;67;65;84;73;86;69].
Definition w_LOCK : str := [76;79;67;75].
Definition w_LOCOMOTIVE : str := [76;79;67;79;77;79;84;73;86;69].
Definition w_LODESTONE : str := [76;79;68;69;83;84;79;78;69].
Definition w_LOG : str := [76;79;71].
Definition w_LOGICAL : str := [76;79;71;73;67;65;76].
Definition w_LOGOGRAM : str := [76;79;71;79;71;82;65;77].
Definition w_LOGOTYPE : str := [76;79;71;79;84;89;80;69].
Definition w_LOGR : str := [76;79;71;82].
Definition w_LOLL : str := [76;79;76;76].
Definition w_LOLLIPOP : str := [76;79;76;76;73;80;79;80].
Definition w_LOM : str := [76;79;77].
Definition w_LOMMAE : str := [76;79;77;77;65;69].
Definition w_LONG : str := [76;79;78;71].
Definition w_LONG_BRANCH_AR : str := [76;79;78;71;45;66;82;65;78;67;72;45;65;82].
Definition w_LONG_BRANCH_HAGALL : str := [76;79;78;71;45;66;82;65;78;67;72;45;72;65;71;65;76;76].
Definition w_LONG_BRANCH_MADR : str := [76;79;78;71;45;66;82;65;78;67;72;45;77;65;68;82].
Definition w_LONG_BRANCH_OSS : str := [76;79;78;71;45;66;82;65;78;67;72;45;79;83;83].
Definition w_LONG_BRANCH_SOL : str := [76;79;78;71;45;66;82;65;78;67;72;45;83;79;76].
Definition w_LONG_BRANCH_YR : str := [76;79;78;71;45;66;82;65;78;67;72;45;89;82].
Definition w_LONG_LEGGED : str := [76;79;78;71;45;76;69;71;71;69;68].
Definition w_LONGA : str := [76;79;78;71;65].
Definition w_LONSUM : str := [76;79;78;83;85;77].
Definition w_LOO : str := [76;79;79].
Definition w_LOOK : str := [76;79;79;75].
Definition w_LOON : str := [76;79;79;78].
Definition w_LOOP : str := [76;79;79;80].
Definition w_LOOPED : str := [76;79;79;80;69;68].
Definition w_LOOT : str := [76;79;79;84].
Definition w_LOP : str := [76;79;80].
Definition w_LOQ : str := [76;79;81].
Definition w_LORRAINE : str := [76;79;82;82;65;73;78;69].
Definition w_LORRY : str := [76;79;82;82;89].
Definition w_LOS : str := [76;79;83].
Definition w_LOSSLESS : str := [76;79;83;83;76;69;83;83].
Definition w_LOT : str := [76;79;84].
Definition w_LOTUS : str := [76;79;84;85;83].
Definition w_LOUDLY : str := [76;79;85;68;76;89].
Definition w_LOUDSPEAKER : str := [76;79;85;68;83;80;69;65;75;69;82].
Definition w_LOURE : str := [76;79;85;82;69].
Definition w_LOVE : str := [76;79;86;69].
Definition w_LOW : str := [76;79;87].
Definition w_LOW_9 : str := [76;79;87;45;57].
Definition w_LOW_FALLING : str := [76;79;87;45;70;65;76;76;73;78;71].
Definition w_LOW_MID : str := [76;79;87;45;77;73;68].
Definition w_LOW_REVERSED_9 : str := [76;79;87;45;82;69;86;69;82;83;69;68;45;57].
Definition w_LOWER : str := [76;79;87;69;82].
Definition w_LOWERED : str := [76;79;87;69;82;69;68].
Definition w_LOX : str := [76;79;88].
Definition w_LOZENGE : str := [76;79;90;69;78;71;69].
Definition w_LS : str := [76;83].
Definition w_LU : str := [76;85].
Definition w_LU2 : str := [76;85;50].
Definition w_LU3 : str := [76;85;51].
Definition w_LUAEP : str := [76;85;65;69;80].
Definition w_LUB : str := [76;85;66].
Definition w_LUE : str := [76;85;69].
Definition w_LUGAL : str := [76;85;71;65;76].
Definition w_LUGGAGE : str := [76;85;71;71;65;71;69].
Definition w_LUH : str := [76;85;72].
Definition w_LUHUR : str := [76;85;72;85;82].
Definition w_LUIS : str := [76;85;73;83].
Definition w_LUL : str := [76;85;76].
Definition w_LUM : str := [76;85;77].
Definition w_LUNATE : str := [76;85;78;65;84;69].
Definition w_LUNGSI : str := [76;85;78;71;83;73].
Definition w_LUO : str := [76;85;79].
Definition w_LUOP : str := [76;85;79;80].
Definition w_LUOT : str := [76;85;79;84].
Definition w_LUOX : str := [76;85;79;88].
Definition w_LUP : str := [76;85;80].
Definition w_LUR : str := [76;85;82].
Definition w_LURX : str := [76;85;82;88].
Definition w_LUS : str := [76;85;83].
Definition w_LUT : str := [76;85;84].
Definition w_LUX : str := [76;85;88].
Definition w_LV : str := [76;86].
Definition w_LWA : str := [76;87;65].
Definition w_LWAA : str := [76;87;65;65].
Definition w_LWE : str := [76;87;69].
Definition w_LWI : str := [76;87;73].
Definition w_LWII : str := [76;87;73;73].
Definition w_LWO : str := [76;87;79].
Definition w_LWOO : str := [76;87;79;79].
Definition w_LX : str := [76;88].
Definition w_LY : str := [76;89].
Definition w_LYA : str := [76;89;65].
Definition w_LYCIAN : str := [76;89;67;73;65;78].
Definition w_LYDIAN : str := [76;89;68;73;65;78].
Definition w_LYGISMA : str := [76;89;71;73;83;77;65].
Definition w_LYING : str := [76;89;73;78;71].
Definition w_LYIT : str := [76;89;73;84].
Definition w_LYP : str := [76;89;80].
Definition w_LYR : str := [76;89;82].
Definition w_LYRX : str := [76;89;82;88].
Definition w_LYT : str := [76;89;84].
Definition w_LYX : str := [76;89;88].
Definition w_LYY : str := [76;89;89].
Definition w_LZ : str := [76;90].
Definition w_M : str := [77].
Definition w_M001 : str := [77;48;48;49].
Definition w_M001A : str := [77;48;48;49;65].
Definition w_M001B : str := [77;48;48;49;66].
Definition w_M002 : str := [77;48;48;50].
Definition w_M003 : str := [77;48;48;51].
Definition w_M003A : str := [77;48;48;51;65].
Definition w_M004 : str := [77;48;48;52].
Definition w_M005 : str := [77;48;48;53].
Definition w_M006 : str := [77;48;48;54].
Definition w_M007 : str := [77;48;48;55].
Definition w_M008 : str := [77;48;48;56].
Definition w_M009 : str := [77;48;48;57].
Definition w_M010 : str := [77;48;49;48].
Definition w_M010A : str := [77;48;49;48;65].
Definition w_M011 : str := [77;48;49;49].
Definition w_M012 : str := [77;48;49;50].
Definition w_M012A : str := [77;48;49;50;65].
Definition w_M012B : str := [77;48;49;50;66].
Definition w_M012C : str := [77;48;49;50;67].
Definition w_M012D : str := [77;48;49;50;68].
Definition w_M012E : str := [77;48;49;50;69].
Definition w_M012F : str := [77;48;49;50;70].
Definition w_M012G : str := [77;48;49;50;71].
Definition w_M012H : str := [77;48;49;50;72].
Definition w_M013 : str := [77;48;49;51].
Definition w_M014 : str := [77;48;49;52].
Definition w_M015 : str := [77;48;49;53].
Definition w_M015A : str := [77;48;49;53;65].
Definition w_M016 : str := [77;48;49;54].
Definition w_M016A : str := [77;48;49;54;65].
Definition w_M017 : str := [77;48;49;55].
Definition w_M017A : str := [77;48;49;55;65].
Definition w_M018 : str := [77;48;49;56].
Definition w_M019 : str := [77;48;49;57].
Definition w_M020 : str := [77;48;50;48].
Definition w_M021 : str := [77;48;50;49].
Definition w_M022 : str := [77;48;50;50].
Definition w_M022A : str := [77;48;50;50;65].
Definition w_M023 : str := [77;48;50;51].
Definition w_M024 : str := [77;48;50;52].
Definition w_M024A : str := [77;48;50;52;65].
Definition w_M025 : str := [77;48;50;53].
Definition w_M026 : str := [77;48;50;54].
Definition w_M027 : str := [77;48;50;55].
Definition w_M028 : str := [77;48;50;56].
Definition w_M028A : str := [77;48;50;56;65].
Definition w_M029 : str := [77;48;50;57].
Definition w_M030 : str := [77;48;51;48].
Definition w_M031 : str := [77;48;51;49].
Definition w_M031A : str := [77;48;51;49;65].
Definition w_M032 : str := [77;48;51;50].
Definition w_M033 : str := [77;48;51;51].
Definition w_M033A : str := [77;48;51;51;65].
Definition w_M033B : str := [77;48;51;51;66].
Definition w_M034 : str := [77;48;51;52].
Definition w_M035 : str := [77;48;51;53].
Definition w_M036 : str := [77;48;51;54].
Definition w_M037 : str := [77;48;51;55].
Definition w_M038 : str := [77;48;51;56].
Definition w_M039 : str := [77;48;51;57].
Definition w_M040 : str := [77;48;52;48].
Definition w_M040A : str := [77;48;52;48;65].
Definition w_M041 : str := [77;48;52;49].
Definition w_M042 : str := [77;48;52;50].
Definition w_M043 : str := [77;48;52;51].
Definition w_M044 : str := [77;48;52;52].
Definition w_M045 : str := [77;48;52;53].
Definition w_M046 : str := [77;48;52;54].
Definition w_M047 : str := [77;48;52;55].
Definition w_M048 : str := [77;48;52;56].
Definition w_M049 : str := [77;48;52;57].
Definition w_M050 : str := [77;48;53;48].
Definition w_M051 : str := [77;48;53;49].
Definition w_M052 : str := [77;48;53;50].
Definition w_M053 : str := [77;48;53;51].
Definition w_M054 : str := [77;48;53;52].
Definition w_M055 : str := [77;48;53;53].
Definition w_M056 : str := [77;48;53;54].
Definition w_M057 : str := [77;48;53;55].
Definition w_M058 : str := [77;48;53;56].
Definition w_M059 : str := [77;48;53;57].
Definition w_M060 : str := [77;48;54;48].
Definition w_M061 : str := [77;48;54;49].
Definition w_M062 : str := [77;48;54;50].
Definition w_M063 : str := [77;48;54;51].
Definition w_M064 : str := [77;48;54;52].
Definition w_M065 : str := [77;48;54;53].
Definition w_M066 : str := [77;48;54;54].
Definition w_M067 : str := [77;48;54;55].
Definition w_M068 : str := [77;48;54;56].
Definition w_M069 : str := [77;48;54;57].
Definition w_M070 : str := [77;48;55;48].
Definition w_M071 : str := [77;48;55;49].
Definition w_M072 : str := [77;48;55;50].
Definition w_M073 : str := [77;48;55;51].
Definition w_M074 : str := [77;48;55;52].
Definition w_M075 : str := [77;48;55;53].
Definition w_M076 : str := [77;48;55;54].
Definition w_M077 : str := [77;48;55;55].
Definition w_M078 : str := [77;48;55;56].
Definition w_M079 : str := [77;48;55;57].
Definition w_M080 : str := [77;48;56;48].
Definition w_M081 : str := [77;48;56;49].
Definition w_M082 : str := [77;48;56;50].
Definition w_M083 : str := [77;48;56;51].
Definition w_M084 : str := [77;48;56;52].
Definition w_M085 : str := [77;48;56;53].
Definition w_M086 : str := [77;48;56;54].
Definition w_M087 : str := [77;48;56;55].
Definition w_M088 : str := [77;48;56;56].
Definition w_M089 : str := [77;48;56;57].
Definition w_M090 : str := [77;48;57;48].
Definition w_M091 : str := [77;48;57;49].
Definition w_M092 : str := [77;48;57;50].
Definition w_M093 : str := [77;48;57;51].
Definition w_M094 : str := [77;48;57;52].
Definition w_M095 : str := [77;48;57;53].
Definition w_M096 : str := [77;48;57;54].
Definition w_M097 : str := [77;48;57;55].
Definition w_M098 : str := [77;48;57;56].
Definition w_M099 : str := [77;48;57;57].
Definition w_M100 : str := [77;49;48;48].
Definition w_M101 : str := [77;49;48;49].
Definition w_M102 : str := [77;49;48;50].
Definition w_M103 : str := [77;49;48;51].
Definition w_M104 : str := [77;49;48;52].
Definition w_M105 : str := [77;49;48;53].
Definition w_M106 : str := [77;49;48;54].
Definition w_M107 : str := [77;49;48;55].
Definition w_M108 : str := [77;49;48;56].
Definition w_M109 : str := [77;49;48;57].
Definition w_M110 : str := [77;49;49;48].
Definition w_M111 : str := [77;49;49;49].
Definition w_M112 : str := [77;49;49;50].
Definition w_M113 : str := [77;49;49;51].
Definition w_M114 : str := [77;49;49;52].
Definition w_M115 : str := [77;49;49;53].
Definition w_M116 : str := [77;49;49;54].
Definition w_M117 : str := [77;49;49;55].
Definition w_M118 : str := [77;49;49;56].
Definition w_M119 : str := [77;49;49;57].
Definition w_M120 : str := [77;49;50;48].
Definition w_M121 : str := [77;49;50;49].
Definition w_M122 : str := [77;49;50;50].
Definition w_M123 : str := [77;49;50;51].
Definition w_M124 : str := [77;49;50;52].
Definition w_M125 : str := [77;49;50;53].
Definition w_M126 : str := [77;49;50;54].
Definition w_M127 : str := [77;49;50;55].
Definition w_M128 : str := [77;49;50;56].
Definition w_M129 : str := [77;49;50;57].
Definition w_M130 : str := [77;49;51;48].
Definition w_M131 : str := [77;49;51;49].
Definition w_M132 : str := [77;49;51;50].
Definition w_M133 : str := [77;49;51;51].
Definition w_M134 : str := [77;49;51;52].
Definition w_M135 : str := [77;49;51;53].
Definition w_M136 : str := [77;49;51;54].
Definition w_M137 : str := [77;49;51;55].
Definition w_M138 : str := [77;49;51;56].
Definition w_M139 : str := [77;49;51;57].
Definition w_M140 : str := [77;49;52;48].
Definition w_M141 : str := [77;49;52;49].
Definition w_M142 : str := [77;49;52;50].
Definition w_M143 : str := [77;49;52;51].
Definition w_M144 : str := [77;49;52;52].
Definition w_M145 : str := [77;49;52;53].
Definition w_M146 : str := [77;49;52;54].
Definition w_M147 : str := [77;49;52;55].
Definition w_M148 : str := [77;49;52;56].
Definition w_M149 : str := [77;49;52;57].
Definition w_M150 : str := [77;49;53;48].
Definition w_M151 : str := [77;49;53;49].
Definition w_M152 : str := [77;49;53;50].
Definition w_M153 : str := [77;49;53;51].
Definition w_M154 : str := [77;49;53;52].
Definition w_M155 : str := [77;49;53;53].
Definition w_M156 : str := [77;49;53;54].
Definition w_M157 : str := [77;49;53;55].
Definition w_M158 : str := [77;49;53;56].
Definition w_M159 : str := [77;49;53;57].
Definition w_M160 : str := [77;49;54;48].
Definition w_M161 : str := [77;49;54;49].
Definition w_M162 : str := [77;49;54;50].
Definition w_M163 : str := [77;49;54;51].
Definition w_M164 : str := [77;49;54;52].
Definition w_M165 : str := [77;49;54;53].
Definition w_M166 : str := [77;49;54;54].
Definition w_M167 : str := [77;49;54;55].
Definition w_M168 : str := [77;49;54;56].
Definition w_M169 : str := [77;49;54;57].
Definition w_M170 : str := [77;49;55;48].
Definition w_M171 : str := [77;49;55;49].
Definition w_M172 : str := [77;49;55;50].
Definition w_M173 : str := [77;49;55;51].
Definition w_M174 : str := [77;49;55;52].
Definition w_M175 : str := [77;49;55;53].
Definition w_M176 : str := [77;49;55;54].
Definition w_M177 : str := [77;49;55;55].
Definition w_M178 : str := [77;49;55;56].
Definition w_M179 : str := [77;49;55;57].
Definition w_M180 : str := [77;49;56;48].
Definition w_M181 : str := [77;49;56;49].
Definition w_M182 : str := [77;49;56;50].
Definition w_M183 : str := [77;49;56;51].
Definition w_M184 : str := [77;49;56;52].
Definition w_M185 : str := [77;49;56;53].
Definition w_M186 : str := [77;49;56;54].
Definition w_M187 : str := [77;49;56;55].
Definition w_M188 : str := [77;49;56;56].
Definition w_M189 : str := [77;49;56;57].
Definition w_M190 : str := [77;49;57;48].
Definition w_M191 : str := [77;49;57;49].
Definition w_M192 : str := [77;49;57;50].
Definition w_M193 : str := [77;49;57;51].
Definition w_M194 : str := [77;49;57;52].
Definition w_M195 : str := [77;49;57;53].
Definition w_M196 : str := [77;49;57;54].
Definition w_M197 : str := [77;49;57;55].
Definition w_MA : str := [77;65].
Definition w_MA_1 : str := [77;65;45;49].
Definition w_MA_2 : str := [77;65;45;50].
Definition w_MA_3 : str := [77;65;45;51].
Definition w_MA_4 : str := [77;65;45;52].
Definition w_MA_5 : str := [77;65;45;53].
Definition w_MA_6 : str := [77;65;45;54].
Definition w_MA_7 : str := [77;65;45;55].
Definition w_MA2 : str := [77;65;50].
Definition w_MAA : str := [77;65;65].
Definition w_MAAI : str := [77;65;65;73].
Definition w_MAAYYAA : str := [77;65;65;89;89;65;65].
Definition w_MACHINE : str := [77;65;67;72;73;78;69].
Definition w_MACRON : str := [77;65;67;82;79;78].
Definition w_MACRON_ACUTE : str := [77;65;67;82;79;78;45;65;67;85;84;69].
Definition w_MACRON_BREVE : str := [77;65;67;82;79;78;45;66;82;69;86;69].
Definition w_MACRON_GRAVE : str := [77;65;67;82;79;78;45;71;82;65;86;69].
Definition w_MADDA : str := [77;65;68;68;65].
Definition w_MADDAH : str := [77;65;68;68;65;72].
Definition w_MADU : str := [77;65;68;85].
Definition w_MADYA : str := [77;65;68;89;65].
Definition w_MAE : str := [77;65;69].
Definition w_MAEKEUP : str := [77;65;69;75;69;85;80].
Definition w_MAELEE : str := [77;65;69;76;69;69].
Definition w_MAEM : str := [77;65;69;77].
Definition w_MAEMBA : str := [77;65;69;77;66;65].
Definition w_MAEMBGBIEE : str := [77;65;69;77;66;71;66;73;69;69].
Definition w_MAEMGBIEE : str := [77;65;69;77;71;66;73;69;69].
Definition w_MAEMKPEN : str := [77;65;69;77;75;80;69;78].
Definition w_MAEMVEUX : str := [77;65;69;77;86;69;85;88].
Definition w_MAENJET : str := [77;65;69;78;74;69;84].
Definition w_MAENYI : str := [77;65;69;78;89;73].
Definition w_MAESI : str := [77;65;69;83;73].
Definition w_MAGE : str := [77;65;71;69].
Definition w_MAGNIFYING : str := [77;65;71;78;73;70;89;73;78;71].
Definition w_MAH : str := [77;65;72].
Definition w_MAHAAPRAANA : str := [77;65;72;65;65;80;82;65;65;78;65].
Definition w_MAHAJANI : str := [77;65;72;65;74;65;78;73].
Definition w_MAHAPAKH : str := [77;65;72;65;80;65;75;72].
Definition w_MAHAPRANA : str := [77;65;72;65;80;82;65;78;65].
Definition w_MAHHA : str := [77;65;72;72;65].
Definition w_MAHJONG : str := [77;65;72;74;79;78;71].
Definition w_MAI : str := [77;65;73].
Definition w_MAIDEN : str := [77;65;73;68;69;78].
Definition w_MAIKURO : str := [77;65;73;75;85;82;79].
Definition w_MAILBOX : str := [77;65;73;76;66;79;88].
Definition w_MAIMALAI : str := [77;65;73;77;65;76;65;73].
Definition w_MAIMUAN : str := [77;65;73;77;85;65;78].
Definition w_MAIRU : str := [77;65;73;82;85].
Definition w_MAITAIKHU : str := [77;65;73;84;65;73;75;72;85].
Definition w_MAIYAMOK : str := [77;65;73;89;65;77;79;75].
Definition w_MAIZE : str := [77;65;73;90;69].
Definition w_MAKSURA : str := [77;65;75;83;85;82;65].
Definition w_MALAKON : str := [77;65;76;65;75;79;78].
Definition w_MALAYALAM : str := [77;65;76;65;89;65;76;65;77].
Definition w_MALE : str := [77;65;76;69].
Definition w_MALEERI : str := [77;65;76;69;69;82;73].
Definition w_MALTESE : str := [77;65;76;84;69;83;69].
Definition w_MAN : str := [77;65;78].
Definition w_MANACLES : str := [77;65;78;65;67;76;69;83].
Definition w_MANAT : str := [77;65;78;65;84].
Definition w_MANCHU : str := [77;65;78;67;72;85].
Definition w_MANDAIC : str := [77;65;78;68;65;73;67].
Definition w_MANDAILING : str := [77;65;78;68;65;73;76;73;78;71].
Definition w_MANGALAM : str := [77;65;78;71;65;76;65;77].
Definition w_MANICHAEAN : str := [77;65;78;73;67;72;65;69;65;78].
Definition w_MANNA : str := [77;65;78;78;65].
Definition w_MANNAZ : str := [77;65;78;78;65;90].
Definition w_MANS : str := [77;65;78;83].
Definition w_MANSUAE : str := [77;65;78;83;85;65;69].
Definition w_MANSYON : str := [77;65;78;83;89;79;78].
Definition w_MANTELPIECE : str := [77;65;78;84;69;76;80;73;69;67;69].
Definition w_MAO : str := [77;65;79].
Definition w_MAP : str := [77;65;80].
Definition w_MAPIQ : str := [77;65;80;73;81].
Definition w_MAPLE : str := [77;65;80;76;69].
Definition w_MAQ : str := [77;65;81].
Definition w_MAQAF : str := [77;65;81;65;70].
Definition w_MAR : str := [77;65;82].
Definition w_MARBUTA : str := [77;65;82;66;85;84;65].
Definition w_MARCASITE : str := [77;65;82;67;65;83;73;84;69].
Definition w_MARCATO : str := [77;65;82;67;65;84;79].
Definition w_MARCATO_STACCATO : str := [77;65;82;67;65;84;79;45;83;84;65;67;67;65;84;79].
Definition w_MARCH : str := [77;65;82;67;72].
Definition w_MARCHEN : str := [77;65;82;67;72;69;78].
Definition w_MARE : str := [77;65;82;69].
Definition w_MARK : str := [77;65;82;75].
Definition w_MARK_1 : str := [77;65;82;75;45;49].
Definition w_MARK_2 : str := [77;65;82;75;45;50].
Definition w_MARK_3 : str := [77;65;82;75;45;51].
Definition w_MARK_4 : str := [77;65;82;75;45;52].
Definition w_MARKER : str := [77;65;82;75;69;82].
Definition w_MARKS : str := [77;65;82;75;83].
Definition w_MARRIAGE : str := [77;65;82;82;73;65;71;69].
Definition w_MARRYING : str := [77;65;82;82;89;73;78;71].
Definition w_MARTIAL : str := [77;65;82;84;73;65;76].
Definition w_MARTYRIA : str := [77;65;82;84;89;82;73;65].
Definition w_MARUKU : str := [77;65;82;85;75;85].
Definition w_MARWARI : str := [77;65;82;87;65;82;73].
Definition w_MARY : str := [77;65;82;89].
Definition w_MASARAM : str := [77;65;83;65;82;65;77].
Definition w_MASCULINE : str := [77;65;83;67;85;76;73;78;69].
Definition w_MASH : str := [77;65;83;72].
Definition w_MASH2 : str := [77;65;83;72;50].
Definition w_MASHFAAT : str := [77;65;83;72;70;65;65;84].
Definition w_MASK : str := [77;65;83;75].
Definition w_MASORA : str := [77;65;83;79;82;65].
Definition w_MASSAGE : str := [77;65;83;83;65;71;69].
Definition w_MASSING : str := [77;65;83;83;73;78;71].
Definition w_MASU : str := [77;65;83;85].
Definition w_MAT : str := [77;65;84].
Definition w_MATERIALS : str := [77;65;84;69;82;73;65;76;83].
Definition w_MATHEMATICAL : str := [77;65;84;72;69;77;65;84;73;67;65;76].
Definition w_MATRIX : str := [77;65;84;82;73;88].
Definition w_MATTOCK : str := [77;65;84;84;79;67;75].
Definition w_MAU : str := [77;65;85].
Definition w_MAX : str := [77;65;88].
Definition w_MAXIMA : str := [77;65;88;73;77;65].
Definition w_MAXIMIZE : str := [77;65;88;73;77;73;90;69].
Definition w_MAY : str := [77;65;89].
Definition w_MAYANNA : str := [77;65;89;65;78;78;65].
Definition w_MAYEK : str := [77;65;89;69;75].
Definition w_MB : str := [77;66].
Definition w_MB2 : str := [77;66;50].
Definition w_MB3 : str := [77;66;51].
Definition w_MB4 : str := [77;66;52].
Definition w_MBA : str := [77;66;65].
Definition w_MBAA : str := [77;66;65;65].
Definition w_MBAAKET : str := [77;66;65;65;75;69;84].
Definition w_MBAARAE : str := [77;66;65;65;82;65;69].
Definition w_MBANYI : str := [77;66;65;78;89;73].
Definition w_MBAQ : str := [77;66;65;81].
Definition w_MBE : str := [77;66;69].
Definition w_MBEE : str := [77;66;69;69].
Definition w_MBEEKEET : str := [77;66;69;69;75;69;69;84].
Definition w_MBEN : str := [77;66;69;78].
Definition w_MBERAE : str := [77;66;69;82;65;69].
Definition w_MBEUM : str := [77;66;69;85;77].
Definition w_MBEURI : str := [77;66;69;85;82;73].
Definition w_MBEUX : str := [77;66;69;85;88].
Definition w_MBI : str := [77;66;73].
Definition w_MBIRIEEN : str := [77;66;73;82;73;69;69;78].
Definition w_MBIT : str := [77;66;73;84].
Definition w_MBO : str := [77;66;79].
Definition w_MBOO : str := [77;66;79;79].
Definition w_MBU : str := [77;66;85].
Definition w_MBUAE : str := [77;66;85;65;69].
Definition w_MBUAEM : str := [77;66;85;65;69;77].
Definition w_MBUE : str := [77;66;85;69].
Definition w_MBUO : str := [77;66;85;79].
Definition w_MBUOQ : str := [77;66;85;79;81].
Definition w_MBUU : str := [77;66;85;85].
Definition w_MC : str := [77;67].
Definition w_MCHAN : str := [77;67;72;65;78].
Definition w_MCHU : str := [77;67;72;85].
Definition w_MD : str := [77;68].
Definition w_MDUN : str := [77;68;85;78].
Definition w_ME : str := [77;69].
Definition w_ME_1 : str := [77;69;45;49].
Definition w_ME_2 : str := [77;69;45;50].
Definition w_ME_MA : str := [77;69;45;77;65].
Definition w_MEASURE : str := [77;69;65;83;85;82;69].
Definition w_MEASURED : str := [77;69;65;83;85;82;69;68].
Definition w_MEAT : str := [77;69;65;84].
Definition w_MED : str := [77;69;68].
Definition w_MEDAL : str := [77;69;68;65;76].
Definition w_MEDIAL : str := [77;69;68;73;65;76].
Definition w_MEDICAL : str := [77;69;68;73;67;65;76].
Definition w_MEDICINE : str := [77;69;68;73;67;73;78;69].
Definition w_MEDIUM : str := [77;69;68;73;85;77].
Definition w_MEE : str := [77;69;69].
Definition w_MEEEE : str := [77;69;69;69;69].
Definition w_MEEJ : str := [77;69;69;74].
Definition w_MEEM : str := [77;69;69;77].
Definition w_MEEMU : str := [77;69;69;77;85].
Definition w_MEET : str := [77;69;69;84].
Definition w_MEETEI : str := [77;69;69;84;69;73].
Definition w_MEETORU : str := [77;69;69;84;79;82;85].
Definition w_MEGA : str := [77;69;71;65].
Definition w_MEGALI : str := [77;69;71;65;76;73].
Definition w_MEGAPHONE : str := [77;69;71;65;80;72;79;78;69].
Definition w_MEGATON : str := [77;69;71;65;84;79;78].
Definition w_MEIZI : str := [77;69;73;90;73].
Definition w_MELIK : str := [77;69;76;73;75].
Definition w_MELODIC : str := [77;69;76;79;68;73;67].
Definition w_MELON : str := [77;69;76;79;78].
Definition w_MEM : str := [77;69;77].
Definition w_MEM_QOPH : str := [77;69;77;45;81;79;80;72].
Definition w_MEMBER : str := [77;69;77;66;69;82].
Definition w_MEMBERSHIP : str := [77;69;77;66;69;82;83;72;73;80].
Definition w_MEMO : str := [77;69;77;79].
Definition w_MEN : str := [77;69;78].
Definition w_MENDE : str := [77;69;78;68;69].
Definition w_MENDUT : str := [77;69;78;68;85;84].
Definition w_MENOE : str := [77;69;78;79;69].
Definition w_MENORAH : str := [77;69;78;79;82;65;72].
Definition w_MENS : str := [77;69;78;83].
Definition w_MERCURY : str := [77;69;82;67;85;82;89].
Definition w_MERGE : str := [77;69;82;71;69].
Definition w_MERI : str := [77;69;82;73].
Definition w_MERIDIANS : str := [77;69;82;73;68;73;65;78;83].
Definition w_MERKHA : str := [77;69;82;75;72;65].
Definition w_MEROITIC : str := [77;69;82;79;73;84;73;67].
Definition w_MERPERSON : str := [77;69;82;80;69;82;83;79;78].
Definition w_MES : str := [77;69;83].
Definition w_MESH : str := [77;69;83;72].
Definition w_MESI : str := [77;69;83;73].
Definition w_MESO : str := [77;69;83;79].
Definition w_MESSENIAN : str := [77;69;83;83;69;78;73;65;78].
Definition w_META : str := [77;69;84;65].
Definition w_METAL : str := [77;69;84;65;76].
Definition w_METEG : str := [77;69;84;69;71].
Definition w_METEK : str := [77;69;84;69;75].
Definition w_METOBELUS : str := [77;69;84;79;66;69;76;85;83].
Definition w_METRETES : str := [77;69;84;82;69;84;69;83].
Definition w_METRIA : str := [77;69;84;82;73;65].
Definition w_METRICAL : str := [77;69;84;82;73;67;65;76].
Definition w_METRO : str := [77;69;84;82;79].
Definition w_MEUN : str := [77;69;85;78].
Definition w_MEUNJOMNDEUQ : str := [77;69;85;78;74;79;77;78;68;69;85;81].
Definition w_MEUQ : str := [77;69;85;81].
Definition w_MEUT : str := [77;69;85;84].
Definition w_MEX : str := [77;69;88].
Definition w_MEZZO : str := [77;69;90;90;79].
Definition w_MFAA : str := [77;70;65;65].
Definition w_MFEUAE : str := [77;70;69;85;65;69].
Definition w_MFEUQ : str := [77;70;69;85;81].
Definition w_MFEUT : str := [77;70;69;85;84].
Definition w_MFIEE : str := [77;70;73;69;69].
Definition w_MFIYAQ : str := [77;70;73;89;65;81].
Definition w_MFO : str := [77;70;79].
Definition w_MFON : str := [77;70;79;78].
Definition w_MG : str := [77;71].
Definition w_MGA : str := [77;71;65].
Definition w_MGAP : str := [77;71;65;80].
Definition w_MGAT : str := [77;71;65;84].
Definition w_MGAX : str := [77;71;65;88].
Definition w_MGBA : str := [77;71;66;65].
Definition w_MGBASA : str := [77;71;66;65;83;65].
Definition w_MGBASAQ : str := [77;71;66;65;83;65;81].
Definition w_MGBE : str := [77;71;66;69].
Definition w_MGBEE : str := [77;71;66;69;69].
Definition w_MGBEN : str := [77;71;66;69;78].
Definition w_MGBEUN : str := [77;71;66;69;85;78].
Definition w_MGBI : str := [77;71;66;73].
Definition w_MGBIEE : str := [77;71;66;73;69;69].
Definition w_MGBO : str := [77;71;66;79].
Definition w_MGBOFUM : str := [77;71;66;79;70;85;77].
Definition w_MGBOO : str := [77;71;66;79;79].
Definition w_MGBU : str := [77;71;66;85].
Definition w_MGE : str := [77;71;69].
Definition w_MGEP : str := [77;71;69;80].
Definition w_MGEX : str := [77;71;69;88].
Definition w_MGIE : str := [77;71;73;69].
Definition w_MGIEX : str := [77;71;73;69;88].
Definition w_MGO : str := [77;71;79].
Definition w_MGOP : str := [77;71;79;80].
Definition w_MGOT : str := [77;71;79;84].
Definition w_MGOX : str := [77;71;79;88].
Definition w_MGU : str := [77;71;85].
Definition w_MGUO : str := [77;71;85;79].
Definition w_MGUOP : str := [77;71;85;79;80].
Definition w_MGUOX : str := [77;71;85;79;88].
Definition w_MGUP : str := [77;71;85;80].
Definition w_MGUR : str := [77;71;85;82].
Definition w_MGURX : str := [77;71;85;82;88].
Definition w_MGUT : str := [77;71;85;84].
Definition w_MGUX : str := [77;71;85;88].
Definition w_MH : str := [77;72].
Definition w_MHA : str := [77;72;65].
Definition w_MHZ : str := [77;72;90].
Definition w_MI : str := [77;73].
Definition w_MI_1 : str := [77;73;45;49].
Definition w_MI_2 : str := [77;73;45;50].
Definition w_MI_3 : str := [77;73;45;51].
Definition w_MI_4 : str := [77;73;45;52].
Definition w_MI_5 : str := [77;73;45;53].
Definition w_MI_6 : str := [77;73;45;54].
Definition w_MI_7 : str := [77;73;45;55].
Definition w_MIAO : str := [77;73;65;79].
Definition w_MICRO : str := [77;73;67;82;79].
Definition w_MICROPHONE : str := [77;73;67;82;79;80;72;79;78;69].
Definition w_MICROSCOPE : str := [77;73;67;82;79;83;67;79;80;69].
Definition w_MID : str := [77;73;68].
Definition w_MID_LEVEL : str := [77;73;68;45;76;69;86;69;76].
Definition w_MIDDLE : str := [77;73;68;68;76;69].
Definition w_MIDDLE_WELSH : str := [77;73;68;68;76;69;45;87;69;76;83;72].
Definition w_MIDLINE : str := [77;73;68;76;73;78;69].
Definition w_MIE : str := [77;73;69].
Definition w_MIEE : str := [77;73;69;69].
Definition w_MIEP : str := [77;73;69;80].
Definition w_MIEUM : str := [77;73;69;85;77].
Definition w_MIEUM_CHIEUCH : str := [77;73;69;85;77;45;67;72;73;69;85;67;72].
Definition w_MIEUM_CIEUC : str := [77;73;69;85;77;45;67;73;69;85;67].
Definition w_MIEUM_HIEUH : str := [77;73;69;85;77;45;72;73;69;85;72].
Definition w_MIEUM_KIYEOK : str := [77;73;69;85;77;45;75;73;89;69;79;75].
Definition w_MIEUM_NIEUN : str := [77;73;69;85;77;45;78;73;69;85;78].
Definition w_MIEUM_PANSIOS : str := [77;73;69;85;77;45;80;65;78;83;73;79;83].
Definition w_MIEUM_PIEUP : str := [77;73;69;85;77;45;80;73;69;85;80].
Definition w_MIEUM_PIEUP_SIOS : str := [77;73;69;85;77;45;80;73;69;85;80;45;83;73;79;83].
Definition w_MIEUM_RIEUL : str := [77;73;69;85;77;45;82;73;69;85;76].
Definition w_MIEUM_SIOS : str := [77;73;69;85;77;45;83;73;79;83].
Definition w_MIEUM_SSANGNIEUN : str := [77;73;69;85;77;45;83;83;65;78;71;78;73;69;85;78].
Definition w_MIEUM_SSANGSIOS : str := [77;73;69;85;77;45;83;83;65;78;71;83;73;79;83].
Definition w_MIEUM_TIKEUT : str := [77;73;69;85;77;45;84;73;75;69;85;84].
Definition w_MIEX : str := [77;73;69;88].
Definition w_MIG : str := [77;73;71].
Definition w_MII : str := [77;73;73].
Definition w_MIIM : str := [77;73;73;77].
Definition w_MIIN : str := [77;73;73;78].
Definition w_MIKRI : str := [77;73;75;82;73].
Definition w_MIKRON : str := [77;73;75;82;79;78].
Definition w_MIKURON : str := [77;73;75;85;82;79;78].
Definition w_MIL : str := [77;73;76].
Definition w_MILITARY : str := [77;73;76;73;84;65;82;89].
Definition w_MILK : str := [77;73;76;75].
Definition w_MILKY : str := [77;73;76;75;89].
Definition w_MILL : str := [77;73;76;76].
Definition w_MILLE : str := [77;73;76;76;69].
Definition w_MILLET : str := [77;73;76;76;69;84].
Definition w_MILLIONS : str := [77;73;76;76;73;79;78;83].
Definition w_MIM : str := [77;73;77].
Definition w_MIME : str := [77;73;77;69].
Definition w_MIN : str := [77;73;78].
Definition w_MINIBUS : str := [77;73;78;73;66;85;83].
Definition w_MINIDISC : str := [77;73;78;73;68;73;83;67].
Definition w_MINIMA : str := [77;73;78;73;77;65].
Definition w_MINIMIZE : str := [77;73;78;73;77;73;90;69].
Definition w_MINISTER : str := [77;73;78;73;83;84;69;82].
Definition w_MINUS : str := [77;73;78;85;83].
Definition w_MINUS_OR_PLUS : str := [77;73;78;85;83;45;79;82;45;80;76;85;83].
Definition w_MINY : str := [77;73;78;89].
Definition w_MIP : str := [77;73;80].
Definition w_MIRED : str := [77;73;82;69;68].
Definition w_MIRI : str := [77;73;82;73].
Definition w_MIRIBAARU : str := [77;73;82;73;66;65;65;82;85].
Definition w_MISRA : str := [77;73;83;82;65].
Definition w_MIT : str := [77;73;84].
Definition w_MIX : str := [77;73;88].
Definition w_MKPARAQ : str := [77;75;80;65;82;65;81].
Definition w_ML : str := [77;76].
Definition w_MLA : str := [77;76;65].
Definition w_MM : str := [77;77].
Definition w_MNAS : str := [77;78;65;83].
Definition w_MNYAM : str := [77;78;89;65;77].
Definition w_MO : str := [77;79].
Definition w_MO_1 : str := [77;79;45;49].
Definition w_MO_2 : str := [77;79;45;50].
Definition w_MO_3 : str := [77;79;45;51].
Definition w_MO_4 : str := [77;79;45;52].
Definition w_MO_5 : str := [77;79;45;53].
Definition w_MO_6 : str := [77;79;45;54].
Definition w_MOA : str := [77;79;65].
Definition w_MOBILE : str := [77;79;66;73;76;69].
Definition w_MODE : str := [77;79;68;69].
Definition w_MODEL : str := [77;79;68;69;76].
Definition w_MODELS : str := [77;79;68;69;76;83].
Definition w_MODEM : str := [77;79;68;69;77].
Definition w_MODERN : str := [77;79;68;69;82;78].
Definition w_MODESTY : str := [77;79;68;69;83;84;89].
Definition w_MODI : str := [77;79;68;73].
Definition w_MODIFIER : str := [77;79;68;73;70;73;69;82].
Definition w_MODIFIER_10 : str := [77;79;68;73;70;73;69;82;45;49;48].
Definition w_MODIFIER_11 : str := [77;79;68;73;70;73;69;82;45;49;49].
Definition w_MODIFIER_12 : str := [77;79;68;73;70;73;69;82;45;49;50].
Definition w_MODIFIER_13 : str := [77;79;68;73;70;73;69;82;45;49;51].
Definition w_MODIFIER_14 : str := [77;79;68;73;70;73;69;82;45;49;52].
Definition w_MODIFIER_15 : str := [77;79;68;73;70;73;69;82;45;49;53].
Definition w_MODIFIER_16 : str := [77;79;68;73;70;73;69;82;45;49;54].
Definition w_MODIFIER_2 : str := [77;79;68;73;70;73;69;82;45;50].
Definition w_MODIFIER_3 : str := [77;79;68;73;70;73;69;82;45;51].
Definition w_MODIFIER_4 : str := [77;79;68;73;70;73;69;82;45;52].
Definition w_MODIFIER_5 : str := [77;79;68;73;70;73;69;82;45;53].
Definition w_MODIFIER_6 : str := [77;79;68;73;70;73;69;82;45;54].
Definition w_MODIFIER_7 : str := [77;79;68;73;70;73;69;82;45;55].
Definition w_MODIFIER_8 : str := [77;79;68;73;70;73;69;82;45;56].
Definition w_MODIFIER_9 : str := [77;79;68;73;70;73;69;82;45;57].
Definition w_MODULO : str := [77;79;68;85;76;79].
Definition w_MOHAMMAD : str := [77;79;72;65;77;77;65;68].
Definition w_MOL : str := [77;79;76].
Definition w_MON : str := [77;79;78].
Definition w_MONEY : str := [77;79;78;69;89].
Definition w_MONEY_MOUTH : str := [77;79;78;69;89;45;77;79;85;84;72].
Definition w_MONGKEUAEQ : str := [77;79;78;71;75;69;85;65;69;81].
Definition w_MONGOLIAN : str := [77;79;78;71;79;76;73;65;78].
Definition w_MONI : str := [77;79;78;73].
Definition w_MONKEY : str := [77;79;78;75;69;89].
Definition w_MONOCLE : str := [77;79;78;79;67;76;69].
Definition w_MONOCULAR : str := [77;79;78;79;67;85;76;65;82].
Definition w_MONOFONIAS : str := [77;79;78;79;70;79;78;73;65;83].
Definition w_MONOGRAM : str := [77;79;78;79;71;82;65;77].
Definition w_MONOGRAMMOS : str := [77;79;78;79;71;82;65;77;77;79;83].
Definition w_MONOGRAPH : str := [77;79;78;79;71;82;65;80;72].
Definition w_MONORAIL : str := [77;79;78;79;82;65;73;76].
Definition w_MONOSPACE : str := [77;79;78;79;83;80;65;67;69].
Definition w_MONOSTABLE : str := [77;79;78;79;83;84;65;66;76;69].
Definition w_MONSTER : str := [77;79;78;83;84;69;82].
Definition w_MONTH : str := [77;79;78;84;72].
Definition w_MONTIEEN : str := [77;79;78;84;73;69;69;78].
Definition w_MOO : str := [77;79;79].
Definition w_MOOD : str := [77;79;79;68].
Definition w_MOOMEUT : str := [77;79;79;77;69;85;84].
Definition w_MOOMPUQ : str := [77;79;79;77;80;85;81].
Definition w_MOON : str := [77;79;79;78].
Definition w_MOOSE_CREE : str := [77;79;79;83;69;45;67;82;69;69].
Definition w_MOP : str := [77;79;80].
Definition w_MORNING : str := [77;79;82;78;73;78;71].
Definition w_MORPHOLOGICAL : str := [77;79;82;80;72;79;76;79;71;73;67;65;76].
Definition w_MORTAR : str := [77;79;82;84;65;82].
Definition w_MORTUUM : str := [77;79;82;84;85;85;77].
Definition w_MOSQUE : str := [77;79;83;81;85;69].
Definition w_MOT : str := [77;79;84].
Definition w_MOTHER : str := [77;79;84;72;69;82].
Definition w_MOTOR : str := [77;79;84;79;82].
Definition w_MOTORCYCLE : str := [77;79;84;79;82;67;89;67;76;69].
Definition w_MOTORWAY : str := [77;79;84;79;82;87;65;89].
Definition w_MOUND : str := [77;79;85;78;68].
Definition w_MOUNT : str := [77;79;85;78;84].
Definition w_MOUNTAIN : str := [77;79;85;78;84;65;73;78].
Definition w_MOUNTAINS : str := [77;79;85;78;84;65;73;78;83].
Definition w_MOUSE : str := [77;79;85;83;69].
Definition w_MOUTH : str := [77;79;85;84;72].
Definition w_MOVE : str := [77;79;86;69].
Definition w_MOVED : str := [77;79;86;69;68].
Definition w_MOVEMENT : str := [77;79;86;69;77;69;78;84].
Definition w_MOVEMENT_DIAGONAL : str := [77;79;86;69;77;69;78;84;45;68;73;65;71;79;78;65;76].
Definition w_MOVEMENT_FLOORPLANE : str := [77;79;86;69;77;69;78;84;45;70;76;79;79;82;80;76;65;78;69].
Definition w_MOVEMENT_HINGE : str := [77;79;86;69;77;69;78;84;45;72;73;78;71;69].
Definition w_MOVEMENT_WALLPLANE : str := [77;79;86;69;77;69;78;84;45;87;65;76;76;80;76;65;78;69].
Definition w_MOVES : str := [77;79;86;69;83].
Definition w_MOVIE : str := [77;79;86;73;69].
Definition w_MOX : str := [77;79;88].
Definition w_MOYAI : str := [77;79;89;65;73].
Definition w_MPA : str := [77;80;65].
Definition w_MRO : str := [77;82;79].
Definition w_MS : str := [77;83].
Definition w_MU : str := [77;85].
Definition w_MU_1 : str := [77;85;45;49].
Definition w_MU_2 : str := [77;85;45;50].
Definition w_MU_3 : str := [77;85;45;51].
Definition w_MU_4 : str := [77;85;45;52].
Definition w_MU_GAAHLAA : str := [77;85;45;71;65;65;72;76;65;65].
Definition w_MUAE : str := [77;85;65;69].
Definition w_MUAN : str := [77;85;65;78].
Definition w_MUAS : str := [77;85;65;83].
Definition w_MUCAAD : str := [77;85;67;65;65;68].
Definition w_MUCH : str := [77;85;67;72].
Definition w_MUE : str := [77;85;69].
Definition w_MUEN : str := [77;85;69;78].
Definition w_MUG : str := [77;85;71].
Definition w_MUGS : str := [77;85;71;83].
Definition w_MUIN : str := [77;85;73;78].
Definition w_MUKHA : str := [77;85;75;72;65].
Definition w_MUKPHRENG : str := [77;85;75;80;72;82;69;78;71].
Definition w_MULTANI : str := [77;85;76;84;65;78;73].
Definition w_MULTI : str := [77;85;76;84;73].
Definition w_MULTIMAP : str := [77;85;76;84;73;77;65;80].
Definition w_MULTIOCULAR : str := [77;85;76;84;73;79;67;85;76;65;82].
Definition w_MULTIPLE : str := [77;85;76;84;73;80;76;69].
Definition w_MULTIPLICATION : str := [77;85;76;84;73;80;76;73;67;65;84;73;79;78].
Definition w_MULTISET : str := [77;85;76;84;73;83;69;84].
Definition w_MUM : str := [77;85;77].
Definition w_MUN : str := [77;85;78].
Definition w_MUNAH : str := [77;85;78;65;72].
Definition w_MUNSUB : str := [77;85;78;83;85;66].
Definition w_MUO : str := [77;85;79].
Definition w_MUOMAE : str := [77;85;79;77;65;69].
Definition w_MUOP : str := [77;85;79;80].
Definition w_MUOT : str := [77;85;79;84].
Definition w_MUOX : str := [77;85;79;88].
Definition w_MUOY : str := [77;85;79;89].
Definition w_MUP : str := [77;85;80].
Definition w_MUQDAM : str := [77;85;81;68;65;77].
Definition w_MUR : str := [77;85;82].
Definition w_MURDA : str := [77;85;82;68;65].
Definition w_MURE : str := [77;85;82;69].
Definition w_MURGU2 : str := [77;85;82;71;85;50].
Definition w_MURX : str := [77;85;82;88].
Definition w_MUS : str := [77;85;83].
Definition w_MUSH : str := [77;85;83;72].
Definition w_MUSH3 : str := [77;85;83;72;51].
Definition w_MUSHROOM : str := [77;85;83;72;82;79;79;77].
Definition w_MUSIC : str := [77;85;83;73;67].
Definition w_MUSICAL : str := [77;85;83;73;67;65;76].
Definition w_MUT : str := [77;85;84].
Definition w_MUURDHAJA : str := [77;85;85;82;68;72;65;74;65].
Definition w_MUUSIKATOAN : str := [77;85;85;83;73;75;65;84;79;65;78].
Definition w_MUX : str := [77;85;88].
Definition w_MV : str := [77;86].
Definition w_MVEUAENGAM : str := [77;86;69;85;65;69;78;71;65;77].
Definition w_MVI : str := [77;86;73].
Definition w_MVOP : str := [77;86;79;80].
Definition w_MW : str := [77;87].
Definition w_MWA : str := [77;87;65].
Definition w_MWAA : str := [77;87;65;65].
Definition w_MWE : str := [77;87;69].
Definition w_MWEE : str := [77;87;69;69].
Definition w_MWI : str := [77;87;73].
Definition w_MWII : str := [77;87;73;73].
Definition w_MWO : str := [77;87;79].
Definition w_MWOO : str := [77;87;79;79].
Definition w_MY : str := [77;89].
Definition w_MYA : str := [77;89;65].
Definition w_MYANMAR : str := [77;89;65;78;77;65;82].
Definition w_MYP : str := [77;89;80].
Definition w_MYSLITE : str := [77;89;83;76;73;84;69].
Definition w_MYT : str := [77;89;84].
Definition w_MYX : str := [77;89;88].
Definition w_N : str := [78].
Definition w_N_ARY : str := [78;45;65;82;89].
Definition w_N_CREE : str := [78;45;67;82;69;69].
Definition w_N_MU_MO_1 : str := [78;45;77;85;45;77;79;45;49].
Definition w_N_MU_MO_2 : str := [78;45;77;85;45;77;79;45;50].
Definition w_N001 : str := [78;48;48;49].
Definition w_N002 : str := [78;48;48;50].
Definition w_N003 : str := [78;48;48;51].
Definition w_N004 : str := [78;48;48;52].
Definition w_N005 : str := [78;48;48;53].
Definition w_N006 : str := [78;48;48;54].
Definition w_N007 : str := [78;48;48;55].
Definition w_N008 : str := [78;48;48;56].
Definition w_N009 : str := [78;48;48;57].
Definition w_N010 : str := [78;48;49;48].
Definition w_N011 : str := [78;48;49;49].
Definition w_N012 : str := [78;48;49;50].
Definition w_N013 : str := [78;48;49;51].
Definition w_N014 : str := [78;48;49;52].
Definition w_N015 : str := [78;48;49;53].
Definition w_N016 : str := [78;48;49;54].
Definition w_N017 : str := [78;48;49;55].
Definition w_N018 : str := [78;48;49;56].
Definition w_N018A : str := [78;48;49;56;65].
Definition w_N018B : str := [78;48;49;56;66].
Definition w_N019 : str := [78;48;49;57].
Definition w_N020 : str := [78;48;50;48].
Definition w_N021 : str := [78;48;50;49].
Definition w_N022 : str := [78;48;50;50].
Definition w_N023 : str := [78;48;50;51].
Definition w_N024 : str := [78;48;50;52].
Definition w_N025 : str := [78;48;50;53].
Definition w_N025A : str := [78;48;50;53;65].
Definition w_N026 : str := [78;48;50;54].
Definition w_N027 : str := [78;48;50;55].
Definition w_N028 : str := [78;48;50;56].
Definition w_N029 : str := [78;48;50;57].
Definition w_N030 : str := [78;48;51;48].
Definition w_N031 : str := [78;48;51;49].
Definition w_N032 : str := [78;48;51;50].
Definition w_N033 : str := [78;48;51;51].
Definition w_N033A : str := [78;48;51;51;65].
Definition w_N034 : str := [78;48;51;52].
Definition w_N034A : str := [78;48;51;52;65].
Definition w_N035 : str := [78;48;51;53].
Definition w_N035A : str := [78;48;51;53;65].
Definition w_N036 : str := [78;48;51;54].
Definition w_N037 : str := [78;48;51;55].
Definition w_N037A : str := [78;48;51;55;65].
Definition w_N038 : str := [78;48;51;56].
Definition w_N039 : str := [78;48;51;57].
Definition w_N040 : str := [78;48;52;48].
Definition w_N041 : str := [78;48;52;49].
Definition w_N042 : str := [78;48;52;50].
Definition w_NA : str := [78;65].
Definition w_NA_1 : str := [78;65;45;49].
Definition w_NA_2 : str := [78;65;45;50].
Definition w_NA_3 : str := [78;65;45;51].
Definition w_NA_4 : str := [78;65;45;52].
Definition w_NA_5 : str := [78;65;45;53].
Definition w_NA_6 : str := [78;65;45;54].
Definition w_NA_7 : str := [78;65;45;55].
Definition w_NA_8 : str := [78;65;45;56].
Definition w_NA_9 : str := [78;65;45;57].
Definition w_NA2 : str := [78;65;50].
Definition w_NA4 : str := [78;65;52].
Definition w_NAA : str := [78;65;65].
Definition w_NAAI : str := [78;65;65;73].
Definition w_NAAKSIKYAYA : str := [78;65;65;75;83;73;75;89;65;89;65].
Definition w_NAASIKYAYA : str := [78;65;65;83;73;75;89;65;89;65].
Definition w_NABATAEAN : str := [78;65;66;65;84;65;69;65;78].
Definition w_NABLA : str := [78;65;66;76;65].
Definition w_NAE : str := [78;65;69].
Definition w_NAG : str := [78;65;71].
Definition w_NAGA : str := [78;65;71;65].
Definition w_NAGAR : str := [78;65;71;65;82].
Definition w_NAGRI : str := [78;65;71;82;73].
Definition w_NAH : str := [78;65;72].
Definition w_NAIL : str := [78;65;73;76].
Definition w_NAIRA : str := [78;65;73;82;65].
Definition w_NAM : str := [78;65;77].
Definition w_NAM2 : str := [78;65;77;50].
Definition w_NAME : str := [78;65;77;69].
Definition w_NAN : str := [78;65;78].
Definition w_NANA : str := [78;65;78;65].
Definition w_NAND : str := [78;65;78;68].
Definition w_NANGMONTHO : str := [78;65;78;71;77;79;78;84;72;79].
Definition w_NANO : str := [78;65;78;79].
Definition w_NANSANAQ : str := [78;65;78;83;65;78;65;81].
Definition w_NAOS : str := [78;65;79;83].
Definition w_NAP : str := [78;65;80].
Definition w_NAQ : str := [78;65;81].
Definition w_NAR : str := [78;65;82].
Definition w_NARROW : str := [78;65;82;82;79;87].
Definition w_NASAL : str := [78;65;83;65;76].
Definition w_NASALIZATION : str := [78;65;83;65;76;73;90;65;84;73;79;78].
Definition w_NASHI : str := [78;65;83;72;73].
Definition w_NASKAPI : str := [78;65;83;75;65;80;73].
Definition w_NATIONAL : str := [78;65;84;73;79;78;65;76].
Definition w_NATURAL : str := [78;65;84;85;82;65;76].
Definition w_NAU : str := [78;65;85].
Definition w_NAUD : str := [78;65;85;68].
Definition w_NAUDIZ : str := [78;65;85;68;73;90].
Definition w_NAUSEATED : str := [78;65;85;83;69;65;84;69;68].
Definition w_NAUTHS : str := [78;65;85;84;72;83].
Definition w_NAX : str := [78;65;88].
Definition w_NAXIAN : str := [78;65;88;73;65;78].
Definition w_NAY : str := [78;65;89].
Definition w_NAYANNA : str := [78;65;89;65;78;78;65].
Definition w_NBA : str := [78;66;65].
Definition w_NBAP : str := [78;66;65;80].
Definition w_NBAT : str := [78;66;65;84].
Definition w_NBAX : str := [78;66;65;88].
Definition w_NBI : str := [78;66;73].
Definition w_NBIE : str := [78;66;73;69].
Definition w_NBIEP : str := [78;66;73;69;80].
Definition w_NBIEX : str := [78;66;73;69;88].
Definition w_NBIP : str := [78;66;73;80].
Definition w_NBIT : str := [78;66;73;84].
Definition w_NBIX : str := [78;66;73;88].
Definition w_NBO : str := [78;66;79].
Definition w_NBOP : str := [78;66;79;80].
Definition w_NBOT : str := [78;66;79;84].
Definition w_NBOX : str := [78;66;79;88].
Definition w_NBU : str := [78;66;85].
Definition w_NBUP : str := [78;66;85;80].
Definition w_NBUR : str := [78;66;85;82].
Definition w_NBURX : str := [78;66;85;82;88].
Definition w_NBUT : str := [78;66;85;84].
Definition w_NBUX : str := [78;66;85;88].
Definition w_NBY : str := [78;66;89].
Definition w_NBYP : str := [78;66;89;80].
Definition w_NBYR : str := [78;66;89;82].
Definition w_NBYRX : str := [78;66;89;82;88].
Definition w_NBYT : str := [78;66;89;84].
Definition w_NBYX : str := [78;66;89;88].
Definition w_NCHAU : str := [78;67;72;65;85].
Definition w_ND : str := [78;68].
Definition w_NDA : str := [78;68;65].
Definition w_NDAA : str := [78;68;65;65].
Definition w_NDAANGGEUAET : str := [78;68;65;65;78;71;71;69;85;65;69;84].
Definition w_NDAM : str := [78;68;65;77].
Definition w_NDAP : str := [78;68;65;80].
Definition w_NDAT : str := [78;68;65;84].
Definition w_NDAX : str := [78;68;65;88].
Definition w_NDE : str := [78;68;69].
Definition w_NDEE : str := [78;68;69;69].
Definition w_NDEP : str := [78;68;69;80].
Definition w_NDEUAEREE : str := [78;68;69;85;65;69;82;69;69].
Definition w_NDEUT : str := [78;68;69;85;84].
Definition w_NDEUX : str := [78;68;69;85;88].
Definition w_NDEX : str := [78;68;69;88].
Definition w_NDI : str := [78;68;73].
Definition w_NDIAQ : str := [78;68;73;65;81].
Definition w_NDIDA : str := [78;68;73;68;65].
Definition w_NDIE : str := [78;68;73;69].
Definition w_NDIEX : str := [78;68;73;69;88].
Definition w_NDIP : str := [78;68;73;80].
Definition w_NDIQ : str := [78;68;73;81].
Definition w_NDIT : str := [78;68;73;84].
Definition w_NDIX : str := [78;68;73;88].
Definition w_NDO : str := [78;68;79].
Definition w_NDOLE : str := [78;68;79;76;69].
Definition w_NDOMBU : str := [78;68;79;77;66;85].
Definition w_NDON : str := [78;68;79;78].
Definition w_NDOO : str := [78;68;79;79].
Definition w_NDOP : str := [78;68;79;80].
Definition w_NDOT : str := [78;68;79;84].
Definition w_NDOX : str := [78;68;79;88].
Definition w_NDU : str := [78;68;85].
Definition w_NDUN : str := [78;68;85;78].
Definition w_NDUP : str := [78;68;85;80].
Definition w_NDUR : str := [78;68;85;82].
Definition w_NDURX : str := [78;68;85;82;88].
Definition w_NDUT : str := [78;68;85;84].
Definition w_NDUX : str := [78;68;85;88].
Definition w_NE : str := [78;69].
Definition w_NE_1 : str := [78;69;45;49].
Definition w_NE_2 : str := [78;69;45;50].
Definition w_NE_3 : str := [78;69;45;51].
Definition w_NE_4 : str := [78;69;45;52].
Definition w_NE_5 : str := [78;69;45;53].
Definition w_NE_6 : str := [78;69;45;54].
Definition w_NE_KO : str := [78;69;45;75;79].
Definition w_NEBENSTIMME : str := [78;69;66;69;78;83;84;73;77;77;69].
Definition w_NECK : str := [78;69;67;75].
Definition w_NECKTIE : str := [78;69;67;75;84;73;69].
Definition w_NEE : str := [78;69;69].
Definition w_NEGATED : str := [78;69;71;65;84;69;68].
Definition w_NEGATION : str := [78;69;71;65;84;73;79;78].
Definition w_NEGATIVE : str := [78;69;71;65;84;73;86;69].
Definition w_NEITHER : str := [78;69;73;84;72;69;82].
Definition w_NEN : str := [78;69;78].
Definition w_NENANO : str := [78;69;78;65;78;79].
Definition w_NENOE : str := [78;69;78;79;69].
Definition w_NEO : str := [78;69;79].
Definition w_NEP : str := [78;69;80].
Definition w_NEPTUNE : str := [78;69;80;84;85;78;69].
Definition w_NEQUDAA : str := [78;69;81;85;68;65;65].
Definition w_NERD : str := [78;69;82;68].
Definition w_NESTED : str := [78;69;83;84;69;68].
Definition w_NET : str := [78;69;84].
Definition w_NETWORKED : str := [78;69;84;87;79;82;75;69;68].
Definition w_NEUTER : str := [78;69;85;84;69;82].
Definition w_NEUTRAL : str := [78;69;85;84;82;65;76].
Definition w_NEW : str := [78;69;87].
Definition w_NEWA : str := [78;69;87;65].
Definition w_NEWLINE : str := [78;69;87;76;73;78;69].
Definition w_NEWSPAPER : str := [78;69;87;83;80;65;80;69;82].
Definition w_NEX : str := [78;69;88].
Definition w_NEXT : str := [78;69;88;84].
Definition w_NF : str := [78;70].
Definition w_NG : str := [78;71].
Definition w_NGA : str := [78;71;65].
Definition w_NGAA : str := [78;71;65;65].
Definition w_NGAAI : str := [78;71;65;65;73].
Definition w_NGAH : str := [78;71;65;72].
Definition w_NGAI : str := [78;71;65;73].
Definition w_NGAN : str := [78;71;65;78].
Definition w_NGANGU : str := [78;71;65;78;71;85].
Definition w_NGAP : str := [78;71;65;80].
Definition w_NGAQ : str := [78;71;65;81].
Definition w_NGAS : str := [78;71;65;83].
Definition w_NGAT : str := [78;71;65;84].
Definition w_NGAX : str := [78;71;65;88].
Definition w_NGE : str := [78;71;69].
Definition w_NGEADAL : str := [78;71;69;65;68;65;76].
Definition w_NGEN : str := [78;71;69;78].
Definition w_NGEP : str := [78;71;69;80].
Definition w_NGEUREUT : str := [78;71;69;85;82;69;85;84].
Definition w_NGEX : str := [78;71;69;88].
Definition w_NGG : str := [78;71;71].
Definition w_NGGA : str := [78;71;71;65].
Definition w_NGGAA : str := [78;71;71;65;65].
Definition w_NGGAAM : str := [78;71;71;65;65;77].
Definition w_NGGAAMAE : str := [78;71;71;65;65;77;65;69].
Definition w_NGGAP : str := [78;71;71;65;80].
Definition w_NGGE : str := [78;71;71;69].
Definition w_NGGEE : str := [78;71;71;69;69].
Definition w_NGGEEEE : str := [78;71;71;69;69;69;69].
Definition w_NGGEET : str := [78;71;71;69;69;84].
Definition w_NGGEN : str := [78;71;71;69;78].
Definition w_NGGEU : str := [78;71;71;69;85].
Definition w_NGGEUAE : str := [78;71;71;69;85;65;69].
Definition w_NGGEUAET : str := [78;71;71;69;85;65;69;84].
Definition w_NGGEUX : str := [78;71;71;69;85;88].
Definition w_NGGI : str := [78;71;71;73].
Definition w_NGGO : str := [78;71;71;79].
Definition w_NGGOO : str := [78;71;71;79;79].
Definition w_NGGU : str := [78;71;71;85].
Definition w_NGGUA : str := [78;71;71;85;65].
Definition w_NGGUAEN : str := [78;71;71;85;65;69;78].
Definition w_NGGUAESHAE : str := [78;71;71;85;65;69;83;72;65;69].
Definition w_NGGUEET : str := [78;71;71;85;69;69;84].
Definition w_NGGUM : str := [78;71;71;85;77].
Definition w_NGGUOM : str := [78;71;71;85;79;77].
Definition w_NGGUON : str := [78;71;71;85;79;78].
Definition w_NGGUOQ : str := [78;71;71;85;79;81].
Definition w_NGGUP : str := [78;71;71;85;80].
Definition w_NGGURAE : str := [78;71;71;85;82;65;69].
Definition w_NGGWAEN : str := [78;71;71;87;65;69;78].
Definition w_NGHA : str := [78;71;72;65].
Definition w_NGI : str := [78;71;73].
Definition w_NGIE : str := [78;71;73;69].
Definition w_NGIEP : str := [78;71;73;69;80].
Definition w_NGIEX : str := [78;71;73;69;88].
Definition w_NGII : str := [78;71;73;73].
Definition w_NGKA : str := [78;71;75;65].
Definition w_NGKAAMI : str := [78;71;75;65;65;77;73].
Definition w_NGKAP : str := [78;71;75;65;80].
Definition w_NGKAQ : str := [78;71;75;65;81].
Definition w_NGKEUAEM : str := [78;71;75;69;85;65;69;77].
Definition w_NGKEUAEQ : str := [78;71;75;69;85;65;69;81].
Definition w_NGKEURI : str := [78;71;75;69;85;82;73].
Definition w_NGKEUX : str := [78;71;75;69;85;88].
Definition w_NGKIEE : str := [78;71;75;73;69;69].
Definition w_NGKINDI : str := [78;71;75;73;78;68;73].
Definition w_NGKUE : str := [78;71;75;85;69].
Definition w_NGKUENZEUM : str := [78;71;75;85;69;78;90;69;85;77].
Definition w_NGKUM : str := [78;71;75;85;77].
Definition w_NGKUN : str := [78;71;75;85;78].
Definition w_NGKUP : str := [78;71;75;85;80].
Definition w_NGKWAEN : str := [78;71;75;87;65;69;78].
Definition w_NGKYEE : str := [78;71;75;89;69;69].
Definition w_NGO : str := [78;71;79].
Definition w_NGOEH : str := [78;71;79;69;72].
Definition w_NGOM : str := [78;71;79;77].
Definition w_NGON : str := [78;71;79;78].
Definition w_NGOO : str := [78;71;79;79].
Definition w_NGOP : str := [78;71;79;80].
Definition w_NGOQ : str := [78;71;79;81].
Definition w_NGOT : str := [78;71;79;84].
Definition w_NGOU : str := [78;71;79;85].
Definition w_NGOX : str := [78;71;79;88].
Definition w_NGU : str := [78;71;85].
Definition w_NGUAE : str := [78;71;85;65;69].
Definition w_NGUAET : str := [78;71;85;65;69;84].
Definition w_NGUAN : str := [78;71;85;65;78].
Definition w_NGUE : str := [78;71;85;69].
Definition w_NGUO : str := [78;71;85;79].
Definition w_NGUOT : str := [78;71;85;79;84].
Definition w_NGUOX : str := [78;71;85;79;88].
Definition w_NGVE : str := [78;71;86;69].
Definition w_NGYE : str := [78;71;89;69].
Definition w_NH : str := [78;72].
Definition w_NHA : str := [78;72;65].
Definition w_NHJA : str := [78;72;74;65].
Definition w_NHUE : str := [78;72;85;69].
Definition w_NI : str := [78;73].
Definition w_NI_1 : str := [78;73;45;49].
Definition w_NI_2 : str := [78;73;45;50].
Definition w_NI_3 : str := [78;73;45;51].
Definition w_NI_4 : str := [78;73;45;52].
Definition w_NI_5 : str := [78;73;45;53].
Definition w_NI_6 : str := [78;73;45;54].
Definition w_NI_7 : str := [78;73;45;55].
Definition w_NI_TE : str := [78;73;45;84;69].
Definition w_NI2 : str := [78;73;50].
Definition w_NIA : str := [78;73;65].
Definition w_NIB : str := [78;73;66].
Definition w_NIE : str := [78;73;69].
Definition w_NIEP : str := [78;73;69;80].
Definition w_NIEUN : str := [78;73;69;85;78].
Definition w_NIEUN_CHIEUCH : str := [78;73;69;85;78;45;67;72;73;69;85;67;72].
Definition w_NIEUN_CIEUC : str := [78;73;69;85;78;45;67;73;69;85;67].
Definition w_NIEUN_HIEUH : str := [78;73;69;85;78;45;72;73;69;85;72].
Definition w_NIEUN_KIYEOK : str := [78;73;69;85;78;45;75;73;89;69;79;75].
Definition w_NIEUN_PANSIOS : str := [78;73;69;85;78;45;80;65;78;83;73;79;83].
Definition w_NIEUN_PIEUP : str := [78;73;69;85;78;45;80;73;69;85;80].
Definition w_NIEUN_RIEUL : str := [78;73;69;85;78;45;82;73;69;85;76].
Definition w_NIEUN_SIOS : str := [78;73;69;85;78;45;83;73;79;83].
Definition w_NIEUN_THIEUTH : str := [78;73;69;85;78;45;84;72;73;69;85;84;72].
Definition w_NIEUN_TIKEUT : str := [78;73;69;85;78;45;84;73;75;69;85;84].
Definition w_NIEX : str := [78;73;69;88].
Definition w_NIGGAHITA : str := [78;73;71;71;65;72;73;84;65].
Definition w_NIGHT : str := [78;73;71;72;84].
Definition w_NIGIDAESH : str := [78;73;71;73;68;65;69;83;72].
Definition w_NIGIDAMIN : str := [78;73;71;73;68;65;77;73;78].
Definition w_NIHSHVASA : str := [78;73;72;83;72;86;65;83;65].
Definition w_NII : str := [78;73;73].
Definition w_NIKA : str := [78;73;75;65].
Definition w_NIKAHIT : str := [78;73;75;65;72;73;84].
Definition w_NIKHAHIT : str := [78;73;75;72;65;72;73;84].
Definition w_NIKOLSBURG : str := [78;73;75;79;76;83;66;85;82;71].
Definition w_NIM : str := [78;73;77].
Definition w_NIN : str := [78;73;78].
Definition w_NIN9 : str := [78;73;78;57].
Definition w_NINDA2 : str := [78;73;78;68;65;50].
Definition w_NINE : str := [78;73;78;69].
Definition w_NINE_THIRTY : str := [78;73;78;69;45;84;72;73;82;84;89].
Definition w_NINETEEN : str := [78;73;78;69;84;69;69;78].
Definition w_NINETY : str := [78;73;78;69;84;89].
Definition w_NINTH : str := [78;73;78;84;72].
Definition w_NION : str := [78;73;79;78].
Definition w_NIP : str := [78;73;80].
Definition w_NIRUGU : str := [78;73;82;85;71;85].
Definition w_NISAG : str := [78;73;83;65;71].
Definition w_NIT : str := [78;73;84].
Definition w_NITRE : str := [78;73;84;82;69].
Definition w_NIX : str := [78;73;88].
Definition w_NJ : str := [78;74].
Definition w_NJA : str := [78;74;65].
Definition w_NJAA : str := [78;74;65;65].
Definition w_NJAEM : str := [78;74;65;69;77].
Definition w_NJAEMLI : str := [78;74;65;69;77;76;73].
Definition w_NJAM : str := [78;74;65;77].
Definition w_NJAP : str := [78;74;65;80].
Definition w_NJAQ : str := [78;74;65;81].
Definition w_NJE : str := [78;74;69].
Definition w_NJEE : str := [78;74;69;69].
Definition w_NJEEEE : str := [78;74;69;69;69;69].
Definition w_NJEUAEM : str := [78;74;69;85;65;69;77].
Definition w_NJEUAENA : str := [78;74;69;85;65;69;78;65].
Definition w_NJEUT : str := [78;74;69;85;84].
Definition w_NJEUX : str := [78;74;69;85;88].
Definition w_NJI : str := [78;74;73].
Definition w_NJIE : str := [78;74;73;69].
Definition w_NJIEE : str := [78;74;73;69;69].
Definition w_NJIEP : str := [78;74;73;69;80].
Definition w_NJIET : str := [78;74;73;69;84].
Definition w_NJIEX : str := [78;74;73;69;88].
Definition w_NJIP : str := [78;74;73;80].
Definition w_NJIT : str := [78;74;73;84].
Definition w_NJIX : str := [78;74;73;88].
Definition w_NJO : str := [78;74;79].
Definition w_NJOO : str := [78;74;79;79].
Definition w_NJOP : str := [78;74;79;80].
Definition w_NJOT : str := [78;74;79;84].
Definition w_NJOX : str := [78;74;79;88].
Definition w_NJU : str := [78;74;85].
Definition w_NJUAE : str := [78;74;85;65;69].
Definition w_NJUEQ : str := [78;74;85;69;81].
Definition w_NJUO : str := [78;74;85;79].
Definition w_NJUOX : str := [78;74;85;79;88].
Definition w_NJUP : str := [78;74;85;80].
Definition w_NJUQA : str := [78;74;85;81;65].
Definition w_NJUR : str := [78;74;85;82].
Definition w_NJURX : str := [78;74;85;82;88].
Definition w_NJUX : str := [78;74;85;88].
Definition w_NJY : str := [78;74;89].
Definition w_NJYP : str := [78;74;89;80].
Definition w_NJYR : str := [78;74;89;82].
Definition w_NJYRX : str := [78;74;89;82;88].
Definition w_NJYT : str := [78;74;89;84].
Definition w_NJYX : str := [78;74;89;88].
Definition w_NKAARAE : str := [78;75;65;65;82;65;69].
Definition w_NKAU : str := [78;75;65;85].
Definition w_NKINDI : str := [78;75;73;78;68;73].
Definition w_NKO : str := [78;75;79].
Definition w_NKOM : str := [78;75;79;77].
Definition w_NL001 : str := [78;76;48;48;49].
Definition w_NL002 : str := [78;76;48;48;50].
Definition w_NL003 : str := [78;76;48;48;51].
Definition w_NL004 : str := [78;76;48;48;52].
Definition w_NL005 : str := [78;76;48;48;53].
Definition w_NL005A : str := [78;76;48;48;53;65].
Definition w_NL006 : str := [78;76;48;48;54].
Definition w_NL007 : str := [78;76;48;48;55].
Definition w_NL008 : str := [78;76;48;48;56].
Definition w_NL009 : str := [78;76;48;48;57].
Definition w_NL010 : str := [78;76;48;49;48].
Definition w_NL011 : str := [78;76;48;49;49].
Definition w_NL012 : str := [78;76;48;49;50].
Definition w_NL013 : str := [78;76;48;49;51].
Definition w_NL014 : str := [78;76;48;49;52].
Definition w_NL015 : str := [78;76;48;49;53].
Definition w_NL016 : str := [78;76;48;49;54].
Definition w_NL017 : str := [78;76;48;49;55].
Definition w_NL017A : str := [78;76;48;49;55;65].
Definition w_NL018 : str := [78;76;48;49;56].
Definition w_NL019 : str := [78;76;48;49;57].
Definition w_NL020 : str := [78;76;48;50;48].
Definition w_NLAU : str := [78;76;65;85].
Definition w_NM : str := [78;77].
Definition w_NN : str := [78;78].
Definition w_NNA : str := [78;78;65].
Definition w_NNAA : str := [78;78;65;65].
Definition w_NNE : str := [78;78;69].
Definition w_NNG : str := [78;78;71].
Definition w_NNGA : str := [78;78;71;65].
Definition w_NNGAA : str := [78;78;71;65;65].
Definition w_NNGI : str := [78;78;71;73].
Definition w_NNGII : str := [78;78;71;73;73].
Definition w_NNGO : str := [78;78;71;79].
Definition w_NNGOO : str := [78;78;71;79;79].
Definition w_NNHA : str := [78;78;72;65].
Definition w_NNNA : str := [78;78;78;65].
Definition w_NNO : str := [78;78;79].
Definition w_NNYA : str := [78;78;89;65].
Definition w_NO : str := [78;79].
Definition w_NO_1 : str := [78;79;45;49].
Definition w_NO_2 : str := [78;79;45;50].
Definition w_NO_3 : str := [78;79;45;51].
Definition w_NO_4 : str := [78;79;45;52].
Definition w_NO_5 : str := [78;79;45;53].
Definition w_NO_BREAK : str := [78;79;45;66;82;69;65;75].
Definition w_NOA : str := [78;79;65].
Definition w_NODE : str := [78;79;68;69].
Definition w_NOKHUK : str := [78;79;75;72;85;75].
Definition w_NOMINAL : str := [78;79;77;73;78;65;76].
Definition w_NOMISMA : str := [78;79;77;73;83;77;65].
Definition w_NON : str := [78;79;78].
Definition w_NON_BREAKING : str := [78;79;78;45;66;82;69;65;75;73;78;71].
Definition w_NON_JOINER : str := [78;79;78;45;74;79;73;78;69;82].
Definition w_NON_POTABLE : str := [78;79;78;45;80;79;84;65;66;76;69].
Definition w_NONFORKING : str := [78;79;78;70;79;82;75;73;78;71].
Definition w_NOO : str := [78;79;79].
Definition w_NOON : str := [78;79;79;78].
Definition w_NOONU : str := [78;79;79;78;85].
Definition w_NOP : str := [78;79;80].
Definition w_NOR : str := [78;79;82].
Definition w_NORDIC : str := [78;79;82;68;73;67].
Definition w_NORMAL : str := [78;79;82;77;65;76].
Definition w_NORTH : str := [78;79;82;84;72].
Definition w_NORTHEAST_POINTING : str := [78;79;82;84;72;69;65;83;84;45;80;79;73;78;84;73;78;71].
Definition w_NORTHERN : str := [78;79;82;84;72;69;82;78].
Definition w_NORTHWEST : str := [78;79;82;84;72;87;69;83;84].
Definition w_NOSE : str := [78;79;83;69].
Definition w_NOT : str := [78;79;84].
Definition w_NOTATION : str := [78;79;84;65;84;73;79;78].
Definition w_NOTCH : str := [78;79;84;67;72].
Definition w_NOTCHED : str := [78;79;84;67;72;69;68].
Definition w_NOTE : str := [78;79;84;69].
Definition w_NOTEBOOK : str := [78;79;84;69;66;79;79;75].
Definition w_NOTEHEAD : str := [78;79;84;69;72;69;65;68].
Definition w_NOTES : str := [78;79;84;69;83].
Definition w_NOTTO : str := [78;79;84;84;79].
Definition w_NOVEMBER : str := [78;79;86;69;77;66;69;82].
Definition w_NOW : str := [78;79;87].
Definition w_NOWC : str := [78;79;87;67].
Definition w_NOX : str := [78;79;88].
Definition w_NOY : str := [78;79;89].
Definition w_NQIG : str := [78;81;73;71].
Definition w_NRA : str := [78;82;65].
Definition w_NRAP : str := [78;82;65;80].
Definition w_NRAT : str := [78;82;65;84].
Definition w_NRAX : str := [78;82;65;88].
Definition w_NRE : str := [78;82;69].
Definition w_NREP : str := [78;82;69;80].
Definition w_NRES : str := [78;82;69;83].
Definition w_NRET : str := [78;82;69;84].
Definition w_NREX : str := [78;82;69;88].
Definition w_NRO : str := [78;82;79].
Definition w_NROP : str := [78;82;79;80].
Definition w_NROX : str := [78;82;79;88].
Definition w_NRU : str := [78;82;85].
Definition w_NRUA : str := [78;82;85;65].
Definition w_NRUP : str := [78;82;85;80].
Definition w_NRUR : str := [78;82;85;82].
Definition w_NRURX : str := [78;82;85;82;88].
Definition w_NRUT : str := [78;82;85;84].
Definition w_NRUX : str := [78;82;85;88].
Definition w_NRY : str := [78;82;89].
Definition w_NRYP : str := [78;82;89;80].
Definition w_NRYR : str := [78;82;89;82].
Definition w_NRYRX : str := [78;82;89;82;88].
Definition w_NRYT : str := [78;82;89;84].
Definition w_NRYX : str := [78;82;89;88].
Definition w_NS : str := [78;83].
Definition w_NSA : str := [78;83;65].
Definition w_NSEN : str := [78;83;69;78].
Definition w_NSEUAEN : str := [78;83;69;85;65;69;78].
Definition w_NSHA : str := [78;83;72;65].
Definition w_NSHAQ : str := [78;83;72;65;81].
Definition w_NSHEE : str := [78;83;72;69;69].
Definition w_NSHIEE : str := [78;83;72;73;69;69].
Definition w_NSHUE : str := [78;83;72;85;69].
Definition w_NSHUET : str := [78;83;72;85;69;84].
Definition w_NSHUOP : str := [78;83;72;85;79;80].
Definition w_NSHUT : str := [78;83;72;85;84].
Definition w_NSIEE : str := [78;83;73;69;69].
Definition w_NSIEEP : str := [78;83;73;69;69;80].
Definition w_NSIEET : str := [78;83;73;69;69;84].
Definition w_NSOM : str := [78;83;79;77].
Definition w_NSUM : str := [78;83;85;77].
Definition w_NSUN : str := [78;83;85;78].
Definition w_NSUOT : str := [78;83;85;79;84].
Definition w_NTAA : str := [78;84;65;65].
Definition w_NTAP : str := [78;84;65;80].
Definition w_NTEE : str := [78;84;69;69].
Definition w_NTEN : str := [78;84;69;78].
Definition w_NTEUM : str := [78;84;69;85;77].
Definition w_NTEUNGBA : str := [78;84;69;85;78;71;66;65].
Definition w_NTHAU : str := [78;84;72;65;85].
Definition w_NTIEE : str := [78;84;73;69;69].
Definition w_NTOG : str := [78;84;79;71].
Definition w_NTOQPEN : str := [78;84;79;81;80;69;78].
Definition w_NTSAU : str := [78;84;83;65;85].
Definition w_NTU : str := [78;84;85].
Definition w_NTUJ : str := [78;84;85;74].
Definition w_NTUM : str := [78;84;85;77].
Definition w_NTUU : str := [78;84;85;85].
Definition w_NTXIV : str := [78;84;88;73;86].
Definition w_NU : str := [78;85].
Definition w_NU_1 : str := [78;85;45;49].
Definition w_NU_2 : str := [78;85;45;50].
Definition w_NU_3 : str := [78;85;45;51].
Definition w_NU001 : str := [78;85;48;48;49].
Definition w_NU002 : str := [78;85;48;48;50].
Definition w_NU003 : str := [78;85;48;48;51].
Definition w_NU004 : str := [78;85;48;48;52].
Definition w_NU005 : str := [78;85;48;48;53].
Definition w_NU006 : str := [78;85;48;48;54].
Definition w_NU007 : str := [78;85;48;48;55].
Definition w_NU008 : str := [78;85;48;48;56].
Definition w_NU009 : str := [78;85;48;48;57].
Definition w_NU010 : str := [78;85;48;49;48].
Definition w_NU010A : str := [78;85;48;49;48;65].
Definition w_NU011 : str := [78;85;48;49;49].
Definition w_NU011A : str := [78;85;48;49;49;65].
Definition w_NU012 : str := [78;85;48;49;50].
Definition w_NU013 : str := [78;85;48;49;51].
Definition w_NU014 : str := [78;85;48;49;52].
Definition w_NU015 : str := [78;85;48;49;53].
Definition w_NU016 : str := [78;85;48;49;54].
Definition w_NU017 : str := [78;85;48;49;55].
Definition w_NU018 : str := [78;85;48;49;56].
Definition w_NU018A : str := [78;85;48;49;56;65].
Definition w_NU019 : str := [78;85;48;49;57].
Definition w_NU020 : str := [78;85;48;50;48].
Definition w_NU021 : str := [78;85;48;50;49].
Definition w_NU022 : str := [78;85;48;50;50].
Definition w_NU022A : str := [78;85;48;50;50;65].
Definition w_NU11 : str := [78;85;49;49].
Definition w_NUAE : str := [78;85;65;69].
Definition w_NUBIAN : str := [78;85;66;73;65;78].
Definition w_NUE : str := [78;85;69].
Definition w_NUENG : str := [78;85;69;78;71].
Definition w_NUKTA : str := [78;85;75;84;65].
Definition w_NULL : str := [78;85;76;76].
Definition w_NUM : str := [78;85;77].
Definition w_NUMBER : str := [78;85;77;66;69;82].
Definition w_NUMBERS : str := [78;85;77;66;69;82;83].
Definition w_NUMERAL : str := [78;85;77;69;82;65;76].
Definition w_NUMERATOR : str := [78;85;77;69;82;65;84;79;82].
Definition w_NUMERIC : str := [78;85;77;69;82;73;67].
Definition w_NUMERO : str := [78;85;77;69;82;79].
Definition w_NUN : str := [78;85;78].
Definition w_NUNAVIK : str := [78;85;78;65;86;73;75].
Definition w_NUNAVUT : str := [78;85;78;65;86;85;84].
Definition w_NUNG : str := [78;85;78;71].
Definition w_NUNUZ : str := [78;85;78;85;90].
Definition w_NUO : str := [78;85;79].
Definition w_NUOP : str := [78;85;79;80].
Definition w_NUOX : str := [78;85;79;88].
Definition w_NUP : str := [78;85;80].
Definition w_NUR : str := [78;85;82].
Definition w_NURX : str := [78;85;82;88].
Definition w_NUSHU : str := [78;85;83;72;85].
Definition w_NUT : str := [78;85;84].
Definition w_NUTILLU : str := [78;85;84;73;76;76;85].
Definition w_NUUN : str := [78;85;85;78].
Definition w_NUX : str := [78;85;88].
Definition w_NV : str := [78;86].
Definition w_NW : str := [78;87].
Definition w_NWA : str := [78;87;65].
Definition w_NWAA : str := [78;87;65;65].
Definition w_NWE : str := [78;87;69].
Definition w_NWI : str := [78;87;73].
Definition w_NWII : str := [78;87;73;73].
Definition w_NWO : str := [78;87;79].
Definition w_NWOO : str := [78;87;79;79].
Definition w_NYA : str := [78;89;65].
Definition w_NYAA : str := [78;89;65;65].
Definition w_NYAEMAE : str := [78;89;65;69;77;65;69].
Definition w_NYAH : str := [78;89;65;72].
Definition w_NYAM : str := [78;89;65;77].
Definition w_NYAN : str := [78;89;65;78].
Definition w_NYCA : str := [78;89;67;65].
Definition w_NYD : str := [78;89;68].
Definition w_NYE : str := [78;89;69].
Definition w_NYEE : str := [78;89;69;69].
Definition w_NYEH : str := [78;89;69;72].
Definition w_NYEN : str := [78;89;69;78].
Definition w_NYET : str := [78;89;69;84].
Definition w_NYHA : str := [78;89;72;65].
Definition w_NYI : str := [78;89;73].
Definition w_NYIE : str := [78;89;73;69].
Definition w_NYIEP : str := [78;89;73;69;80].
Definition w_NYIET : str := [78;89;73;69;84].
Definition w_NYIEX : str := [78;89;73;69;88].
Definition w_NYIN : str := [78;89;73;78].
Definition w_NYIN_DO : str := [78;89;73;78;45;68;79].
Definition w_NYIP : str := [78;89;73;80].
Definition w_NYIR : str := [78;89;73;82].
Definition w_NYIS : str := [78;89;73;83].
Definition w_NYIT : str := [78;89;73;84].
Definition w_NYIX : str := [78;89;73;88].
Definition w_NYJA : str := [78;89;74;65].
Definition w_NYO : str := [78;89;79].
Definition w_NYOA : str := [78;89;79;65].
Definition w_NYON : str := [78;89;79;78].
Definition w_NYOO : str := [78;89;79;79].
Definition w_NYOP : str := [78;89;79;80].
Definition w_NYOT : str := [78;89;79;84].
Definition w_NYOX : str := [78;89;79;88].
Definition w_NYU : str := [78;89;85].
Definition w_NYUE : str := [78;89;85;69].
Definition w_NYUN : str := [78;89;85;78].
Definition w_NYUO : str := [78;89;85;79].
Definition w_NYUOP : str := [78;89;85;79;80].
Definition w_NYUOX : str := [78;89;85;79;88].
Definition w_NYUP : str := [78;89;85;80].
Definition w_NYUT : str := [78;89;85;84].
Definition w_NYUX : str := [78;89;85;88].
Definition w_NYWA : str := [78;89;87;65].
Definition w_NZA : str := [78;90;65].
Definition w_NZAP : str := [78;90;65;80].
Definition w_NZAQ : str := [78;90;65;81].
Definition w_NZAT : str := [78;90;65;84].
Definition w_NZAX : str := [78;90;65;88].
Definition w_NZE : str := [78;90;69].
Definition w_NZEUM : str := [78;90;69;85;77].
Definition w_NZEX : str := [78;90;69;88].
Definition w_NZI : str := [78;90;73].
Definition w_NZIE : str := [78;90;73;69].
Definition w_NZIEP : str := [78;90;73;69;80].
Definition w_NZIEX : str := [78;90;73;69;88].
Definition w_NZIP : str := [78;90;73;80].
Definition w_NZIT : str := [78;90;73;84].
Definition w_NZIX : str := [78;90;73;88].
Definition w_NZOP : str := [78;90;79;80].
Definition w_NZOX : str := [78;90;79;88].
Definition w_NZU : str := [78;90;85].
Definition w_NZUN : str := [78;90;85;78].
Definition w_NZUO : str := [78;90;85;79].
Definition w_NZUOX : str := [78;90;85;79;88].
Definition w_NZUP : str := [78;90;85;80].
Definition w_NZUQ : str := [78;90;85;81].
Definition w_NZUR : str := [78;90;85;82].
Definition w_NZURX : str := [78;90;85;82;88].
Definition w_NZUX : str := [78;90;85;88].
Definition w_NZY : str := [78;90;89].
Definition w_NZYP : str := [78;90;89;80].
Definition w_NZYR : str := [78;90;89;82].
Definition w_NZYRX : str := [78;90;89;82;88].
Definition w_NZYT : str := [78;90;89;84].
Definition w_NZYX : str := [78;90;89;88].
Definition w_O : str := [79].
Definition w_O_1 : str := [79;45;49].
Definition w_O_2 : str := [79;45;50].
Definition w_O_3 : str := [79;45;51].
Definition w_O_E : str := [79;45;69].
Definition w_O_EO : str := [79;45;69;79].
Definition w_O_O : str := [79;45;79].
Definition w_O_O_I : str := [79;45;79;45;73].
Definition w_O_U : str := [79;45;85].
Definition w_O_YA : str := [79;45;89;65].
Definition w_O_YAE : str := [79;45;89;65;69].
Definition w_O_YE : str := [79;45;89;69].
Definition w_O_YEO : str := [79;45;89;69;79].
Definition w_O001 : str := [79;48;48;49].
Definition w_O001A : str := [79;48;48;49;65].
Definition w_O002 : str := [79;48;48;50].
Definition w_O003 : str := [79;48;48;51].
Definition w_O004 : str := [79;48;48;52].
Definition w_O005 : str := [79;48;48;53].
Definition w_O005A : str := [79;48;48;53;65].
Definition w_O006 : str := [79;48;48;54].
Definition w_O006A : str := [79;48;48;54;65].
Definition w_O006B : str := [79;48;48;54;66].
Definition w_O006C : str := [79;48;48;54;67].
Definition w_O006D : str := [79;48;48;54;68].
Definition w_O006E : str := [79;48;48;54;69].
Definition w_O006F : str := [79;48;48;54;70].
Definition w_O007 : str := [79;48;48;55].
Definition w_O008 : str := [79;48;48;56].
Definition w_O009 : str := [79;48;48;57].
Definition w_O010 : str := [79;48;49;48].
Definition w_O010A : str := [79;48;49;48;65].
Definition w_O010B : str := [79;48;49;48;66].
Definition w_O010C : str := [79;48;49;48;67].
Definition w_O011 : str := [79;48;49;49].
Definition w_O012 : str := [79;48;49;50].
Definition w_O013 : str := [79;48;49;51].
Definition w_O014 : str := [79;48;49;52].
Definition w_O015 : str := [79;48;49;53].
Definition w_O016 : str := [79;48;49;54].
Definition w_O017 : str := [79;48;49;55].
Definition w_O018 : str := [79;48;49;56].
Definition w_O019 : str := [79;48;49;57].
Definition w_O019A : str := [79;48;49;57;65].
Definition w_O020 : str := [79;48;50;48].
Definition w_O020A : str := [79;48;50;48;65].
Definition w_O021 : str := [79;48;50;49].
Definition w_O022 : str := [79;48;50;50].
Definition w_O023 : str := [79;48;50;51].
Definition w_O024 : str := [79;48;50;52].
Definition w_O024A : str := [79;48;50;52;65].
Definition w_O025 : str := [79;48;50;53].
Definition w_O025A : str := [79;48;50;53;65].
Definition w_O026 : str := [79;48;50;54].
Definition w_O027 : str := [79;48;50;55].
Definition w_O028 : str := [79;48;50;56].
Definition w_O029 : str := [79;48;50;57].
Definition w_O029A : str := [79;48;50;57;65].
Definition w_O030 : str := [79;48;51;48].
Definition w_O030A : str := [79;48;51;48;65].
Definition w_O031 : str := [79;48;51;49].
Definition w_O032 : str := [79;48;51;50].
Definition w_O033 : str := [79;48;51;51].
Definition w_O033A : str := [79;48;51;51;65].
Definition w_O034 : str := [79;48;51;52].
Definition w_O035 : str := [79;48;51;53].
Definition w_O036 : str := [79;48;51;54].
Definition w_O036A : str := [79;48;51;54;65].
Definition w_O036B : str := [79;48;51;54;66].
Definition w_O036C : str := [79;48;51;54;67].
Definition w_O036D : str := [79;48;51;54;68].
Definition w_O037 : str := [79;48;51;55].
Definition w_O038 : str := [79;48;51;56].
Definition w_O039 : str := [79;48;51;57].
Definition w_O040 : str := [79;48;52;48].
Definition w_O041 : str := [79;48;52;49].
Definition w_O042 : str := [79;48;52;50].
Definition w_O043 : str := [79;48;52;51].
Definition w_O044 : str := [79;48;52;52].
Definition w_O045 : str := [79;48;52;53].
Definition w_O046 : str := [79;48;52;54].
Definition w_O047 : str := [79;48;52;55].
Definition w_O048 : str := [79;48;52;56].
Definition w_O049 : str := [79;48;52;57].
Definition w_O050 : str := [79;48;53;48].
Definition w_O050A : str := [79;48;53;48;65].
Definition w_O050B : str := [79;48;53;48;66].
Definition w_O051 : str := [79;48;53;49].
Definition w_OA : str := [79;65].
Definition w_OABOAFILI : str := [79;65;66;79;65;70;73;76;73].
Definition w_OAK : str := [79;65;75].
Definition w_OAY : str := [79;65;89].
Definition w_OB : str := [79;66].
Definition w_OBELOS : str := [79;66;69;76;79;83].
Definition w_OBELUS : str := [79;66;69;76;85;83].
Definition w_OBJECT : str := [79;66;74;69;67;84].
Definition w_OBLIQUE : str := [79;66;76;73;81;85;69].
Definition w_OBOFILI : str := [79;66;79;70;73;76;73].
Definition w_OBOL : str := [79;66;79;76].
Definition w_OBOLS : str := [79;66;79;76;83].
Definition w_OBSERVER : str := [79;66;83;69;82;86;69;82].
Definition w_OBSTRUCTION : str := [79;66;83;84;82;85;67;84;73;79;78].
Definition w_OCCLUSION : str := [79;67;67;76;85;83;73;79;78].
Definition w_OCLOCK : str := [79;67;76;79;67;75].
Definition w_OCR : str := [79;67;82].
Definition w_OCTAGON : str := [79;67;84;65;71;79;78].
Definition w_OCTAGONAL : str := [79;67;84;65;71;79;78;65;76].
Definition w_OCTOBER : str := [79;67;84;79;66;69;82].
Definition w_OCTOPUS : str := [79;67;84;79;80;85;83].
Definition w_ODD : str := [79;68;68].
Definition w_ODEN : str := [79;68;69;78].
Definition w_OE : str := [79;69].
Definition w_OEE : str := [79;69;69].
Definition w_OEK : str := [79;69;75].
Definition w_OEY : str := [79;69;89].
Definition w_OF : str := [79;70].
Definition w_OFF : str := [79;70;70].
Definition w_OFFICE : str := [79;70;70;73;67;69].
Definition w_OFFICER : str := [79;70;70;73;67;69;82].
Definition w_OGHAM : str := [79;71;72;65;77].
Definition w_OGONEK : str := [79;71;79;78;69;75].
Definition w_OGRE : str := [79;71;82;69].
Definition w_OH : str := [79;72].
Definition w_OHM : str := [79;72;77].
Definition w_OI : str := [79;73].
Definition w_OIL : str := [79;73;76].
Definition w_OIN : str := [79;73;78].
Definition w_OJEON : str := [79;74;69;79;78].
Definition w_OJIBWAY : str := [79;74;73;66;87;65;89].
Definition w_OK : str := [79;75].
Definition w_OKARA : str := [79;75;65;82;65].
Definition w_OKTO : str := [79;75;84;79].
Definition w_OL : str := [79;76].
Definition w_OLD : str := [79;76;68].
Definition w_OLDER : str := [79;76;68;69;82].
Definition w_OLE : str := [79;76;69].
Definition w_OLIGON : str := [79;76;73;71;79;78].
Definition w_OLIVE : str := [79;76;73;86;69].
Definition w_OM : str := [79;77].
Definition w_OMALON : str := [79;77;65;76;79;78].
Definition w_OMEGA : str := [79;77;69;71;65].
Definition w_OMICRON : str := [79;77;73;67;82;79;78].
Definition w_OMISSION : str := [79;77;73;83;83;73;79;78].
Definition w_ON : str := [79;78].
Definition w_ON_OFF : str := [79;78;45;79;70;70].
Definition w_ONAP : str := [79;78;65;80].
Definition w_ONCOMING : str := [79;78;67;79;77;73;78;71].
Definition w_ONE : str := [79;78;69].
Definition w_ONE_HUNDRED_AND_SIXTIETH : str := [79;78;69;45;72;85;78;68;82;69;68;45;65;78;68;45;83;73;88;84;73;69;84;72].
Definition w_ONE_LINE : str := [79;78;69;45;76;73;78;69].
Definition w_ONE_THIRTY : str := [79;78;69;45;84;72;73;82;84;89].
Definition w_ONE_WAY : str := [79;78;69;45;87;65;89].
Definition w_ONESELF : str := [79;78;69;83;69;76;70].
Definition w_ONG : str := [79;78;71].
Definition w_ONKAR : str := [79;78;75;65;82].
Definition w_ONN : str := [79;78;78].
Definition w_ONSU : str := [79;78;83;85].
Definition w_ONU : str := [79;78;85].
Definition w_OO : str := [79;79].
Definition w_OOBOOFILI : str := [79;79;66;79;79;70;73;76;73].
Definition w_OOE : str := [79;79;69].
Definition w_OOH : str := [79;79;72].
Definition w_OOMU : str := [79;79;77;85].
Definition w_OON : str := [79;79;78].
Definition w_OOU : str := [79;79;85].
Definition w_OOYANNA : str := [79;79;89;65;78;78;65].
Definition w_OOZE : str := [79;79;90;69].
Definition w_OP : str := [79;80].
Definition w_OPEN : str := [79;80;69;78].
Definition w_OPEN_CIRCUIT_OUTPUT : str := [79;80;69;78;45;67;73;82;67;85;73;84;45;79;85;84;80;85;84].
Definition w_OPEN_HEADED : str := [79;80;69;78;45;72;69;65;68;69;68].
Definition w_OPEN_O : str := [79;80;69;78;45;79].
Definition w_OPEN_OUTLINED : str := [79;80;69;78;45;79;85;84;76;73;78;69;68].
Definition w_OPEN_P : str := [79;80;69;78;45;80].
Definition w_OPENING : str := [79;80;69;78;73;78;71].
Definition w_OPERATOR : str := [79;80;69;82;65;84;79;82].
Definition w_OPHIUCHUS : str := [79;80;72;73;85;67;72;85;83].
Definition w_OPPOSE : str := [79;80;80;79;83;69].
Definition w_OPPOSING : str := [79;80;80;79;83;73;78;71].
Definition w_OPPOSITION : str := [79;80;80;79;83;73;84;73;79;78].
Definition w_OPPRESSION : str := [79;80;80;82;69;83;83;73;79;78].
Definition w_OPTICAL : str := [79;80;84;73;67;65;76].
Definition w_OPTION : str := [79;80;84;73;79;78].
Definition w_OQ : str := [79;81].
Definition w_OR : str := [79;82].
Definition w_ORANGE : str := [79;82;65;78;71;69].
Definition w_ORCHID : str := [79;82;67;72;73;68].
Definition w_ORDINAL : str := [79;82;68;73;78;65;76].
Definition w_ORE : str := [79;82;69].
Definition w_ORE_2 : str := [79;82;69;45;50].
Definition w_ORIGIN : str := [79;82;73;71;73;78].
Definition w_ORIGINAL : str := [79;82;73;71;73;78;65;76].
Definition w_ORIYA : str := [79;82;73;89;65].
Definition w_ORKHON : str := [79;82;75;72;79;78].
Definition w_ORNAMENT : str := [79;82;78;65;77;69;78;84].
Definition w_ORNAMENTS : str := [79;82;78;65;77;69;78;84;83].
Definition w_ORNATE : str := [79;82;78;65;84;69].
Definition w_ORTHODOX : str := [79;82;84;72;79;68;79;88].
Definition w_ORTHOGONAL : str := [79;82;84;72;79;71;79;78;65;76].
Definition w_OS : str := [79;83].
Definition w_OSAGE : str := [79;83;65;71;69].
Definition w_OSMANYA : str := [79;83;77;65;78;89;65].
Definition w_OT : str := [79;84].
Definition w_OTHAL : str := [79;84;72;65;76].
Definition w_OTHALAN : str := [79;84;72;65;76;65;78].
Definition w_OTHER : str := [79;84;72;69;82].
Definition w_OTHERS : str := [79;84;72;69;82;83].
Definition w_OTT : str := [79;84;84].
Definition w_OTTAVA : str := [79;84;84;65;86;65].
Definition w_OTU : str := [79;84;85].
Definition w_OU : str := [79;85].
Definition w_OUNCE : str := [79;85;78;67;69].
Definition w_OUNKIA : str := [79;85;78;75;73;65].
Definition w_OUT : str := [79;85;84].
Definition w_OUTBOX : str := [79;85;84;66;79;88].
Definition w_OUTER : str := [79;85;84;69;82].
Definition w_OUTLINE : str := [79;85;84;76;73;78;69].
Definition w_OUTLINED : str := [79;85;84;76;73;78;69;68].
Definition w_OV : str := [79;86].
Definition w_OVAL : str := [79;86;65;76].
Definition w_OVER : str := [79;86;69;82].
Definition w_OVERBAR : str := [79;86;69;82;66;65;82].
Definition w_OVERLAID : str := [79;86;69;82;76;65;73;68].
Definition w_OVERLAP : str := [79;86;69;82;76;65;80].
Definition w_OVERLAPPING : str := [79;86;69;82;76;65;80;80;73;78;71].
Definition w_OVERLAY : str := [79;86;69;82;76;65;89].
Definition w_OVERLINE : str := [79;86;69;82;76;73;78;69].
Definition w_OVERLONG : str := [79;86;69;82;76;79;78;71].
Definition w_OVERRIDE : str := [79;86;69;82;82;73;68;69].
Definition w_OW : str := [79;87].
Definition w_OWL : str := [79;87;76].
Definition w_OX : str := [79;88].
Definition w_OXEIA : str := [79;88;69;73;65].
Definition w_OXEIAI : str := [79;88;69;73;65;73].
Definition w_OXIA : str := [79;88;73;65].
Definition w_OY : str := [79;89].
Definition w_OYANNA : str := [79;89;65;78;78;65].
Definition w_OYRANISMA : str := [79;89;82;65;78;73;83;77;65].
Definition w_P : str := [80].
Definition w_P001 : str := [80;48;48;49].
Definition w_P001A : str := [80;48;48;49;65].
Definition w_P002 : str := [80;48;48;50].
Definition w_P003 : str := [80;48;48;51].
Definition w_P003A : str := [80;48;48;51;65].
Definition w_P004 : str := [80;48;48;52].
Definition w_P005 : str := [80;48;48;53].
Definition w_P006 : str := [80;48;48;54].
Definition w_P007 : str := [80;48;48;55].
Definition w_P008 : str := [80;48;48;56].
Definition w_P009 : str := [80;48;48;57].
Definition w_P010 : str := [80;48;49;48].
Definition w_P011 : str := [80;48;49;49].
Definition w_P2 : str := [80;50].
Definition w_PA : str := [80;65].
Definition w_PAA : str := [80;65;65].
Definition w_PAA_PILLA : str := [80;65;65;45;80;73;76;76;65].
Definition w_PAAI : str := [80;65;65;73].
Definition w_PAAM : str := [80;65;65;77].
Definition w_PAARAE : str := [80;65;65;82;65;69].
Definition w_PAASENTO : str := [80;65;65;83;69;78;84;79].
Definition w_PAATU : str := [80;65;65;84;85].
Definition w_PACKAGE : str := [80;65;67;75;65;71;69].
Definition w_PACKING : str := [80;65;67;75;73;78;71].
Definition w_PAD : str := [80;65;68].
Definition w_PADA : str := [80;65;68;65].
Definition w_PADDLE : str := [80;65;68;68;76;69].
Definition w_PADMA : str := [80;65;68;77;65].
Definition w_PAGE : str := [80;65;71;69].
Definition w_PAGER : str := [80;65;71;69;82].
Definition w_PAGES : str := [80;65;71;69;83].
Definition w_PAGODA : str := [80;65;71;79;68;65].
Definition w_PAH : str := [80;65;72].
Definition w_PAHAWH : str := [80;65;72;65;87;72].
Definition w_PAHLAVI : str := [80;65;72;76;65;86;73].
Definition w_PAINTBRUSH : str := [80;65;73;78;84;66;82;85;83;72].
Definition w_PAIRED : str := [80;65;73;82;69;68].
Definition w_PAIRTHRA : str := [80;65;73;82;84;72;82;65].
Definition w_PAIYANNOI : str := [80;65;73;89;65;78;78;79;73].
Definition w_PAKPAK : str := [80;65;75;80;65;75].
Definition w_PALATAL : str := [80;65;76;65;84;65;76].
Definition w_PALATALIZATION : str := [80;65;76;65;84;65;76;73;90;65;84;73;79;78].
Definition w_PALATALIZED : str := [80;65;76;65;84;65;76;73;90;69;68].
Definition w_PALAUNG : str := [80;65;76;65;85;78;71].
Definition w_PALETTE : str := [80;65;76;69;84;84;69].
Definition w_PALLAS : str := [80;65;76;76;65;83].
Definition w_PALLAWA : str := [80;65;76;76;65;87;65].
Definition w_PALM : str := [80;65;76;77].
Definition w_PALMS : str := [80;65;76;77;83].
Definition w_PALMYRENE : str := [80;65;76;77;89;82;69;78;69].
Definition w_PALOCHKA : str := [80;65;76;79;67;72;75;65].
Definition w_PALUTA : str := [80;65;76;85;84;65].
Definition w_PAMAAEH : str := [80;65;77;65;65;69;72].
Definition w_PAMADA : str := [80;65;77;65;68;65].
Definition w_PAMENENG : str := [80;65;77;69;78;69;78;71].
Definition w_PAMEPET : str := [80;65;77;69;80;69;84].
Definition w_PAMINGKAL : str := [80;65;77;73;78;71;75;65;76].
Definition w_PAMPHYLIAN : str := [80;65;77;80;72;89;76;73;65;78].
Definition w_PAMSHAE : str := [80;65;77;83;72;65;69].
Definition w_PAMUDPOD : str := [80;65;77;85;68;80;79;68].
Definition w_PAMUNGKAH : str := [80;65;77;85;78;71;75;65;72].
Definition w_PAN : str := [80;65;78].
Definition w_PANAELAENG : str := [80;65;78;65;69;76;65;69;78;71].
Definition w_PANCAKES : str := [80;65;78;67;65;75;69;83].
Definition w_PANDA : str := [80;65;78;68;65].
Definition w_PANEULEUNG : str := [80;65;78;69;85;76;69;85;78;71].
Definition w_PANG : str := [80;65;78;71].
Definition w_PANGHULU : str := [80;65;78;71;72;85;76;85].
Definition w_PANGKAT : str := [80;65;78;71;75;65;84].
Definition w_PANGKON : str := [80;65;78;71;75;79;78].
Definition w_PANGLAYAR : str := [80;65;78;71;76;65;89;65;82].
Definition w_PANGLONG : str := [80;65;78;71;76;79;78;71].
Definition w_PANGOLAT : str := [80;65;78;71;79;76;65;84].
Definition w_PANGRANGKEP : str := [80;65;78;71;82;65;78;71;75;69;80].
Definition w_PANGWISAD : str := [80;65;78;71;87;73;83;65;68].
Definition w_PANOLONG : str := [80;65;78;79;76;79;78;71].
Definition w_PANONGONAN : str := [80;65;78;79;78;71;79;78;65;78].
Definition w_PANSIOS : str := [80;65;78;83;73;79;83].
Definition w_PANSIOS_KAPYEOUNPIEUP : str := [80;65;78;83;73;79;83;45;75;65;80;89;69;79;85;78;80;73;69;85;80].
Definition w_PANSIOS_PIEUP : str := [80;65;78;83;73;79;83;45;80;73;69;85;80].
Definition w_PANTI : str := [80;65;78;84;73].
Definition w_PANYAKRA : str := [80;65;78;89;65;75;82;65].
Definition w_PANYANGGA : str := [80;65;78;89;65;78;71;71;65].
Definition w_PANYECEK : str := [80;65;78;89;69;67;69;75].
Definition w_PANYIKU : str := [80;65;78;89;73;75;85].
Definition w_PANYUKU : str := [80;65;78;89;85;75;85].
Definition w_PAO : str := [80;65;79].
Definition w_PAP : str := [80;65;80].
Definition w_PAPER : str := [80;65;80;69;82].
Definition w_PAPERCLIP : str := [80;65;80;69;82;67;76;73;80].
Definition w_PAPERCLIPS : str := [80;65;80;69;82;67;76;73;80;83].
Definition w_PAPYRUS : str := [80;65;80;89;82;85;83].
Definition w_PAR : str := [80;65;82].
Definition w_PARA : str := [80;65;82;65].
Definition w_PARAGRAPH : str := [80;65;82;65;71;82;65;80;72].
Definition w_PARAGRAPHOS : str := [80;65;82;65;71;82;65;80;72;79;83].
Definition w_PARAKALESMA : str := [80;65;82;65;75;65;76;69;83;77;65].
Definition w_PARAKLITIKI : str := [80;65;82;65;75;76;73;84;73;75;73].
Definition w_PARALLEL : str := [80;65;82;65;76;76;69;76].
Definition w_PARALLELOGRAM : str := [80;65;82;65;76;76;69;76;79;71;82;65;77].
Definition w_PARAPHRASE : str := [80;65;82;65;80;72;82;65;83;69].
Definition w_PARENTHESES : str := [80;65;82;69;78;84;72;69;83;69;83].
Definition w_PARENTHESIS : str := [80;65;82;69;78;84;72;69;83;73;83].
Definition w_PARENTHESIZED : str := [80;65;82;69;78;84;72;69;83;73;90;69;68].
Definition w_PAREREN : str := [80;65;82;69;82;69;78].
Definition w_PARESTIGMENON : str := [80;65;82;69;83;84;73;71;77;69;78;79;78].
Definition w_PARICHON : str := [80;65;82;73;67;72;79;78].
Definition w_PARK : str := [80;65;82;75].
Definition w_PART : str := [80;65;82;84].
Definition w_PARTHIAN : str := [80;65;82;84;72;73;65;78].
Definition w_PARTIAL : str := [80;65;82;84;73;65;76].
Definition w_PARTIALLY_RECYCLED : str := [80;65;82;84;73;65;76;76;89;45;82;69;67;89;67;76;69;68].
Definition w_PARTNERSHIP : str := [80;65;82;84;78;69;82;83;72;73;80].
Definition w_PARTY : str := [80;65;82;84;89].
Definition w_PARUM : str := [80;65;82;85;77].
Definition w_PASANGAN : str := [80;65;83;65;78;71;65;78].
Definition w_PASEQ : str := [80;65;83;69;81].
Definition w_PASHAE : str := [80;65;83;72;65;69].
Definition w_PASHTA : str := [80;65;83;72;84;65].
Definition w_PASSENGER : str := [80;65;83;83;69;78;71;69;82].
Definition w_PASSIVE_PULL_DOWN_OUTPUT : str := [80;65;83;83;73;86;69;45;80;85;76;76;45;68;79;87;78;45;79;85;84;80;85;84].
Definition w_PASSIVE_PULL_UP_OUTPUT : str := [80;65;83;83;73;86;69;45;80;85;76;76;45;85;80;45;79;85;84;80;85;84].
Definition w_PASSPORT : str := [80;65;83;83;80;79;82;84].
Definition w_PASUQ : str := [80;65;83;85;81].
Definition w_PAT : str := [80;65;84].
Definition w_PATAH : str := [80;65;84;65;72].
Definition w_PATAK : str := [80;65;84;65;75].
Definition w_PATH : str := [80;65;84;72].
Definition w_PATHAMASAT : str := [80;65;84;72;65;77;65;83;65;84].
Definition w_PATTERN : str := [80;65;84;84;69;82;78].
Definition w_PAU : str := [80;65;85].
Definition w_PAVIYANI : str := [80;65;86;73;89;65;78;73].
Definition w_PAW : str := [80;65;87].
Definition w_PAWN : str := [80;65;87;78].
Definition w_PAX : str := [80;65;88].
Definition w_PAY : str := [80;65;89].
Definition w_PAYANNA : str := [80;65;89;65;78;78;65].
Definition w_PAYEROK : str := [80;65;89;69;82;79;75].
Definition w_PAZER : str := [80;65;90;69;82].
Definition w_PC : str := [80;67].
Definition w_PD : str := [80;68].
Definition w_PE : str := [80;69].
Definition w_PEACE : str := [80;69;65;67;69].
Definition w_PEACH : str := [80;69;65;67;72].
Definition w_PEAKS : str := [80;69;65;75;83].
Definition w_PEANUTS : str := [80;69;65;78;85;84;83].
Definition w_PEAR : str := [80;69;65;82].
Definition w_PEDAL : str := [80;69;68;65;76].
Definition w_PEDESTAL : str := [80;69;68;69;83;84;65;76].
Definition w_PEDESTRIAN : str := [80;69;68;69;83;84;82;73;65;78].
Definition w_PEDESTRIANS : str := [80;69;68;69;83;84;82;73;65;78;83].
Definition w_PEE : str := [80;69;69].
Definition w_PEEI : str := [80;69;69;73].
Definition w_PEEM : str := [80;69;69;77].
Definition w_PEEP : str := [80;69;69;80].
Definition w_PEESHI : str := [80;69;69;83;72;73].
Definition w_PEEZI : str := [80;69;69;90;73].
Definition w_PEH : str := [80;69;72].
Definition w_PEHEH : str := [80;69;72;69;72].
Definition w_PEITH : str := [80;69;73;84;72].
Definition w_PELASTON : str := [80;69;76;65;83;84;79;78].
Definition w_PEN : str := [80;69;78].
Definition w_PENCIL : str := [80;69;78;67;73;76].
Definition w_PENETRATION : str := [80;69;78;69;84;82;65;84;73;79;78].
Definition w_PENGKAL : str := [80;69;78;71;75;65;76].
Definition w_PENGUIN : str := [80;69;78;71;85;73;78].
Definition w_PENIHI : str := [80;69;78;73;72;73].
Definition w_PENNANT : str := [80;69;78;78;65;78;84].
Definition w_PENNY : str := [80;69;78;78;89].
Definition w_PENSIVE : str := [80;69;78;83;73;86;69].
Definition w_PENSU : str := [80;69;78;83;85].
Definition w_PENTAGON : str := [80;69;78;84;65;71;79;78].
Definition w_PENTAGRAM : str := [80;69;78;84;65;71;82;65;77].
Definition w_PENTASEME : str := [80;69;78;84;65;83;69;77;69].
Definition w_PENTATHLON : str := [80;69;78;84;65;84;72;76;79;78].
Definition w_PEOPLE : str := [80;69;79;80;76;69].
Definition w_PEORTH : str := [80;69;79;82;84;72].
Definition w_PEPET : str := [80;69;80;69;84].
Definition w_PEPPER : str := [80;69;80;80;69;82].
Definition w_PER : str := [80;69;82].
Definition w_PERCENT : str := [80;69;82;67;69;78;84].
Definition w_PERCUSSIVE : str := [80;69;82;67;85;83;83;73;86;69].
Definition w_PERFECTA : str := [80;69;82;70;69;67;84;65].
Definition w_PERFECTUM : str := [80;69;82;70;69;67;84;85;77].
Definition w_PERFORMING : str := [80;69;82;70;79;82;77;73;78;71].
Definition w_PERISPOMENI : str := [80;69;82;73;83;80;79;77;69;78;73].
Definition w_PERMANENT : str := [80;69;82;77;65;78;69;78;84].
Definition w_PERMIC : str := [80;69;82;77;73;67].
Definition w_PERNIN : str := [80;69;82;78;73;78].
Definition w_PERPENDICULAR : str := [80;69;82;80;69;78;68;73;67;85;76;65;82].
Definition w_PERSEVERING : str := [80;69;82;83;69;86;69;82;73;78;71].
Definition w_PERSIAN : str := [80;69;82;83;73;65;78].
Definition w_PERSON : str := [80;69;82;83;79;78].
Definition w_PERSONAL : str := [80;69;82;83;79;78;65;76].
Definition w_PERSPECTIVE : str := [80;69;82;83;80;69;67;84;73;86;69].
Definition w_PERTHO : str := [80;69;82;84;72;79].
Definition w_PES : str := [80;69;83].
Definition w_PESETA : str := [80;69;83;69;84;65].
Definition w_PESH2 : str := [80;69;83;72;50].
Definition w_PESO : str := [80;69;83;79].
Definition w_PET : str := [80;69;84].
Definition w_PETALLED : str := [80;69;84;65;76;76;69;68].
Definition w_PETASMA : str := [80;69;84;65;83;77;65].
Definition w_PETASTI : str := [80;69;84;65;83;84;73].
Definition w_PETASTOKOUFISMA : str := [80;69;84;65;83;84;79;75;79;85;70;73;83;77;65].
Definition w_PEUT : str := [80;69;85;84].
Definition w_PEUTAE : str := [80;69;85;84;65;69].
Definition w_PEUX : str := [80;69;85;88].
Definition w_PF : str := [80;70].
Definition w_PG : str := [80;71].
Definition w_PH : str := [80;72].
Definition w_PHA : str := [80;72;65].
Definition w_PHAA : str := [80;72;65;65].
Definition w_PHAARKAA : str := [80;72;65;65;82;75;65;65].
Definition w_PHAB : str := [80;72;65;66].
Definition w_PHAGS_PA : str := [80;72;65;71;83;45;80;65].
Definition w_PHAISTOS : str := [80;72;65;73;83;84;79;83].
Definition w_PHAM : str := [80;72;65;77].
Definition w_PHAN : str := [80;72;65;78].
Definition w_PHAR : str := [80;72;65;82].
Definition w_PHARYNGEAL : str := [80;72;65;82;89;78;71;69;65;76].
Definition w_PHASE_A : str := [80;72;65;83;69;45;65].
Definition w_PHASE_B : str := [80;72;65;83;69;45;66].
Definition w_PHASE_C : str := [80;72;65;83;69;45;67].
Definition w_PHASE_D : str := [80;72;65;83;69;45;68].
Definition w_PHASE_E : str := [80;72;65;83;69;45;69].
Definition w_PHASE_F : str := [80;72;65;83;69;45;70].
Definition w_PHE : str := [80;72;69].
Definition w_PHEE : str := [80;72;69;69].
Definition w_PHI : str := [80;72;73].
Definition w_PHIEUPH : str := [80;72;73;69;85;80;72].
Definition w_PHIEUPH_HIEUH : str := [80;72;73;69;85;80;72;45;72;73;69;85;72].
Definition w_PHIEUPH_PIEUP : str := [80;72;73;69;85;80;72;45;80;73;69;85;80].
Definition w_PHIEUPH_SIOS : str := [80;72;73;69;85;80;72;45;83;73;79;83].
Definition w_PHIEUPH_THIEUTH : str := [80;72;73;69;85;80;72;45;84;72;73;69;85;84;72].
Definition w_PHILIPPINE : str := [80;72;73;76;73;80;80;73;78;69].
Definition w_PHILOSOPHERS : str := [80;72;73;76;79;83;79;80;72;69;82;83].
Definition w_PHINTHU : str := [80;72;73;78;84;72;85].
Definition w_PHNAEK : str := [80;72;78;65;69;75].
Definition w_PHO : str := [80;72;79].
Definition w_PHOA : str := [80;72;79;65].
Definition w_PHOENICIAN : str := [80;72;79;69;78;73;67;73;65;78].
Definition w_PHONE : str := [80;72;79;78;69].
Definition w_PHONES : str := [80;72;79;78;69;83].
Definition w_PHRASE : str := [80;72;82;65;83;69].
Definition w_PHU : str := [80;72;85].
Definition w_PHUNG : str := [80;72;85;78;71].
Definition w_PHUR : str := [80;72;85;82].
Definition w_PHUTHAO : str := [80;72;85;84;72;65;79].
Definition w_PHWA : str := [80;72;87;65].
Definition w_PI : str := [80;73].
Definition w_PIANO : str := [80;73;65;78;79].
Definition w_PIASMA : str := [80;73;65;83;77;65].
Definition w_PIASUTORU : str := [80;73;65;83;85;84;79;82;85].
Definition w_PICK : str := [80;73;67;75].
Definition w_PICKET : str := [80;73;67;75;69;84].
Definition w_PICTURE : str := [80;73;67;84;85;82;69].
Definition w_PIE : str := [80;73;69].
Definition w_PIECE : str := [80;73;69;67;69].
Definition w_PIEEQ : str := [80;73;69;69;81].
Definition w_PIEET : str := [80;73;69;69;84].
Definition w_PIEP : str := [80;73;69;80].
Definition w_PIET : str := [80;73;69;84].
Definition w_PIEUP : str := [80;73;69;85;80].
Definition w_PIEUP_CHIEUCH : str := [80;73;69;85;80;45;67;72;73;69;85;67;72].
Definition w_PIEUP_CIEUC : str := [80;73;69;85;80;45;67;73;69;85;67].
Definition w_PIEUP_HIEUH : str := [80;73;69;85;80;45;72;73;69;85;72].
Definition w_PIEUP_KHIEUKH : str := [80;73;69;85;80;45;75;72;73;69;85;75;72].
Definition w_PIEUP_KIYEOK : str := [80;73;69;85;80;45;75;73;89;69;79;75].
Definition w_PIEUP_MIEUM : str := [80;73;69;85;80;45;77;73;69;85;77].
Definition w_PIEUP_NIEUN : str := [80;73;69;85;80;45;78;73;69;85;78].
Definition w_PIEUP_PHIEUPH : str := [80;73;69;85;80;45;80;72;73;69;85;80;72].
Definition w_PIEUP_RIEUL : str := [80;73;69;85;80;45;82;73;69;85;76].
Definition w_PIEUP_RIEUL_PHIEUPH : str := [80;73;69;85;80;45;82;73;69;85;76;45;80;72;73;69;85;80;72].
Definition w_PIEUP_SIOS : str := [80;73;69;85;80;45;83;73;79;83].
Definition w_PIEUP_SIOS_CIEUC : str := [80;73;69;85;80;45;83;73;79;83;45;67;73;69;85;67].
Definition w_PIEUP_SIOS_KIYEOK : str := [80;73;69;85;80;45;83;73;79;83;45;75;73;89;69;79;75].
Definition w_PIEUP_SIOS_PIEUP : str := [80;73;69;85;80;45;83;73;79;83;45;80;73;69;85;80].
Definition w_PIEUP_SIOS_THIEUTH : str := [80;73;69;85;80;45;83;73;79;83;45;84;72;73;69;85;84;72].
Definition w_PIEUP_SIOS_TIKEUT : str := [80;73;69;85;80;45;83;73;79;83;45;84;73;75;69;85;84].
Definition w_PIEUP_SSANGSIOS : str := [80;73;69;85;80;45;83;83;65;78;71;83;73;79;83].
Definition w_PIEUP_THIEUTH : str := [80;73;69;85;80;45;84;72;73;69;85;84;72].
Definition w_PIEUP_TIKEUT : str := [80;73;69;85;80;45;84;73;75;69;85;84].
Definition w_PIEX : str := [80;73;69;88].
Definition w_PIG : str := [80;73;71].
Definition w_PII : str := [80;73;73].
Definition w_PIKO : str := [80;73;75;79].
Definition w_PIKURU : str := [80;73;75;85;82;85].
Definition w_PILCROW : str := [80;73;76;67;82;79;87].
Definition w_PILE : str := [80;73;76;69].
Definition w_PILL : str := [80;73;76;76].
Definition w_PIN : str := [80;73;78].
Definition w_PINARBORAS : str := [80;73;78;65;82;66;79;82;65;83].
Definition w_PINE : str := [80;73;78;69].
Definition w_PINEAPPLE : str := [80;73;78;69;65;80;80;76;69].
Definition w_PING : str := [80;73;78;71].
Definition w_PINWHEEL : str := [80;73;78;87;72;69;69;76].
Definition w_PIP : str := [80;73;80].
Definition w_PIPAEMBA : str := [80;73;80;65;69;77;66;65].
Definition w_PIPAEMGBIEE : str := [80;73;80;65;69;77;71;66;73;69;69].
Definition w_PIPING : str := [80;73;80;73;78;71].
Definition w_PIR2 : str := [80;73;82;50].
Definition w_PIRACY : str := [80;73;82;65;67;89].
Definition w_PIRIEEN : str := [80;73;82;73;69;69;78].
Definition w_PIRIG : str := [80;73;82;73;71].
Definition w_PISCES : str := [80;73;83;67;69;83].
Definition w_PISELEH : str := [80;73;83;69;76;69;72].
Definition w_PISTOL : str := [80;73;83;84;79;76].
Definition w_PIT : str := [80;73;84].
Definition w_PITCHFORK : str := [80;73;84;67;72;70;79;82;75].
Definition w_PIWR : str := [80;73;87;82].
Definition w_PIX : str := [80;73;88].
Definition w_PIZZA : str := [80;73;90;90;65].
Definition w_PIZZICATO : str := [80;73;90;90;73;67;65;84;79].
Definition w_PLA : str := [80;76;65].
Definition w_PLACE : str := [80;76;65;67;69].
Definition w_PLACEHOLDER : str := [80;76;65;67;69;72;79;76;68;69;82].
Definition w_PLAGIOS : str := [80;76;65;71;73;79;83].
Definition w_PLAK : str := [80;76;65;75].
Definition w_PLANCK : str := [80;76;65;78;67;75].
Definition w_PLANE : str := [80;76;65;78;69].
Definition w_PLASTICS : str := [80;76;65;83;84;73;67;83].
Definition w_PLATE : str := [80;76;65;84;69].
Definition w_PLAYING : str := [80;76;65;89;73;78;71].
Definition w_PLETHRON : str := [80;76;69;84;72;82;79;78].
Definition w_PLHAU : str := [80;76;72;65;85].
Definition w_PLOPHU : str := [80;76;79;80;72;85].
Definition w_PLOW : str := [80;76;79;87].
Definition w_PLUG : str := [80;76;85;71].
Definition w_PLUK : str := [80;76;85;75].
Definition w_PLUM : str := [80;76;85;77].
Definition w_PLUMED : str := [80;76;85;77;69;68].
Definition w_PLURAL : str := [80;76;85;82;65;76].
Definition w_PLUS : str := [80;76;85;83].
Definition w_PLUS_MINUS : str := [80;76;85;83;45;77;73;78;85;83].
Definition w_PLUTA : str := [80;76;85;84;65].
Definition w_PLUTO : str := [80;76;85;84;79].
Definition w_PM : str := [80;77].
Definition w_PNEUMATA : str := [80;78;69;85;77;65;84;65].
Definition w_PO : str := [80;79].
Definition w_POA : str := [80;79;65].
Definition w_POCKET : str := [80;79;67;75;69;84].
Definition w_PODATUS : str := [80;79;68;65;84;85;83].
Definition w_POETIC : str := [80;79;69;84;73;67].
Definition w_POETRY : str := [80;79;69;84;82;89].
Definition w_POINT : str := [80;79;73;78;84].
Definition w_POINTED : str := [80;79;73;78;84;69;68].
Definition w_POINTER : str := [80;79;73;78;84;69;82].
Definition w_POINTING : str := [80;79;73;78;84;73;78;71].
Definition w_POINTO : str := [80;79;73;78;84;79].
Definition w_POINTS : str := [80;79;73;78;84;83].
Definition w_POKOJI : str := [80;79;75;79;74;73].
Definition w_POKRYTIE : str := [80;79;75;82;89;84;73;69].
Definition w_POLE : str := [80;79;76;69].
Definition w_POLI : str := [80;79;76;73].
Definition w_POLICE : str := [80;79;76;73;67;69].
Definition w_POLISH : str := [80;79;76;73;83;72].
Definition w_POLO : str := [80;79;76;79].
Definition w_POMMEE : str := [80;79;77;77;69;69].
Definition w_PON : str := [80;79;78].
Definition w_PONDO : str := [80;79;78;68;79].
Definition w_POO : str := [80;79;79].
Definition w_POODLE : str := [80;79;79;68;76;69].
Definition w_POON : str := [80;79;79;78].
Definition w_POP : str := [80;79;80].
Definition w_POPCORN : str := [80;79;80;67;79;82;78].
Definition w_POPPER : str := [80;79;80;80;69;82].
Definition w_POPPING : str := [80;79;80;80;73;78;71].
Definition w_PORRECTUS : str := [80;79;82;82;69;67;84;85;83].
Definition w_PORTABLE : str := [80;79;82;84;65;66;76;69].
Definition w_POSITION : str := [80;79;83;73;84;73;79;78].
Definition w_POSITIONS : str := [80;79;83;73;84;73;79;78;83].
Definition w_POSSESSION : str := [80;79;83;83;69;83;83;73;79;78].
Definition w_POST : str := [80;79;83;84].
Definition w_POSTAL : str := [80;79;83;84;65;76].
Definition w_POSTBOX : str := [80;79;83;84;66;79;88].
Definition w_POSTPOSITION : str := [80;79;83;84;80;79;83;73;84;73;79;78].
Definition w_POT : str := [80;79;84].
Definition w_POTABLE : str := [80;79;84;65;66;76;69].
Definition w_POTATO : str := [80;79;84;65;84;79].
Definition w_POUCH : str := [80;79;85;67;72].
Definition w_POULTRY : str := [80;79;85;76;84;82;89].
Definition w_POUND : str := [80;79;85;78;68].
Definition w_POUTING : str := [80;79;85;84;73;78;71].
Definition w_POWDER : str := [80;79;87;68;69;82].
Definition w_POWDERED : str := [80;79;87;68;69;82;69;68].
Definition w_POWER : str := [80;79;87;69;82].
Definition w_POWERS : str := [80;79;87;69;82;83].
Definition w_POX : str := [80;79;88].
Definition w_POY : str := [80;79;89].
Definition w_PPA : str := [80;80;65].
Definition w_PPM : str := [80;80;77].
Definition w_PPV : str := [80;80;86].
Definition w_PR : str := [80;82].
Definition w_PRAM : str := [80;82;65;77].
Definition w_PRAM_BEI : str := [80;82;65;77;45;66;69;73].
Definition w_PRAM_BUON : str := [80;82;65;77;45;66;85;79;78].
Definition w_PRAM_MUOY : str := [80;82;65;77;45;77;85;79;89].
Definition w_PRAM_PII : str := [80;82;65;77;45;80;73;73].
Definition w_PRAYER : str := [80;82;65;89;69;82].
Definition w_PRECEDE : str := [80;82;69;67;69;68;69].
Definition w_PRECEDED : str := [80;82;69;67;69;68;69;68].
Definition w_PRECEDES : str := [80;82;69;67;69;68;69;83].
Definition w_PRECEDING : str := [80;82;69;67;69;68;73;78;71].
Definition w_PRECIPITATE : str := [80;82;69;67;73;80;73;84;65;84;69].
Definition w_PREFACE : str := [80;82;69;70;65;67;69].
Definition w_PREGNANT : str := [80;82;69;71;78;65;78;84].
Definition w_PRENKHA : str := [80;82;69;78;75;72;65].
Definition w_PREPONDERANCE : str := [80;82;69;80;79;78;68;69;82;65;78;67;69].
Definition w_PRESCRIPTION : str := [80;82;69;83;67;82;73;80;84;73;79;78].
Definition w_PRESENT : str := [80;82;69;83;69;78;84].
Definition w_PRESENTATION : str := [80;82;69;83;69;78;84;65;84;73;79;78].
Definition w_PRESSED : str := [80;82;69;83;83;69;68].
Definition w_PRETZEL : str := [80;82;69;84;90;69;76].
Definition w_PREVIOUS : str := [80;82;69;86;73;79;85;83].
Definition w_PRIME : str := [80;82;73;77;69].
Definition w_PRINCE : str := [80;82;73;78;67;69].
Definition w_PRINCESS : str := [80;82;73;78;67;69;83;83].
Definition w_PRINT : str := [80;82;73;78;84].
Definition w_PRINTER : str := [80;82;73;78;84;69;82].
Definition w_PRINTS : str := [80;82;73;78;84;83].
Definition w_PRISHTHAMATRA : str := [80;82;73;83;72;84;72;65;77;65;84;82;65].
Definition w_PRIVATE : str := [80;82;73;86;65;84;69].
Definition w_PRODUCT : str := [80;82;79;68;85;67;84].
Definition w_PROFOUND : str := [80;82;79;70;79;85;78;68].
Definition w_PROGRESS : str := [80;82;79;71;82;69;83;83].
Definition w_PROHIBITED : str := [80;82;79;72;73;66;73;84;69;68].
Definition w_PROJECTION : str := [80;82;79;74;69;67;84;73;79;78].
Definition w_PROJECTIVE : str := [80;82;79;74;69;67;84;73;86;69].
Definition w_PROJECTOR : str := [80;82;79;74;69;67;84;79;82].
Definition w_PROLATIONE : str := [80;82;79;76;65;84;73;79;78;69].
Definition w_PROLONGED : str := [80;82;79;76;79;78;71;69;68].
Definition w_PROOF : str := [80;82;79;79;70].
Definition w_PROPELLER : str := [80;82;79;80;69;76;76;69;82].
Definition w_PROPERTY : str := [80;82;79;80;69;82;84;89].
Definition w_PROPORTION : str := [80;82;79;80;79;82;84;73;79;78].
Definition w_PROPORTIONAL : str := [80;82;79;80;79;82;84;73;79;78;65;76].
Definition w_PROSGEGRAMMENI : str := [80;82;79;83;71;69;71;82;65;77;77;69;78;73].
Definition w_PROTOS : str := [80;82;79;84;79;83].
Definition w_PROTOVARYS : str := [80;82;79;84;79;86;65;82;89;83].
Definition w_PROVE : str := [80;82;79;86;69].
Definition w_PS : str := [80;83].
Definition w_PSALTER : str := [80;83;65;76;84;69;82].
Definition w_PSI : str := [80;83;73].
Definition w_PSIFISTOLYGISMA : str := [80;83;73;70;73;83;84;79;76;89;71;73;83;77;65].
Definition w_PSIFISTON : str := [80;83;73;70;73;83;84;79;78].
Definition w_PSIFISTOPARAKALESMA : str := [80;83;73;70;73;83;84;79;80;65;82;65;75;65;76;69;83;77;65].
Definition w_PSIFISTOSYNAGMA : str := [80;83;73;70;73;83;84;79;83;89;78;65;71;77;65].
Definition w_PSILI : str := [80;83;73;76;73].
Definition w_PSILON : str := [80;83;73;76;79;78].
Definition w_PTE : str := [80;84;69].
Definition w_PTHAHA : str := [80;84;72;65;72;65].
Definition w_PU : str := [80;85].
Definition w_PU2 : str := [80;85;50].
Definition w_PUAE : str := [80;85;65;69].
Definition w_PUAQ : str := [80;85;65;81].
Definition w_PUB : str := [80;85;66].
Definition w_PUBLIC : str := [80;85;66;76;73;67].
Definition w_PUCK : str := [80;85;67;75].
Definition w_PUE : str := [80;85;69].
Definition w_PUFFED : str := [80;85;70;70;69;68].
Definition w_PUM : str := [80;85;77].
Definition w_PUMP : str := [80;85;77;80].
Definition w_PUNCTUATION : str := [80;85;78;67;84;85;65;84;73;79;78].
Definition w_PUNG : str := [80;85;78;71].
Definition w_PUNGAAM : str := [80;85;78;71;65;65;77].
Definition w_PUO : str := [80;85;79].
Definition w_PUOP : str := [80;85;79;80].
Definition w_PUOX : str := [80;85;79;88].
Definition w_PUP : str := [80;85;80].
Definition w_PUQ : str := [80;85;81].
Definition w_PUR : str := [80;85;82].
Definition w_PURIFY : str := [80;85;82;73;70;89].
Definition w_PURITY : str := [80;85;82;73;84;89].
Definition w_PURNAMA : str := [80;85;82;78;65;77;65].
Definition w_PURPLE : str := [80;85;82;80;76;69].
Definition w_PURSE : str := [80;85;82;83;69].
Definition w_PURX : str := [80;85;82;88].
Definition w_PUSHING : str := [80;85;83;72;73;78;71].
Definition w_PUSHPIKA : str := [80;85;83;72;80;73;75;65].
Definition w_PUSHPIN : str := [80;85;83;72;80;73;78].
Definition w_PUT : str := [80;85;84].
Definition w_PUTREFACTION : str := [80;85;84;82;69;70;65;67;84;73;79;78].
Definition w_PUUT : str := [80;85;85;84].
Definition w_PUX : str := [80;85;88].
Definition w_PV : str := [80;86].
Definition w_PW : str := [80;87].
Definition w_PWA : str := [80;87;65].
Definition w_PWAA : str := [80;87;65;65].
Definition w_PWE : str := [80;87;69].
Definition w_PWEE : str := [80;87;69;69].
Definition w_PWI : str := [80;87;73].
Definition w_PWII : str := [80;87;73;73].
Definition w_PWO : str := [80;87;79].
Definition w_PWOO : str := [80;87;79;79].
Definition w_PWOY : str := [80;87;79;89].
Definition w_PY : str := [80;89].
Definition w_PYP : str := [80;89;80].
Definition w_PYR : str := [80;89;82].
Definition w_PYRX : str := [80;89;82;88].
Definition w_PYT : str := [80;89;84].
Definition w_PYX : str := [80;89;88].
Definition w_PZ : str := [80;90].
Definition w_Q : str := [81].
Definition w_Q001 : str := [81;48;48;49].
Definition w_Q002 : str := [81;48;48;50].
Definition w_Q003 : str := [81;48;48;51].
Definition w_Q004 : str := [81;48;48;52].
Definition w_Q005 : str := [81;48;48;53].
Definition w_Q006 : str := [81;48;48;54].
Definition w_Q007 : str := [81;48;48;55].
Definition w_QA : str := [81;65].
Definition w_QAA : str := [81;65;65].
Definition w_QAAF : str := [81;65;65;70].
Definition w_QAAFU : str := [81;65;65;70;85].
Definition w_QAAI : str := [81;65;65;73].
Definition w_QADMA : str := [81;65;68;77;65].
Definition w_QAF : str := [81;65;70].
Definition w_QAI : str := [81;65;73].
Definition w_QAIRTHRA : str := [81;65;73;82;84;72;82;65].
Definition w_QALA : str := [81;65;76;65].
Definition w_QAMATS : str := [81;65;77;65;84;83].
Definition w_QAPH : str := [81;65;80;72].
Definition w_QAQ : str := [81;65;81].
Definition w_QAR : str := [81;65;82].
Definition w_QARNEY : str := [81;65;82;78;69;89].
Definition w_QATAN : str := [81;65;84;65;78].
Definition w_QAU : str := [81;65;85].
Definition w_QAY : str := [81;65;89].
Definition w_QE : str := [81;69].
Definition w_QEE : str := [81;69;69].
Definition w_QETANA : str := [81;69;84;65;78;65].
Definition w_QGA : str := [81;71;65].
Definition w_QHA : str := [81;72;65].
Definition w_QHAA : str := [81;72;65;65].
Definition w_QHAU : str := [81;72;65;85].
Definition w_QHE : str := [81;72;69].
Definition w_QHEE : str := [81;72;69;69].
Definition w_QHI : str := [81;72;73].
Definition w_QHO : str := [81;72;79].
Definition w_QHOPH : str := [81;72;79;80;72].
Definition w_QHU : str := [81;72;85].
Definition w_QHWA : str := [81;72;87;65].
Definition w_QHWAA : str := [81;72;87;65;65].
Definition w_QHWE : str := [81;72;87;69].
Definition w_QHWEE : str := [81;72;87;69;69].
Definition w_QHWI : str := [81;72;87;73].
Definition w_QI : str := [81;73].
Definition w_QIE : str := [81;73;69].
Definition w_QIEP : str := [81;73;69;80].
Definition w_QIET : str := [81;73;69;84].
Definition w_QIEX : str := [81;73;69;88].
Definition w_QIF : str := [81;73;70].
Definition w_QII : str := [81;73;73].
Definition w_QIP : str := [81;73;80].
Definition w_QIT : str := [81;73;84].
Definition w_QITSA : str := [81;73;84;83;65].
Definition w_QIX : str := [81;73;88].
Definition w_QN : str := [81;78].
Definition w_QO : str := [81;79].
Definition w_QOA : str := [81;79;65].
Definition w_QOF : str := [81;79;70].
Definition w_QOO : str := [81;79;79].
Definition w_QOP : str := [81;79;80].
Definition w_QOPA : str := [81;79;80;65].
Definition w_QOPH : str := [81;79;80;72].
Definition w_QOT : str := [81;79;84].
Definition w_QOX : str := [81;79;88].
Definition w_QP : str := [81;80].
Definition w_QU : str := [81;85].
Definition w_QUA : str := [81;85;65].
Definition w_QUAD : str := [81;85;65;68].
Definition w_QUADCOLON : str := [81;85;65;68;67;79;76;79;78].
Definition w_QUADRANT : str := [81;85;65;68;82;65;78;84].
Definition w_QUADRUPLE : str := [81;85;65;68;82;85;80;76;69].
Definition w_QUANTITY : str := [81;85;65;78;84;73;84;89].
Definition w_QUARTER : str := [81;85;65;82;84;69;82].
Definition w_QUARTERS : str := [81;85;65;82;84;69;82;83].
Definition w_QUATERNION : str := [81;85;65;84;69;82;78;73;79;78].
Definition w_QUBUTS : str := [81;85;66;85;84;83].
Definition w_QUE : str := [81;85;69].
Definition w_QUEEN : str := [81;85;69;69;78].
Definition w_QUESTION : str := [81;85;69;83;84;73;79;78].
Definition w_QUESTIONED : str := [81;85;69;83;84;73;79;78;69;68].
Definition w_QUF : str := [81;85;70].
Definition w_QUI : str := [81;85;73].
Definition w_QUICK : str := [81;85;73;67;75].
Definition w_QUILL : str := [81;85;73;76;76].
Definition w_QUILT : str := [81;85;73;76;84].
Definition w_QUINARIUS : str := [81;85;73;78;65;82;73;85;83].
Definition w_QUINCUNX : str := [81;85;73;78;67;85;78;88].
Definition w_QUINDICESIMA : str := [81;85;73;78;68;73;67;69;83;73;77;65].
Definition w_QUINTESSENCE : str := [81;85;73;78;84;69;83;83;69;78;67;69].
Definition w_QUK : str := [81;85;75].
Definition w_QUO : str := [81;85;79].
Definition w_QUOP : str := [81;85;79;80].
Definition w_QUOT : str := [81;85;79;84].
Definition w_QUOTATION : str := [81;85;79;84;65;84;73;79;78].
Definition w_QUOTE : str := [81;85;79;84;69].
Definition w_QUOX : str := [81;85;79;88].
Definition w_QUP : str := [81;85;80].
Definition w_QUR : str := [81;85;82].
Definition w_QURX : str := [81;85;82;88].
Definition w_QUSHSHAYA : str := [81;85;83;72;83;72;65;89;65].
Definition w_QUT : str := [81;85;84].
Definition w_QUU : str := [81;85;85].
Definition w_QUUV : str := [81;85;85;86].
Definition w_QUV : str := [81;85;86].
Definition w_QUX : str := [81;85;88].
Definition w_QWA : str := [81;87;65].
Definition w_QWAA : str := [81;87;65;65].
Definition w_QWE : str := [81;87;69].
Definition w_QWEE : str := [81;87;69;69].
Definition w_QWI : str := [81;87;73].
Definition w_QY : str := [81;89].
Definition w_QYA : str := [81;89;65].
Definition w_QYAA : str := [81;89;65;65].
Definition w_QYE : str := [81;89;69].
Definition w_QYEE : str := [81;89;69;69].
Definition w_QYI : str := [81;89;73].
Definition w_QYO : str := [81;89;79].
Definition w_QYP : str := [81;89;80].
Definition w_QYR : str := [81;89;82].
Definition w_QYRX : str := [81;89;82;88].
Definition w_QYT : str := [81;89;84].
Definition w_QYU : str := [81;89;85].
Definition w_QYX : str := [81;89;88].
Definition w_R : str := [82].
Definition w_R_CREE : str := [82;45;67;82;69;69].
Definition w_R001 : str := [82;48;48;49].
Definition w_R002 : str := [82;48;48;50].
Definition w_R002A : str := [82;48;48;50;65].
Definition w_R003 : str := [82;48;48;51].
Definition w_R003A : str := [82;48;48;51;65].
Definition w_R003B : str := [82;48;48;51;66].
Definition w_R004 : str := [82;48;48;52].
Definition w_R005 : str := [82;48;48;53].
Definition w_R006 : str := [82;48;48;54].
Definition w_R007 : str := [82;48;48;55].
Definition w_R008 : str := [82;48;48;56].
Definition w_R009 : str := [82;48;48;57].
Definition w_R010 : str := [82;48;49;48].
Definition w_R010A : str := [82;48;49;48;65].
Definition w_R011 : str := [82;48;49;49].
Definition w_R012 : str := [82;48;49;50].
Definition w_R013 : str := [82;48;49;51].
Definition w_R014 : str := [82;48;49;52].
Definition w_R015 : str := [82;48;49;53].
Definition w_R016 : str := [82;48;49;54].
Definition w_R016A : str := [82;48;49;54;65].
Definition w_R017 : str := [82;48;49;55].
Definition w_R018 : str := [82;48;49;56].
Definition w_R019 : str := [82;48;49;57].
Definition w_R020 : str := [82;48;50;48].
Definition w_R021 : str := [82;48;50;49].
Definition w_R022 : str := [82;48;50;50].
Definition w_R023 : str := [82;48;50;51].
Definition w_R024 : str := [82;48;50;52].
Definition w_R025 : str := [82;48;50;53].
Definition w_R026 : str := [82;48;50;54].
Definition w_R027 : str := [82;48;50;55].
Definition w_R028 : str := [82;48;50;56].
Definition w_R029 : str := [82;48;50;57].
Definition w_RA : str := [82;65].
Definition w_RA_1 : str := [82;65;45;49].
Definition w_RA_2 : str := [82;65;45;50].
Definition w_RA_3 : str := [82;65;45;51].
Definition w_RA_4 : str := [82;65;45;52].
Definition w_RA_KARA : str := [82;65;45;75;65;82;65].
Definition w_RA2 : str := [82;65;50].
Definition w_RA3 : str := [82;65;51].
Definition w_RAA : str := [82;65;65].
Definition w_RAAI : str := [82;65;65;73].
Definition w_RAB : str := [82;65;66].
Definition w_RABBIT : str := [82;65;66;66;73;84].
Definition w_RACING : str := [82;65;67;73;78;71].
Definition w_RACQUET : str := [82;65;67;81;85;69;84].
Definition w_RAD : str := [82;65;68].
Definition w_RADI : str := [82;65;68;73].
Definition w_RADICAL : str := [82;65;68;73;67;65;76].
Definition w_RADIO : str := [82;65;68;73;79].
Definition w_RADIOACTIVE : str := [82;65;68;73;79;65;67;84;73;86;69].
Definition w_RAE : str := [82;65;69].
Definition w_RAEM : str := [82;65;69;77].
Definition w_RAFE : str := [82;65;70;69].
Definition w_RAH : str := [82;65;72].
Definition w_RAHMATULLAH : str := [82;65;72;77;65;84;85;76;76;65;72].
Definition w_RAI : str := [82;65;73].
Definition w_RAIDA : str := [82;65;73;68;65].
Definition w_RAIDO : str := [82;65;73;68;79].
Definition w_RAIL : str := [82;65;73;76].
Definition w_RAILWAY : str := [82;65;73;76;87;65;89].
Definition w_RAIN : str := [82;65;73;78].
Definition w_RAINBOW : str := [82;65;73;78;66;79;87].
Definition w_RAISED : str := [82;65;73;83;69;68].
Definition w_RAISING : str := [82;65;73;83;73;78;71].
Definition w_RAKHANG : str := [82;65;75;72;65;78;71].
Definition w_RAM : str := [82;65;77].
Definition w_RAMBAT : str := [82;65;77;66;65;84].
Definition w_RAMS : str := [82;65;77;83].
Definition w_RAN : str := [82;65;78].
Definition w_RANA : str := [82;65;78;65].
Definition w_RANGE : str := [82;65;78;71;69].
Definition w_RAP : str := [82;65;80].
Definition w_RAPISMA : str := [82;65;80;73;83;77;65].
Definition w_RAQ : str := [82;65;81].
Definition w_RASHA : str := [82;65;83;72;65].
Definition w_RASOUL : str := [82;65;83;79;85;76].
Definition w_RASWADI : str := [82;65;83;87;65;68;73].
Definition w_RAT : str := [82;65;84].
Definition w_RATA : str := [82;65;84;65].
Definition w_RATHA : str := [82;65;84;72;65].
Definition w_RATIO : str := [82;65;84;73;79].
Definition w_RAU : str := [82;65;85].
Definition w_RAX : str := [82;65;88].
Definition w_RAY : str := [82;65;89].
Definition w_RAYANNA : str := [82;65;89;65;78;78;65].
Definition w_RAYS : str := [82;65;89;83].
Definition w_RBASA : str := [82;66;65;83;65].
Definition w_RDEL : str := [82;68;69;76].
Definition w_RDO : str := [82;68;79].
Definition w_RE : str := [82;69].
Definition w_RE_1 : str := [82;69;45;49].
Definition w_RE_2 : str := [82;69;45;50].
Definition w_RE_3 : str := [82;69;45;51].
Definition w_RE_4 : str := [82;69;45;52].
Definition w_REACH : str := [82;69;65;67;72].
Definition w_REAHMUK : str := [82;69;65;72;77;85;75].
Definition w_REALGAR : str := [82;69;65;76;71;65;82].
Definition w_REALGAR_2 : str := [82;69;65;76;71;65;82;45;50].
Definition w_RECEIVER : str := [82;69;67;69;73;86;69;82].
Definition w_RECEPTIVE : str := [82;69;67;69;80;84;73;86;69].
Definition w_RECITATIVE : str := [82;69;67;73;84;65;84;73;86;69].
Definition w_RECORD : str := [82;69;67;79;82;68].
Definition w_RECORDER : str := [82;69;67;79;82;68;69;82].
Definition w_RECORDING : str := [82;69;67;79;82;68;73;78;71].
Definition w_RECREATIONAL : str := [82;69;67;82;69;65;84;73;79;78;65;76].
Definition w_RECTANGLE : str := [82;69;67;84;65;78;71;76;69].
Definition w_RECTANGULAR : str := [82;69;67;84;65;78;71;85;76;65;82].
Definition w_RECTILINEAR : str := [82;69;67;84;73;76;73;78;69;65;82].
Definition w_RECYCLED : str := [82;69;67;89;67;76;69;68].
Definition w_RECYCLING : str := [82;69;67;89;67;76;73;78;71].
Definition w_RED : str := [82;69;68].
Definition w_REDUPLICATION : str := [82;69;68;85;80;76;73;67;65;84;73;79;78].
Definition w_REE : str := [82;69;69].
Definition w_REFERENCE : str := [82;69;70;69;82;69;78;67;69].
Definition w_REFORMED : str := [82;69;70;79;82;77;69;68].
Definition w_REGIA : str := [82;69;71;73;65].
Definition w_REGIA_2 : str := [82;69;71;73;65;45;50].
Definition w_REGIONAL : str := [82;69;71;73;79;78;65;76].
Definition w_REGISTERED : str := [82;69;71;73;83;84;69;82;69;68].
Definition w_REGULUS : str := [82;69;71;85;76;85;83].
Definition w_REGULUS_2 : str := [82;69;71;85;76;85;83;45;50].
Definition w_REGULUS_3 : str := [82;69;71;85;76;85;83;45;51].
Definition w_REGULUS_4 : str := [82;69;71;85;76;85;83;45;52].
Definition w_REH : str := [82;69;72].
Definition w_REI : str := [82;69;73].
Definition w_REID : str := [82;69;73;68].
Definition w_REJANG : str := [82;69;74;65;78;71].
Definition w_RELAA : str := [82;69;76;65;65].
Definition w_RELATION : str := [82;69;76;65;84;73;79;78].
Definition w_RELATIONAL : str := [82;69;76;65;84;73;79;78;65;76].
Definition w_RELAXED : str := [82;69;76;65;88;69;68].
Definition w_RELEASE : str := [82;69;76;69;65;83;69].
Definition w_RELIEVED : str := [82;69;76;73;69;86;69;68].
Definition w_RELIGION : str := [82;69;76;73;71;73;79;78].
Definition w_REMEDY : str := [82;69;77;69;68;89].
Definition w_REMINDER : str := [82;69;77;73;78;68;69;82].
Definition w_REMU : str := [82;69;77;85].
Definition w_REN : str := [82;69;78].
Definition w_RENTOGEN : str := [82;69;78;84;79;71;69;78].
Definition w_REP : str := [82;69;80].
Definition w_REPA : str := [82;69;80;65].
Definition w_REPEAT : str := [82;69;80;69;65;84].
Definition w_REPEATED : str := [82;69;80;69;65;84;69;68].
Definition w_REPETITION : str := [82;69;80;69;84;73;84;73;79;78].
Definition w_REPH : str := [82;69;80;72].
Definition w_REPHA : str := [82;69;80;72;65].
Definition w_REPLACEMENT : str := [82;69;80;76;65;67;69;77;69;78;84].
Definition w_REPRESENT : str := [82;69;80;82;69;83;69;78;84].
Definition w_REREKAN : str := [82;69;82;69;75;65;78].
Definition w_RERENGGAN : str := [82;69;82;69;78;71;71;65;78].
Definition w_RESH : str := [82;69;83;72].
Definition w_RESIDENCE : str := [82;69;83;73;68;69;78;67;69].
Definition w_RESISTANCE : str := [82;69;83;73;83;84;65;78;67;69].
Definition w_RESOLUTION : str := [82;69;83;79;76;85;84;73;79;78].
Definition w_RESOURCE : str := [82;69;83;79;85;82;67;69].
Definition w_RESPONSE : str := [82;69;83;80;79;78;83;69].
Definition w_REST : str := [82;69;83;84].
Definition w_RESTRICTED : str := [82;69;83;84;82;73;67;84;69;68].
Definition w_RESTROOM : str := [82;69;83;84;82;79;79;77].
Definition w_RESUPINUS : str := [82;69;83;85;80;73;78;85;83].
Definition w_RETORT : str := [82;69;84;79;82;84].
Definition w_RETREAT : str := [82;69;84;82;69;65;84].
Definition w_RETROFLEX : str := [82;69;84;82;79;70;76;69;88].
Definition w_RETURN : str := [82;69;84;85;82;78].
Definition w_REU : str := [82;69;85].
Definition w_REUX : str := [82;69;85;88].
Definition w_REVERSE : str := [82;69;86;69;82;83;69].
Definition w_REVERSED : str := [82;69;86;69;82;83;69;68].
Definition w_REVERSED_SCHWA : str := [82;69;86;69;82;83;69;68;45;83;67;72;87;65].
Definition w_REVIA : str := [82;69;86;73;65].
Definition w_REVMA : str := [82;69;86;77;65].
Definition w_REVOLUTION : str := [82;69;86;79;76;85;84;73;79;78].
Definition w_REVOLVING : str := [82;69;86;79;76;86;73;78;71].
Definition w_REX : str := [82;69;88].
Definition w_RGYA : str := [82;71;89;65].
Definition w_RGYAN : str := [82;71;89;65;78].
Definition w_RGYINGS : str := [82;71;89;73;78;71;83].
Definition w_RH : str := [82;72].
Definition w_RHA : str := [82;72;65].
Definition w_RHINOCEROS : str := [82;72;73;78;79;67;69;82;79;83].
Definition w_RHO : str := [82;72;79].
Definition w_RHOTIC : str := [82;72;79;84;73;67].
Definition w_RI : str := [82;73].
Definition w_RI_1 : str := [82;73;45;49].
Definition w_RI_2 : str := [82;73;45;50].
Definition w_RI_3 : str := [82;73;45;51].
Definition w_RI_4 : str := [82;73;45;52].
Definition w_RI_5 : str := [82;73;45;53].
Definition w_RI_6 : str := [82;73;45;54].
Definition w_RI_7 : str := [82;73;45;55].
Definition w_RIAL : str := [82;73;65;76].
Definition w_RIBBON : str := [82;73;66;66;79;78].
Definition w_RICE : str := [82;73;67;69].
Definition w_RICEM : str := [82;73;67;69;77].
Definition w_RIEE : str := [82;73;69;69].
Definition w_RIEL : str := [82;73;69;76].
Definition w_RIEUL : str := [82;73;69;85;76].
Definition w_RIEUL_CIEUC : str := [82;73;69;85;76;45;67;73;69;85;67].
Definition w_RIEUL_HIEUH : str := [82;73;69;85;76;45;72;73;69;85;72].
Definition w_RIEUL_KAPYEOUNPIEUP : str := [82;73;69;85;76;45;75;65;80;89;69;79;85;78;80;73;69;85;80].
Definition w_RIEUL_KHIEUKH : str := [82;73;69;85;76;45;75;72;73;69;85;75;72].
Definition w_RIEUL_KIYEOK : str := [82;73;69;85;76;45;75;73;89;69;79;75].
Definition w_RIEUL_KIYEOK_HIEUH : str := [82;73;69;85;76;45;75;73;89;69;79;75;45;72;73;69;85;72].
Definition w_RIEUL_KIYEOK_SIOS : str := [82;73;69;85;76;45;75;73;89;69;79;75;45;83;73;79;83].
Definition w_RIEUL_MIEUM : str := [82;73;69;85;76;45;77;73;69;85;77].
Definition w_RIEUL_MIEUM_HIEUH : str := [82;73;69;85;76;45;77;73;69;85;77;45;72;73;69;85;72].
Definition w_RIEUL_MIEUM_KIYEOK : str := [82;73;69;85;76;45;77;73;69;85;77;45;75;73;89;69;79;75].
Definition w_RIEUL_MIEUM_SIOS : str := [82;73;69;85;76;45;77;73;69;85;77;45;83;73;79;83].
Definition w_RIEUL_NIEUN : str := [82;73;69;85;76;45;78;73;69;85;78].
Definition w_RIEUL_PANSIOS : str := [82;73;69;85;76;45;80;65;78;83;73;79;83].
Definition w_RIEUL_PHIEUPH : str := [82;73;69;85;76;45;80;72;73;69;85;80;72].
Definition w_RIEUL_PIEUP : str := [82;73;69;85;76;45;80;73;69;85;80].
Definition w_RIEUL_PIEUP_HIEUH : str := [82;73;69;85;76;45;80;73;69;85;80;45;72;73;69;85;72].
Definition w_RIEUL_PIEUP_PHIEUPH : str := [82;73;69;85;76;45;80;73;69;85;80;45;80;72;73;69;85;80;72].
Definition w_RIEUL_PIEUP_SIOS : str := [82;73;69;85;76;45;80;73;69;85;80;45;83;73;79;83].
Definition w_RIEUL_PIEUP_TIKEUT : str := [82;73;69;85;76;45;80;73;69;85;80;45;84;73;75;69;85;84].
Definition w_RIEUL_SIOS : str := [82;73;69;85;76;45;83;73;79;83].
Definition w_RIEUL_SSANGKIYEOK : str := [82;73;69;85;76;45;83;83;65;78;71;75;73;89;69;79;75].
Definition w_RIEUL_SSANGPIEUP : str := [82;73;69;85;76;45;83;83;65;78;71;80;73;69;85;80].
Definition w_RIEUL_SSANGSIOS : str := [82;73;69;85;76;45;83;83;65;78;71;83;73;79;83].
Definition w_RIEUL_SSANGTIKEUT : str := [82;73;69;85;76;45;83;83;65;78;71;84;73;75;69;85;84].
Definition w_RIEUL_THIEUTH : str := [82;73;69;85;76;45;84;72;73;69;85;84;72].
Definition w_RIEUL_TIKEUT : str := [82;73;69;85;76;45;84;73;75;69;85;84].
Definition w_RIEUL_TIKEUT_HIEUH : str := [82;73;69;85;76;45;84;73;75;69;85;84;45;72;73;69;85;72].
Definition w_RIEUL_YEORINHIEUH : str := [82;73;69;85;76;45;89;69;79;82;73;78;72;73;69;85;72].
Definition w_RIEUL_YEORINHIEUH_HIEUH : str := [82;73;69;85;76;45;89;69;79;82;73;78;72;73;69;85;72;45;72;73;69;85;72].
Definition w_RIEUL_YESIEUNG : str := [82;73;69;85;76;45;89;69;83;73;69;85;78;71].
Definition w_RIFLE : str := [82;73;70;76;69].
Definition w_RIGHT : str := [82;73;71;72;84].
Definition w_RIGHT_FACING : str := [82;73;71;72;84;45;70;65;67;73;78;71].
Definition w_RIGHT_HAND : str := [82;73;71;72;84;45;72;65;78;68].
Definition w_RIGHT_HANDED : str := [82;73;71;72;84;45;72;65;78;68;69;68].
Definition w_RIGHT_LIGHTED : str := [82;73;71;72;84;45;76;73;71;72;84;69;68].
Definition w_RIGHT_POINTING : str := [82;73;71;72;84;45;80;79;73;78;84;73;78;71].
Definition w_RIGHT_SHADED : str := [82;73;71;72;84;45;83;72;65;68;69;68].
Definition w_RIGHT_SHADOWED : str := [82;73;71;72;84;45;83;72;65;68;79;87;69;68].
Definition w_RIGHT_SIDE : str := [82;73;71;72;84;45;83;73;68;69].
Definition w_RIGHT_TO_LEFT : str := [82;73;71;72;84;45;84;79;45;76;69;70;84].
Definition w_RIGHTHAND : str := [82;73;71;72;84;72;65;78;68].
Definition w_RIGHTWARDS : str := [82;73;71;72;84;87;65;82;68;83].
Definition w_RIGVEDIC : str := [82;73;71;86;69;68;73;67].
Definition w_RII : str := [82;73;73].
Definition w_RIKRIK : str := [82;73;75;82;73;75].
Definition w_RIM : str := [82;73;77].
Definition w_RIMGBA : str := [82;73;77;71;66;65].
Definition w_RIN : str := [82;73;78].
Definition w_RINFORZANDO : str := [82;73;78;70;79;82;90;65;78;68;79].
Definition w_RING : str := [82;73;78;71].
Definition w_RINGING : str := [82;73;78;71;73;78;71].
Definition w_RINGS : str := [82;73;78;71;83].
Definition w_RIP : str := [82;73;80].
Definition w_RIPPLE : str := [82;73;80;80;76;69].
Definition w_RIRA : str := [82;73;82;65].
Definition w_RISH : str := [82;73;83;72].
Definition w_RISING : str := [82;73;83;73;78;71].
Definition w_RITSI : str := [82;73;84;83;73].
Definition w_RITTORU : str := [82;73;84;84;79;82;85].
Definition w_RITUAL : str := [82;73;84;85;65;76].
Definition w_RIVER : str := [82;73;86;69;82].
Definition w_RJE : str := [82;74;69].
Definition w_RJES : str := [82;74;69;83].
Definition w_RMT : str := [82;77;84].
Definition w_RNAM : str := [82;78;65;77].
Definition w_RNOON : str := [82;78;79;79;78].
Definition w_RNYING : str := [82;78;89;73;78;71].
Definition w_RO : str := [82;79].
Definition w_RO_1 : str := [82;79;45;49].
Definition w_RO_2 : str := [82;79;45;50].
Definition w_RO_3 : str := [82;79;45;51].
Definition w_RO_4 : str := [82;79;45;52].
Definition w_RO_5 : str := [82;79;45;53].
Definition w_RO_6 : str := [82;79;45;54].
Definition w_RO2 : str := [82;79;50].
Definition w_ROA : str := [82;79;65].
Definition w_ROAR : str := [82;79;65;82].
Definition w_ROASTED : str := [82;79;65;83;84;69;68].
Definition w_ROBAT : str := [82;79;66;65;84].
Definition w_ROBOT : str := [82;79;66;79;84].
Definition w_ROC : str := [82;79;67].
Definition w_ROCK : str := [82;79;67;75].
Definition w_ROCKET : str := [82;79;67;75;69;84].
Definition w_ROD : str := [82;79;68].
Definition w_ROG : str := [82;79;71].
Definition w_ROHINGYA : str := [82;79;72;73;78;71;89;65].
Definition w_ROLLED_UP : str := [82;79;76;76;69;68;45;85;80].
Definition w_ROLLER : str := [82;79;76;76;69;82].
Definition w_ROLLING : str := [82;79;76;76;73;78;71].
Definition w_ROM : str := [82;79;77].
Definition w_ROMAN : str := [82;79;77;65;78].
Definition w_ROMANIAN : str := [82;79;77;65;78;73;65;78].
Definition w_ROO : str := [82;79;79].
Definition w_ROOF : str := [82;79;79;70].
Definition w_ROOK : str := [82;79;79;75].
Definition w_ROOM : str := [82;79;79;77].
Definition w_ROOSTER : str := [82;79;79;83;84;69;82].
Definition w_ROOT : str := [82;79;79;84].
Definition w_ROP : str := [82;79;80].
Definition w_ROSE : str := [82;79;83;69].
Definition w_ROSETTE : str := [82;79;83;69;84;84;69].
Definition w_ROSH : str := [82;79;83;72].
Definition w_ROT : str := [82;79;84].
Definition w_ROTATED : str := [82;79;84;65;84;69;68].
Definition w_ROTATION : str := [82;79;84;65;84;73;79;78].
Definition w_ROTATION_FLOORPLANE : str := [82;79;84;65;84;73;79;78;45;70;76;79;79;82;80;76;65;78;69].
Definition w_ROTATION_WALLPLANE : str := [82;79;84;65;84;73;79;78;45;87;65;76;76;80;76;65;78;69].
Definition w_ROTATIONS : str := [82;79;84;65;84;73;79;78;83].
Definition w_ROTUNDA : str := [82;79;84;85;78;68;65].
Definition w_ROUND : str := [82;79;85;78;68].
Definition w_ROUND_TIPPED : str := [82;79;85;78;68;45;84;73;80;80;69;68].
Definition w_ROUNDED : str := [82;79;85;78;68;69;68].
Definition w_ROWBOAT : str := [82;79;87;66;79;65;84].
Definition w_ROX : str := [82;79;88].
Definition w_RR : str := [82;82].
Definition w_RRA : str := [82;82;65].
Definition w_RRAX : str := [82;82;65;88].
Definition w_RRE : str := [82;82;69].
Definition w_RREH : str := [82;82;69;72].
Definition w_RREP : str := [82;82;69;80].
Definition w_RRET : str := [82;82;69;84].
Definition w_RREX : str := [82;82;69;88].
Definition w_RRO : str := [82;82;79].
Definition w_RROP : str := [82;82;79;80].
Definition w_RROT : str := [82;82;79;84].
Definition w_RROX : str := [82;82;79;88].
Definition w_RRRA : str := [82;82;82;65].
Definition w_RRU : str := [82;82;85].
Definition w_RRUO : str := [82;82;85;79].
Definition w_RRUOX : str := [82;82;85;79;88].
Definition w_RRUP : str := [82;82;85;80].
Definition w_RRUR : str := [82;82;85;82].
Definition w_RRURX : str := [82;82;85;82;88].
Definition w_RRUT : str := [82;82;85;84].
Definition w_RRUX : str := [82;82;85;88].
Definition w_RRY : str := [82;82;89].
Definition w_RRYP : str := [82;82;89;80].
Definition w_RRYR : str := [82;82;89;82].
Definition w_RRYRX : str := [82;82;89;82;88].
Definition w_RRYT : str := [82;82;89;84].
Definition w_RRYX : str := [82;82;89;88].
Definition w_RTAGS : str := [82;84;65;71;83].
Definition w_RTHANG : str := [82;84;72;65;78;71].
Definition w_RU : str := [82;85].
Definition w_RU_1 : str := [82;85;45;49].
Definition w_RU_2 : str := [82;85;45;50].
Definition w_RU_3 : str := [82;85;45;51].
Definition w_RU_4 : str := [82;85;45;52].
Definition w_RU_5 : str := [82;85;45;53].
Definition w_RU_6 : str := [82;85;45;54].
Definition w_RUA : str := [82;85;65].
Definition w_RUB : str := [82;85;66].
Definition w_RUBLE : str := [82;85;66;76;69].
Definition w_RUDIMENTA : str := [82;85;68;73;77;69;78;84;65].
Definition w_RUE : str := [82;85;69].
Definition w_RUGBY : str := [82;85;71;66;89].
Definition w_RUIS : str := [82;85;73;83].
Definition w_RUKKAKHA : str := [82;85;75;75;65;75;72;65].
Definition w_RULAI : str := [82;85;76;65;73].
Definition w_RULE : str := [82;85;76;69].
Definition w_RULE_DELAYED : str := [82;85;76;69;45;68;69;76;65;89;69;68].
Definition w_RULER : str := [82;85;76;69;82].
Definition w_RUM : str := [82;85;77].
Definition w_RUMAI : str := [82;85;77;65;73].
Definition w_RUMI : str := [82;85;77;73].
Definition w_RUN : str := [82;85;78].
Definition w_RUNIC : str := [82;85;78;73;67].
Definition w_RUNNER : str := [82;85;78;78;69;82].
Definition w_RUNNING : str := [82;85;78;78;73;78;71].
Definition w_RUNOUT : str := [82;85;78;79;85;84].
Definition w_RUO : str := [82;85;79].
Definition w_RUOP : str := [82;85;79;80].
Definition w_RUOX : str := [82;85;79;88].
Definition w_RUP : str := [82;85;80].
Definition w_RUPEE : str := [82;85;80;69;69].
Definition w_RUPII : str := [82;85;80;73;73].
Definition w_RUR : str := [82;85;82].
Definition w_RURX : str := [82;85;82;88].
Definition w_RUSI : str := [82;85;83;73].
Definition w_RUT : str := [82;85;84].
Definition w_RUUBURU : str := [82;85;85;66;85;82;85].
Definition w_RUX : str := [82;85;88].
Definition w_RWA : str := [82;87;65].
Definition w_RWAA : str := [82;87;65;65].
Definition w_RWAHA : str := [82;87;65;72;65].
Definition w_RWE : str := [82;87;69].
Definition w_RWEE : str := [82;87;69;69].
Definition w_RWI : str := [82;87;73].
Definition w_RWII : str := [82;87;73;73].
Definition w_RWO : str := [82;87;79].
Definition w_RWOO : str := [82;87;79;79].
Definition w_RY : str := [82;89].
Definition w_RYA : str := [82;89;65].
Definition w_RYP : str := [82;89;80].
Definition w_RYR : str := [82;89;82].
Definition w_RYRX : str := [82;89;82;88].
Definition w_RYT : str := [82;89;84].
Definition w_RYX : str := [82;89;88].
Definition w_RYY : str := [82;89;89].
Definition w_S : str := [83].
Definition w_S_SHAPED : str := [83;45;83;72;65;80;69;68].
Definition w_S_W : str := [83;45;87].
Definition w_S001 : str := [83;48;48;49].
Definition w_S002 : str := [83;48;48;50].
Definition w_S002A : str := [83;48;48;50;65].
Definition w_S003 : str := [83;48;48;51].
Definition w_S004 : str := [83;48;48;52].
Definition w_S005 : str := [83;48;48;53].
Definition w_S006 : str := [83;48;48;54].
Definition w_S006A : str := [83;48;48;54;65].
Definition w_S007 : str := [83;48;48;55].
Definition w_S008 : str := [83;48;48;56].
Definition w_S009 : str := [83;48;48;57].
Definition w_S010 : str := [83;48;49;48].
Definition w_S011 : str := [83;48;49;49].
Definition w_S012 : str := [83;48;49;50].
Definition w_S013 : str := [83;48;49;51].
Definition w_S014 : str := [83;48;49;52].
Definition w_S014A : str := [83;48;49;52;65].
Definition w_S014B : str := [83;48;49;52;66].
Definition w_S015 : str := [83;48;49;53].
Definition w_S016 : str := [83;48;49;54].
Definition w_S017 : str := [83;48;49;55].
Definition w_S017A : str := [83;48;49;55;65].
Definition w_S018 : str := [83;48;49;56].
Definition w_S019 : str := [83;48;49;57].
Definition w_S020 : str := [83;48;50;48].
Definition w_S021 : str := [83;48;50;49].
Definition w_S022 : str := [83;48;50;50].
Definition w_S023 : str := [83;48;50;51].
Definition w_S024 : str := [83;48;50;52].
Definition w_S025 : str := [83;48;50;53].
Definition w_S026 : str := [83;48;50;54].
Definition w_S026A : str := [83;48;50;54;65].
Definition w_S026B : str := [83;48;50;54;66].
Definition w_S027 : str := [83;48;50;55].
Definition w_S028 : str := [83;48;50;56].
Definition w_S029 : str := [83;48;50;57].
Definition w_S030 : str := [83;48;51;48].
Definition w_S031 : str := [83;48;51;49].
Definition w_S032 : str := [83;48;51;50].
Definition w_S033 : str := [83;48;51;51].
Definition w_S034 : str := [83;48;51;52].
Definition w_S035 : str := [83;48;51;53].
Definition w_S035A : str := [83;48;51;53;65].
Definition w_S036 : str := [83;48;51;54].
Definition w_S037 : str := [83;48;51;55].
Definition w_S038 : str := [83;48;51;56].
Definition w_S039 : str := [83;48;51;57].
Definition w_S040 : str := [83;48;52;48].
Definition w_S041 : str := [83;48;52;49].
Definition w_S042 : str := [83;48;52;50].
Definition w_S043 : str := [83;48;52;51].
Definition w_S044 : str := [83;48;52;52].
Definition w_S045 : str := [83;48;52;53].
Definition w_S046 : str := [83;48;52;54].
Definition w_SA : str := [83;65].
Definition w_SA_1 : str := [83;65;45;49].
Definition w_SA_2 : str := [83;65;45;50].
Definition w_SA_3 : str := [83;65;45;51].
Definition w_SA_4 : str := [83;65;45;52].
Definition w_SA_5 : str := [83;65;45;53].
Definition w_SA_6 : str := [83;65;45;54].
Definition w_SA_7 : str := [83;65;45;55].
Definition w_SA_8 : str := [83;65;45;56].
Definition w_SA_I : str := [83;65;45;73].
Definition w_SAA : str := [83;65;65].
Definition w_SAADHU : str := [83;65;65;68;72;85].
Definition w_SAAI : str := [83;65;65;73].
Definition w_SACRIFICIAL : str := [83;65;67;82;73;70;73;67;73;65;76].
Definition w_SAD : str := [83;65;68].
Definition w_SADE : str := [83;65;68;69].
Definition w_SADHE : str := [83;65;68;72;69].
Definition w_SAFETY : str := [83;65;70;69;84;89].
Definition w_SAFHA : str := [83;65;70;72;65].
Definition w_SAG : str := [83;65;71].
Definition w_SAGA : str := [83;65;71;65].
Definition w_SAGITTARIUS : str := [83;65;71;73;84;84;65;82;73;85;83].
Definition w_SAH : str := [83;65;72].
Definition w_SAIKURU : str := [83;65;73;75;85;82;85].
Definition w_SAIL : str := [83;65;73;76].
Definition w_SAILBOAT : str := [83;65;73;76;66;79;65;84].
Definition w_SAJDAH : str := [83;65;74;68;65;72].
Definition w_SAKE : str := [83;65;75;69].
Definition w_SAKEUAE : str := [83;65;75;69;85;65;69].
Definition w_SAKHA : str := [83;65;75;72;65].
Definition w_SAKOT : str := [83;65;75;79;84].
Definition w_SAKTA : str := [83;65;75;84;65].
Definition w_SAL : str := [83;65;76].
Definition w_SAL_AMMONIAC : str := [83;65;76;45;65;77;77;79;78;73;65;67].
Definition w_SALA : str := [83;65;76;65].
Definition w_SALAD : str := [83;65;76;65;68].
Definition w_SALAM : str := [83;65;76;65;77].
Definition w_SALLA : str := [83;65;76;76;65].
Definition w_SALLALLAHOU : str := [83;65;76;76;65;76;76;65;72;79;85].
Definition w_SALT : str := [83;65;76;84].
Definition w_SALT_2 : str := [83;65;76;84;45;50].
Definition w_SALTILLO : str := [83;65;76;84;73;76;76;79].
Definition w_SALTIRE : str := [83;65;76;84;73;82;69].
Definition w_SAM : str := [83;65;77].
Definition w_SAMARITAN : str := [83;65;77;65;82;73;84;65;78].
Definition w_SAMBA : str := [83;65;77;66;65].
Definition w_SAMEKH : str := [83;65;77;69;75;72].
Definition w_SAMKA : str := [83;65;77;75;65].
Definition w_SAMPHAO : str := [83;65;77;80;72;65;79].
Definition w_SAMPI : str := [83;65;77;80;73].
Definition w_SAMVAT : str := [83;65;77;86;65;84].
Definition w_SAMYOK : str := [83;65;77;89;79;75].
Definition w_SAN : str := [83;65;78].
Definition w_SANAH : str := [83;65;78;65;72].
Definition w_SAND : str := [83;65;78;68].
Definition w_SANDAL : str := [83;65;78;68;65;76].
Definition w_SANDHI : str := [83;65;78;68;72;73].
Definition w_SANDWICH : str := [83;65;78;68;87;73;67;72].
Definition w_SANGA2 : str := [83;65;78;71;65;50].
Definition w_SANNYA : str := [83;65;78;78;89;65].
Definition w_SANS_SERIF : str := [83;65;78;83;45;83;69;82;73;70].
Definition w_SANTIIMU : str := [83;65;78;84;73;73;77;85].
Definition w_SANYAKA : str := [83;65;78;89;65;75;65].
Definition w_SANYOOGA : str := [83;65;78;89;79;79;71;65].
Definition w_SAP : str := [83;65;80].
Definition w_SAPA : str := [83;65;80;65].
Definition w_SAQ : str := [83;65;81].
Definition w_SAR : str := [83;65;82].
Definition w_SARA : str := [83;65;82;65].
Definition w_SARI : str := [83;65;82;73].
Definition w_SASAK : str := [83;65;83;65;75].
Definition w_SASH : str := [83;65;83;72].
Definition w_SAT : str := [83;65;84].
Definition w_SATANGA : str := [83;65;84;65;78;71;65].
Definition w_SATCHEL : str := [83;65;84;67;72;69;76].
Definition w_SATELLITE : str := [83;65;84;69;76;76;73;84;69].
Definition w_SATKAAN : str := [83;65;84;75;65;65;78].
Definition w_SATKAANKUU : str := [83;65;84;75;65;65;78;75;85;85].
Definition w_SATURN : str := [83;65;84;85;82;78].
Definition w_SAUCER : str := [83;65;85;67;69;82].
Definition w_SAUIL : str := [83;65;85;73;76].
Definition w_SAURASHTRA : str := [83;65;85;82;65;83;72;84;82;65].
Definition w_SAUROPOD : str := [83;65;85;82;79;80;79;68].
Definition w_SAVOURING : str := [83;65;86;79;85;82;73;78;71].
Definition w_SAW : str := [83;65;87].
Definition w_SAWAN : str := [83;65;87;65;78].
Definition w_SAX : str := [83;65;88].
Definition w_SAXIMATA : str := [83;65;88;73;77;65;84;65].
Definition w_SAXOPHONE : str := [83;65;88;79;80;72;79;78;69].
Definition w_SAY : str := [83;65;89].
Definition w_SAYANNA : str := [83;65;89;65;78;78;65].
Definition w_SAYISI : str := [83;65;89;73;83;73].
Definition w_SBRUL : str := [83;66;82;85;76].
Definition w_SBUB : str := [83;66;85;66].
Definition w_SCALES : str := [83;67;65;76;69;83].
Definition w_SCAN : str := [83;67;65;78].
Definition w_SCANDICUS : str := [83;67;65;78;68;73;67;85;83].
Definition w_SCARF : str := [83;67;65;82;70].
Definition w_SCEPTER : str := [83;67;69;80;84;69;82].
Definition w_SCHEMA : str := [83;67;72;69;77;65].
Definition w_SCHOLAR : str := [83;67;72;79;76;65;82].
Definition w_SCHOOL : str := [83;67;72;79;79;76].
Definition w_SCHROEDER : str := [83;67;72;82;79;69;68;69;82].
Definition w_SCHWA : str := [83;67;72;87;65].
Definition w_SCISSORS : str := [83;67;73;83;83;79;82;83].
Definition w_SCOOTER : str := [83;67;79;79;84;69;82].
Definition w_SCORE : str := [83;67;79;82;69].
Definition w_SCORPION : str := [83;67;79;82;80;73;79;78].
Definition w_SCORPIUS : str := [83;67;79;82;80;73;85;83].
Definition w_SCREAMING : str := [83;67;82;69;65;77;73;78;71].
Definition w_SCREEN : str := [83;67;82;69;69;78].
Definition w_SCRIPT : str := [83;67;82;73;80;84].
Definition w_SCROLL : str := [83;67;82;79;76;76].
Definition w_SCRUPLE : str := [83;67;82;85;80;76;69].
Definition w_SCWA : str := [83;67;87;65].
Definition w_SD : str := [83;68].
Definition w_SDONG : str := [83;68;79;78;71].
Definition w_SE : str := [83;69].
Definition w_SE_1 : str := [83;69;45;49].
Definition w_SE_2 : str := [83;69;45;50].
Definition w_SE_3 : str := [83;69;45;51].
Definition w_SE_4 : str := [83;69;45;52].
Definition w_SE_5 : str := [83;69;45;53].
Definition w_SEAGULL : str := [83;69;65;71;85;76;76].
Definition w_SEAL : str := [83;69;65;76].
Definition w_SEAT : str := [83;69;65;84].
Definition w_SEBATBEIT : str := [83;69;66;65;84;66;69;73;84].
Definition w_SECANT : str := [83;69;67;65;78;84].
Definition w_SECOND : str := [83;69;67;79;78;68].
Definition w_SECRET : str := [83;69;67;82;69;84].
Definition w_SECTION : str := [83;69;67;84;73;79;78].
Definition w_SECTOR : str := [83;69;67;84;79;82].
Definition w_SEE : str := [83;69;69].
Definition w_SEE_NO_EVIL : str := [83;69;69;45;78;79;45;69;86;73;76].
Definition w_SEEDLING : str := [83;69;69;68;76;73;78;71].
Definition w_SEEN : str := [83;69;69;78].
Definition w_SEENU : str := [83;69;69;78;85].
Definition w_SEEV : str := [83;69;69;86].
Definition w_SEGMENT : str := [83;69;71;77;69;78;84].
Definition w_SEGNO : str := [83;69;71;78;79].
Definition w_SEGOL : str := [83;69;71;79;76].
Definition w_SEH : str := [83;69;72].
Definition w_SEISMA : str := [83;69;73;83;77;65].
Definition w_SELECTOR : str := [83;69;76;69;67;84;79;82].
Definition w_SELECTOR_1 : str := [83;69;76;69;67;84;79;82;45;49].
Definition w_SELECTOR_10 : str := [83;69;76;69;67;84;79;82;45;49;48].
Definition w_SELECTOR_100 : str := [83;69;76;69;67;84;79;82;45;49;48;48].
Definition w_SELECTOR_101 : str := [83;69;76;69;67;84;79;82;45;49;48;49].
Definition w_SELECTOR_102 : str := [83;69;76;69;67;84;79;82;45;49;48;50].
Definition w_SELECTOR_103 : str := [83;69;76;69;67;84;79;82;45;49;48;51].
Definition w_SELECTOR_104 : str := [83;69;76;69;67;84;79;82;45;49;48;52].
Definition w_SELECTOR_105 : str := [83;69;76;69;67;84;79;82;45;49;48;53].
Definition w_SELECTOR_106 : str := [83;69;76;69;67;84;79;82;45;49;48;54].
Definition w_SELECTOR_107 : str := [83;69;76;69;67;84;79;82;45;49;48;55].
Definition w_SELECTOR_108 : str := [83;69;76;69;67;84;79;82;45;49;48;56].
Definition w_SELECTOR_109 : str := [83;69;76;69;67;84;79;82;45;49;48;57].
Definition w_SELECTOR_11 : str := [83;69;76;69;67;84;79;82;45;49;49].
Definition w_SELECTOR_110 : str := [83;69;76;69;67;84;79;82;45;49;49;48].
Definition w_SELECTOR_111 : str := [83;69;76;69;67;84;79;82;45;49;49;49].
Definition w_SELECTOR_112 : str := [83;69;76;69;67;84;79;82;45;49;49;50].
Definition w_SELECTOR_113 : str := [83;69;76;69;67;84;79;82;45;49;49;51].
Definition w_SELECTOR_114 : str := [83;69;76;69;67;84;79;82;45;49;49;52].
Definition w_SELECTOR_115 : str := [83;69;76;69;67;84;79;82;45;49;49;53].
Definition w_SELECTOR_116 : str := [83;69;76;69;67;84;79;82;45;49;49;54].
Definition w_SELECTOR_117 : str := [83;69;76;69;67;84;79;82;45;49;49;55].
Definition w_SELECTOR_118 : str := [83;69;76;69;67;84;79;82;45;49;49;56].
Definition w_SELECTOR_119 : str := [83;69;76;69;67;84;79;82;45;49;49;57].
Definition w_SELECTOR_12 : str := [83;69;76;69;67;84;79;82;45;49;50].
Definition w_SELECTOR_120 : str := [83;69;76;69;67;84;79;82;45;49;50;48].
Definition w_SELECTOR_121 : str := [83;69;76;69;67;84;79;82;45;49;50;49].
Definition w_SELECTOR_122 : str := [83;69;76;69;67;84;79;82;45;49;50;50].
Definition w_SELECTOR_123 : str := [83;69;76;69;67;84;79;82;45;49;50;51].
Definition w_SELECTOR_124 : str := [83;69;76;69;67;84;79;82;45;49;50;52].
Definition w_SELECTOR_125 : str := [83;69;76;69;67;84;79;82;45;49;50;53].
Definition w_SELECTOR_126 : str := [83;69;76;69;67;84;79;82;45;49;50;54].
Definition w_SELECTOR_127 : str := [83;69;76;69;67;84;79;82;45;49;50;55].
Definition w_SELECTOR_128 : str := [83;69;76;69;67;84;79;82;45;49;50;56].
Definition w_SELECTOR_129 : str := [83;69;76;69;67;84;79;82;45;49;50;57].
Definition w_SELECTOR_13 : str := [83;69;76;69;67;84;79;82;45;49;51].
Definition w_SELECTOR_130 : str := [83;69;76;69;67;84;79;82;45;49;51;48].
Definition w_SELECTOR_131 : str := [83;69;76;69;67;84;79;82;45;49;51;49].
Definition w_SELECTOR_132 : str := [83;69;76;69;67;84;79;82;45;49;51;50].
Definition w_SELECTOR_133 : str := [83;69;76;69;67;84;79;82;45;49;51;51].
Definition w_SELECTOR_134 : str := [83;69;76;69;67;84;79;82;45;49;51;52].
Definition w_SELECTOR_135 : str := [83;69;76;69;67;84;79;82;45;49;51;53].
Definition w_SELECTOR_136 : str := [83;69;76;69;67;84;79;82;45;49;51;54].
Definition w_SELECTOR_137 : str := [83;69;76;69;67;84;79;82;45;49;51;55].
Definition w_SELECTOR_138 : str := [83;69;76;69;67;84;79;82;45;49;51;56].
Definition w_SELECTOR_139 : str := [83;69;76;69;67;84;79;82;45;49;51;57].
Definition w_SELECTOR_14 : str := [83;69;76;69;67;84;79;82;45;49;52].
Definition w_SELECTOR_140 : str := [83;69;76;69;67;84;79;82;45;49;52;48].
Definition w_SELECTOR_141 : str := [83;69;76;69;67;84;79;82;45;49;52;49].
Definition w_SELECTOR_142 : str := [83;69;76;69;67;84;79;82;45;49;52;50].
Definition w_SELECTOR_143 : str := [83;69;76;69;67;84;79;82;45;49;52;51].
Definition w_SELECTOR_144 : str := [83;69;76;69;67;84;79;82;45;49;52;52].
Definition w_SELECTOR_145 : str := [83;69;76;69;67;84;79;82;45;49;52;53].
Definition w_SELECTOR_146 : str := [83;69;76;69;67;84;79;82;45;49;52;54].
Definition w_SELECTOR_147 : str := [83;69;76;69;67;84;79;82;45;49;52;55].
Definition w_SELECTOR_148 : str := [83;69;76;69;67;84;79;82;45;49;52;56].
Definition w_SELECTOR_149 : str := [83;69;76;69;67;84;79;82;45;49;52;57].
Definition w_SELECTOR_15 : str := [83;69;76;69;67;84;79;82;45;49;53].
Definition w_SELECTOR_150 : str := [83;69;76;69;67;84;79;82;45;49;53;48].
Definition w_SELECTOR_151 : str := [83;69;76;69;67;84;79;82;45;49;53;49].
Definition w_SELECTOR_152 : str := [83;69;76;69;67;84;79;82;45;49;53;50].
Definition w_SELECTOR_153 : str := [83;69;76;69;67;84;79;82;45;49;53;51].
Definition w_SELECTOR_154 : str := [83;69;76;69;67;84;79;82;45;49;53;52].
Definition w_SELECTOR_155 : str := [83;69;76;69;67;84;79;82;45;49;53;53].
Definition w_SELECTOR_156 : str := [83;69;76;69;67;84;79;82;45;49;53;54].
Definition w_SELECTOR_157 : str := [83;69;76;69;67;84;79;82;45;49;53;55].
Definition w_SELECTOR_158 : str := [83;69;76;69;67;84;79;82;45;49;53;56].
Definition w_SELECTOR_159 : str := [83;69;76;69;67;84;79;82;45;49;53;57].
Definition w_SELECTOR_16 : str := [83;69;76;69;67;84;79;82;45;49;54].
Definition w_SELECTOR_160 : str := [83;69;76;69;67;84;79;82;45;49;54;48].
Definition w_SELECTOR_161 : str := [83;69;76;69;67;84;79;82;45;49;54;49].
Definition w_SELECTOR_162 : str := [83;69;76;69;67;84;79;82;45;49;54;50].
Definition w_SELECTOR_163 : str := [83;69;76;69;67;84;79;82;45;49;54;51].
Definition w_SELECTOR_164 : str := [83;69;76;69;67;84;79;82;45;49;54;52].
Definition w_SELECTOR_165 : str := [83;69;76;69;67;84;79;82;45;49;54;53].
Definition w_SELECTOR_166 : str := [83;69;76;69;67;84;79;82;45;49;54;54].
Definition w_SELECTOR_167 : str := [83;69;76;69;67;84;79;82;45;49;54;55].
Definition w_SELECTOR_168 : str := [83;69;76;69;67;84;79;82;45;49;54;56].
Definition w_SELECTOR_169 : str := [83;69;76;69;67;84;79;82;45;49;54;57].
Definition w_SELECTOR_17 : str := [83;69;76;69;67;84;79;82;45;49;55].
Definition w_SELECTOR_170 : str := [83;69;76;69;67;84;79;82;45;49;55;48].
Definition w_SELECTOR_171 : str := [83;69;76;69;67;84;79;82;45;49;55;49].
Definition w_SELECTOR_172 : str := [83;69;76;69;67;84;79;82;45;49;55;50].
Definition w_SELECTOR_173 : str := [83;69;76;69;67;84;79;82;45;49;55;51].
Definition w_SELECTOR_174 : str := [83;69;76;69;67;84;79;82;45;49;55;52].
Definition w_SELECTOR_175 : str := [83;69;76;69;67;84;79;82;45;49;55;53].
Definition w_SELECTOR_176 : str := [83;69;76;69;67;84;79;82;45;49;55;54].
Definition w_SELECTOR_177 : str := [83;69;76;69;67;84;79;82;45;49;55;55].
Definition w_SELECTOR_178 : str := [83;69;76;69;67;84;79;82;45;49;55;56].
Definition w_SELECTOR_179 : str := [83;69;76;69;67;84;79;82;45;49;55;57].
Definition w_SELECTOR_18 : str := [83;69;76;69;67;84;79;82;45;49;56].
Definition w_SELECTOR_180 : str := [83;69;76;69;67;84;79;82;45;49;56;48].
Definition w_SELECTOR_181 : str := [83;69;76;69;67;84;79;82;45;49;56;49].
Definition w_SELECTOR_182 : str := [83;69;76;69;67;84;79;82;45;49;56;50].
Definition w_SELECTOR_183 : str := [83;69;76;69;67;84;79;82;45;49;56;51].
Definition w_SELECTOR_184 : str := [83;69;76;69;67;84;79;82;45;49;56;52].
Definition w_SELECTOR_185 : str := [83;69;76;69;67;84;79;82;45;49;56;53].
Definition w_SELECTOR_186 : str := [83;69;76;69;67;84;79;82;45;49;56;54].
Definition w_SELECTOR_187 : str := [83;69;76;69;67;84;79;82;45;49;56;55].
Definition w_SELECTOR_188 : str := [83;69;76;69;67;84;79;82;45;49;56;56].
Definition w_SELECTOR_189 : str := [83;69;76;69;67;84;79;82;45;49;56;57].
Definition w_SELECTOR_19 : str := [83;69;76;69;67;84;79;82;45;49;57].
Definition w_SELECTOR_190 : str := [83;69;76;69;67;84;79;82;45;49;57;48].
Definition w_SELECTOR_191 : str := [83;69;76;69;67;84;79;82;45;49;57;49].
Definition w_SELECTOR_192 : str := [83;69;76;69;67;84;79;82;45;49;57;50].
Definition w_SELECTOR_193 : str := [83;69;76;69;67;84;79;82;45;49;57;51].
Definition w_SELECTOR_194 : str := [83;69;76;69;67;84;79;82;45;49;57;52].
Definition w_SELECTOR_195 : str := [83;69;76;69;67;84;79;82;45;49;57;53].
Definition w_SELECTOR_196 : str := [83;69;76;69;67;84;79;82;45;49;57;54].
Definition w_SELECTOR_197 : str := [83;69;76;69;67;84;79;82;45;49;57;55].
Definition w_SELECTOR_198 : str := [83;69;76;69;67;84;79;82;45;49;57;56].
Definition w_SELECTOR_199 : str := [83;69;76;69;67;84;79;82;45;49;57;57].
Definition w_SELECTOR_2 : str := [83;69;76;69;67;84;79;82;45;50].
Definition w_SELECTOR_20 : str := [83;69;76;69;67;84;79;82;45;50;48].
Definition w_SELECTOR_200 : str := [83;69;76;69;67;84;79;82;45;50;48;48].
Definition w_SELECTOR_201 : str := [83;69;76;69;67;84;79;82;45;50;48;49].
Definition w_SELECTOR_202 : str := [83;69;76;69;67;84;79;82;45;50;48;50].
Definition w_SELECTOR_203 : str := [83;69;76;69;67;84;79;82;45;50;48;51].
Definition w_SELECTOR_204 : str := [83;69;76;69;67;84;79;82;45;50;48;52].
Definition w_SELECTOR_205 : str := [83;69;76;69;67;84;79;82;45;50;48;53].
Definition w_SELECTOR_206 : str := [83;69;76;69;67;84;79;82;45;50;48;54].
Definition w_SELECTOR_207 : str := [83;69;76;69;67;84;79;82;45;50;48;55].
Definition w_SELECTOR_208 : str := [83;69;76;69;67;84;79;82;45;50;48;56].
Definition w_SELECTOR_209 : str := [83;69;76;69;67;84;79;82;45;50;48;57].
Definition w_SELECTOR_21 : str := [83;69;76;69;67;84;79;82;45;50;49].
Definition w_SELECTOR_210 : str := [83;69;76;69;67;84;79;82;45;50;49;48].
Definition w_SELECTOR_211 : str := [83;69;76;69;67;84;79;82;45;50;49;49].
Definition w_SELECTOR_212 : str := [83;69;76;69;67;84;79;82;45;50;49;50].
Definition w_SELECTOR_213 : str := [83;69;76;69;67;84;79;82;45;50;49;51].
Definition w_SELECTOR_214 : str := [83;69;76;69;67;84;79;82;45;50;49;52].
Definition w_SELECTOR_215 : str := [83;69;76;69;67;84;79;82;45;50;49;53].
Definition w_SELECTOR_216 : str := [83;69;76;69;67;84;79;82;45;50;49;54].
Definition w_SELECTOR_217 : str := [83;69;76;69;67;84;79;82;45;50;49;55].
Definition w_SELECTOR_218 : str := [83;69;76;69;67;84;79;82;45;50;49;56].
Definition w_SELECTOR_219 : str := [83;69;76;69;67;84;79;82;45;50;49;57].
Definition w_SELECTOR_22 : str := [83;69;76;69;67;84;79;82;45;50;50].
Definition w_SELECTOR_220 : str := [83;69;76;69;67;84;79;82;45;50;50;48].
Definition w_SELECTOR_221 : str := [83;69;76;69;67;84;79;82;45;50;50;49].
Definition w_SELECTOR_222 : str := [83;69;76;69;67;84;79;82;45;50;50;50].
Definition w_SELECTOR_223 : str := [83;69;76;69;67;84;79;82;45;50;50;51].
Definition w_SELECTOR_224 : str := [83;69;76;69;67;84;79;82;45;50;50;52].
Definition w_SELECTOR_225 : str := [83;69;76;69;67;84;79;82;45;50;50;53].
Definition w_SELECTOR_226 : str := [83;69;76;69;67;84;79;82;45;50;50;54].
Definition w_SELECTOR_227 : str := [83;69;76;69;67;84;79;82;45;50;50;55].
Definition w_SELECTOR_228 : str := [83;69;76;69;67;84;79;82;45;50;50;56].
Definition w_SELECTOR_229 : str := [83;69;76;69;67;84;79;82;45;50;50;57].
Definition w_SELECTOR_23 : str := [83;69;76;69;67;84;79;82;45;50;51].
Definition w_SELECTOR_230 : str := [83;69;76;69;67;84;79;82;45;50;51;48].
Definition w_SELECTOR_231 : str := [83;69;76;69;67;84;79;82;45;50;51;49].
Definition w_SELECTOR_232 : str := [83;69;76;69;67;84;79;82;45;50;51;50].
Definition w_SELECTOR_233 : str := [83;69;76;69;67;84;79;82;45;50;51;51].
Definition w_SELECTOR_234 : str := [83;69;76;69;67;84;79;82;45;50;51;52].
Definition w_SELECTOR_235 : str := [83;69;76;69;67;84;79;82;45;50;51;53].
Definition w_SELECTOR_236 : str := [83;69;76;69;67;84;79;82;45;50;51;54].
Definition w_SELECTOR_237 : str := [83;69;76;69;67;84;79;82;45;50;51;55].
Definition w_SELECTOR_238 : str := [83;69;76;69;67;84;79;82;45;50;51;56].
Definition w_SELECTOR_239 : str := [83;69;76;69;67;84;79;82;45;50;51;57].
Definition w_SELECTOR_24 : str := [83;69;76;69;67;84;79;82;45;50;52].
Definition w_SELECTOR_240 : str := [83;69;76;69;67;84;79;82;45;50;52;48].
Definition w_SELECTOR_241 : str := [83;69;76;69;67;84;79;82;45;50;52;49].
Definition w_SELECTOR_242 : str := [83;69;76;69;67;84;79;82;45;50;52;50].
Definition w_SELECTOR_243 : str := [83;69;76;69;67;84;79;82;45;50;52;51].
Definition w_SELECTOR_244 : str := [83;69;76;69;67;84;79;82;45;50;52;52].
Definition w_SELECTOR_245 : str := [83;69;76;69;67;84;79;82;45;50;52;53].
Definition w_SELECTOR_246 : str := [83;69;76;69;67;84;79;82;45;50;52;54].
Definition w_SELECTOR_247 : str := [83;69;76;69;67;84;79;82;45;50;52;55].
Definition w_SELECTOR_248 : str := [83;69;76;69;67;84;79;82;45;50;52;56].
Definition w_SELECTOR_249 : str := [83;69;76;69;67;84;79;82;45;50;52;57].
Definition w_SELECTOR_25 : str := [83;69;76;69;67;84;79;82;45;50;53].
Definition w_SELECTOR_250 : str := [83;69;76;69;67;84;79;82;45;50;53;48].
Definition w_SELECTOR_251 : str := [83;69;76;69;67;84;79;82;45;50;53;49].
Definition w_SELECTOR_252 : str := [83;69;76;69;67;84;79;82;45;50;53;50].
Definition w_SELECTOR_253 : str := [83;69;76;69;67;84;79;82;45;50;53;51].
Definition w_SELECTOR_254 : str := [83;69;76;69;67;84;79;82;45;50;53;52].
Definition w_SELECTOR_255 : str := [83;69;76;69;67;84;79;82;45;50;53;53].
Definition w_SELECTOR_256 : str := [83;69;76;69;67;84;79;82;45;50;53;54].
Definition w_SELECTOR_26 : str := [83;69;76;69;67;84;79;82;45;50;54].
Definition w_SELECTOR_27 : str := [83;69;76;69;67;84;79;82;45;50;55].
Definition w_SELECTOR_28 : str := [83;69;76;69;67;84;79;82;45;50;56].
Definition w_SELECTOR_29 : str := [83;69;76;69;67;84;79;82;45;50;57].
Definition w_SELECTOR_3 : str := [83;69;76;69;67;84;79;82;45;51].
Definition w_SELECTOR_30 : str := [83;69;76;69;67;84;79;82;45;51;48].
Definition w_SELECTOR_31 : str := [83;69;76;69;67;84;79;82;45;51;49].
Definition w_SELECTOR_32 : str := [83;69;76;69;67;84;79;82;45;51;50].
Definition w_SELECTOR_33 : str := [83;69;76;69;67;84;79;82;45;51;51].
Definition w_SELECTOR_34 : str := [83;69;76;69;67;84;79;82;45;51;52].
Definition w_SELECTOR_35 : str := [83;69;76;69;67;84;79;82;45;51;53].
Definition w_SELECTOR_36 : str := [83;69;76;69;67;84;79;82;45;51;54].
Definition w_SELECTOR_37 : str := [83;69;76;69;67;84;79;82;45;51;55].
Definition w_SELECTOR_38 : str := [83;69;76;69;67;84;79;82;45;51;56].
Definition w_SELECTOR_39 : str := [83;69;76;69;67;84;79;82;45;51;57].
Definition w_SELECTOR_4 : str := [83;69;76;69;67;84;79;82;45;52].
Definition w_SELECTOR_40 : str := [83;69;76;69;67;84;79;82;45;52;48].
Definition w_SELECTOR_41 : str := [83;69;76;69;67;84;79;82;45;52;49].
Definition w_SELECTOR_42 : str := [83;69;76;69;67;84;79;82;45;52;50].
Definition w_SELECTOR_43 : str := [83;69;76;69;67;84;79;82;45;52;51].
Definition w_SELECTOR_44 : str := [83;69;76;69;67;84;79;82;45;52;52].
Definition w_SELECTOR_45 : str := [83;69;76;69;67;84;79;82;45;52;53].
Definition w_SELECTOR_46 : str := [83;69;76;69;67;84;79;82;45;52;54].
Definition w_SELECTOR_47 : str := [83;69;76;69;67;84;79;82;45;52;55].
Definition w_SELECTOR_48 : str := [83;69;76;69;67;84;79;82;45;52;56].
Definition w_SELECTOR_49 : str := [83;69;76;69;67;84;79;82;45;52;57].
Definition w_SELECTOR_5 : str := [83;69;76;69;67;84;79;82;45;53].
Definition w_SELECTOR_50 : str := [83;69;76;69;67;84;79;82;45;53;48].
Definition w_SELECTOR_51 : str := [83;69;76;69;67;84;79;82;45;53;49].
Definition w_SELECTOR_52 : str := [83;69;76;69;67;84;79;82;45;53;50].
Definition w_SELECTOR_53 : str := [83;69;76;69;67;84;79;82;45;53;51].
Definition w_SELECTOR_54 : str := [83;69;76;69;67;84;79;82;45;53;52].
Definition w_SELECTOR_55 : str := [83;69;76;69;67;84;79;82;45;53;53].
Definition w_SELECTOR_56 : str := [83;69;76;69;67;84;79;82;45;53;54].
Definition w_SELECTOR_57 : str := [83;69;76;69;67;84;79;82;45;53;55].
Definition w_SELECTOR_58 : str := [83;69;76;69;67;84;79;82;45;53;56].
Definition w_SELECTOR_59 : str := [83;69;76;69;67;84;79;82;45;53;57].
Definition w_SELECTOR_6 : str := [83;69;76;69;67;84;79;82;45;54].
Definition w_SELECTOR_60 : str := [83;69;76;69;67;84;79;82;45;54;48].
Definition w_SELECTOR_61 : str := [83;69;76;69;67;84;79;82;45;54;49].
Definition w_SELECTOR_62 : str := [83;69;76;69;67;84;79;82;45;54;50].
Definition w_SELECTOR_63 : str := [83;69;76;69;67;84;79;82;45;54;51].
Definition w_SELECTOR_64 : str := [83;69;76;69;67;84;79;82;45;54;52].
Definition w_SELECTOR_65 : str := [83;69;76;69;67;84;79;82;45;54;53].
Definition w_SELECTOR_66 : str := [83;69;76;69;67;84;79;82;45;54;54].
Definition w_SELECTOR_67 : str := [83;69;76;69;67;84;79;82;45;54;55].
Definition w_SELECTOR_68 : str := [83;69;76;69;67;84;79;82;45;54;56].
Definition w_SELECTOR_69 : str := [83;69;76;69;67;84;79;82;45;54;57].
Definition w_SELECTOR_7 : str := [83;69;76;69;67;84;79;82;45;55].
Definition w_SELECTOR_70 : str := [83;69;76;69;67;84;79;82;45;55;48].
Definition w_SELECTOR_71 : str := [83;69;76;69;67;84;79;82;45;55;49].
Definition w_SELECTOR_72 : str := [83;69;76;69;67;84;79;82;45;55;50].
Definition w_SELECTOR_73 : str := [83;69;76;69;67;84;79;82;45;55;51].
Definition w_SELECTOR_74 : str := [83;69;76;69;67;84;79;82;45;55;52].
Definition w_SELECTOR_75 : str := [83;69;76;69;67;84;79;82;45;55;53].
Definition w_SELECTOR_76 : str := [83;69;76;69;67;84;79;82;45;55;54].
Definition w_SELECTOR_77 : str := [83;69;76;69;67;84;79;82;45;55;55].
Definition w_SELECTOR_78 : str := [83;69;76;69;67;84;79;82;45;55;56].
Definition w_SELECTOR_79 : str := [83;69;76;69;67;84;79;82;45;55;57].
Definition w_SELECTOR_8 : str := [83;69;76;69;67;84;79;82;45;56].
Definition w_SELECTOR_80 : str := [83;69;76;69;67;84;79;82;45;56;48].
Definition w_SELECTOR_81 : str := [83;69;76;69;67;84;79;82;45;56;49].
Definition w_SELECTOR_82 : str := [83;69;76;69;67;84;79;82;45;56;50].
Definition w_SELECTOR_83 : str := [83;69;76;69;67;84;79;82;45;56;51].
Definition w_SELECTOR_84 : str := [83;69;76;69;67;84;79;82;45;56;52].
Definition w_SELECTOR_85 : str := [83;69;76;69;67;84;79;82;45;56;53].
Definition w_SELECTOR_86 : str := [83;69;76;69;67;84;79;82;45;56;54].
Definition w_SELECTOR_87 : str := [83;69;76;69;67;84;79;82;45;56;55].
Definition w_SELECTOR_88 : str := [83;69;76;69;67;84;79;82;45;56;56].
Definition w_SELECTOR_89 : str := [83;69;76;69;67;84;79;82;45;56;57].
Definition w_SELECTOR_9 : str := [83;69;76;69;67;84;79;82;45;57].
Definition w_SELECTOR_90 : str := [83;69;76;69;67;84;79;82;45;57;48].
Definition w_SELECTOR_91 : str := [83;69;76;69;67;84;79;82;45;57;49].
Definition w_SELECTOR_92 : str := [83;69;76;69;67;84;79;82;45;57;50].
Definition w_SELECTOR_93 : str := [83;69;76;69;67;84;79;82;45;57;51].
Definition w_SELECTOR_94 : str := [83;69;76;69;67;84;79;82;45;57;52].
Definition w_SELECTOR_95 : str := [83;69;76;69;67;84;79;82;45;57;53].
Definition w_SELECTOR_96 : str := [83;69;76;69;67;84;79;82;45;57;54].
Definition w_SELECTOR_97 : str := [83;69;76;69;67;84;79;82;45;57;55].
Definition w_SELECTOR_98 : str := [83;69;76;69;67;84;79;82;45;57;56].
Definition w_SELECTOR_99 : str := [83;69;76;69;67;84;79;82;45;57;57].
Definition w_SELF : str := [83;69;76;70].
Definition w_SELFIE : str := [83;69;76;70;73;69].
Definition w_SEMI_VOICED : str := [83;69;77;73;45;86;79;73;67;69;68].
Definition w_SEMIBREVIS : str := [83;69;77;73;66;82;69;86;73;83].
Definition w_SEMICIRCLE : str := [83;69;77;73;67;73;82;67;76;69].
Definition w_SEMICIRCULAR : str := [83;69;77;73;67;73;82;67;85;76;65;82].
Definition w_SEMICOLON : str := [83;69;77;73;67;79;76;79;78].
Definition w_SEMIDIRECT : str := [83;69;77;73;68;73;82;69;67;84].
Definition w_SEMIMINIMA : str := [83;69;77;73;77;73;78;73;77;65].
Definition w_SEMISEXTILE : str := [83;69;77;73;83;69;88;84;73;76;69].
Definition w_SEMISOFT : str := [83;69;77;73;83;79;70;84].
Definition w_SEMIVOWEL : str := [83;69;77;73;86;79;87;69;76].
Definition w_SEMK : str := [83;69;77;75].
Definition w_SEMKATH : str := [83;69;77;75;65;84;72].
Definition w_SEMUNCIA : str := [83;69;77;85;78;67;73;65].
Definition w_SENTI : str := [83;69;78;84;73].
Definition w_SENTO : str := [83;69;78;84;79].
Definition w_SEP : str := [83;69;80].
Definition w_SEPARATOR : str := [83;69;80;65;82;65;84;79;82].
Definition w_SEPTEMBER : str := [83;69;80;84;69;77;66;69;82].
Definition w_SEPTUPLE : str := [83;69;80;84;85;80;76;69].
Definition w_SEQUENTIAL : str := [83;69;81;85;69;78;84;73;65;76].
Definition w_SERIF : str := [83;69;82;73;70].
Definition w_SERIFS : str := [83;69;82;73;70;83].
Definition w_SERIOUS : str := [83;69;82;73;79;85;83].
Definition w_SERVICE : str := [83;69;82;86;73;67;69].
Definition w_SESAME : str := [83;69;83;65;77;69].
Definition w_SESQUIQUADRATE : str := [83;69;83;81;85;73;81;85;65;68;82;65;84;69].
Definition w_SESTERTIUS : str := [83;69;83;84;69;82;84;73;85;83].
Definition w_SET : str := [83;69;84].
Definition w_SETFON : str := [83;69;84;70;79;78].
Definition w_SEUAEQ : str := [83;69;85;65;69;81].
Definition w_SEUNYAM : str := [83;69;85;78;89;65;77].
Definition w_SEUX : str := [83;69;85;88].
Definition w_SEVEN : str := [83;69;86;69;78].
Definition w_SEVEN_THIRTY : str := [83;69;86;69;78;45;84;72;73;82;84;89].
Definition w_SEVENTEEN : str := [83;69;86;69;78;84;69;69;78].
Definition w_SEVENTH : str := [83;69;86;69;78;84;72].
Definition w_SEVENTY : str := [83;69;86;69;78;84;89].
Definition w_SEVERANCE : str := [83;69;86;69;82;65;78;67;69].
Definition w_SEX : str := [83;69;88].
Definition w_SEXTANS : str := [83;69;88;84;65;78;83].
Definition w_SEXTILE : str := [83;69;88;84;73;76;69].
Definition w_SEXTULA : str := [83;69;88;84;85;76;65].
Definition w_SEYK : str := [83;69;89;75].
Definition w_SG : str := [83;71].
Definition w_SGAB : str := [83;71;65;66].
Definition w_SGAW : str := [83;71;65;87].
Definition w_SGOR : str := [83;71;79;82].
Definition w_SGRA : str := [83;71;82;65].
Definition w_SH : str := [83;72].
Definition w_SH2 : str := [83;72;50].
Definition w_SHA : str := [83;72;65].
Definition w_SHA3 : str := [83;72;65;51].
Definition w_SHA6 : str := [83;72;65;54].
Definition w_SHAA : str := [83;72;65;65].
Definition w_SHAB6 : str := [83;72;65;66;54].
Definition w_SHAD : str := [83;72;65;68].
Definition w_SHADDA : str := [83;72;65;68;68;65].
Definition w_SHADE : str := [83;72;65;68;69].
Definition w_SHADED : str := [83;72;65;68;69;68].
Definition w_SHADOWED : str := [83;72;65;68;79;87;69;68].
Definition w_SHAFT : str := [83;72;65;70;84].
Definition w_SHAK : str := [83;72;65;75].
Definition w_SHAKING : str := [83;72;65;75;73;78;71].
Definition w_SHAKTI : str := [83;72;65;75;84;73].
Definition w_SHALLOW : str := [83;72;65;76;76;79;87].
Definition w_SHALSHELET : str := [83;72;65;76;83;72;69;76;69;84].
Definition w_SHAMROCK : str := [83;72;65;77;82;79;67;75].
Definition w_SHAN : str := [83;72;65;78].
Definition w_SHANG : str := [83;72;65;78;71].
Definition w_SHAP : str := [83;72;65;80].
Definition w_SHAPE : str := [83;72;65;80;69].
Definition w_SHAPES : str := [83;72;65;80;69;83].
Definition w_SHAPING : str := [83;72;65;80;73;78;71].
Definition w_SHAR2 : str := [83;72;65;82;50].
Definition w_SHARA : str := [83;72;65;82;65].
Definition w_SHARADA : str := [83;72;65;82;65;68;65].
Definition w_SHARK : str := [83;72;65;82;75].
Definition w_SHARP : str := [83;72;65;82;80].
Definition w_SHARU : str := [83;72;65;82;85].
Definition w_SHAT : str := [83;72;65;84].
Definition w_SHAVED : str := [83;72;65;86;69;68].
Definition w_SHAVIAN : str := [83;72;65;86;73;65;78].
Definition w_SHAVIYANI : str := [83;72;65;86;73;89;65;78;73].
Definition w_SHAX : str := [83;72;65;88].
Definition w_SHAY : str := [83;72;65;89].
Definition w_SHCHA : str := [83;72;67;72;65].
Definition w_SHCHOOI : str := [83;72;67;72;79;79;73].
Definition w_SHE : str := [83;72;69].
Definition w_SHE_GOAT : str := [83;72;69;45;71;79;65;84].
Definition w_SHEE : str := [83;72;69;69].
Definition w_SHEEN : str := [83;72;69;69;78].
Definition w_SHEENU : str := [83;72;69;69;78;85].
Definition w_SHEEP : str := [83;72;69;69;80].
Definition w_SHEG9 : str := [83;72;69;71;57].
Definition w_SHEI : str := [83;72;69;73].
Definition w_SHELF : str := [83;72;69;76;70].
Definition w_SHELL : str := [83;72;69;76;76].
Definition w_SHEN : str := [83;72;69;78].
Definition w_SHEP : str := [83;72;69;80].
Definition w_SHEQEL : str := [83;72;69;81;69;76].
Definition w_SHESH : str := [83;72;69;83;72].
Definition w_SHESH2 : str := [83;72;69;83;72;50].
Definition w_SHESHIG : str := [83;72;69;83;72;73;71].
Definition w_SHESHLAM : str := [83;72;69;83;72;76;65;77].
Definition w_SHET : str := [83;72;69;84].
Definition w_SHEUAE : str := [83;72;69;85;65;69].
Definition w_SHEUAEQ : str := [83;72;69;85;65;69;81].
Definition w_SHEUAEQTU : str := [83;72;69;85;65;69;81;84;85].
Definition w_SHEUOQ : str := [83;72;69;85;79;81].
Definition w_SHEUX : str := [83;72;69;85;88].
Definition w_SHEVA : str := [83;72;69;86;65].
Definition w_SHEX : str := [83;72;69;88].
Definition w_SHHA : str := [83;72;72;65].
Definition w_SHI : str := [83;72;73].
Definition w_SHID : str := [83;72;73;68].
Definition w_SHIELD : str := [83;72;73;69;76;68].
Definition w_SHIFT : str := [83;72;73;70;84].
Definition w_SHII : str := [83;72;73;73].
Definition w_SHIIN : str := [83;72;73;73;78].
Definition w_SHIM : str := [83;72;73;77].
Definition w_SHIMA : str := [83;72;73;77;65].
Definition w_SHIN : str := [83;72;73;78].
Definition w_SHINDA : str := [83;72;73;78;68;65].
Definition w_SHINIG : str := [83;72;73;78;73;71].
Definition w_SHINTO : str := [83;72;73;78;84;79].
Definition w_SHIP : str := [83;72;73;80].
Definition w_SHIQ : str := [83;72;73;81].
Definition w_SHIR : str := [83;72;73;82].
Definition w_SHIRAE : str := [83;72;73;82;65;69].
Definition w_SHIRT : str := [83;72;73;82;84].
Definition w_SHITA : str := [83;72;73;84;65].
Definition w_SHIYYAALAA : str := [83;72;73;89;89;65;65;76;65;65].
Definition w_SHO : str := [83;72;79].
Definition w_SHOA : str := [83;72;79;65].
Definition w_SHOCKED : str := [83;72;79;67;75;69;68].
Definition w_SHOE : str := [83;72;79;69].
Definition w_SHOG : str := [83;72;79;71].
Definition w_SHOGI : str := [83;72;79;71;73].
Definition w_SHOO : str := [83;72;79;79].
Definition w_SHOOI : str := [83;72;79;79;73].
Definition w_SHOOT : str := [83;72;79;79;84].
Definition w_SHOOTING : str := [83;72;79;79;84;73;78;71].
Definition w_SHOP : str := [83;72;79;80].
Definition w_SHOPPING : str := [83;72;79;80;80;73;78;71].
Definition w_SHOQ : str := [83;72;79;81].
Definition w_SHORT : str := [83;72;79;82;84].
Definition w_SHORT_TWIG_AR : str := [83;72;79;82;84;45;84;87;73;71;45;65;82].
Definition w_SHORT_TWIG_BJARKAN : str := [83;72;79;82;84;45;84;87;73;71;45;66;74;65;82;75;65;78].
Definition w_SHORT_TWIG_HAGALL : str := [83;72;79;82;84;45;84;87;73;71;45;72;65;71;65;76;76].
Definition w_SHORT_TWIG_MADR : str := [83;72;79;82;84;45;84;87;73;71;45;77;65;68;82].
Definition w_SHORT_TWIG_NAUD : str := [83;72;79;82;84;45;84;87;73;71;45;78;65;85;68].
Definition w_SHORT_TWIG_OSS : str := [83;72;79;82;84;45;84;87;73;71;45;79;83;83].
Definition w_SHORT_TWIG_SOL : str := [83;72;79;82;84;45;84;87;73;71;45;83;79;76].
Definition w_SHORT_TWIG_TYR : str := [83;72;79;82;84;45;84;87;73;71;45;84;89;82].
Definition w_SHORT_TWIG_YR : str := [83;72;79;82;84;45;84;87;73;71;45;89;82].
Definition w_SHORTCAKE : str := [83;72;79;82;84;67;65;75;69].
Definition w_SHORTENER : str := [83;72;79;82;84;69;78;69;82].
Definition w_SHORTHAND : str := [83;72;79;82;84;72;65;78;68].
Definition w_SHORTS : str := [83;72;79;82;84;83].
Definition w_SHOT : str := [83;72;79;84].
Definition w_SHOU : str := [83;72;79;85].
Definition w_SHOULDER : str := [83;72;79;85;76;68;69;82].
Definition w_SHOULDERED : str := [83;72;79;85;76;68;69;82;69;68].
Definition w_SHOWER : str := [83;72;79;87;69;82].
Definition w_SHOX : str := [83;72;79;88].
Definition w_SHOY : str := [83;72;79;89].
Definition w_SHRI : str := [83;72;82;73].
Definition w_SHRIMP : str := [83;72;82;73;77;80].
Definition w_SHRINE : str := [83;72;82;73;78;69].
Definition w_SHRUG : str := [83;72;82;85;71].
Definition w_SHTA : str := [83;72;84;65].
Definition w_SHTAPIC : str := [83;72;84;65;80;73;67].
Definition w_SHU : str := [83;72;85].
Definition w_SHU2 : str := [83;72;85;50].
Definition w_SHUANGXI : str := [83;72;85;65;78;71;88;73].
Definition w_SHUBUR : str := [83;72;85;66;85;82].
Definition w_SHUENSHUET : str := [83;72;85;69;78;83;72;85;69;84].
Definition w_SHUEQ : str := [83;72;85;69;81].
Definition w_SHUFFLE : str := [83;72;85;70;70;76;69].
Definition w_SHUL : str := [83;72;85;76].
Definition w_SHUM : str := [83;72;85;77].
Definition w_SHUO : str := [83;72;85;79].
Definition w_SHUOP : str := [83;72;85;79;80].
Definition w_SHUOX : str := [83;72;85;79;88].
Definition w_SHUP : str := [83;72;85;80].
Definition w_SHUR : str := [83;72;85;82].
Definition w_SHURX : str := [83;72;85;82;88].
Definition w_SHUT : str := [83;72;85;84].
Definition w_SHUTTLECOCK : str := [83;72;85;84;84;76;69;67;79;67;75].
Definition w_SHUX : str := [83;72;85;88].
Definition w_SHV : str := [83;72;86].
Definition w_SHWA : str := [83;72;87;65].
Definition w_SHWAA : str := [83;72;87;65;65].
Definition w_SHWE : str := [83;72;87;69].
Definition w_SHWI : str := [83;72;87;73].
Definition w_SHWII : str := [83;72;87;73;73].
Definition w_SHWO : str := [83;72;87;79].
Definition w_SHWOO : str := [83;72;87;79;79].
Definition w_SHWOY : str := [83;72;87;79;89].
Definition w_SHY : str := [83;72;89].
Definition w_SHYA : str := [83;72;89;65].
Definition w_SHYE : str := [83;72;89;69].
Definition w_SHYP : str := [83;72;89;80].
Definition w_SHYR : str := [83;72;89;82].
Definition w_SHYRX : str := [83;72;89;82;88].
Definition w_SHYT : str := [83;72;89;84].
Definition w_SHYX : str := [83;72;89;88].
Definition w_SI : str := [83;73].
Definition w_SI_1 : str := [83;73;45;49].
Definition w_SI_2 : str := [83;73;45;50].
Definition w_SI_3 : str := [83;73;45;51].
Definition w_SI_4 : str := [83;73;45;52].
Definition w_SI_5 : str := [83;73;45;53].
Definition w_SI_6 : str := [83;73;45;54].
Definition w_SIA : str := [83;73;65].
Definition w_SIBE : str := [83;73;66;69].
Definition w_SICKLE : str := [83;73;67;75;76;69].
Definition w_SICKNESS : str := [83;73;67;75;78;69;83;83].
Definition w_SIDDHAM : str := [83;73;68;68;72;65;77].
Definition w_SIDDHI : str := [83;73;68;68;72;73].
Definition w_SIDE : str := [83;73;68;69].
Definition w_SIDEWAYS : str := [83;73;68;69;87;65;89;83].
Definition w_SIE : str := [83;73;69].
Definition w_SIEE : str := [83;73;69;69].
Definition w_SIEP : str := [83;73;69;80].
Definition w_SIEX : str := [83;73;69;88].
Definition w_SIG : str := [83;73;71].
Definition w_SIG4 : str := [83;73;71;52].
Definition w_SIGEL : str := [83;73;71;69;76].
Definition w_SIGMA : str := [83;73;71;77;65].
Definition w_SIGN : str := [83;73;71;78].
Definition w_SIGNS : str := [83;73;71;78;83].
Definition w_SIGNWRITING : str := [83;73;71;78;87;82;73;84;73;78;71].
Definition w_SII : str := [83;73;73].
Definition w_SIK2 : str := [83;73;75;50].
Definition w_SIKI : str := [83;73;75;73].
Definition w_SILA3 : str := [83;73;76;65;51].
Definition w_SILHOUETTE : str := [83;73;76;72;79;85;69;84;84;69].
Definition w_SILIQUA : str := [83;73;76;73;81;85;65].
Definition w_SILK : str := [83;73;76;75].
Definition w_SILVER : str := [83;73;76;86;69;82].
Definition w_SIMA : str := [83;73;77;65].
Definition w_SIMALUNGUN : str := [83;73;77;65;76;85;78;71;85;78].
Definition w_SIMANSIS : str := [83;73;77;65;78;83;73;83].
Definition w_SIMILAR : str := [83;73;77;73;76;65;82].
Definition w_SIMPLIFIED : str := [83;73;77;80;76;73;70;73;69;68].
Definition w_SIMULTANEOUS : str := [83;73;77;85;76;84;65;78;69;79;85;83].
Definition w_SIN : str := [83;73;78].
Definition w_SINDHI : str := [83;73;78;68;72;73].
Definition w_SINE : str := [83;73;78;69].
Definition w_SINGAAT : str := [83;73;78;71;65;65;84].
Definition w_SINGLE : str := [83;73;78;71;76;69].
Definition w_SINGLE_LINE : str := [83;73;78;71;76;69;45;76;73;78;69].
Definition w_SINHALA : str := [83;73;78;72;65;76;65].
Definition w_SINKING : str := [83;73;78;75;73;78;71].
Definition w_SINNYIIYHE : str := [83;73;78;78;89;73;73;89;72;69].
Definition w_SINOLOGICAL : str := [83;73;78;79;76;79;71;73;67;65;76].
Definition w_SINUSOID : str := [83;73;78;85;83;79;73;68].
Definition w_SIOS : str := [83;73;79;83].
Definition w_SIOS_CHIEUCH : str := [83;73;79;83;45;67;72;73;69;85;67;72].
Definition w_SIOS_CIEUC : str := [83;73;79;83;45;67;73;69;85;67].
Definition w_SIOS_HIEUH : str := [83;73;79;83;45;72;73;69;85;72].
Definition w_SIOS_IEUNG : str := [83;73;79;83;45;73;69;85;78;71].
Definition w_SIOS_KAPYEOUNPIEUP : str := [83;73;79;83;45;75;65;80;89;69;79;85;78;80;73;69;85;80].
Definition w_SIOS_KHIEUKH : str := [83;73;79;83;45;75;72;73;69;85;75;72].
Definition w_SIOS_KIYEOK : str := [83;73;79;83;45;75;73;89;69;79;75].
Definition w_SIOS_MIEUM : str := [83;73;79;83;45;77;73;69;85;77].
Definition w_SIOS_NIEUN : str := [83;73;79;83;45;78;73;69;85;78].
Definition w_SIOS_PANSIOS : str := [83;73;79;83;45;80;65;78;83;73;79;83].
Definition w_SIOS_PHIEUPH : str := [83;73;79;83;45;80;72;73;69;85;80;72].
Definition w_SIOS_PIEUP : str := [83;73;79;83;45;80;73;69;85;80].
Definition w_SIOS_PIEUP_KIYEOK : str := [83;73;79;83;45;80;73;69;85;80;45;75;73;89;69;79;75].
Definition w_SIOS_RIEUL : str := [83;73;79;83;45;82;73;69;85;76].
Definition w_SIOS_SSANGSIOS : str := [83;73;79;83;45;83;83;65;78;71;83;73;79;83].
Definition w_SIOS_THIEUTH : str := [83;73;79;83;45;84;72;73;69;85;84;72].
Definition w_SIOS_TIKEUT : str := [83;73;79;83;45;84;73;75;69;85;84].
Definition w_SIP : str := [83;73;80].
Definition w_SIRINGU : str := [83;73;82;73;78;71;85].
Definition w_SISA : str := [83;73;83;65].
Definition w_SIT : str := [83;73;84].
Definition w_SITE : str := [83;73;84;69].
Definition w_SIX : str := [83;73;88].
Definition w_SIX_LINE : str := [83;73;88;45;76;73;78;69].
Definition w_SIX_PER_EM : str := [83;73;88;45;80;69;82;45;69;77].
Definition w_SIX_STRING : str := [83;73;88;45;83;84;82;73;78;71].
Definition w_SIX_THIRTY : str := [83;73;88;45;84;72;73;82;84;89].
Definition w_SIXTEEN : str := [83;73;88;84;69;69;78].
Definition w_SIXTEENTH : str := [83;73;88;84;69;69;78;84;72].
Definition w_SIXTEENTHS : str := [83;73;88;84;69;69;78;84;72;83].
Definition w_SIXTH : str := [83;73;88;84;72].
Definition w_SIXTHS : str := [83;73;88;84;72;83].
Definition w_SIXTY : str := [83;73;88;84;89].
Definition w_SIXTY_FOURTH : str := [83;73;88;84;89;45;70;79;85;82;84;72].
Definition w_SIZE : str := [83;73;90;69].
Definition w_SJE : str := [83;74;69].
Definition w_SK : str := [83;75].
Definition w_SKATE : str := [83;75;65;84;69].
Definition w_SKEWED : str := [83;75;69;87;69;68].
Definition w_SKI : str := [83;75;73].
Definition w_SKIER : str := [83;75;73;69;82].
Definition w_SKIN : str := [83;75;73;78].
Definition w_SKLIRON : str := [83;75;76;73;82;79;78].
Definition w_SKULL : str := [83;75;85;76;76].
Definition w_SKW : str := [83;75;87].
Definition w_SKWA : str := [83;75;87;65].
Definition w_SLANTED : str := [83;76;65;78;84;69;68].
Definition w_SLASH : str := [83;76;65;83;72].
Definition w_SLAVE : str := [83;76;65;86;69].
Definition w_SLAVONIC : str := [83;76;65;86;79;78;73;67].
Definition w_SLED : str := [83;76;69;68].
Definition w_SLEEP : str := [83;76;69;69;80].
Definition w_SLEEPING : str := [83;76;69;69;80;73;78;71].
Definition w_SLEEPY : str := [83;76;69;69;80;89].
Definition w_SLEUTH : str := [83;76;69;85;84;72].
Definition w_SLICE : str := [83;76;73;67;69].
Definition w_SLIDER : str := [83;76;73;68;69;82].
Definition w_SLIDING : str := [83;76;73;68;73;78;71].
Definition w_SLIGHTLY : str := [83;76;73;71;72;84;76;89].
Definition w_SLING : str := [83;76;73;78;71].
Definition w_SLOAN : str := [83;76;79;65;78].
Definition w_SLOPE : str := [83;76;79;80;69].
Definition w_SLOPING : str := [83;76;79;80;73;78;71].
Definition w_SLOT : str := [83;76;79;84].
Definition w_SLOVO : str := [83;76;79;86;79].
Definition w_SLOW : str := [83;76;79;87].
Definition w_SLOWLY : str := [83;76;79;87;76;89].
Definition w_SLUR : str := [83;76;85;82].
Definition w_SMALL : str := [83;77;65;76;76].
Definition w_SMALLER : str := [83;77;65;76;76;69;82].
Definition w_SMASH : str := [83;77;65;83;72].
Definition w_SMEAR : str := [83;77;69;65;82].
Definition w_SMILE : str := [83;77;73;76;69].
Definition w_SMILING : str := [83;77;73;76;73;78;71].
Definition w_SMIRKING : str := [83;77;73;82;75;73;78;71].
Definition w_SMOKING : str := [83;77;79;75;73;78;71].
Definition w_SNA : str := [83;78;65].
Definition w_SNAIL : str := [83;78;65;73;76].
Definition w_SNAKE : str := [83;78;65;75;69].
Definition w_SNAP : str := [83;78;65;80].
Definition w_SNEEZING : str := [83;78;69;69;90;73;78;71].
Definition w_SNOUT : str := [83;78;79;85;84].
Definition w_SNOW : str := [83;78;79;87].
Definition w_SNOWBOARDER : str := [83;78;79;87;66;79;65;82;68;69;82].
Definition w_SNOWFLAKE : str := [83;78;79;87;70;76;65;75;69].
Definition w_SNOWMAN : str := [83;78;79;87;77;65;78].
Definition w_SO : str := [83;79].
Definition w_SO_1 : str := [83;79;45;49].
Definition w_SO_2 : str := [83;79;45;50].
Definition w_SO_3 : str := [83;79;45;51].
Definition w_SO_4 : str := [83;79;45;52].
Definition w_SO_5 : str := [83;79;45;53].
Definition w_SO_6 : str := [83;79;45;54].
Definition w_SO_7 : str := [83;79;45;55].
Definition w_SOA : str := [83;79;65].
Definition w_SOAP : str := [83;79;65;80].
Definition w_SOCCER : str := [83;79;67;67;69;82].
Definition w_SOCIETY : str := [83;79;67;73;69;84;89].
Definition w_SOCKS : str := [83;79;67;75;83].
Definition w_SOF : str := [83;79;70].
Definition w_SOFT : str := [83;79;70;84].
Definition w_SOFTNESS : str := [83;79;70;84;78;69;83;83].
Definition w_SOFTWARE_FUNCTION : str := [83;79;70;84;87;65;82;69;45;70;85;78;67;84;73;79;78].
Definition w_SOGDIAN : str := [83;79;71;68;73;65;78].
Definition w_SOLID : str := [83;79;76;73;68].
Definition w_SOLIDUS : str := [83;79;76;73;68;85;83].
Definition w_SOM : str := [83;79;77].
Definition w_SOMPENG : str := [83;79;77;80;69;78;71].
Definition w_SON : str := [83;79;78].
Definition w_SONG : str := [83;79;78;71].
Definition w_SONJAM : str := [83;79;78;74;65;77].
Definition w_SOO : str := [83;79;79].
Definition w_SOON : str := [83;79;79;78].
Definition w_SOP : str := [83;79;80].
Definition w_SOQ : str := [83;79;81].
Definition w_SORA : str := [83;79;82;65].
Definition w_SOS : str := [83;79;83].
Definition w_SOT : str := [83;79;84].
Definition w_SOU : str := [83;79;85].
Definition w_SOUNAP : str := [83;79;85;78;65;80].
Definition w_SOUND : str := [83;79;85;78;68].
Definition w_SOURCE : str := [83;79;85;82;67;69].
Definition w_SOUTH : str := [83;79;85;84;72].
Definition w_SOUTH_SLAVEY : str := [83;79;85;84;72;45;83;76;65;86;69;89].
Definition w_SOUTHERN : str := [83;79;85;84;72;69;82;78].
Definition w_SOW : str := [83;79;87].
Definition w_SOWILO : str := [83;79;87;73;76;79].
Definition w_SOX : str := [83;79;88].
Definition w_SOY : str := [83;79;89].
Definition w_SOYOMBO : str := [83;79;89;79;77;66;79].
Definition w_SP : str := [83;80].
Definition w_SPACE : str := [83;80;65;67;69].
Definition w_SPACING : str := [83;80;65;67;73;78;71].
Definition w_SPADE : str := [83;80;65;68;69].
Definition w_SPADES : str := [83;80;65;68;69;83].
Definition w_SPAGHETTI : str := [83;80;65;71;72;69;84;84;73].
Definition w_SPARKLE : str := [83;80;65;82;75;76;69].
Definition w_SPARKLER : str := [83;80;65;82;75;76;69;82].
Definition w_SPARKLES : str := [83;80;65;82;75;76;69;83].
Definition w_SPARKLING : str := [83;80;65;82;75;76;73;78;71].
Definition w_SPATHI : str := [83;80;65;84;72;73].
Definition w_SPEAK_NO_EVIL : str := [83;80;69;65;75;45;78;79;45;69;86;73;76].
Definition w_SPEAKER : str := [83;80;69;65;75;69;82].
Definition w_SPEAKING : str := [83;80;69;65;75;73;78;71].
Definition w_SPEAR : str := [83;80;69;65;82].
Definition w_SPECIAL : str := [83;80;69;67;73;65;76].
Definition w_SPEECH : str := [83;80;69;69;67;72].
Definition w_SPEEDBOAT : str := [83;80;69;69;68;66;79;65;84].
Definition w_SPESMILO : str := [83;80;69;83;77;73;76;79].
Definition w_SPHERICAL : str := [83;80;72;69;82;73;67;65;76].
Definition w_SPICE : str := [83;80;73;67;69].
Definition w_SPIDER : str := [83;80;73;68;69;82].
Definition w_SPIDERY : str := [83;80;73;68;69;82;89].
Definition w_SPINE : str := [83;80;73;78;69].
Definition w_SPIRAL : str := [83;80;73;82;65;76].
Definition w_SPIRANT : str := [83;80;73;82;65;78;84].
Definition w_SPIRIT : str := [83;80;73;82;73;84].
Definition w_SPIRITUS : str := [83;80;73;82;73;84;85;83].
Definition w_SPLASHING : str := [83;80;76;65;83;72;73;78;71].
Definition w_SPLAYED : str := [83;80;76;65;89;69;68].
Definition w_SPLIT : str := [83;80;76;73;84].
Definition w_SPLITTING : str := [83;80;76;73;84;84;73;78;71].
Definition w_SPOKED : str := [83;80;79;75;69;68].
Definition w_SPOON : str := [83;80;79;79;78].
Definition w_SPORTS : str := [83;80;79;82;84;83].
Definition w_SPOT : str := [83;80;79;84].
Definition w_SPOUTING : str := [83;80;79;85;84;73;78;71].
Definition w_SPREAD : str := [83;80;82;69;65;68].
Definition w_SPRECHGESANG : str := [83;80;82;69;67;72;71;69;83;65;78;71].
Definition w_SPRING : str := [83;80;82;73;78;71].
Definition w_SPRINGS : str := [83;80;82;73;78;71;83].
Definition w_SPROUT : str := [83;80;82;79;85;84].
Definition w_SPUNGS : str := [83;80;85;78;71;83].
Definition w_SPWA : str := [83;80;87;65].
Definition w_SPY : str := [83;80;89].
Definition w_SQUARE : str := [83;81;85;65;82;69].
Definition w_SQUARED : str := [83;81;85;65;82;69;68].
Definition w_SQUARES : str := [83;81;85;65;82;69;83].
Definition w_SQUAT : str := [83;81;85;65;84].
Definition w_SQUEEZE : str := [83;81;85;69;69;90;69].
Definition w_SQUEEZED : str := [83;81;85;69;69;90;69;68].
Definition w_SQUID : str := [83;81;85;73;68].
Definition w_SQUIGGLE : str := [83;81;85;73;71;71;76;69].
Definition w_SQUIRREL : str := [83;81;85;73;82;82;69;76].
Definition w_SQUISH : str := [83;81;85;73;83;72].
Definition w_SR : str := [83;82].
Definition w_SS : str := [83;83].
Definition w_SSA : str := [83;83;65].
Definition w_SSAA : str := [83;83;65;65].
Definition w_SSANGARAEA : str := [83;83;65;78;71;65;82;65;69;65].
Definition w_SSANGCIEUC : str := [83;83;65;78;71;67;73;69;85;67].
Definition w_SSANGCIEUC_HIEUH : str := [83;83;65;78;71;67;73;69;85;67;45;72;73;69;85;72].
Definition w_SSANGHIEUH : str := [83;83;65;78;71;72;73;69;85;72].
Definition w_SSANGIEUNG : str := [83;83;65;78;71;73;69;85;78;71].
Definition w_SSANGKIYEOK : str := [83;83;65;78;71;75;73;89;69;79;75].
Definition w_SSANGMIEUM : str := [83;83;65;78;71;77;73;69;85;77].
Definition w_SSANGNIEUN : str := [83;83;65;78;71;78;73;69;85;78].
Definition w_SSANGPIEUP : str := [83;83;65;78;71;80;73;69;85;80].
Definition w_SSANGRIEUL : str := [83;83;65;78;71;82;73;69;85;76].
Definition w_SSANGRIEUL_KHIEUKH : str := [83;83;65;78;71;82;73;69;85;76;45;75;72;73;69;85;75;72].
Definition w_SSANGSIOS : str := [83;83;65;78;71;83;73;79;83].
Definition w_SSANGSIOS_KIYEOK : str := [83;83;65;78;71;83;73;79;83;45;75;73;89;69;79;75].
Definition w_SSANGSIOS_PIEUP : str := [83;83;65;78;71;83;73;79;83;45;80;73;69;85;80].
Definition w_SSANGSIOS_TIKEUT : str := [83;83;65;78;71;83;73;79;83;45;84;73;75;69;85;84].
Definition w_SSANGTHIEUTH : str := [83;83;65;78;71;84;72;73;69;85;84;72].
Definition w_SSANGTIKEUT : str := [83;83;65;78;71;84;73;75;69;85;84].
Definition w_SSANGTIKEUT_PIEUP : str := [83;83;65;78;71;84;73;75;69;85;84;45;80;73;69;85;80].
Definition w_SSANGYEORINHIEUH : str := [83;83;65;78;71;89;69;79;82;73;78;72;73;69;85;72].
Definition w_SSAP : str := [83;83;65;80].
Definition w_SSAT : str := [83;83;65;84].
Definition w_SSAX : str := [83;83;65;88].
Definition w_SSE : str := [83;83;69].
Definition w_SSEE : str := [83;83;69;69].
Definition w_SSEP : str := [83;83;69;80].
Definition w_SSEX : str := [83;83;69;88].
Definition w_SSHE : str := [83;83;72;69].
Definition w_SSHIN : str := [83;83;72;73;78].
Definition w_SSI : str := [83;83;73].
Definition w_SSIE : str := [83;83;73;69].
Definition w_SSIEP : str := [83;83;73;69;80].
Definition w_SSIEX : str := [83;83;73;69;88].
Definition w_SSIP : str := [83;83;73;80].
Definition w_SSIT : str := [83;83;73;84].
Definition w_SSIX : str := [83;83;73;88].
Definition w_SSO : str := [83;83;79].
Definition w_SSOP : str := [83;83;79;80].
Definition w_SSOT : str := [83;83;79;84].
Definition w_SSOX : str := [83;83;79;88].
Definition w_SSU : str := [83;83;85].
Definition w_SSUP : str := [83;83;85;80].
Definition w_SSUT : str := [83;83;85;84].
Definition w_SSUU : str := [83;83;85;85].
Definition w_SSUX : str := [83;83;85;88].
Definition w_SSY : str := [83;83;89].
Definition w_SSYP : str := [83;83;89;80].
Definition w_SSYR : str := [83;83;89;82].
Definition w_SSYRX : str := [83;83;89;82;88].
Definition w_SSYT : str := [83;83;89;84].
Definition w_SSYX : str := [83;83;89;88].
Definition w_ST : str := [83;84].
Definition w_ST2 : str := [83;84;50].
Definition w_STACCATISSIMO : str := [83;84;65;67;67;65;84;73;83;83;73;77;79].
Definition w_STACCATO : str := [83;84;65;67;67;65;84;79].
Definition w_STACKED : str := [83;84;65;67;75;69;68].
Definition w_STADIUM : str := [83;84;65;68;73;85;77].
Definition w_STAFF : str := [83;84;65;70;70].
Definition w_STALLION : str := [83;84;65;76;76;73;79;78].
Definition w_STAMPED : str := [83;84;65;77;80;69;68].
Definition w_STAN : str := [83;84;65;78].
Definition w_STAND : str := [83;84;65;78;68].
Definition w_STANDARD : str := [83;84;65;78;68;65;82;68].
Definition w_STANDSTILL : str := [83;84;65;78;68;83;84;73;76;76].
Definition w_STAR : str := [83;84;65;82].
Definition w_STARK : str := [83;84;65;82;75].
Definition w_STARRED : str := [83;84;65;82;82;69;68].
Definition w_STARS : str := [83;84;65;82;83].
Definition w_START : str := [83;84;65;82;84].
Definition w_STATERS : str := [83;84;65;84;69;82;83].
Definition w_STATION : str := [83;84;65;84;73;79;78].
Definition w_STATUE : str := [83;84;65;84;85;69].
Definition w_STAUROS : str := [83;84;65;85;82;79;83].
Definition w_STAVROS : str := [83;84;65;86;82;79;83].
Definition w_STAVROU : str := [83;84;65;86;82;79;85].
Definition w_STEAM : str := [83;84;69;65;77].
Definition w_STEAMING : str := [83;84;69;65;77;73;78;71].
Definition w_STEAMY : str := [83;84;69;65;77;89].
Definition w_STEM : str := [83;84;69;77].
Definition w_STENOGRAPHIC : str := [83;84;69;78;79;71;82;65;80;72;73;67].
Definition w_STEP : str := [83;84;69;80].
Definition w_STEREO : str := [83;84;69;82;69;79].
Definition w_STICK : str := [83;84;73;67;75].
Definition w_STICKING : str := [83;84;73;67;75;73;78;71].
Definition w_STIGMA : str := [83;84;73;71;77;65].
Definition w_STILE : str := [83;84;73;76;69].
Definition w_STILL : str := [83;84;73;76;76].
Definition w_STIMME : str := [83;84;73;77;77;69].
Definition w_STIRRUP : str := [83;84;73;82;82;85;80].
Definition w_STOCK : str := [83;84;79;67;75].
Definition w_STONE : str := [83;84;79;78;69].
Definition w_STOP : str := [83;84;79;80].
Definition w_STOPPAGE : str := [83;84;79;80;80;65;71;69].
Definition w_STOPPING : str := [83;84;79;80;80;73;78;71].
Definition w_STOPWATCH : str := [83;84;79;80;87;65;84;67;72].
Definition w_STORE : str := [83;84;79;82;69].
Definition w_STOVE : str := [83;84;79;86;69].
Definition w_STRAGGISMATA : str := [83;84;82;65;71;71;73;83;77;65;84;65].
Definition w_STRAIF : str := [83;84;82;65;73;70].
Definition w_STRAIGHT : str := [83;84;82;65;73;71;72;84].
Definition w_STRAIGHTNESS : str := [83;84;82;65;73;71;72;84;78;69;83;83].
Definition w_STRAINER : str := [83;84;82;65;73;78;69;82].
Definition w_STRATIAN : str := [83;84;82;65;84;73;65;78].
Definition w_STRATUM : str := [83;84;82;65;84;85;77].
Definition w_STRATUM_2 : str := [83;84;82;65;84;85;77;45;50].
Definition w_STRAW : str := [83;84;82;65;87].
Definition w_STRAWBERRY : str := [83;84;82;65;87;66;69;82;82;89].
Definition w_STREAMER : str := [83;84;82;69;65;77;69;82].
Definition w_STRENGTH : str := [83;84;82;69;78;71;84;72].
Definition w_STRESS : str := [83;84;82;69;83;83].
Definition w_STRETCH : str := [83;84;82;69;84;67;72].
Definition w_STRETCHED : str := [83;84;82;69;84;67;72;69;68].
Definition w_STRICTLY : str := [83;84;82;73;67;84;76;89].
Definition w_STRIDE : str := [83;84;82;73;68;69].
Definition w_STRIKE : str := [83;84;82;73;75;69].
Definition w_STRIKETHROUGH : str := [83;84;82;73;75;69;84;72;82;79;85;71;72].
Definition w_STRIPE : str := [83;84;82;73;80;69].
Definition w_STROKE : str := [83;84;82;79;75;69].
Definition w_STROKE_1 : str := [83;84;82;79;75;69;45;49].
Definition w_STROKE_10 : str := [83;84;82;79;75;69;45;49;48].
Definition w_STROKE_11 : str := [83;84;82;79;75;69;45;49;49].
Definition w_STROKE_2 : str := [83;84;82;79;75;69;45;50].
Definition w_STROKE_3 : str := [83;84;82;79;75;69;45;51].
Definition w_STROKE_4 : str := [83;84;82;79;75;69;45;52].
Definition w_STROKE_5 : str := [83;84;82;79;75;69;45;53].
Definition w_STROKE_6 : str := [83;84;82;79;75;69;45;54].
Definition w_STROKE_7 : str := [83;84;82;79;75;69;45;55].
Definition w_STROKE_8 : str := [83;84;82;79;75;69;45;56].
Definition w_STROKE_9 : str := [83;84;82;79;75;69;45;57].
Definition w_STROKES : str := [83;84;82;79;75;69;83].
Definition w_STRONG : str := [83;84;82;79;78;71].
Definition w_STUCK_OUT : str := [83;84;85;67;75;45;79;85;84].
Definition w_STUDIO : str := [83;84;85;68;73;79].
Definition w_STUDY : str := [83;84;85;68;89].
Definition w_STUFFED : str := [83;84;85;70;70;69;68].
Definition w_STUPA : str := [83;84;85;80;65].
Definition w_STWA : str := [83;84;87;65].
Definition w_SU : str := [83;85].
Definition w_SU_1 : str := [83;85;45;49].
Definition w_SU_2 : str := [83;85;45;50].
Definition w_SU_3 : str := [83;85;45;51].
Definition w_SU_4 : str := [83;85;45;52].
Definition w_SU_5 : str := [83;85;45;53].
Definition w_SU_6 : str := [83;85;45;54].
Definition w_SU_7 : str := [83;85;45;55].
Definition w_SU_8 : str := [83;85;45;56].
Definition w_SUA : str := [83;85;65].
Definition w_SUAB : str := [83;85;65;66].
Definition w_SUAE : str := [83;85;65;69].
Definition w_SUAEN : str := [83;85;65;69;78].
Definition w_SUAET : str := [83;85;65;69;84].
Definition w_SUAM : str := [83;85;65;77].
Definition w_SUBGROUP : str := [83;85;66;71;82;79;85;80].
Definition w_SUBITO : str := [83;85;66;73;84;79].
Definition w_SUBJECT : str := [83;85;66;74;69;67;84].
Definition w_SUBJOINED : str := [83;85;66;74;79;73;78;69;68].
Definition w_SUBJOINER : str := [83;85;66;74;79;73;78;69;82].
Definition w_SUBLIMATE : str := [83;85;66;76;73;77;65;84;69].
Definition w_SUBLIMATE_2 : str := [83;85;66;76;73;77;65;84;69;45;50].
Definition w_SUBLIMATE_3 : str := [83;85;66;76;73;77;65;84;69;45;51].
Definition w_SUBLIMATION : str := [83;85;66;76;73;77;65;84;73;79;78].
Definition w_SUBLINEAR : str := [83;85;66;76;73;78;69;65;82].
Definition w_SUBPUNCTIS : str := [83;85;66;80;85;78;67;84;73;83].
Definition w_SUBSCRIPT : str := [83;85;66;83;67;82;73;80;84].
Definition w_SUBSET : str := [83;85;66;83;69;84].
Definition w_SUBSTITUTE : str := [83;85;66;83;84;73;84;85;84;69].
Definition w_SUBSTITUTION : str := [83;85;66;83;84;73;84;85;84;73;79;78].
Definition w_SUBUNIT : str := [83;85;66;85;78;73;84].
Definition w_SUCCEED : str := [83;85;67;67;69;69;68].
Definition w_SUCCEEDS : str := [83;85;67;67;69;69;68;83].
Definition w_SUCK : str := [83;85;67;75].
Definition w_SUCKED : str := [83;85;67;75;69;68].
Definition w_SUCKING : str := [83;85;67;75;73;78;71].
Definition w_SUD : str := [83;85;68].
Definition w_SUD2 : str := [83;85;68;50].
Definition w_SUE : str := [83;85;69].
Definition w_SUHUR : str := [83;85;72;85;82].
Definition w_SUIT : str := [83;85;73;84].
Definition w_SUITABLE : str := [83;85;73;84;65;66;76;69].
Definition w_SUKU : str := [83;85;75;85].
Definition w_SUKUN : str := [83;85;75;85;78].
Definition w_SULFUR : str := [83;85;76;70;85;82].
Definition w_SUM : str := [83;85;77].
Definition w_SUMASH : str := [83;85;77;65;83;72].
Definition w_SUMMATION : str := [83;85;77;77;65;84;73;79;78].
Definition w_SUMMER : str := [83;85;77;77;69;82].
Definition w_SUN : str := [83;85;78].
Definition w_SUNDANESE : str := [83;85;78;68;65;78;69;83;69].
Definition w_SUNFLOWER : str := [83;85;78;70;76;79;87;69;82].
Definition w_SUNG : str := [83;85;78;71].
Definition w_SUNGLASSES : str := [83;85;78;71;76;65;83;83;69;83].
Definition w_SUNRISE : str := [83;85;78;82;73;83;69].
Definition w_SUNSET : str := [83;85;78;83;69;84].
Definition w_SUO : str := [83;85;79].
Definition w_SUOP : str := [83;85;79;80].
Definition w_SUOX : str := [83;85;79;88].
Definition w_SUP : str := [83;85;80].
Definition w_SUPER : str := [83;85;80;69;82].
Definition w_SUPERFIXED : str := [83;85;80;69;82;70;73;88;69;68].
Definition w_SUPERIMPOSED : str := [83;85;80;69;82;73;77;80;79;83;69;68].
Definition w_SUPERSCRIPT : str := [83;85;80;69;82;83;67;82;73;80;84].
Definition w_SUPERSET : str := [83;85;80;69;82;83;69;84].
Definition w_SUPERVISE : str := [83;85;80;69;82;86;73;83;69].
Definition w_SUPRALINEAR : str := [83;85;80;82;65;76;73;78;69;65;82].
Definition w_SUR : str := [83;85;82].
Definition w_SUR9 : str := [83;85;82;57].
Definition w_SURANG : str := [83;85;82;65;78;71].
Definition w_SURE : str := [83;85;82;69].
Definition w_SURFACE : str := [83;85;82;70;65;67;69].
Definition w_SURFER : str := [83;85;82;70;69;82].
Definition w_SURROUND : str := [83;85;82;82;79;85;78;68].
Definition w_SURX : str := [83;85;82;88].
Definition w_SURYA : str := [83;85;82;89;65].
Definition w_SUSHI : str := [83;85;83;72;73].
Definition w_SUSPENSION : str := [83;85;83;80;69;78;83;73;79;78].
Definition w_SUT : str := [83;85;84].
Definition w_SUTRA : str := [83;85;84;82;65].
Definition w_SUU : str := [83;85;85].
Definition w_SUX : str := [83;85;88].
Definition w_SV : str := [83;86].
Definition w_SVARITA : str := [83;86;65;82;73;84;65].
Definition w_SVASTI : str := [83;86;65;83;84;73].
Definition w_SW : str := [83;87].
Definition w_SWA : str := [83;87;65].
Definition w_SWAA : str := [83;87;65;65].
Definition w_SWAPPING : str := [83;87;65;80;80;73;78;71].
Definition w_SWASH : str := [83;87;65;83;72].
Definition w_SWE : str := [83;87;69].
Definition w_SWEAT : str := [83;87;69;65;84].
Definition w_SWEET : str := [83;87;69;69;84].
Definition w_SWG : str := [83;87;71].
Definition w_SWI : str := [83;87;73].
Definition w_SWII : str := [83;87;73;73].
Definition w_SWIMMER : str := [83;87;73;77;77;69;82].
Definition w_SWIMMING : str := [83;87;73;77;77;73;78;71].
Definition w_SWIRL : str := [83;87;73;82;76].
Definition w_SWO : str := [83;87;79].
Definition w_SWOO : str := [83;87;79;79].
Definition w_SWORD : str := [83;87;79;82;68].
Definition w_SWORDS : str := [83;87;79;82;68;83].
Definition w_SWUNG : str := [83;87;85;78;71].
Definition w_SWZ : str := [83;87;90].
Definition w_SY : str := [83;89].
Definition w_SYA : str := [83;89;65].
Definition w_SYLLABICS : str := [83;89;76;76;65;66;73;67;83].
Definition w_SYLLABLE : str := [83;89;76;76;65;66;76;69].
Definition w_SYLOTI : str := [83;89;76;79;84;73].
Definition w_SYMBOL : str := [83;89;77;66;79;76].
Definition w_SYMBOL_1 : str := [83;89;77;66;79;76;45;49].
Definition w_SYMBOL_10 : str := [83;89;77;66;79;76;45;49;48].
Definition w_SYMBOL_11 : str := [83;89;77;66;79;76;45;49;49].
Definition w_SYMBOL_12 : str := [83;89;77;66;79;76;45;49;50].
Definition w_SYMBOL_13 : str := [83;89;77;66;79;76;45;49;51].
Definition w_SYMBOL_14 : str := [83;89;77;66;79;76;45;49;52].
Definition w_SYMBOL_15 : str := [83;89;77;66;79;76;45;49;53].
Definition w_SYMBOL_16 : str := [83;89;77;66;79;76;45;49;54].
Definition w_SYMBOL_17 : str := [83;89;77;66;79;76;45;49;55].
Definition w_SYMBOL_18 : str := [83;89;77;66;79;76;45;49;56].
Definition w_SYMBOL_19 : str := [83;89;77;66;79;76;45;49;57].
Definition w_SYMBOL_2 : str := [83;89;77;66;79;76;45;50].
Definition w_SYMBOL_20 : str := [83;89;77;66;79;76;45;50;48].
Definition w_SYMBOL_21 : str := [83;89;77;66;79;76;45;50;49].
Definition w_SYMBOL_22 : str := [83;89;77;66;79;76;45;50;50].
Definition w_SYMBOL_23 : str := [83;89;77;66;79;76;45;50;51].
Definition w_SYMBOL_24 : str := [83;89;77;66;79;76;45;50;52].
Definition w_SYMBOL_25 : str := [83;89;77;66;79;76;45;50;53].
Definition w_SYMBOL_26 : str := [83;89;77;66;79;76;45;50;54].
Definition w_SYMBOL_27 : str := [83;89;77;66;79;76;45;50;55].
Definition w_SYMBOL_29 : str := [83;89;77;66;79;76;45;50;57].
Definition w_SYMBOL_3 : str := [83;89;77;66;79;76;45;51].
Definition w_SYMBOL_30 : str := [83;89;77;66;79;76;45;51;48].
Definition w_SYMBOL_32 : str := [83;89;77;66;79;76;45;51;50].
Definition w_SYMBOL_36 : str := [83;89;77;66;79;76;45;51;54].
Definition w_SYMBOL_37 : str := [83;89;77;66;79;76;45;51;55].
Definition w_SYMBOL_38 : str := [83;89;77;66;79;76;45;51;56].
Definition w_SYMBOL_39 : str := [83;89;77;66;79;76;45;51;57].
Definition w_SYMBOL_4 : str := [83;89;77;66;79;76;45;52].
Definition w_SYMBOL_40 : str := [83;89;77;66;79;76;45;52;48].
Definition w_SYMBOL_42 : str := [83;89;77;66;79;76;45;52;50].
Definition w_SYMBOL_43 : str := [83;89;77;66;79;76;45;52;51].
Definition w_SYMBOL_45 : str := [83;89;77;66;79;76;45;52;53].
Definition w_SYMBOL_47 : str := [83;89;77;66;79;76;45;52;55].
Definition w_SYMBOL_48 : str := [83;89;77;66;79;76;45;52;56].
Definition w_SYMBOL_49 : str := [83;89;77;66;79;76;45;52;57].
Definition w_SYMBOL_5 : str := [83;89;77;66;79;76;45;53].
Definition w_SYMBOL_50 : str := [83;89;77;66;79;76;45;53;48].
Definition w_SYMBOL_51 : str := [83;89;77;66;79;76;45;53;49].
Definition w_SYMBOL_52 : str := [83;89;77;66;79;76;45;53;50].
Definition w_SYMBOL_53 : str := [83;89;77;66;79;76;45;53;51].
Definition w_SYMBOL_54 : str := [83;89;77;66;79;76;45;53;52].
Definition w_SYMBOL_6 : str := [83;89;77;66;79;76;45;54].
Definition w_SYMBOL_7 : str := [83;89;77;66;79;76;45;55].
Definition w_SYMBOL_8 : str := [83;89;77;66;79;76;45;56].
Definition w_SYMBOL_9 : str := [83;89;77;66;79;76;45;57].
Definition w_SYMBOLS : str := [83;89;77;66;79;76;83].
Definition w_SYMMETRIC : str := [83;89;77;77;69;84;82;73;67].
Definition w_SYMMETRY : str := [83;89;77;77;69;84;82;89].
Definition w_SYNAFI : str := [83;89;78;65;70;73].
Definition w_SYNAGMA : str := [83;89;78;65;71;77;65].
Definition w_SYNAGOGUE : str := [83;89;78;65;71;79;71;85;69].
Definition w_SYNCHRONOUS : str := [83;89;78;67;72;82;79;78;79;85;83].
Definition w_SYNDESMOS : str := [83;89;78;68;69;83;77;79;83].
Definition w_SYNEVMA : str := [83;89;78;69;86;77;65].
Definition w_SYOUWA : str := [83;89;79;85;87;65].
Definition w_SYP : str := [83;89;80].
Definition w_SYR : str := [83;89;82].
Definition w_SYRIAC : str := [83;89;82;73;65;67].
Definition w_SYRINGE : str := [83;89;82;73;78;71;69].
Definition w_SYRMA : str := [83;89;82;77;65].
Definition w_SYRMATIKI : str := [83;89;82;77;65;84;73;75;73].
Definition w_SYRX : str := [83;89;82;88].
Definition w_SYT : str := [83;89;84].
Definition w_SYX : str := [83;89;88].
Definition w_SZ : str := [83;90].
Definition w_SZA : str := [83;90;65].
Definition w_SZAA : str := [83;90;65;65].
Definition w_SZE : str := [83;90;69].
Definition w_SZEE : str := [83;90;69;69].
Definition w_SZI : str := [83;90;73].
Definition w_SZO : str := [83;90;79].
Definition w_SZU : str := [83;90;85].
Definition w_SZWA : str := [83;90;87;65].
Definition w_SZWG : str := [83;90;87;71].
Definition w_SZZ : str := [83;90;90].
Definition w_T : str := [84].
Definition w_T_REX : str := [84;45;82;69;88].
Definition w_T_SHIRT : str := [84;45;83;72;73;82;84].
Definition w_T001 : str := [84;48;48;49].
Definition w_T002 : str := [84;48;48;50].
Definition w_T003 : str := [84;48;48;51].
Definition w_T003A : str := [84;48;48;51;65].
Definition w_T004 : str := [84;48;48;52].
Definition w_T005 : str := [84;48;48;53].
Definition w_T006 : str := [84;48;48;54].
Definition w_T007 : str := [84;48;48;55].
Definition w_T007A : str := [84;48;48;55;65].
Definition w_T008 : str := [84;48;48;56].
Definition w_T008A : str := [84;48;48;56;65].
Definition w_T009 : str := [84;48;48;57].
Definition w_T009A : str := [84;48;48;57;65].
Definition w_T010 : str := [84;48;49;48].
Definition w_T011 : str := [84;48;49;49].
Definition w_T011A : str := [84;48;49;49;65].
Definition w_T012 : str := [84;48;49;50].
Definition w_T013 : str := [84;48;49;51].
Definition w_T014 : str := [84;48;49;52].
Definition w_T015 : str := [84;48;49;53].
Definition w_T016 : str := [84;48;49;54].
Definition w_T016A : str := [84;48;49;54;65].
Definition w_T017 : str := [84;48;49;55].
Definition w_T018 : str := [84;48;49;56].
Definition w_T019 : str := [84;48;49;57].
Definition w_T020 : str := [84;48;50;48].
Definition w_T021 : str := [84;48;50;49].
Definition w_T022 : str := [84;48;50;50].
Definition w_T023 : str := [84;48;50;51].
Definition w_T024 : str := [84;48;50;52].
Definition w_T025 : str := [84;48;50;53].
Definition w_T026 : str := [84;48;50;54].
Definition w_T027 : str := [84;48;50;55].
Definition w_T028 : str := [84;48;50;56].
Definition w_T029 : str := [84;48;50;57].
Definition w_T030 : str := [84;48;51;48].
Definition w_T031 : str := [84;48;51;49].
Definition w_T032 : str := [84;48;51;50].
Definition w_T032A : str := [84;48;51;50;65].
Definition w_T033 : str := [84;48;51;51].
Definition w_T033A : str := [84;48;51;51;65].
Definition w_T034 : str := [84;48;51;52].
Definition w_T035 : str := [84;48;51;53].
Definition w_T036 : str := [84;48;51;54].
Definition w_TA : str := [84;65].
Definition w_TA_1 : str := [84;65;45;49].
Definition w_TA_2 : str := [84;65;45;50].
Definition w_TA_3 : str := [84;65;45;51].
Definition w_TA_4 : str := [84;65;45;52].
Definition w_TA_ROL : str := [84;65;45;82;79;76].
Definition w_TA2 : str := [84;65;50].
Definition w_TAA : str := [84;65;65].
Definition w_TAAF : str := [84;65;65;70].
Definition w_TAAI : str := [84;65;65;73].
Definition w_TAALUJA : str := [84;65;65;76;85;74;65].
Definition w_TAAM : str := [84;65;65;77].
Definition w_TAAQ : str := [84;65;65;81].
Definition w_TAASHAE : str := [84;65;65;83;72;65;69].
Definition w_TAB : str := [84;65;66].
Definition w_TABLE : str := [84;65;66;76;69].
Definition w_TABS : str := [84;65;66;83].
Definition w_TABULATION : str := [84;65;66;85;76;65;84;73;79;78].
Definition w_TACK : str := [84;65;67;75].
Definition w_TACO : str := [84;65;67;79].
Definition w_TAE : str := [84;65;69].
Definition w_TAEN : str := [84;65;69;78].
Definition w_TAG : str := [84;65;71].
Definition w_TAGALOG : str := [84;65;71;65;76;79;71].
Definition w_TAGBANWA : str := [84;65;71;66;65;78;87;65].
Definition w_TAH : str := [84;65;72].
Definition w_TAI : str := [84;65;73].
Definition w_TAIL : str := [84;65;73;76].
Definition w_TAILED : str := [84;65;73;76;69;68].
Definition w_TAILLESS : str := [84;65;73;76;76;69;83;83].
Definition w_TAISYOU : str := [84;65;73;83;89;79;85].
Definition w_TAK : str := [84;65;75].
Definition w_TAK4 : str := [84;65;75;52].
Definition w_TAKE : str := [84;65;75;69].
Definition w_TAKEOUT : str := [84;65;75;69;79;85;84].
Definition w_TAKHALLUS : str := [84;65;75;72;65;76;76;85;83].
Definition w_TAKRI : str := [84;65;75;82;73].
Definition w_TALENT : str := [84;65;76;69;78;84].
Definition w_TALENTS : str := [84;65;76;69;78;84;83].
Definition w_TALING : str := [84;65;76;73;78;71].
Definition w_TALL : str := [84;65;76;76].
Definition w_TAM : str := [84;65;77].
Definition w_TAMIL : str := [84;65;77;73;76].
Definition w_TAMING : str := [84;65;77;73;78;71].
Definition w_TAN : str := [84;65;78].
Definition w_TANABATA : str := [84;65;78;65;66;65;84;65].
Definition w_TANG : str := [84;65;78;71].
Definition w_TANGENT : str := [84;65;78;71;69;78;84].
Definition w_TANGERINE : str := [84;65;78;71;69;82;73;78;69].
Definition w_TANGUT : str := [84;65;78;71;85;84].
Definition w_TANNED : str := [84;65;78;78;69;68].
Definition w_TAO : str := [84;65;79].
Definition w_TAP : str := [84;65;80].
Definition w_TAPE : str := [84;65;80;69].
Definition w_TAPER : str := [84;65;80;69;82].
Definition w_TAQ : str := [84;65;81].
Definition w_TAR : str := [84;65;82].
Definition w_TARGET : str := [84;65;82;71;69;84].
Definition w_TARTAR : str := [84;65;82;84;65;82].
Definition w_TARTAR_2 : str := [84;65;82;84;65;82;45;50].
Definition w_TARUNG : str := [84;65;82;85;78;71].
Definition w_TAS : str := [84;65;83].
Definition w_TAT : str := [84;65;84].
Definition w_TATTOOED : str := [84;65;84;84;79;79;69;68].
Definition w_TATWEEL : str := [84;65;84;87;69;69;76].
Definition w_TAU : str := [84;65;85].
Definition w_TAUM : str := [84;65;85;77].
Definition w_TAURUS : str := [84;65;85;82;85;83].
Definition w_TAV : str := [84;65;86].
Definition w_TAVIYANI : str := [84;65;86;73;89;65;78;73].
Definition w_TAW : str := [84;65;87].
Definition w_TAWA : str := [84;65;87;65].
Definition w_TAWELLEMET : str := [84;65;87;69;76;76;69;77;69;84].
Definition w_TAX : str := [84;65;88].
Definition w_TAXI : str := [84;65;88;73].
Definition w_TAY : str := [84;65;89].
Definition w_TAYANNA : str := [84;65;89;65;78;78;65].
Definition w_TC : str := [84;67].
Definition w_TCHE : str := [84;67;72;69].
Definition w_TCHEH : str := [84;67;72;69;72].
Definition w_TCHEHEH : str := [84;67;72;69;72;69;72].
Definition w_TE : str := [84;69].
Definition w_TE_1 : str := [84;69;45;49].
Definition w_TE_2 : str := [84;69;45;50].
Definition w_TE_3 : str := [84;69;45;51].
Definition w_TE_4 : str := [84;69;45;52].
Definition w_TE_5 : str := [84;69;45;53].
Definition w_TE_6 : str := [84;69;45;54].
Definition w_TE_7 : str := [84;69;45;55].
Definition w_TE_8 : str := [84;69;45;56].
Definition w_TE_9 : str := [84;69;45;57].
Definition w_TE_U : str := [84;69;45;85].
Definition w_TEACUP : str := [84;69;65;67;85;80].
Definition w_TEAR_OFF : str := [84;69;65;82;45;79;70;70].
Definition w_TEARDROP_BARBED : str := [84;69;65;82;68;82;79;80;45;66;65;82;66;69;68].
Definition w_TEARDROP_SHANKED : str := [84;69;65;82;68;82;79;80;45;83;72;65;78;75;69;68].
Definition w_TEARDROP_SPOKED : str := [84;69;65;82;68;82;79;80;45;83;80;79;75;69;68].
Definition w_TEARS : str := [84;69;65;82;83].
Definition w_TEDUNG : str := [84;69;68;85;78;71].
Definition w_TEE : str := [84;69;69].
Definition w_TEEEE : str := [84;69;69;69;69].
Definition w_TEENS : str := [84;69;69;78;83].
Definition w_TEETH : str := [84;69;69;84;72].
Definition w_TEGEH : str := [84;69;71;69;72].
Definition w_TEH : str := [84;69;72].
Definition w_TEHEH : str := [84;69;72;69;72].
Definition w_TEIWS : str := [84;69;73;87;83].
Definition w_TEK : str := [84;69;75].
Definition w_TELEGRAPH : str := [84;69;76;69;71;82;65;80;72].
Definition w_TELEIA : str := [84;69;76;69;73;65].
Definition w_TELEPHONE : str := [84;69;76;69;80;72;79;78;69].
Definition w_TELESCOPE : str := [84;69;76;69;83;67;79;80;69].
Definition w_TELEVISION : str := [84;69;76;69;86;73;83;73;79;78].
Definition w_TELISHA : str := [84;69;76;73;83;72;65].
Definition w_TELLER : str := [84;69;76;76;69;82].
Definition w_TELOUS : str := [84;69;76;79;85;83].
Definition w_TELU : str := [84;69;76;85].
Definition w_TELUGU : str := [84;69;76;85;71;85].
Definition w_TEMPUS : str := [84;69;77;80;85;83].
Definition w_TEN : str := [84;69;78].
Definition w_TEN_THIRTY : str := [84;69;78;45;84;72;73;82;84;89].
Definition w_TENGE : str := [84;69;78;71;69].
Definition w_TENNIS : str := [84;69;78;78;73;83].
Definition w_TENS : str := [84;69;78;83].
Definition w_TENSE : str := [84;69;78;83;69].
Definition w_TENT : str := [84;69;78;84].
Definition w_TENTH : str := [84;69;78;84;72].
Definition w_TENU : str := [84;69;78;85].
Definition w_TENUTO : str := [84;69;78;85;84;79].
Definition w_TEP : str := [84;69;80].
Definition w_TERMINAL : str := [84;69;82;77;73;78;65;76].
Definition w_TERMINATOR : str := [84;69;82;77;73;78;65;84;79;82].
Definition w_TESH : str := [84;69;83;72].
Definition w_TESSARON : str := [84;69;83;83;65;82;79;78].
Definition w_TESSERA : str := [84;69;83;83;69;82;65].
Definition w_TET : str := [84;69;84].
Definition w_TETARTIMORION : str := [84;69;84;65;82;84;73;77;79;82;73;79;78].
Definition w_TETARTOS : str := [84;69;84;65;82;84;79;83].
Definition w_TETH : str := [84;69;84;72].
Definition w_TETRAFONIAS : str := [84;69;84;82;65;70;79;78;73;65;83].
Definition w_TETRAGRAM : str := [84;69;84;82;65;71;82;65;77].
Definition w_TETRAPLI : str := [84;69;84;82;65;80;76;73].
Definition w_TETRASEME : str := [84;69;84;82;65;83;69;77;69].
Definition w_TETRASIMOU : str := [84;69;84;82;65;83;73;77;79;85].
Definition w_TEU : str := [84;69;85].
Definition w_TEUAEN : str := [84;69;85;65;69;78].
Definition w_TEUAEQ : str := [84;69;85;65;69;81].
Definition w_TEUN : str := [84;69;85;78].
Definition w_TEUT : str := [84;69;85;84].
Definition w_TEUTEUWEN : str := [84;69;85;84;69;85;87;69;78].
Definition w_TEUTEUX : str := [84;69;85;84;69;85;88].
Definition w_TEVIR : str := [84;69;86;73;82].
Definition w_TEX : str := [84;69;88].
Definition w_TEXT : str := [84;69;88;84].
Definition w_TH : str := [84;72].
Definition w_TH_CREE : str := [84;72;45;67;82;69;69].
Definition w_THA : str := [84;72;65].
Definition w_THAA : str := [84;72;65;65].
Definition w_THAALU : str := [84;72;65;65;76;85].
Definition w_THAANA : str := [84;72;65;65;78;65].
Definition w_THAHAN : str := [84;72;65;72;65;78].
Definition w_THAI : str := [84;72;65;73].
Definition w_THAJ : str := [84;72;65;74].
Definition w_THAL : str := [84;72;65;76].
Definition w_THAM : str := [84;72;65;77].
Definition w_THAMEDH : str := [84;72;65;77;69;68;72].
Definition w_THAN : str := [84;72;65;78].
Definition w_THANNA : str := [84;72;65;78;78;65].
Definition w_THANTHAKHAT : str := [84;72;65;78;84;72;65;75;72;65;84].
Definition w_THAW : str := [84;72;65;87].
Definition w_THE : str := [84;72;69].
Definition w_THEA : str := [84;72;69;65].
Definition w_THEE : str := [84;72;69;69].
Definition w_THEH : str := [84;72;69;72].
Definition w_THEMA : str := [84;72;69;77;65].
Definition w_THEMATISMOS : str := [84;72;69;77;65;84;73;83;77;79;83].
Definition w_THEN : str := [84;72;69;78].
Definition w_THERE : str := [84;72;69;82;69].
Definition w_THEREFORE : str := [84;72;69;82;69;70;79;82;69].
Definition w_THERMODYNAMIC : str := [84;72;69;82;77;79;68;89;78;65;77;73;67].
Definition w_THERMOMETER : str := [84;72;69;82;77;79;77;69;84;69;82].
Definition w_THES : str := [84;72;69;83].
Definition w_THESEOS : str := [84;72;69;83;69;79;83].
Definition w_THESPIAN : str := [84;72;69;83;80;73;65;78].
Definition w_THETA : str := [84;72;69;84;65].
Definition w_THETH : str := [84;72;69;84;72].
Definition w_THETHE : str := [84;72;69;84;72;69].
Definition w_THEY : str := [84;72;69;89].
Definition w_THI : str := [84;72;73].
Definition w_THIAB : str := [84;72;73;65;66].
Definition w_THICK : str := [84;72;73;67;75].
Definition w_THIEUTH : str := [84;72;73;69;85;84;72].
Definition w_THIGH : str := [84;72;73;71;72].
Definition w_THII : str := [84;72;73;73].
Definition w_THIN : str := [84;72;73;78].
Definition w_THINKING : str := [84;72;73;78;75;73;78;71].
Definition w_THIRD : str := [84;72;73;82;68].
Definition w_THIRD_STAGE : str := [84;72;73;82;68;45;83;84;65;71;69].
Definition w_THIRDS : str := [84;72;73;82;68;83].
Definition w_THIRTEEN : str := [84;72;73;82;84;69;69;78].
Definition w_THIRTY : str := [84;72;73;82;84;89].
Definition w_THIRTY_ONE : str := [84;72;73;82;84;89;45;79;78;69].
Definition w_THIRTY_SECOND : str := [84;72;73;82;84;89;45;83;69;67;79;78;68].
Definition w_THITA : str := [84;72;73;84;65].
Definition w_THIUTH : str := [84;72;73;85;84;72].
Definition w_THO : str := [84;72;79].
Definition w_THOA : str := [84;72;79;65].
Definition w_THOJ : str := [84;72;79;74].
Definition w_THOM : str := [84;72;79;77].
Definition w_THONG : str := [84;72;79;78;71].
Definition w_THOO : str := [84;72;79;79].
Definition w_THORN : str := [84;72;79;82;78].
Definition w_THOU : str := [84;72;79;85].
Definition w_THOUGHT : str := [84;72;79;85;71;72;84].
Definition w_THOUSAND : str := [84;72;79;85;83;65;78;68].
Definition w_THOUSANDS : str := [84;72;79;85;83;65;78;68;83].
Definition w_THREAD : str := [84;72;82;69;65;68].
Definition w_THREE : str := [84;72;82;69;69].
Definition w_THREE_CIRCLE : str := [84;72;82;69;69;45;67;73;82;67;76;69].
Definition w_THREE_D : str := [84;72;82;69;69;45;68].
Definition w_THREE_DOT : str := [84;72;82;69;69;45;68;79;84].
Definition w_THREE_EM : str := [84;72;82;69;69;45;69;77].
Definition w_THREE_LEGGED : str := [84;72;82;69;69;45;76;69;71;71;69;68].
Definition w_THREE_LINE : str := [84;72;82;69;69;45;76;73;78;69].
Definition w_THREE_PER_EM : str := [84;72;82;69;69;45;80;69;82;45;69;77].
Definition w_THREE_QUARTER : str := [84;72;82;69;69;45;81;85;65;82;84;69;82].
Definition w_THREE_THIRTY : str := [84;72;82;69;69;45;84;72;73;82;84;89].
Definition w_THROUGH : str := [84;72;82;79;85;71;72].
Definition w_THROWING : str := [84;72;82;79;87;73;78;71].
Definition w_THU : str := [84;72;85].
Definition w_THUMB : str := [84;72;85;77;66].
Definition w_THUMBS : str := [84;72;85;77;66;83].
Definition w_THUNDER : str := [84;72;85;78;68;69;82].
Definition w_THUNDERSTORM : str := [84;72;85;78;68;69;82;83;84;79;82;77].
Definition w_THUNG : str := [84;72;85;78;71].
Definition w_THURISAZ : str := [84;72;85;82;73;83;65;90].
Definition w_THURS : str := [84;72;85;82;83].
Definition w_THWA : str := [84;72;87;65].
Definition w_THWAA : str := [84;72;87;65;65].
Definition w_THWE : str := [84;72;87;69].
Definition w_THWEE : str := [84;72;87;69;69].
Definition w_THWI : str := [84;72;87;73].
Definition w_THWII : str := [84;72;87;73;73].
Definition w_THWO : str := [84;72;87;79].
Definition w_THWOO : str := [84;72;87;79;79].
Definition w_THYOOM : str := [84;72;89;79;79;77].
Definition w_THZ : str := [84;72;90].
Definition w_TI : str := [84;73].
Definition w_TI_1 : str := [84;73;45;49].
Definition w_TI_2 : str := [84;73;45;50].
Definition w_TI_3 : str := [84;73;45;51].
Definition w_TI_4 : str := [84;73;45;52].
Definition w_TI_5 : str := [84;73;45;53].
Definition w_TI_6 : str := [84;73;45;54].
Definition w_TI_7 : str := [84;73;45;55].
Definition w_TI2 : str := [84;73;50].
Definition w_TIARA : str := [84;73;65;82;65].
Definition w_TIBETAN : str := [84;73;66;69;84;65;78].
Definition w_TICK : str := [84;73;67;75].
Definition w_TICKET : str := [84;73;67;75;69;84].
Definition w_TICKETS : str := [84;73;67;75;69;84;83].
Definition w_TIE : str := [84;73;69].
Definition w_TIEP : str := [84;73;69;80].
Definition w_TIEX : str := [84;73;69;88].
Definition w_TIFINAGH : str := [84;73;70;73;78;65;71;72].
Definition w_TIGER : str := [84;73;71;69;82].
Definition w_TIGHT : str := [84;73;71;72;84].
Definition w_TIGHTLY_CLOSED : str := [84;73;71;72;84;76;89;45;67;76;79;83;69;68].
Definition w_TII : str := [84;73;73].
Definition w_TIKEUT : str := [84;73;75;69;85;84].
Definition w_TIKEUT_CHIEUCH : str := [84;73;75;69;85;84;45;67;72;73;69;85;67;72].
Definition w_TIKEUT_CIEUC : str := [84;73;75;69;85;84;45;67;73;69;85;67].
Definition w_TIKEUT_KIYEOK : str := [84;73;75;69;85;84;45;75;73;89;69;79;75].
Definition w_TIKEUT_MIEUM : str := [84;73;75;69;85;84;45;77;73;69;85;77].
Definition w_TIKEUT_PIEUP : str := [84;73;75;69;85;84;45;80;73;69;85;80].
Definition w_TIKEUT_RIEUL : str := [84;73;75;69;85;84;45;82;73;69;85;76].
Definition w_TIKEUT_SIOS : str := [84;73;75;69;85;84;45;83;73;79;83].
Definition w_TIKEUT_SIOS_KIYEOK : str := [84;73;75;69;85;84;45;83;73;79;83;45;75;73;89;69;79;75].
Definition w_TIKEUT_THIEUTH : str := [84;73;75;69;85;84;45;84;72;73;69;85;84;72].
Definition w_TIL : str := [84;73;76].
Definition w_TILDE : str := [84;73;76;68;69].
Definition w_TILE : str := [84;73;76;69].
Definition w_TILES : str := [84;73;76;69;83].
Definition w_TILT : str := [84;73;76;84].
Definition w_TILTING : str := [84;73;76;84;73;78;71].
Definition w_TIME : str := [84;73;77;69].
Definition w_TIMER : str := [84;73;77;69;82].
Definition w_TIMES : str := [84;73;77;69;83].
Definition w_TIN : str := [84;73;78].
Definition w_TINAGMA : str := [84;73;78;65;71;77;65].
Definition w_TINCTURE : str := [84;73;78;67;84;85;82;69].
Definition w_TING : str := [84;73;78;71].
Definition w_TINNE : str := [84;73;78;78;69].
Definition w_TINY : str := [84;73;78;89].
Definition w_TIP : str := [84;73;80].
Definition w_TIPEHA : str := [84;73;80;69;72;65].
Definition w_TIPPI : str := [84;73;80;80;73].
Definition w_TIR : str := [84;73;82].
Definition w_TIRED : str := [84;73;82;69;68].
Definition w_TIRHUTA : str := [84;73;82;72;85;84;65].
Definition w_TIRONIAN : str := [84;73;82;79;78;73;65;78].
Definition w_TIRTA : str := [84;73;82;84;65].
Definition w_TIRYAK : str := [84;73;82;89;65;75].
Definition w_TIT : str := [84;73;84].
Definition w_TITA : str := [84;73;84;65].
Definition w_TITLO : str := [84;73;84;76;79].
Definition w_TITUAEP : str := [84;73;84;85;65;69;80].
Definition w_TIWAZ : str := [84;73;87;65;90].
Definition w_TIWN : str := [84;73;87;78].
Definition w_TIWR : str := [84;73;87;82].
Definition w_TIX : str := [84;73;88].
Definition w_TJE : str := [84;74;69].
Definition w_TLA : str := [84;76;65].
Definition w_TLE : str := [84;76;69].
Definition w_TLEE : str := [84;76;69;69].
Definition w_TLHA : str := [84;76;72;65].
Definition w_TLHE : str := [84;76;72;69].
Definition w_TLHEE : str := [84;76;72;69;69].
Definition w_TLHI : str := [84;76;72;73].
Definition w_TLHO : str := [84;76;72;79].
Definition w_TLHOO : str := [84;76;72;79;79].
Definition w_TLHU : str := [84;76;72;85].
Definition w_TLHWE : str := [84;76;72;87;69].
Definition w_TLHYA : str := [84;76;72;89;65].
Definition w_TLI : str := [84;76;73].
Definition w_TLO : str := [84;76;79].
Definition w_TLU : str := [84;76;85].
Definition w_TLV : str := [84;76;86].
Definition w_TN : str := [84;78].
Definition w_TO : str := [84;79].
Definition w_TO_1 : str := [84;79;45;49].
Definition w_TO_2 : str := [84;79;45;50].
Definition w_TO_3 : str := [84;79;45;51].
Definition w_TO_4 : str := [84;79;45;52].
Definition w_TO_5 : str := [84;79;45;53].
Definition w_TO_6 : str := [84;79;45;54].
Definition w_TO_RA : str := [84;79;45;82;65].
Definition w_TOA : str := [84;79;65].
Definition w_TOANDAKHIAT : str := [84;79;65;78;68;65;75;72;73;65;84].
Definition w_TODO : str := [84;79;68;79].
Definition w_TOGETHER : str := [84;79;71;69;84;72;69;82].
Definition w_TOILET : str := [84;79;73;76;69;84].
Definition w_TOKYO : str := [84;79;75;89;79].
Definition w_TOLONG : str := [84;79;76;79;78;71].
Definition w_TOMATO : str := [84;79;77;65;84;79].
Definition w_TOMPI : str := [84;79;77;80;73].
Definition w_TON : str := [84;79;78].
Definition w_TONAL : str := [84;79;78;65;76].
Definition w_TONE : str := [84;79;78;69].
Definition w_TONE_1 : str := [84;79;78;69;45;49].
Definition w_TONE_2 : str := [84;79;78;69;45;50].
Definition w_TONE_3 : str := [84;79;78;69;45;51].
Definition w_TONE_4 : str := [84;79;78;69;45;52].
Definition w_TONE_5 : str := [84;79;78;69;45;53].
Definition w_TONE_6 : str := [84;79;78;69;45;54].
Definition w_TONE_7 : str := [84;79;78;69;45;55].
Definition w_TONE_8 : str := [84;79;78;69;45;56].
Definition w_TONG : str := [84;79;78;71].
Definition w_TONGUE : str := [84;79;78;71;85;69].
Definition w_TONOS : str := [84;79;78;79;83].
Definition w_TOO : str := [84;79;79].
Definition w_TOON : str := [84;79;79;78].
Definition w_TOOTH : str := [84;79;79;84;72].
Definition w_TOP : str := [84;79;80].
Definition w_TOP_LIGHTED : str := [84;79;80;45;76;73;71;72;84;69;68].
Definition w_TOPBAR : str := [84;79;80;66;65;82].
Definition w_TOQ : str := [84;79;81].
Definition w_TORCH : str := [84;79;82;67;72].
Definition w_TORCULUS : str := [84;79;82;67;85;76;85;83].
Definition w_TORNADO : str := [84;79;82;78;65;68;79].
Definition w_TORSO : str := [84;79;82;83;79].
Definition w_TORSO_FLOORPLANE : str := [84;79;82;83;79;45;70;76;79;79;82;80;76;65;78;69].
Definition w_TORSO_WALLPLANE : str := [84;79;82;83;79;45;87;65;76;76;80;76;65;78;69].
Definition w_TORTOISE : str := [84;79;82;84;79;73;83;69].
Definition w_TOS : str := [84;79;83].
Definition w_TOT : str := [84;79;84].
Definition w_TOTAL : str := [84;79;84;65;76].
Definition w_TOUCH : str := [84;79;85;67;72].
Definition w_TOUCHES : str := [84;79;85;67;72;69;83].
Definition w_TOUCHING : str := [84;79;85;67;72;73;78;71].
Definition w_TOUCHTONE : str := [84;79;85;67;72;84;79;78;69].
Definition w_TOURNOIS : str := [84;79;85;82;78;79;73;83].
Definition w_TOV : str := [84;79;86].
Definition w_TOWARDS : str := [84;79;87;65;82;68;83].
Definition w_TOWER : str := [84;79;87;69;82].
Definition w_TOX : str := [84;79;88].
Definition w_TR : str := [84;82].
Definition w_TRA : str := [84;82;65].
Definition w_TRACK : str := [84;82;65;67;75].
Definition w_TRACKBALL : str := [84;82;65;67;75;66;65;76;76].
Definition w_TRACTOR : str := [84;82;65;67;84;79;82].
Definition w_TRADE : str := [84;82;65;68;69].
Definition w_TRAFFIC : str := [84;82;65;70;70;73;67].
Definition w_TRAILING : str := [84;82;65;73;76;73;78;71].
Definition w_TRAIN : str := [84;82;65;73;78].
Definition w_TRAM : str := [84;82;65;77].
Definition w_TRAMWAY : str := [84;82;65;77;87;65;89].
Definition w_TRANSMISSION : str := [84;82;65;78;83;77;73;83;83;73;79;78].
Definition w_TRANSPOSITION : str := [84;82;65;78;83;80;79;83;73;84;73;79;78].
Definition w_TRANSVERSAL : str := [84;82;65;78;83;86;69;82;83;65;76].
Definition w_TRAPEZIUM : str := [84;82;65;80;69;90;73;85;77].
Definition w_TRAVEL_FLOORPLANE : str := [84;82;65;86;69;76;45;70;76;79;79;82;80;76;65;78;69].
Definition w_TRAVEL_WALLPLANE : str := [84;82;65;86;69;76;45;87;65;76;76;80;76;65;78;69].
Definition w_TRAY : str := [84;82;65;89].
Definition w_TREADING : str := [84;82;69;65;68;73;78;71].
Definition w_TREE : str := [84;82;69;69].
Definition w_TREMOLO_1 : str := [84;82;69;77;79;76;79;45;49].
Definition w_TREMOLO_2 : str := [84;82;69;77;79;76;79;45;50].
Definition w_TREMOLO_3 : str := [84;82;69;77;79;76;79;45;51].
Definition w_TREND : str := [84;82;69;78;68].
Definition w_TRESILLO : str := [84;82;69;83;73;76;76;79].
Definition w_TRI : str := [84;82;73].
Definition w_TRIA : str := [84;82;73;65].
Definition w_TRIANGLE : str := [84;82;73;65;78;71;76;69].
Definition w_TRIANGLE_HEADED : str := [84;82;73;65;78;71;76;69;45;72;69;65;68;69;68].
Definition w_TRIANGLE_ROUND : str := [84;82;73;65;78;71;76;69;45;82;79;85;78;68].
Definition w_TRIANGULAR : str := [84;82;73;65;78;71;85;76;65;82].
Definition w_TRICOLON : str := [84;82;73;67;79;76;79;78].
Definition w_TRIDENT : str := [84;82;73;68;69;78;84].
Definition w_TRIFOLIATE : str := [84;82;73;70;79;76;73;65;84;69].
Definition w_TRIFONIAS : str := [84;82;73;70;79;78;73;65;83].
Definition w_TRIGORGON : str := [84;82;73;71;79;82;71;79;78].
Definition w_TRIGRAM : str := [84;82;73;71;82;65;77].
Definition w_TRIGRAMMOS : str := [84;82;73;71;82;65;77;77;79;83].
Definition w_TRIISAP : str := [84;82;73;73;83;65;80].
Definition w_TRILLIONS : str := [84;82;73;76;76;73;79;78;83].
Definition w_TRION : str := [84;82;73;79;78].
Definition w_TRIPLE : str := [84;82;73;80;76;69].
Definition w_TRIPLI : str := [84;82;73;80;76;73].
Definition w_TRIPOD : str := [84;82;73;80;79;68].
Definition w_TRISEME : str := [84;82;73;83;69;77;69].
Definition w_TRISIMOU : str := [84;82;73;83;73;77;79;85].
Definition w_TRITIMORION : str := [84;82;73;84;73;77;79;82;73;79;78].
Definition w_TRITOS : str := [84;82;73;84;79;83].
Definition w_TRIUMPH : str := [84;82;73;85;77;80;72].
Definition w_TROEZENIAN : str := [84;82;79;69;90;69;78;73;65;78].
Definition w_TROKUTASTI : str := [84;82;79;75;85;84;65;83;84;73].
Definition w_TROLLEY : str := [84;82;79;76;76;69;89].
Definition w_TROLLEYBUS : str := [84;82;79;76;76;69;89;66;85;83].
Definition w_TROMIKOLYGISMA : str := [84;82;79;77;73;75;79;76;89;71;73;83;77;65].
Definition w_TROMIKON : str := [84;82;79;77;73;75;79;78].
Definition w_TROMIKOPARAKALESMA : str := [84;82;79;77;73;75;79;80;65;82;65;75;65;76;69;83;77;65].
Definition w_TROMIKOPSIFISTON : str := [84;82;79;77;73;75;79;80;83;73;70;73;83;84;79;78].
Definition w_TROMIKOSYNAGMA : str := [84;82;79;77;73;75;79;83;89;78;65;71;77;65].
Definition w_TROPHY : str := [84;82;79;80;72;89].
Definition w_TROPICAL : str := [84;82;79;80;73;67;65;76].
Definition w_TRUCK : str := [84;82;85;67;75].
Definition w_TRUE : str := [84;82;85;69].
Definition w_TRUMP_1 : str := [84;82;85;77;80;45;49].
Definition w_TRUMP_10 : str := [84;82;85;77;80;45;49;48].
Definition w_TRUMP_11 : str := [84;82;85;77;80;45;49;49].
Definition w_TRUMP_12 : str := [84;82;85;77;80;45;49;50].
Definition w_TRUMP_13 : str := [84;82;85;77;80;45;49;51].
Definition w_TRUMP_14 : str := [84;82;85;77;80;45;49;52].
Definition w_TRUMP_15 : str := [84;82;85;77;80;45;49;53].
Definition w_TRUMP_16 : str := [84;82;85;77;80;45;49;54].
Definition w_TRUMP_17 : str := [84;82;85;77;80;45;49;55].
Definition w_TRUMP_18 : str := [84;82;85;77;80;45;49;56].
Definition w_TRUMP_19 : str := [84;82;85;77;80;45;49;57].
Definition w_TRUMP_2 : str := [84;82;85;77;80;45;50].
Definition w_TRUMP_20 : str := [84;82;85;77;80;45;50;48].
Definition w_TRUMP_21 : str := [84;82;85;77;80;45;50;49].
Definition w_TRUMP_3 : str := [84;82;85;77;80;45;51].
Definition w_TRUMP_4 : str := [84;82;85;77;80;45;52].
Definition w_TRUMP_5 : str := [84;82;85;77;80;45;53].
Definition w_TRUMP_6 : str := [84;82;85;77;80;45;54].
Definition w_TRUMP_7 : str := [84;82;85;77;80;45;55].
Definition w_TRUMP_8 : str := [84;82;85;77;80;45;56].
Definition w_TRUMP_9 : str := [84;82;85;77;80;45;57].
Definition w_TRUMPET : str := [84;82;85;77;80;69;84].
Definition w_TRUNCATED : str := [84;82;85;78;67;65;84;69;68].
Definition w_TRUNK : str := [84;82;85;78;75].
Definition w_TRUTH : str := [84;82;85;84;72].
Definition w_TRYBLION : str := [84;82;89;66;76;73;79;78].
Definition w_TS : str := [84;83].
Definition w_TSA : str := [84;83;65].
Definition w_TSAA : str := [84;83;65;65].
Definition w_TSAADIY : str := [84;83;65;65;68;73;89].
Definition w_TSAB : str := [84;83;65;66].
Definition w_TSADI : str := [84;83;65;68;73].
Definition w_TSE : str := [84;83;69].
Definition w_TSEE : str := [84;83;69;69].
Definition w_TSEEB : str := [84;83;69;69;66].
Definition w_TSERE : str := [84;83;69;82;69].
Definition w_TSHA : str := [84;83;72;65].
Definition w_TSHAB : str := [84;83;72;65;66].
Definition w_TSHE : str := [84;83;72;69].
Definition w_TSHEEJ : str := [84;83;72;69;69;74].
Definition w_TSHEG : str := [84;83;72;69;71].
Definition w_TSHES : str := [84;83;72;69;83].
Definition w_TSHOOJ : str := [84;83;72;79;79;74].
Definition w_TSHOOK : str := [84;83;72;79;79;75].
Definition w_TSHUGS : str := [84;83;72;85;71;83].
Definition w_TSI : str := [84;83;73].
Definition w_TSIU : str := [84;83;73;85].
Definition w_TSO : str := [84;83;79].
Definition w_TSOV : str := [84;83;79;86].
Definition w_TSSA : str := [84;83;83;65].
Definition w_TSSE : str := [84;83;83;69].
Definition w_TSU : str := [84;83;85].
Definition w_TSV : str := [84;83;86].
Definition w_TSWA : str := [84;83;87;65].
Definition w_TSWB : str := [84;83;87;66].
Definition w_TSWE : str := [84;83;87;69].
Definition w_TT : str := [84;84].
Definition w_TT2 : str := [84;84;50].
Definition w_TTA : str := [84;84;65].
Definition w_TTAA : str := [84;84;65;65].
Definition w_TTAYANNA : str := [84;84;65;89;65;78;78;65].
Definition w_TTE : str := [84;84;69].
Definition w_TTEE : str := [84;84;69;69].
Definition w_TTEH : str := [84;84;69;72].
Definition w_TTEHEH : str := [84;84;69;72;69;72].
Definition w_TTH : str := [84;84;72].
Definition w_TTHA : str := [84;84;72;65].
Definition w_TTHAA : str := [84;84;72;65;65].
Definition w_TTHE : str := [84;84;72;69].
Definition w_TTHEE : str := [84;84;72;69;69].
Definition w_TTHI : str := [84;84;72;73].
Definition w_TTHO : str := [84;84;72;79].
Definition w_TTHOO : str := [84;84;72;79;79].
Definition w_TTHU : str := [84;84;72;85].
Definition w_TTHWE : str := [84;84;72;87;69].
Definition w_TTI : str := [84;84;73].
Definition w_TTO : str := [84;84;79].
Definition w_TTSA : str := [84;84;83;65].
Definition w_TTSE : str := [84;84;83;69].
Definition w_TTSEE : str := [84;84;83;69;69].
Definition w_TTSI : str := [84;84;83;73].
Definition w_TTSO : str := [84;84;83;79].
Definition w_TTSU : str := [84;84;83;85].
Definition w_TTTA : str := [84;84;84;65].
Definition w_TTTHA : str := [84;84;84;72;65].
Definition w_TTU : str := [84;84;85].
Definition w_TTUDDAAG : str := [84;84;85;68;68;65;65;71].
Definition w_TTUDDAG : str := [84;84;85;68;68;65;71].
Definition w_TU : str := [84;85].
Definition w_TU_1 : str := [84;85;45;49].
Definition w_TU_2 : str := [84;85;45;50].
Definition w_TU_3 : str := [84;85;45;51].
Definition w_TU_4 : str := [84;85;45;52].
Definition w_TU_TO : str := [84;85;45;84;79].
Definition w_TUAE : str := [84;85;65;69].
Definition w_TUAEP : str := [84;85;65;69;80].
Definition w_TUAREG : str := [84;85;65;82;69;71].
Definition w_TUB : str := [84;85;66].
Definition w_TUG2 : str := [84;85;71;50].
Definition w_TUGRIK : str := [84;85;71;82;73;75].
Definition w_TUK : str := [84;85;75].
Definition w_TUKWENTIS : str := [84;85;75;87;69;78;84;73;83].
Definition w_TULIP : str := [84;85;76;73;80].
Definition w_TUM : str := [84;85;77].
Definition w_TUMAE : str := [84;85;77;65;69].
Definition w_TUMBLER : str := [84;85;77;66;76;69;82].
Definition w_TUMETES : str := [84;85;77;69;84;69;83].
Definition w_TUNNY : str := [84;85;78;78;89].
Definition w_TUO : str := [84;85;79].
Definition w_TUOP : str := [84;85;79;80].
Definition w_TUOT : str := [84;85;79;84].
Definition w_TUOX : str := [84;85;79;88].
Definition w_TUP : str := [84;85;80].
Definition w_TUR : str := [84;85;82].
Definition w_TURBAN : str := [84;85;82;66;65;78].
Definition w_TURKEY : str := [84;85;82;75;69;89].
Definition w_TURKIC : str := [84;85;82;75;73;67].
Definition w_TURKISH : str := [84;85;82;75;73;83;72].
Definition w_TURN : str := [84;85;82;78].
Definition w_TURNED : str := [84;85;82;78;69;68].
Definition w_TURNSTILE : str := [84;85;82;78;83;84;73;76;69].
Definition w_TURO2 : str := [84;85;82;79;50].
Definition w_TURTLE : str := [84;85;82;84;76;69].
Definition w_TURU : str := [84;85;82;85].
Definition w_TURX : str := [84;85;82;88].
Definition w_TUT : str := [84;85;84].
Definition w_TUTEYASAT : str := [84;85;84;69;89;65;83;65;84].
Definition w_TUTTY : str := [84;85;84;84;89].
Definition w_TUUMU : str := [84;85;85;77;85].
Definition w_TUX : str := [84;85;88].
Definition w_TUXEDO : str := [84;85;88;69;68;79].
Definition w_TVIMADUR : str := [84;86;73;77;65;68;85;82].
Definition w_TVRIDO : str := [84;86;82;73;68;79].
Definition w_TWA : str := [84;87;65].
Definition w_TWAA : str := [84;87;65;65].
Definition w_TWE : str := [84;87;69].
Definition w_TWELFTH : str := [84;87;69;76;70;84;72].
Definition w_TWELFTHS : str := [84;87;69;76;70;84;72;83].
Definition w_TWELVE : str := [84;87;69;76;86;69].
Definition w_TWELVE_THIRTY : str := [84;87;69;76;86;69;45;84;72;73;82;84;89].
Definition w_TWENTIETH : str := [84;87;69;78;84;73;69;84;72].
Definition w_TWENTIETHS : str := [84;87;69;78;84;73;69;84;72;83].
Definition w_TWENTY : str := [84;87;69;78;84;89].
Definition w_TWENTY_EIGHT : str := [84;87;69;78;84;89;45;69;73;71;72;84].
Definition w_TWENTY_EIGHTH : str := [84;87;69;78;84;89;45;69;73;71;72;84;72].
Definition w_TWENTY_FIVE : str := [84;87;69;78;84;89;45;70;73;86;69].
Definition w_TWENTY_FOUR : str := [84;87;69;78;84;89;45;70;79;85;82].
Definition w_TWENTY_NINE : str := [84;87;69;78;84;89;45;78;73;78;69].
Definition w_TWENTY_ONE : str := [84;87;69;78;84;89;45;79;78;69].
Definition w_TWENTY_SEVEN : str := [84;87;69;78;84;89;45;83;69;86;69;78].
Definition w_TWENTY_SIX : str := [84;87;69;78;84;89;45;83;73;88].
Definition w_TWENTY_THREE : str := [84;87;69;78;84;89;45;84;72;82;69;69].
Definition w_TWENTY_TWO : str := [84;87;69;78;84;89;45;84;87;79].
Definition w_TWI : str := [84;87;73].
Definition w_TWII : str := [84;87;73;73].
Definition w_TWISTED : str := [84;87;73;83;84;69;68].
Definition w_TWISTING : str := [84;87;73;83;84;73;78;71].
Definition w_TWO : str := [84;87;79].
Definition w_TWO_CIRCLE : str := [84;87;79;45;67;73;82;67;76;69].
Definition w_TWO_EM : str := [84;87;79;45;69;77].
Definition w_TWO_HEADED : str := [84;87;79;45;72;69;65;68;69;68].
Definition w_TWO_LINE : str := [84;87;79;45;76;73;78;69].
Definition w_TWO_THIRTY : str := [84;87;79;45;84;72;73;82;84;89].
Definition w_TWO_WAY : str := [84;87;79;45;87;65;89].
Definition w_TWOO : str := [84;87;79;79].
Definition w_TXHEEJ : str := [84;88;72;69;69;74].
Definition w_TXWV : str := [84;88;87;86].
Definition w_TYA : str := [84;89;65].
Definition w_TYAY : str := [84;89;65;89].
Definition w_TYE : str := [84;89;69].
Definition w_TYI : str := [84;89;73].
Definition w_TYO : str := [84;89;79].
Definition w_TYPE : str := [84;89;80;69].
Definition w_TYPE_1 : str := [84;89;80;69;45;49].
Definition w_TYPE_1_2 : str := [84;89;80;69;45;49;45;50].
Definition w_TYPE_2 : str := [84;89;80;69;45;50].
Definition w_TYPE_3 : str := [84;89;80;69;45;51].
Definition w_TYPE_4 : str := [84;89;80;69;45;52].
Definition w_TYPE_5 : str := [84;89;80;69;45;53].
Definition w_TYPE_6 : str := [84;89;80;69;45;54].
Definition w_TYPE_7 : str := [84;89;80;69;45;55].
Definition w_TYR : str := [84;89;82].
Definition w_TZ : str := [84;90].
Definition w_TZA : str := [84;90;65].
Definition w_TZAA : str := [84;90;65;65].
Definition w_TZE : str := [84;90;69].
Definition w_TZEE : str := [84;90;69;69].
Definition w_TZI : str := [84;90;73].
Definition w_TZIR : str := [84;90;73;82].
Definition w_TZO : str := [84;90;79].
Definition w_TZOA : str := [84;90;79;65].
Definition w_TZU : str := [84;90;85].
Definition w_U : str := [85].
Definition w_U_1 : str := [85;45;49].
Definition w_U_2 : str := [85;45;50].
Definition w_U_3 : str := [85;45;51].
Definition w_U_4 : str := [85;45;52].
Definition w_U_5 : str := [85;45;53].
Definition w_U_A : str := [85;45;65].
Definition w_U_AE : str := [85;45;65;69].
Definition w_U_EO_EU : str := [85;45;69;79;45;69;85].
Definition w_U_I_I : str := [85;45;73;45;73].
Definition w_U_SHAPED : str := [85;45;83;72;65;80;69;68].
Definition w_U_U : str := [85;45;85].
Definition w_U_YE : str := [85;45;89;69].
Definition w_U_YEO : str := [85;45;89;69;79].
Definition w_U001 : str := [85;48;48;49].
Definition w_U002 : str := [85;48;48;50].
Definition w_U003 : str := [85;48;48;51].
Definition w_U004 : str := [85;48;48;52].
Definition w_U005 : str := [85;48;48;53].
Definition w_U006 : str := [85;48;48;54].
Definition w_U006A : str := [85;48;48;54;65].
Definition w_U006B : str := [85;48;48;54;66].
Definition w_U007 : str := [85;48;48;55].
Definition w_U008 : str := [85;48;48;56].
Definition w_U009 : str := [85;48;48;57].
Definition w_U010 : str := [85;48;49;48].
Definition w_U011 : str := [85;48;49;49].
Definition w_U012 : str := [85;48;49;50].
Definition w_U013 : str := [85;48;49;51].
Definition w_U014 : str := [85;48;49;52].
Definition w_U015 : str := [85;48;49;53].
Definition w_U016 : str := [85;48;49;54].
Definition w_U017 : str := [85;48;49;55].
Definition w_U018 : str := [85;48;49;56].
Definition w_U019 : str := [85;48;49;57].
Definition w_U020 : str := [85;48;50;48].
Definition w_U021 : str := [85;48;50;49].
Definition w_U022 : str := [85;48;50;50].
Definition w_U023 : str := [85;48;50;51].
Definition w_U023A : str := [85;48;50;51;65].
Definition w_U024 : str := [85;48;50;52].
Definition w_U025 : str := [85;48;50;53].
Definition w_U026 : str := [85;48;50;54].
Definition w_U027 : str := [85;48;50;55].
Definition w_U028 : str := [85;48;50;56].
Definition w_U029 : str := [85;48;50;57].
Definition w_U029A : str := [85;48;50;57;65].
Definition w_U030 : str := [85;48;51;48].
Definition w_U031 : str := [85;48;51;49].
Definition w_U032 : str := [85;48;51;50].
Definition w_U032A : str := [85;48;51;50;65].
Definition w_U033 : str := [85;48;51;51].
Definition w_U034 : str := [85;48;51;52].
Definition w_U035 : str := [85;48;51;53].
Definition w_U036 : str := [85;48;51;54].
Definition w_U037 : str := [85;48;51;55].
Definition w_U038 : str := [85;48;51;56].
Definition w_U039 : str := [85;48;51;57].
Definition w_U040 : str := [85;48;52;48].
Definition w_U041 : str := [85;48;52;49].
Definition w_U042 : str := [85;48;52;50].
Definition w_U2 : str := [85;50].
Definition w_UA : str := [85;65].
Definition w_UAN : str := [85;65;78].
Definition w_UANG : str := [85;65;78;71].
Definition w_UATH : str := [85;65;84;72].
Definition w_UB : str := [85;66].
Definition w_UBADAMA : str := [85;66;65;68;65;77;65].
Definition w_UBHAYATO : str := [85;66;72;65;89;65;84;79].
Definition w_UBUFILI : str := [85;66;85;70;73;76;73].
Definition w_UC : str := [85;67].
Definition w_UD : str := [85;68].
Definition w_UDAAT : str := [85;68;65;65;84].
Definition w_UDATTA : str := [85;68;65;84;84;65].
Definition w_UDUG : str := [85;68;85;71].
Definition w_UE : str := [85;69].
Definition w_UEA : str := [85;69;65].
Definition w_UEE : str := [85;69;69].
Definition w_UEI : str := [85;69;73].
Definition w_UEY : str := [85;69;89].
Definition w_UGARITIC : str := [85;71;65;82;73;84;73;67].
Definition w_UH : str := [85;72].
Definition w_UHD : str := [85;72;68].
Definition w_UI : str := [85;73].
Definition w_UIGHUR : str := [85;73;71;72;85;82].
Definition w_UILLEANN : str := [85;73;76;76;69;65;78;78].
Definition w_UK : str := [85;75].
Definition w_UKARA : str := [85;75;65;82;65].
Definition w_UKRAINIAN : str := [85;75;82;65;73;78;73;65;78].
Definition w_UKU : str := [85;75;85].
Definition w_ULU : str := [85;76;85].
Definition w_UM : str := [85;77].
Definition w_UMBIN : str := [85;77;66;73;78].
Definition w_UMBRELLA : str := [85;77;66;82;69;76;76;65].
Definition w_UMUM : str := [85;77;85;77].
Definition w_UN : str := [85;78].
Definition w_UNA : str := [85;78;65].
Definition w_UNAMUSED : str := [85;78;65;77;85;83;69;68].
Definition w_UNAP : str := [85;78;65;80].
Definition w_UNASPIRATED : str := [85;78;65;83;80;73;82;65;84;69;68].
Definition w_UNBLENDED : str := [85;78;66;76;69;78;68;69;68].
Definition w_UNCERTAINTY : str := [85;78;67;69;82;84;65;73;78;84;89].
Definition w_UNCIA : str := [85;78;67;73;65].
Definition w_UNDER : str := [85;78;68;69;82].
Definition w_UNDERBAR : str := [85;78;68;69;82;66;65;82].
Definition w_UNDERDOT : str := [85;78;68;69;82;68;79;84].
Definition w_UNDERLINE : str := [85;78;68;69;82;76;73;78;69].
Definition w_UNDERTIE : str := [85;78;68;69;82;84;73;69].
Definition w_UNDO : str := [85;78;68;79].
Definition w_UNG : str := [85;78;71].
Definition w_UNICORN : str := [85;78;73;67;79;82;78].
Definition w_UNIFIED : str := [85;78;73;70;73;69;68].
Definition w_UNIFORM : str := [85;78;73;70;79;82;77].
Definition w_UNION : str := [85;78;73;79;78].
Definition w_UNIT : str := [85;78;73;84].
Definition w_UNITY : str := [85;78;73;84;89].
Definition w_UNIVERSAL : str := [85;78;73;86;69;82;83;65;76].
Definition w_UNK : str := [85;78;75].
Definition w_UNKNOWN : str := [85;78;75;78;79;87;78].
Definition w_UNMARRIED : str := [85;78;77;65;82;82;73;69;68].
Definition w_UNN : str := [85;78;78].
Definition w_UO : str := [85;79].
Definition w_UON : str := [85;79;78].
Definition w_UOP : str := [85;79;80].
Definition w_UOX : str := [85;79;88].
Definition w_UP : str := [85;80].
Definition w_UP_POINTING : str := [85;80;45;80;79;73;78;84;73;78;71].
Definition w_UPADHMANIYA : str := [85;80;65;68;72;77;65;78;73;89;65].
Definition w_UPPER : str := [85;80;80;69;82].
Definition w_UPRIGHT : str := [85;80;82;73;71;72;84].
Definition w_UPSIDE_DOWN : str := [85;80;83;73;68;69;45;68;79;87;78].
Definition w_UPSILON : str := [85;80;83;73;76;79;78].
Definition w_UPTURN : str := [85;80;84;85;82;78].
Definition w_UPWARD : str := [85;80;87;65;82;68].
Definition w_UPWARDS : str := [85;80;87;65;82;68;83].
Definition w_UR : str := [85;82].
Definition w_UR2 : str := [85;82;50].
Definition w_UR4 : str := [85;82;52].
Definition w_URA : str := [85;82;65].
Definition w_URANUS : str := [85;82;65;78;85;83].
Definition w_URI : str := [85;82;73].
Definition w_URI3 : str := [85;82;73;51].
Definition w_URINE : str := [85;82;73;78;69].
Definition w_URN : str := [85;82;78].
Definition w_URU : str := [85;82;85].
Definition w_URUDA : str := [85;82;85;68;65].
Definition w_URUS : str := [85;82;85;83].
Definition w_URUZ : str := [85;82;85;90].
Definition w_US : str := [85;83].
Definition w_USE : str := [85;83;69].
Definition w_USED : str := [85;83;69;68].
Definition w_USH : str := [85;83;72].
Definition w_USH2 : str := [85;83;72;50].
Definition w_USHENNA : str := [85;83;72;69;78;78;65].
Definition w_USHUMX : str := [85;83;72;85;77;88].
Definition w_USHX : str := [85;83;72;88].
Definition w_USSU : str := [85;83;83;85].
Definition w_USSU3 : str := [85;83;83;85;51].
Definition w_UTUKI : str := [85;84;85;75;73].
Definition w_UU : str := [85;85].
Definition w_UUE : str := [85;85;69].
Definition w_UUU : str := [85;85;85].
Definition w_UUU2 : str := [85;85;85;50].
Definition w_UUU3 : str := [85;85;85;51].
Definition w_UUUU : str := [85;85;85;85].
Definition w_UUYANNA : str := [85;85;89;65;78;78;65].
Definition w_UWU : str := [85;87;85].
Definition w_UY : str := [85;89].
Definition w_UYANNA : str := [85;89;65;78;78;65].
Definition w_UZ3 : str := [85;90;51].
Definition w_UZU : str := [85;90;85].
Definition w_V : str := [86].
Definition w_V001 : str := [86;48;48;49].
Definition w_V001A : str := [86;48;48;49;65].
Definition w_V001B : str := [86;48;48;49;66].
Definition w_V001C : str := [86;48;48;49;67].
Definition w_V001D : str := [86;48;48;49;68].
Definition w_V001E : str := [86;48;48;49;69].
Definition w_V001F : str := [86;48;48;49;70].
Definition w_V001G : str := [86;48;48;49;71].
Definition w_V001H : str := [86;48;48;49;72].
Definition w_V001I : str := [86;48;48;49;73].
Definition w_V002 : str := [86;48;48;50].
Definition w_V002A : str := [86;48;48;50;65].
Definition w_V003 : str := [86;48;48;51].
Definition w_V004 : str := [86;48;48;52].
Definition w_V005 : str := [86;48;48;53].
Definition w_V006 : str := [86;48;48;54].
Definition w_V007 : str := [86;48;48;55].
Definition w_V007A : str := [86;48;48;55;65].
Definition w_V007B : str := [86;48;48;55;66].
Definition w_V008 : str := [86;48;48;56].
Definition w_V009 : str := [86;48;48;57].
Definition w_V010 : str := [86;48;49;48].
Definition w_V011 : str := [86;48;49;49].
Definition w_V011A : str := [86;48;49;49;65].
Definition w_V011B : str := [86;48;49;49;66].
Definition w_V011C : str := [86;48;49;49;67].
Definition w_V012 : str := [86;48;49;50].
Definition w_V012A : str := [86;48;49;50;65].
Definition w_V012B : str := [86;48;49;50;66].
Definition w_V013 : str := [86;48;49;51].
Definition w_V014 : str := [86;48;49;52].
Definition w_V015 : str := [86;48;49;53].
Definition w_V016 : str := [86;48;49;54].
Definition w_V017 : str := [86;48;49;55].
Definition w_V018 : str := [86;48;49;56].
Definition w_V019 : str := [86;48;49;57].
Definition w_V020 : str := [86;48;50;48].
Definition w_V020A : str := [86;48;50;48;65].
Definition w_V020B : str := [86;48;50;48;66].
Definition w_V020C : str := [86;48;50;48;67].
Definition w_V020D : str := [86;48;50;48;68].
Definition w_V020E : str := [86;48;50;48;69].
Definition w_V020F : str := [86;48;50;48;70].
Definition w_V020G : str := [86;48;50;48;71].
Definition w_V020H : str := [86;48;50;48;72].
Definition w_V020I : str := [86;48;50;48;73].
Definition w_V020J : str := [86;48;50;48;74].
Definition w_V020K : str := [86;48;50;48;75].
Definition w_V020L : str := [86;48;50;48;76].
Definition w_V021 : str := [86;48;50;49].
Definition w_V022 : str := [86;48;50;50].
Definition w_V023 : str := [86;48;50;51].
Definition w_V023A : str := [86;48;50;51;65].
Definition w_V024 : str := [86;48;50;52].
Definition w_V025 : str := [86;48;50;53].
Definition w_V026 : str := [86;48;50;54].
Definition w_V027 : str := [86;48;50;55].
Definition w_V028 : str := [86;48;50;56].
Definition w_V028A : str := [86;48;50;56;65].
Definition w_V029 : str := [86;48;50;57].
Definition w_V029A : str := [86;48;50;57;65].
Definition w_V030 : str := [86;48;51;48].
Definition w_V030A : str := [86;48;51;48;65].
Definition w_V031 : str := [86;48;51;49].
Definition w_V031A : str := [86;48;51;49;65].
Definition w_V032 : str := [86;48;51;50].
Definition w_V033 : str := [86;48;51;51].
Definition w_V033A : str := [86;48;51;51;65].
Definition w_V034 : str := [86;48;51;52].
Definition w_V035 : str := [86;48;51;53].
Definition w_V036 : str := [86;48;51;54].
Definition w_V037 : str := [86;48;51;55].
Definition w_V037A : str := [86;48;51;55;65].
Definition w_V038 : str := [86;48;51;56].
Definition w_V039 : str := [86;48;51;57].
Definition w_V040 : str := [86;48;52;48].
Definition w_V040A : str := [86;48;52;48;65].
Definition w_VA : str := [86;65].
Definition w_VAA : str := [86;65;65].
Definition w_VAAVU : str := [86;65;65;86;85].
Definition w_VAH : str := [86;65;72].
Definition w_VAI : str := [86;65;73].
Definition w_VAJ : str := [86;65;74].
Definition w_VALLEY : str := [86;65;76;76;69;89].
Definition w_VAMAGOMUKHA : str := [86;65;77;65;71;79;77;85;75;72;65].
Definition w_VAMPIRE : str := [86;65;77;80;73;82;69].
Definition w_VANE : str := [86;65;78;69].
Definition w_VAP : str := [86;65;80].
Definition w_VAPOURS : str := [86;65;80;79;85;82;83].
Definition w_VAREIA : str := [86;65;82;69;73;65].
Definition w_VAREIAI : str := [86;65;82;69;73;65;73].
Definition w_VARIA : str := [86;65;82;73;65].
Definition w_VARIANT : str := [86;65;82;73;65;78;84].
Definition w_VARIATION : str := [86;65;82;73;65;84;73;79;78].
Definition w_VARIKA : str := [86;65;82;73;75;65].
Definition w_VARYS : str := [86;65;82;89;83].
Definition w_VASIS : str := [86;65;83;73;83].
Definition w_VASTNESS : str := [86;65;83;84;78;69;83;83].
Definition w_VAT : str := [86;65;84].
Definition w_VATHY : str := [86;65;84;72;89].
Definition w_VAU : str := [86;65;85].
Definition w_VAV : str := [86;65;86].
Definition w_VAX : str := [86;65;88].
Definition w_VAYANNA : str := [86;65;89;65;78;78;65].
Definition w_VE : str := [86;69].
Definition w_VECTOR : str := [86;69;67;84;79;82].
Definition w_VEDE : str := [86;69;68;69].
Definition w_VEDIC : str := [86;69;68;73;67].
Definition w_VEE : str := [86;69;69].
Definition w_VEH : str := [86;69;72].
Definition w_VEHICLE : str := [86;69;72;73;67;76;69].
Definition w_VEIL : str := [86;69;73;76].
Definition w_VEND : str := [86;69;78;68].
Definition w_VEP : str := [86;69;80].
Definition w_VER : str := [86;69;82].
Definition w_VERDIGRIS : str := [86;69;82;68;73;71;82;73;83].
Definition w_VERGE : str := [86;69;82;71;69].
Definition w_VERSE : str := [86;69;82;83;69].
Definition w_VERSICLE : str := [86;69;82;83;73;67;76;69].
Definition w_VERTICAL : str := [86;69;82;84;73;67;65;76].
Definition w_VERTICAL_00_00 : str := [86;69;82;84;73;67;65;76;45;48;48;45;48;48].
Definition w_VERTICAL_00_01 : str := [86;69;82;84;73;67;65;76;45;48;48;45;48;49].
Definition w_VERTICAL_00_02 : str := [86;69;82;84;73;67;65;76;45;48;48;45;48;50].
Definition w_VERTICAL_00_03 : str := [86;69;82;84;73;67;65;76;45;48;48;45;48;51].
Definition w_VERTICAL_00_04 : str := [86;69;82;84;73;67;65;76;45;48;48;45;48;52].
Definition w_VERTICAL_00_05 : str := [86;69;82;84;73;67;65;76;45;48;48;45;48;53].
Definition w_VERTICAL_00_06 : str := [86;69;82;84;73;67;65;76;45;48;48;45;48;54].
Definition w_VERTICAL_01_00 : str := [86;69;82;84;73;67;65;76;45;48;49;45;48;48].
Definition w_VERTICAL_01_01 : str := [86;69;82;84;73;67;65;76;45;48;49;45;48;49].
Definition w_VERTICAL_01_02 : str := [86;69;82;84;73;67;65;76;45;48;49;45;48;50].
Definition w_VERTICAL_01_03 : str := [86;69;82;84;73;67;65;76;45;48;49;45;48;51].
Definition w_VERTICAL_01_04 : str := [86;69;82;84;73;67;65;76;45;48;49;45;48;52].
Definition w_VERTICAL_01_05 : str := [86;69;82;84;73;67;65;76;45;48;49;45;48;53].
Definition w_VERTICAL_01_06 : str := [86;69;82;84;73;67;65;76;45;48;49;45;48;54].
Definition w_VERTICAL_02_00 : str := [86;69;82;84;73;67;65;76;45;48;50;45;48;48].
Definition w_VERTICAL_02_01 : str := [86;69;82;84;73;67;65;76;45;48;50;45;48;49].
Definition w_VERTICAL_02_02 : str := [86;69;82;84;73;67;65;76;45;48;50;45;48;50].
Definition w_VERTICAL_02_03 : str := [86;69;82;84;73;67;65;76;45;48;50;45;48;51].
Definition w_VERTICAL_02_04 : str := [86;69;82;84;73;67;65;76;45;48;50;45;48;52].
Definition w_VERTICAL_02_05 : str := [86;69;82;84;73;67;65;76;45;48;50;45;48;53].
Definition w_VERTICAL_02_06 : str := [86;69;82;84;73;67;65;76;45;48;50;45;48;54].
Definition w_VERTICAL_03_00 : str := [86;69;82;84;73;67;65;76;45;48;51;45;48;48].
Definition w_VERTICAL_03_01 : str := [86;69;82;84;73;67;65;76;45;48;51;45;48;49].
Definition w_VERTICAL_03_02 : str := [86;69;82;84;73;67;65;76;45;48;51;45;48;50].
Definition w_VERTICAL_03_03 : str := [86;69;82;84;73;67;65;76;45;48;51;45;48;51].
Definition w_VERTICAL_03_04 : str := [86;69;82;84;73;67;65;76;45;48;51;45;48;52].
Definition w_VERTICAL_03_05 : str := [86;69;82;84;73;67;65;76;45;48;51;45;48;53].
Definition w_VERTICAL_03_06 : str := [86;69;82;84;73;67;65;76;45;48;51;45;48;54].
Definition w_VERTICAL_04_00 : str := [86;69;82;84;73;67;65;76;45;48;52;45;48;48].
Definition w_VERTICAL_04_01 : str := [86;69;82;84;73;67;65;76;45;48;52;45;48;49].
Definition w_VERTICAL_04_02 : str := [86;69;82;84;73;67;65;76;45;48;52;45;48;50].
Definition w_VERTICAL_04_03 : str := [86;69;82;84;73;67;65;76;45;48;52;45;48;51].
Definition w_VERTICAL_04_04 : str := [86;69;82;84;73;67;65;76;45;48;52;45;48;52].
Definition w_VERTICAL_04_05 : str := [86;69;82;84;73;67;65;76;45;48;52;45;48;53].
Definition w_VERTICAL_04_06 : str := [86;69;82;84;73;67;65;76;45;48;52;45;48;54].
Definition w_VERTICAL_05_00 : str := [86;69;82;84;73;67;65;76;45;48;53;45;48;48].
Definition w_VERTICAL_05_01 : str := [86;69;82;84;73;67;65;76;45;48;53;45;48;49].
Definition w_VERTICAL_05_02 : str := [86;69;82;84;73;67;65;76;45;48;53;45;48;50].
Definition w_VERTICAL_05_03 : str := [86;69;82;84;73;67;65;76;45;48;53;45;48;51].
Definition w_VERTICAL_05_04 : str := [86;69;82;84;73;67;65;76;45;48;53;45;48;52].
Definition w_VERTICAL_05_05 : str := [86;69;82;84;73;67;65;76;45;48;53;45;48;53].
Definition w_VERTICAL_05_06 : str := [86;69;82;84;73;67;65;76;45;48;53;45;48;54].
Definition w_VERTICAL_06_00 : str := [86;69;82;84;73;67;65;76;45;48;54;45;48;48].
Definition w_VERTICAL_06_01 : str := [86;69;82;84;73;67;65;76;45;48;54;45;48;49].
Definition w_VERTICAL_06_02 : str := [86;69;82;84;73;67;65;76;45;48;54;45;48;50].
Definition w_VERTICAL_06_03 : str := [86;69;82;84;73;67;65;76;45;48;54;45;48;51].
Definition w_VERTICAL_06_04 : str := [86;69;82;84;73;67;65;76;45;48;54;45;48;52].
Definition w_VERTICAL_06_05 : str := [86;69;82;84;73;67;65;76;45;48;54;45;48;53].
Definition w_VERTICAL_06_06 : str := [86;69;82;84;73;67;65;76;45;48;54;45;48;54].
Definition w_VERTICALLY : str := [86;69;82;84;73;67;65;76;76;89].
Definition w_VERY : str := [86;69;82;89].
Definition w_VESSEL : str := [86;69;83;83;69;76].
Definition w_VESTA : str := [86;69;83;84;65].
Definition w_VEUAE : str := [86;69;85;65;69].
Definition w_VEUAEPEN : str := [86;69;85;65;69;80;69;78].
Definition w_VEUM : str := [86;69;85;77].
Definition w_VEUX : str := [86;69;85;88].
Definition w_VEW : str := [86;69;87].
Definition w_VEX : str := [86;69;88].
Definition w_VEYZ : str := [86;69;89;90].
Definition w_VFA : str := [86;70;65].
Definition w_VI : str := [86;73].
Definition w_VIBRATION : str := [86;73;66;82;65;84;73;79;78].
Definition w_VICTORY : str := [86;73;67;84;79;82;89].
Definition w_VIDA : str := [86;73;68;65].
Definition w_VIDEO : str := [86;73;68;69;79].
Definition w_VIDEOCASSETTE : str := [86;73;68;69;79;67;65;83;83;69;84;84;69].
Definition w_VIDJ : str := [86;73;68;74].
Definition w_VIDJ_2 : str := [86;73;68;74;45;50].
Definition w_VIE : str := [86;73;69].
Definition w_VIEP : str := [86;73;69;80].
Definition w_VIET : str := [86;73;69;84].
Definition w_VIEWDATA : str := [86;73;69;87;68;65;84;65].
Definition w_VIEWING : str := [86;73;69;87;73;78;71].
Definition w_VIEX : str := [86;73;69;88].
Definition w_VILLAGE : str := [86;73;76;76;65;71;69].
Definition w_VIN : str := [86;73;78].
Definition w_VINE : str := [86;73;78;69].
Definition w_VINEGAR : str := [86;73;78;69;71;65;82].
Definition w_VINEGAR_2 : str := [86;73;78;69;71;65;82;45;50].
Definition w_VINEGAR_3 : str := [86;73;78;69;71;65;82;45;51].
Definition w_VIOLIN : str := [86;73;79;76;73;78].
Definition w_VIP : str := [86;73;80].
Definition w_VIRAMA : str := [86;73;82;65;77;65].
Definition w_VIRGA : str := [86;73;82;71;65].
Definition w_VIRGO : str := [86;73;82;71;79].
Definition w_VIRIAM : str := [86;73;82;73;65;77].
Definition w_VISARGA : str := [86;73;83;65;82;71;65].
Definition w_VISARGAYA : str := [86;73;83;65;82;71;65;89;65].
Definition w_VISIGOTHIC : str := [86;73;83;73;71;79;84;72;73;67].
Definition w_VIT : str := [86;73;84].
Definition w_VITAE : str := [86;73;84;65;69].
Definition w_VITAE_2 : str := [86;73;84;65;69;45;50].
Definition w_VITRIOL : str := [86;73;84;82;73;79;76].
Definition w_VITRIOL_2 : str := [86;73;84;82;73;79;76;45;50].
Definition w_VIX : str := [86;73;88].
Definition w_VIYO : str := [86;73;89;79].
Definition w_VO : str := [86;79].
Definition w_VOCAL : str := [86;79;67;65;76].
Definition w_VOCALIC : str := [86;79;67;65;76;73;67].
Definition w_VOCALIZATION : str := [86;79;67;65;76;73;90;65;84;73;79;78].
Definition w_VOD : str := [86;79;68].
Definition w_VOICED : str := [86;79;73;67;69;68].
Definition w_VOICELESS : str := [86;79;73;67;69;76;69;83;83].
Definition w_VOICING : str := [86;79;73;67;73;78;71].
Definition w_VOID : str := [86;79;73;68].
Definition w_VOLAPUK : str := [86;79;76;65;80;85;75].
Definition w_VOLCANO : str := [86;79;76;67;65;78;79].
Definition w_VOLLEYBALL : str := [86;79;76;76;69;89;66;65;76;76].
Definition w_VOLTAGE : str := [86;79;76;84;65;71;69].
Definition w_VOLUME : str := [86;79;76;85;77;69].
Definition w_VOM : str := [86;79;77].
Definition w_VOMITING : str := [86;79;77;73;84;73;78;71].
Definition w_VOO : str := [86;79;79].
Definition w_VOOI : str := [86;79;79;73].
Definition w_VOP : str := [86;79;80].
Definition w_VOS : str := [86;79;83].
Definition w_VOT : str := [86;79;84].
Definition w_VOU : str := [86;79;85].
Definition w_VOW : str := [86;79;87].
Definition w_VOWEL : str := [86;79;87;69;76].
Definition w_VOWEL_CARRIER : str := [86;79;87;69;76;45;67;65;82;82;73;69;82].
Definition w_VOX : str := [86;79;88].
Definition w_VRACHY : str := [86;82;65;67;72;89].
Definition w_VS : str := [86;83].
Definition w_VU : str := [86;85].
Definition w_VUEQ : str := [86;85;69;81].
Definition w_VULGAR : str := [86;85;76;71;65;82].
Definition w_VUP : str := [86;85;80].
Definition w_VUR : str := [86;85;82].
Definition w_VURX : str := [86;85;82;88].
Definition w_VUT : str := [86;85;84].
Definition w_VUX : str := [86;85;88].
Definition w_VWA : str := [86;87;65].
Definition w_VWJ : str := [86;87;74].
Definition w_VY : str := [86;89].
Definition w_VYP : str := [86;89;80].
Definition w_VYR : str := [86;89;82].
Definition w_VYRX : str := [86;89;82;88].
Definition w_VYT : str := [86;89;84].
Definition w_VYX : str := [86;89;88].
Definition w_VZMET : str := [86;90;77;69;84].
Definition w_W : str := [87].
Definition w_W001 : str := [87;48;48;49].
Definition w_W002 : str := [87;48;48;50].
Definition w_W003 : str := [87;48;48;51].
Definition w_W003A : str := [87;48;48;51;65].
Definition w_W004 : str := [87;48;48;52].
Definition w_W005 : str := [87;48;48;53].
Definition w_W006 : str := [87;48;48;54].
Definition w_W007 : str := [87;48;48;55].
Definition w_W008 : str := [87;48;48;56].
Definition w_W009 : str := [87;48;48;57].
Definition w_W009A : str := [87;48;48;57;65].
Definition w_W010 : str := [87;48;49;48].
Definition w_W010A : str := [87;48;49;48;65].
Definition w_W011 : str := [87;48;49;49].
Definition w_W012 : str := [87;48;49;50].
Definition w_W013 : str := [87;48;49;51].
Definition w_W014 : str := [87;48;49;52].
Definition w_W014A : str := [87;48;49;52;65].
Definition w_W015 : str := [87;48;49;53].
Definition w_W016 : str := [87;48;49;54].
Definition w_W017 : str := [87;48;49;55].
Definition w_W017A : str := [87;48;49;55;65].
Definition w_W018 : str := [87;48;49;56].
Definition w_W018A : str := [87;48;49;56;65].
Definition w_W019 : str := [87;48;49;57].
Definition w_W020 : str := [87;48;50;48].
Definition w_W021 : str := [87;48;50;49].
Definition w_W022 : str := [87;48;50;50].
Definition w_W023 : str := [87;48;50;51].
Definition w_W024 : str := [87;48;50;52].
Definition w_W024A : str := [87;48;50;52;65].
Definition w_W025 : str := [87;48;50;53].
Definition w_WA : str := [87;65].
Definition w_WA_1 : str := [87;65;45;49].
Definition w_WA_2 : str := [87;65;45;50].
Definition w_WA_3 : str := [87;65;45;51].
Definition w_WA_4 : str := [87;65;45;52].
Definition w_WA_5 : str := [87;65;45;53].
Definition w_WAA : str := [87;65;65].
Definition w_WAAVU : str := [87;65;65;86;85].
Definition w_WADDA : str := [87;65;68;68;65].
Definition w_WAE : str := [87;65;69].
Definition w_WAEN : str := [87;65;69;78].
Definition w_WAI : str := [87;65;73].
Definition w_WAIST : str := [87;65;73;83;84].
Definition w_WAITING : str := [87;65;73;84;73;78;71].
Definition w_WALK : str := [87;65;76;75].
Definition w_WALL : str := [87;65;76;76].
Definition w_WALLPLANE : str := [87;65;76;76;80;76;65;78;69].
Definition w_WAN : str := [87;65;78].
Definition w_WANDERER : str := [87;65;78;68;69;82;69;82].
Definition w_WANGKUOQ : str := [87;65;78;71;75;85;79;81].
Definition w_WANING : str := [87;65;78;73;78;71].
Definition w_WAP : str := [87;65;80].
Definition w_WAQFA : str := [87;65;81;70;65].
Definition w_WARANG : str := [87;65;82;65;78;71].
Definition w_WARNING : str := [87;65;82;78;73;78;71].
Definition w_WASALLAM : str := [87;65;83;65;76;76;65;77].
Definition w_WASLA : str := [87;65;83;76;65].
Definition w_WASSALLAM : str := [87;65;83;83;65;76;76;65;77].
Definition w_WASTEBASKET : str := [87;65;83;84;69;66;65;83;75;69;84].
Definition w_WASTING : str := [87;65;83;84;73;78;71].
Definition w_WAT : str := [87;65;84].
Definition w_WATCH : str := [87;65;84;67;72].
Definition w_WATER : str := [87;65;84;69;82].
Definition w_WATERMELON : str := [87;65;84;69;82;77;69;76;79;78].
Definition w_WATTO : str := [87;65;84;84;79].
Definition w_WAU : str := [87;65;85].
Definition w_WAVE : str := [87;65;86;69].
Definition w_WAVES : str := [87;65;86;69;83].
Definition w_WAVING : str := [87;65;86;73;78;71].
Definition w_WAVY : str := [87;65;86;89].
Definition w_WAW : str := [87;65;87].
Definition w_WAW_AYIN_RESH : str := [87;65;87;45;65;89;73;78;45;82;69;83;72].
Definition w_WAX : str := [87;65;88].
Definition w_WAXING : str := [87;65;88;73;78;71].
Definition w_WAY : str := [87;65;89].
Definition w_WB : str := [87;66].
Definition w_WC : str := [87;67].
Definition w_WE : str := [87;69].
Definition w_WE_1 : str := [87;69;45;49].
Definition w_WE_2 : str := [87;69;45;50].
Definition w_WE_3 : str := [87;69;45;51].
Definition w_WE_4 : str := [87;69;45;52].
Definition w_WEAPON : str := [87;69;65;80;79;78].
Definition w_WEARY : str := [87;69;65;82;89].
Definition w_WEB : str := [87;69;66].
Definition w_WEDDING : str := [87;69;68;68;73;78;71].
Definition w_WEDGE : str := [87;69;68;71;69].
Definition w_WEDGE_TAILED : str := [87;69;68;71;69;45;84;65;73;76;69;68].
Definition w_WEE : str := [87;69;69].
Definition w_WEEN : str := [87;69;69;78].
Definition w_WEI : str := [87;69;73].
Definition w_WEIGHT : str := [87;69;73;71;72;84].
Definition w_WELL : str := [87;69;76;76].
Definition w_WEN : str := [87;69;78].
Definition w_WEO : str := [87;69;79].
Definition w_WEP : str := [87;69;80].
Definition w_WEST : str := [87;69;83;84].
Definition w_WEST_CREE : str := [87;69;83;84;45;67;82;69;69].
Definition w_WESTERN : str := [87;69;83;84;69;82;78].
Definition w_WEUX : str := [87;69;85;88].
Definition w_WEX : str := [87;69;88].
Definition w_WG : str := [87;71].
Definition w_WH : str := [87;72].
Definition w_WHALE : str := [87;72;65;76;69].
Definition w_WHEAT : str := [87;72;69;65;84].
Definition w_WHEEL : str := [87;72;69;69;76].
Definition w_WHEELCHAIR : str := [87;72;69;69;76;67;72;65;73;82].
Definition w_WHEELED : str := [87;72;69;69;76;69;68].
Definition w_WHITE : str := [87;72;73;84;69].
Definition w_WHITE_FEATHERED : str := [87;72;73;84;69;45;70;69;65;84;72;69;82;69;68].
Definition w_WHOLE : str := [87;72;79;76;69].
Definition w_WI : str := [87;73].
Definition w_WI_1 : str := [87;73;45;49].
Definition w_WI_2 : str := [87;73;45;50].
Definition w_WI_3 : str := [87;73;45;51].
Definition w_WI_4 : str := [87;73;45;52].
Definition w_WI_5 : str := [87;73;45;53].
Definition w_WIANG : str := [87;73;65;78;71].
Definition w_WIANGWAAK : str := [87;73;65;78;71;87;65;65;75].
Definition w_WIDE : str := [87;73;68;69].
Definition w_WIDE_HEADED : str := [87;73;68;69;45;72;69;65;68;69;68].
Definition w_WIDENING : str := [87;73;68;69;78;73;78;71].
Definition w_WIDTH : str := [87;73;68;84;72].
Definition w_WIGGLES : str := [87;73;71;71;76;69;83].
Definition w_WIGGLY : str := [87;73;71;71;76;89].
Definition w_WIGNYAN : str := [87;73;71;78;89;65;78].
Definition w_WII : str := [87;73;73].
Definition w_WILTED : str := [87;73;76;84;69;68].
Definition w_WIN : str := [87;73;78].
Definition w_WIND : str := [87;73;78;68].
Definition w_WINDOW : str := [87;73;78;68;79;87].
Definition w_WINDU : str := [87;73;78;68;85].
Definition w_WINE : str := [87;73;78;69].
Definition w_WINGS : str := [87;73;78;71;83].
Definition w_WINJA : str := [87;73;78;74;65].
Definition w_WINK : str := [87;73;78;75].
Definition w_WINKING : str := [87;73;78;75;73;78;71].
Definition w_WINTER : str := [87;73;78;84;69;82].
Definition w_WIRED : str := [87;73;82;69;68].
Definition w_WITH : str := [87;73;84;72].
Definition w_WITHIN : str := [87;73;84;72;73;78].
Definition w_WITHOUT : str := [87;73;84;72;79;85;84].
Definition w_WO : str := [87;79].
Definition w_WO_1 : str := [87;79;45;49].
Definition w_WO_2 : str := [87;79;45;50].
Definition w_WO_3 : str := [87;79;45;51].
Definition w_WO_4 : str := [87;79;45;52].
Definition w_WO_5 : str := [87;79;45;53].
Definition w_WO_6 : str := [87;79;45;54].
Definition w_WO_7 : str := [87;79;45;55].
Definition w_WOA : str := [87;79;65].
Definition w_WOE : str := [87;79;69].
Definition w_WOLF : str := [87;79;76;70].
Definition w_WOLOSO : str := [87;79;76;79;83;79].
Definition w_WOMAN : str := [87;79;77;65;78].
Definition w_WOMANS : str := [87;79;77;65;78;83].
Definition w_WOMEN : str := [87;79;77;69;78].
Definition w_WOMENS : str := [87;79;77;69;78;83].
Definition w_WON : str := [87;79;78].
Definition w_WOO : str := [87;79;79].
Definition w_WOOD : str := [87;79;79;68].
Definition w_WOODS_CREE : str := [87;79;79;68;83;45;67;82;69;69].
Definition w_WOOL : str := [87;79;79;76].
Definition w_WOON : str := [87;79;79;78].
Definition w_WOP : str := [87;79;80].
Definition w_WORD : str := [87;79;82;68].
Definition w_WORDSPACE : str := [87;79;82;68;83;80;65;67;69].
Definition w_WORK : str := [87;79;82;75].
Definition w_WORKER : str := [87;79;82;75;69;82].
Definition w_WORLD : str := [87;79;82;76;68].
Definition w_WORRIED : str := [87;79;82;82;73;69;68].
Definition w_WORSHIP : str := [87;79;82;83;72;73;80].
Definition w_WOW : str := [87;79;87].
Definition w_WOX : str := [87;79;88].
Definition w_WRAP : str := [87;82;65;80].
Definition w_WRAPPED : str := [87;82;65;80;80;69;68].
Definition w_WREATH : str := [87;82;69;65;84;72].
Definition w_WRENCH : str := [87;82;69;78;67;72].
Definition w_WRESTLERS : str := [87;82;69;83;84;76;69;82;83].
Definition w_WRINKLED : str := [87;82;73;78;75;76;69;68].
Definition w_WRINKLES : str := [87;82;73;78;75;76;69;83].
Definition w_WRIST : str := [87;82;73;83;84].
Definition w_WRITING : str := [87;82;73;84;73;78;71].
Definition w_WRONG : str := [87;82;79;78;71].
Definition w_WRY : str := [87;82;89].
Definition w_WU : str := [87;85].
Definition w_WUAEN : str := [87;85;65;69;78].
Definition w_WUAET : str := [87;85;65;69;84].
Definition w_WUE : str := [87;85;69].
Definition w_WUI : str := [87;85;73].
Definition w_WULU : str := [87;85;76;85].
Definition w_WUN : str := [87;85;78].
Definition w_WUNJO : str := [87;85;78;74;79].
Definition w_WUO : str := [87;85;79].
Definition w_WUOP : str := [87;85;79;80].
Definition w_WUOX : str := [87;85;79;88].
Definition w_WUP : str := [87;85;80].
Definition w_WV : str := [87;86].
Definition w_WVA : str := [87;86;65].
Definition w_WVE : str := [87;86;69].
Definition w_WVI : str := [87;86;73].
Definition w_WYNN : str := [87;89;78;78].
Definition w_WZ : str := [87;90].
Definition w_X : str := [88].
Definition w_X_X : str := [88;45;88].
Definition w_X001 : str := [88;48;48;49].
Definition w_X002 : str := [88;48;48;50].
Definition w_X003 : str := [88;48;48;51].
Definition w_X004 : str := [88;48;48;52].
Definition w_X004A : str := [88;48;48;52;65].
Definition w_X004B : str := [88;48;48;52;66].
Definition w_X005 : str := [88;48;48;53].
Definition w_X006 : str := [88;48;48;54].
Definition w_X006A : str := [88;48;48;54;65].
Definition w_X007 : str := [88;48;48;55].
Definition w_X008 : str := [88;48;48;56].
Definition w_X008A : str := [88;48;48;56;65].
Definition w_XA : str := [88;65].
Definition w_XAA : str := [88;65;65].
Definition w_XAN : str := [88;65;78].
Definition w_XAPH : str := [88;65;80;72].
Definition w_XAU : str := [88;65;85].
Definition w_XAUS : str := [88;65;85;83].
Definition w_XE : str := [88;69].
Definition w_XEE : str := [88;69;69].
Definition w_XEH : str := [88;69;72].
Definition w_XESTES : str := [88;69;83;84;69;83].
Definition w_XEYN : str := [88;69;89;78].
Definition w_XG : str := [88;71].
Definition w_XI : str := [88;73].
Definition w_XIAB : str := [88;73;65;66].
Definition w_XIE : str := [88;73;69].
Definition w_XIEP : str := [88;73;69;80].
Definition w_XIET : str := [88;73;69;84].
Definition w_XIEX : str := [88;73;69;88].
Definition w_XIP : str := [88;73;80].
Definition w_XIRON : str := [88;73;82;79;78].
Definition w_XIT : str := [88;73;84].
Definition w_XIX : str := [88;73;88].
Definition w_XO : str := [88;79].
Definition w_XOA : str := [88;79;65].
Definition w_XOP : str := [88;79;80].
Definition w_XOPH : str := [88;79;80;72].
Definition w_XOR : str := [88;79;82].
Definition w_XOT : str := [88;79;84].
Definition w_XOX : str := [88;79;88].
Definition w_XSHAAYATHIYA : str := [88;83;72;65;65;89;65;84;72;73;89;65].
Definition w_XU : str := [88;85].
Definition w_XUO : str := [88;85;79].
Definition w_XUOX : str := [88;85;79;88].
Definition w_XVA : str := [88;86;65].
Definition w_XVE : str := [88;86;69].
Definition w_XW : str := [88;87].
Definition w_XWA : str := [88;87;65].
Definition w_XWAA : str := [88;87;65;65].
Definition w_XWE : str := [88;87;69].
Definition w_XWEE : str := [88;87;69;69].
Definition w_XWI : str := [88;87;73].
Definition w_XY : str := [88;89].
Definition w_XYA : str := [88;89;65].
Definition w_XYAA : str := [88;89;65;65].
Definition w_XYE : str := [88;89;69].
Definition w_XYEE : str := [88;89;69;69].
Definition w_XYEEM : str := [88;89;69;69;77].
Definition w_XYI : str := [88;89;73].
Definition w_XYO : str := [88;89;79].
Definition w_XYOO : str := [88;89;79;79].
Definition w_XYOOJ : str := [88;89;79;79;74].
Definition w_XYP : str := [88;89;80].
Definition w_XYR : str := [88;89;82].
Definition w_XYRX : str := [88;89;82;88].
Definition w_XYT : str := [88;89;84].
Definition w_XYU : str := [88;89;85].
Definition w_XYX : str := [88;89;88].
Definition w_Y : str := [89].
Definition w_Y_CREE : str := [89;45;67;82;69;69].
Definition w_Y001 : str := [89;48;48;49].
Definition w_Y001A : str := [89;48;48;49;65].
Definition w_Y002 : str := [89;48;48;50].
Definition w_Y003 : str := [89;48;48;51].
Definition w_Y004 : str := [89;48;48;52].
Definition w_Y005 : str := [89;48;48;53].
Definition w_Y006 : str := [89;48;48;54].
Definition w_Y007 : str := [89;48;48;55].
Definition w_Y008 : str := [89;48;48;56].
Definition w_YA : str := [89;65].
Definition w_YA_1 : str := [89;65;45;49].
Definition w_YA_2 : str := [89;65;45;50].
Definition w_YA_3 : str := [89;65;45;51].
Definition w_YA_4 : str := [89;65;45;52].
Definition w_YA_5 : str := [89;65;45;53].
Definition w_YA_O : str := [89;65;45;79].
Definition w_YA_U : str := [89;65;45;85].
Definition w_YA_YO : str := [89;65;45;89;79].
Definition w_YAA : str := [89;65;65].
Definition w_YAADO : str := [89;65;65;68;79].
Definition w_YAAI : str := [89;65;65;73].
Definition w_YAARU : str := [89;65;65;82;85].
Definition w_YAB : str := [89;65;66].
Definition w_YABH : str := [89;65;66;72].
Definition w_YACH : str := [89;65;67;72].
Definition w_YAD : str := [89;65;68].
Definition w_YADD : str := [89;65;68;68].
Definition w_YADDH : str := [89;65;68;68;72].
Definition w_YADH : str := [89;65;68;72].
Definition w_YAE : str := [89;65;69].
Definition w_YAEMMAE : str := [89;65;69;77;77;65;69].
Definition w_YAF : str := [89;65;70].
Definition w_YAFU : str := [89;65;70;85].
Definition w_YAG : str := [89;65;71].
Definition w_YAGH : str := [89;65;71;72].
Definition w_YAGHH : str := [89;65;71;72;72].
Definition w_YAGN : str := [89;65;71;78].
Definition w_YAH : str := [89;65;72].
Definition w_YAHH : str := [89;65;72;72].
Definition w_YAJ : str := [89;65;74].
Definition w_YAJURVEDIC : str := [89;65;74;85;82;86;69;68;73;67].
Definition w_YAK : str := [89;65;75].
Definition w_YAKASH : str := [89;65;75;65;83;72].
Definition w_YAKH : str := [89;65;75;72].
Definition w_YAKHH : str := [89;65;75;72;72].
Definition w_YAL : str := [89;65;76].
Definition w_YAM : str := [89;65;77].
Definition w_YAMAKKAN : str := [89;65;77;65;75;75;65;78].
Definition w_YAMOK : str := [89;65;77;79;75].
Definition w_YAN : str := [89;65;78].
Definition w_YANG : str := [89;65;78;71].
Definition w_YAP : str := [89;65;80].
Definition w_YAQ : str := [89;65;81].
Definition w_YAR : str := [89;65;82].
Definition w_YARR : str := [89;65;82;82].
Definition w_YAS : str := [89;65;83].
Definition w_YASH : str := [89;65;83;72].
Definition w_YASS : str := [89;65;83;83].
Definition w_YAT : str := [89;65;84].
Definition w_YATH : str := [89;65;84;72].
Definition w_YATI : str := [89;65;84;73].
Definition w_YATT : str := [89;65;84;84].
Definition w_YAU : str := [89;65;85].
Definition w_YAV : str := [89;65;86].
Definition w_YAW : str := [89;65;87].
Definition w_YAWN : str := [89;65;87;78].
Definition w_YAY : str := [89;65;89].
Definition w_YAYANNA : str := [89;65;89;65;78;78;65].
Definition w_YAYD : str := [89;65;89;68].
Definition w_YAZ : str := [89;65;90].
Definition w_YAZH : str := [89;65;90;72].
Definition w_YAZZ : str := [89;65;90;90].
Definition w_YE : str := [89;69].
Definition w_YEA : str := [89;69;65].
Definition w_YEAR : str := [89;69;65;82].
Definition w_YEE : str := [89;69;69].
Definition w_YEEG : str := [89;69;69;71].
Definition w_YEH : str := [89;69;72].
Definition w_YEIN : str := [89;69;73;78].
Definition w_YELLOW : str := [89;69;76;76;79;87].
Definition w_YEN : str := [89;69;78].
Definition w_YENAP : str := [89;69;78;65;80].
Definition w_YENISEI : str := [89;69;78;73;83;69;73].
Definition w_YEO : str := [89;69;79].
Definition w_YEO_O : str := [89;69;79;45;79].
Definition w_YEO_U : str := [89;69;79;45;85].
Definition w_YEO_YA : str := [89;69;79;45;89;65].
Definition w_YEORINHIEUH : str := [89;69;79;82;73;78;72;73;69;85;72].
Definition w_YER : str := [89;69;82].
Definition w_YERAH : str := [89;69;82;65;72].
Definition w_YERI : str := [89;69;82;73].
Definition w_YERU : str := [89;69;82;85].
Definition w_YESIEUNG : str := [89;69;83;73;69;85;78;71].
Definition w_YESIEUNG_HIEUH : str := [89;69;83;73;69;85;78;71;45;72;73;69;85;72].
Definition w_YESIEUNG_MIEUM : str := [89;69;83;73;69;85;78;71;45;77;73;69;85;77].
Definition w_YESIEUNG_PANSIOS : str := [89;69;83;73;69;85;78;71;45;80;65;78;83;73;79;83].
Definition w_YESIEUNG_SIOS : str := [89;69;83;73;69;85;78;71;45;83;73;79;83].
Definition w_YESTU : str := [89;69;83;84;85].
Definition w_YETIV : str := [89;69;84;73;86].
Definition w_YEUAE : str := [89;69;85;65;69].
Definition w_YEUAET : str := [89;69;85;65;69;84].
Definition w_YEUM : str := [89;69;85;77].
Definition w_YEUQ : str := [89;69;85;81].
Definition w_YEURAE : str := [89;69;85;82;65;69].
Definition w_YEUX : str := [89;69;85;88].
Definition w_YEW : str := [89;69;87].
Definition w_YEY : str := [89;69;89].
Definition w_YFEN : str := [89;70;69;78].
Definition w_YFESIS : str := [89;70;69;83;73;83].
Definition w_YHE : str := [89;72;69].
Definition w_YI : str := [89;73].
Definition w_YI_U : str := [89;73;45;85].
Definition w_YIDDISH : str := [89;73;68;68;73;83;72].
Definition w_YIE : str := [89;73;69].
Definition w_YIEE : str := [89;73;69;69].
Definition w_YIEP : str := [89;73;69;80].
Definition w_YIET : str := [89;73;69;84].
Definition w_YIEX : str := [89;73;69;88].
Definition w_YIG : str := [89;73;71].
Definition w_YII : str := [89;73;73].
Definition w_YIN : str := [89;73;78].
Definition w_YING : str := [89;73;78;71].
Definition w_YIP : str := [89;73;80].
Definition w_YIT : str := [89;73;84].
Definition w_YIWN : str := [89;73;87;78].
Definition w_YIX : str := [89;73;88].
Definition w_YIZET : str := [89;73;90;69;84].
Definition w_YN : str := [89;78].
Definition w_YO : str := [89;79].
Definition w_YO_1 : str := [89;79;45;49].
Definition w_YO_2 : str := [89;79;45;50].
Definition w_YO_3 : str := [89;79;45;51].
Definition w_YO_4 : str := [89;79;45;52].
Definition w_YO_5 : str := [89;79;45;53].
Definition w_YO_6 : str := [89;79;45;54].
Definition w_YO_A : str := [89;79;45;65].
Definition w_YO_AE : str := [89;79;45;65;69].
Definition w_YO_EO : str := [89;79;45;69;79].
Definition w_YO_I : str := [89;79;45;73].
Definition w_YO_O : str := [89;79;45;79].
Definition w_YO_YA : str := [89;79;45;89;65].
Definition w_YO_YAE : str := [89;79;45;89;65;69].
Definition w_YO_YEO : str := [89;79;45;89;69;79].
Definition w_YOA : str := [89;79;65].
Definition w_YOD : str := [89;79;68].
Definition w_YODH : str := [89;79;68;72].
Definition w_YOGH : str := [89;79;71;72].
Definition w_YOMO : str := [89;79;77;79].
Definition w_YOO : str := [89;79;79].
Definition w_YOP : str := [89;79;80].
Definition w_YOQ : str := [89;79;81].
Definition w_YORI : str := [89;79;82;73].
Definition w_YOT : str := [89;79;84].
Definition w_YOU : str := [89;79;85].
Definition w_YOUTHFUL : str := [89;79;85;84;72;70;85;76].
Definition w_YOUTHFULNESS : str := [89;79;85;84;72;70;85;76;78;69;83;83].
Definition w_YOWD : str := [89;79;87;68].
Definition w_YOX : str := [89;79;88].
Definition w_YOY : str := [89;79;89].
Definition w_YPOGEGRAMMENI : str := [89;80;79;71;69;71;82;65;77;77;69;78;73].
Definition w_YPOKRISIS : str := [89;80;79;75;82;73;83;73;83].
Definition w_YPORROI : str := [89;80;79;82;82;79;73].
Definition w_YPSILI : str := [89;80;83;73;76;73].
Definition w_YR : str := [89;82].
Definition w_YRY : str := [89;82;89].
Definition w_YU : str := [89;85].
Definition w_YU_1 : str := [89;85;45;49].
Definition w_YU_2 : str := [89;85;45;50].
Definition w_YU_3 : str := [89;85;45;51].
Definition w_YU_4 : str := [89;85;45;52].
Definition w_YU_A : str := [89;85;45;65].
Definition w_YU_AE : str := [89;85;45;65;69].
Definition w_YU_E : str := [89;85;45;69].
Definition w_YU_EO : str := [89;85;45;69;79].
Definition w_YU_I : str := [89;85;45;73].
Definition w_YU_O : str := [89;85;45;79].
Definition w_YU_U : str := [89;85;45;85].
Definition w_YU_YE : str := [89;85;45;89;69].
Definition w_YU_YEO : str := [89;85;45;89;69;79].
Definition w_YUAEN : str := [89;85;65;69;78].
Definition w_YUAN : str := [89;85;65;78].
Definition w_YUDH : str := [89;85;68;72].
Definition w_YUE : str := [89;85;69].
Definition w_YUEQ : str := [89;85;69;81].
Definition w_YUJ : str := [89;85;74].
Definition w_YUM : str := [89;85;77].
Definition w_YUN : str := [89;85;78].
Definition w_YUO : str := [89;85;79].
Definition w_YUOM : str := [89;85;79;77].
Definition w_YUOP : str := [89;85;79;80].
Definition w_YUOT : str := [89;85;79;84].
Definition w_YUOX : str := [89;85;79;88].
Definition w_YUP : str := [89;85;80].
Definition w_YUQ : str := [89;85;81].
Definition w_YUR : str := [89;85;82].
Definition w_YURX : str := [89;85;82;88].
Definition w_YUS : str := [89;85;83].
Definition w_YUT : str := [89;85;84].
Definition w_YUUKALEAPINTU : str := [89;85;85;75;65;76;69;65;80;73;78;84;85].
Definition w_YUWOQ : str := [89;85;87;79;81].
Definition w_YUX : str := [89;85;88].
Definition w_YV : str := [89;86].
Definition w_YWA : str := [89;87;65].
Definition w_YWAA : str := [89;87;65;65].
Definition w_YWE : str := [89;87;69].
Definition w_YWI : str := [89;87;73].
Definition w_YWII : str := [89;87;73;73].
Definition w_YWO : str := [89;87;79].
Definition w_YWOO : str := [89;87;79;79].
Definition w_YY : str := [89;89].
Definition w_YYA : str := [89;89;65].
Definition w_YYAA : str := [89;89;65;65].
Definition w_YYE : str := [89;89;69].
Definition w_YYP : str := [89;89;80].
Definition w_YYR : str := [89;89;82].
Definition w_YYRX : str := [89;89;82;88].
Definition w_YYT : str := [89;89;84].
Definition w_YYX : str := [89;89;88].
Definition w_Z : str := [90].
Definition w_Z001 : str := [90;48;48;49].
Definition w_Z002 : str := [90;48;48;50].
Definition w_Z002A : str := [90;48;48;50;65].
Definition w_Z002B : str := [90;48;48;50;66].
Definition w_Z002C : str := [90;48;48;50;67].
Definition w_Z002D : str := [90;48;48;50;68].
Definition w_Z003 : str := [90;48;48;51].
Definition w_Z003A : str := [90;48;48;51;65].
Definition w_Z003B : str := [90;48;48;51;66].
Definition w_Z004 : str := [90;48;48;52].
Definition w_Z004A : str := [90;48;48;52;65].
Definition w_Z005 : str := [90;48;48;53].
Definition w_Z005A : str := [90;48;48;53;65].
Definition w_Z006 : str := [90;48;48;54].
Definition w_Z007 : str := [90;48;48;55].
Definition w_Z008 : str := [90;48;48;56].
Definition w_Z009 : str := [90;48;48;57].
Definition w_Z010 : str := [90;48;49;48].
Definition w_Z011 : str := [90;48;49;49].
Definition w_Z012 : str := [90;48;49;50].
Definition w_Z013 : str := [90;48;49;51].
Definition w_Z014 : str := [90;48;49;52].
Definition w_Z015 : str := [90;48;49;53].
Definition w_Z015A : str := [90;48;49;53;65].
Definition w_Z015B : str := [90;48;49;53;66].
Definition w_Z015C : str := [90;48;49;53;67].
Definition w_Z015D : str := [90;48;49;53;68].
Definition w_Z015E : str := [90;48;49;53;69].
Definition w_Z015F : str := [90;48;49;53;70].
Definition w_Z015G : str := [90;48;49;53;71].
Definition w_Z015H : str := [90;48;49;53;72].
Definition w_Z015I : str := [90;48;49;53;73].
Definition w_Z016 : str := [90;48;49;54].
Definition w_Z016A : str := [90;48;49;54;65].
Definition w_Z016B : str := [90;48;49;54;66].
Definition w_Z016C : str := [90;48;49;54;67].
Definition w_Z016D : str := [90;48;49;54;68].
Definition w_Z016E : str := [90;48;49;54;69].
Definition w_Z016F : str := [90;48;49;54;70].
Definition w_Z016G : str := [90;48;49;54;71].
Definition w_Z016H : str := [90;48;49;54;72].
Definition w_ZA : str := [90;65].
Definition w_ZA7 : str := [90;65;55].
Definition w_ZAA : str := [90;65;65].
Definition w_ZAEF : str := [90;65;69;70].
Definition w_ZAG : str := [90;65;71].
Definition w_ZAH : str := [90;65;72].
Definition w_ZAI : str := [90;65;73].
Definition w_ZAIN : str := [90;65;73;78].
Definition w_ZAL : str := [90;65;76].
Definition w_ZAMX : str := [90;65;77;88].
Definition w_ZANABAZAR : str := [90;65;78;65;66;65;90;65;82].
Definition w_ZAP : str := [90;65;80].
Definition w_ZAQEF : str := [90;65;81;69;70].
Definition w_ZARL : str := [90;65;82;76].
Definition w_ZARQA : str := [90;65;82;81;65].
Definition w_ZAT : str := [90;65;84].
Definition w_ZATA : str := [90;65;84;65].
Definition w_ZAVIYANI : str := [90;65;86;73;89;65;78;73].
Definition w_ZAX : str := [90;65;88].
Definition w_ZAYIN : str := [90;65;89;73;78].
Definition w_ZAYN : str := [90;65;89;78].
Definition w_ZE : str := [90;69].
Definition w_ZE2 : str := [90;69;50].
Definition w_ZEBRA : str := [90;69;66;82;65].
Definition w_ZEE : str := [90;69;69].
Definition w_ZEMLJA : str := [90;69;77;76;74;65].
Definition w_ZEMLYA : str := [90;69;77;76;89;65].
Definition w_ZEN : str := [90;69;78].
Definition w_ZEP : str := [90;69;80].
Definition w_ZERO : str := [90;69;82;79].
Definition w_ZETA : str := [90;69;84;65].
Definition w_ZEX : str := [90;69;88].
Definition w_ZH : str := [90;72].
Definition w_ZHA : str := [90;72;65].
Definition w_ZHAA : str := [90;72;65;65].
Definition w_ZHAIN : str := [90;72;65;73;78].
Definition w_ZHAP : str := [90;72;65;80].
Definition w_ZHAR : str := [90;72;65;82].
Definition w_ZHAT : str := [90;72;65;84].
Definition w_ZHAX : str := [90;72;65;88].
Definition w_ZHAYIN : str := [90;72;65;89;73;78].
Definition w_ZHE : str := [90;72;69].
Definition w_ZHEE : str := [90;72;69;69].
Definition w_ZHEP : str := [90;72;69;80].
Definition w_ZHET : str := [90;72;69;84].
Definition w_ZHEX : str := [90;72;69;88].
Definition w_ZHI : str := [90;72;73].
Definition w_ZHIL : str := [90;72;73;76].
Definition w_ZHIVETE : str := [90;72;73;86;69;84;69].
Definition w_ZHO : str := [90;72;79].
Definition w_ZHOI : str := [90;72;79;73].
Definition w_ZHOO : str := [90;72;79;79].
Definition w_ZHOP : str := [90;72;79;80].
Definition w_ZHOT : str := [90;72;79;84].
Definition w_ZHOX : str := [90;72;79;88].
Definition w_ZHU : str := [90;72;85].
Definition w_ZHUO : str := [90;72;85;79].
Definition w_ZHUOP : str := [90;72;85;79;80].
Definition w_ZHUOX : str := [90;72;85;79;88].
Definition w_ZHUP : str := [90;72;85;80].
Definition w_ZHUR : str := [90;72;85;82].
Definition w_ZHURX : str := [90;72;85;82;88].
Definition w_ZHUT : str := [90;72;85;84].
Definition w_ZHUX : str := [90;72;85;88].
Definition w_ZHWA : str := [90;72;87;65].
Definition w_ZHWE : str := [90;72;87;69].
Definition w_ZHY : str := [90;72;89].
Definition w_ZHYP : str := [90;72;89;80].
Definition w_ZHYR : str := [90;72;89;82].
Definition w_ZHYRX : str := [90;72;89;82;88].
Definition w_ZHYT : str := [90;72;89;84].
Definition w_ZHYX : str := [90;72;89;88].
Definition w_ZI : str := [90;73].
Definition w_ZI3 : str := [90;73;51].
Definition w_ZIB : str := [90;73;66].
Definition w_ZIDA : str := [90;73;68;65].
Definition w_ZIE : str := [90;73;69].
Definition w_ZIEP : str := [90;73;69;80].
Definition w_ZIEX : str := [90;73;69;88].
Definition w_ZIG : str := [90;73;71].
Definition w_ZIGZAG : str := [90;73;71;90;65;71].
Definition w_ZILDE : str := [90;73;76;68;69].
Definition w_ZINOR : str := [90;73;78;79;82].
Definition w_ZIP : str := [90;73;80].
Definition w_ZIPPER_MOUTH : str := [90;73;80;80;69;82;45;77;79;85;84;72].
Definition w_ZIQAA : str := [90;73;81;65;65].
Definition w_ZIT : str := [90;73;84].
Definition w_ZIX : str := [90;73;88].
Definition w_ZIZ2 : str := [90;73;90;50].
Definition w_ZJE : str := [90;74;69].
Definition w_ZLA : str := [90;76;65].
Definition w_ZLAMA : str := [90;76;65;77;65].
Definition w_ZO : str := [90;79].
Definition w_ZOA : str := [90;79;65].
Definition w_ZOMBIE : str := [90;79;77;66;73;69].
Definition w_ZOO : str := [90;79;79].
Definition w_ZOP : str := [90;79;80].
Definition w_ZOT : str := [90;79;84].
Definition w_ZOX : str := [90;79;88].
Definition w_ZQAPHA : str := [90;81;65;80;72;65].
Definition w_ZRA : str := [90;82;65].
Definition w_ZSA : str := [90;83;65].
Definition w_ZSHA : str := [90;83;72;65].
Definition w_ZU : str := [90;85].
Definition w_ZU5 : str := [90;85;53].
Definition w_ZUBUR : str := [90;85;66;85;82].
Definition w_ZUM : str := [90;85;77].
Definition w_ZUO : str := [90;85;79].
Definition w_ZUOP : str := [90;85;79;80].
Definition w_ZUOX : str := [90;85;79;88].
Definition w_ZUP : str := [90;85;80].
Definition w_ZUR : str := [90;85;82].
Definition w_ZURX : str := [90;85;82;88].
Definition w_ZUT : str := [90;85;84].
Definition w_ZUX : str := [90;85;88].
Definition w_ZWA : str := [90;87;65].
Definition w_ZWARAKAY : str := [90;87;65;82;65;75;65;89].
Definition w_ZWJ : str := [90;87;74].
Definition w_ZY : str := [90;89].
Definition w_ZYGOS : str := [90;89;71;79;83].
Definition w_ZYP : str := [90;89;80].
Definition w_ZYR : str := [90;89;82].
Definition w_ZYRX : str := [90;89;82;88].
Definition w_ZYT : str := [90;89;84].
Definition w_ZYX : str := [90;89;88].
Definition w_ZZA : str := [90;90;65].
Definition w_ZZAA : str := [90;90;65;65].
Definition w_ZZAP : str := [90;90;65;80].
Definition w_ZZAT : str := [90;90;65;84].
Definition w_ZZAX : str := [90;90;65;88].
Definition w_ZZE : str := [90;90;69].
Definition w_ZZEE : str := [90;90;69;69].
Definition w_ZZEP : str := [90;90;69;80].
Definition w_ZZEX : str := [90;90;69;88].
Definition w_ZZI : str := [90;90;73].
Definition w_ZZIE : str := [90;90;73;69].
Definition w_ZZIEP : str := [90;90;73;69;80].
Definition w_ZZIET : str := [90;90;73;69;84].
Definition w_ZZIEX : str := [90;90;73;69;88].
Definition w_ZZIP : str := [90;90;73;80].
Definition w_ZZIT : str := [90;90;73;84].
Definition w_ZZIX : str := [90;90;73;88].
Definition w_ZZO : str := [90;90;79].
Definition w_ZZOP : str := [90;90;79;80].
Definition w_ZZOX : str := [90;90;79;88].
Definition w_ZZSA : str := [90;90;83;65].
Definition w_ZZSYA : str := [90;90;83;89;65].
Definition w_ZZU : str := [90;90;85].
Definition w_ZZUP : str := [90;90;85;80].
Definition w_ZZUR : str := [90;90;85;82].
Definition w_ZZURX : str := [90;90;85;82;88].
Definition w_ZZUX : str := [90;90;85;88].
Definition w_ZZY : str := [90;90;89].
Definition w_ZZYA : str := [90;90;89;65].
Definition w_ZZYP : str := [90;90;89;80].
Definition w_ZZYR : str := [90;90;89;82].
Definition w_ZZYRX : str := [90;90;89;82;88].
Definition w_ZZYT : str := [90;90;89;84].
Definition w_ZZYX : str := [90;90;89;88].
