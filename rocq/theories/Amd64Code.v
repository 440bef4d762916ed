(** Generated by tools/asm2coq.py from /repo/edwards25519/field_amd64.s: one list element per
    instruction, in the order of the file; the trailing comment is the source line. *)
From Coq Require Import ZArith List.
From Verif Require Import Amd64Model.
Import ListNotations.
Open Scope Z_scope.

(** [feMul]: /repo/edwards25519/field_amd64.s:6-197 *)
Definition asm_feMul : list instr := [
  MOVQ (Arg 0) (Reg DI); (* 7 *)
  MOVQ (Arg 8) (Reg BX); (* 8 *)
  MOVQ (Arg 16) (Reg CX); (* 9 *)
  MOVQ (Mem 0 BX) (Reg AX); (* 12 *)
  MULQ (Mem 0 CX); (* 13 *)
  MOVQ (Reg AX) (Reg SI); (* 14 *)
  MOVQ (Reg DX) (Reg BP); (* 15 *)
  MOVQ (Mem 8 BX) (Reg DX); (* 17 *)
  IMUL3Q 19 DX AX; (* 18 *)
  MULQ (Mem 32 CX); (* 19 *)
  ADDQ AX SI; (* 20 *)
  ADCQ DX BP; (* 21 *)
  MOVQ (Mem 16 BX) (Reg DX); (* 23 *)
  IMUL3Q 19 DX AX; (* 24 *)
  MULQ (Mem 24 CX); (* 25 *)
  ADDQ AX SI; (* 26 *)
  ADCQ DX BP; (* 27 *)
  MOVQ (Mem 24 BX) (Reg DX); (* 29 *)
  IMUL3Q 19 DX AX; (* 30 *)
  MULQ (Mem 16 CX); (* 31 *)
  ADDQ AX SI; (* 32 *)
  ADCQ DX BP; (* 33 *)
  MOVQ (Mem 32 BX) (Reg DX); (* 35 *)
  IMUL3Q 19 DX AX; (* 36 *)
  MULQ (Mem 8 CX); (* 37 *)
  ADDQ AX SI; (* 38 *)
  ADCQ DX BP; (* 39 *)
  MOVQ (Mem 0 BX) (Reg AX); (* 42 *)
  MULQ (Mem 8 CX); (* 43 *)
  MOVQ (Reg AX) (Reg R8); (* 44 *)
  MOVQ (Reg DX) (Reg R9); (* 45 *)
  MOVQ (Mem 8 BX) (Reg AX); (* 47 *)
  MULQ (Mem 0 CX); (* 48 *)
  ADDQ AX R8; (* 49 *)
  ADCQ DX R9; (* 50 *)
  MOVQ (Mem 16 BX) (Reg DX); (* 52 *)
  IMUL3Q 19 DX AX; (* 53 *)
  MULQ (Mem 32 CX); (* 54 *)
  ADDQ AX R8; (* 55 *)
  ADCQ DX R9; (* 56 *)
  MOVQ (Mem 24 BX) (Reg DX); (* 58 *)
  IMUL3Q 19 DX AX; (* 59 *)
  MULQ (Mem 24 CX); (* 60 *)
  ADDQ AX R8; (* 61 *)
  ADCQ DX R9; (* 62 *)
  MOVQ (Mem 32 BX) (Reg DX); (* 64 *)
  IMUL3Q 19 DX AX; (* 65 *)
  MULQ (Mem 16 CX); (* 66 *)
  ADDQ AX R8; (* 67 *)
  ADCQ DX R9; (* 68 *)
  MOVQ (Mem 0 BX) (Reg AX); (* 71 *)
  MULQ (Mem 16 CX); (* 72 *)
  MOVQ (Reg AX) (Reg R10); (* 73 *)
  MOVQ (Reg DX) (Reg R11); (* 74 *)
  MOVQ (Mem 8 BX) (Reg AX); (* 76 *)
  MULQ (Mem 8 CX); (* 77 *)
  ADDQ AX R10; (* 78 *)
  ADCQ DX R11; (* 79 *)
  MOVQ (Mem 16 BX) (Reg AX); (* 81 *)
  MULQ (Mem 0 CX); (* 82 *)
  ADDQ AX R10; (* 83 *)
  ADCQ DX R11; (* 84 *)
  MOVQ (Mem 24 BX) (Reg DX); (* 86 *)
  IMUL3Q 19 DX AX; (* 87 *)
  MULQ (Mem 32 CX); (* 88 *)
  ADDQ AX R10; (* 89 *)
  ADCQ DX R11; (* 90 *)
  MOVQ (Mem 32 BX) (Reg DX); (* 92 *)
  IMUL3Q 19 DX AX; (* 93 *)
  MULQ (Mem 24 CX); (* 94 *)
  ADDQ AX R10; (* 95 *)
  ADCQ DX R11; (* 96 *)
  MOVQ (Mem 0 BX) (Reg AX); (* 99 *)
  MULQ (Mem 24 CX); (* 100 *)
  MOVQ (Reg AX) (Reg R12); (* 101 *)
  MOVQ (Reg DX) (Reg R13); (* 102 *)
  MOVQ (Mem 8 BX) (Reg AX); (* 104 *)
  MULQ (Mem 16 CX); (* 105 *)
  ADDQ AX R12; (* 106 *)
  ADCQ DX R13; (* 107 *)
  MOVQ (Mem 16 BX) (Reg AX); (* 109 *)
  MULQ (Mem 8 CX); (* 110 *)
  ADDQ AX R12; (* 111 *)
  ADCQ DX R13; (* 112 *)
  MOVQ (Mem 24 BX) (Reg AX); (* 114 *)
  MULQ (Mem 0 CX); (* 115 *)
  ADDQ AX R12; (* 116 *)
  ADCQ DX R13; (* 117 *)
  MOVQ (Mem 32 BX) (Reg DX); (* 119 *)
  IMUL3Q 19 DX AX; (* 120 *)
  MULQ (Mem 32 CX); (* 121 *)
  ADDQ AX R12; (* 122 *)
  ADCQ DX R13; (* 123 *)
  MOVQ (Mem 0 BX) (Reg AX); (* 126 *)
  MULQ (Mem 32 CX); (* 127 *)
  MOVQ (Reg AX) (Reg R14); (* 128 *)
  MOVQ (Reg DX) (Reg R15); (* 129 *)
  MOVQ (Mem 8 BX) (Reg AX); (* 131 *)
  MULQ (Mem 24 CX); (* 132 *)
  ADDQ AX R14; (* 133 *)
  ADCQ DX R15; (* 134 *)
  MOVQ (Mem 16 BX) (Reg AX); (* 136 *)
  MULQ (Mem 16 CX); (* 137 *)
  ADDQ AX R14; (* 138 *)
  ADCQ DX R15; (* 139 *)
  MOVQ (Mem 24 BX) (Reg AX); (* 141 *)
  MULQ (Mem 8 CX); (* 142 *)
  ADDQ AX R14; (* 143 *)
  ADCQ DX R15; (* 144 *)
  MOVQ (Mem 32 BX) (Reg AX); (* 146 *)
  MULQ (Mem 0 CX); (* 147 *)
  ADDQ AX R14; (* 148 *)
  ADCQ DX R15; (* 149 *)
  MOVQ (Imm 2251799813685247) (Reg AX); (* 152 *)
  SHLDQ 13 SI BP; (* 153 *)
  ANDQ AX SI; (* 154 *)
  SHLDQ 13 R8 R9; (* 155 *)
  ANDQ AX R8; (* 156 *)
  ADDQ BP R8; (* 157 *)
  SHLDQ 13 R10 R11; (* 158 *)
  ANDQ AX R10; (* 159 *)
  ADDQ R9 R10; (* 160 *)
  SHLDQ 13 R12 R13; (* 161 *)
  ANDQ AX R12; (* 162 *)
  ADDQ R11 R12; (* 163 *)
  SHLDQ 13 R14 R15; (* 164 *)
  ANDQ AX R14; (* 165 *)
  ADDQ R13 R14; (* 166 *)
  IMUL3Q 19 R15 R15; (* 167 *)
  ADDQ R15 SI; (* 168 *)
  MOVQ (Reg SI) (Reg DX); (* 170 *)
  SHRQ 51 DX; (* 171 *)
  ADDQ DX R8; (* 172 *)
  MOVQ (Reg R8) (Reg DX); (* 173 *)
  SHRQ 51 DX; (* 174 *)
  ANDQ AX SI; (* 175 *)
  ADDQ DX R10; (* 176 *)
  MOVQ (Reg R10) (Reg DX); (* 177 *)
  SHRQ 51 DX; (* 178 *)
  ANDQ AX R8; (* 179 *)
  ADDQ DX R12; (* 180 *)
  MOVQ (Reg R12) (Reg DX); (* 181 *)
  SHRQ 51 DX; (* 182 *)
  ANDQ AX R10; (* 183 *)
  ADDQ DX R14; (* 184 *)
  MOVQ (Reg R14) (Reg DX); (* 185 *)
  SHRQ 51 DX; (* 186 *)
  ANDQ AX R12; (* 187 *)
  IMUL3Q 19 DX DX; (* 188 *)
  ADDQ DX SI; (* 189 *)
  ANDQ AX R14; (* 190 *)
  MOVQ (Reg SI) (Mem 0 DI); (* 192 *)
  MOVQ (Reg R8) (Mem 8 DI); (* 193 *)
  MOVQ (Reg R10) (Mem 16 DI); (* 194 *)
  MOVQ (Reg R12) (Mem 24 DI); (* 195 *)
  MOVQ (Reg R14) (Mem 32 DI); (* 196 *)
  RET (* 197 *)
].

(** [feSquare]: /repo/edwards25519/field_amd64.s:200-342 *)
Definition asm_feSquare : list instr := [
  MOVQ (Arg 0) (Reg DI); (* 201 *)
  MOVQ (Arg 8) (Reg SI); (* 202 *)
  MOVQ (Mem 0 SI) (Reg AX); (* 205 *)
  MULQ (Mem 0 SI); (* 206 *)
  MOVQ (Reg AX) (Reg CX); (* 207 *)
  MOVQ (Reg DX) (Reg R8); (* 208 *)
  MOVQ (Mem 8 SI) (Reg DX); (* 210 *)
  IMUL3Q 38 DX AX; (* 211 *)
  MULQ (Mem 32 SI); (* 212 *)
  ADDQ AX CX; (* 213 *)
  ADCQ DX R8; (* 214 *)
  MOVQ (Mem 16 SI) (Reg DX); (* 216 *)
  IMUL3Q 38 DX AX; (* 217 *)
  MULQ (Mem 24 SI); (* 218 *)
  ADDQ AX CX; (* 219 *)
  ADCQ DX R8; (* 220 *)
  MOVQ (Mem 0 SI) (Reg AX); (* 223 *)
  SHLQ 1 AX; (* 224 *)
  MULQ (Mem 8 SI); (* 225 *)
  MOVQ (Reg AX) (Reg R9); (* 226 *)
  MOVQ (Reg DX) (Reg R10); (* 227 *)
  MOVQ (Mem 16 SI) (Reg DX); (* 229 *)
  IMUL3Q 38 DX AX; (* 230 *)
  MULQ (Mem 32 SI); (* 231 *)
  ADDQ AX R9; (* 232 *)
  ADCQ DX R10; (* 233 *)
  MOVQ (Mem 24 SI) (Reg DX); (* 235 *)
  IMUL3Q 19 DX AX; (* 236 *)
  MULQ (Mem 24 SI); (* 237 *)
  ADDQ AX R9; (* 238 *)
  ADCQ DX R10; (* 239 *)
  MOVQ (Mem 0 SI) (Reg AX); (* 242 *)
  SHLQ 1 AX; (* 243 *)
  MULQ (Mem 16 SI); (* 244 *)
  MOVQ (Reg AX) (Reg R11); (* 245 *)
  MOVQ (Reg DX) (Reg R12); (* 246 *)
  MOVQ (Mem 8 SI) (Reg AX); (* 248 *)
  MULQ (Mem 8 SI); (* 249 *)
  ADDQ AX R11; (* 250 *)
  ADCQ DX R12; (* 251 *)
  MOVQ (Mem 24 SI) (Reg DX); (* 253 *)
  IMUL3Q 38 DX AX; (* 254 *)
  MULQ (Mem 32 SI); (* 255 *)
  ADDQ AX R11; (* 256 *)
  ADCQ DX R12; (* 257 *)
  MOVQ (Mem 0 SI) (Reg AX); (* 260 *)
  SHLQ 1 AX; (* 261 *)
  MULQ (Mem 24 SI); (* 262 *)
  MOVQ (Reg AX) (Reg R13); (* 263 *)
  MOVQ (Reg DX) (Reg R14); (* 264 *)
  MOVQ (Mem 8 SI) (Reg AX); (* 266 *)
  SHLQ 1 AX; (* 267 *)
  MULQ (Mem 16 SI); (* 268 *)
  ADDQ AX R13; (* 269 *)
  ADCQ DX R14; (* 270 *)
  MOVQ (Mem 32 SI) (Reg DX); (* 272 *)
  IMUL3Q 19 DX AX; (* 273 *)
  MULQ (Mem 32 SI); (* 274 *)
  ADDQ AX R13; (* 275 *)
  ADCQ DX R14; (* 276 *)
  MOVQ (Mem 0 SI) (Reg AX); (* 279 *)
  SHLQ 1 AX; (* 280 *)
  MULQ (Mem 32 SI); (* 281 *)
  MOVQ (Reg AX) (Reg R15); (* 282 *)
  MOVQ (Reg DX) (Reg BX); (* 283 *)
  MOVQ (Mem 8 SI) (Reg AX); (* 285 *)
  SHLQ 1 AX; (* 286 *)
  MULQ (Mem 24 SI); (* 287 *)
  ADDQ AX R15; (* 288 *)
  ADCQ DX BX; (* 289 *)
  MOVQ (Mem 16 SI) (Reg AX); (* 291 *)
  MULQ (Mem 16 SI); (* 292 *)
  ADDQ AX R15; (* 293 *)
  ADCQ DX BX; (* 294 *)
  MOVQ (Imm 2251799813685247) (Reg AX); (* 297 *)
  SHLDQ 13 CX R8; (* 298 *)
  ANDQ AX CX; (* 299 *)
  SHLDQ 13 R9 R10; (* 300 *)
  ANDQ AX R9; (* 301 *)
  ADDQ R8 R9; (* 302 *)
  SHLDQ 13 R11 R12; (* 303 *)
  ANDQ AX R11; (* 304 *)
  ADDQ R10 R11; (* 305 *)
  SHLDQ 13 R13 R14; (* 306 *)
  ANDQ AX R13; (* 307 *)
  ADDQ R12 R13; (* 308 *)
  SHLDQ 13 R15 BX; (* 309 *)
  ANDQ AX R15; (* 310 *)
  ADDQ R14 R15; (* 311 *)
  IMUL3Q 19 BX DX; (* 312 *)
  ADDQ DX CX; (* 313 *)
  MOVQ (Reg CX) (Reg DX); (* 315 *)
  SHRQ 51 DX; (* 316 *)
  ADDQ DX R9; (* 317 *)
  MOVQ (Reg R9) (Reg DX); (* 318 *)
  SHRQ 51 DX; (* 319 *)
  ANDQ AX CX; (* 320 *)
  ADDQ DX R11; (* 321 *)
  MOVQ (Reg R11) (Reg DX); (* 322 *)
  SHRQ 51 DX; (* 323 *)
  ANDQ AX R9; (* 324 *)
  ADDQ DX R13; (* 325 *)
  MOVQ (Reg R13) (Reg DX); (* 326 *)
  SHRQ 51 DX; (* 327 *)
  ANDQ AX R11; (* 328 *)
  ADDQ DX R15; (* 329 *)
  MOVQ (Reg R15) (Reg DX); (* 330 *)
  SHRQ 51 DX; (* 331 *)
  ANDQ AX R13; (* 332 *)
  IMUL3Q 19 DX DX; (* 333 *)
  ADDQ DX CX; (* 334 *)
  ANDQ AX R15; (* 335 *)
  MOVQ (Reg CX) (Mem 0 DI); (* 337 *)
  MOVQ (Reg R9) (Mem 8 DI); (* 338 *)
  MOVQ (Reg R11) (Mem 16 DI); (* 339 *)
  MOVQ (Reg R13) (Mem 24 DI); (* 340 *)
  MOVQ (Reg R15) (Mem 32 DI); (* 341 *)
  RET (* 342 *)
].

