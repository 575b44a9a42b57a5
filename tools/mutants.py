"""Seeded bugs: edits of a model definition (file/old/new) or of a copy of a source text that is then translated (src/old/new/gen/out)."""
MUTANTS = []
def M(id, file, d, old, new, *breaks, nth=0):
    MUTANTS.append(dict(id=id, file=file, **{'def': d}, old=old, new=new, breaks=list(breaks), nth=nth))
def S(id, src, gen, out, d, old, new, *breaks, nth=0):
    MUTANTS.append(dict(id=id, src=src, gen=gen, out=out, **{'def': d}, old=old, new=new, breaks=list(breaks), nth=nth))
G = 'Model_Go.v'
# --- sha1cd.go
M('go01', G, 'Write', '(dnx d =? 64)%nat then', '(dnx d =? 63)%nat then', 'C02', 'C06')
M('go02', G, 'Write', 'let n := Nat.ldiff (length p) (64 - 1) in', 'let n := 64%nat in', 'C02', 'C03')
M('go03', G, 'Write', 'mkd (dh d) x n (dlen d) (dcol d)\n       else d) in', 'mkd (dh d) x (dnx d + n) (dlen d) (dcol d)\n       else d) in', 'C02')
M('go04', G, 'Write', '((dlen d + N.of_nat nn) mod M64)', '((dlen d + N.of_nat nn) mod 2 ^ 32)', 'C02')
M('go05', G, 'Write', 'Some (d, nn).', 'Some (d, length p).', 'C11')
M('go06', G, 'checkSum', 'if len mod 64 <? 56 then', 'if len mod 64 <=? 56 then', 'C02', 'C34')
M('go07', G, 'checkSum', 'let len := shl64 len 3 in', 'let len := shl64 len 2 in', 'C02')
M('go08', G, 'checkSum', 'let tmp := x80 :: repeat x00 71 in', 'let tmp := x01 :: repeat x00 71 in', 'C02')
M('go09', G, 'checkSum', 'let tmp := x80 :: repeat x00 71 in', 'let tmp := x80 :: repeat x00 63 in', 'C06')
M('go10', G, 'Reset', '(dx d) 0 0 false', '(dx d) 0 0 (dcol d)', 'C05', 'C28')
M('go11', G, 'Reset', '(dx d) 0 0 false', '(dx d) (dnx d) 0 false', 'C05')
M('go12', G, 'Reset', '(dx d) 0 0 false', '(dx d) 0 (dlen d) false', 'C05')
M('go13', G, 'MarshalBinary', 'let n := (length b + length (dx d) - dnx d)%nat in', 'let n := (length b + length (dx d))%nat in', 'C06', 'C08')
M('go14', G, 'MarshalBinary', 'Some (b ++ appendUint64 (dlen d))', 'Some (b ++ appendUint64 (N.of_nat (dnx d)))', 'C08', 'C10')
M('go15', G, 'MarshalBinary', 'appendUint32 (sa (dh d)) ++ appendUint32 (sb (dh d)) ++ appendUint32 (sc (dh d))\n           ++ appendUint32 (sd (dh d))', 'appendUint32 (sb (dh d)) ++ appendUint32 (sa (dh d)) ++ appendUint32 (sc (dh d))\n           ++ appendUint32 (sd (dh d))', 'C08', 'C10')
M('go16', G, 'UnmarshalBinary', '(N.to_nat (len mod 64)) len', '(dnx d) len', 'C10', 'C12')
M('go17', G, 'UnmarshalBinary', 'x (N.to_nat (len mod 64)) len', 'x (N.to_nat (len mod 128)) len', 'C12')
M('go18', G, 'UnmarshalBinary', 'else if negb (length b =? MarshaledSize)%nat', 'else if (MarshaledSize <? length b)%nat', 'C12', 'C13')
M('go19', G, 'UnmarshalBinary', '(length b <? length Magic)%nat || ', '(length b =? 0)%nat || ', 'C13')
M('go20', G, 'UnmarshalBinary', 'then Some (d, Some InvalidSize)', 'then Some (mkd (dh d) (dx d) 0 0 (dcol d), Some InvalidSize)', 'C13')
M('go21', G, 'UnmarshalBinary', 'then Some (d, Some InvalidIdentifier)', 'then Some (d, Some InvalidSize)', 'C13')
M('go22', G, 'consumeUint64', '(shl64 (b2n b1) 48)', '(shl64 (b2n b1) 40)', 'C10')
M('go23', G, 'appendUint64', 'n2b (N.shiftr v 48)', 'n2b (N.shiftr v 47)', 'C02', 'C08')
M('go24', G, 'CollisionResistantSum', 'Some (inp ++ hash, dcol d0).', 'Some (inp ++ hash, dcol d).', 'C02', 'C14')
M('go25', G, 'Sum', 'Some (inp ++ hash).', 'Some hash.', 'C02')
M('go26', G, 'SumPkg', 'let d := New in\n  do (d, _) <- Write blk d data;\n  do (d1', 'let d := zero_digest in\n  do (d, _) <- Write blk d data;\n  do (d1', 'C18')
M('go27', G, 'Size', 'Definition Size : nat := 20.', 'Definition Size : nat := 16.', 'C11')
M('go28', G, 'BlockSize_method', 'BlockSize_method (d : digest) : nat := Chunk', 'BlockSize_method (d : digest) : nat := Size', 'C11')
M('go29', G, 'Magic', 'x63; x64; x01]', 'x63; x64; x02]', 'C08')
# --- sha1cdblock_generic.go
M('gb01', G, 'K2', '0x8F1BBCDC', '0x8F1BBCDD', 'C02')
M('gb02', G, 'Init4', '0xC3D2E1F0', '0xC3D2E1F1', 'C02')
M('gb03', G, 'g_maj', 'N.lor (N.land (N.lor b c) d) (N.land b c)', 'N.lor (N.land (N.lor b c) d) (N.land b d)', 'C02')
M('gb04', G, 'body_mix', '(nth (Nat.land (i - 8) 15) w 0)', '(nth (Nat.land (i - 7) 15) w 0)', 'C02')
M('gb05', G, 'body_mix', 'upd (Nat.land i 15) (N.lor (shl32 tmp 1) (shr32 tmp (32 - 1))) w', 'upd (Nat.land i 15) tmp w', 'C02')
M('gb06', G, 'save58', 'if (i =? 58)%nat', 'if (i =? 57)%nat', 'C02')
M('gb07', G, 'save65', 'mkcs (cs0 cs) (cs1 cs) s', 'mkcs (cs0 cs) s s', 'C02')
M('gb08', G, 'g_rehash', 'if (hi =? 2)%nat then g_rehash fuel p (hi + 1)', 'if (hi =? 3)%nat then g_rehash fuel p (hi + 1)', 'C02', 'C19')
M('gb09', G, 'g_rehash', 'if c : bool then g_rehash fuel p (hi + 1) h (pw x) (pm x) (pcs x) true', 'if c : bool then Some (h, pw x, pcs x, true)', 'C02', 'C19')
M('gb10', G, 'g_rehash', 'else Some (h, pw x, pcs x, col)\n    else', 'else Some (h, pw x, pcs x, false)\n    else', 'C17')
M('gb11', G, 'g_blocks', 'g_rehash 3 p 1 h w (repeat 0 80) cs col', 'g_rehash 3 p 1 h w (repeat 0 79) cs col', 'C02')
M('gb12', G, 'hasCollided', '(down 64 60)', '(down 64 61)', 'C40', 'C14')
M('gb13', G, 'hasCollided', '(seq 60 20) r in', '(seq 60 19) r in', 'C40', 'C14')
M('gb14', G, 'hasCollided', '(N.lxor (sc ihv) (sc h))', '(N.lxor (sc ihv) (sc ihv))', 'C40', 'C14')
M('gb15', G, 'g_undo', 'let b := rotl32 b 2 in', 'let b := rotl32 b 30 in', 'C40', 'C15')
M('gb16', G, 'g_undo', 'if (i <? step)%nat then\n    let b', 'if (i <=? step)%nat then\n    let b', 'C40')
M('gb17', G, 'g_undo', 'else mkst a b c d e.', 'else s.', 'C40')
M('gb18', G, 'g_redo', 'if (step <=? i)%nat then\n    let t', 'if (step <? i)%nat then\n    let t', 'C40')
M('gb19', G, 'checkLoop', 'then Some true\n      else checkLoop rest', 'then Some true\n      else Some false else if false then None else checkLoop rest', 'C15')
MUTANTS[-1].update(old='if hasCollided (N.to_nat (testT dv)) m1 (dm dv) state h then Some true\n      else checkLoop rest mask m1 cs h', new='if hasCollided (N.to_nat (testT dv)) m1 (dm dv) state h then Some true\n      else Some false')
M('gb20', G, 'checkLoop', 'N.land mask (shl32 1 (maskB dv)) =? 0', 'N.land mask (shl32 1 (dvType dv)) =? 0', 'C02')
M('gb21', G, 'checkLoop', 'if testT dv =? 58 then Some (cs1 cs)', 'if testT dv =? 58 then Some (cs2 cs)', 'C02')
M('gb22', G, 'checkCollision', 'if mask =? 0 then Some false', 'if negb (mask =? 0) then Some false', 'C02')
M('gb23', G, 'g_ch', 'N.lor (N.land b c) (N.land (not32 b) d)', 'N.lor (N.land b c) (N.land b d)', 'C02')
M('gb24', G, 'load', '(shl32 (b2n (nth (j + 2) p x00)) 8)', '(shl32 (b2n (nth (j + 2) p x00)) 16)', 'C02')
M('gb25', G, 'rectify', '(func3 m1 (func3 m1 (cs1 cs) 56) 57)', '(func3 m1 (func3 m1 (cs1 cs) 57) 56)', 'C26', 'C20')
M('gb26', G, 'rectify', '(func4 m1 (cs2 cs) 64)', '(cs2 cs)', 'C26', 'C20')
M('gb27', G, 'g_round', 'rotl32 (sb s) 30', 'rotl32 (sb s) 31', 'C02')
# --- ubc
M('ub01', 'Gen_DvsGo.v', 'dvs_go', '0x9800000c', '0x9800000d', 'C24')
M('ub02', 'Gen_DvsGo.v', 'dvs_go', 'mkdv 1 44 0 58 0 1', 'mkdv 1 44 0 65 0 1', 'C24')
M('ub03', 'Gen_DvsGo.v', 'dvs_go', 'mkdv 1 44 0 58 0 1', 'mkdv 1 44 0 58 0 2', 'C24')
M('ub04', 'Gen_DvsC.v', 'dvs_c', '0x9800000c', '0x9800000d', 'C24', 'C39')
M('ub05', 'Model_Ubc.v', 'ueval', 'b2w (ueval W mask e =? 0)', 'b2w (negb (ueval W mask e =? 0))', 'C22')
M('ub06', G, 'CalculateDvMask', '| None => 0', '| None => 0xFFFFFFFF', 'C23')
M('ub07', G, 'CalculateDvMask', 'urun W ubc_prog_go 0xFFFFFFFF', 'urun W ubc_prog_go 0x7FFFFFFF', 'C22')
# --- assembly glue
B = 'Model_Block.v'
M('as01', B, 'asm_blocks', 'let cs := rectify m1 cs in\n', '', 'C20')
M('as02', B, 'asm_blocks', '        do (h, m1, cs) <- call (k + 2)%nat h chunk m1 cs;\n', '', 'C20')
M('as03', B, 'asm_blocks', '(skipn 64 p) h m1 cs true', '(skipn 64 p) h m1 cs col', 'C20')
M('as04', B, 'asm_blocks', 'let chunk := firstn 64 p in', 'let chunk := p in', 'C20')
M('as05', B, 'asm_blocks', 'else asm_blocks call fuel (k + 1) (skipn 64 p) h m1 cs col', 'else asm_blocks call fuel (k + 1) (skipn 64 p) h m1 cs false', 'C20')
# --- slices
L = 'Model_Slice.v'
M('sl01', L, 'h_append', 'if (n <=? s_cap s)%nat\n  then (upd', 'if (n <=? s_cap s + 1)%nat\n  then (upd', 'C07')
M('sl02', L, 'h_append', '(s_off s + s_len s) bs) H', '(s_off s) bs) H', 'C07')
M('sl03', L, 'h_MarshalBinary', "let '(H, b) := h_make H 0 MarshaledSize in", "let '(H, b) := h_make H 0 64 in", 'C07')
M('sl04', L, 'h_Sum', 'Some (h_append grow H inp hash).', 'Some (h_append grow H (mksl (s_arr inp) (s_off inp) 0 (s_cap inp)) hash).', 'C07')
M('sl05', L, 'hexec', 'Some (mkh H\' (vs ++ [r]) ds, Some (OMarshal i', 'Some (mkh H\' (vs ++ [mksl 0 0 0 0]) ds, Some (OMarshal i', 'C07')
# --- amd64.s
A = ('/repo/sha1cdblock_amd64.s', 'gen_amd64.py', 'Gen_Amd64.v')
S('am01', *A, 'amd64_prog', 'SHA1RNDS4 $0x02, X5, X0', 'SHA1RNDS4 $0x01, X5, X0', 'C20', nth=1)
S('am02', *A, 'amd64_prog', 'SHA1MSG1  X2, X1', 'SHA1MSG1  X2, X4', 'C20', nth=2)
S('am03', *A, 'amd64_prog', '\tPXOR      X3, X1\n', '', 'C20', nth=3)
S('am04', *A, 'amd64_prog', 'LOADCS(X0, R12, 1, R15)', 'LOADCS(X0, R12, 2, R15)', 'C20')
S('am05', *A, 'amd64_prog', 'ROLL $30, R12', 'ROLL $2, R12', 'C20')
S('am06', *A, 'amd64_prog', 'LOADM1(X4, 19, R13)', 'LOADM1(X4, 20, R13)', 'C36')
S('am07', *A, 'amd64_prog', 'VMOVDQA X0, 16(AX)', 'VMOVDQA X0, 64(AX)', 'C36')
S('am08', *A, 'amd64_prog', 'LEAQ 15(SP), AX', 'LEAQ 8(SP), AX', 'C36')
S('am09', *A, 'amd64_prog', 'PAND    upper_mask<>+0(SB), X5', 'PAND    shuffle_mask<>+0(SB), X5', 'C20')
S('am10', *A, 'amd64_prog', 'LOADM1(X1, 8, R13)', 'LOADM1(X2, 8, R13)', 'C20')
S('am11', *A, 'amd64_prog', 'JNE  loop', 'JEQ  loop', 'C36')
S('am12', *A, 'upper_mask', 'DATA upper_mask<>+8(SB)/8, $0xffffffff00000000', 'DATA upper_mask<>+8(SB)/8, $0xffffffffffffffff', 'C20')
S('am13', *A, 'amd64_prog', 'PADDD     16(AX), X0', 'PADDD     (AX), X0', 'C20')
# --- arm64.s
R = ('/repo/sha1cdblock_arm64.s', 'gen_arm64.py', 'Gen_Arm64.v')
S('ar01', *R, 'arm64_prog', 'VDUP\tV19.S[2], V17.S4', 'VDUP\tV19.S[3], V17.S4', 'C35')
S('ar02', *R, 'arm64_prog', 'SHA1SU1\tV7.S4, V4.S4', 'SHA1SU1\tV6.S4, V4.S4', 'C35', nth=1)
S('ar03', *R, 'arm64_prog', '\tHASHUPDATEPARITY\n', '\tHASHUPDATECHOOSE\n', 'C35', nth=2)
S('ar04', *R, 'arm64_prog', 'VST1.P    V1.S[0], 4(R4)', 'VST1.P    V2.S[0], 4(R4)', 'C35', nth=0)
S('ar05', *R, 'arm64_prog', 'ADD     R16, R2, R21', 'ADD     R1, R2, R21', 'C35')
S('ar06', *R, 'arm64_prog', 'VREV32\tV6.B16, V6.B16', 'VREV32\tV6.B16, V7.B16', 'C35')
S('ar07', *R, 'arm64_prog', '\tVST1.P    [V7.S4], (R3)\n', '\tVST1.P    [V7.S4], (R4)\n', 'C36', nth=1)
# --- C
C = 'Model_C.v'
M('cc01', C, 'sha1_load', 'if macro_be cfg then temp', 'if negb (macro_be cfg) then temp', 'C30')
M('cc02', C, 'SHA1DCUpdate', '(fill <=? length buf)', '(fill <? length buf)', 'C30', 'C41')
M('cc03', C, 'SHA1DCUpdate', 'Some (c, skipn fill buf, 0%nat)', 'Some (c, skipn fill buf, left)', 'C30', 'C41')
M('cc04', C, 'SHA1DCUpdate', 'N.land (c_total c) 63', 'N.land (c_total c) 127', 'C30')
M('cc05', C, 'SHA1DCFinal', 'if last <? 56 then', 'if last <=? 56 then', 'C30')
M('cc06', C, 'SHA1DCFinal', 'let total := sub64 (c_total c) padn in', 'let total := c_total c in', 'C30')
M('cc07', C, 'process_loop', 'set_ihv (sha1_compression_W (sha1_compression_W (c_ihv c) (c_m1 c)) (c_m1 c)) c', 'set_ihv (sha1_compression_W (c_ihv c) (c_m1 c)) c', 'C30', 'C38')
M('cc08', C, 'process_loop', 'if truth (c_safe c)', 'if negb (truth (c_safe c))', 'C38')
M('cc09', C, 'process_loop', 'same_words (c_ihv1 c) (c_ihv2 c)', 'same_words (c_ihv c) (c_ihv2 c)', 'C38')
M('cc10', C, 'process_loop', '(truth (c_reduced c) && ', '(', 'C39', 'C38')
M('cc11', C, 'sha1_process', 'if truth (c_ubc c) then ubc_check (c_m1 c) else 0xFFFFFFFF', 'if truth (c_ubc c) then ubc_check (c_m1 c) else 0', 'C38')
M('cc12', C, 'sha1_process', 'let c := set_ihv1 (c_ihv c) c in\n', '', 'C38')
M('cc13', C, 'SHA1DCInit', '0 1 1 1 0 0 (c_ihv1 c)', '0 1 1 1 1 0 (c_ihv1 c)', 'C39', 'C41')
M('cc14', C, 'SHA1DCInit', '    0 1 1 1 0 0 (c_ihv1 c)', '    (c_found c) 1 1 1 0 0 (c_ihv1 c)', 'C30', 'C41')
M('cc15', C, 'SHA1DCSetUseUBC', '(c_detect c) (if truth v then 1 else 0)%Z (c_reduced c)', '(c_detect c) (if truth v then 0 else 1)%Z (c_reduced c)', 'C38')
M('cc16', C, 'SHA1DCSetDetectReducedRoundCollision', '(c_ubc c) (if truth v then 1 else 0)%Z (c_callback c)', '(if truth v then 1 else 0)%Z (c_reduced c) (c_callback c)', 'C38')
M('cc17', C, 'update_loop', 'if unaligned cfg then sha1_process cfg c (firstn 64 buf)', 'if unaligned cfg then sha1_process cfg c (c_buffer c)', 'C30')
M('cc18', C, 'update_loop', 'let c := set_total (add64 (c_total c) 64) c in\n    do c', 'do c', 'C30')
M('cc19', C, 'cgo_Write', 'Some (mkcd c (g_h d), length p)', 'Some (d, length p)', 'C30')
M('cc20', C, 'cgo_sum', 'Some (mkcd c h, h, truth f)', 'Some (mkcd c h, g_h d, truth f)', 'C30')
M('cc21', C, 'cgo_sum', 'Some (mkcd c h, h, truth f)', 'Some (mkcd c h, h, (f =? 2)%Z)', 'C39')
M('cc22', C, 'cgo_SumPkg', 'let d := cgo_Reset zero_cdigest in', 'let d := zero_cdigest in', 'C30')
M('cc23', C, 'cgo_BlockSize', 'cgo_BlockSize (d : cdigest) : nat := 64', 'cgo_BlockSize (d : cdigest) : nat := 20', 'C30')
M('cc24', C, 'cgo_CalculateDvMask', ': word := ubc_check W.', ': word := 0.', 'C22')
M('cc25', C, 'fallback_CalculateDvMask', ': word := CalculateDvMask W.', ': word := 0.', 'C22')
M('cc26', C, 'fallback_New', 'Definition fallback_New : digest := New.', 'Definition fallback_New : digest := zero_digest.', 'C45')
M('cc27', C, 'fallback_Sum', 'do (d, _) <- Write blk New data;\n  Coll', 'do (d, _) <- Write blk zero_digest data;\n  Coll', 'C45')
M('cc28', C, 'sha1_recompression_step', '(l =? step)%nat', '(l =? 65)%nat', 'C37')
M('cc29', C, 'sha1recompress_fast', 'if (t <=? fst p)%nat', 'if (t <? fst p)%nat', 'C37')
M('cc30', C, 'SHA1DCInit', '0 1 1 1 0 0 (c_ihv1 c)', '0 0 1 1 0 0 (c_ihv1 c)', 'C30', 'C41')
M('cc31', C, 'SHA1DCSetCallback', '(c_reduced c) f\n', '0 f\n', 'C43')
M('cc32', 'Model_CSteps.v', 'sha1_f3', 'add32 (N.land b c) (N.land d (N.lxor b c))', 'add32 (N.land b c) (N.land d (N.lor b c))', 'C30')
M('cc33', 'Model_CSteps.v', 'rotate_left', 'Definition rotate_left (x n : word) : word := N.lor (shl32 x n) (shr32 x (32 - n)).', 'Definition rotate_left (x n : word) : word := N.lor (shl32 x n) (shr32 x (31 - n)).', 'C30')
M('cc34', 'Model_CSteps.v', 'sha1_bswap32', 'N.land (shr32 x 8) 0xFF00FF', 'N.land (shr32 x 8) 0xFF00FE', 'C30')
CS = ('/repo/cgo/sha1.c', 'gen_csteps.py', 'Gen_CSteps.v')
S('cs01', *CS, 'comp_W_steps', 'HASHCLASH_SHA1COMPRESS_ROUND2_STEP(e, a, b, c, d, W, 21)', 'HASHCLASH_SHA1COMPRESS_ROUND2_STEP(e, a, b, c, d, W, 22)', 'C30', nth=1)
S('cs02', *CS, 'comp_states_items', 'SHA1COMPRESS_FULL_ROUND3_STEP(a, b, c, d, e, W, 45, temp)', 'SHA1COMPRESS_FULL_ROUND2_STEP(a, b, c, d, e, W, 45, temp)', 'C30')
S('cs03', *CS, 'recomp_back', 'HASHCLASH_SHA1COMPRESS_ROUND2_STEP_BW(a, b, c, d, e, me2, 30)', 'HASHCLASH_SHA1COMPRESS_ROUND2_STEP_BW(b, a, c, d, e, me2, 30)', 'C37')
S('cs04', *CS, 'sha1_padding', '0x80, 0,', '0x01, 0,', 'C30')
# --- preprocessor
P = 'Model_CBuild.v'
M('pp01', P, 'detected_be', 'same m "__BYTE_ORDER__" "__ORDER_BIG_ENDIAN__"', 'negb (same m "__BYTE_ORDER__" "__ORDER_BIG_ENDIAN__")', 'C44')
M('pp02', P, 'allow_unaligned', 'if isdef m "SHA1DC_FORCE_ALIGNED_ACCESS" then false', 'if isdef m "SHA1DC_FORCE_ALIGNED_ACCESS" then true', 'C44')
M('pp03', P, 'detected_be', '["_AIX"; "__hpux"] then true', '["_AIX"; "__hpux"] then false', 'C44')
M('pp04', P, 'bigendian', 'isdef m "SHA1DC_FORCE_LITTLEENDIAN" && b', 'isdef m "SHA1DC_FORCE_BIGENDIAN" && b', 'C44')
# --- build constraints, method sets, CPU features
D = 'Model_Build.v'
M('bu01', D, 'beval', '| BNot x => negb (beval e x)', '| BNot x => beval e x', 'C49')
M('bu02', D, 'beval', 'beval e x || beval e y', 'beval e x && beval e y', 'C49')
M('bu03', D, 'beval', 'beval e x && beval e y\n', 'beval e x || beval e y\n', 'C49')
M('bu04', D, 'included', '(if g_cgo f then e "cgo" else true)', 'true', 'C49')
M('bu05', D, 'included', '| Some x => beval e x', '| Some x => true', 'C49')
M('bu06', D, 'name_ok', '| a :: _ :: _ => if mem_str a known_arch || mem_str a known_os then e a else true', '| a :: _ :: _ => true', 'C49')
M('bu07', D, 'decls', 'filter (fun f => String.eqb (f_name f) n) (funcs e p)', 'firstn 1 (filter (fun f => String.eqb (f_name f) n) (funcs e p))', 'C49')
M('if01', 'Model_Iface.v', 'ptr_methods', 'String.eqb (m_recv m) t', 'String.eqb (m_name m) t', 'C57')
M('if02', 'Model_Iface.v', 'ptr_methods', '(fun m => String.eqb (m_recv m) t)', '(fun m => String.eqb (m_recv m) t && negb (m_ptr m))', 'C57')
M('if03', 'Model_Iface.v', 'methods', 'String.eqb (g_name f) (fst r) && included e f', 'String.eqb (g_name f) (fst r)', 'C57')
M('if04', 'Model_Hasher.v', 'cgo_hasher', 'else hasher e', 'else ptr_methods e pkg_cgo meths_cgo "digest"', 'C57')
U = 'Model_Cpu.v'
M('cp01', U, 'amd64_need', '["PSHUFB"]%string then Some "SSSE3"', '["PSHUFB"]%string then Some "SSE4"', 'C48')
M('cp02', U, 'amd64_need', 'Some "AVX"%string', 'Some "AVX2"%string', 'C48')
M('cp03', U, 'arm64_need', 'Some "SHA1"%string', 'Some "SHA2"%string', 'C48')
M('cp04', U, 'runs_on', 'Some f => c f', 'Some f => true', 'C48')
M('cp05', U, 'block_on_amd64', 'forceGeneric || negb (forallb c amd64_features)', 'negb forceGeneric && negb (forallb c amd64_features)', 'C48')
M('cp06', U, 'block_on_amd64', 'negb (forallb c amd64_features)', 'negb (existsb c amd64_features)', 'C48')
M('cp07', U, 'block_on_arm64', 'forceGeneric || negb (forallb c arm64_features)', 'forceGeneric', 'C48')
M('cp08', U, 'exec_cpu', 'if runs_on c amd64_need m then\n               match i with RET', 'if runs_on c arm64_need m then\n               match i with RET', 'C48')
# --- machines
Q = 'Model_Asm.v'
M('mm01', Q, 'inside', '(a + n <=? rbase r + rsize r)', '(a <=? rbase r + rsize r)', 'C36')
M('mm02', Q, 'writable', 'rwrite r && inside a n r', 'inside a n r', 'C36')
M('mm03', Q, 'regions', 'mkreg (l_p l) (l_np l) false', 'mkreg (l_p l) (l_np l) true', 'C36')
M('mm04', Q, 'regions', 'mkreg (l_m1 l) 320 true', 'mkreg (l_m1 l) 324 true', 'C36')
M('mm05', Q, 'rd', 'if readable rs a (N.of_nat n) then', 'if true then', 'C36')
M('mm06', Q, 'wr', 'if writable rs a (N.of_nat (length l)) then', 'if true then', 'C36')
M('mm07', Q, 'aligned', 'a mod 16 =? 0', 'true', 'C36')
M('mm08', Q, 'layout_ok', 'l_ro1 l mod 16 = 0 /\\ l_ro2 l mod 16 = 0', 'l_ro1 l mod 16 = 0', 'C20')
M('mm09', Q, 'apart', 'rbase r + rsize r <= rbase s', 'rbase r + rsize r <= rbase s + 1', 'C20')
M('mm10', Q, 'poke', '(x <? a + N.of_nat (length l))', '(x <=? a + N.of_nat (length l))', 'C20')
M('mm11', Q, 'args_bytes', 'le64 (l_h l) ++ le64 5 ++ le64 5 ++', 'le64 (l_h l) ++ le64 20 ++ le64 20 ++', 'C20')
M('mm12', Q, 'args_bytes', 'le64 (l_p l) ++ le64 np', 'le64 (l_p l) ++ le64 0', 'C20')
M('mm13', Q, 'set_lane', '| 1 => mkv (v0 v) x (v2 v) (v3 v)', '| 1 => mkv x (v1 v) (v2 v) (v3 v)', 'C20')
X = 'Model_Amd64.v'
M('mx01', X, 'pshufd', 'N.shiftr i (2 * k)', 'N.shiftr i (6 - 2 * k)', 'C20')
M('mx02', X, 'pshufb', 'N.land (b2n b) 15', '15 - N.land (b2n b) 15', 'C20')
M('mx03', X, 'sha1msg2', '(N.lxor (v0 dst) w16)', '(N.lxor (v0 dst) (v3 src))', 'C20')
M('mx04', X, 'sha1nexte', 'rotl32 (v3 dst) 30', 'rotl32 (v3 src) 30', 'C20')
M('mx05', X, 'rnds_k', '2%nat => 0x8F1BBCDC', '2%nat => 0x8F1BBCDD', 'C20')
M('mx06', X, 'step_instr', '| ROLL n r => Some (setg r (rotl32 (gr s r mod M32) n) s)', '| ROLL n r => Some (setg r (rotl32 (gr s r mod M32) (32 - n)) s)', 'C20')
M('mx07', X, 'entry', 'SP => l_frame (e_lay e)', 'SP => l_frame (e_lay e) + 8', 'C36')
M('mx08', X, 'step_instr', '| JNE l => Some (if zf s then jump (S (pc s)) s else jump l s)', '| JNE l => Some (jump (S (pc s)) s)', 'C55')
M('mx09', X, 'step_instr', '| JEQ l => Some (if zf s then jump l s else jump (S (pc s)) s)', '| JEQ l => Some (jump (S (pc s)) s)', 'C55')
M('mx10', X, 'load128a', 'if aligned (addr s a) then load128 s a else None', 'load128 s a', 'C36')
Y = 'Model_Arm64.v'
M('my01', Y, 'sha1su1', '(N.lxor (rotl32 t3 1) (rotl32 t0 2))', '(rotl32 t3 1)', 'C31')
M('my02', Y, 'xbump', '(xg s r + n) mod M64 else', '(xg s r + 2 * n) mod M64 else', 'C31')
M('my03', Y, 'xstep', 'CMP q r => Some (xsetf (xg s r <=? xg s q) s)', 'CMP q r => Some (xsetf (xg s q <=? xg s r) s)', 'C35')
M('my04', Y, 'sha_majority', 'N.lor (N.land x y) (N.land (N.lor x y) z)', 'N.lor (N.land x y) (N.land (N.lor x y) x)', 'C31')
M('my05', Y, 'xstep', 'SHA1H n d => Some (xsetv d (mkv (rotl32 (v0 (xv s n)) 30) 0 0 0) s)', 'SHA1H n d => Some (xsetv d (mkv (rotl32 (v0 (xv s n)) 2) 0 0 0) s)', 'C31')
Z = 'Model_Trace.v'
M('tr01', Z, 'touched', '| MOVQ_load a _ => [(addr L s a, 8)]', '| MOVQ_load a _ => []', 'C55')
M('tr02', Z, 'touched', '| MOVL_store _ a | PINSRD _ a _ | PEXTRD_store _ _ a => [(addr L s a, 4)]', '| MOVL_store _ a | PEXTRD_store _ _ a => [(addr L s a, 4)]', 'C55')
M('tr03', Z, 'written', '| MOVL_store _ a | PEXTRD_store _ _ a => [(addr L s a, 4)]', '| PEXTRD_store _ _ a => [(addr L s a, 4)]', 'C36')
M('tr04', Z, 'aligned_16', 'match i with\n  | VMOVDQA (VM a) _ | VMOVDQA_store _ a\n', 'match i with\n', 'C36')
M('tr05', Z, 'trace', '(pc s, touched L i s) ::', '(0%nat, touched L i s) ::', 'C55')
M('tr06', Z, 'xtouched', '| MOVD_arg off _ => [((l_args L + off) mod M64, 8)]\n', '', 'C55')
M('tr07', Z, 'xwritten', '| VST1P _ r => [(xg s r, 16)]\n', '', 'C36')
M('tr08', Z, 'reached', '| r_step t i t\' : reached L prog s t -> nth_error prog (pc t) = Some i -> step_instr L i t = Some t\' -> reached L prog s t\'.', '| r_step i t\' : nth_error prog (pc s) = Some i -> step_instr L i s = Some t\' -> reached L prog s t\'.', 'C36')
S('am14', *A, 'amd64_prog', 'ADDQ SI, DX', 'ADDQ DI, DX', 'C20', 'C55')
S('am15', *A, 'amd64_prog', 'ADDQ $0x40, SI', 'ADDQ $0x40, SP', 'C54')
# --- work, table, dead code
W_ = 'Model_Work.v'
M('wk01', W_, 'g_rehash_n', 'true (S q) (snd r)', 'true q (snd r)', 'C56')
M('wk02', W_, 'checkLoop_n', 'Some (true, S t)', 'Some (true, t)', 'C56')
M('wk03', W_, 'checkCollision_n', 'if mask =? 0 then Some (false, t) else', 'if mask =? 0 then Some (false, S t) else', 'C56')
M('wk04', W_, 'asm_blocks_n', 'asm_blocks_n call fuel (k + 3)', 'asm_blocks_n call fuel (k + 2)', 'C56')
M('wk05', W_, 'process_loop_n', '(c_m1 c)) c, S (S q), S t)', '(c_m1 c)) c, S q, S t)', 'C56')
M('wk06', W_, 'sha1_process_n', 'process_loop_n dvs_c mask c 1 0', 'process_loop_n dvs_c mask c 0 0', 'C56')
M('tb01', 'Model_Table.v', 'store_dv', 'Some (upd i v T)', 'Some T', 'C52')
M('tb02', 'Model_Table.v', 'checkCollision_in', 'checkLoop T mask m1 cs h', 'checkLoop dvs_go mask m1 cs h', 'C52')
M('tb03', 'Model_Table.v', 'g_rehash_in', 'else Some (h, pw x, pcs x, col)\n    else', 'else Some (h, pw x, pcs x, false)\n    else', 'C52')
M('cd01', 'Model_CDead.v', 'sha1_compression', 'seq 16 64', 'seq 16 63', 'C50')
M('cd02', 'Model_CDead.v', 'sha1_compression', 'addst ihv (fold_left', 'addst st0 (fold_left', 'C50')
M('cd03', 'Model_CDead.v', 'item_with', 'if def g then mkcp', 'if negb (def g) then mkcp', 'C51')
M('cd04', 'Model_CDead.v', 'step_with', 'def g && (l =? step)%nat', '(l =? step)%nat', 'C51')
M('cd05', 'Model_CDead.v', 'step_with', 'if existsb (fun d => def (fst d) && (snd d =? t)%nat) recomp_defs\n    then', 'if true\n    then', 'C51')
# --- slices
M('sl06', L, 'h_make', 'mksl (length H) 0 n c', 'mksl (length H) 0 c c', 'C07')
M('sl07', L, 'h_append', 'Nat.max n grow', 'Nat.max n (s_cap s)', 'C07')
M('sl08', L, 'h_append', '(H ++ [contents H s ++ bs', '(H ++ [array H (s_arr s) ++ bs', 'C07')
M('sl09', L, 'h_reslice', 'if (n <=? s_cap s)%nat then Some', 'if (n <=? s_len s)%nat then Some', 'C07')
M('sl10', L, 'h_CRSum', 'Some (h_append grow H inp hash, dcol d0).', 'Some (h_append grow H inp hash, dcol d).', 'C07')
M('sl11', L, 'h_MarshalBinary', 'Some (h_append grow H b (appendUint64 (dlen d))).', 'Some (h_append grow H b (appendUint64 (shl64 (dlen d) 3))).', 'C07')
M('sl12', L, 'hexec', 'Some (mkh H\' (vs ++ [r]) ds, Some (OSum i (contents H sl), RBytes (contents H\' r)))', 'Some (mkh H (vs ++ [r]) ds, Some (OSum i (contents H sl), RBytes (contents H\' r)))', 'C07')
M('sl13', L, 'hexec', '| HWrite i v => do sl <- nth_error vs v; pure (OWrite i (contents H sl))', '| HWrite i v => do sl <- nth_error vs v; pure (OWrite i (array H (s_arr sl)))', 'C07')
M('sl14', L, 'splice', 'skipn (at_ + length bs) l', 'skipn (at_ + length bs + 1) l', 'C07')
# --- API programs
AP = 'Model_Api.v'
M('ap01', AP, 'exec', 'Some (ds ++ [New], RNew (length ds))', 'Some (ds ++ [zero_digest], RNew (length ds))', 'C02')
M('ap02', AP, 'exec', 'do (d, n) <- Write blk d p; Some (upd i d ds, RNum n)', 'do (d, n) <- Write blk d p; Some (upd 0 d ds, RNum n)', 'C02')
M('ap03', AP, 'exec', 'do b <- Sum blk d inp; Some (ds, RBytes b)', 'do b <- Sum blk d inp; Some (upd i (Reset d) ds, RBytes b)', 'C04')
M('ap04', AP, 'exec', 'do (d, e) <- UnmarshalBinary d b;\n      Some (upd i d ds,', 'do (d, e) <- UnmarshalBinary d b;\n      Some (ds,', 'C10')
AQ = 'Model_CApi.v'
M('ap05', AQ, 'c_exec', 'Some (upd i (cgo_Reset d) ds, RUnit)', 'Some (ds, RUnit)', 'C30')
M('ap06', AQ, 'capi_exec', '| CSetUseUBC v => Some (SHA1DCSetUseUBC c v, CNone)', '| CSetUseUBC v => Some (SHA1DCSetUseDetectColl c v, CNone)', 'C41')
M('ap07', AQ, 'capi_exec', '| CInit => Some (SHA1DCInit c, CNone)', '| CInit => Some (c, CNone)', 'C41')
# --- more of the C library
M('cc35', C, 'memcpy', '(at_ + n <=? length dst) && (n <=? length src)', '(at_ + n <=? length dst)', 'C41')
M('cc36', C, 'truth', 'negb (z =? 0)%Z', '(z =? 1)%Z', 'C41')
M('cc37', C, 'same_words', '(N.lxor (sd x) (sd y))', '(N.lxor (sd x) (sd x))', 'C38')
M('cc38', C, 'c_item', 'if defined g then mkcp', 'if true then mkcp', 'C51')
M('cc39', C, 'process_loop', 'else if 32 <=? maskB dv then None', 'else if 31 <=? maskB dv then None', 'C38')
M('cc40', C, 'SHA1DCSetSafeHash', '(if truth v then 1 else 0)%Z (c_detect c)', '(if truth v then 0 else 1)%Z (c_detect c)', 'C38')
M('cc41', C, 'SHA1DCSetUseDetectColl', '(c_safe c) (if truth v then 1 else 0)%Z (c_ubc c)', '(c_safe c) 1 (c_ubc c)', 'C38')
M('cc42', C, 'machine_word', 'if host_be cfg then be_val l else', 'if macro_be cfg then be_val l else', 'C44')
M('cc43', C, 'sub64', '(M64 - y mod M64)', '(M64 - y mod M64 + 1)', 'C30')
M('cc44', C, 'ubc_check', '0xFFFFFFFF', '0x7FFFFFFF', 'C22')
M('cc45', C, 'zero_ctx', '(repeat x00 64) 0 0', '(repeat x00 64) 1 0', 'C30')
M('cc46', C, 'cgo_Sum', 'Some h.', 'Some inp.', 'C30')
M('cc47', C, 'SHA1DCFinal', 'out (sa h) ++ out (sb h)', 'out (sb h) ++ out (sa h)', 'C30')
M('cc48', C, 'set_ihv2_m2', '(c_ihv1 c) x (c_m1 c) y', '(c_ihv1 c) x y (c_m2 c)', 'C38')
M('pp05', P, 'on_intel_like', '"__amd64__"; ', '"__aarch64__"; ', 'C44')
M('pp06', P, 'build', 'mkcfg be (bigendian m) (allow_unaligned m)', 'mkcfg be be (allow_unaligned m)', 'C44')
M('pp07', P, 'same', 'N.eqb a b', 'negb (N.eqb a b)', 'C44')
M('pp08', P, 'isdef', 'Some _ => true', 'Some n => negb (N.eqb n 0)', 'C44')
# --- more of the Go package
M('go30', G, 'copy_at', 'Nat.min (length dst - at_) (length src)', 'Nat.min (length dst) (length src)', 'C02')
M('go31', G, 'appendUint32', 'n2b (N.shiftr v 8); n2b v]', 'n2b v; n2b (N.shiftr v 8)]', 'C02')
M('go32', G, 'consumeUint32', '(shl32 (b2n b2) 8)', '(shl32 (b2n b2) 16)', 'C10')
M('go33', G, 'slice_to', 'if (n <=? length l)%nat then Some (firstn n l)', 'if (n <? length l)%nat then Some (firstn n l)', 'C06')
M('go34', G, 'UnmarshalBinary', 'Some (mkd (mkst h0 h1 h2 h3 h4) x', 'Some (mkd (mkst h0 h1 h2 h4 h3) x', 'C10')
M('go35', G, 'SumPkg', 'if early then dcol d else dcol d1', 'if early then dcol d1 else dcol d', 'C18')
M('go36', G, 'Write', 'if (0 <? dnx d)%nat then', 'if (1 <? dnx d)%nat then', 'C02')
M('gb28', G, 'g_par', 'N.lxor (N.lxor b c) d.', 'N.lxor (N.lxor b c) c.', 'C02')
M('gb29', G, 'g_pass', '(mkcs h (cs1 cs) (cs2 cs)) h in', '(mkcs (cs0 cs) (cs1 cs) (cs2 cs)) h in', 'C26')
M('gb30', G, 'body_load', 'upd i wi (pm x)', 'upd i 0 (pm x)', 'C02')
M('gb31', G, 'blockGeneric', 'Some (mkd h (dx d) (dnx d) (dlen d) col).', 'Some (mkd h (dx d) 0 (dlen d) col).', 'C06')
M('gb32', G, 'func4', 'g_round g_par K3', 'g_round g_par K1', 'C26')
# --- source text: build lines, methods, features
BU = lambda f: ('/repo/' + f, 'gen_build.py', 'Gen_Build.v')
ME = lambda f: ('/repo/' + f, 'gen_methods.py', 'Gen_Methods.v')
S('sb01', *BU('sha1cdblock_noasm.go'), 'pkg_sha1cd', '(!amd64 && !arm64) || noasm', '!amd64 || noasm', 'C49')
S('sb02', *BU('sha1cdblock_noasm.go'), 'pkg_sha1cd', '(!amd64 && !arm64) || noasm', '!amd64 && !arm64', 'C49')
S('sb03', *BU('sha1cdblock_amd64.s'), 'pkg_sha1cd', '//go:build !noasm && gc', '//go:build gc', 'C49')
S('sb04', *BU('sha1cdblock_amd64.go'), 'amd64_features', 'cpuid.CPU.Supports(cpuid.SHA) &&', 'cpuid.CPU.Supports(cpuid.AVX2) &&', 'C48')
S('sb05', *BU('cgo/fallback_no_cgo.go'), 'pkg_cgo', '//go:build !cgo', '//go:build cgo', 'C49')
S('sb06', *BU('cgo/fallback_no_cgo.go'), 'pkg_cgo', 'func Sum(data []byte) ([]byte, bool)', 'func Sum(data []byte) []byte', 'C49')
S('me01', *ME('sha1cd.go'), 'meths_sha1cd', 'func (d *digest) BlockSize() int', 'func (d *digest) BlockSize() uint', 'C57')
S('me02', *ME('sha1cd.go'), 'meths_sha1cd', 'func (d *digest) Reset()', 'func (d *digest) reset()', 'C57')
S('me03', *ME('cgo/sha1.go'), 'meths_cgo', 'CollisionResistantSum(in []byte) ([]byte, bool)', 'CollisionResistantSum(in []byte) []byte', 'C57')
S('ar08', *R, 'arm64_prog', 'VLD1.P\t16(R1), [V7.B16]', 'VLD1.P\t16(R2), [V7.B16]', 'C55')
S('ar09', *R, 'arm64_prog', 'SUB\t$16, R0, R0', 'SUB\t$32, R0, R0', 'C31')
# --- several blocks, README promises
S('am16', *A, 'amd64_prog', 'loop:\n\t// Save ABCD and E working values\n\tVMOVDQA X5, (AX)\n\tVMOVDQA X0, 16(AX)\n', '\tVMOVDQA X5, (AX)\n\tVMOVDQA X0, 16(AX)\nloop:\n', 'C60')
S('am17', *A, 'amd64_prog', '\tJNE  loop\n', '', 'C60')
S('am18', *A, 'amd64_prog', '\tJEQ  done\n', '', 'C60')
S('am19', *A, 'amd64_prog', 'ADDQ $0x40, SI', 'ADDQ $0x20, SI', 'C60')
S('ar10', *R, 'arm64_prog', 'CMP     R16, R21', 'CMP     R1, R21', 'C60', 'C35')
S('ar11', *R, 'arm64_prog', '    LSR     $6, R2, R2\n', '', 'C60')
S('ar12', *R, 'arm64_prog', 'LSL     $6, R2, R2', 'LSL     $5, R2, R2', 'C60')
S('dc01', *BU('sha1cd.go'), 'pkg_sha1cd', 'func New() hash.Hash {', 'func New() *digest {', 'C58')
S('dc02', *BU('sha1cd.go'), 'pkg_sha1cd', 'func Sum(data []byte) ([Size]byte, bool) {', 'func Sum(data []byte) [Size]byte {', 'C58')
S('dc03', *BU('sha1cd.go'), 'pkg_sha1cd', 'func New() hash.Hash {', 'func NewHash() hash.Hash {', 'C58')
M('dc04', G, 'checkLoop', 'else if N.land mask (shl32 1 (maskB dv)) =? 0 then', 'else if false then', 'C59')
# --- calls at the same time, programs with stores, changing input
CO = 'Model_Conc.v'
M('co01', CO, 'happen', '(see (shared S) c); Some (mksys (put k (L, c) (cores S)) (view c))', '(see (view c) c); Some (mksys (put k (L, c) (cores S)) (view c))', 'C61')
M('co02', CO, 'happen', '(mksys (put k (L, c) (cores S)) (view c))', '(mksys (put k (L, c) (cores S)) (if 0 =? 0 then shared S else view c))', 'C61')
M('co03', CO, 'put', '| _ :: q, O => x :: q', '| _ :: q, O => x :: put k x q', 'C61')
M('co04', CO, 'turn', '| Some RET => Some s', '| Some RET => None', 'C61')
M('co05', CO, 'xturn', '| Some ARET => Some s', '| Some ARET => None', 'C61')
M('co06', CO, 'happen', 'Some (mksys (cores S) (poke (shared S) a [b]))', 'Some S', 'C61')
PG = 'Model_Program.v'
M('pg01', PG, 'trun', 'do T <- store_dv T i v;', 'do _ <- store_dv T i v;', 'C52')
M('pg02', PG, 'trun', 'exec early (blockGeneric_in T) ds o', 'exec early blockGeneric ds o', 'C52')
M('pg03', PG, 'trun', '| TCall o :: r => do (ds, x)', '| TCall o :: r => do (_, x)', 'C52')
M('pg04', PG, 'calls', 'TStore _ _ => []', 'TStore _ _ => [ONew]', 'C52')
FE = 'Model_Fetch.v'
M('fe01', FE, 'load_at', '(m (t + (j + k))%nat (base + (j + k))%nat)', '(m (t + (j + k))%nat (j + k)%nat)', 'C62')
M('fe02', FE, 'load_at', '(shl32 (b 0%nat) 24)', '(shl32 (b 1%nat) 24)', 'C62')
M('fe03', FE, 'g_rehash_at', 'g_rehash_at m fuel t base (hi + 1) h (pw x) (pm x) (pcs x) true', 'g_rehash_at m fuel t base (hi + 1) h (pw x) (pm x) (pcs x) col', 'C62')
M('fe04', FE, 'g_rehash_at', 'let t := (t + 64)%nat in', 'let t := t in', 'C62')
M('fe05', FE, 'g_blocks_at', 'g_blocks_at m fuel t (base + 64) (len - 64) h w cs col', 'g_blocks_at m fuel t (base + 32) (len - 64) h w cs col', 'C62')
M('fe06', FE, 'asm_blocks_at', '(chunk_at m (k + 2) base)', '(chunk_at m (k + 2) (base + 64))', 'C62')
M('fe07', FE, 'asm_blocks_at', 'let cs := rectify m1 cs in', '', 'C62')
M('fe08', FE, 'Write_at', '(fun t i => m 1%nat t (base + i)%nat) n d', '(m 1%nat) n d', 'C62')
M('fe09', FE, 'Write_at', 'mkd (dh d) x n (dlen d) (dcol d)', 'mkd (dh d) x (dnx d + n) (dlen d) (dcol d)', 'C62')
M('fe10', FE, 'Write_at', 'let n := Nat.ldiff (len - base) (64 - 1) in', 'let n := 64%nat in', 'C62')
M('fe11', FE, 'Write_at', 'bytes_at (m 0%nat) 0 0 len', 'bytes_at (m 0%nat) 0 1 len', 'C62')
M('fe12', FE, 'c_item_at', 'let n := match k with FLoad => S n | _ => n end in', 'let n := match k with FLoad => n | _ => n end in', 'C62')
M('fe13', FE, 'sha1_load_at', '(base + (4 * i + k))%nat', '(base + (4 * i + 3 - k))%nat', 'C62')
M('fe14', FE, 'sha1_process_at', 'do c <- process_loop dvs_c mask c; Some (c, t)', 'Some (c, t)', 'C62')
M('fe15', FE, 'update_loop_at', 'do b <- memcpy (c_buffer c) 0 (bytes_at m t base 64) 64;\n                       let c := set_buffer b c in\n                       do c <- sha1_process cfg c (c_buffer c); Some (c, (t + 64)%nat)', 'do c <- sha1_process cfg c (c_buffer c); Some (c, (t + 64)%nat)', 'C62')
M('fe16', FE, 'SHA1DCUpdate_at', 'Some (c, fill, fill, (len - fill)%nat, 0%nat)', 'Some (c, fill, fill, (len - fill)%nat, left)', 'C62')
M('fe17', FE, 'SHA1DCUpdate_at', 'Some (c, fill, fill, (len - fill)%nat, 0%nat)', 'Some (c, fill, 0%nat, (len - fill)%nat, 0%nat)', 'C62')
M('fe18', FE, 'block_at', 'GenericAt => blockGeneric_at m len d', 'GenericAt => blockGeneric_at m (len - 64) d', 'C62')
# --- store buffers, C types, C memory, shared hasher
BF = 'Model_Buffer.v'
M('bf01', BF, 'overlay', 'fold_left (fun m e => poke m (fst e) [snd e]) q m', 'm', 'C61')
M('bf02', BF, 'overlay', 'fold_left (fun m e => poke m (fst e) [snd e]) q m', 'fold_left (fun m e => poke m (fst e) [snd e]) (rev q) m', 'C61')
M('bf03', BF, 'take', 'Some (c, (x, b) :: r)', 'Some (c, r)', 'C61')
M('bf04', BF, 'take', 'if x =? a then Some (b, q) else do (c, r) <- take a q; Some (c, (x, b) :: r)', 'match take a q with Some (c, r) => Some (c, (x, b) :: r) | None => if x =? a then Some (b, q) else None end', 'C61')
M('bf05', BF, 'entries', '(seq 0 (N.to_nat (snd r)))', '(seq 1 (N.to_nat (snd r)))', 'C61')
M('bf06', BF, 'bhappen', 'Some (mkbsys (put k (L, c, r) (bcores S)) (poke (bshared S) a [b]))', 'Some (mkbsys (put k (L, c, q) (bcores S)) (poke (bshared S) a [b]))', 'C61')
M('bf07', BF, 'bhappen', 'q ++ entries (view d) (stores L c)', 'entries (view d) (stores L c)', 'C61')
M('bf08', BF, 'bhappen', 'q ++ entries (view d) (stores L c)', 'q', 'C61')
M('bf09', BF, 'bhappen', 'let c := see (overlay (bshared S) q) c in', 'let c := see (bshared S) c in', 'C61')
M('bf10', BF, 'stored', 'Some i => written L i s\n', 'Some i => []\n', 'C61')
M('bf11', BF, 'xstored', 'Some i => xwritten L i s\n', 'Some i => tl (xwritten L i s)\n', 'C61')
CT = 'Model_CTypes.v'
M('ct01', CT, 'int', '(- 2 ^ (w - 1) <=? z) && (z <? 2 ^ (w - 1))', '(- 2 ^ (w - 1) <? z) && (z <? 2 ^ (w - 1) - 1)', 'C63')
M('ct02', CT, 'load', 'if 32 <? w then VI n else VU n', 'VI n', 'C63')
M('ct03', CT, 'load', 'if 32 <? w then VI n else VU n', 'VU n', 'C63')
M('ct04', CT, 'shl', 'then int (a * 2 ^ c) else None', 'then Some (VI (a * 2 ^ c)) else None', 'C63')
M('ct05', CT, 'shr', '| VU a => if (0 <=? c) && (c <? 32) then Some (VU (a / 2 ^ c)) else None', '| VU a => if (0 <=? c) && (c <? 31) then Some (VU (a / 2 ^ c)) else None', 'C63')
M('ct06', CT, 'shl', 'if (0 <=? c) && (c <? 32) then Some (VU ((a * 2 ^ c) mod two32)) else None', 'if (0 <=? c) && (c <? 31) then Some (VU ((a * 2 ^ c) mod two32)) else None', 'C63')
M('ct07', CT, 'literal', 'if n <? 2 ^ (w - 1) then Some (VI n) else', 'if n <? 2 ^ w then Some (VI n) else', 'C63')
M('ct08', CT, 'arith', '| _, _ => Some (VU (f (tou x) (tou y) mod two32))', '| _, _ => Some (VU (f (tou x) (tou y)))', 'C63')
M('ct09', CT, 'ceval', '| VU z => VU (Z.lnot z mod two32)', '| VU z => VI (Z.lnot z)', 'C63')
M('ct10', CT, 'crun', 'if t then crun w W b mask else Some mask', 'if t then Some mask else crun w W b mask', 'C63')
M('ct11', CT, 'e_rotate_left', 'EOr (EShl x n) (EShr x (ESub (EL 32) n))', 'EOr (EShl x n) (EShr x (ESub (EL 31) n))', 'C63')
M('ct12', CT, 'e_f', 'EAdd (EAnd b c) (EAnd d (EXor b c))', 'EAdd (EAnd b c) (EAnd d (EOr b c))', 'C63')
M('ct13', CT, 'e_bswap1', '(EL 0xFF00FF00)', '(EL 0xFF00FFFF)', 'C63')
M('ct14', CT, 'e_K', '0x8F1BBCDC', '0x8F1BBCDD', 'C63')
CU = 'Model_CTyped.v'
M('cu01', CU, 't_step', 'do b <- t_rotl30 (getv (cs_b k) s); Some (setv (cs_b k) b s).\n  (** Lines 187', 'do b <- t_rotl30 (getv (cs_b k) s); Some s.\n  (** Lines 187', 'C63')
M('cu02', CU, 't_step_bw', 'do b <- t_rotr30 (getv (cs_b k) s);', 'do b <- t_rotl30 (getv (cs_b k) s);', 'C63')
M('cu03', CU, 't_load', 'if macro_be cfg then Some temp', 'if negb (macro_be cfg) then Some temp', 'C63')
M('cu04', CU, 't_recompress_fast', 'if (fst p <? t)%nat', 'if (fst p <=? t)%nat', 'C63')
M('cu05', CU, 't_process_loop', 'do h <- t_compression_W h (c_m1 c);\n', '', 'C63')
M('cu06', CU, 't_bit', '(EShl (ECast (EL 1)) (EL b))', '(EShl (EL 1) (EL b))', 'C63')
M('cu07', CU, 't_process', 'assigned w (from []) (EL 0xFFFFFFFF)', 'assigned w (from []) (EL 0x7FFFFFFF)', 'C63')
M('cu08', CU, 't_padn', 'ESub (EL 120) o0', 'ESub (EL 56) o0', 'C63')
M('cu09', CU, 't_same', '(e_same EV (fun i => EV (5 + i)))', '(e_same EV (fun i => EV (4 + i)))', 'C63')
M('cu10', CU, 't_out', '(EShr o0 (EL 8)); do d', '(EShr o0 (EL 7)); do d', 'C63')
CM = 'Model_CMem.v'
M('cm01', CM, 'ctx_fields', '("total", 8, a64 t); ("ihv", 20, a32 t);', '("total", 8, a64 t); ("flag", 1, 1); ("ihv", 20, 1);', 'C64')
M('cm02', CM, 'load32', 'if a mod a32 t =? 0 then', 'if true then', 'C64')
M('cm03', CM, 'load32', 'if a mod a32 t =? 0 then', 'if a mod (2 * a32 t) =? 0 then', 'C64')
M('cm04', CM, 'mcopy', 'if (dst + N.of_nat n <=? src) || (src + N.of_nat n <=? dst) then', 'if (dst + N.of_nat n <? src) || (src + N.of_nat n <? dst) then', 'C64')
M('cm05', CM, 'm_load', '(b + 4 * N.of_nat i)', '(b + 4 * N.of_nat i + 1)', 'C64')
M('cm06', CM, 'm_loop', 'm_loop fuel m c (b + 64) (n - 64)', 'm_loop fuel m c b (n - 64)', 'C64')
M('cm07', CM, 'm_loop', 'if unaligned cfg then do c <- m_process m c b; Some (m, c)', 'if negb (unaligned cfg) then do c <- m_process m c b; Some (m, c)', 'C64')
M('cm08', CM, 'm_Update', 'do m <- mcopy m (buffer_at + N.of_nat left) b fill;', 'do m <- mcopy m buffer_at b fill;', 'C64')
M('cm09', CM, 'm_Update', 'Some (m, c, b + N.of_nat fill, (n - fill)%nat, 0%nat)', 'Some (m, c, b + N.of_nat fill, (n - fill)%nat, left)', 'C64')
M('cm10', CM, 'm_Final', 'mstore m (buffer_at + 56)', 'mstore m (buffer_at + 55)', 'C64')
M('cm11', CM, 'm_Final', '(mstore m out (o (sa h)', '(mstore m (out + 1) (o (sa h)', 'C64')
M('cm12', CM, 'm_Final', 'o (sd h) ++ o (se h)), c, c_found c)', 'o (sd h) ++ o (se h) ++ [x00]), c, c_found c)', 'C64')
M('cm13', CM, 'place', 'place (o + s) l', 'place (o + s + a) l', 'C64')
RA = 'Model_Race.v'
M('ra01', RA, 'r_Write', 'Rd LLEN (fun len => Wr LLEN ((len + N.of_nat nn) mod M64) (', 'Rd LLEN (fun len => Wr LLEN (len mod M64) (', 'C65')
M('ra02', RA, 'r_Write', 'bind (r_block blk None) (fun _ => Wr LNX 0 (Ret tt))', 'bind (r_block blk None) (fun _ => Ret tt)', 'C65')
M('ra03', RA, 'r_block', 'if dcol d then Wr LCOL 1 (wr_h (dh d) (Ret tt)) else wr_h (dh d) (Ret tt)', 'wr_h (dh d) (Ret tt)', 'C65')
M('ra04', RA, 'r_block', 'if dcol d then Wr LCOL 1 (wr_h (dh d) (Ret tt)) else wr_h (dh d) (Ret tt)', 'if dcol d then Wr LCOL 1 (wr_h (dh d) (Ret tt)) else Wr LCOL 0 (wr_h (dh d) (Ret tt))', 'C65')
M('ra05', RA, 'r_call', '| OSum _ inp => copied', '| OSum _ inp => (fun k => Wr LNX 0 (copied k))', 'C65')
M('ra06', RA, 'r_Reset', '(Wr LNX 0 (Wr LLEN 0 (Wr LCOL 0 (Ret tt))))', '(Wr LNX 0 (Wr LLEN 0 (Ret tt)))', 'C65')
M('ra07', RA, 'r_Unmarshal', 'Wr LNX (len mod 64) (Ret None)', 'Wr LNX 0 (Ret None)', 'C65')
M('ra08', RA, 'r_Marshal', "firstn n (b ++ repeat x00 (n - length b))", "b", 'C65')
M('ra09', RA, 'r_Write', 'wr_bytes (N.to_nat nx) (firstn n p) (', 'wr_bytes 0 (firstn n p) (', 'C65')
M('ra10', RA, 'interleave', 'interleave m (upd i a ts) r', 'interleave m ts r', 'C65')
M('ra11', RA, 'one', '| Wr l v k => (put_at m l v, k)', '| Wr l v k => (m, k)', 'C65')
M('ra12', RA, 'digest_of', '(negb (m LCOL =? 0))', '(m LCOL =? 0)', 'C65')
M('ra13', RA, 'gloc_eqb', '| LH i, LH j | LX i, LX j => (i =? j)%nat', '| LH i, LH j | LX i, LX j => true', 'C65')
M('ra14', RA, 'r_call', 'reads (gc_order c) locals', 'reads (tl (gc_order c)) locals', 'C65')
CR = 'Model_CRace.v'
M('cr01', CR, 'r_Update', 'let fill := (64 - left)%nat in', 'let fill := (63 - left)%nat in', 'C66')
M('cr02', CR, 'r_Update', 'negb (left =? 0) && (fill <=? length buf)', 'negb (left =? 0) && (fill <? length buf)', 'C66')
M('cr03', CR, 'r_Update', '(fun _ => Ret (skipn fill buf, 0%nat))', '(fun _ => Ret (skipn fill buf, left))', 'C66')
M('cr04', CR, 'r_Update', 'Wr KTotal (VN (add64 (as_N t) (N.of_nat (length buf))))', 'Wr KTotal (VN (as_N t))', 'C66')
M('cr05', CR, 'r_update_loop', 'Wr KTotal (VN (add64 (as_N t) 64))', 'Wr KTotal (VN (add64 (as_N t) 65))', 'C66')
M('cr06', CR, 'r_update_loop', 'wr_buf 0 (firstn 64 buf) (r_process cfg None)', 'wr_buf 0 (firstn 63 buf) (r_process cfg None)', 'C66')
M('cr07', CR, 'r_process', 'Wr KFound (VZ (c_found c)) (Wr KIhv', '(Wr KIhv', 'C66')
M('cr08', CR, 'r_process', '(Wr KStates (VL (c_states c))', '(Wr KStates (VL (tl (c_states c)))', 'C66')
M('cr09', CR, 'r_Init', '(Wr KReduced (VZ 0)', '(Wr KReduced (VZ 1)', 'C66')
M('cr10', CR, 'r_Init', '(Wr KCallback (VN 0) (Ret tt))', '(Ret tt)', 'C66')
M('cr11', CR, 'r_Init', 'Wr KFound (VZ 0) (Wr KSafe', '(Wr KSafe', 'C66')
M('cr12', CR, 'rc_call', '| OSum _ inp => copied', '| OSum _ inp => (fun k => Wr KFound (VZ 0) (copied k))', 'C66')
M('cr13', CR, 'rc_call', 'creads (cc_order c) cempty', 'creads (tl (cc_order c)) cempty', 'C66')
M('cr14', CR, 'wr_buf', 'wr_buf (S at_) l k', 'wr_buf at_ l k', 'C66')
M('cr15', CR, 'ctx_of', '(as_S (m KIhv1)) (as_S (m KIhv2))', '(as_S (m KIhv2)) (as_S (m KIhv1))', 'C66')
M('cr16', CR, 'r_Update', 'Rd KTotal (fun t =>\n  let left := N.to_nat (N.land (as_N t) 63) in', 'Rd KTotal (fun t =>\n  let left := N.to_nat (N.land (as_N t) 127) in', 'C66')

# Effective types in the C code
CE = 'Model_CEff.v'
M('ce01', CE, 'word_ok', 'match t with EChar => false | _ => true end', 'match t with EWord => true | _ => false end', 'C67')
M('ce02', CE, 'word_ok', 'match t with EChar => false | _ => true end', 'true', 'C67')
M('ce03', CE, 'e_new', '(if declared then EChar else Untyped)', 'Untyped', 'C67')
M('ce04', CE, 'e_copy', 'if e_declared x then e_tags x else firstn at_', 'firstn at_', 'C67')
M('ce05', CE, 'e_copy', 'firstn n ts ++ skipn (at_ + n)', 'firstn n ts ++ skipn at_', 'C67')
M('ce06', CE, 'e_store', '(repeat Untyped n)', '(repeat EChar n)', 'C67')
M('ce07', CE, 'e_process', 'if forallb word_ok ts then', 'if existsb word_ok ts then', 'C67')
M('ce08', CE, 'e_update_loop', '(firstn 64 ts); Some', '(e_tags x); Some', 'C67')
M('ce09', CE, 'e_update_loop', 'let tags := e_copy x 0 64 ts in', 'let tags := e_tags x in', 'C67')
M('ce10', CE, 'e_update_loop', '(skipn 64 buf) (skipn 64 ts)', '(skipn 64 buf) ts', 'C67')
M('ce11', CE, 'e_Update', 'let tags := e_copy x left fill ts in', 'let tags := e_copy x 0 fill ts in', 'C67')
M('ce12', CE, 'e_Update', '(e_copy x left (length buf) ts))', '(e_tags x))', 'C67')
M('ce13', CE, 'e_Final', 'e_Final_with EChar.', 'e_Final_with Untyped.', 'C67')
M('ce14', CE, 'e_Final_with', 'if last <? 56 then', 'if last <? 57 then', 'C67')
M('ce15', CE, 'e_Final_with', 'let tags := e_store x 56 8 in', 'let tags := repeat Untyped 64 in', 'C67')
M('ce16', CE, 'e_Final_with', 'sub64 (c_total c) padn', 'c_total c', 'C67')

# Tests and benchmarks
TE = 'Model_Tests.v'
M('te01', TE, 'run_test', '| Pass => Some true', '| Pass => Some false', 'C68')
M('te02', TE, 'run_test', '| Fail => Some false', '| Fail => Some true', 'C68')
M('te03', TE, 'run_test', 'do (cs, r) <- c_exec cfg cs o; run_test early cfg ms (S n) ds cs (k r)', 'do (cs2, r) <- c_exec cfg cs o; run_test early cfg ms (S n) ds cs (k r)', 'C68')
M('te04', TE, 'each', 'body a (each l body k)', 'body a k', 'C68')
M('te05', TE, 't_sum', '(OSum i [])', '(OSum i [x00])', 'C68')
M('te06', TE, 'same', 'then true else false', 'then true else true', 'C68')
M('te07', TE, 'hexdigit', '87 + n', '55 + n', 'C68')
M('te08', TE, 'hexdigit', 'n <? 10', 'n <? 11', 'C68')
M('te09', TE, 'hex', '[hexdigit (b2n x / 16); hexdigit (b2n x mod 16)]', '[hexdigit (b2n x mod 16); hexdigit (b2n x / 16)]', 'C68')
M('te10', TE, 'golden_entry', 'require (same (hex v) out) $ t_new', 't_new', 'C68')
M('te11', TE, 'golden_entry', 'fun s => require (same (hex s) out) $ t_reset InGo c $', 'fun s => require (same (hex s) out) $', 'C68')
M('te12', TE, 'golden_entry', 't_write InGo c (firstn half inp)', 't_write InGo c inp', 'C68')
M('te13', TE, 'golden_entry', 't_write InGo c (skipn half inp) $', '', 'C68')
M('te14', TE, 'golden_entry', 'require (same (hex s) out) $ t_reset InGo c k', 't_reset InGo c k', 'C68')
M('te15', TE, 'TestGolden', 'each golden golden_entry (each golden golden_entry Pass)', 'each golden golden_entry Pass', 'C68')
M('te16', TE, 'marshal_entry', 't_reset InGo h $ t_reset InGo h2 $', 't_reset InGo h2 $', 'C68')
M('te17', TE, 'marshal_entry', 't_reset InGo h $ t_reset InGo h2 $', 't_reset InGo h $', 'C68')
M('te18', TE, 'marshal_entry', 't_unmarshal h2 state', 't_unmarshal h2 (snd g ++ [x00])', 'C68')
M('te19', TE, 'marshal_entry', 'require (same state (snd g)) $ ', '', 'C68')
M('te20', TE, 'marshal_entry', 't_write InGo h2 (skipn half inp) $', '', 'C68')
M('te21', TE, 'TestSize', '(n =? Size)', '(n =? Chunk)', 'C68')
M('te22', TE, 'TestBlockSize', '(n =? Chunk)', '(n =? Size)', 'C68')
M('te23', TE, 'large_entry', 't_unmarshal h (fst g) (t_sum', '(t_sum', 'C68')
M('te24', TE, 'large_entry', '(same (hex s) (snd g))', '(same s (snd g))', 'C68')
M('te25', TE, 'detection_entry', 't_reset (fst h) (snd h) (t_write', '(t_write', 'C68')
M('te26', TE, 'detection_entry', 'Bool.eqb v (snd (snd g)) && ', '', 'C68')
M('te27', TE, 'detection_entry', ' && same (hex s) (fst (snd g))', '', 'C68')
M('te28', TE, 'TestCollisionDetection', '[(InCgo, a); (InGo, b); (InGo, c)]', '[(InGo, b); (InGo, c)]', 'C68')
M('te29', TE, 'TestCollisionDetection', '[(InCgo, a); (InGo, b); (InGo, c)]', '[(InCgo, a)]', 'C68')
M('te30', TE, 'fuzz_entry', 't_reset InGo g (t_reset InCgo c', '(t_reset InCgo c', 'C68')
M('te31', TE, 'fuzz_entry', '(same gv cv && Bool.eqb gc cc)', '(same gv cv)', 'C68')
M('te32', TE, 'fuzz_entry', '(same gv cv && Bool.eqb gc cc)', '(Bool.eqb gc cc)', 'C68')
M('te33', TE, 'TestCalculateDvMask', 'CalculateDvMask (Some W)', 'CalculateDvMask (Some (W ++ W))', 'C68')
BE = 'Model_Bench.v'
M('be01', BE, 'b_reset', 'BGo m (Reset d)', 'BGo m d', 'C69')
M('be02', BE, 'b_reset', 'BCgo (cgo_Reset d)', 'BCgo d', 'C69')
M('be03', BE, 'b_write', 'do (d, _) <- cgo_Write cfg d p; Some (BCgo d)', 'do (d2, _) <- cgo_Write cfg d p; Some (BCgo d)', 'C69')
M('be04', BE, 'b_iter', 'h_reslice w 0', 'Some w', 'C69')
M('be05', BE, 'b_iter', 'h_reslice w 0', 'h_reslice w 20', 'C69')
M('be06', BE, 'b_iter', '(contents H v)', '(contents H w)', 'C69')
M('be07', BE, 'b_loop', 'b_loop cfg grow n H h v w\n', 'b_loop cfg grow n H h w v\n', 'C69')
M('be08', BE, 'BenchmarkHashWithCollision', 'b_loop cfg grow n H h v v', 'b_loop cfg grow 1 H h v v', 'C69')
M('be09', BE, 'BenchmarkHashWithCollision', 'do (H, _) <- b_loop', 'do (H2, _) <- b_loop', 'C69')
M('be10', BE, 'alloc_loop', 'alloc_loop cfg grow n H h v r', 'alloc_loop cfg grow n H h v w', 'C69')
M('be11', BE, 'alloc_loop', 'alloc_loop cfg grow n H h v r', 'alloc_loop cfg grow n H h r w', 'C69')
M('be12', BE, 'h_cgo_Sum', 'h_append grow H inp h', 'h_append grow H inp (h ++ h)', 'C69')
SL2 = 'Model_Slice.v'
M('be13', SL2, 'h_append', 'if (n <=? s_cap s)%nat\n', 'if (n <? s_cap s)%nat\n', 'C69')
M('be14', SL2, 'h_append', '(s_off s + s_len s) bs) H,', '(s_len s) bs) H,', 'C69')
M('be15', SL2, 'h_Sum', 'Some (h_append grow H inp hash).\nDefinition h_CRSum', 'Some (let (H, b) := h_make H 0 20 in h_append grow H b hash).\nDefinition h_CRSum', 'C69')
CI = 'Model_CInit.v'
M('ci01', CI, 'i_Init', '(Some 0%Z) (Some 1%Z) (Some 1%Z)', '(i_found c) (Some 1%Z) (Some 1%Z)', 'C72')
M('ci02', CI, 'i_Init', '(Some 0%Z) (Some 0) (i_ihv1 c)', '(i_reduced c) (Some 0) (i_ihv1 c)', 'C72')
M('ci03', CI, 'i_Init', 'mkictx (Some 0) (Some', 'mkictx (i_total c) (Some', 'C72')
M('ci04', CI, 'i_memcpy', 'map Some (firstn n src) ++', 'map Some (firstn (n - 1) src) ++ [None] ++', 'C72')
M('ci05', CI, 'i_mix', 'read_at W (t - 16)', 'read_at W t', 'C72')
M('ci06', CI, 'i_item', 'upd t (Some temp) (ip_W x)', '(ip_W x)', 'C72')
M('ci07', CI, 'i_item', 'if defined g then mkip', 'if negb (defined g) then mkip', 'C72')
M('ci08', CI, 'i_process', 'do ihv <- i_ihv c;\n  let c := i_set_ihv1', 'do ihv <- i_ihv c; do x <- i_ihv2 c;\n  let c := i_set_ihv1', 'C72')
M('ci09', CI, 'i_process', 'let c := i_set_ihv1 ihv c in\n', '', 'C72')
M('ci10', CI, 'i_update_loop', 'do b <- i_memcpy (i_buffer c) 0 buf 64;', 'do b <- i_memcpy (i_buffer c) 0 buf 63;', 'C72')
M('ci11', CI, 'i_Update', 'do b <- i_memcpy (i_buffer c) left buf fill;', 'do b <- i_memcpy (i_buffer c) left buf (fill - 1);', 'C72')
M('ci12', CI, 'i_Update', 'let fill := (64 - left)%nat in', 'let fill := (63 - left)%nat in', 'C72')
M('ci13', CI, 'i_Final', 'n2b total] 8;', 'n2b total] 4;', 'C72')
M('ci14', CI, 'i_Final', '56 - last else', '55 - last else', 'C72')
M('ci15', CI, 'i_Update', 'if (length buf =? 0)%nat then Some c else\n', '', 'C72')
M('ci16', CI, 'i_process_loop', 'do m1 <- read_all (i_m1 c);', 'do m1 <- read_all (i_m2 c);', 'C72')
M('ci17', CI, 'i_process_loop', 'read_at (i_states c) (N.to_nat (testT dv))', 'read_at (i_states c) (N.to_nat (testT dv) - 1)', 'C72')
M('cq01', C, 'SHA1DCInit', '0 1 1 1 0 0 (c_ihv1 c)', '0 1 1 1 0 1 (c_ihv1 c)', 'C71')
M('cq02', C, 'SHA1DCInit', '0 1 1 1 0 0 (c_ihv1 c)', '0 1 1 1 0 (c_callback c) (c_ihv1 c)', 'C71')
M('cq03', CM, 'm_Update', 'do m <- mcopy m (buffer_at + N.of_nat left) b n;\n', 'do m <- mcopy m (buffer_at + 64 + N.of_nat left) b n;\n', 'C71')
M('cq04', CM, 'm_Final', 'Some (mstore m out (', 'Some (mstore m P (', 'C71')
M('cq05', CM, 'm_Update', '      Some (m, c)\n    else Some (m, c)', '      Some (m, set_ihv1 (mkst A A A A A) c)\n    else Some (m, c)', 'C71')
LK = 'Model_Leak.v'
M('lk01', LK, 'lbind', '(fst m ++ fst r, snd r)', '(fst r ++ fst m, snd r)', 'C73')
M('lk02', LK, 'l_loop', "let* _ := test true in let* x := f x i in", 'let* x := f x i in', 'C73')
M('lk03', LK, 'l_ueval', 'let* b := test (negb (v =? 0)) in\n    if b then', 'let* b := lret (negb (v =? 0)) in\n    if b then', 'C73')
M('lk04', LK, 'l_ueval', 'if b then lret 1 else let* u := l_ueval W mask y in', 'let* u := l_ueval W mask y in if b then lret 1 else', 'C73')
M('lk05', LK, 'l_ueval', 'let* b := test (v =? 0) in lret (b2w b)', 'lret (b2w (v =? 0))', 'C73')
M('lk06', LK, 'l_urun', 'let* t := test (negb (v =? 0)) in', 'let* t := test (v =? 0) in', 'C73')
M('lk07', LK, 'l_urun', 'let* t := test (negb (v =? 0)) in', 'let* t := lret (negb (v =? 0)) in', 'C73')
M('lk08', LK, 'l_undo', 'let* t := test (i <? step)%nat in\n  if t then', 'let* t := test (i <? step)%nat in\n  let* _ := test (se s =? 0) in\n  if t then', 'C73')
M('lk09', LK, 'l_undo', 'let* x := rd AM1 m1 i 0 in', "let* _ := ([EIx AM1 (N.to_nat (sa s))], Some tt) in let* x := rd AM1 m1 i 0 in", 'C73')
M('lk10', LK, 'l_redo', 'test (step <=? i)%nat', 'test (step <? i)%nat', 'C73')
M('lk11', LK, 'l_hasCollided', '  test ((N.lor', '  let* _ := test (sa ihv =? sa h) in test ((N.lor', 'C73')
M('lk12', LK, 'l_hasCollided', '  test ((N.lor', '  let* _ := test (sa h =? 0) in test ((N.lor', 'C73')
M('lk13', LK, 'l_checkLoop', 'let* t := test (negb (N.land mask', 'let* t := lret (negb (N.land mask', 'C73')
M('lk14', LK, 'l_checkLoop', 'let* t := test col in', 'let* t := lret col in', 'C73')
M('lk15', LK, 'l_checkLoop', 'if t then lret true else l_checkLoop (S row)', 'let* _ := l_checkLoop (S row) rest mask m1 cs h in if t then lret true else l_checkLoop (S row)', 'C73')
M('lk16', LK, 'l_checkLoop', "let* _ := ([EIx ATable row], Some tt) in", "let* _ := ([EIx ATable (N.to_nat (sa h))], Some tt) in", 'C73')
M('lk17', LK, 'l_checkCollision', 'if t then l_checkLoop', 'if negb t then l_checkLoop', 'C73')
M('lk18', LK, 'l_load', "let* _ := ([EIx AP (off + j)], Some tt) in", "let* _ := ([EIx AP (off + j + N.to_nat (load p 0))], Some tt) in", 'C73')
M('lk19', LK, 'l_body_load', 'let* wi := rd AW w (Nat.land i 15) 0 in', 'let* wi := rd AW w (N.to_nat (sa (ps x)) mod 16) 0 in', 'C73')
M('lk20', LK, 'l_body_mix', 'let* _ := match at_', 'let* _ := test (sa (ps x) =? 0) in let* _ := match at_', 'C73')
M('lk21', LK, 'l_body_mix', 'let* w8 := rd AW w (Nat.land (i - 8) 15) 0 in', 'let* w8 := rd AW w (Nat.land (i - 7) 15) 0 in', 'C73')
M('lk22', LK, 'l_rehash', 'let* t := test (hi =? 2)%nat in', 'let* t := test (hi =? 2)%nat in let* _ := test (sa h =? 0) in', 'C73')
M('lk23', LK, 'l_rehash', 'let* c := test c in', 'let* c := lret c in', 'C73')
M('lk24', LK, 'l_rehash', '(pw x) (pm x) (pcs x) true', '(pw x) (pm x) (pcs x) col', 'C73')
M('lk25', LK, 'l_blocks', '(off + 64)', 'off', 'C73')
M('lk26', LK, 'l_write_blocks', 'let* d := blk d q in', 'let* _ := test (dcol d) in let* d := blk d q in let* _ := test (dcol d) in', 'C73')
M('lk27', LK, 'l_write_rest', 'let* r := l_write_blocks blk d p in', "let* r := l_write_blocks blk d p in let* _ := test (sa (dh (fst r)) =? 0) in", 'C73')
M('lk28', LK, 'l_Write', 'let* t := test (length p =? 0)%nat in', "let* t := test (length p =? 0)%nat in let* _ := test (Byte.eqb (nth 0 p x00) x00) in", 'C73')
M('lk29', LK, 'l_checkSum', 'let* r := l_Write blk d padlen in', "let* r := l_Write blk d padlen in let* _ := test (sa (dh (fst r)) =? 0) in", 'C73')
M('lk30', LK, 'l_session', 'let* x := l_CollisionResistantSum blk d inp in', "let* x := l_CollisionResistantSum blk d inp in let* _ := test (Byte.eqb (nth 0 (fst x) x00) x00) in", 'C73')
M('lk31', LK, 'l_session', 'let* r := l_session blk d os in', "let* r := l_session blk New os in", 'C73')
LA = 'Model_LeakAsm.v'
M('la01', LA, 'l_call', '([EAsm (rec k h p m1 cs)],', '([EAsm (rec k h p m1 cs); EBr (sa h =? 0)],', 'C74')
M('la02', LA, 'l_rectify', 'let* _ := test false in', 'let* _ := test (sa (cs1 cs) =? 0) in', 'C74')
M('la03', LA, 'l_rectify', 'rd AM1 m1 57 0', 'rd AM1 m1 (N.to_nat (nth 0 m1 0)) 0', 'C74')
M('la04', LA, 'l_rectify', 'lret (rectify m1 cs)', 'lret cs', 'C74')
M('la05', LA, 'l_asm_blocks', 'let* c := test c in', 'let* c := test c in let* _ := test (sa h =? 0) in', 'C74')
M('la06', LA, 'l_asm_blocks', 'h m1 cs true', 'h m1 cs col', 'C74')
M('la07', LA, 'l_asm_blocks', 'let* r := l_call call rec (k + 2)%nat h chunk m1 cs in', 'let* r := lret (h, m1, cs) in', 'C74')
M('la08', LA, 'rec_amd64', 'amd64_prog 1000 (entry', 'amd64_prog (N.to_nat (sa h)) (entry', 'C74')
M('la09', LA, 'rec_arm64', 'arm64_prog 1000 (aentry', 'arm64_prog (length p + N.to_nat (nth 0 m1 0)) (aentry', 'C74')
M('la10', LA, 'l_asm_blocks', 'let* c := l_checkCollision m1 cs h in', 'let* c := lopt (checkCollision m1 cs h) in', 'C74')
M('la11', LA, 'l_asm_block', 'let* _ := test false in', 'let* _ := test (dcol d) in', 'C74', nth=1)
M('la12', LA, 'l_asm_blocks', 'let* c := test c in', 'let* c := test (orb c col) in', 'C74')
M('la13', LA, 'l_asm_blocks', 'let* cs := l_rectify m1 cs in', 'let* _ := test col in let* cs := l_rectify m1 cs in', 'C74')
M('la14', LK, 'l_write_buf', 'let* d := blk d (dx d) in', 'let* d := blk d (dx d) in let* _ := test (sb (dh d) =? 0) in', 'C74')
M('la15', LK, 'l_write_blocks', 'let* d := blk d q in', 'let* d := blk (mkd (dh d) (dx d) (dnx d) (dlen d) false) q in', 'C74')
M('la16', LK, 'l_rehash', 'let* t := test (hi =? 2)%nat in', 'let* _ := test col in let* t := test (hi =? 2)%nat in', 'C74')
RC = 'Model_Rectify.v'
M('rc01', RC, 'r_func3', 'N.land (N.lor b c) d', 'N.land (N.lxor b c) d', 'C75')
M('rc02', RC, 'r_func3', 'K2 in', 'K3 in', 'C75')
M('rc03', RC, 'r_func3', 'rotl32 b 30; c; d].\nDefinition r_func4', 'rotl32 b 2; c; d].\nDefinition r_func4', 'C75')
M('rc04', RC, 'r_func4', 'N.lxor (N.lxor b c) d', 'N.lor (N.lxor b c) d', 'C75')
M('rc05', RC, 'r_func4', 'K3 in', 'K2 in', 'C75')
M('rc06', RC, 'rectifyCompressionState', '(nth 1 cs []) 56', '(nth 1 cs []) 57', 'C75')
M('rc07', RC, 'rectifyCompressionState', 'r_func3 m1 cs57 57', 'r_func3 m1 cs57 56', 'C75')
M('rc08', RC, 'rectifyCompressionState', '(nth 2 cs []) 64', '(nth 1 cs []) 64', 'C75')
M('rc09', RC, 'rectifyCompressionState', '(nth 2 cs []) 64', '(nth 2 cs []) 65', 'C75')
M('rc10', RC, 'rectifyCompressionState', 'upd 2 c2 cs', 'upd 0 c2 cs', 'C75')
M('rc11', RC, 'rectifyCompressionState', '| None => Some None', '| None => None', 'C75')
M('rc12', RC, 'deref', 'do l <- p; Some (nth i l d)', 'Some (match p with Some l => nth i l d | None => d end)', 'C75')
M('rc13', RC, 'rectify_tests', '0x24AD25B3', '0x24AD25B4', 'C75')
M('rc14', RC, 'rectify_check', '| None => Some (match cs with None => true | Some _ => false end)', '| None => Some (match cs with None => false | Some _ => true end)', 'C75')
