[{"id": "z001", "definition": "put32", "desc": "one byte past the end allowed", "breaks": ["C104"], "edits": [["Mem.v", "(i + 4 <=? len d)", "(i + 3 <=? len d)"]]}, {"id": "z002", "definition": "put32", "desc": "only the low 3 bytes are kept from being overwritten", "breaks": ["C104"], "edits": [["Mem.v", "drop (i + 4) d)", "drop (i + 3) d)"]]}, {"id": "z003", "definition": "append_front", "desc": "Sum does not store in place when it just fits", "breaks": ["C104"], "edits": [["Mem.v", "len s <=? len d", "len s <? len d"]]}, {"id": "z004", "definition": "append_front", "desc": "the rest of the buffer is cut off", "breaks": ["C104"], "edits": [["Mem.v", "then s ++ drop (len s) d else", "then s else"]]}, {"id": "z005", "definition": "header_mem", "desc": "version in front of the magic", "breaks": ["C104"], "edits": [["Mem.v", "store s (len magic) (z2b sigtool_version)", "store s 0 (z2b sigtool_version)"]]}, {"id": "z006", "definition": "header_mem", "desc": "length stored over the version", "breaks": ["C104"], "edits": [["Mem.v", "put32 s (len magic + 1) (u32 varSize)", "put32 s (len magic) (u32 varSize)"]]}, {"id": "z007", "definition": "header_mem", "desc": "checksum over the variable part only", "breaks": ["C104"], "edits": [["Mem.v", "hashed <- slice d 0 var ;;", "hashed <- slice d fixed_hdr_len var ;;"]]}, {"id": "z008", "definition": "header_mem", "desc": "checksum over the whole buffer", "breaks": ["C104"], "edits": [["Mem.v", "hashed <- slice d 0 var ;;", "hashed <- slice d 0 (len d) ;;"]]}, {"id": "z009", "definition": "header_mem", "desc": "checksum stored over the fields", "breaks": ["C104"], "edits": [["Mem.v", "d <- in_slice d var (len d) (fun", "d <- in_slice d fixed_hdr_len (len d) (fun"]]}, {"id": "z010", "definition": "header_mem", "desc": "buffer one byte too long", "breaks": ["C104"], "edits": [["Mem.v", "zeros (fixed_hdr_len + varSize + sha256_size)", "zeros (fixed_hdr_len + varSize + sha256_size + 1)"]]}, {"id": "z011", "definition": "header_mem", "desc": "fields encoded into the whole rest of the buffer", "breaks": ["C104"], "edits": [["Mem.v", "in_slice d fixed_hdr_len var (fun s => '(s, _)", "in_slice d fixed_hdr_len (len d) (fun s => '(s, _)"]]}, {"id": "z012", "definition": "enc_block_mem", "desc": "the whole chunk buffer is written", "breaks": ["C104"], "edits": [["Mem.v", "slice eb 0 (len ct + 4)", "slice eb 0 (len eb)"]]}, {"id": "z013", "definition": "enc_block_mem", "desc": "four bytes too few are written", "breaks": ["C104"], "edits": [["Mem.v", "slice eb 0 (len ct + 4)", "slice eb 0 (len ct)"]]}, {"id": "z014", "definition": "enc_block_mem", "desc": "ciphertext stored over the length", "breaks": ["C104"], "edits": [["Mem.v", "take 4 eb ++ append_front (drop 4 eb) ct", "append_front eb ct"]]}, {"id": "z015", "definition": "enc_block_mem", "desc": "associated data: one byte too many of the buffer", "breaks": ["C104"], "edits": [["Mem.v", "pt (take 4 eb) in", "pt (take 5 eb) in"]]}, {"id": "z016", "definition": "enc_block_mem", "desc": "HMAC over the first byte of ciphertext, too", "breaks": ["C104"], "edits": [["Mem.v", "hd ++ take 4 eb ++ pt", "hd ++ take 5 eb ++ pt"]]}, {"id": "z017", "definition": "enc_block_mem", "desc": "last-chunk mark not stored", "breaks": ["C104"], "edits": [["Mem.v", "let z := if eof then Z.lor z eof_bit else z in", ""]]}, {"id": "z018", "definition": "enc_block_mem", "desc": "length in the wrong place", "breaks": ["C104"], "edits": [["Mem.v", "put32 b 0 z", "put32 b 1 z"]]}, {"id": "z019", "definition": "enc_loop_mem", "desc": "the whole read buffer is encrypted", "breaks": ["C104"], "edits": [["Mem.v", "(take n buf) w i eof g", "buf w i eof g"]]}, {"id": "z020", "definition": "enc_loop_mem", "desc": "the buffer as it was before the read is encrypted", "breaks": ["C104"], "edits": [["Mem.v", "let buf := buf_put got buf in", "let old := buf_put got buf in"]]}, {"id": "z021", "definition": "enc_loop_mem", "desc": "chunk number not counted", "breaks": ["C104"], "edits": [["Mem.v", "(u32 (i + 1)) g\n          | x", "i g\n          | x"]]}, {"id": "z022", "definition": "ew_loop_mem", "desc": "n not reset after a full chunk", "breaks": ["C104"], "edits": [["Mem.v", "(mkEwm buf 0 (u32", "(mkEwm buf n (u32"]]}, {"id": "z023", "definition": "ew_loop_mem", "desc": "copied to the front of the buffer", "breaks": ["C104"], "edits": [["Mem.v", "copy_at (em_buf s) (em_n s) b", "copy_at (em_buf s) 0 b"]]}, {"id": "z024", "definition": "ew_loop_mem", "desc": "a full buffer is flushed although nothing follows", "breaks": ["C104"], "edits": [["Mem.v", "(n =? max) && (0 <? len b)", "(n =? max) && (0 <=? len b)"]]}, {"id": "z025", "definition": "ew_loop_mem", "desc": "n grows by what was given instead of what fitted", "breaks": ["C104"], "edits": [["Mem.v", "let n := em_n s + z in", "let n := em_n s + len b in"]]}, {"id": "z026", "definition": "ew_close_mem", "desc": "the whole buffer is the last chunk", "breaks": ["C104"], "edits": [["Mem.v", "slice (em_buf s) 0 (em_n s)", "slice (em_buf s) 0 (len (em_buf s))"]]}, {"id": "z027", "definition": "ew_close_mem", "desc": "the last chunk is not marked", "breaks": ["C104"], "edits": [["Mem.v", "enc_block_mem C e eb pt w (em_blk s) true g", "enc_block_mem C e eb pt w (em_blk s) false g"]]}, {"id": "z028", "definition": "ew_close_mem", "desc": "writer stays open after Close", "breaks": ["C104"], "edits": [["Mem.v", "mkEwm (em_buf s) 0 (em_blk s) (Some ErrClosed)", "mkEwm (em_buf s) 0 (em_blk s) None"]]}, {"id": "z029", "definition": "ew_close_mem", "desc": "n stays after Close", "breaks": ["C104"], "edits": [["Mem.v", "mkEwm (em_buf s) 0 (em_blk s) (Some ErrClosed)", "mkEwm (em_buf s) (em_n s) (em_blk s) (Some ErrClosed)"]]}, {"id": "z030", "definition": "ew_write_mem", "desc": "number of bytes accepted reported on failure", "breaks": ["C104"], "edits": [["Mem.v", "match rs with Ok _ => len b | _ => 0 end", "match rs with Panic _ => 0 | _ => len b end"]]}]