[{"id": "y001", "edits": [["PbBuf.v", "if 128 <=? v then d'", "if 129 <=? v then d'"]], "definition": "varint_stores", "desc": "two-byte varints begin above 128, not at 128", "breaks": ["C102"]}, {"id": "y002", "edits": [["PbBuf.v", "(z2b (Z.lor (Z.land v 127) 128))", "(z2b (Z.land v 127))"]], "definition": "varint_stores", "desc": "continuation bit dropped", "breaks": ["C102"]}, {"id": "y003", "edits": [["PbBuf.v", "varint_stores f d' (offset + 1)", "varint_stores f d' (offset - 1)"]], "definition": "varint_stores", "desc": "next byte stored in front instead of behind", "breaks": ["C102"]}, {"id": "y004", "edits": [["PbBuf.v", "(u64 v) ;; Ok (d, base)", "(u64 v) ;; Ok (d, base + 1)"]], "definition": "buf_varint", "desc": "the returned index is one too high", "breaks": ["C102"]}, {"id": "y005", "edits": [["PbBuf.v", "let base := snd s - size_varint (u64 v)", "let base := snd s - 1"]], "definition": "buf_varint", "desc": "room for the size of v instead of the size of its varint", "breaks": ["C102"]}, {"id": "y006", "edits": [["PbBuf.v", "d <- copy_at (fst s) i x ;; Ok (d, i)", "d <- copy_at (fst s) i x ;; Ok (d, snd s)"]], "definition": "buf_copy", "desc": "index not moved in front of the copied bytes", "breaks": ["C102"]}, {"id": "y007", "edits": [["PbBuf.v", "d <- copy_at (fst s) i x", "d <- copy_at (fst s) (snd s) x"]], "definition": "buf_copy", "desc": "copied behind the index", "breaks": ["C102"]}, {"id": "y008", "edits": [["PbBuf.v", "d <- store (fst s) i (z2b tag)", "d <- store (fst s) (snd s) (z2b tag)"]], "definition": "buf_tag", "desc": "tag stored over the varint", "breaks": ["C102"]}, {"id": "y009", "edits": [["PbBuf.v", "if 0 <? len x then s <- buf_copy", "if 0 <=? len x then s <- buf_copy"]], "definition": "buf_field", "desc": "empty fields are stored too", "breaks": ["C102"]}, {"id": "y010", "edits": [["PbBuf.v", "s <- buf_varint (len x) s ;; buf_tag tag s else", "s <- buf_tag tag s ;; buf_varint (len x) s else"]], "definition": "buf_field", "desc": "tag before the length", "breaks": ["C102"]}, {"id": "y011", "edits": [["PbBuf.v", "buf_field 18 (w_nonce m)", "buf_field 10 (w_nonce m)"]], "definition": "wkey_to_sized", "desc": "nonce stored with the tag of the key", "breaks": ["C102"]}, {"id": "y012", "edits": [["PbBuf.v", "buf_field 10 (w_dkey m) s ;;\n  Ok (fst s, len d - snd s)", "buf_field 10 (w_dkey m) s ;;\n  Ok (fst s, snd s)"]], "definition": "wkey_to_sized", "desc": "number of bytes returned is the index", "breaks": ["C102"]}, {"id": "y013", "edits": [["PbBuf.v", "front <- slice (fst s) 0 (snd s) ;;", "front <- slice (fst s) 0 (len (fst s)) ;;"]], "definition": "buf_keys", "desc": "a key is stored at the end of the whole buffer", "breaks": ["C102"]}, {"id": "y014", "edits": [["PbBuf.v", "snd s - size) in", "snd s) in"]], "definition": "buf_keys", "desc": "index not moved in front of the key", "breaks": ["C102"]}, {"id": "y015", "edits": [["PbBuf.v", "      s <- buf_tag 42 s ;;\n", ""]], "definition": "buf_keys", "desc": "keys stored without their tag", "breaks": ["C102"]}, {"id": "y016", "edits": [["PbBuf.v", "buf_keys (rev (h_keys m))", "buf_keys (h_keys m)"]], "definition": "header_to_sized", "desc": "keys in the opposite order", "breaks": ["C102"]}, {"id": "y017", "edits": [["PbBuf.v", "s <- buf_copy (h_unk m) (d, len d)", "s <- Ok (d, len d)"]], "definition": "header_to_sized", "desc": "unknown fields lost", "breaks": ["C102"]}, {"id": "y018", "edits": [["PbBuf.v", "s <- buf_field 34 (h_sender m) s ;;", "s <- buf_field 34 (h_pk m) s ;;"]], "definition": "header_to_sized", "desc": "sender and pk swapped", "breaks": ["C102"]}, {"id": "y019", "edits": [["PbBuf.v", "buf_varint (h_chunk m) s ;; buf_tag 8 s", "buf_varint (h_chunk m) s"]], "definition": "header_to_sized", "desc": "chunk size stored without its tag", "breaks": ["C102"]}, {"id": "y020", "edits": [["PbBuf.v", "  let size := size_header m in\n  front <- slice d 0 size ;;", "  let size := size_header m in\n  front <- slice d 0 (len d) ;;"]], "definition": "header_to", "desc": "stored at the end of the caller's buffer", "breaks": ["C102"]}, {"id": "y021", "edits": [["PbBuf.v", "'(front, n) <- header_to_sized m front ;;\n  Ok (front ++ drop size d, n)", "'(front, n) <- header_to_sized m front ;;\n  Ok (front, n)"]], "definition": "header_to", "desc": "rest of the caller's buffer cut off", "breaks": ["C102"]}, {"id": "y022", "edits": [["PbBuf.v", "header_to_sized m (zeros size)", "header_to_sized m (zeros (size - 1))"]], "definition": "header_marshal", "desc": "new buffer one byte too short", "breaks": ["C102"]}, {"id": "y023", "edits": [["PbBuf.v", "wkey_to_sized m (zeros size)", "wkey_to_sized m (zeros (size + 1))"]], "definition": "wkey_marshal", "desc": "new buffer one byte too long", "breaks": ["C102"]}, {"id": "y024", "edits": [["PbBuf.v", "drop (i + len s) d", "drop i d"]], "definition": "copy_at", "desc": "copy moves the rest of the buffer instead of overwriting", "breaks": ["C102"]}, {"id": "y025", "edits": [["Store.v", "write_file v (oct 6 4 4) f dst (marshal_signature", "write_file v (oct 6 0 0) f dst (marshal_signature"]], "definition": "serialize_signature", "desc": "signatures readable by their owner only", "breaks": ["C75"]}, {"id": "y026", "edits": [["Store.v", "write_file v (oct 6 4 4) f dst (marshal_signature", "write_file v (oct 6 6 6) f dst (marshal_signature"]], "definition": "serialize_signature", "desc": "signatures writable by all", "breaks": ["C75"]}, {"id": "y027", "edits": [["Store.v", "write_file v (oct 6 0 0) f dst b overwrite", "write_file v (oct 6 4 0) f dst b overwrite"]], "definition": "serialize_private", "desc": "private keys readable by the group", "breaks": ["C75"]}, {"id": "y028", "edits": [["Store.v", "write_file v (oct 6 4 4) f dst (marshal_public", "write_file v (oct 6 4 0) f dst (marshal_public"]], "definition": "serialize_public", "desc": "public keys not readable by others", "breaks": ["C75"]}, {"id": "y029", "edits": [["Store.v", "(marshal_signature E s comment) overwrite", "(marshal_signature E s comment) true"]], "definition": "serialize_signature", "desc": "overwrite flag ignored", "breaks": ["C42"]}]