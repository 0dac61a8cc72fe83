{"id": "C01", "title": "String length of ISO and UTF-16 strings", "statement": "For every well-formed string object (ISO-8859-1 terminated by one zero byte and not starting with a byte order mark, or UTF-16 with either byte order mark terminated by a zero code unit) followed by arbitrary memory, ID3v2_strlen returns the number of bytes before the terminator (byte order mark included) and ID3v2_strlent that number plus the terminator's 1 or 2 bytes; neither depends on the memory after the terminator. On an object that holds no terminator the read leaves the object (undefined behaviour), and on NULL it is undefined behaviour.", "quantifier": "all strings of any length below 2^31 bytes, both byte orders, all bytes that follow the terminator, all unterminated objects", "why_tests_cant": "unbounded string lengths and contents, and a claim about memory that must not be read", "anchors": ["src/modules/utils.c:ID3v2_strlen", "src/modules/utils.c:ID3v2_strlent", "src/modules/utils.c:string_has_bom"]}
{"id": "C02", "title": "ISO to UTF-16 conversion", "statement": "ID3v2_to_unicode applied to any zero-terminated string without byte order mark returns a fresh object holding FF FE, then every input byte followed by a zero byte, then two zero bytes; the result's ID3v2_strlen is 2 + 2*strlen; a string that already has a byte order mark is returned unchanged (the same pointer, not a copy). If 4 + 2*strlen exceeds int, the size it allocates is wrong and there is no defined result.", "quantifier": "all input strings", "why_tests_cant": "all lengths and byte values; tests use a dozen literals", "anchors": ["src/modules/utils.c:ID3v2_to_unicode"]}
{"id": "C03", "title": "Synchsafe integers", "statement": "Encoding then decoding a size in synchsafe form returns the size modulo 2^29 for every 32-bit value; for every size below 2^28 it is the identity, the encoded bytes all have a clear top bit, and the encoding loop terminates after three rounds for every input.", "quantifier": "all 2^32 int values", "why_tests_cant": "tests exercise a few tag sizes", "anchors": ["src/modules/utils.c:syncint_encode", "src/modules/utils.c:syncint_decode"]}
{"id": "C04", "title": "Big-endian integers", "statement": "The 4-byte big-endian encoding of a frame size decodes to the same size for every 32-bit int, and decoding n bytes gives their big-endian value modulo 2^32.", "quantifier": "all 2^32 ints, all byte sequences", "why_tests_cant": "exhausting 32-bit values is not a unit test", "anchors": ["src/modules/utils.c:btoi", "src/modules/utils.c:itob"]}
{"id": "C05", "title": "Tag header recognition", "statement": "On any 10 bytes without the extended-header flag, ID3v2_read_tag_header_from_buffer returns NULL exactly when the bytes do not start with 'ID3' or the version byte is neither 3 nor 4; otherwise the returned header holds the identifier, the version, revision and flags bytes unchanged, the synchsafe-decoded size, and extended header size 0.", "quantifier": "all 2^80 ten-byte buffers with flag bit 6 clear", "why_tests_cant": "tests read two files", "anchors": ["src/modules/tag_header.c:TagHeader_parse", "src/id3v2lib.c:ID3v2_read_tag_header_from_buffer"]}
{"id": "C06", "title": "Tag header with the extended-header flag", "statement": "On any 10 bytes that start with 'ID3', have version 3 or 4 and flag bit 6 set, ID3v2_read_tag_header_from_buffer (and hence ID3v2_read_tag_header, ID3v2_read_tag, ID3v2_write_tag and ID3v2_delete_tag on files starting with them) computes the extended header size from uninitialised memory.", "quantifier": "all ten-byte buffers with flag bit 6 set", "why_tests_cant": "reading indeterminate memory usually passes a test silently", "anchors": ["src/modules/tag_header.c:TagHeader_parse", "src/id3v2lib.c:ID3v2_read_tag_header"]}
{"id": "C07", "title": "Reading a header from a file", "statement": "ID3v2_read_tag_header of a missing file or of a file shorter than 10 bytes returns NULL; otherwise it depends only on the file's first 10 bytes and equals the from-buffer result on them.", "quantifier": "all file contents", "why_tests_cant": "all files, not samples", "anchors": ["src/id3v2lib.c:ID3v2_read_tag_header"]}
{"id": "C08", "title": "Text frame round trip", "statement": "For every frame id starting with 'T', every 2-byte flags value and every string, serialising the text frame gives id, big-endian size, flags, encoding byte (0 for ISO, 1 for UTF-16), string, terminator, and parsing these bytes as a v2.3 frame returns an equal frame and leaves the reader exactly after them, whatever follows.", "quantifier": "all ids, flags, strings, and following bytes", "why_tests_cant": "unbounded inputs", "anchors": ["src/modules/frames/text_frame.c:TextFrame_to_char_stream", "src/modules/frames/text_frame.c:TextFrame_parse", "src/modules/frames/text_frame.c:TextFrame_new", "src/modules/frame.c:Frame_parse", "src/modules/frame.c:Frame_to_char_stream"]}
{"id": "C09", "title": "Comment frame round trip", "statement": "The same for comment frames: every language, short description and comment; the encoding byte is determined by the comment's byte order mark, and the size field is the exact body length.", "quantifier": "all languages, descriptions, comments, flags, following bytes", "why_tests_cant": "unbounded inputs", "anchors": ["src/modules/frames/comment_frame.c:CommentFrame_to_char_stream", "src/modules/frames/comment_frame.c:CommentFrame_parse", "src/modules/frames/comment_frame.c:CommentFrame_new"]}
{"id": "C10", "title": "Picture frame round trip", "statement": "The same for picture frames: every mime type, picture type, description and non-empty picture; all picture bytes are preserved.", "quantifier": "all mime types, types, descriptions, picture contents, flags, following bytes", "why_tests_cant": "unbounded inputs", "anchors": ["src/modules/frames/apic_frame.c:ApicFrame_to_char_stream", "src/modules/frames/apic_frame.c:ApicFrame_parse", "src/modules/frames/apic_frame.c:ApicFrame_new"]}
{"id": "C11", "title": "Unknown frames are preserved verbatim", "statement": "A frame whose id starts with none of 'T','C','A' is parsed to its id, size, flags and raw body and serialised back to exactly the bytes it was read from (v2.3).", "quantifier": "all ids, flags, bodies", "why_tests_cant": "unbounded inputs", "anchors": ["src/modules/frame.c:Frame_parse", "src/modules/frame.c:Frame_to_char_stream"]}
{"id": "C12", "title": "Parsing a well-formed tag", "statement": "For every well-formed v2.3 or v2.4 tag (header without extended header, any sequence of text, comment, picture and other frames with terminated strings and non-empty bodies, v2.4 frame sizes synchsafe, any amount of zero padding), ID3v2_read_tag_from_buffer on a buffer that contains it, possibly followed by further bytes, performs no undefined behaviour and returns the header fields, all frames in file order with their contents, and padding_size = number of bytes after the last frame.", "quantifier": "all frame sequences of any length, all contents, all padding lengths, all trailing bytes", "why_tests_cant": "unbounded sequences; absence of undefined behaviour", "anchors": ["src/modules/tag.c:Tag_parse", "src/id3v2lib.c:ID3v2_read_tag_from_buffer", "src/modules/frame.c:Frame_parse"]}
{"id": "C13", "title": "Parsing terminates on every input", "statement": "ID3v2_read_tag_from_buffer terminates on every buffer of every length: each frame the loop accepts moves the read position strictly forward.", "quantifier": "all buffers, including malformed ones", "why_tests_cant": "termination over all inputs", "anchors": ["src/modules/tag.c:Tag_parse"]}
{"id": "C14", "title": "Encoding byte of strings is ignored on read", "statement": "Parsing a text, comment or picture frame gives a result that does not depend on the frame's encoding byte; the encoding reported and written back is 1 exactly when the string starts with a byte order mark, so UTF-8 (3) and UTF-16BE-without-BOM (2) frames are relabelled ISO-8859-1.", "quantifier": "all encoding byte values and frame bodies", "why_tests_cant": "a universally quantified independence claim", "anchors": ["src/modules/frames/text_frame.c:TextFrame_parse", "src/modules/frames/comment_frame.c:CommentFrame_parse", "src/modules/frames/apic_frame.c:ApicFrame_parse"]}
{"id": "C15", "title": "Text after the first terminator is dropped", "statement": "A text frame whose body holds further data after the first terminator (TXXX values, v2.4 multi-value lists) parses to the first string only, with the frame size recomputed, and is therefore written back shorter.", "quantifier": "all first strings and all data after their terminator", "why_tests_cant": "all contents", "anchors": ["src/modules/frames/text_frame.c:TextFrame_parse", "src/modules/frames/text_frame.c:TextFrameData_new"]}
{"id": "C16", "title": "Unterminated strings and truncated frames are memory-unsafe to parse", "statement": "Parsing a complete text frame succeeds exactly when its body (after the encoding byte) starts with a terminated string; for every body without terminator it reads memory outside the body's buffer. Comment and picture frames whose strings are not terminated before the end of the whole tag buffer read outside it. Text frames of size 0 or 1, pictures of size 0, frames of any id cut off within the first 8 header bytes, and text, comment and picture frames cut off anywhere inside the 10-byte header are undefined behaviour as well.", "quantifier": "all bodies, ids, flags, sizes and following bytes", "why_tests_cant": "undefined behaviour is not observable by a passing test", "anchors": ["src/modules/frames/text_frame.c:TextFrame_parse", "src/modules/utils.c:ID3v2_strlen", "src/modules/frame_header.c:FrameHeader_parse"]}
{"id": "C17", "title": "Frame type is decided by the first letter of the id", "statement": "Every frame whose id starts with 'C' is stored with id COMM and every frame whose id starts with 'A' with id APIC, whatever the other letters, so e.g. a CTOC or AENC frame does not keep its id through a read.", "quantifier": "all ids starting with C or A", "why_tests_cant": "all ids", "anchors": ["src/modules/frame.c:Frame_parse", "src/modules/frame_header.c:FrameHeader_isCommentFrame", "src/modules/frame_header.c:FrameHeader_isApicFrame"]}
{"id": "C18", "title": "Frame lookup", "statement": "ID3v2_Tag_get_frame returns the first frame (in list order) whose id equals the 4-byte argument, or NULL when there is none; ID3v2_Tag_get_frames returns exactly the frames with that id in order, and the named getters (artist, album, title, track, album artist, genre, year, disc number, composer, comment, album cover, comments, apics) are these lookups for TPE1, TALB, TIT2, TRCK, TPE2, TCON, TYER, TPOS, TCOM, COMM, APIC; getters on NULL return NULL.", "quantifier": "all frame lists, all ids", "why_tests_cant": "all lists", "anchors": ["src/modules/tag.c:ID3v2_Tag_get_frame", "src/modules/tag.c:ID3v2_Tag_get_frames", "src/modules/frame_list.c:FrameList_get_frame_by_id", "src/modules/frame_list.c:FrameList_get_frames_by_id"]}
{"id": "C19", "title": "Set then get", "statement": "After a setter call for a frame id, the corresponding getter returns a frame whose id, flags, encoding, size and content are those of the argument; this holds for every tag state, including ones with several frames of that id.", "quantifier": "all tag states without list holes, all strings, all setters", "why_tests_cant": "all states and contents", "anchors": ["src/modules/tag.c:ID3v2_Tag_set_text_frame", "src/modules/tag.c:ID3v2_Tag_set_comment_frame", "src/modules/tag.c:ID3v2_Tag_set_apic_frame"]}
{"id": "C20", "title": "Setters change only the first frame with the id", "statement": "A setter replaces the first frame with the id in place, or appends one if there is none; every other frame (content and relative order, including further frames with the same id) is unchanged; the add functions always append.", "quantifier": "all tag states, all inputs", "why_tests_cant": "frame conditions over all states", "anchors": ["src/modules/tag.c:ID3v2_Tag_set_text_frame", "src/modules/tag.c:ID3v2_Tag_add_comment_frame", "src/modules/tag.c:ID3v2_Tag_add_apic_frame", "src/modules/frame_list.c:FrameList_replace_frame"]}
{"id": "C21", "title": "Delete removes the first frame with the id", "statement": "ID3v2_Tag_delete_frame (and the named delete functions) on a tag that has a frame with the id removes the first such frame and nothing else, keeps the order of the rest, and reduces the recorded tag size by the frame's size plus 10.", "quantifier": "all tag states containing the id", "why_tests_cant": "all states", "anchors": ["src/modules/tag.c:ID3v2_Tag_delete_frame", "src/modules/frame_list.c:FrameList_remove_frame_by_id"]}
{"id": "C22", "title": "Delete of an absent frame", "statement": "ID3v2_Tag_delete_frame on a tag that has no frame with the id dereferences NULL, for every such tag.", "quantifier": "all tag states not containing the id", "why_tests_cant": "tests only delete existing frames", "anchors": ["src/modules/tag.c:ID3v2_Tag_delete_frame", "src/modules/frame_list.c:FrameList_remove_frame_by_id"]}
{"id": "C23", "title": "Indexed deletes", "statement": "ID3v2_Tag_delete_comment_frame(tag, i) and ID3v2_Tag_delete_apic_frame(tag, i) remove exactly the i-th frame (from 0) with that id and nothing else; an out-of-range or negative index leaves the frames unchanged; the recorded tag size is not changed.", "quantifier": "all tags without a hole (C85 for those with one) and all int indices", "why_tests_cant": "all states and indices", "anchors": ["src/modules/tag.c:ID3v2_Tag_delete_comment_frame", "src/modules/tag.c:ID3v2_Tag_delete_apic_frame", "src/modules/frame_list.c:FrameList_remove_frame"]}
{"id": "C24", "title": "Deleting the last frame leaves a hole", "statement": "Deleting the last frame of a tag that still has other frames leaves an empty list entry: writing the tag afterwards terminates the process (exit status 1), and a frame added afterwards is not found by the getters; deleting any other frame, or the only frame, leaves no hole.", "quantifier": "all tags with at least two frames", "why_tests_cant": "tests delete every frame in one particular order", "anchors": ["src/modules/frame_list.c:FrameList_remove_frame_by_id", "src/modules/frame_list.c:FrameList_remove_frame", "src/modules/tag.c:Tag_to_char_stream"]}
{"id": "C25", "title": "Histories of edits behave like a list of frames", "statement": "Every sequence of set, add and delete calls on a new or parsed tag that never deletes an absent frame and never deletes the last of several frames behaves like the obvious operations on a plain list of frames, with no undefined behaviour.", "quantifier": "all operation sequences of any length, all arguments", "why_tests_cant": "unbounded histories", "anchors": ["src/modules/tag.c:ID3v2_Tag_set_text_frame", "src/modules/tag.c:ID3v2_Tag_delete_frame", "src/modules/frame_list.c:FrameList_add_frame"]}
{"id": "C26", "title": "Room accounting", "statement": "Call room the recorded tag size minus the bytes the frames need (10 + size each). Setting or adding a new frame reduces the room by exactly 10, replacing a frame and ID3v2_Tag_delete_frame leave it unchanged, the indexed deletes increase it by the frame's size + 10; over any history the room is the initial room minus 10 per appended frame plus what indexed deletes released.", "quantifier": "all operation sequences", "why_tests_cant": "a quantitative invariant over unbounded histories", "anchors": ["src/modules/tag.c:ID3v2_Tag_set_text_frame", "src/modules/tag.c:ID3v2_Tag_delete_frame", "src/modules/tag.c:ID3v2_Tag_delete_comment_frame"]}
{"id": "C27", "title": "Writing fits exactly when there is room", "statement": "Serialising a hole-free tag of well-formed frames succeeds if and only if the room is not negative, and then yields exactly tag size + 10 bytes: header, frames in order, zero padding; when the room is negative the library writes past the end of its heap buffer.", "quantifier": "all tags", "why_tests_cant": "heap overflow of 10 bytes often goes unnoticed in tests", "anchors": ["src/modules/tag.c:Tag_to_char_stream", "src/modules/char_stream.c:CharStream_write"]}
{"id": "C28", "title": "Tags created from scratch overflow when written", "statement": "For a tag made by ID3v2_Tag_new_empty and n >= 1 set or add calls with distinct fresh frames, the buffer allocated for writing is 10*n bytes too short, so ID3v2_write_tag writes outside it; with no frames at all writing produces a valid empty tag.", "quantifier": "all n and all frame contents", "why_tests_cant": "no test writes a tag created from scratch", "anchors": ["src/modules/tag.c:ID3v2_Tag_new_empty", "src/modules/tag.c:ID3v2_Tag_set_text_frame", "src/modules/tag.c:Tag_to_char_stream"]}
{"id": "C29", "title": "Whole-tag round trip", "statement": "For every v2.3 tag of well-formed frames with room, serialising and parsing returns the same header and the same frames in the same order, with padding_size equal to the room.", "quantifier": "all frame lists, all contents", "why_tests_cant": "unbounded", "anchors": ["src/modules/tag.c:Tag_parse", "src/modules/tag.c:Tag_to_char_stream"]}
{"id": "C30", "title": "v2.4 frame sizes are written in the wrong format", "statement": "For a v2.4 tag the size of a frame read back after writing equals the size written if and only if it is below 256. Tags whose frames are all smaller, or comments, round-trip. A tag holding any other frame of 256 bytes or more is never read back with the same frames: such a text frame is read past its end, an unknown frame is cut short and reading goes on inside its body, and a picture is cut short or gives a negative size.", "quantifier": "all frame sizes below 2^31; all v2.4 tags and frames, at every place in a buffer", "why_tests_cant": "depends on every size value", "anchors": ["src/modules/frame_header.c:FrameHeader_to_char_stream", "src/modules/frame_header.c:FrameHeader_parse"]}
{"id": "C31", "title": "Writing preserves the audio", "statement": "ID3v2_write_tag on an existing file replaces the existing tag (header and declared size) by the new tag bytes and keeps every other byte of the file in order; on a file without recognised tag the new tag is inserted before all bytes. (Files whose tag announces an extended header are undefined behaviour, C06.)", "quantifier": "all files, all writable tags", "why_tests_cant": "all file contents and sizes", "anchors": ["src/id3v2lib.c:ID3v2_write_tag"]}
{"id": "C32", "title": "Write then read back", "statement": "Reading the tag from a file just written with ID3v2_write_tag returns the header and the frames, in order, that were in the written tag (v2.3 tags; v2.4 tags whose frames survive C30; room not negative), and writing the same tag, or the one read back, again leaves the file unchanged.", "quantifier": "all files, all such tags", "why_tests_cant": "end-to-end over all inputs", "anchors": ["src/id3v2lib.c:ID3v2_write_tag", "src/id3v2lib.c:ID3v2_read_tag"]}
{"id": "C33", "title": "Deleting the tag from a file", "statement": "ID3v2_delete_tag on a file with a recognised tag leaves exactly the bytes after the tag's declared size + 10; on a missing file or one without recognised tag it changes nothing; write followed by delete restores the audio bytes, and reading a tag then returns NULL unless the audio itself starts with a tag header. remove_tag of the version 1 interface does the same.", "quantifier": "all files", "why_tests_cant": "all contents", "anchors": ["src/id3v2lib.c:ID3v2_delete_tag", "src/id3v2lib.compat.c:remove_tag"]}
{"id": "C34", "title": "Read depends only on the declared tag", "statement": "ID3v2_read_tag on a file whose declared tag is complete gives a result that depends only on the first tag size + 10 bytes of the file.", "quantifier": "all files, all continuations", "why_tests_cant": "independence claim over all continuations", "anchors": ["src/id3v2lib.c:ID3v2_read_tag"]}
{"id": "C35", "title": "Crash during write or delete", "statement": "At every point during ID3v2_write_tag and ID3v2_delete_tag the file on disk holds either its original contents or a prefix of the final contents; in particular there is a point (right after truncation) at which it is empty, so the operations are not crash-atomic for any non-empty result.", "quantifier": "all crash points, all files, all tags", "why_tests_cant": "needs every crash point", "anchors": ["src/id3v2lib.c:ID3v2_write_tag", "src/id3v2lib.c:ID3v2_delete_tag"]}
{"id": "C36", "title": "Padding request has no effect on the file", "statement": "ID3v2_write_tag raises the in-memory padding_size to at least 2048 when it is not negative, but everything that happens to the file depends only on header and frames: never on padding_size; ID3v2_Tag_new ignores its padding argument. For a padding_size of at most 2048 - 2^31 computing the padding overflows.", "quantifier": "all padding values, all tags", "why_tests_cant": "independence claim", "anchors": ["src/id3v2lib.c:ID3v2_write_tag", "src/modules/tag.c:ID3v2_Tag_new", "src/modules/tag.c:Tag_to_char_stream"]}
{"id": "C37", "title": "Writing needs an existing file and a tag", "statement": "ID3v2_write_tag with a NULL tag leaves the file unchanged; on a file that does not exist it is undefined behaviour (NULL stream), for every tag that can be serialised.", "quantifier": "all tags, all files", "why_tests_cant": "tests never write to a missing file", "anchors": ["src/id3v2lib.c:ID3v2_write_tag"]}
{"id": "C38", "title": "Extended headers are skipped wrongly", "statement": "When a tag of a known version has the extended header flag and the four bytes after the header decode to e with 0 < e < tag size and e within the buffer, frame parsing starts at absolute offset e of the buffer, whatever is there: the first frame returned is the one parsed there. In particular with the smallest extended header (size 6) the first frame has the tag's own size field as id; a v2.3 extended header with a checksum (size 10, flags 80 xx) makes the read end in a negative allocation size; only e = 0 leads to the frames that follow the size field. A tag whose flag is set is written with the flag but without extended header, and reading it back yields no frames.", "quantifier": "all declared extended header sizes, all buffers, all written tags with the flag", "why_tests_cant": "all sizes", "anchors": ["src/modules/tag.c:Tag_parse", "src/modules/char_stream.c:CharStream_seek", "src/modules/tag.c:Tag_to_char_stream"]}
{"id": "C39", "title": "Version 1 interface: loaded tags mirror the tag", "statement": "Whenever ID3v2_read_tag(_from_buffer) returns a tag with at least one frame, load_tag(_with_buffer) returns a version 1 tag with the same header fields, the raw bytes, and in the same order one version 1 frame per frame with its id, size, first flag byte and serialised body, pointing to that frame; the getters return the first frame with the id, or NULL; parse_*_frame_content returns the fields of the frame, and reads a struct of the wrong type when applied to a frame of another kind. Where no tag is recognised, or the tag has no frames, or the file is missing, load_tag(_with_buffer) dereferences NULL.", "quantifier": "all buffers and files, all lists of well-formed frames", "why_tests_cant": "all inputs", "anchors": ["src/id3v2lib.compat.c:load_tag_with_buffer", "src/id3v2lib.compat.c:load_tag", "src/id3v2lib.compat.c:get_from_list", "src/id3v2lib.compat.c:parse_text_frame_content"]}
{"id": "C40", "title": "Version 1 interface: setters", "statement": "A version 1 setter on a tag that has a frame with that id replaces the frame in the tag and its copy in the version 1 list, so that the two agree again, for any sequence of such setters; frames obtained before must not be used afterwards (they point to freed memory). On a tag without such a frame, in particular any tag from new_tag, a setter dereferences NULL. tag_set_album_cover derives the mime type from the part of the file name after the last dot, and dereferences NULL on a missing file or a name without dot. What set_tag writes is loaded again by load_tag with the same frames. free_tag works on loaded tags and reads an unassigned pointer on tags from new_tag.", "quantifier": "all version 1 tags, all values, all sequences of setters", "why_tests_cant": "all states and histories", "anchors": ["src/id3v2lib.compat.c:tag_set_title", "src/id3v2lib.compat.c:add_uniq_to_list", "src/id3v2lib.compat.c:new_tag", "src/id3v2lib.compat.c:tag_set_album_cover", "src/id3v2lib.compat.c:set_tag", "src/id3v2lib.compat.c:free_tag"]}
{"id": "C41", "title": "Memory ownership over edit histories", "statement": "Over every history of set, add and delete calls, no struct, string or list node is freed twice or used after it was freed, and the tag in memory stays the one the calls describe; ID3v2_Tag_free then frees every block of the tag exactly once, except the struct of each frame of an unknown kind; calling it a second time uses freed memory.", "quantifier": "all tags in memory, all other allocated blocks, all sequences of calls (text frames being set under an id that starts with T)", "why_tests_cant": "needs every history; leaks, double frees and dangling pointers are silent in tests", "anchors": ["src/modules/frame_list.c:ID3v2_FrameList_free", "src/modules/frame_list.c:ID3v2_FrameList_unlink", "src/modules/tag.c:ID3v2_Tag_free", "src/modules/frame.c:ID3v2_Frame_free"]}
{"id": "C42", "title": "Comment frames are delimited by their strings, not by their size", "statement": "Reading a comment frame (any id starting with 'C') takes exactly the language, the two terminated strings and nothing else, whatever size its header declares; data declared beyond them is parsed as the next frame, and a comment whose terminator is missing swallows the beginning of the following frames.", "quantifier": "all comment frames, all declared sizes, all following bytes", "why_tests_cant": "the declared size is a free 32-bit field that tests set correctly", "anchors": ["src/modules/frames/comment_frame.c:CommentFrame_parse"]}
{"id": "C43", "title": "Truncated unknown frames are accepted with indeterminate contents", "statement": "A frame of an unknown kind whose declared size exceeds the bytes left in the buffer is accepted: it reports the declared size, and the missing part of its body (and of its flags) is uninitialised heap memory.", "quantifier": "all ids of unknown kind, all declared sizes, all truncation points after the size field", "why_tests_cant": "contents of fresh heap memory are usually zero in small tests", "anchors": ["src/modules/frame.c:Frame_parse", "src/modules/char_stream.c:CharStream_read"]}
{"id": "C44", "title": "Files that end before their tag does", "statement": "Reading a file that ends before its declared tag does fails to notice: when it ends where a frame header should follow, or less than 8 bytes into that header, whether there is another frame is decided by uninitialised memory; when it ends after at least four bytes of padding the tag is returned as if complete.", "quantifier": "all versions, all complete frames before the end, all declared sizes, all cut points", "why_tests_cant": "fresh heap memory is usually zero, which looks like padding", "anchors": ["src/id3v2lib.c:ID3v2_read_tag", "src/modules/frame_header.c:FrameHeader_parse"]}
{"id": "C45", "title": "What edit histories leak", "statement": "From ID3v2_Tag_new_empty through any sequence of calls to ID3v2_Tag_free, the allocated memory is exactly what it was before, if no frame was deleted by its number. ID3v2_Tag_delete_comment_frame and ID3v2_Tag_delete_apic_frame lose the list nodes of the frames of that kind before the deleted one, or of all of them (at least one node) if there is none with that number; and each frame of an unknown kind that was in the tag loses its struct when it is deleted or the tag is freed. Nothing else is lost.", "quantifier": "all tags in memory, all sequences of calls", "why_tests_cant": "leaks do not show in results, and the amount depends on the position of the deleted frame and on the history", "anchors": ["src/modules/tag.c:ID3v2_Tag_delete_comment_frame", "src/modules/tag.c:ID3v2_Tag_delete_apic_frame", "src/modules/frame.c:ID3v2_Frame_free", "src/modules/tag.c:ID3v2_Tag_free"]}
{"id": "C46", "title": "Lists of found frames share the frames with the tag", "statement": "After ID3v2_Tag_get_frames, ID3v2_FrameList_unlink of the result frees exactly what the lookup allocated and leaves the tag as it was; ID3v2_FrameList_free of the result, if any frame was found, succeeds but leaves the tag with dangling pointers, and the next ID3v2_Tag_free uses freed memory.", "quantifier": "all tags in memory, all ids", "why_tests_cant": "both functions take the same argument and return nothing; the use of freed memory goes unnoticed", "anchors": ["src/modules/tag.c:ID3v2_Tag_get_frames", "src/modules/frame_list.c:ID3v2_FrameList_free", "src/modules/frame_list.c:ID3v2_FrameList_unlink"]}
{"id": "C47", "title": "syncint_encode overflows int on every call", "statement": "By the rules of ISO C, syncint_encode has no defined result for any argument: the update of its mask in the third round shifts 0x800000 left by 8, which does not fit an int (if no earlier shift of the value already overflowed). All results rely on wrapping arithmetic.", "quantifier": "all arguments", "why_tests_cant": "compiled code wraps silently", "anchors": ["src/modules/utils.c:syncint_encode"]}
{"id": "C48", "title": "How long a pointer returned by a getter is good", "statement": "ID3v2_Tag_get_frame returns the pointer to the first frame with the id. A set or delete call leaves the pointers to all other frames as they are (same address, same contents), while the pointer to the frame that it replaces or deletes dangles: reading its header is a use of freed memory. Calls about other ids never change what a getter returns. A dangling pointer never becomes good again.", "quantifier": "all tags in memory, all getters, all sequences of calls that change the tag, any frames before and after", "why_tests_cant": "freed memory often still holds the old frame; which pointers survive depends on the list and the history", "anchors": ["src/modules/tag.c:ID3v2_Tag_get_frame", "src/modules/tag.c:ID3v2_Tag_set_text_frame", "src/modules/tag.c:ID3v2_Tag_delete_frame", "src/modules/frame_list.c:FrameList_replace_frame", "src/modules/frame_list.c:FrameList_remove_frame_by_id", "src/modules/frame.c:ID3v2_Frame_free"]}
{"id": "C49", "title": "What reading leaves allocated", "statement": "ID3v2_read_tag and ID3v2_read_tag_from_buffer, when they return a tag, leave exactly the blocks of that tag allocated; when they return NULL they leave nothing: streams, buffers and temporary headers are all freed, once. The header functions leave one block or nothing. Every frame that is read is of the kind that its id stands for, whatever the bytes, so that ID3v2_Tag_free and the calls that change the tag find the structs they expect.", "quantifier": "all heaps, all files and buffers, hostile ones included", "why_tests_cant": "leaks and double frees do not show in results, and which path is taken depends on the bytes", "anchors": ["src/id3v2lib.c:ID3v2_read_tag", "src/id3v2lib.c:ID3v2_read_tag_from_buffer", "src/id3v2lib.c:ID3v2_read_tag_header", "src/modules/tag.c:Tag_parse", "src/modules/frame.c:Frame_parse"]}
{"id": "C50", "title": "Writing keeps the tag in memory", "statement": "ID3v2_write_tag leaves the tag at its address with all nodes, frames and strings at the same addresses and unchanged (only padding_size changes), so pointers to frames stay good. It frees all it allocates except, for each frame of an unknown kind that it writes, the two blocks of the stream of its header.", "quantifier": "all heaps, all tags whose frames are of the kinds their ids stand for, all files", "why_tests_cant": "the leak depends on frames the library does not know; changed addresses go unnoticed", "anchors": ["src/id3v2lib.c:ID3v2_write_tag", "src/modules/tag.c:Tag_to_char_stream", "src/modules/frame.c:Frame_to_char_stream"]}
{"id": "C51", "title": "Deleting a tag from a file leaves memory as it was", "statement": "ID3v2_delete_tag frees all it allocates, and touches no other block.", "quantifier": "all heaps, all files", "why_tests_cant": "leaks do not show in results", "anchors": ["src/id3v2lib.c:ID3v2_delete_tag"]}
{"id": "C52", "title": "Programs that use the library correctly are memory safe", "statement": "A program that reads, makes, edits, searches, writes and frees any number of tags and files in any order, that tests pointers for NULL, does not use a tag after freeing it, unlinks found lists and sets text frames only under ids starting with T, never causes a use after free, a double or bad free, or a struct being taken for another, whatever is in the files. Tags never share memory or affect each other. When it has freed all its tags, what is left allocated beyond the start is exactly the known leaks: the nodes lost by deletes by number, and one struct per deleted or freed, two blocks per written frame of an unknown kind.", "quantifier": "all programs, all files and buffers, all starting heaps", "why_tests_cant": "the interleavings and file contents are unbounded", "anchors": ["src/id3v2lib.c:ID3v2_read_tag", "src/id3v2lib.c:ID3v2_write_tag", "src/modules/tag.c:ID3v2_Tag_free", "src/modules/frame_list.c:ID3v2_FrameList_free"]}
{"id": "C53", "title": "Exactly which buffers can be read, and what is seen in them", "statement": "For every buffer shorter than 2^31, whose bytes may be indeterminate from some point on, ID3v2_read_tag_from_buffer either returns exactly the tag (or NULL) that a small grammar derives from the known bytes, or, if the grammar derives nothing, has undefined behaviour. The grammar gives one result at most. In particular: frames are looked for while the offset from the start of the buffer is below the declared size; the size of a comment is ignored; text after the terminator is dropped; any id starting with T, C or A is a text, comment or picture; text, picture and unknown frames that the end of the known bytes cuts off are accepted; an extended header makes frames start at its size, counted from the start of the buffer. The same holds for ID3v2_read_tag on every file, also one that ends before its tag does: there the rest of the buffer is indeterminate.", "quantifier": "all buffers, all numbers of indeterminate bytes behind them, all files", "why_tests_cant": "the equivalence is about every sequence of bytes, and about the absence of a second reading", "anchors": ["src/modules/tag.c:Tag_parse", "src/modules/frame.c:Frame_parse", "src/id3v2lib.c:ID3v2_read_tag_from_buffer", "src/id3v2lib.c:ID3v2_read_tag"]}
{"id": "C54", "title": "Version 1 interface: memory from load to free", "statement": "A program that loads a version 1 tag from any file, sets frames and saves the tag any number of times, and frees it, uses no freed memory, frees nothing twice and takes no struct for another: it fails only where its description on values does (no tag, no frames, setting a frame the tag does not have, undefined reads while parsing). Setting a frame frees the struct and data of the old version 1 frame and loses nothing; all other memory, also that of other owners, is left alone. What is left in the end is exactly three blocks for each frame of an unknown kind (two lost by load_tag, one by free_tag) and two more each time the tag is saved. A tag made by new_tag can never be freed: free_tag reads its raw pointer, which nothing assigns. After free_tag, freeing, saving or getting from the tag is a use after free. remove_tag leaves nothing allocated.", "quantifier": "all files and buffers, all sequences of setters and saves, all starting heaps", "why_tests_cant": "the contents of the file, the sequences of calls and the addresses are unbounded, and leaks and stale accesses do not show in the results", "anchors": ["src/id3v2lib.compat.c:load_tag", "src/id3v2lib.compat.c:load_tag_with_buffer", "src/id3v2lib.compat.c:free_tag", "src/id3v2lib.compat.c:add_uniq_to_list", "src/id3v2lib.compat.c:new_tag", "src/id3v2lib.compat.c:remove_tag"]}
{"id": "C55", "title": "Version 1 interface: how long frames and contents are good", "statement": "A version 1 getter returns the pointer to a frame of the tag's list. Setting the frame with that id frees what the pointer points to, setting any other frame leaves it as it is. parse_text_frame_content makes a copy of its own, which stays whole after free_tag; the strings of parse_comment_frame_content and parse_apic_frame_content are those of the tag below, so after free_tag they dangle although the content structs are still there. Each content function leaves the tag and all other memory as they were, and fails exactly where its description on values does: for NULL, a frame of another kind, or a text shorter than its size.", "quantifier": "all version 1 tags, getters, setters and frames", "why_tests_cant": "dangling pointers can read plausible data; which of them survive has to hold for all tags and orders of calls", "anchors": ["src/id3v2lib.compat.c:get_from_list", "src/id3v2lib.compat.c:parse_text_frame_content", "src/id3v2lib.compat.c:parse_comment_frame_content", "src/id3v2lib.compat.c:parse_apic_frame_content"]}
{"id": "C56", "title": "Editing a tagged file, from end to end", "statement": "Take any file that starts with a v2.3 or v2.4 tag without extended header: any well-formed frames, any amount of padding, then sound, all sizes below 2^28. Reading the tag, making any sequence of set, add and delete calls that deletes nothing absent and not the last of several frames, and writing it back gives a file with exactly the edited frames, the room that is left as zeros, and the same sound, if the room is enough; writing is undefined if it is not. The room is the padding minus ten bytes for each frame that was new, plus the size of each frame that was deleted by number: nothing else changes it, so replacing a frame by a longer one needs no padding, while adding one does. Any number of such sessions, one after the other, with a file the library itself wrote and with frames that its version keeps (C29, C30), give the file that the edits together describe.", "quantifier": "all frames, paddings, sounds, sequences of calls, sequences of sessions", "why_tests_cant": "the failure depends on an account of bytes kept over the whole history of the file, over unboundedly many calls and sessions", "anchors": ["src/id3v2lib.c:ID3v2_read_tag", "src/id3v2lib.c:ID3v2_write_tag", "src/modules/tag.c:Tag_to_char_stream", "src/modules/tag.c:ID3v2_Tag_set_text_frame"]}
{"id": "C57", "title": "Version 1 interface: editing a tagged file, from end to end", "statement": "Loading a version 1 tag from any file with a v2.3 or v2.4 tag of at least one frame, setting any frames that the tag already has, and saving it gives a file with exactly those frames replaced, the same padding and the same sound; loading that file shows the new values, for frames that the version of the tag keeps (C29, C30). Whether there is padding does not matter, since no frame can be new: a setter for a frame the tag does not have dereferences NULL. The header struct keeps showing the old size until the file is loaded again.", "quantifier": "all frames, paddings, sounds, sequences of setters", "why_tests_cant": "two lists of frames have to stay in step over every sequence of setters and every file", "anchors": ["src/id3v2lib.compat.c:load_tag", "src/id3v2lib.compat.c:set_tag", "src/id3v2lib.compat.c:add_uniq_to_list"]}
{"id": "C58", "title": "A text frame under an id that does not stand for text", "statement": "ID3v2_Tag_set_text_frame accepts any id of four bytes and the lookup then gives the frame back. If the id does not start with T, however, the frame is not of the kind that the library assumes for its id: ID3v2_write_tag never completes for a tag with such a frame; and from ID3v2_Tag_new_empty to ID3v2_Tag_free, an id starting with C or A makes freeing the tag undefined behaviour, while under any other id two blocks are lost. More generally, for any tag whatever and any sequence of editing calls with any arguments, the outcome on the heap is that on values except where a frame is freed that is not of the kind of its id, and the number of blocks lost is given frame by frame; writing any tag succeeds on the heap exactly when it does on values.", "quantifier": "all tags, frames (of any kind under any id), ids, texts, heaps, sequences of calls, files", "why_tests_cant": "the failure depends on the kind of every frame that any call frees or replaces, and a leak or misread struct shows in no return value", "anchors": ["src/modules/frame.c:ID3v2_Frame_free", "src/modules/frame.c:Frame_to_char_stream", "src/modules/tag.c:ID3v2_Tag_set_text_frame", "src/modules/frame_header.c:FrameHeader_isTextFrame"]}
{"id": "C59", "title": "Files written by someone else, edited and written", "statement": "Take any file at all whose tag declares less than 2^28 bytes. If ID3v2_read_tag sees a tag in it, then all frames seen are well formed and together fit into the declared size, except possibly a last one that the end of the file cuts off. Reading the file and writing it back either leaves a file without tag unchanged; or yields exactly the header as it was, the frames seen in the library's own layout, zeros up to the declared size, and the bytes that followed the tag; or, if the last frame was cut off or the file cannot be read at all, is undefined. In the file that was written a reader sees the same header and frames, and writing it once more changes nothing; in v2.4 this needs every frame other than a comment to be below 256 bytes, and fails for others. Any sequence of proper edits of a file with a tag is carried out on the frames seen, cut off or not. Writing the result is undefined if a frame that was cut off is still among them; otherwise it gives exactly the edited frames in a tag whose size accounts for what the library miscounts, or is undefined if that leaves less room than none.", "quantifier": "all files (arbitrary bytes, any version and flags, complete or cut off), all sequences of editing calls", "why_tests_cant": "the files of other programs are unlimited in kind; tests only have files the library or the test author wrote", "anchors": ["src/id3v2lib.c:ID3v2_read_tag", "src/id3v2lib.c:ID3v2_write_tag", "src/modules/frame.c:Frame_parse", "src/modules/frame.c:Frame_to_char_stream", "src/modules/tag.c:Tag_parse", "src/modules/tag.c:Tag_to_char_stream"]}
{"id": "C60", "title": "Files that cannot be opened, read or written to the end", "statement": "ID3v2_read_tag and ID3v2_read_tag_header treat a file that cannot be opened as a missing one and a file that cannot be read beyond some byte as one that ends there; a failing malloc of the buffer makes ID3v2_read_tag return NULL, a failing second fopen is undefined behaviour, and load_tag notices neither. ID3v2_write_tag never changes the file when tmpfile or one of its two fopen calls fails, but then ends in a null pointer access. When these succeed, the call returns normally whatever else fails: the file then holds exactly the beginning of tag and sound that passed the limits of reading, of the temporary file and of the disk, so everything is kept if and only if it fits everywhere, and nothing tells the caller. ID3v2_delete_tag behaves the same, except that without a temporary file it empties a file that consists of the tag only before it fails; if it cannot see the tag it leaves the file alone.", "quantifier": "all files, all tags that can be serialised, all combinations of failing opens and all limits on reading and writing", "why_tests_cant": "tests run on a healthy disk with enough space and permissions; failures at every byte cannot be provoked one by one", "anchors": ["src/id3v2lib.c:ID3v2_read_tag_header", "src/id3v2lib.c:ID3v2_read_tag", "src/id3v2lib.c:ID3v2_write_tag", "src/id3v2lib.c:ID3v2_delete_tag", "src/id3v2lib.compat.c:load_tag"]}
{"id": "C61", "title": "Version 1 interface on files written by someone else", "statement": "For every file: if ID3v2_read_tag sees a tag with at least one frame, load_tag returns a version 1 tag whose list shows exactly the frames seen, in order, each pointing to its frame, with the header as read; of a last frame that the end of the file cuts off it shows what was there and indeterminate bytes for the rest. The only exception is a cut frame that declares 2^31-10 bytes or more (undefined: int overflow). If no tag or no frame is seen, or the file cannot be read, load_tag is undefined. Every getter returns the first frame with its id or NULL, and the content functions return what the frame holds. Any sequence of setters replaces the first frame with the id of each, and is undefined at the first whose id the tag lacks. set_tag then writes the frames in a tag whose size has changed by what the frames have grown, followed by the bytes after the old tag; it is undefined if a frame that was cut off is still there or the frames no longer fit.", "quantifier": "all files (arbitrary bytes), all sequences of version 1 setters", "why_tests_cant": "the files of other programs, and the places where they can break off, are unlimited; tests use files the library wrote", "anchors": ["src/id3v2lib.compat.c:load_tag", "src/id3v2lib.compat.c:load_tag_with_buffer", "src/id3v2lib.compat.c:frame_to_compat_frame", "src/id3v2lib.compat.c:set_tag", "src/id3v2lib.compat.c:add_uniq_to_list"]}
{"id": "C62", "title": "Streams, temporary files and other files", "statement": "For every state of the file system with any open streams, whatever stdio buffers and whatever call it refuses (fopen, tmpfile, getc, putc, fread, fwrite, fseek, ftell, fclose, the tested malloc): the reading functions change no file at any moment; ID3v2_read_tag_header and ID3v2_read_tag always leave the same streams open as before. ID3v2_write_tag, ID3v2_delete_tag, set_tag and remove_tag change no file but the named one, which at every moment is what it was or a beginning of what it holds in the end; when one of them returns, every stream it opened is closed and its temporary file is gone. A write that does not return leaves the file as it was; a delete that does not return leaves it as it was or empty. When nothing is refused, results and files are those of the other claims however output is buffered. When something is refused and writing returns, the file holds the bytes of the new tag followed by the old contents with or without the old tag, some bytes possibly missing, in order. For every sequence of calls, a file that none of them is to change stays as it is at every moment, and when all return no stream and no temporary file is left.", "quantifier": "all file systems and open streams, all file names, all tags, all sequences of calls, all buffering and all failures of any stdio call", "why_tests_cant": "a leaked stream or temporary file is not visible in the result; buffering and failures at every single getc or putc cannot be provoked, and the states of the disk in the middle of a call cannot be watched", "anchors": ["src/id3v2lib.c:ID3v2_read_tag_header", "src/id3v2lib.c:ID3v2_read_tag", "src/id3v2lib.c:ID3v2_write_tag", "src/id3v2lib.c:ID3v2_delete_tag", "src/id3v2lib.compat.c:load_tag", "src/id3v2lib.compat.c:set_tag", "src/id3v2lib.compat.c:remove_tag", "src/id3v2lib.compat.c:tag_set_album_cover"]}
{"id": "C63", "title": "Threads that use different files do not disturb each other", "statement": "Any number of threads call the functions on files (both interfaces) at the same time, their stdio calls interleaved in any order, with any buffering and any failing calls. If no thread writes or deletes the tag of a file that another thread uses, every call returns what it returns when its thread runs alone, every thread finishes after a number of its own turns that does not depend on the others, its files hold what they hold when it runs alone, and files that nobody is to change stay as they are at every moment. Threads may read the same file. The same holds for any programs over the same stdio calls, provided none changes a file that another opens. Without the condition it is false: a reader can find no tag in a file that has one before and after.", "quantifier": "all numbers of threads, all lists of calls, all file systems, all interleavings, all buffering and all failures", "why_tests_cant": "the number of interleavings of single stdio calls is astronomical, and a race shows up once in millions of runs if at all", "anchors": ["src/id3v2lib.c:ID3v2_read_tag_header", "src/id3v2lib.c:ID3v2_read_tag", "src/id3v2lib.c:ID3v2_write_tag", "src/id3v2lib.c:ID3v2_delete_tag", "src/id3v2lib.compat.c:load_tag", "src/id3v2lib.compat.c:set_tag", "src/id3v2lib.compat.c:remove_tag", "src/id3v2lib.compat.c:tag_set_album_cover"]}
{"id": "C64", "title": "Signedness of char and byte order of the host", "statement": "Whether char is signed and whether the host is little- or big-endian makes no difference to what ID3v2_read_tag, ID3v2_read_tag_from_buffer, load_tag and load_tag_with_buffer return for any file or buffer, nor to whether their behaviour is defined; ID3v2_read_tag_header, ID3v2_read_tag_header_from_buffer, ID3v2_delete_tag and remove_tag do the same on every machine; ID3v2_write_tag and set_tag do the same on every little-endian machine. On a big-endian machine ID3v2_write_tag stores the size of the tag and of every frame with its bytes reversed (itob uses the bytes of an int in memory as if they were little-endian). The tag is then found with its true length exactly if its size reads the same in both directions, a frame of a version 3 tag likewise, which is never so for frame sizes from 1 to 65535. For a tag size below 16384 the file claims a longer tag than it has: ID3v2_delete_tag, on any machine, also deletes the first bytes of the audio.", "quantifier": "all files, buffers, tags, both signednesses of char, both byte orders", "why_tests_cant": "tests run on the machine at hand, usually with signed char and little-endian; a big-endian host is seldom available, and equality on all inputs is not testable", "anchors": ["src/modules/utils.c:itob", "src/modules/char_stream.c:CharStream_getc", "src/modules/tag_header.c:TagHeader_parse", "src/modules/tag.c:Tag_to_char_stream", "src/modules/frame_header.c:FrameHeader_to_char_stream", "src/id3v2lib.c:ID3v2_write_tag", "src/id3v2lib.c:ID3v2_delete_tag"]}
{"id": "C65", "title": "How much stack reading needs", "statement": "The parsers copy texts and pictures into arrays of variable length on the stack. On a machine where such arrays may take a limited number of bytes every reading call does what it does elsewhere or overflows the stack. Every file (and every buffer) that can be read at all needs a definite number of bytes, given by grammar rules, and is read exactly where the stack holds as many. No file needs more than 2^31 - 2 bytes; the need is not bounded by the length of the file: for every m from 2 to 2^31 - 2 there is a file of 23 bytes that needs m bytes of stack and in which, where there are as many, a text of one character is read. A file whose tag the library has written needs as many bytes as the strings and the picture of its most demanding frame take.", "quantifier": "all files, all buffers, all stack sizes, both interfaces", "why_tests_cant": "a test sees one stack size and a few files; that small files overflow any usual stack only shows with a specially made file, and that a given stack suffices for a file cannot be seen from tests on another machine", "anchors": ["src/modules/frames/text_frame.c:TextFrame_parse", "src/modules/frames/comment_frame.c:CommentFrame_parse", "src/modules/frames/apic_frame.c:ApicFrame_parse", "src/id3v2lib.c:ID3v2_read_tag", "src/id3v2lib.c:ID3v2_read_tag_from_buffer", "src/id3v2lib.compat.c:load_tag", "src/id3v2lib.compat.c:load_tag_with_buffer"]}
{"id": "C66", "title": "What each call does when memory is refused", "statement": "Take any allocator, which may refuse any request depending on all requests before. If it grants all that a call asks for, the call does what it does elsewhere. Otherwise: setting, adding and deleting frames, converting text and parsing contents have undefined behaviour. Reading gives NULL if the header or the room for the tag in a file was refused; a tag without frames gets a NULL list if only its list was refused; frames of which a buffer holds nothing but the header may lose their data; anything else is undefined. Writing while the header of the old tag is refused puts the new tag before everything that was in the file, so the old tag stays behind it; deleting then leaves the file unchanged. A new tag lacks the header or the list that was refused. Listing the frames of a kind that does not occur gives NULL. Loading with the version 1 interface is undefined, except that a tag without frames, which otherwise cannot be loaded, can be.", "quantifier": "all allocators, all histories of requests, all tags, files, buffers and arguments, both interfaces", "why_tests_cant": "every one of the unboundedly many requests can be refused, alone or with others, and the results of a test that injects a failure are one sequence of answers for one input", "anchors": ["src/modules/tag_header.c:TagHeader_new", "src/modules/frame_list.c:FrameList_new", "src/modules/frame.c:Frame_parse", "src/id3v2lib.c:ID3v2_read_tag", "src/id3v2lib.c:ID3v2_write_tag", "src/id3v2lib.c:ID3v2_delete_tag", "src/modules/tag.c:ID3v2_Tag_new", "src/id3v2lib.compat.c:load_tag", "src/id3v2lib.compat.c:new_tag"]}
{"id": "C67", "title": "How much memory each call takes", "statement": "For every size the structs may have: each call takes a definite number of bytes, known from its result. With an allocator that can hand out that many bytes in all the call succeeds, having asked for exactly that many, and with fewer one of its requests is refused. Reading a tag from a file takes the header, twice the size declared plus the header, and for each frame its node, its struct, its strings and three frame headers (one for an unknown frame); with less the file seems to have no tag, or a tag without frames has a NULL list, or the behaviour is undefined. Writing takes what the header declares, and for each frame its size plus 24 bytes and two streams. Deleting a tag takes only its header. Setting or adding takes one frame and at most one node; deleting a frame takes a node if and only if it is the last one; deleting by index takes one more for each candidate. A file can make the library take at most twice what it declares, the structs of one frame for each ten of its bytes, its own length and 2 GiB; and a file of 21 bytes can make it take any number of bytes up to 2 GiB.", "quantifier": "all sizes of structs, all limits, all files, buffers, tags and edits", "why_tests_cant": "the limit, the number of frames and every length are unbounded, and a profile of one run shows the bytes for one input", "anchors": ["src/id3v2lib.c:ID3v2_read_tag", "src/modules/tag.c:Tag_parse", "src/modules/frame.c:Frame_parse", "src/modules/frames/text_frame.c:TextFrame_parse", "src/modules/char_stream.c:CharStream_from_buffer", "src/id3v2lib.c:ID3v2_write_tag", "src/modules/frame_list.c:FrameList_remove_frame_by_id", "src/modules/tag.c:ID3v2_Tag_delete_comment_frame"]}
{"id": "C68", "title": "Which calls may be made at once by threads that share a tag", "statement": "Threads share a tag; every access to a member of a struct is a turn. Any number of threads may get frames by id, list all frames of an id and release the list, and read the text of a frame, as often as they like: there is no data race, and in every interleaving each of them gets the answers that the frames of the tag say. Threads with one request each race if and only if two of the requests are in conflict: freeing the tag with anything; two edits, unless neither changes the list; an edit with a lookup that goes as far as the place where the edit changes the list, so appending does not disturb the lookup of an id that is there but does disturb that of one that is not; an edit with any listing of frames; replacing or deleting a frame with reading its text. Without a conflict every thread ends as it would alone, whatever the interleaving. In general, threads race if and only if two of them, each left alone, would make clashing accesses; otherwise each does what it would do alone and leaves what it would leave.", "quantifier": "all tags made of the frames the library can make, all edits, ids and frames, any number of threads, all schedules", "why_tests_cant": "the number of interleavings is unbounded, a race need not show in any run, and a race detector sees only the interleavings that happened", "anchors": ["src/modules/tag.c:ID3v2_Tag_get_frame", "src/modules/tag.c:ID3v2_Tag_get_frames", "src/modules/tag.c:ID3v2_Tag_set_text_frame", "src/modules/tag.c:ID3v2_Tag_add_comment_frame", "src/modules/tag.c:ID3v2_Tag_delete_frame", "src/modules/tag.c:ID3v2_Tag_free", "src/modules/frame_list.c:FrameList_get_frame_by_id", "src/modules/frame_list.c:FrameList_get_frames_by_id", "src/modules/frame_list.c:FrameList_add_frame", "src/modules/frame_list.c:FrameList_replace_frame", "src/modules/frame_list.c:FrameList_remove_frame", "src/modules/frame_list.c:ID3v2_FrameList_unlink"]}
{"id": "C69", "title": "What programs that follow the ID3v2 standard see in the files the library writes", "statement": "A reader written from the ID3v2.3.0 and 2.4.0 documents reads a v2.3 tag written by the library as the frames it is meant to hold, in order, after any edits, provided the two strings of every comment share an encoding, MIME types are ISO-8859-1 and no text frame is a TXXX frame. It reads a v2.4 tag that way if and only if no frame has 128 bytes or more. An ISO-8859-1 comment set with ID3v2_Tag_set_comment is lost on such a reader, whatever it says: the frame is seen as an empty comment with the description \"\\u00ff\\u00fe\"; a UTF-16 comment is seen as it is. A comment frame with a UTF-16 description and an ISO-8859-1 text is seen with the byte order mark as characters of the description; with an ISO-8859-1 description and a UTF-16 text the tag has a frame that is not one by the standard.", "quantifier": "all tags, frames, texts, comments and edits, all files written to", "why_tests_cant": "the library reads its own files back with its own misunderstandings, so round trips show nothing; the texts and the numbers of frames are unbounded", "anchors": ["src/modules/frames/comment_frame.c:CommentFrame_to_char_stream", "src/modules/frames/text_frame.c:TextFrame_to_char_stream", "src/modules/frames/apic_frame.c:ApicFrame_to_char_stream", "src/modules/frame_header.c:FrameHeader_to_char_stream", "src/modules/tag.c:ID3v2_Tag_set_comment", "src/id3v2lib.c:ID3v2_write_tag"]}
{"id": "C70", "title": "What the library does to files of programs that follow the standard, when they are read and written without edits", "statement": "A file with a standard tag (no unsynchronisation, extended header or footer) whose frames the library reads to their ends is written back with the same frames, each labelled by what its text looks like and without what follows its first text. The file stays the same, byte by byte, if and only if every body is one the library itself would write and, in a v2.4 tag, no frame has 128 bytes or more. In a v2.4 tag such a large frame makes the tag read otherwise, or not at all, for a reader by the standard. A UTF-8 text is then seen as other characters unless it is ASCII; a UTF-16BE text of characters below 256 is then empty; of several texts in one frame the first is left; a user-defined text (TXXX) loses its value. A text without terminator, which the standard allows, makes reading the file undefined, whatever readable frames stand before and behind it.", "quantifier": "all frames, texts, versions, paddings and sounds", "why_tests_cant": "the files of other programs are unbounded, and the repository's tests read only files the library understands", "anchors": ["src/id3v2lib.c:ID3v2_read_tag", "src/id3v2lib.c:ID3v2_write_tag", "src/modules/frames/text_frame.c:TextFrame_parse", "src/modules/frames/text_frame.c:TextFrame_to_char_stream", "src/modules/frame_header.c:FrameHeader_to_char_stream", "src/modules/frame_header.c:FrameHeader_parse"]}
{"id": "C71", "title": "Saving a tag while other threads use it", "statement": "A thread that saves a tag (ID3v2_write_tag) makes exactly one change to the shared tag: it rewrites padding_size. Hence one thread may save a tag, any number of times and to any files, while any number of other threads read the tag: there is no data race, and in every interleaving the files are those that the same calls leave without other threads, and the readers get the answers that the frames say. But two threads that save the same tag race, even if they write different files; and in such an interleaving the tag can end with more padding than the 2048 bytes that one save after the other would leave. Saving races with an edit by another thread, unless the edit is the deletion of an n-th comment or picture that is not there, and with freeing. Left alone, the thread does what ID3v2_write_tag does to the file and the tag, whatever the outcome.", "quantifier": "all tags made of the frames the library can make, all files, any number of threads and calls, all schedules", "why_tests_cant": "saving takes a tag that it looks as if it only read; that it writes shows in no file, and the interleavings are unbounded", "anchors": ["src/id3v2lib.c:ID3v2_write_tag", "src/modules/tag.c:Tag_to_char_stream", "src/modules/frame.c:Frame_to_char_stream", "src/modules/frame_header.c:FrameHeader_to_char_stream"]}
{"id": "C72", "title": "What the assertions of the test programs say", "statement": "Applied to a frame the library can make, each assertion of test/assertion_utils.c is without undefined behaviour and holds if and only if the frame is the expected one: the same id, flags and text; the same flags, language and texts; or the same flags, MIME type, description and picture data. The picture type is not compared: the assertion that expects a front cover holds of a picture of any type.", "quantifier": "all frames and all expected values", "why_tests_cant": "they are the tests; what a test overlooks shows in no run of it", "anchors": ["test/assertion_utils.c:assert_text_frame", "test/assertion_utils.c:assert_comment_frame", "test/assertion_utils.c:assert_apic_frame"]}
{"id": "C73", "title": "On which files the tests of reading and of setting pass", "statement": "get_test passes on a file if and only if the first frames with the eleven ids it asks for are the frames it describes; further frames, their order and the picture type do not matter. On a file without tag, or that is not there, it dereferences NULL. The test of files without tags passes if and only if there is no tag in either. edit_test on a tag of frames that survive rewriting is undefined if the padding is smaller than ten bytes for each frame it adds (the added comment, the added cover, and one for each frame it sets that the tag lacked); otherwise it passes if and only if the tag had no second comment and no second picture, or ones equal to those it adds. In a v2.4 tag it does not pass with a cover that makes a frame of 256 bytes or more. On a file without tag it is undefined.", "quantifier": "all files and covers; for edit_test all tags of frames that survive rewriting, any padding", "why_tests_cant": "the files that the tests need are not part of the repository (test/extra has only the picture and an empty file)", "anchors": ["test/get_test.c:get_test_existing", "test/get_test.c:get_test_empty", "test/set_test.c:edit_test"]}
{"id": "C74", "title": "On which files the test of deleting passes", "statement": "delete_test dereferences NULL on a file without tag and on a tag that lacks one of the ten frames it deletes, although deleting a comment that is not there is fine. It passes if and only if the tag has exactly these ten frames, once each and in any order, with or without one comment, and no second tag follows the first.", "quantifier": "all tags of frames the library can make, any padding, any sound", "why_tests_cant": "they are the tests; the file they need is not part of the repository", "anchors": ["test/delete_test.c:delete_test_main"]}
{"id": "C75", "title": "On which files the test of the version 1 interface passes", "statement": "compat_test passes if and only if the first album, artist, title and year frames are texts that begin like the expected ones: of each UTF-16 text only as many bytes are compared as the text has in ISO-8859-1, about half of it. What it sets and reads back afterwards always passes. On a file without tag it dereferences NULL.", "quantifier": "all tags of frames that survive rewriting, any padding and sound", "why_tests_cant": "they are the tests; what a test overlooks shows in no run of it", "anchors": ["test/compat_test.c:compat_test_main"]}
{"id": "C76", "title": "On which files the whole test suite passes", "statement": "The suite passes if and only if the tag of file.mp3 has exactly the eleven frames get_test describes, in any order and with any picture type, at least 20 bytes of padding and no second tag behind it, the tag is v2.3 or the cover is smaller than 218 bytes, and the two other files have no tag. Hence with the cover of the repository (2935656 bytes) file.mp3 has to be v2.3.", "quantifier": "all tags of frames the library can make and read, any version, padding, sound, cover and other files, below the size that a tag header can say", "why_tests_cant": "they are the tests; file.mp3 is not part of the repository", "anchors": ["test/main_test.c:main", "test/get_test.c", "test/set_test.c", "test/delete_test.c", "test/compat_test.c"]}
{"id": "C77", "title": "What the printing functions of the tests print", "statement": "print_text_frame and print_comment_frame print the text of a frame, without its terminator, and a newline; for a UTF-16 text they print its units in the byte order of a little-endian host, so the line is right if and only if the byte-order mark is little-endian or every unit has two equal bytes. For every file whose tag is read, each getter of a text frame followed by the printing prints the line of the first frame with that id, or None; print_comment_frames prints one line per comment, in order, or None. A frame of another kind is undefined behavior. to_unicode of the tests and ID3v2_to_unicode agree on every argument.", "quantifier": "all texts, all frames, all files that can be read, all text getters, all pointers", "why_tests_cant": "no test calls these functions or looks at what is printed", "anchors": ["test/test_utils.c:print_text_frame", "test/test_utils.c:print_comment_frames", "test/test_utils.c:println_utf16", "test/test_utils.c:to_unicode"]}
{"id": "C78", "title": "Saving a picture always writes outside of memory", "statement": "save_apic_frame has undefined behavior for every frame and every directory. For a file that is read and a directory name of ordinary length it writes beyond the buffer of the file name if the file has a picture, and prints None if it has none; no file is ever saved.", "quantifier": "all frames and directories; all files that can be read", "why_tests_cant": "no test calls it, and an overflow by one byte goes unnoticed in most allocators", "anchors": ["test/test_utils.c:save_apic_frame"]}
{"id": "C79", "title": "What the examples of README.md that read print", "statement": "On every file whose tag is read, the example for loading prints the first artist and the first album, the one for new frames the first TCOP frame, the one for the compatibility layer the first album, each up to the first zero byte of the text (so of UTF-16 text in Latin letters only the mark and one letter); if such a frame is missing, or the file has no tag, the example dereferences NULL. On a file that cannot be read all examples are undefined.", "quantifier": "all files", "why_tests_cant": "the examples are not compiled by anything", "anchors": ["README.md:Load Tags", "README.md:Read New Frames", "README.md:Compatibility Layer", "src/modules/tag.c:ID3v2_Tag_get_frame"]}
{"id": "C80", "title": "What the examples of README.md that set frames do", "statement": "The example for editing replaces the first title and the first artist, or appends those that are missing, keeps all other frames and the sound, and writes the file if the tag has 10 bytes of padding for each of the two that is missing; otherwise, and on every file without a tag, it is undefined. The example for new frames sets the TCOP frame of the tag in memory and writes no file.", "quantifier": "all files with whole frames (all files for the second example), tags below the largest size", "why_tests_cant": "the examples are not compiled by anything", "anchors": ["README.md:Edit Tags", "README.md:Edit New Frames", "src/modules/tag.c:ID3v2_Tag_set_text_frame"]}
{"id": "C81", "title": "What the example of README.md that deletes does", "statement": "If the title or the artist is missing, or the file has no tag, NULL is dereferenced. If the first title or the first artist is the last frame of the tag and another frame remains, the program exits with 1 when it is to write. Otherwise the first title and the first artist are gone from the file, the tag is shorter by these frames, and after the tag is deleted only the sound is left.", "quantifier": "all files with whole frames, tags below the largest size", "why_tests_cant": "the examples are not compiled by anything; delete_test deletes every frame, so none remains", "anchors": ["README.md:Delete Tags", "src/modules/tag.c:ID3v2_Tag_delete_frame", "src/modules/frame_list.c:FrameList_remove_frame_by_id"]}
{"id": "C82", "title": "Unsynchronised tags are not read as what they say", "statement": "The library does not undo the unsynchronisation scheme. In a v2.4 tag whose frames are unsynchronised, a UTF-16 text with a little-endian mark is read as the ISO-8859-1 text FF, a big-endian text that starts with a character below U+0100 as the empty text, and pictures and other data with the inserted zero bytes; other texts and ISO-8859-1 comments are read as they are. Saving the tag unchanged makes this permanent. In a v2.3 tag, such a little-endian text is read as FF too, and one byte more is taken for padding; if another frame follows, it is not found: a frame with an id that starts with a zero byte and a size of at least 3*2^28 is seen in its place, no frame with another id than the text's can be got, and saving the tag is undefined behaviour.", "quantifier": "all v2.4 tags of well-formed frames with byte FF only in UTF-16 marks, picture and other data (comments and picture descriptions in ISO-8859-1), all v2.3 tags that start with such a little-endian text, below 2^28 bytes, whatever the flags but the extended header and whatever follows", "why_tests_cant": "no test file is unsynchronised; the claim is about all texts, pictures and following frames", "anchors": ["src/modules/tag_header.c:TagHeader_parse", "src/modules/frames/text_frame.c:TextFrame_parse", "src/modules/frames/apic_frame.c:ApicFrame_parse", "src/modules/frame.c:Frame_parse"]}
{"id": "C83", "title": "Flags of the tag header are kept and ignored; footers become sound", "statement": "If only flags of the tag header other than the extended header differ in two files, the same frames and padding are read from both, or none from both; after the same edits and saving, the files still differ in these flags only. A footer is taken for sound: saving leaves it behind the tag, with the old size also when the tag has got another; deleting the tag leaves the footer at the start of the file, where neither reading nor deleting sees a tag.", "quantifier": "all files and flags; all files with a tag below 2^28 bytes, whole or cut, and all sequences of edits", "why_tests_cant": "the flags of the test file are zero and it has no footer; 128 values of the flags and all files", "anchors": ["src/modules/tag_header.c:TagHeader_parse", "src/id3v2lib.c:ID3v2_write_tag", "src/id3v2lib.c:ID3v2_delete_tag"]}
{"id": "C84", "title": "Arguments may point into the tag that is edited", "statement": "A set, add, delete or get function whose arguments point into allocated memory, also into frames of the tag it changes (texts, ids, flags, languages, pictures), does exactly what it does when the strings are copied out beforehand: the same outcome and the same heap. In particular a text can be copied from one frame to another, setting a frame to its own text leaves the frames as they are, and a frame can be deleted by the id in its own header.", "quantifier": "all heaps, tags, calls and pointers into them", "why_tests_cant": "no test passes a pointer it got from the tag; whether a freed string is read depends on which frame is replaced", "anchors": ["src/modules/tag.c:ID3v2_Tag_set_text_frame", "src/modules/tag.c:ID3v2_Tag_delete_frame", "src/modules/frame_list.c:FrameList_remove_frame_by_id", "src/modules/frames/text_frame.c:TextFrameData_new"]}
{"id": "C85", "title": "Every sequence of edits, holes included", "statement": "For every tag reachable by any edits, also those that delete the last frame and leave a hole, the effect of every set, add and delete function is determined: frames before the hole are seen by the getters, those behind it are not; a new frame goes behind the hole, or into the first entry if no frame is left before the hole, which makes the frames behind it visible again; deleting by an id that is not seen dereferences NULL; deleting comment or picture number 0 when none is seen closes a hole that has frames behind it, otherwise an absent index changes nothing. No edit loses a frame other than the one it replaces or deletes. Writing a tag with frames before the hole ends the process with status 1; with none before it, a tag without frames is written.", "quantifier": "all tags with or without a hole, all sequences of calls with well-formed arguments", "why_tests_cant": "all states and histories", "anchors": ["src/modules/frame_list.c:FrameList_add_frame", "src/modules/frame_list.c:FrameList_remove_frame", "src/modules/frame_list.c:FrameList_remove_frame_by_id", "src/modules/tag.c:ID3v2_Tag_delete_comment_frame", "src/modules/tag.c:Tag_to_char_stream"]}
{"id": "C86", "title": "Every session ends in one determined way", "statement": "A file is read, its tag edited by any calls with well-formed arguments, whatever they delete, and saved. A file without a tag stays as it is; one whose tag cannot be read (C53) is undefined behaviour. Otherwise: if some call deletes by an id that is not seen, NULL is dereferenced; else, if the frames before the hole, or all frames where there is none, do not fit the recorded size (the old size plus the sum of the changes, modulo 2^32), or that size and the header exceed what an int holds, the behaviour is undefined; else, if there is a hole with frames before it, the process exits with status 1; else the file is the tag of exactly those frames, with zeros up to the recorded size, and the sound. So the session comes back exactly if no absent id is deleted, the frames fit, and no hole follows a frame. With a frame among them that the end of the file cut off (C59), the session never comes back.", "quantifier": "all files (those in which a tag is seen: with frame sizes below 2^31 - 10), all sequences of calls with well-formed arguments, all sizes", "why_tests_cant": "all files and histories; exact conditions for a crash", "anchors": ["src/id3v2lib.c:ID3v2_read_tag", "src/id3v2lib.c:ID3v2_write_tag", "src/modules/tag.c:Tag_to_char_stream", "src/modules/frame_list.c:FrameList_remove_frame"]}
{"id": "C87", "title": "Laws of edits", "statement": "Two tags with the same header, padding and frames in the same places, at whatever addresses, cannot be told apart by the getters, by what they write to any file, or by any further calls. On every tag without a hole: setting a frame twice is the same as setting it once to the second value; two frames with different ids may be set in either order, with the same recorded size and the same results of all getters, and with the same tag if one of the two was there before; setting a frame and deleting it is the same as deleting it, where that leaves no hole; two deletes by different ids may be made in either order, where neither order leaves a hole. Setting a frame whose id is new and deleting it again does not restore the tag: a hole is left behind the old frames and the recorded size is ten less.", "quantifier": "all tags, all well-formed frames, all calls that set or delete by id", "why_tests_cant": "relates two executions for all states and arguments", "anchors": ["src/modules/tag.c:ID3v2_Tag_set_text_frame", "src/modules/tag.c:ID3v2_Tag_delete_frame", "src/modules/frame_list.c:FrameList_replace_frame", "src/modules/frame_list.c:FrameList_remove_frame", "src/modules/tag.c:Tag_to_char_stream"]}
{"id": "C88", "title": "Saving and deleting again and again", "statement": "Whether a tag can be saved, and which bytes it becomes, does not depend on the file: the bytes go in front of what followed the old tag. After a save whose header says ID3, the major version 3 or 4, no extended header and a size below 2^29, a deletion and a save of any other tag do what they would have done before it, what is read back is the same whatever the file was, and saving the returned tag again changes nothing. So of any sequence of such saves and deletions on a file only the last call counts, provided that, if there are deletions, what follows the tag does not itself look like a tag. Otherwise: from 2^29 bytes on, a deletion leaves a multiple of 2^29 bytes of the tag in the file; a tag with an unknown version is neither read nor deleted, and saving it again puts a second copy in front of the first; with the flag for an extended header every later call on the file is undefined behaviour.", "quantifier": "all tags, with frames well formed or not, all file contents, all sequences of saves and deletions", "why_tests_cant": "histories of any length over all tags and contents; the sizes from 2^29 on are out of reach of tests", "anchors": ["src/id3v2lib.c:ID3v2_write_tag", "src/id3v2lib.c:ID3v2_delete_tag", "src/modules/tag.c:Tag_to_char_stream", "src/modules/tag_header.c:TagHeader_parse"]}
{"id": "C89", "title": "The whole life of a tagged file", "statement": "A file that the library wrote goes through any number of sessions (read the tag, make any calls that edit it, write it) and deletions of its tag, in any order. If the frames that are put in are such that they survive being written and read, what follows the tag does not look like a tag, and the size of the tag with all frames ever put in stays below 2^28, then the end is determined by the edits alone: either every step succeeds and the file holds the edited frames, with the recorded size the edits lead to, before the same sound; or the tag was deleted, the file is the sound alone, and all later sessions do nothing; or the process exits with status 1 in the first session that leaves frames before a hole; or the behaviour is undefined in the first session that deletes an absent frame or leaves too little room.", "quantifier": "all files the library writes, all sequences of sessions and deletions, all calls in each", "why_tests_cant": "sequences of any length; each session depends on what the ones before it left in the file", "anchors": ["src/id3v2lib.c:ID3v2_read_tag", "src/id3v2lib.c:ID3v2_write_tag", "src/id3v2lib.c:ID3v2_delete_tag", "src/modules/tag.c:Tag_to_char_stream", "src/modules/tag.c:ID3v2_Tag_delete_frame"]}
{"id": "C90", "title": "Another process replaces the file meanwhile", "statement": "Reading opens the file twice, saving and deleting three times, and each time the name may stand for another file. Reading takes as many bytes of the second file as the tag of the first declares and returns what the format says about these bytes, or is undefined exactly if they are not readable or the file is gone. Saving and deleting cut the length of the tag of the first file off the second one; the sound of the second file is kept exactly if both tags are equally long or nothing of it would be left either way; if the file is gone the behaviour is undefined. If any number of processes save tags of the recorded size of the tag in the file, in whatever order they come to their calls of fopen, none crashes, each stores what it would have stored alone, and the file is at any time the original or what one of those that have finished made of it. With different lengths sound is lost or rests of a tag remain.", "quantifier": "all contents of the file at each fopen, all tags, any number of processes, all schedules at the granularity of fopen", "why_tests_cant": "races; the schedules of any number of processes cannot be enumerated or forced by a test", "anchors": ["src/id3v2lib.c:ID3v2_read_tag", "src/id3v2lib.c:ID3v2_write_tag", "src/id3v2lib.c:ID3v2_delete_tag", "src/id3v2lib.c:ID3v2_read_tag_header"]}
{"id": "C91", "title": "Both interfaces on one file", "statement": "On any file in which well-formed frames are seen, a version 1 session (load_tag, setters, set_tag, free_tag) does exactly what the session of the new interface with the same frames does (including undefined behaviour, where the size gets too large), if each frame it sets is there already; otherwise, and if the tag has no frames, it dereferences NULL. Therefore sessions and deletions of the tag through either interface, in any order, on a file the library wrote end as C89 says for the same edits, except that the first version 1 session that sets an absent frame, or meets a file without a tag or a tag without frames, is undefined; the sound is the same up to there.", "quantifier": "all files the library writes, all sequences of sessions and deletions with either interface, all frames set", "why_tests_cant": "sequences of any length that mix the interfaces; the outcome depends on which frames earlier steps have put in", "anchors": ["src/id3v2lib.compat.c:load_tag", "src/id3v2lib.compat.c:set_tag", "src/id3v2lib.compat.c:remove_tag", "src/id3v2lib.compat.c:free_tag", "src/id3v2lib.c:ID3v2_read_tag", "src/id3v2lib.c:ID3v2_write_tag"]}
{"id": "C92", "title": "How long calls take", "statement": "Counted in rounds of the loops over lists, frames and characters: reading a buffer in which n frames are seen takes n or n+1 rounds and (n-1)(n-2)/2 steps along the list, because every frame is appended from the head; this is at most (b*b + 16*b + 128)/128 for a buffer of b bytes, and reached up to a factor by buffers of 12-byte frames of any number. Looking up an id, setting, adding and deleting a frame each take the exact number of rounds given by the position of the frame concerned and the number of frames (set: twice the position, or all frames and the walk to the end; delete by index: all frames, quadratic in those with the id). Writing takes one round per frame, one per byte after the old tag and one per byte of the new file; deleting two per byte after the tag, none if there is no tag. ID3v2_to_unicode looks at k*k + 4*k + 2 characters for a string of k.", "quantifier": "all buffers, tags, calls with their arguments, files and strings", "why_tests_cant": "exact counts for inputs of every size; a test measures some sizes", "anchors": ["src/modules/frame_list.c:FrameList_add_frame", "src/modules/frame_list.c:FrameList_get_frames_by_id", "src/modules/tag.c:Tag_parse", "src/modules/tag.c:ID3v2_Tag_delete_comment_frame", "src/id3v2lib.c:ID3v2_write_tag", "src/id3v2lib.c:ID3v2_delete_tag", "src/modules/utils.c:ID3v2_to_unicode"]}
{"id": "C93", "title": "Several tags in one file", "statement": "If a file holds several tags one after the other, reading sees the first only; a session (read, any calls, write) does to the file what it does to the first tag alone, with everything behind it kept, undefined behaviour included; deleting removes the first only, so that k deletions remove the first k tags and, after a session and a deletion, reading shows what the second tag says. On any file, repeated deletions take at least ten bytes off the front each time until the file has no tag, from where on it stays as it is, or begins with a tag that announces an extended header, where the next deletion is undefined.", "quantifier": "all files, all tags (whatever they hold), all calls of a session, any number of deletions", "why_tests_cant": "files with any number of tags of any contents, and every sequence of calls on them", "anchors": ["src/id3v2lib.c:ID3v2_read_tag", "src/id3v2lib.c:ID3v2_write_tag", "src/id3v2lib.c:ID3v2_delete_tag"]}
{"id": "C94", "title": "A written file determines what is in it", "statement": "Writing tag t to file c and tag t' to file c' gives the same file if and only if the version, flags and size in the two tag headers, the two lists of frames (ids, flags, sizes and contents, in order) and what follows the tags in c and c' are the same. So no two different tags are saved alike, in v2.4 either, where reading back can fail, nor with frames that cannot be read back; and nothing else in a tag (padding, extended header size, addresses of the frames) and nothing of an old tag in the file shows in the result.", "quantifier": "all pairs of tags (frames well formed, sizes below 2^28) and all pairs of files whose old tags do not announce an extended header", "why_tests_cant": "it compares every pair of tags and files", "anchors": ["src/id3v2lib.c:ID3v2_write_tag", "src/modules/tag.c:Tag_to_char_stream", "src/modules/frame.c:Frame_to_char_stream"]}
{"id": "C95", "title": "Tags copied from file to file", "statement": "Whatever tag is written, the bytes put in front of a file, and the undefined behaviour or exit met instead, are the same for every file whose old tag does not announce an extended header; what follows the old tag is kept. A tag that the library has written, of which all frames can be read back, is copied to another file (read from one, written to the other) byte by byte, along any chain of files, with the sound of each file kept; exchanging the tags of two files puts each tag in front of the other's sound, and doing it twice restores both files byte by byte. Copying from a file without tag leaves the other file, and its tag, as they are.", "quantifier": "all tags (also malformed ones), all files, chains of any number of files", "why_tests_cant": "all pairs and chains of files and all tags; the tests write a tag back only to the file it came from", "anchors": ["src/id3v2lib.c:ID3v2_read_tag", "src/id3v2lib.c:ID3v2_write_tag"]}
{"id": "C96", "title": "Tags of 2^28 bytes and more", "statement": "A tag whose recorded size has grown to 2^28 or more (below 2^31 - 10) is written without any error: header, all frames and padding. From 2^28 on the size field holds a byte with its top bit set, which the standard forbids, unless the size modulo 2^29 is below 2^28; and the size it stands for is the size modulo 2^29. Below 2^29 the library finds the end of the tag again. From 2^29 on it takes the end of the tag, n - (n mod 2^29) bytes, for sound: deleting the tag leaves these bytes in the file, and each further save of the tag adds them once more. In v2.3, frames that lie within the size modulo 2^29 are all read back. A session (read, edits, save) of a smaller tag gets there by setting large frames: it writes such a tag if there is room for the frames and the bytes of the tag can be counted by an int, and is undefined behaviour otherwise.", "quantifier": "all tags of well-formed frames with room, all sizes n with n + 10 < 2^31, all files, any number of saves", "why_tests_cant": "no test has a tag of 256 MB; sizes up to 2 GB and all contents", "anchors": ["src/modules/utils.c:syncint_encode", "src/modules/tag.c:Tag_to_char_stream", "src/id3v2lib.c:ID3v2_write_tag", "src/id3v2lib.c:ID3v2_delete_tag"]}
{"id": "C97", "title": "Reading back a tag of 2^29 bytes and more", "statement": "Of a v2.3 tag of n bytes that the library wrote, only the first n mod 2^29 bytes are read back. If these end between two frames, or within the header of a frame, the frames before are read, the others are silently missing, and saving the tag turns their bytes into sound. If they end within a text (of a text, comment or picture frame), reading is undefined behaviour. If they end within the data of a picture or of an unknown frame, the frame is read with its full size but holds only the bytes that were within, followed by memory that was never written to; saving that tag is undefined behaviour. On a machine with a limited stack, reading a picture that is cut off needs stack for all of its announced size and overflows otherwise. There is no other case unless all frames are within.", "quantifier": "all lists of well-formed frames, all sizes n with n + 10 < 2^31, all bytes after the tag", "why_tests_cant": "needs tags of 512 MB, with the end of the recorded size at every position of every kind of frame", "anchors": ["src/modules/tag.c:Tag_parse", "src/modules/frame.c:Frame_parse", "src/modules/frames/apic_frame.c:ApicFrame_parse", "src/id3v2lib.c:ID3v2_read_tag"]}
