{
 "C01": {
  "note": "all ten formats, all sixteen versions; output shorter than 2^63 bytes (Rust's allocation limit)"
 },
 "C02": {
  "note": "any accepted byte sequence, including files not produced by the writer"
 },
 "C03": {
  "note": "file and typed entry points"
 },
 "C04": {
  "note": "objects are found by following the offsets in the output bytes; also for any described type at any position"
 },
 "C05": {
  "note": "also part of C04_any_type for any described type"
 },
 "C06": {
  "note": "increasing positions with gaps below 8 bytes; the stronger claim that each position is the smallest possible is refuted by C06_smallest_position_refuted (empty arrays round the next free position)"
 },
 "C07": {
  "note": "relative and absolute pointers, unions, arrays, byte buffers"
 },
 "C08": {
  "note": ""
 },
 "C09": {
  "note": "soundness and completeness with respect to the positional relation Dec of SsbhSpec.v and DecFile of FileSpec.v"
 },
 "C10": {
  "note": "every reader of a relative offset; reading never panics"
 },
 "C11": {
  "note": ""
 },
 "C12": {
  "note": ""
 },
 "C13": {
  "note": ""
 },
 "C14": {
  "note": ""
 },
 "C15": {
  "note": ""
 },
 "C18": {
  "note": ""
 },
 "C19": {
  "note": ""
 },
 "C20": {
  "note": ""
 },
 "C21": {
  "note": "the destination holds the whole document or is unchanged or empty; C21_destination_kept_refuted shows that a failed save empties an existing destination"
 },
 "C16": {
  "note": "fewer than 2^32 groups, entries and flags (the count fields are 32 bits wide and the code truncates)"
 },
 "C17": {
  "note": "fewer than 2^32 entries"
 },
 "C46": {
  "note": "reader characterised by the positional relation DecMeshEx; placement of every object of a written file"
 },
 "C47": {
  "note": "writer output and the set of accepted files given exactly"
 },
 "C22": {
  "note": "widths 1 to 32; also the position of every bit and the number of bytes"
 },
 "C23": {
  "note": "also the bits returned"
 },
 "C24": {
  "note": "buffers below 4 GiB; refuted for larger ones (data_offset is truncated to u32)"
 },
 "C25": {
  "note": "also: the result depends on the bytes of the range only"
 },
 "C26": {
  "note": "all six types, any bit pattern"
 },
 "C27": {
  "note": "the condition on the range is necessary (refutation beside it)"
 },
 "C28": {
  "note": "also the positions in the header"
 },
 "C30": {
  "status": "partial",
  "note": "false as stated: a constant float, vector or UV track of n frames is read back as one frame (C30_frame_count_refuted); proved for every track with at least one bit per frame, with the exact count otherwise"
 },
 "C48": {
  "note": "loading version 1.2 is the subject of C64; names are UTF-8 without NUL (any text: C86)"
 },
 "C49": {
  "note": ""
 },
 "C50": {
  "status": "partial",
  "note": "false as stated: truncated transform tracks and pattern index tracks with a large minimum panic (refutations); proved exactly which data panics: compressed transforms whose bits end just before the sign of a frame, and compressed indices that do not fit 32 bits"
 },
 "C41": {
  "note": "fewer than 2^32 constraints of each kind; text is UTF-8 without NUL; the version becomes 1.1"
 },
 "C42": {
  "note": "the version becomes 1.7; refuted for text containing NUL, which is cut there"
 },
 "C43": {
  "note": "for any sphere around all groups (computed by another crate); also grouping of mesh objects and name tags"
 },
 "C36": {
  "note": "refuted for index buffers of 4 GiB, whose offsets are truncated"
 },
 "C37": {
  "note": "for any comparison of positions and any indices (stored modulo 2^16); indices of a triangle out of range panic"
 },
 "C38": {
  "note": "termination for every parent graph, the result, and the matrices stored in the file; the matrix product and inverse are arbitrary functions"
 },
 "C39": {
  "note": "refuted for parent indices from 32768 on, which are truncated; the matrix product and inverse are any functions yielding 32 bit patterns"
 },
 "C51": {
  "note": "exact integer matrices; the expected order P * R = W is refuted, a defect of the code"
 },
 "C40": {
  "note": "Enums are numbers, f32 bit patterns. Version 1.5 files load but the data cannot be saved (C40_v15_refuted), although the documentation lists 1.5 as supported."
 },
 "C52": {
  "note": "Hlpb needs fewer than 2^32 constraints of each kind (the counts are u32). MeshEx may report that a pointer does not fit. Meshes need buffers below 4 GiB and lists of bounded length, animations a track buffer below 4 GiB (C24)."
 },
 "C31": {
  "note": "any attribute list, any content and cursor before; other bytes are kept"
 },
 "C32": {
  "note": "buffers below 4 GiB (offsets are stored with 32 bits)"
 },
 "C33": {
  "note": "both directions, and each error names a condition that holds"
 },
 "C34": {
  "note": "any index list at any place in the index buffer"
 },
 "C35": {
  "note": "the stored influence count is a byte; C35_stored_count_refuted shows it wrong for 256 bones"
 },
 "C44": {
  "note": "all 256 bytes, through correctly rounded f32 arithmetic (SpecFloat)"
 },
 "C45": {
  "note": "all 65536 patterns except NaN, including subnormals and infinities"
 },
 "C53": {
  "note": "the bounding computation (geometry_tools) is an arbitrary function"
 },
 "C54": {
  "note": "byte identical; C54_v8_refuted shows the condition on 1.8 is needed"
 },
 "C29": {
  "status": "partial",
  "note": "false as stated: with 24 bits the error can exceed one step plus the rounding of the result (C29_one_step_refuted, about 3 steps); proved: the code fits, the value stays inside the range, and the error is at most 1 + 5*(2^bits-1)/2^24 steps plus max(|min|,|max|)*2^-23 + 2^-150. Uses the stdlib Reals axioms."
 },
 "C55": {
  "note": "all track types; w components of rotations are the subject of C58. Uses the stdlib Reals axioms."
 },
 "C56": {
  "note": "the conversions of the half crate are modelled as IEEE 754 conversions. Uses the stdlib Reals axioms."
 },
 "C57": {
  "note": "stated on what the low level reader gets from the saved bytes; the product and inverse of matrices and the bounding computation are arbitrary functions"
 },
 "C58": {
  "note": "the bound on the quaternion is stated in squares, since w is recovered by a square root. Uses the stdlib Reals axioms."
 },
 "C59": {
  "note": ""
 },
 "C60": {
  "note": "the exact outcome is proved; that malformed shaders never panic is refuted"
 },
 "C61": {
  "note": "the exact outcome is proved; that failures are errors is refuted"
 },
 "C62": {
  "note": "for every byte string and writer, by positions; decompress_f32 and rotation_w are the subjects of C29 and C58"
 },
 "C63": {
  "note": "complete outcome: Ok exactly for loaded_anim, Panic exactly if the first unreadable track panics, Err otherwise"
 },
 "C64": {
  "note": "for every order of the HashMap; never an error, so every problem is a panic (refutations)"
 },
 "C65": {
  "note": "complete outcome: Ok exactly for loaded_object, Err otherwise, never Panic; positions, for every writer"
 },
 "C66": {
  "note": "same bytes for lossless tracks; for finite values the error after n saves is at most n times that of C55; C66_drift_refuted shows it does grow (100 saves, 13 times the bound). Uses the stdlib Reals axioms."
 },
 "C67": {
  "note": "glam's Mat4::mul_vec4 is modelled as the sum of the scaled columns from left to right, without fused multiplication. Bit patterns are not kept by the identity, infinite coordinates and translations give NaN (refuted). Uses the stdlib Reals axioms."
 },
 "C68": {
  "note": "serde's, serde_json's and hex's behaviour is trusted, documents are trees, not text; losses for every document are refuted by witnesses"
 },
 "C69": {
  "note": "for the structs of every format; the order at every depth of the document"
 },
 "C70": {
  "note": "false for strings with zero characters (C70_zero_character_refuted); the MeshEx error EPtrRange needs more than 2^64 bytes; lengths below 2^32 where the format stores them in 32 bits"
 },
 "C71": {
  "note": "composes C68 with the round trips of C01, C16 and C17; the extension written for Nufx is not the one the other tools use (refuted)"
 },
 "C72": {
  "note": "documents are trees, not text; serde's behaviour is trusted; the layout is stated separately, member by member"
 },
 "C73": {
  "note": "glam, geometry_tools and the order of the hash map in animations of version 1.2 are arbitrary functions; composes the reload theorems of C52"
 },
 "C74": {
  "note": "documents with UTF-8 strings and 32 bit floats"
 },
 "C75": {
  "note": "RasterizerStateData has a Default in Rust but its members may not be left out (refuted)"
 },
 "C76": {
  "note": "false for documents written by hand as arrays (refuted)"
 },
 "C77": {
  "note": "an instrumented reader proved to return the same results; a linear bound is false (refuted)"
 },
 "C78": {
  "note": "from the positions of C62, C63 and C65; also frees C52_mesh_reload_file of its condition on lists"
 },
 "C79": {
  "note": "four combinations of attributes that no item uses break the agreement of size and bytes (refuted)"
 },
 "C80": {
  "note": "that ssbh_test and the fuzz target never panic is refuted for MeshEx; the exact conditions are proved"
 },
 "C82": {
  "note": "the limits are sufficient; a document of a longer file is saved if its saved form is below 2^63 bytes (C02, C81)"
 },
 "C83": {
  "note": "that no target panics is refuted for anim_to_data; the exact condition is proved"
 },
 "C84": {
  "note": "that the oriented box contains the points exactly, and that it is always finite, are refuted; calculate_aabb_from_points of geometry_tools is assumed to give extreme coordinates"
 },
 "C85": {
  "note": "groups of animations of version 1.2 are those of C64; influences of objects whose name is shown as the empty text are left open, values of weights of version 1.10 and of frames and vertices are those of C62, C63 and C65"
 },
 "C86": {
  "note": "C86_merged_refuted: the influences of mesh objects with equal kept names are merged"
 },
 "C87": {
  "note": "that a loaded skeleton can always be saved again is refuted (C87_skel_again_refuted)"
 },
 "C88": {
  "note": "without the bound on parents refuted (C88_parents_refuted)"
 },
 "C89": {
  "note": "false for meshes whose numbers overflow half floats (C89_large_refuted)"
 },
 "C90": {
  "note": "that compressing saves space whenever it is chosen is refuted for every type (C90_saves_refuted)"
 },
 "C91": {
  "note": "lossless conversion in general is refuted (C91_lossless_refuted)"
 },
 "C92": {
  "note": "unconditional round trip of derived forms is refuted (C92_null_refuted)"
 },
 "C93": {
  "note": "shown for declarations whose br attributes are magic, align_before, repr, pad_after and temp and agree with those of SsbhWrite; without agreement values do not come back (C93_one_sided_refuted)"
 },
 "C94": {
  "note": "infinite and NaN floats are null in documents (finite_data excludes them); C94_floats is proved by error bounds, a search for the decimals close to a number halfway between floats, and the computation of these"
 },
 "C95": {
  "note": "different strings may name the same file, which the model does not know; a panic while saving can leave the output file empty (C21)"
 }
}