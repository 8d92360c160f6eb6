{"id": "C01", "title": "SSBH files round trip", "statement": "Writing any Modl, Nlst, Hlpb, Skel, Shdr, Nufx, Mesh, Matl, Anim or Nrpd value (every supported version) to a fresh in-memory buffer and reading the bytes back as an SSBH file yields the same file type, the same version and an equal value.", "quantifier": "all values of all ten file types and all sixteen supported versions whose serialised size fits the 64 bit offset range", "why_tests_cant": "the values are unbounded trees of pointers, arrays and strings; offsets of every node depend on the sizes of all the others", "anchors": ["ssbh_lib/src/lib.rs write_ssbh_file, SsbhFile", "ssbh_lib/src/arrays.rs SsbhArray", "ssbh_lib/src/strings.rs SsbhStringN", "ssbh_lib/src/enums.rs SsbhEnum64", "ssbh_lib/src/formats/*.rs"]}
{"id": "C02", "title": "Save is a fixed point after one load", "statement": "If some bytes load as an SSBH file, then saving that value and loading it again gives the same value, and saving a second time gives exactly the same bytes as the first save.", "quantifier": "all byte sequences accepted by the reader", "why_tests_cant": "the accepted inputs include hand made files with shared, overlapping, misaligned or out of order data that no test suite enumerates", "anchors": ["ssbh_lib/fuzz/src/lib.rs", "ssbh_lib/src/lib.rs SsbhFile::read, SsbhFile::write"]}
{"id": "C03", "title": "Saving an SSBH value cannot fail or panic", "statement": "Serialising any well formed value of the ten SSBH types into memory always succeeds: no error is returned and the offset subtraction never underflows.", "quantifier": "all values of the ten SSBH types", "why_tests_cant": "a single combination of sizes that places the data pointer before the current position would panic or wrap; absence needs an invariant over all writer states", "anchors": ["ssbh_lib/src/lib.rs write_relative_offset, write_rel_ptr_aligned", "ssbh_lib/src/arrays.rs write_array_header"]}
{"id": "C04", "title": "Pointed-to data never overlaps", "statement": "In the serialised output of any value, the byte ranges occupied by distinct objects (root struct, array contents, strings, pointees, byte buffers) are pairwise disjoint, so saving one field can never corrupt another.", "quantifier": "all values of all described types, all starting positions", "why_tests_cant": "overlap depends on interactions between alignment, sizes and nesting depth", "anchors": ["ssbh_lib/src/lib.rs Ptr, RelPtr64", "ssbh_lib/src/arrays.rs SsbhArray, SsbhByteBuffer", "ssbh_write/src/lib.rs SsbhWrite", "ssbh_lib/ssbh_offsets.md"]}
{"id": "C05", "title": "Offsets point past the containing object and are aligned", "statement": "Every non-null offset written refers to a position at or after the end of the struct that contains the offset and that position is a multiple of the alignment of the pointed-to type (8 for arrays and buffers, N for strings).", "quantifier": "all values, all starting positions", "why_tests_cant": "the position of each object depends on every object written before it", "anchors": ["ssbh_lib/ssbh_offsets.md", "ssbh_lib/src/lib.rs write_rel_ptr_aligned_specialized, round_up", "ssbh_lib/src/arrays.rs write_array_header"]}
{"id": "C06", "title": "Absolute positions of pointed-to data increase in declaration order", "statement": "Following the non-null offsets of a serialised value in declaration (depth first) order visits increasing file positions: each object starts at or after the end of the one before, with fewer than 8 unused bytes in between.", "quantifier": "all values", "why_tests_cant": "holds only if every writer leaves the shared data pointer past everything it wrote", "anchors": ["ssbh_lib/ssbh_offsets.md", "ssbh_lib/src/lib.rs RelPtr64::ssbh_write", "ssbh_lib/src/arrays.rs SsbhArray::ssbh_write"]}
{"id": "C07", "title": "Null pointers and empty arrays", "statement": "A null pointer, a null tagged union and an empty array are written with offset zero and add no data; a non-null pointer or a non-empty array is never written with offset zero, so null and non-null are never confused.", "quantifier": "all values and all writer positions", "why_tests_cant": "requires showing the computed relative offset is never zero for any writer state", "anchors": ["ssbh_lib/src/lib.rs RelPtr64::ssbh_write, Ptr::ssbh_write", "ssbh_lib/src/arrays.rs write_array_header", "ssbh_lib/src/enums.rs SsbhEnum64"]}
{"id": "C08", "title": "Reading a pointer, array or string consumes exactly its inline size", "statement": "After successfully reading a value the reader is positioned immediately after the value's inline representation no matter where the offsets lead.", "quantifier": "all byte sequences, all offsets (backward, forward, overlapping, self referential) and all types", "why_tests_cant": "every nesting of seeks must be undone", "anchors": ["ssbh_lib/src/lib.rs RelPtr64::read_options, Ptr::read_options", "ssbh_lib/src/arrays.rs read_ssbh_array", "ssbh_lib/src/enums.rs SsbhEnum64::read_options"]}
{"id": "C09", "title": "The reader implements the documented format", "statement": "Reading at a position succeeds with a value exactly when the bytes are, by the documented positional layout (relative offset from the field's own position, count, tag, little endian integers, null terminated strings), an encoding of this value.", "quantifier": "all byte sequences, all positions, all types, all values", "why_tests_cant": "needs soundness and completeness over an infinite input space", "anchors": ["ssbh_lib/ssbh_offsets.md", "ssbh_lib/src/lib.rs", "ssbh_lib/src/arrays.rs", "ssbh_lib/src/strings.rs", "ssbh_lib/src/enums.rs"]}
{"id": "C10", "title": "Offset arithmetic never wraps", "statement": "If the position of an offset plus the stored relative offset exceeds the 64 bit range the read is rejected with an error; no accepted file contains an offset that was followed modulo 2^64.", "quantifier": "all byte sequences", "why_tests_cant": "only a handful of 2^64 offsets can be tested", "anchors": ["ssbh_lib/src/lib.rs absolute_offset_checked"]}
{"id": "C11", "title": "Trailing data and truncation", "statement": "Appending bytes to a readable file does not change the value read, and a prefix of a readable file either yields the same value or an error, never a different value.", "quantifier": "all readable byte sequences, all prefixes and all suffixes", "why_tests_cant": "all truncation points of all files", "anchors": ["ssbh_lib/src/arrays.rs read_buffer, read_elements", "ssbh_lib/src/strings.rs CString::read_options", "ssbh_lib/src/lib.rs SsbhFile::read"]}
{"id": "C12", "title": "Strings", "statement": "Converting text to a stored string keeps exactly the bytes before the first NUL; storing and reading it back yields the same bytes; a stored string without terminator is an error; empty strings occupy N bytes and non-empty ones length plus one.", "quantifier": "all byte strings and all string alignments N", "why_tests_cant": "unbounded strings with embedded NULs at any position", "anchors": ["ssbh_lib/src/strings.rs CString, SsbhStringN"]}
{"id": "C13", "title": "Tagged unions", "statement": "When a tagged union is read, the variant of the result is the one selected by the stored tag and an unknown tag is an error; when written, the stored tag is the variant's tag, or zero for null.", "quantifier": "all tags, all variants", "why_tests_cant": "2^64 tags", "anchors": ["ssbh_lib/src/enums.rs SsbhEnum64, ssbh_enum"]}
{"id": "C14", "title": "Enumerations reject unknown numbers", "statement": "Reading an integer-backed enumeration succeeds only for the listed discriminants and returns that discriminant; writing writes the discriminant.", "quantifier": "all integers of the representation type, all enumerations used by the formats", "why_tests_cant": "2^32 or 2^64 inputs per enumeration", "anchors": ["ssbh_write_derive/src/lib.rs repr", "ssbh_lib/src/formats/matl.rs ParamId", "ssbh_lib/src/formats/mesh.rs", "ssbh_lib/src/formats/anim.rs", "ssbh_lib/src/formats/skel.rs", "ssbh_lib/src/formats/shdr.rs"]}
{"id": "C15", "title": "File header and type dispatch", "statement": "Every saved SSBH file starts with HBSS, the number 64, four zero bytes, the magic of its type and its version; loading as type T fails with InvalidSsbhType when the file holds another type and with a read error when the magic or version is not supported.", "quantifier": "all values, all byte sequences, all pairs of types", "why_tests_cant": "quantifies over every file content", "anchors": ["ssbh_lib/src/lib.rs write_ssbh_header, write_ssbh_file, Ssbh, Versioned, ssbh_read_write_impl"]}
{"id": "C16", "title": "MeshEx files round trip", "statement": "Writing a MeshEx whose entries and entry flags have equal counts and reading the bytes yields an equal value; the output length is a multiple of 16 and equals the stored file length; unequal counts are an error.", "quantifier": "all MeshEx values", "why_tests_cant": "unbounded groups, entries and names", "anchors": ["ssbh_lib/src/formats/meshex.rs", "ssbh_lib/src/lib.rs Ptr"]}
{"id": "C17", "title": "Adj files round trip", "statement": "Writing an Adj value and reading the bytes yields an equal value.", "quantifier": "all Adj values with fewer than 2^32 entries", "why_tests_cant": "unbounded entries and indices", "anchors": ["ssbh_lib/src/formats/adj.rs"]}
{"id": "C18", "title": "End of file alignment", "statement": "Every saved Mesh file and every saved version 2.1 Anim file has a length that is a multiple of 8.", "quantifier": "all Mesh values of all versions, all Anim 2.1 values", "why_tests_cant": "file length depends on all contents", "anchors": ["ssbh_write_derive/src/lib.rs write_aligned_after", "ssbh_lib/src/formats/mesh.rs Mesh", "ssbh_lib/src/formats/anim.rs Anim::V21"]}
{"id": "C19", "title": "Reported size equals bytes occupied", "statement": "For every value of a type used inline, size_in_bytes equals the number of bytes by which writing it advances the writer, and it does not depend on pointed-to data.", "quantifier": "all values of all described inline types, all writer states", "why_tests_cant": "the data pointer discipline is only correct if this holds for every type composition", "anchors": ["ssbh_write/src/lib.rs size_in_bytes", "ssbh_write_derive/src/lib.rs generate_size_calculation"]}
{"id": "C20", "title": "Narrow absolute pointers never truncate", "statement": "Writing a 16 or 32 bit absolute pointer either stores the exact position of the data or returns an error.", "quantifier": "all values and all writer positions", "why_tests_cant": "needs positions beyond 2^16 and 2^32", "anchors": ["ssbh_lib/src/lib.rs Ptr::ssbh_write"]}
{"id": "C21", "title": "Failed saves to a path write no partial data", "statement": "When serialisation returns an error, write_to_file has written no byte of the document to the destination; when it succeeds the destination received exactly the serialised bytes.", "quantifier": "all values, all failure points", "why_tests_cant": "fault injection at every point", "anchors": ["ssbh_lib/src/lib.rs write_buffered"]}
{"id": "C22", "title": "Bit stream round trip", "statement": "Writing any sequence of (value, width) items with widths up to 32 into a bit stream and reading the same widths returns each value modulo 2^width.", "quantifier": "all sequences of items", "why_tests_cant": "arbitrary misaligned sequences", "anchors": ["ssbh_data/src/anim_data/bitutils.rs BitWriter, BitReader"]}
{"id": "C23", "title": "Bit stream reads are bounded", "statement": "Reading n bits fails exactly when fewer than n bits remain and otherwise advances by n bits.", "quantifier": "all buffers, positions and widths", "why_tests_cant": "all truncations", "anchors": ["ssbh_data/src/anim_data/bitutils.rs BitReader"]}
{"id": "C24", "title": "Animation track data layout", "statement": "When an animation is converted, every track's byte range lies inside the shared buffer, the ranges are contiguous in traversal order and disjoint, and the ranges cover the buffer.", "quantifier": "all animations", "why_tests_cant": "unbounded groups, nodes and tracks", "anchors": ["ssbh_data/src/anim_data.rs create_anim, create_track_data"]}
{"id": "C25", "title": "Out of range track data is rejected", "statement": "Reading a track whose data range is not inside the buffer returns InvalidTrackDataRange instead of panicking or reading other tracks' data.", "quantifier": "all offsets, sizes and buffers", "why_tests_cant": "2^96 range combinations", "anchors": ["ssbh_data/src/anim_data.rs create_track_data_v20"]}
{"id": "C26", "title": "Uncompressed tracks round trip", "statement": "Track values stored without compression are read back unchanged, frame by frame.", "quantifier": "all track types, all lengths, all bit patterns", "why_tests_cant": "unbounded sequences of arbitrary floats including NaN", "anchors": ["ssbh_data/src/anim_data/buffers.rs TrackValues::write, read_track_values"]}
{"id": "C27", "title": "Compressed boolean and pattern index tracks are lossless", "statement": "A compressed boolean track is read back unchanged; a compressed pattern index track is read back unchanged provided max-min is below 2^24.", "quantifier": "all sequences", "why_tests_cant": "unbounded sequences", "anchors": ["ssbh_data/src/anim_data/compression.rs", "ssbh_data/src/anim_data/buffers.rs"]}
{"id": "C28", "title": "Compressed track size and bit accounting", "statement": "A compressed track stores exactly frame count times bits per entry bits rounded up to bytes, the header reports this bit count and reading rejects any other bit count.", "quantifier": "all tracks", "why_tests_cant": "all flag combinations and lengths", "anchors": ["ssbh_data/src/anim_data/compression.rs BitCount", "ssbh_data/src/anim_data/buffers.rs read_compressed_inner, create_compressed_buffer"]}
{"id": "C29", "title": "Compressed float error bound", "statement": "For a finite value inside the track's finite min..max range the quantised code fits in the bit width and the decompressed value stays inside the range up to rounding, within one quantisation step of the original.", "quantifier": "all finite f32 triples min <= x <= max with finite difference", "why_tests_cant": "2^96 float triples", "anchors": ["ssbh_data/src/anim_data/compression.rs compress_f32, decompress_f32"]}
{"id": "C30", "title": "Frame count is preserved by compressed tracks", "statement": "Reading back a compressed track returns as many values as were written.", "quantifier": "all tracks", "why_tests_cant": "needs all constant and non constant tracks", "anchors": ["ssbh_data/src/anim_data/buffers.rs read_compressed_inner"]}
{"id": "C31", "title": "Interleaved vertex attributes do not clobber each other", "statement": "Writing several attributes into one vertex buffer at their assigned offsets with the common stride and reading each one back returns each attribute's encoded elements.", "quantifier": "all attribute lists, all vertex counts, all base offsets", "why_tests_cant": "all combinations of sizes", "anchors": ["ssbh_data/src/mesh_data/mesh_attributes.rs write_attributes, create_buffer_attributes", "ssbh_data/src/mesh_data/vector_data.rs"]}
{"id": "C32", "title": "Mesh objects occupy disjoint vertex and index ranges", "statement": "When a mesh is built, the vertex and index byte ranges recorded for different objects in the shared buffers are disjoint, inside the buffers, and reading an object's indices returns the original indices.", "quantifier": "all lists of mesh objects", "why_tests_cant": "unbounded objects", "anchors": ["ssbh_data/src/mesh_data.rs create_mesh_objects, create_mesh_object, write_vertex_indices, read_vertex_indices"]}
{"id": "C33", "title": "Mesh validation", "statement": "Building a mesh fails when an object's index count is not a multiple of three, when attribute lengths differ, when an index is not below the vertex count, or when two objects share name and subindex; it does not fail for these reasons otherwise.", "quantifier": "all mesh data", "why_tests_cant": "all index lists", "anchors": ["ssbh_data/src/mesh_data.rs create_mesh_object, vertex_count, validate_mesh_object_subindices"]}
{"id": "C34", "title": "Vertex index width", "statement": "Indices are stored as 16 bit exactly when all of them fit in 16 bits, otherwise as 32 bit, and no index changes value.", "quantifier": "all index lists", "why_tests_cant": "all values around the boundary in any position", "anchors": ["ssbh_data/src/mesh_data.rs convert_indices"]}
{"id": "C35", "title": "Rigging data", "statement": "Skin weights converted to version 1.10 buffers and back are unchanged and indices above 65535 are an error; the stored maximum influence count is the largest number of bones influencing one vertex; groups are sorted by name and subindex; looking up an object by name and subindex returns exactly its own influences.", "quantifier": "all influence lists", "why_tests_cant": "unbounded lists, duplicates", "anchors": ["ssbh_data/src/mesh_data.rs create_vertex_weights_v10, calculate_max_influences, create_rigging_buffers, read_rigging_data"]}
{"id": "C36", "title": "Adjacency data round trip", "statement": "Converting AdjData to Adj and back is the identity when all indices and byte offsets fit 32 bits, and out of range or decreasing offsets are errors rather than panics.", "quantifier": "all adjacency data, all Adj values", "why_tests_cant": "unbounded entries", "anchors": ["ssbh_data/src/adj_data.rs TryFrom"]}
{"id": "C37", "title": "Triangle adjacency", "statement": "The computed adjacency has exactly 18 entries per vertex and lists for each vertex the other two corners of every triangle touching a vertex with the same position, by vertex and then in face order, cut off after 18 or padded with -1; a triangle with an index out of range panics.", "quantifier": "all index lists, all position lists, all comparisons of positions", "why_tests_cant": "unbounded meshes", "anchors": ["ssbh_data/src/adj_data.rs triangle_adjacency"]}
{"id": "C38", "title": "World transforms", "statement": "Computing a bone's world transform terminates for every hierarchy, fails exactly when the chain of parents is cyclic, and otherwise is the product of the transforms from the root to the bone.", "quantifier": "all bone lists including cyclic and out of range parent indices", "why_tests_cant": "all parent graphs", "anchors": ["ssbh_data/src/skel_data.rs calculate_world_transform"]}
{"id": "C39", "title": "Skeleton data round trip", "statement": "Converting SkelData to Skel and back preserves bone names, local transforms, parent indices and billboard types.", "quantifier": "all acyclic skeletons with at most 32768 bones", "why_tests_cant": "unbounded bones", "anchors": ["ssbh_data/src/skel_data.rs"]}
{"id": "C40", "title": "Material data round trip", "statement": "Converting MatlData version 1.6 to Matl and back is the identity; parameters keep their order within each group; any other version is rejected.", "quantifier": "all material data", "why_tests_cant": "unbounded parameter lists", "anchors": ["ssbh_data/src/matl_data.rs"]}
{"id": "C41", "title": "Helper bone data round trip", "statement": "Converting HlpbData to Hlpb and back preserves all constraints, and the generated index and type lists enumerate exactly the aim constraints followed by the orient constraints.", "quantifier": "all helper bone data", "why_tests_cant": "unbounded lists", "anchors": ["ssbh_data/src/hlpb_data.rs"]}
{"id": "C42", "title": "Model data round trip", "statement": "Converting ModlData to Modl, saving, loading and converting back is the identity for strings without NUL characters.", "quantifier": "all ModlData", "why_tests_cant": "unbounded strings", "anchors": ["ssbh_data/src/modl_data.rs"]}
{"id": "C43", "title": "Extended mesh data round trip", "statement": "Converting MeshExData to MeshEx and back preserves groups, names, spheres and flags; each group receives exactly its own flags.", "quantifier": "all MeshExData", "why_tests_cant": "unbounded groups", "anchors": ["ssbh_data/src/meshex_data.rs"]}
{"id": "C44", "title": "Colour quantisation is exact on stored colours", "statement": "Reading an 8 bit colour channel to a float and writing it back gives the original byte.", "quantifier": "all bytes", "why_tests_cant": "all 256 values through correctly rounded float arithmetic", "anchors": ["ssbh_data/src/mesh_data/vector_data.rs get_u8_clamped, read_vectors"]}
{"id": "C45", "title": "Half float attributes round trip", "statement": "Reading a half float attribute to f32 and writing it back as a half float gives the original bits for every non-NaN half float.", "quantifier": "all 65536 half floats", "why_tests_cant": "rounding mode and subnormals", "anchors": ["ssbh_data/src/mesh_data/vector_data.rs"]}
{"id": "C46", "title": "MeshEx layout", "statement": "The MeshEx reader returns a value exactly when the bytes hold it at the documented positions (counts at 8 and 12, absolute pointers at 16, 24, 32, 40, trailing word at 48); in a written MeshEx file the header and all pointed-to objects are disjoint, aligned, in increasing order and inside the file.", "quantifier": "all byte sequences, all MeshEx values", "why_tests_cant": "unbounded groups, entries, names and overlapping regions", "anchors": ["ssbh_lib/src/formats/meshex.rs", "ssbh_lib/src/lib.rs Ptr"]}
{"id": "C47", "title": "Adj layout", "statement": "The Adj writer produces the entry count, the entries and the indices without padding; the Adj reader accepts exactly such files with at most one byte left over and returns their content.", "quantifier": "all Adj values, all byte sequences", "why_tests_cant": "unbounded entries and indices", "anchors": ["ssbh_lib/src/formats/adj.rs"]}
{"id": "C48", "title": "Saving and loading an animation", "statement": "Writing AnimData of version 2.0 or 2.1 and reading the file returns the same groups, nodes, names, flags, frame index and uncompressed tracks, and for compressed tracks the quantised values.", "quantifier": "all animations with less than 4 GiB of track data", "why_tests_cant": "unbounded groups, nodes, tracks and frames", "anchors": ["ssbh_data/src/anim_data.rs create_anim, read_groups_v20", "ssbh_data/src/lib.rs SsbhData"]}
{"id": "C49", "title": "Which animations can be saved", "statement": "Writing AnimData fails with UnsupportedVersion exactly for versions other than 2.0 and 2.1 and with InvalidFinalFrameIndex exactly if the final frame index is negative, not a number or smaller than the largest frame count minus one; otherwise it succeeds.", "quantifier": "all animations with less than 4 GiB of track data", "why_tests_cant": "all floats and versions", "anchors": ["ssbh_data/src/anim_data.rs create_anim"]}
{"id": "C50", "title": "Malformed track data does not panic", "statement": "Reading the data of a track returns an error and never panics, whatever the bytes, the track type, the compression and the frame count.", "quantifier": "all byte sequences", "why_tests_cant": "all malformed inputs", "anchors": ["ssbh_data/src/anim_data/buffers.rs read_track_values", "ssbh_data/src/anim_data/compression.rs"]}
{"id": "C51", "title": "Relative transforms", "statement": "The relative transform R computed from the world transform W of a bone and the world transform P of its parent satisfies R * P = W. World transforms are built as P * R, and P * R = W does not hold in general, so using R as the bone's transform does not give back W.", "quantifier": "all matrices W and all invertible P", "why_tests_cant": "all matrices; a test with an identity or commuting parent cannot see the order of the factors", "anchors": ["ssbh_data/src/skel_data.rs calculate_relative_transform"]}
{"id": "C52", "title": "Loaded data can be saved again", "statement": "Whatever the bytes of a file are, if ModlData, HlpbData, SkelData, MatlData (1.6), MeshExData or AdjData loads from them, then saving that data succeeds (or, for a skeleton whose parents form a cycle, reports the cycle) and loading the result gives the same data. The conversion of a readable file never fails for models, helper bones, skeletons and materials. Mesh data loaded from any file can be saved exactly if no name and subindex are repeated, the indices form triangles and every index has a vertex; it loads again as the same data with rounded numbers. Animation data of versions 2.0 and 2.1 loaded from any file can be saved exactly if the final frame index reaches the last frame, and loads again as the compressed data; version 1.2 cannot be saved.", "quantifier": "all byte sequences", "why_tests_cant": "all files, including ones no tool writes", "anchors": ["ssbh_data/src/lib.rs", "ssbh_data/src/modl_data.rs", "ssbh_data/src/hlpb_data.rs", "ssbh_data/src/skel_data.rs", "ssbh_data/src/matl_data.rs", "ssbh_data/src/meshex_data.rs", "ssbh_data/src/adj_data.rs", "ssbh_data/src/mesh_data.rs", "ssbh_data/src/anim_data.rs"]}
{"id": "C53", "title": "Mesh save and load", "statement": "Saving mesh data whose buffers stay below 4 GiB succeeds exactly when the data is valid and otherwise reports a reason that holds; loading the saved bytes gives the same objects in the same order, with the same names, indices, flags and influences, with positions and vectors of three components unchanged, vectors of four components rounded to half floats, colours rounded to bytes, and in version 1.8 without binormals and with attribute names made from usage and number.", "quantifier": "all mesh data of versions 1.8, 1.9 and 1.10, any bounding computation", "why_tests_cant": "unbounded objects, attributes, vertices and influences in shared buffers", "anchors": ["ssbh_data/src/mesh_data.rs create_mesh, read_mesh_objects", "ssbh_data/src/mesh_data/mesh_attributes.rs", "ssbh_data/src/mesh_data/vector_data.rs"]}
{"id": "C54", "title": "Saving a loaded mesh again gives the same bytes", "statement": "Loading saved mesh data and saving the result writes exactly the bytes of the first file, although the numbers were rounded on the way; the exception is version 1.8 with binormals as the only attributes.", "quantifier": "all mesh data of versions 1.8, 1.9 and 1.10", "why_tests_cant": "all floats must be fixed points of rounding to half floats and bytes", "anchors": ["ssbh_data/src/mesh_data.rs", "ssbh_data/src/mesh_data/vector_data.rs"]}
{"id": "C55", "title": "Compressed tracks stay within their range and error bound", "statement": "When a track of finite values is written with compression and read back, every coordinate of every frame that is returned is finite, lies between the smallest and largest value of that coordinate in the track, and differs from the original by at most six quantisation steps plus the rounding of the result. The smallest and the largest value of a coordinate are returned exactly.", "quantifier": "all tracks of all types whose coordinates are finite with finite differences", "why_tests_cant": "unbounded tracks of arbitrary floats; the bound involves real arithmetic", "anchors": ["ssbh_data/src/anim_data/compression.rs", "ssbh_data/src/anim_data/buffers.rs"]}
{"id": "C56", "title": "Vertex numbers are rounded to the nearest stored number", "statement": "A finite number stored as a half float becomes a half that no other half beats in distance (error at most 2^-11 of its size plus 2^-25), numbers of 65520 or more become infinite, and loading gives exactly the stored half. A colour stored as a byte is clamped to 0..1 and rounded to the nearest byte up to 2^-16, brighter colours never get smaller bytes, and the loaded colour is the float nearest to byte/255, within 1/510 + 2^-22 of the clamped colour.", "quantifier": "all finite f32 values", "why_tests_cant": "2^32 values compared with every half float; the claim is about real numbers", "anchors": ["ssbh_data/src/mesh_data/vector_data.rs get_f16_vectors, get_clamped_u8_vectors, get_u8_clamped", "ssbh_data/src/mesh_data.rs:244-248"]}
{"id": "C57", "title": "Saved files are complete for other readers", "statement": "Fields that ssbh_data ignores on loading are still written correctly: bone indices, flags, world transforms and inverses of skeletons; the order of attribute types, the filtering type and constant fields of materials; buffer sizes, bounding volumes, rigging types and first attribute names of meshes.", "quantifier": "all valid skeletons, materials and meshes", "why_tests_cant": "a round trip through the same library cannot see fields it ignores; unbounded data", "anchors": ["ssbh_data/src/skel_data.rs:151-197", "ssbh_data/src/matl_data.rs:228-248,554-598", "ssbh_data/src/mesh_data.rs:712-739,938-1048", "ssbh_data/src/mesh_data/mesh_attributes.rs:286-349"]}
{"id": "C58", "title": "Compressed rotations stay unit quaternions", "statement": "In a compressed transform track w is not stored, only its sign. For every frame with x, y, z in -1..1 the loaded w is finite, lies in -1..1, has the sign of the original, and w^2 equals 1 - x^2 - y^2 - z^2 (or 0 if that is negative) up to 2^-20; (w' - w)^2 is at most the deviation of the original from a unit quaternion plus 2^-20 plus twice the errors of x, y and z.", "quantifier": "all transform tracks with finite columns and rotations in -1..1, any number of frames", "why_tests_cant": "real arithmetic over all floats and unbounded tracks", "anchors": ["ssbh_data/src/anim_data/compression.rs:366-388 calculate_rotation_w", "ssbh_data/src/anim_data/compression.rs:434-505"]}
{"id": "C59", "title": "Shader metadata is read where the tables say", "statement": "If MetaData::read succeeds on the bytes of a compiled shader, then every buffer, uniform, input and output it returns has exactly the numbers stored at its place in the tables (fixed offsets 292, 332..360 and 392 in the header, entries of 108, 164 and 92 bytes), signed numbers in two's complement, known data types, and the name stored in the string section at the entry's offset and length, with malformed UTF-8 replaced once for each maximal beginning of a character. The tables have exactly the stored number of entries, in order.", "quantifier": "all byte strings; tables of any length", "why_tests_cant": "positions are computed from the file itself, so faults show only for particular offsets, counts and strings", "anchors": ["ssbh_data/src/shdr_data.rs:38-160", "ssbh_data/src/shdr_data.rs:162-381"]}
{"id": "C60", "title": "Which compiled shaders can be read", "statement": "MetaData::read succeeds exactly if the header, tables and program lie inside the bytes, the data types are known, and the names lie inside the bytes. It returns an error exactly if the first part fails. It panics exactly if only a name lies outside, which refutes that malformed shaders give errors.", "quantifier": "all byte strings", "why_tests_cant": "a complete case distinction over all malformed inputs", "anchors": ["ssbh_data/src/shdr_data.rs:87-144", "ssbh_data/src/shdr_data.rs:369-381"]}
{"id": "C61", "title": "Loading files of shaders", "statement": "If ssbh_lib reads a Shdr file, ShdrData::read returns one entry for each shader in order, with its name, stage and the metadata of its binary; it succeeds exactly if all binaries can be read, and otherwise panics and never returns an error.", "quantifier": "all files, any number of shaders", "why_tests_cant": "all malformed binaries in files of any size", "anchors": ["ssbh_data/src/shdr_data.rs:383-427", "ssbh_lib/src/formats/shdr.rs:13-52"]}
{"id": "C62", "title": "Track data is read where the header says", "statement": "Reading the data of a track succeeds exactly if the bytes contain what the type, compression and frame count ask for: plain values one after the other, or the header, the parameters, the default value at its stored position and the frames bit by bit at the stored position, where components of a constant range and parts that are switched off take no space and have the default value. The values returned are those stored there, whatever program wrote the bytes.", "quantifier": "all byte strings, track types, compressions and frame counts", "why_tests_cant": "existing tests only cover a handful of tracks; positions and widths come from the data, so faults show only for particular flags, ranges and overlaps", "anchors": ["ssbh_data/src/anim_data/buffers.rs:168-330", "ssbh_data/src/anim_data/compression.rs:20-172,366-875", "ssbh_data/src/anim_data/bitutils.rs"]}
{"id": "C63", "title": "Loading animation files of any writer", "statement": "If ssbh_lib reads an animation of version 2.0 or 2.1, AnimData::read returns exactly the groups, nodes and tracks of the file in order with their names, types and flags, and the values stored in the part of the buffer that each track names (C62), even if parts overlap. It panics exactly if the first track that cannot be read is one of those of C50, and returns an error if another track cannot be read first.", "quantifier": "all files, any number of groups, nodes and tracks", "why_tests_cant": "files of other programs with arbitrary offsets and sizes", "anchors": ["ssbh_data/src/anim_data.rs:93-115,363-381", "ssbh_data/src/anim_data.rs:502-567"]}
{"id": "C64", "title": "Loading animations of version 1.2", "statement": "If ssbh_lib reads an animation of version 1.2, AnimData::read returns one group for each type of track that occurs, in unspecified order; its nodes are the tracks of this type in file order, each with one track without values. It succeeds exactly if the buffer of every property exists and holds what its first word asks for, and otherwise panics: it never returns an error. What was loaded cannot be saved.", "quantifier": "all files, any number of tracks, properties and buffers, every order of the hash map", "why_tests_cant": "the order of the hash map differs between runs; all malformed buffers", "anchors": ["ssbh_data/src/anim_data.rs:383-500", "ssbh_data/src/anim_data.rs:785-825"]}
{"id": "C65", "title": "Loading mesh files of any writer", "statement": "If ssbh_lib reads a mesh of version 1.8, 1.9 or 1.10, MeshData::read returns exactly its objects in order. Each attribute holds, for its type, the numbers at buffer offset + attribute offset + i * stride + j * component size of the vertex buffer it names, converted to f32, and is listed under its usage in file order; the indices are the 2 or 4 byte numbers at the index offset; the influences are those of all rigging groups with the object's name and subindex. Loading succeeds exactly if all these positions lie inside the buffers, no stride is zero for an object with vertices, and the bones of matching groups have text names. It never panics.", "quantifier": "all files, any number of objects, attributes, groups and vertices, any offsets and strides, also overlapping", "why_tests_cant": "files of other programs with arbitrary offsets, strides, types and missing buffers", "anchors": ["ssbh_data/src/mesh_data.rs:186-480", "ssbh_data/src/mesh_data.rs:624-674", "ssbh_data/src/mesh_data.rs:1224-1284", "ssbh_data/src/mesh_data/vector_data.rs:127-188", "ssbh_data/src/mesh_data/vector_data.rs:324-356", "ssbh_lib/src/formats/mesh.rs:297-368"]}
{"id": "C66", "title": "Saving loaded animations again and again", "statement": "An animation whose tracks are short, boolean, or pattern indices less than 2^24 apart gives the same bytes when it is saved, loaded and saved again. For animations with finite numbers, after n rounds of saving and loading everything can still be saved, the tracks keep names and flags, the numbers stay between the smallest and largest value of their coordinate, which are kept exactly, and no number has moved by more than n times the bound for a single save. The bound for a single save does not hold for many saves.", "quantifier": "all animations, any number of saves", "why_tests_cant": "the number of saves and the floats are unbounded", "anchors": ["ssbh_data/src/anim_data/compression.rs:397-427", "ssbh_data/src/anim_data.rs:214-360", "ssbh_data/src/anim_data/buffers.rs:22-330"]}
{"id": "C67", "title": "Transforming points and vectors", "statement": "transform_points and transform_vectors return as many vectors with as many components as they are given. Each of the first three components of a finite input is within the rounding error of the exact affine (points) or linear (vectors) image under the column-major matrix, and does not overflow when the terms sum to at most 2^127; the fourth component is kept bit for bit. A finite translation does not affect vectors, and the identity keeps every finite number.", "quantifier": "all vector data and all 4x4 matrices of finite numbers", "why_tests_cant": "the numbers are floats and rounding depends on all of them", "anchors": ["ssbh_data/src/mesh_data.rs:1080-1166", "ssbh_data/src/mesh_data/vector_data.rs:66-73", "ssbh_data/src/mesh_data/vector_data.rs:109-126"]}
{"id": "C68", "title": "Values written as JSON and read back", "statement": "A value of any of the file types, written as JSON and read back, gives the same value exactly when it contains no infinite or NaN float, no string that is not UTF-8, and no pointer to nothing but null. With finite floats the document is always read, as the same type, format and version, and only such strings (which become empty) and pointers (which become null) change; with an infinite or NaN float nothing is read. Integers are read only within the range of their type, and the Adj document has the names of the Rust members and signed indices.", "quantifier": "all values of all formats and versions, MeshEx and Adj", "why_tests_cant": "values are trees of any size and the exceptions can be anywhere in them", "anchors": ["ssbh_lib/src/lib.rs:336-390", "ssbh_lib/src/strings.rs:70-100", "ssbh_lib/src/arrays.rs:27-60", "ssbh_lib_json/src/main.rs:42-82"]}
{"id": "C69", "title": "Edited JSON", "statement": "The order of the members of the objects in a JSON document has no effect on the file written. Members a struct does not have are ignored, a missing member is accepted only for absolute pointers (as null) and members with a default, and a repeated member is rejected.", "quantifier": "all JSON documents, all structs", "why_tests_cant": "all orders at all depths of documents of any size", "anchors": ["ssbh_lib_json/src/main.rs:51-82", "ssbh_lib/src/lib.rs:336-345"]}
{"id": "C70", "title": "Accepted JSON gives files that load", "statement": "A JSON document whose strings have no zero characters and that is accepted as one of the types is a value of that type, the program writes a file, and loading the file by its extension gives the value of the document. The only exception is a MeshEx with different numbers of entries and flags, for which the program panics.", "quantifier": "all JSON documents", "why_tests_cant": "documents are edited by hand and have any content", "anchors": ["ssbh_lib_json/src/main.rs:51-103", "ssbh_lib/src/strings.rs:86-95", "ssbh_lib/src/formats/meshex.rs:114-178"]}
{"id": "C71", "title": "Files converted to JSON and back", "statement": "A file the program loads and whose value JSON can hold is converted to JSON that is converted to what the library's save gives for the value, with the extension of the type. A file saved by the library is converted to JSON and back to the same bytes.", "quantifier": "all files of all types", "why_tests_cant": "files have any content and any writer", "anchors": ["ssbh_lib_json/src/main.rs:20-103"]}
{"id": "C72", "title": "Data as JSON", "statement": "A value of a data type of ssbh_data without infinities and NaN is written as JSON that the program reads as the same value of the same type. With an infinity or a NaN no type accepts the document. The document has the members the Rust types declare, in their order.", "quantifier": "all values of MeshData, SkelData, AnimData, ModlData, MatlData, HlpbData, MeshExData and AdjData", "why_tests_cant": "values of any size with any floats, and eight types tried in turn", "anchors": ["ssbh_data_json/src/main.rs:21-52", "ssbh_data/src/anim_data.rs:66-82", "ssbh_data/src/mesh_data.rs:481-590", "ssbh_data/src/matl_data.rs:82-162"]}
{"id": "C73", "title": "Files converted to JSON and back", "statement": "A file the library loads is converted to the JSON of its data, and this JSON is converted to what the library saves for the data, with the extension of the type; if the data has an infinity or NaN or cannot be saved, the program panics. The file written converts to the same JSON, apart from what saving changes in animations and meshes.", "quantifier": "all files of all eight types, written by anyone", "why_tests_cant": "files have any content and any writer", "anchors": ["ssbh_data_json/src/main.rs:21-105", "ssbh_data/src/lib.rs:100-165"]}
{"id": "C74", "title": "Edited JSON of data", "statement": "A document accepted by the program is a value of the Rust type, whatever it contains. The program writes what the library saves for it or panics, and the order of members has no effect.", "quantifier": "all JSON documents", "why_tests_cant": "documents are edited by hand", "anchors": ["ssbh_data_json/src/main.rs:38-102"]}
{"id": "C75", "title": "Members of materials that may be left out", "statement": "Leaving out a member of a sampler or a blend state, or the UV transforms of a material, is the same as giving the default: ClampToEdge, LinearMipmapLinear, Linear, no colour, no bias, One (also null); One, Add, Zero, One, Add, Zero, false; no transforms.", "quantifier": "all documents, each member alone or together with others", "why_tests_cant": "all combinations of members and contents of the others", "anchors": ["ssbh_data/src/matl_data.rs:95-107", "ssbh_data/src/matl_data.rs:143-194", "ssbh_data/src/matl_data.rs:250-278"]}
{"id": "C76", "title": "Data types are told apart", "statement": "The document of a value is accepted as no other type than its own, in any order of attempts, except that a Modl without entries is also accepted as Matl and Adj, and a Matl without entries as Adj. The order of the program reads these correctly too.", "quantifier": "all values, all types", "why_tests_cant": "pairs of types and values of any content", "anchors": ["ssbh_data_json/src/main.rs:76-102"]}
{"id": "C77", "title": "Work and memory of reading untrusted files", "statement": "Whatever counts and offsets a file claims, reading it takes a number of steps bounded by a polynomial in its length (degree at most 4 for the formats, 2 for MeshEx, 1 for Adj), and the memory reserved in advance exceeds what is really read by at most 1024 elements per level of arrays and 100 MiB, by nothing if the file is read successfully. A linear bound does not hold: shared pointer targets make the value larger than the file by any factor.", "quantifier": "all byte sequences, all types described to the derive macros whose array elements are not empty", "why_tests_cant": "all forged counts, offsets and nestings; a bound on cost is not observable from the result", "anchors": ["ssbh_lib/src/arrays.rs:12-20", "ssbh_lib/src/arrays.rs:228-270", "ssbh_lib/src/lib.rs:174-186"]}
{"id": "C78", "title": "Loaded lists are bounded by the file", "statement": "No text, buffer or list of a value that was read is longer than the file. The same holds for the lists of loaded animations, meshes and adjacency: a track has at most 8 values per byte of the file, whatever number of frames it claims; an attribute has at most as many vectors as the file has bytes, whatever vertex count, offset and stride are claimed; vertex indices take at least two bytes each; the entries of an Adj divide its indices.", "quantifier": "all byte sequences, all kinds of files, track types and compressions", "why_tests_cant": "forged counts with zero bits per frame, zero strides and overlapping vertices, in all combinations", "anchors": ["ssbh_data/src/anim_data/buffers.rs:270-330", "ssbh_data/src/mesh_data/vector_data.rs:325-360", "ssbh_data/src/adj_data.rs:166-207", "ssbh_lib/src/arrays.rs:228-270"]}
{"id": "C79", "title": "The derive macro SsbhWrite", "statement": "For every type made of library types and items deriving SsbhWrite that has a descriptor, running the code the macro emits gives the bytes, size and alignment of the descriptor, for every value. The descriptors of all versions of the ten formats, MeshEx, Adj and the animation codecs are exactly those obtained from the declarations in the source, so a file saved with the emitted code is the one the other properties speak about. The macro accepts exactly the items without unknown keys, oversized numbers, unions and unit structs or variants (unless repr), among them all of the repository. The size it computes is the number of bytes written if no alignment follows, a magic is only on named structs and no padding follows a repr.", "quantifier": "all items, attributes, nestings of types, values and writer states", "why_tests_cant": "a macro is a function from programs to programs; tests exercise single items, and attribute combinations that no item uses yet are never run", "anchors": ["ssbh_write_derive/src/lib.rs:17-526", "ssbh_lib/src/enums.rs:147-174", "ssbh_lib/src/lib.rs:792-808"]}
{"id": "C80", "title": "The programs that test the library", "statement": "ssbh_test prints nothing for exactly the files the library writes, \"not 1:1\" for exactly the other files that follow the documented layout and \"error reading\" for exactly those that do not, and never panics on SSBH and Adj files. On MeshEx files up to 4 GiB it panics exactly if entries are counted but one of the pointers to entries and flags is null. The round trip targets of the fuzzers pass for every value of every version of every format, every Adj, and exactly the MeshEx values with as many flags as entries; the reading targets never panic.", "quantifier": "all byte sequences below 2^63 bytes, all values of all formats and versions", "why_tests_cant": "these programs are the tests; what a silent run means for files that were never given to it can only be proved", "anchors": ["ssbh_test/src/main.rs:49-98", "ssbh_lib/fuzz/src/lib.rs:4-26", "ssbh_lib/fuzz/fuzz_targets/meshex.rs:1-8", "ssbh_lib/src/lib.rs:540-582"]}
{"id": "C81", "title": "Size of written files", "statement": "A written file is at least as long as its header, root struct and all objects behind offsets together, and at most as long as these with each rounded up to 8 bytes (16 for MeshEx). So a document whose objects fit below 2^63 bytes is read back, and a MeshEx value with objects below 2^64 bytes is written; what was read from a MeshEx file up to 4 GiB always is below this.", "quantifier": "all documents of all formats and versions, all MeshEx values", "why_tests_cant": "bounds for documents of any size; the sizes at which offsets overflow cannot be reached in tests", "anchors": ["ssbh_write/src/lib.rs:53-57", "ssbh_lib/src/lib.rs:584-700", "ssbh_lib/src/formats/meshex.rs:114-178"]}
{"id": "C82", "title": "Files up to a stated length can always be saved and loaded again", "statement": "What is loaded from any file no longer than a limit of its format (8 GiB for Hlpb, Skel and Shdr, 4 GiB for Modl, Nlst and MeshEx, 16 MiB for Matl, 8 MiB for Nrpd and Nufx, 512 KiB for Mesh and Anim) is saved without an error and loads from the saved bytes to the same document, whether or not the library wrote the file. The same holds for the data of Modl, Hlpb, Skel, Matl and MeshEx files. Without a limit, the saved file is at most as long as a polynomial of the length of the loaded one.", "quantifier": "all byte sequences up to the limits, all formats and versions", "why_tests_cant": "a file can share one string or array between many offsets, and saving writes it once for each of them; only a bound for every way of sharing excludes that the saved positions overflow", "anchors": ["ssbh_lib/src/lib.rs:584-700", "ssbh_lib/src/arrays.rs:30-80", "ssbh_write/src/lib.rs:53-57", "ssbh_lib/src/formats/meshex.rs:114-178"]}
{"id": "C83", "title": "Conversions of values in memory", "statement": "The fuzz targets of ssbh_data convert any value of the types of ssbh_lib to data and any data to these types. No conversion from data panics: a skeleton converts exactly if no bone is its own ancestor, an animation unless its version or final frame is wrong, a mesh always gives a value or an error. Every Modl, Hlpb, Skel and Matl value converts to data that can be saved; Mesh, MeshEx and Adj values never make the conversion panic. The target anim_to_data panics for exactly the animations whose first unreadable track has a compressed header that is cut off, or (1.2) with a property that cannot be read.", "quantifier": "all values of the types in memory, whether or not a file holds them; all data, with any names, lengths and numbers", "why_tests_cant": "the fuzzer samples values; absence of panics and the exact set of panicking values need all of them", "anchors": ["ssbh_data/fuzz/fuzz_targets/anim_to_data.rs:5-7", "ssbh_data/fuzz/fuzz_targets/mesh_from_data.rs:5-7", "ssbh_data/src/anim_data.rs:85-133", "ssbh_data/src/mesh_data.rs:676-760"]}
{"id": "C84", "title": "Vectors, matrices and bounding boxes", "statement": "Conversions of vectors and matrices to arrays and back change nothing; minimum and maximum of vectors bound both in every component and ignore NaNs; the identity matrix changes no finite point. In a saved mesh the axis aligned boxes have the extreme coordinates of the points of each object and of all objects, and the oriented box, which is not turned, has a finite middle and finite non-negative half lengths and ends at these coordinates and contains all points up to a unit in the last place of the largest coordinate, if coordinates are finite and at most 2^126.", "quantifier": "all vectors and matrices; all meshes, with any functions computing spheres and exact axis aligned boxes", "why_tests_cant": "rounding of middle and half lengths depends on the points; tests use a handful of boxes with exact results", "anchors": ["ssbh_lib/src/vectors.rs:17-427", "ssbh_data/src/mesh_data.rs:1198-1222"]}
{"id": "C85", "title": "The two JSON programs agree", "statement": "For a file that both ssbh_lib_json and ssbh_data_json convert, the document with the data shows what the document of the file shows: every name, number and vector under the same name (the empty text for a null pointer, a flag for a number), lists with the same number of elements; bones from entries and transforms, material parameters from the attributes of their type, flags of mesh groups from the entries that name the group, adjacency from the part of the buffer between two offsets, tracks with the values of their type for every frame, vertices with the attributes of their usage and as many vectors as vertices, influences of the groups with the name and number of the object.", "quantifier": "all byte sequences both programs accept, all types of data", "why_tests_cant": "the programs use different types and code paths; tests compare neither with the other", "anchors": ["ssbh_data_json/src/main.rs:21-36", "ssbh_lib_json/src/main.rs:20-48", "ssbh_data/src/matl_data.rs:560-660", "ssbh_data/src/mesh_data.rs:676-760", "ssbh_data/src/anim_data.rs:85-133"]}
{"id": "C86", "title": "What a file keeps of any data", "statement": "Whatever value of Rust's types is saved, with NUL in its texts and parents or object numbers wider than the fields of the file, loading gives the value with every text cut before its first NUL, the numbers of parents taken modulo 2^16 (none if the top bit is set), object numbers of adjacency modulo 2^32, fixed versions of models, helper bones and skeletons and the stored values of animations and meshes; nothing else changes. The same holds for the documents of ssbh_data_json. Mesh objects that agree in what is kept of their names and in their subindex are loaded with the influences of all of them, in the order of the objects, and what is loaded cannot be saved again; objects that differ keep their influences.", "quantifier": "all values of all eight types of data that are saved, all functions for matrices and bounding volumes; all documents", "why_tests_cant": "tests save texts without NUL and small numbers", "anchors": ["ssbh_lib/src/strings.rs:42-44", "ssbh_data/src/skel_data.rs:151-235", "ssbh_data/src/adj_data.rs:132-156", "ssbh_data/src/mesh_data.rs:741-817", "ssbh_data_json/src/main.rs:76-102"]}
{"id": "C87", "title": "Which data can be saved", "statement": "Data of any of the eight types, whatever texts and numbers it has, is saved exactly if: a mesh has version 1.8, 1.9 or 1.10, objects that differ in name or subindex, index lists of triangles within the vertices, attributes of equal length and (version 1.10) weights with 16 bit indices; no bone of a skeleton is its own ancestor; an animation has version 2.0 or 2.1 and a final frame that reaches the last frame; a material has version 1.6. Otherwise saving gives an error that names a true fault; it never panics. ssbh_data_json writes a file for a document exactly if it describes savable data, and panics otherwise. A skeleton whose parents fit into 15 bits gives the same file when what was loaded is saved again.", "quantifier": "all values of all eight types with counts the file can hold, all functions for matrices and bounding volumes; all documents", "why_tests_cant": "tests save a few valid values and few invalid ones per type", "anchors": ["ssbh_data/src/mesh_data.rs:741-817", "ssbh_data/src/skel_data.rs:151-293", "ssbh_data/src/anim_data.rs:117-175", "ssbh_data/src/matl_data.rs:495-525", "ssbh_data/src/lib.rs:100-235", "ssbh_data_json/src/main.rs:76-102"]}
{"id": "C88", "title": "Files and data determine each other", "statement": "Two values of the types of ssbh_data that are saved to the same bytes are of the same type (for SSBH documents) and equal in what a file keeps of them. Conversely the bytes depend on nothing else: values that differ only after the first NUL of a text, in the higher bits of object numbers or in the versions that are not written give the same file. So apart from meshes and animations, whose numbers are rounded, two files are equal exactly if the cut values are. Skeletons need parents below 2^15, as transforms are computed with the whole numbers.", "quantifier": "all pairs of values of all eight types with counts the file can hold, all functions for matrices and bounding volumes", "why_tests_cant": "tests compare files of single values and never two different values with equal files", "anchors": ["ssbh_data/src/lib.rs:100-235", "ssbh_data/src/skel_data.rs:151-293", "ssbh_data/src/meshex_data.rs:184-246", "ssbh_data/src/adj_data.rs:132-156", "ssbh_lib/src/strings.rs:42-44"]}
{"id": "C89", "title": "Converting a document to a file and back gives the same file again", "statement": "Let ssbh_data_json convert a document to a file, the file to a second document and the second document to a file. The second file has the bytes of the first exactly if the numbers stored in the first are finite, and the program panics otherwise. Meshes need objects that differ in what is kept of names or in numbers, and for version 1.8 an attribute beside binormals; skeletons need parents below 2^15; animations need tracks that are stored without loss (C66). For all types but meshes it is enough that the document has finite numbers.", "quantifier": "all well formed JSON documents with counts the file can hold, all functions for matrices and bounding volumes", "why_tests_cant": "tests convert single documents of clean data; texts with NUL, versions that are not written, numbers that overflow a half float and large parents do not occur", "anchors": ["ssbh_data_json/src/main.rs:21-106", "ssbh_data/src/lib.rs:100-235", "ssbh_data/src/mesh_data/vector_data.rs:170-200", "ssbh_data/src/skel_data.rs:151-293", "ssbh_data/src/anim_data.rs:129-190"]}
{"id": "C90", "title": "When tracks are compressed and what it saves", "statement": "Whether a track of an animation is written as Direct, ConstTransform, Constant or Compressed depends on its type and number of frames only: at most one frame is constant, from 6 frames of transforms, 7 of UV transforms, 8 of vectors, 11 of floats and indices and 35 of booleans on it is compressed. Compressed tracks have a header that is shorter than the values. The compressed form is certainly shorter from 13, 24, 25, 37 and 39 frames on; one frame less and it may not be, for every type.", "quantifier": "all animations, all tracks of the six types with any values", "why_tests_cant": "tests check the choice for a few lengths and never compare the sizes of both forms", "anchors": ["ssbh_data/src/anim_data.rs:36", "ssbh_data/src/anim_data.rs:304-360", "ssbh_data/src/anim_data/compression.rs:124-130", "ssbh_data/src/anim_data/buffers.rs:20-119"]}
{"id": "C91", "title": "Converting meshes between versions", "statement": "Loaded mesh data saved in other versions, any number of times, keeps everything except what the versions used cannot hold: vectors of four components are half floats (colours bytes) in every version, version 1.10 makes half floats of vectors of two components, version 1.8 drops binormals and replaces the names of attributes. Neither the order of the conversions nor repetitions matter. Going from 1.8 or 1.10 to 1.9 and back writes the bytes of the first file. A further conversion succeeds exactly if the version is known, version 1.10 has room for the vertex indices of weights, and version 1.8 did not remove the only attributes of an object with indices. That conversions to another version and back lose nothing is refuted.", "quantifier": "all mesh data, all sequences of versions of any length", "why_tests_cant": "sequences of conversions are unbounded and rounding must be idempotent for all numbers; no test converts between versions", "anchors": ["ssbh_data/src/lib.rs:10", "ssbh_data/src/mesh_data.rs:484-520", "ssbh_data/src/mesh_data/mesh_attributes.rs"]}
{"id": "C92", "title": "JSON forms follow the declarations", "statement": "The names, fields, types, versions, magics and defaults the JSON tools use are those serde derives from the declarations of ssbh_lib and ssbh_data: for every variant of Ssbh and every version of its format, for MeshEx and Adj, and for every data type of ssbh_data_json. For any declarations the compiler accepts, a value of any type they declare comes back from its document unchanged exactly if it has no infinities or NaN, no invalid UTF-8 and no pointer to nothing but null, provided null has one meaning at each place. The proviso cannot be dropped: an Option of a float loses NaN.", "quantifier": "all declarations with serde attributes of the kinds used, all types and values; all formats, versions and data types of the repository", "why_tests_cant": "the set of possible declarations and values is infinite; the tests compare no document with the declarations", "anchors": ["ssbh_lib/src/lib.rs:494-554", "ssbh_lib/src/formats", "ssbh_data/src/matl_data.rs:82-170", "ssbh_data/src/anim_data.rs:569-735", "ssbh_data/src/mesh_data/vector_data.rs:21-25"]}
{"id": "C93", "title": "Files are read as the declarations say", "statement": "The reader binrw derives from the declarations (SsbhFile, Ssbh, Versioned, the ten format enums and all types they contain, with their magic, align_before, repr, pad_after, temp and pre_assert attributes) accepts the same files as the model's reader, on all bytes and from all positions, with the same type, version, content, end position, error or panic. For any declarations whose binrw attributes agree with those of SsbhWrite, what the derived writer saves the derived reader returns. The agreement is needed: padding or an integer type told to only one of the macros loses data.", "quantifier": "all byte strings and positions; all elaborated types of any declarations; all valid files", "why_tests_cant": "the readers take arbitrary bytes and the declarations are many; tests read a few literal buffers per type", "anchors": ["ssbh_lib/src/lib.rs:493-557", "ssbh_lib/src/enums.rs:91-174", "ssbh_lib/src/formats", "ssbh_lib/src/arrays.rs:270-290"]}
{"id": "C94", "title": "The text of JSON documents", "statement": "The text layer of the JSON programs (serde_json::to_string_pretty, from_str, as modelled) accepts a text if and only if it is a value of the grammar of RFC 8259 with white space around it, valid escapes and at most 127 arrays and objects inside each other, and the value read is the only one the grammar gives. What is written is UTF-8 text in the grammar for the value. Integers of 64 bits are read exactly, all other numbers of any length between 2^-125 and 2^127 with a relative error below 1/(2^24-1), \\u escapes are the code points in UTF-8. The decimal written for an f32 has the largest exponent of those closest to it. Every finite f32 is read from its text as the same f32, though the reader rounds twice to f64 and once to f32. Files converted to text and back by ssbh_lib_json and ssbh_data_json are the files (data: the file the library saves). Whatever the text given to ssbh_data_json, a file it writes is what the library saves for a value of Rust's types. Values nested 128 deep are written and not read; no type of the repository is that deep. A number too large for an f32 is not rejected: it becomes infinite in the file, and the text of that file is not accepted.", "quantifier": "all texts (byte strings); all documents; all files of all formats", "why_tests_cant": "texts are arbitrary (escapes, white space, numbers of any length, nesting), there are 2^32 floats and the programs have no tests", "anchors": ["ssbh_lib_json/src/main.rs:43-82", "ssbh_data_json/src/main.rs:20-75"]}
{"id": "C95", "title": "The files the JSON programs write", "statement": "Without an output path ssbh_lib_json and ssbh_data_json write the text of a file to its path with .json appended, and a JSON text to its path with the extension replaced by the one of its type; a run on a file followed by a run on the text gives the bytes of the file (ssbh_data_json: the bytes the library saves). The input is never overwritten. With an output path the same bytes are written there and nowhere else. The second run does not write the original file: model.numshb.json becomes model.numshb.numshb. Paths without extension panic.", "quantifier": "all files, all paths (Unix byte strings, Path::extension and with_extension as modelled), all documents", "why_tests_cant": "paths and files are arbitrary and the main functions have no tests", "anchors": ["ssbh_lib_json/src/main.rs:20-104", "ssbh_data_json/src/main.rs:21-106"]}
