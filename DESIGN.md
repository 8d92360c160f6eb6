# Formal model of ssbh_lib / ssbh_write / ssbh_data

The code in `/repo` is Rust and is never built here. The model is a set of total, computable Gallina functions
(Coq 8.16.1) written by reading the source. Every definition cites the file and lines it models. Panics are the
result `Panic`, errors the result `Err e`, success `Ok v`.

## Layers

| files | what they model |
|---|---|
| `Bytes` | bytes, little endian integers, `Cursor<Vec<u8>>` (a write past the end fills with zeros) |
| `Ssbh`, `Described` | a deep embedding `ty` of everything the `SsbhWrite` derive macro, `RelPtr64`, `Ptr<P>`, `SsbhArray`, `SsbhByteBuffer`, `CString<N>`, `SsbhEnum64`, tuples, arrays and repr enums can build, with writer (`ssbh_write`, `size_in_bytes`, `alignment_in_bytes`) and reader |
| `Formats` | Hlpb, Matl, Modl, Mesh, Skel, Anim, Nlst, Nrpd, Nufx, Shdr, all versions, as values of `ty` |
| `File`, `Strings`, `MeshEx` | header, type and version dispatch, saving to a path, text, the MeshEx and Adj files |
| `Bits`, `Float32`, `AnimComp`, `AnimBuf`, `AnimFile` | bit streams, f32/f64 arithmetic, compression of tracks, track buffers, AnimData |
| `SmallData`, `AdjData`, `SkelData`, `MatlData` | ModlData, HlpbData, MeshExData, AdjData, SkelData, MatlData |
| `ShdrData` | ShdrData: the tables inside compiled shaders |
| `VecData`, `MeshData` | vertex attribute encodings, strided buffers, MeshData |
| `TransformData`, `Bounding` | transformed points and vectors; vectors, matrices and the bounding info of meshes |
| `Json`, `JsonSchema`, `JsonFile` | the derived serde implementations over a deep embedding `schema` (field and variant names transcribed by `tools/schema.py`), the program ssbh_lib_json |
| `Derive`, `Elab`, `Items`, `Source` | the derive macro itself, the code it emits and how that code runs; all items of the repository that derive SsbhWrite (transcribed by `tools/items.py`) with their attributes; saving with the emitted code |
| `Serde`, `SerdeItems` | serde's derive macros, from the declarations and their `serde` attributes to the JSON form; the items deriving Serialize that are not in `Items` |
| `BinRead` | binrw's derive macro `BinRead`, from the declarations and their `br` attributes to the readers of types, formats and files |
| `JsonText`, `JsonTextFile` | the text of JSON documents as serde_json and ryu read and write it; the JSON programs on text |
| `Work` | the reader again with its steps counted and the memory it reserves before the data is there |
| `SizeSpec`, `SizeLoad` | the room a value takes in a file; a bound on it by the length of the file it was loaded from (specification only) |
| `SelfTest` | ssbh_test, the round trip targets of the fuzzers, `Versioned<T>` without a file header |
| `DataFuzz` | the fuzz targets of ssbh_data, which convert values in memory |
| `DataJson` | the serde implementations of the data types of ssbh_data and the program ssbh_data_json, with schemas as above |

`*Spec.v` files hold the specifications used by the theorems, `*Facts.v` and `*Lemmas.v` the proofs, and
`Props*.v` nothing but the property theorems with `Print Assumptions` and an example of a case that meets the
hypotheses. `MANIFEST.json` is generated from the `Props*.v` files by `tools/manifest.py`.

## How each property is proved

| property | method | file |
|---|---|---|
| C01 C02 C03 C18 C19 | structural induction on `ty` with a frame invariant: a write at `p` with data pointer `d` touches only `[p,p+size)` and `[max d (p+size), d')`; any buffer that agrees there reads back the value | PropsSsbh |
| C04 C05 C06 | an independent walker over the *output bytes* lists the extents reached through offsets; they are sorted, disjoint, aligned and past their owner. Minimality (no gaps) is false and not claimed | PropsSsbh |
| C07 C08 C09 C10 C11 | a positional decoding relation `Dec` without a cursor; reading succeeds exactly when `Dec` holds | PropsSsbh |
| C12 C13 C14 C15 C20 C21 | specialisations stated on bytes | PropsSsbh, PropsFiles |
| C16 C17 C46 C47 | layout relations for MeshEx and Adj, equivalent to the readers | PropsFiles |
| C22 C23 | bit lists | PropsAnim |
| C24 to C28, C48, C49 | induction over groups, nodes, tracks with the invariant of the shared buffer | PropsAnim |
| C29 C55 C58 | Flocq: the `SpecFloat` operations equal the rounded real ones; error analysis in the reals | PropsQuant |
| C66 | induction on the number of saves over the bound of C55; equal bytes for lossless tracks | PropsQuant, PropsAnim |
| C56 | Flocq: rounding gives a nearest number of the format | PropsRound |
| C67 | Flocq: error analysis of a sum of four rounded products | PropsTransform |
| C57 | the theorems about files and the invariants of C32, C38 and C40 | PropsStored |
| C30 C50 | partial and refuted, see the findings | PropsAnim |
| C31 to C35, C53, C54 | invariant of the four vertex buffers and the index buffer over the objects | PropsMesh |
| C44 C45 | exhaustive evaluation over *all* 2^8 and 2^16 patterns (the whole domain) lifted by `forallb` | PropsMesh |
| C36 C37 | list induction | PropsAdj |
| C38 C39 C51 | induction on the chain of parents; matrices are abstract (product and inverse are arguments) | PropsSkel |
| C59 C60 C61 | positions in the bytes without a cursor; UTF-8 from code points | PropsShdr |
| C62 | positions of bytes and bits without a cursor, for any writer; exact panics of C50 | PropsTrack |
| C63 C64 | loops as relations between lists, first failing track; every order of the hash map | PropsAnimRead |
| C65 | positions in the vertex and index buffers without a cursor, for any writer | PropsMeshRead |
| C68 to C71 | induction on `schema`, which is checked against `ty` for every format by evaluation; both directions (values to JSON, JSON to values) | PropsJson |
| C72 to C76 | a schema for each data type (DataJson) with a record of the facts needed for both directions (DataJsonRep), required members tell the types apart (DataJsonFacts), readers give typed data (DataJsonLoad), composed with the reload theorems (DataJsonTool) | PropsDataJson |
| C77 | same results as the plain reader; a budget by induction on the type, each array element taking at least a byte (WorkFacts); files with shared targets (WorkBomb) | PropsWork |
| C78 | induction on the type for values; the specifications of C62, C63 and C65 (last frame, last vector) for data (WorkData) | PropsWorkData |
| C79 | structural induction on the types built from items: running the emitted code is `write` (DeriveFacts); the descriptors of all formats are computed from the transcribed items | PropsDerive |
| C80 | exactness of the reader and round trips of C01–C07, C12 and C13, put together for the two test programs (SelfTestFacts) | PropsSelf |
| C81 | structural induction on the type with a moving multiple of the alignment as upper bound (SizeFacts); the ordered objects of C06 for the lower bound; sharing of strings bounded by counting elements (SizeFileFacts) | PropsSelf |
| C82 | induction on the type: texts, buffers and counts of decoded values are bounded by the length of the file (`dec_within`), so the room of the value is too (`within_most`); with C81 and C02 (SizeLoadFacts, SizeDataFacts) | PropsSizes |
| C83 | case analysis of well typed values as in C52, C63 to C65, without a file they come from; each step of saving has a result (DataFuzzFacts) | PropsFuzz |
| C84 | rounding errors of sums, differences and halves of floats, from Flocq (BoundingFacts); the saved info from the chain of objects of C33 | PropsBounding |
| C85 | the value both programs start from is the same (typed_read); conversions field by field against the schema of the format, lists by induction (AgreeFacts to AgreeFacts4) | PropsAgree |
| C86 | the values written for the data and for the cut data are the same, so the theorems about data without NUL apply to the cut data; skeletons directly; the stable sort of rigging groups keeps the order of those with equal keys (CutFacts) | PropsCut |
| C87 | the results of saving data without NUL (C38 to C43, C49, C53), carried over to the data before cutting; sizes of MeshEx files from C81 (SaveFacts) | PropsSave |
| C88 | C86 for both values; saving the cut value gives the same file (SaveFacts) | PropsSave |
| C89 | C86 for the loaded value, C88 for its file; written files consist of bytes, so what is loaded is typed (AgainFacts) | PropsAgain |
| C90 | sizes of C26 and C28; bits per frame at most those of all components (ChoiceFacts) | PropsChoice |
| C91 | each version keeps the numbers another version rounded (idempotent, commuting roundings); induction over the conversions (ConvFacts) | PropsConv |
| C92 | computing the forms of the declarations; induction over the derivation for any declarations, then the round trip of C68 for well-formed forms (SerdeFacts) | PropsSerde |
| C93 | induction over elaborated types for any declarations: the derived reader is `read` of the descriptor; distinct magics, tags and versions make trying variants in order a lookup (BinReadFacts) | PropsBinRead |
| C94 | the parser is complete and sound for the grammar by induction on the text (JsonTextFacts); the text written is in the grammar (JsonTextWrite) and UTF-8 (JsonTextUtf8). Floats: the shortest decimal lies between the numbers halfway to the neighbours (JsonTextDecimal); powers of ten up to 10^22 are exact, so moderate exponents need one rounding (JsonTextKept); otherwise the computed number is on the same side as the decimal unless the decimal is within 1 part in 2^52 of a number halfway, and the decimals this close, found by a verified search of the Stern-Brocot tree, are computed (JsonTextFarey, JsonTextAll). Digits beyond 64 bits are dropped and counted (JsonTextLong); the error of other numbers is that of the roundings (JsonTextNumber, JsonTextNear). If a decimal with a larger exponent were inside, the search would have found it (JsonTextShort). Then the results on trees (JsonTextTool, JsonTextFinite) | PropsJsonText |
| C95 | facts about the last slash and the last dot of a path by induction; the runs are cases of C94 (CliFacts) | PropsCli |
| C40 to C43, C52 | conversion to values of `ty` and the theorems about files | PropsMatl, PropsData, PropsReload, PropsMeshRead, PropsAnimRead |

## Trusted base

* The Coq kernel (8.16.1), with `vm_compute`.
* Axioms. `Print Assumptions` stands below each property theorem. All theorems outside `PropsQuant.v`,
  `PropsRound.v`, `PropsTransform.v`, `PropsBounding.v`, `PropsJsonText.v` and `PropsCli.v` are "Closed under the global context". The theorems of these files use axioms of the standard library, through
  its real numbers: `ClassicalDedekindReals.sig_not_dec`, `ClassicalDedekindReals.sig_forall_dec`,
  `FunctionalExtensionality.functional_extensionality_dep` and (through Flocq) `Classical_Prop.classic`.
  The only other axioms in loaded libraries are those of `Coq.ssr.ssrunder`, loaded with the standard library's
  `ssreflect`; no theorem depends on them.
* The reading of the Rust code recorded in the comments, in particular the behaviour of these crates:
  binrw (integers, `br` attributes, error on a short read), bitvec (`Lsb0` order), modular-bitfield,
  half (correctly rounded conversion, quiet NaN), glam (matrix product and inverse of skeletons are arbitrary functions in the
  model; a matrix times a vector adds the scaled columns from left to right), geometry_tools (bounding spheres and boxes of points are arbitrary functions; C84 assumes that a box has the smallest and largest coordinates), indexmap/itertools (order of groups),
  serde (derived implementations, missing and repeated members), serde_json (infinite and NaN floats are null, integers are accepted as
  floats; the text of documents as in `JsonText`), ryu (the shortest decimal that is rounded to the float), hex, `std::path` on Unix (`Cli`), and the serde implementation of modular-bitfield structs (an object with the bytes).
* f32 and f64 are IEEE 754 binary32/binary64 with rounding to nearest even (`SpecFloat`). Moving a value is a
  move of its bit pattern. NaN payloads after arithmetic are canonical in the model.
* Arithmetic is that of a debug build: an integer overflow panics where the source uses a plain operator, wraps
  for `as`. `usize` has 64 bits. Memory is unlimited: allocation failure is not modelled.

### Not modelled

* The parsing of command line arguments by clap, `Debug`/`Display`, the generators of random values for the fuzz targets.
* The code of binrw (`BinRead` follows its documentation for the attributes in use; conditions, counts and arguments
  given as expressions are not transcribed; errors of several variants are one) and the generics and where clauses of the
  code emitted by `SsbhWrite`. `Items.v` and `SerdeItems.v` are transcriptions by a script, which is trusted to copy names, attributes and types.
* I/O errors other than a short read; reading from anything but memory.
* Speed and memory, except for the steps and the reservations of the readers of ssbh_lib (`Work`).

## Findings

Statements that turned out to be false of the code; each has a machine-checked witness where a theorem is named.

1. *Truncated saves.* `write_to_file` creates the destination before it knows that serialisation succeeds, so an
   existing file is emptied by a failed save (`C21_destination_kept_refuted`).
2. *Constant compressed tracks lose frames.* A constant float, vector or UV track of n frames is read back as one
   frame (`C30_frame_count_refuted`).
3. *Panics on malformed tracks.* `read_bit().unwrap()` on a truncated transform track; `value + min` overflows for
   pattern index tracks (refutations of C50).
4. *Pattern indices are truncated* when max - min needs more than 24 bits (`C27_wide_range_refuted`).
5. *Quantisation error above one step* with 24 bits, since the ratio is computed in f32 (`C29_one_step_refuted`).
6. *Track offsets wrap* at 4 GiB (`C24` refutation), as do Adj byte offsets (`C36_large_refuted`), MeshEx counts and
   mesh offsets (`as u32`).
7. *The relative transform is multiplied in the wrong order* (`C51_relative_refuted`): it is correct only for
   matrices that commute.
8. *Bone indices are cut to 16 bits* (`C39_parent_index_refuted`).
9. *Text with a NUL is cut* (`C42_nul_refuted`); text that is not UTF-8 becomes the empty text when loaded.
10. *MatlData 1.5*: documented as supported, saving returns UnsupportedVersion (`C40_v15_refuted`); loading 1.5 loses
    alpha blending fields; attributes of type 7 and null parameters are dropped; filtering `Default2` is not kept.
11. *Mesh*: the stored maximum of influences wraps at 256 (`C35_stored_count_refuted`); version 1.8 drops binormals
    but counts them for the vertex count (`C54_v8_refuted`).
12. *Adjacency*: indices above 32767 wrap (65535 looks like padding), an out of range face index panics, a vertex
    with more than nine triangles loses entries, positions with a NaN match nothing.
13. *Adj files*: an odd trailing byte is ignored (C47).
14. Animations of version 1.2: a missing or short buffer panics instead of returning an error (`C64_errors_refuted`), so
    does a track with header 0x4308 and fewer than 28 key bytes, though nothing is missing (`C64_few_keys_refuted`); all
    values are dropped and the result cannot be saved. A final frame index of +infinity is accepted; version fields of SkelData,
    ModlData, HlpbData are ignored when saving; MeshExData drops three flags; compressed boolean tracks of 35 or more frames are larger than uncompressed ones.
15. *Shaders*: a name outside the binary panics (`C60_no_panic_refuted`); loading a Shdr file turns every problem of a
    binary into a panic (`C61_errors_refuted`).
16. *Animations drift when they are saved again.* `compress_f32` truncates the code, so a value can lose about one step
    every time a file is loaded and saved: 100 saves move it by more than 13 times the bound for one save
    (`C66_drift_refuted`). The smallest and largest values are exact, so nothing leaves its range (`C66_resave_error`).
17. *JSON loses values* (`C68_losses_refuted`): infinite and NaN floats are written as null, which cannot be read, and the
    program then writes nothing without an error; a string that is not UTF-8 becomes empty; a pointer to a null string becomes null.
18. *JSON strings with a zero character* are accepted and cut when saved (`C70_zero_character_refuted`).
19. *Nufx files get the extension nuflxb* instead of nufxlb when no output is given (`C71_nufx_extension_refuted`).
20. *ssbh_data_json panics on data with NaN or infinity* (`C72_not_finite`): it writes null for the number, and its own
    output is then accepted by no type.
21. *A Modl without entries is also a valid Matl and Adj document* (`C76_example`): only the order of the attempts gives the
    right file.  Documents with arrays for structs are read as the first type that fits (`C76_handwritten_refuted`).
22. *Rasterizer states have no default members* although samplers and blend states have (`C75_raster_refuted`).
23. *Small files with large values.* Pointers may share a target and arrays may overlap, so what is read can be larger than
    the file by any factor (`C77_linear_refuted`: n bytes give more than n²/100 bytes of text, up to the fourth power in theory).
24. *Attributes of SsbhWrite that are not counted, not written or not noticed.* A magic on a tuple struct or an enum is counted in
    size_in_bytes but never written (`C79_magic_of_tuple_refuted`, `C79_magic_of_enum_refuted`); padding after a repr enum is
    written but not counted (`C79_padding_of_repr_refuted`), nor is the alignment after a field
    (`C79_alignment_of_field_refuted`). A `repr` beside other arguments and arguments that are not metas are dropped without a
    message (`C79_repr_beside_other_arguments`, `C79_unreadable_arguments`). No item of the repository is written wrongly
    because of this (`C79_repository_counts`, `C79_formats_from_source`).
25. *ssbh_test panics on MeshEx files with one null pointer.* A file that counts entries but has no entries or no flags is read
    without error and cannot be written again; ssbh_test unwraps the error (`C80_check_no_panic_refuted`, 64 bytes). The fuzz
    target meshex panics for the same reason on values with different numbers of entries and flags (`C80_fuzz_meshex_refuted`).
26. *The oriented bounding box of a saved mesh may miss its points.* Middle and half lengths are rounded separately, so the box of
    -1 and the number after 1 ends before it (`C84_inside_refuted`); the excess is at most a unit in the last place
    (`C84_mesh_boxes`). For finite points of both signs near the largest float the half length is infinite (`C84_finite_refuted`).
27. *The fuzz target anim_to_data can fail*, for the tracks of findings 3 and 14 held in memory (`C83_anim_to_data_refuted`).
28. *Objects whose names differ only after a NUL are merged.* validate_mesh_object_subindices compares whole names, the file keeps them up
    to the first NUL. Such objects are saved without an error, each is loaded with the influences of both (`C86_merged_refuted`), and what is
    loaded cannot be saved again (`C86_unsaved`).
29. *A saved skeleton can be loaded as one with a cycle.* The check for cycles uses the whole number of the parent, the file keeps 16 bits.
    The only bone of a skeleton with the parent 65536, which is outside and counts as no parent, is loaded as its own parent, and the
    loaded skeleton cannot be saved (`C87_skel_again_refuted`).
30. *A document of a mesh may become one that cannot be converted.* Normals with four components are stored as half floats, so a finite
    number such as 100000 becomes infinite in the file. The document of the file has null in its place, which ssbh_data_json rejects
    (`C89_large_refuted`).
31. *Compression can make a track longer.* The documentation (anim_data.rs:36, 344-345) says that compression is used if it saves space, once the values are longer
    than the header. The code compares the header alone and not the bits of the frames, so tracks with few frames more than that
    are compressed though the result is longer: 6 to 12 frames of a transform, 11 to 36 frames of floats (`C90_saves_refuted`).
32. *Converting meshes between versions and back is not lossless.* ssbh_data/src/lib.rs:10 offers conversion between supported versions. Version 1.10 rounds
    vectors of two components that 1.8 and 1.9 keep, and 1.8 drops binormals and names of attributes (`C91_lossless_refuted`); only 1.8 and 1.10 through 1.9
    give the same file again (`C91_back`).
33. *ssbh_data_json accepts numbers that are too large.* 1e39 is a valid f64 and is converted to an infinite f32 without an error. The file that is
    saved has the infinity, its text has null in its place, and the program panics for this text (`C94_large_refuted`).
34. *Default output paths do not lead back.* The JSON programs append .json to the path of a file but replace the extension of a text, so without an output path
    model.numshb becomes model.numshb.json and then model.numshb.numshb (`C95_same_file_refuted`). The original is never overwritten (`C95_input_kept`).
35. *Paths without extension panic* in both JSON programs, though ssbh_lib_json takes any other extension for an SSBH file (`C95_no_extension_refuted`).

## Testing the theorems

`tools/mutate.py` applies an edit to a scratch copy of the model and rebuilds; `seeded/LOG.jsonl` lists every edit,
the claim it breaks, and what stopped compiling. An edit that no theorem noticed was answered with a new or stronger
theorem, named in `tightened`.

## Testing the model

The repository is never run, but its unit tests record what the authors observed: bytes written, values read, errors.
`TestsLib.v`, `TestsBuf.v`, `TestsAnim.v`, `TestsMesh.v` and `TestsData.v` state about 250 of these tests as examples
about the model (`TestsBuf.v` is transcribed by `tools/tests.py`). They are tests on literals, not proofs, and no
theorem uses them; they guard against a wrong reading of the code, because a model that disagrees with a recorded value
does not build. All of them hold, including every compressed buffer of `buffers.rs`, compared bit for bit. Left out are
tests of error messages and of the position of the reader after an error, and tests of code of other crates (bounding
spheres, inverse matrices; the latter are looked up). No test had to be changed, and none disagreed with the model.
