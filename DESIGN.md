# Formal model of vstinner/hachoir in Rocq (Coq 8.16)

Source modelled: `/repo` (read as text, never run).  Everything lives in
`rocq/theories`, logical name `Verif`.

## 1. Layout and conventions

* One *model* file per area (`*Model.v`): executable Gallina functions that
  mirror the Python functions branch by branch; every definition cites the
  file and lines it models and says where it simplifies.
* One *spec* file (or section) per area (`*Spec.v`): the small independent
  vocabulary the property theorems are written in.
* Proof files per area (`*Proofs.v`).
* `Properties*.v`: only property theorems, each followed by
  `Print Assumptions` and by an `Example` showing that its hypotheses are met
  by a concrete non-trivial case.
* Python integers are `Z` (unbounded, as in Python).  Python `bytes` and lists
  of integers are `list Z`; a value is a genuine `bytes` object when every item
  is in `[0,256)` (`is_bytes`).
* Python exceptions are values: `Ok a | Err e`.
* A Python loop is structural recursion, a fold, or recursion on explicit fuel
  whose exhaustion is a distinguished error `OutOfFuel`; theorems show that
  this error does not occur (that is the termination proof).
* Objects that Python mutates become records passed and returned.
* Where the code violates a property, the theorem is `..._refuted` and carries
  a concrete witness; where only a part holds, `..._partial`.

## 2. Trusted base

* Coq's kernel, including its `vm_compute` machine.
* No axioms of our own.  Section 6 gives what `Print Assumptions` prints for each
  theorem of a property: every one of them is closed under the global context.
* Library axioms present in the loaded libraries but used by no theorem: the
  fields of the standard library's module type `Coq.ssr.ssrunder.Under_rel`
  (`Over_rel`, `Under_rel_from_rel`, `over_rel`, `over_rel_done`, `Under_rel`,
  `Under_relE`, `under_rel_done`), loaded with `ssreflect`, which `ZifyBool` requires.
* The reading of Python: the correspondence between `/repo` and the model is by
  inspection only.  The parts of CPython relied upon (list slicing, `bytes.find`,
  `int.from_bytes`, dict order, generators, float formatting, `str.isdigit`,
  `re.split`, datetime arithmetic, ...) are modelled by small definitions in
  `Base.v`, `FloatModel.v` and in the model files.

## 3. Plan per property

| id | model | how it is proved |
|----|-------|------------------|
| C01 readBits | `StreamModel.v`: `str2long`, `StringInputStream.read`, `readBits` | bit-list specification (value of a slice of the list of bits); div-mod lemmas |
| C02 composition | same | corollary of C01 |
| C03 readInteger | same | uniqueness of residue |
| C04 writeBits | `OutputModel.v`: state (bytes out, bit_pos, byte) | invariant: written bits = concatenation of encodings; induction over writes; then C01 |
| C05 writeInteger | same + `long2raw` | unsigned part proved; signed part refuted (offset binary is written) |
| C06 copies | same | induction on the chunk loop |
| C07 searchBytes | `StreamModel.v`: chunk loop with fuel | loop invariant: no occurrence ends before the buffer's last `len-1` bytes |
| C08 sub-stream | same | window equality; confinement refuted |
| C09 fragments | `FragmentModel.v` | invariant: fragment list is a prefix of the fragment sequence |
| C10 concat | same | case analysis on the join |
| C11/C12 pipe | `PipeModel.v`: source, blocks, LRU links | invariant over op list |
| C13 file view | `FragmentModel.v` | refinement to an abstract file |
| C14-C16 bits | `BitsModel.v` | induction on digits |
| C17 alignment | `ToolsModel.v` | `lia` with div/mod |
| C18 searches | same | fuel induction, interval invariant |
| C19 Dict | `DictModel.v` | refinement to an association list over op lists |
| C20-C25 field sets | `FieldModel.v`: a generator is a tree of events (field or exception) | invariant over op lists |
| C26 paths | `PathModel.v`: field trees | induction on depth |
| C27 gaps | `GapModel.v` | induction on the sorted block list |
| C28 static | `StaticModel.v` | induction on the format |
| C29 arrays | `FieldModel.v` | refuted for `len` after a miss; lookup part proved |
| C30 strings | `TextModel.v` | from C07; wide charsets refuted |
| C31/C32 editor | `EditModel.v`; documents as trees in `EditSpec.v` | one induction over edit histories, generic in the contents (bits, or bytes), instantiated twice; progress proved for bytes |
| C33/C34 regex, C53, C54 | `RegexModel.v`, `RegexTextModel.v`, `PatternModel.v`; languages in a spec file | structural induction on expressions |
| C35 Huffman | `HuffModel.v` | canonical code arithmetic |
| C36/C37 deflate | `DeflateModel.v`, RFC 1951 in `DeflateSpec.v` | induction over blocks and symbols; finite sweep of the constant tables |
| C38/C39, C56 metadata | `MetaModel.v` | invariant over insertions |
| C40 subfile | `SubfileModel.v` | refuted at a slice boundary; partial otherwise |
| C41, C49, C55 varints | `VarintModel.v` | round-trip |
| C42-C45, C51, C52 tools | `HumanModel.v`, `PrintModel.v`, `ToolsModel.v`, `TextModel.v` | arithmetic, list induction, exact rounding of doubles |
| C46 limits | `LimitModel.v` | case analysis; memory limit refuted |
| C47 compressed | `CompressModel.v` | refinement with an arbitrary decompressor obeying a contract |
| C48 LZW, C57 | `GifModel.v` | encoder/decoder simulation |
| C50 parser choice | `GuessModel.v` | induction over tags and parsers |
| C58, C59 OLE2 and FAT chains | `OleModel.v`; linked chains in `OleSpec.v` | induction on the fuel with the set of seen blocks; pigeonhole for termination |
| C60 charset guess | `guessBytesCharset` in `TextModel.v`, encodings in `TextSpec.v` | case analysis of UTF-8 sequences |
| C61-C65 padding, dates, addresses, run lists, cylinders | `ValueModel.v`; text forms and encodings in `ValueSpec.v` | local bit reads, then arithmetic; induction over the runs |
| C66 hachoir-strip | `StripModel.v`; RIFF trees, AU and AVI layouts in `StripSpec.v` | induction on the tree of chunks, on top of the editor's write lemmas |
| C67 torrent | `TorrentModel.v`; bencode and the layout of its fields in `TorrentSpec.v` | mutual induction on documents; converse by induction on the fuel |
| C68 tar | `TarModel.v`; ustar archives in `TarSpec.v` | induction over the files of the archive; induction on the fuel for any file |
| C69 ASN.1 | `AsnModel.v`; values and their encodings in `AsnSpec.v` | mutual induction on the encodings; induction on the fuel for any file |
| C70 RIFF | `TlvModel.v` (nested fields), `RiffModel.v`; chunks in `TlvSpec.v`, `RiffSpec.v` | mutual induction on the encodings; induction on the fuel for any file |
| C71 Matroska | `MkvModel.v` (tables transcribed, elements, file); elements in `MkvSpec.v` | instance of the nested fields of `TlvProofs.v` |
| C72 Matroska blocks | `BlockModel.v` (block, lace); lacings in `BlockSpec.v` | induction over the frames, with the numbers of C41 |
| C73 | Mp4Model: the atoms as an instance of the model of nested fields (TlvModel), with the places where an error deletes a list of unknown size; Mp4Spec: encodings of atoms; completeness by the generic induction over documents, and the generic theorem on any bytes |
| C74 | Mp4Model: the loops over numbers of fixed width; Mp4Spec: packed numbers as concatenated bit strings; induction over the numbers |
| C75 | GenModel: parsers as generators that use the values of the fields they yield, run by the field set; GzipModel; GzipSpec: the members of RFC 1952 as a record and its bytes; steps of the generator along the record, and an invariant of all generators |
| C76 | PngModel: chunks whose size and type are read before their fields; ItemSpec: tables of fields that give both the bytes and what must be shown; ItemProofs: generators that follow a table show it (induction on the derivation, with rules for loops); PngSpec: chunks as such tables |
| C77 | ZipModel: records found by a search of their headers, with optional parts chosen by flags; ItemProofs2: generators that follow a table found in the file, with the place of the table carried along; ZipSpec: records as tables; safety of every path for C77_any |
| C78 | OggModel: ogg.py as programs of fields, the lacing values with a code of their own; links between pages as a search over the pages shown. OggSpec: pages as records with their bytes. Proved by following the items of the pages; streams by induction over the pages left; the size of the contents from the proved search. |
| C79 | ArModel: ar.py as a program of fields, with str.split. ArSpec: members with the bytes of their headers. Proved by following the items of the members, a member and the empty line after it as turns of the loop. |
| C80 | Model of the BMP parser in the generator framework and of the extraction of metadata; the pictures of the format written as tables of fields | proof by the lemmas on generators that obey a table, by induction on lines, pixels and colors |
| C81 | Model of the GIF parser in the generator framework with loops without a condition, and of the extraction of metadata; the pictures of the format written as tables of fields | proof by the lemmas on generators that obey a table, by induction on blocks, with an invariant for the code of NETSCAPE2.0 |
| C82 | the generators of midi.py as programs of GenModel, with the previous command as the state of the loop; spec: Standard MIDI Files as events | proof: induction over the events with the invariant that the command remembered is the running status |
| C83 JPEG | the generators of jpeg.py as programs of GenModel with the frame and the interval as the state of the loop; metadata/jpeg.py on ExtractModel | a picture as a list of parts (T.81, JFIF), zigzag by diagonals, tables of annex K scaled as libjpeg does; induction over the parts, and over the coded data for its end; the 100 qualities by computation inside the kernel |
| C85 MPEG audio | mpeg_audio.py as programs of GenModel, with the search of the first frame; metadata/audio.py on ExtractModel with floats of FloatModel | a file as tags and frames (ISO 11172-3, 13818-3), sizes of frames from samples and rates; induction over the frames; the duration by bounds of the rounded quotients |
| C84 ID3 | the generators of id3.py as programs of GenModel, strings through TextModel (C30); readID3v2, processID3v2 and the ID3v1 part of extract on ExtractModel | a tag as a list of frames with contents (ID3 standard); programs that obey a list of items, by induction over the frames; the metadata by an invariant on the keys over the frames |
| C86 TGA, PCX, ICO | tga.py, pcx.py, ico.py as programs of GenModel; the extractors of metadata/image.py on ExtractModel | pictures as records written by a separate specification; induction over the icons, with their places; step lemmas for the metadata |
| C87 AU | au.py as a program of GenModel; AuMetadata on ExtractModel, durations as in C85 | a sound as a record written by a separate specification; step lemmas for the metadata, the duration by bounds of the rounded quotient |
| C88 AIFF | aiff.py as a program of GenModel, its ID3 chunks with C84; AiffMetadata on ExtractModel, the value of Float80 with the rounded operations of FloatModel | files as lists of chunks written by a separate specification; the parser shows each chunk and stops at its end, by induction on the chunks; the rate and bit rate are exact as the fractions are dyadic |
| C89 RealAudio | real_audio.py as a program of GenModel; RealAudioMetadata | sounds written by a separate specification; the parser shows each field and stops at its end; safety by the rules for any file |
| C90 Starfighter archives | prs_pak.py as a program of GenModel | archives written by a separate specification as lists of files; the loop of the parser shows each, by induction on the list; safety by the rules for any file |

## 4. Parts of the code that are modelled

The comment of each definition gives its file and lines; in short:

| model | source cited |
|---|---|
| `AiffMetaModel.v` | `aiff.py` 18-25; `audio.py` 25-31, 389-405; `enum.py` ; `float.py` 13-29, 48-71 |
| `AiffModel.v` | `aiff.py` 28-71, 75-104, 119-131; `float.py` 73-80 |
| `ArModel.v` | `ar.py` 11-24, 43-55 |
| `AsnModel.v` | `asn1.py` 103-176, 209-247, 256-304, 313-323; `generic_field_set.py` 185-202, 226-256 |
| `AuModel.v` | `au.py` 26-52, 57-88; `audio.py` 25-31, 145-157 |
| `BitsModel.v` | `bits.py` 10-248, 273-302; `endian.py` 5-8 |
| `BlockModel.v` | `byte_field.py` 23; `generic_field_set.py` 189-190; `mkv.py` 192-262; `ogg.py` 28-39 |
| `BmpModel.v` | `bmp.py` 20-40, 51-64, 75-134, 153-207; `common.py` 4-33, 42-51; `enum.py` 9-30; `generic_field_set.py` 414-440; `helper.py` 18-24; `image.py` 30-51; `vector.py` 6-26 |
| `CompressModel.v` | `bzip2_parser.py` 25-29; `deflate.py` 15-18; `png.py` 35-38; `sub_file.py` 35-63 |
| `DeflateModel.v` | `zlib.py` 18-24, 77-139, 145-294 |
| `DictModel.v` | `dict.py` 21-27, 33-76, 81-93, 107-178 |
| `EditModel.v` | `field.py` 29-35, 61-69; `fieldset.py` 13-19, 29-35, 46-61, 72-142, 162-167, 182-187, 197-223, 232-291, 325-331, 358-359; `generic_field_set.py` 215-232; `string_field.py` 40-110; `typed_field.py` 12-21, 45-55, 60-81, 86-113, 121-125, 129-155, 170-185, 215-241, 287-302 |
| `ExtractModel.v` | `image.py` 11-27; `metadata.py` 81-91, 317-335 |
| `FieldModel.v` | `basic_field_set.py` 117-123; `dict.py` ; `fake_array.py` ; `field.py` ; `generic_field_set.py` 125-139, 143-201, 215-258, 267-319, 345-362, 377-406; `parser.py` 16-31 |
| `FloatModel.v` |  |
| `FragmentModel.v` | `input.py` 43-91, 157-170, 506-577 |
| `GapModel.v` | `seekable_field_set.py` 7-24, 46-83 |
| `GenModel.v` | `basic_field_set.py` 65-69; `bit_field.py` 10-50; `byte_field.py` 19-28, 57-62; `field.py` 70; `generic_field_set.py` 126-196, 303-351; `integer.py` 10-49; `string_field.py` 100-172, 273-292 |
| `GifFileModel.v` | `fragment.py` 14-22, 29-40; `gif.py` 129-165, 180-288, 314-362; `image.py` 255-274; `tools.py` 119-161 |
| `GifModel.v` | `gif.py` 30-65, 74-128 |
| `GuessModel.v` | `guess.py` 17-34, 39-118; `parser.py` 31-44, 131-137; `parser_list.py` 11-83, 211-217 |
| `GzipModel.v` | `gzip_parser.py` 51-118 |
| `HuffModel.v` | `lzx.py` ; `zlib.py` 27-72 |
| `HumanModel.v` | `tools.py` 94-224, 244-248, 406-456, 474-553, 557-601, 625-639 |
| `Id3Model.v` | `id3.py` 173-211, 219-307, 350-371, 405-463, 472-481, 488-491, 497-528 |
| `JpegModel.v` | `common.py` 4-17, 42-44; `generic_field_set.py` 184-190, 203-213; `jpeg.py` 34-289, 376-461, 470-545, 568-649; `zlib.py` 30 |
| `LimitModel.v` | `memory.py` 53-69, 74-104; `timeout.py` 31-38, 46-54 |
| `MetaModel.v` | `config.py` ; `filter.py` 9-59; `metadata.py` 16-31, 36-46, 51-115, 120-237, 248-308, 317-335; `metadata_item.py` 5-6, 22-42, 47-139, 147-151; `register.py` 36-186; `setter.py` 132-178; `tools.py` 330-354 |
| `MidiModel.v` | `midi.py` 22-91, 95-133, 144-176, 185-202, 214-230, 246-270; `tracker.py` 5-9 |
| `MkvModel.v` | `byte_field.py` 23; `generic_field_set.py` 185-216; `integer.py` 16; `mkv.py` 63-191, 264-590, 610-635; `string_field.py` 139 |
| `Mp4Model.v` | `generic_field_set.py` 165-180, 185-217, 362-373; `mp4.py` 542-548, 1109-1276, 1291-1298, 1307-1338 |
| `MpegModel.v` | `audio.py` 14-24, 265-384; `helper.py` 58-72; `id3.py` 181-197, 213-216, 493-495; `metadata.py` 317-335; `mpeg_audio.py` 22-25, 30, 37-115, 128-212, 219-265, 311-420; `string_field.py` 193-209, 270-305; `tools.py` 227-247 |
| `OggModel.v` | `field.py` 118-129, 263-275; `link.py` 5-10, 71-76, 85-106; `ogg.py` 17, 28-58, 72-121, 125-262, 283-349, 365-367 |
| `OleModel.v` | `fat.py` 67-86, 343-360; `field.py` 240-241; `fragment.py` 15-21, 39-40; `ole2.py` 40-45, 156-168, 267-359, 375-385 |
| `OutputModel.v` | `config.py` 10; `output.py` 15-21, 36-147 |
| `PathModel.v` | `basic_field_set.py` 60; `field.py` 20-24, 190-201, 208-216, 223-263; `generic_field_set.py` 215-222 |
| `PatternModel.v` | `pattern.py` 75-142 |
| `PipeModel.v` | `input.py` 282-389 |
| `PngModel.v` | `common.py` 4-17; `fragment.py` ; `png.py` 25, 51-61, 70-77, 84-85, 96-100, 110-116, 126-129, 141-144, 155-180, 193-207, 212-245, 266-276, 286-294 |
| `PrintModel.v` | `tools.py` 250-354 |
| `PrsPakModel.v` | `prs_pak.py` 18-21, 41-51; `string_field.py` 285-289 |
| `RasterModel.v` | `enum.py` 9-30; `ico.py` 15-25, 31-45, 53-67, 97-146; `image.py` 96-118, 136-150, 277-287; `pcx.py` 25-73; `tga.py` 14-41, 52-70, 79-106; `win32.py` 164-178 |
| `RealMetaModel.v` | `audio.py` 161-209 |
| `RealModel.v` | `real_audio.py` 21-27, 43-85 |
| `RegexModel.v` | `regex.py` 41-63, 74-108, 116-128, 159-250, 262-269, 277, 283-317, 325, 331-336, 349-359, 364-420, 426-447, 464-467, 472-549, 581-636, 646-655, 660-666, 696-718, 727-752, 763-803, 821-871 |
| `RegexTextModel.v` | `parser.py` 15-64, 100-122, 127-204; `regex.py` 66-71, 130-136, 280, 297, 308, 319, 328, 361, 428-440, 449-458, 551-567, 657, 720-725, 873-889 |
| `RiffModel.v` | `riff.py` 16-229, 233-317, 343-356, 398-428, 456-458 |
| `StaticModel.v` | `basic_field_set.py` 36-39; `bit_field.py` 16-22; `byte_field.py` 19, 25; `character.py` 13-16; `float.py` 39, 44; `integer.py` 10, 19, 30-34; `padding.py` 17; `static_field_set.py` 19-39; `string_field.py` 402; `timestamp.py` 25-28 |
| `StreamModel.v` | `input.py` 172-178, 183-276, 425-438, 460-467, 472-485, 493-494, 599-619 |
| `StripModel.v` | `field.py` 37-39, 52-54; `integer.py` 20-22; `strip.py` 26-28, 40-44, 56-67, 79-81, 86-93, 98-103, 108-111, 116-122, 127-165, 174-176, 186-189; `typed_field.py` 38-42 |
| `SubfileModel.v` | `pattern.py` 25-28, 36-38, 110-117, 144-154; `search.py` 19-20, 41-58, 100-113, 126-142, 170-226 |
| `TarModel.v` | `byte_field.py` 24-25; `string_field.py` 294-299; `tar.py` 27-28, 37-64, 69-70, 74-88, 112-140 |
| `TextModel.v` | `i18n.py` 80-135; `string_field.py` 37-38, 72-109, 116-227, 234-263, 270-305 |
| `TlvModel.v` | `generic_field_set.py` 185-202, 226-256 |
| `ToolsModel.v` | `tools.py` 41-77, 357-403 |
| `TorrentModel.v` | `field.py` 118-129; `torrent.py` 23-93, 98-103, 108-117, 134-137, 143-158, 178-179 |
| `ValueModel.v` | `common.py` 38-40, 51-59, 117-119; `fat.py` 90-137; `mbr.py` 26-34, 145-146; `ntfs.py` 97-127, 131-146; `padding.py` 27-45, 87-112; `timestamp.py` 48-72, 78-89; `win32.py` 114-115, 141-148 |
| `VarintModel.v` | `asn1.py` 63-77, 82-100; `bzip2_parser.py` 36-54, 60-61, 112-116, 151-181; `git_pack.py` 69-103, 115-131; `midi.py` 24-39; `mkv.py` 26-34, 45-50, 55-60; `ogg.py` 28-39; `sevenzip.py` 38-53 |
| `ZipModel.v` | `timestamp.py` 45-60; `zip.py` 21, 53-116, 147-205, 211-259, 266-314, 320-341, 400-481 |

Not modelled: the individual parsers under `parser/` (except the parts listed
above), the metadata extractors under `metadata/` other than the framework, the
user interfaces (`wx/`, `urwid_ui.py`, command lines), the logger, subtitles and
`EditableFloat`, `NewFieldSet` and the renaming of `name[]` in the editor.

Not expressible in a model here: wall-clock behaviour of timeouts, memory use,
weak-reference lifetime, console output formatting of logs, and the behaviour
of external decompressors (they appear as parameters with a stated contract).

## 5. Findings: where the code does not do what a user expects

Each line is a theorem with a concrete witness.

* `C88_size_refuted`: FINDING: the size of the content is told without the first eight bytes of the file ("FORM" and the size itself, which the size in the file does not count): it is eight bytes short for every file, so a tool that carves files by their content size cuts the last eight bytes of the sound.
* `C88_padding_refuted`: FINDING: the byte that follows a sound of an odd number of bytes is shown as a part of the sound, and the fields of the chunk end with an error as the parser looks for this byte after it.
* `C88_marker_refuted`: FINDING: the number of the marker of a comment is read as the high half of the length of its text. The comment "Hi" of the marker 1 is not shown: the text of 65538 bytes does not fit.
* `C79_large_refuted`
* `C69_set_refuted`: Only the first element of a set is shown, whatever follows it: readSet yields one object (asn1.py:108-109).
* `C69_oid_refuted`: The first two arcs of 2.40 to 2.47 share one byte, 120 and more, which is shown as 3.0 to 3.7: formatFirstObjectID divides it by 40 (asn1.py:173-176). For 2.48 and more, they take several bytes and the first one alone is taken for both arcs.
* `C87_unknown_refuted`: When the size is not told (2^32 - 1), the size of the content is more than 4 gigabytes, whatever the file (au.py:90-91), though the sound is shown up to the end of the file.
* `C72_single_refuted`: Matroska allows the EBML lacing of one frame, which has no sizes at all; the parser reads a size nevertheless, so that it never shows this frame.
* `C72_empty_refuted`: An empty frame is allowed by lacing; the parser shows no frame from it on.
* `C80_version5_refuted`: A header of an unknown size, as those of Windows 98 (124 bytes) and of OS/2 2 (64 bytes): the file is not refused with a reason: validate asks for a field of the file that is in its header, and raises MissingField (bmp.py:167).
* `C80_dpi_refuted`: The resolution is stored in pixels per metre, and is given as a number of dots per inch (image.py:46-47): a picture of 72 dots per inch is said to have 2835, and one of 300 dots per inch (11811 pixels per metre) to have none.
* `C80_colours_refuted`: The colors are stored as blue, green and red, in pixels of 24 bits and in palettes; the first byte is shown as the red one and the third as the blue one (common.py:4-33).
* `C80_nibbles_refuted`
* `C80_core_refuted`: The header of OS/2 has a width and a height of 16 bits each; they are read as 32 bits, and the number of planes is taken after the header, from the palette or the pixels: the picture is refused unless these bytes are 1 and 0 (bmp.py:82-90, 162-169).
* `C80_topdown_refuted`
* `C60_latin1_refuted`: Without that hypothesis it is false: "é©®" in ISO-8859-1 is also a valid UTF-8 text of one letter.
* `C60_utf32_refuted`: A byte-order mark of UTF-32 is taken for one of UTF-16.
* `C31_signed_refuted`: A signed integer is not stored in two's complement: 5 is written as 133, and read back as -123.
* `C32_signed_size_refuted`: A signed 8-bit integer accepts 200, and is then written on two bytes: the size announced is not the size written.
* `C31_pascal_refuted`: A Pascal string, and a character, can be assigned but not written.
* `C31_character_refuted`
* `C31_inserted_bytes_refuted`: Bytes that are inserted cannot be written; inserted under the name of a deleted field, it is the deleted content that is written.
* `C31_unaligned_refuted`: A field of whole bytes that is copied or written after a field of some bits cannot be written.
* `C31_large_unaligned_refuted`: A field of more than 256 bits that is not aligned cannot be copied.
* `C32_delete_refuted`: Deleting a name that does not exist is accepted and makes [len] wrong.
* `C31_insert_lost_refuted`: Of two fields inserted after the same field, the first one is lost, and [insertBefore("")] loses its field while counting it.
* `C32_insert_before_nothing_refuted`
* `C31_insert_order_refuted`: A field inserted after [h] is put before [h] when something was inserted before [h]; several fields appended by a second [insert] are reversed; and nothing can be inserted after the last field.
* `C31_integer_size_refuted`: Integers of 24 and 64 bits cannot be assigned.
* `C20_clash_refuted`
* `C21_missing_refuted`: A by-name question may wrongly be answered "missing" the first time: the field added by autofix at the end, and a field whose addition ends the parsing, are there but not returned.
* `C21_iteration_refuted`: Likewise a loop on the fields skips a field whose addition ends the parsing.
* `C22_cover_refuted`
* `C24_negative_refuted`: A negative address is not refused: the first field is answered.
* `C25_atomic_refuted`: With several new fields, a clash on the second one leaves the set half replaced: field "b" is gone and 12 bits are in no field.
* `C29_len_refuted`: Otherwise len() is wrong: the miss is taken for the end of the array.
* `C26_path_refuted`: Names are not checked: a field named "a/b" cannot be reached by its path, and the path of a field named "." is another field.
* `C27_window_refuted`: A block after the window makes a gap leave it.
* `C27_maximal_refuted`: An empty block (an empty field is allowed in a seekable set) cuts a gap in two.
* `C27_empty_refuted`: A seekable set without any field is not repaired: max() of nothing raises.
* `C28_redefinition_refuted`: A class that replaces an inherited format: once its base was instantiated, a class containing it gets a wrong size (24 instead of 32).
* `C28_leaf_refuted`: static_size of a GenericInteger is its [signed] argument, and a timestamp cannot be in a format at all.
* `C48_full_refuted`: GIF codes have at most 12 bits and a full table is just used as it is. The decoder goes on to 13 bits: if the first code after the table filled up is followed by a 1 bit, that bit is taken as part of the code.
* `C48_reset_refuted`: When the next free code is a power of two, the width has just grown and a reset code is ambiguous. One written on the new width is taken to be one bit shorter, so that the codes after it are shifted.
* `C81_content_size_refuted`: A picture that ends after its first image, as most of them do: the null byte is the last one of the image, and the search starts after it (gif.py:355-362): the size of the content is not known.
* `C81_transparency_refuted`: A picture with a transparent color is given the same pixel format as one without: the extractor asks for graphic_ctl/has_transp, and the extensions are numbered: graphic_ctl[0] (image.py:268).
* `C81_delay_refuted`: The delay is stored in hundredths of a second, and is shown as a number of milliseconds (gif.py:208): a second is shown as 100 ms.
* `C81_description_refuted`: An extension with a code that is not known has no description: the field "func" that it asks for does not exist (gif.py:268-269).
* `C81_netscape_refuted`: When an extension of NETSCAPE2.0 has several blocks of three bytes, the code of the first one is used for all (gif.py:189): the size of a buffer, of code 2, is shown as a number of loops.
* `C56_id_refuted`: "An identifier has only lower case letters, digits and underscores" fails: the dollar of the regular expression accepts a newline at the end.
* `C50_id_refuted`: "A parser is only given if it validated the stream, or was asked for by name" fails: an identifier nobody has turns the validation off for all parsers.
* `C50_class_refuted`: "No parser is tried twice" fails when the query names a class: it stays among the others.
* `C50_cache_refuted`: "The answer does not depend on earlier queries" fails: the parser remembered by the stream is given although another one comes first and validates.
* `C75_extra_refuted`: A file whose extra field is empty, which RFC 1952 allows, is shown up to the length of this field: neither the name, nor the contents, nor the size of the file are shown (gzip_parser.py:91-93 makes a RawBytes field of no byte, which raises).
* `C75_two_refuted`
* `C43_exact_refuted`: The timestamp of the documentation itself is one microsecond off.
* `C43_distinct_refuted`: Two distinct timestamps, 3 microseconds apart, give the same date.
* `C52_backslash_refuted`: Backslashes are not escaped: two different texts print alike.
* `C52_c1_refuted`: The control characters U+0080..U+009F are printed as they are.
* `C84_genre_refuted`: A tag of version 1.1 whose genre is number 32 (Classical) is taken for one without a genre: its track number and its genre are not told (id3.py:200-211).
* `C84_track_refuted`: A comment of 30 bytes, in a tag without a track number, is cut: its last character is told as a track number (id3.py:188-192: the zero before a track number is not looked for).
* `C84_picture_refuted`: The type of a picture is ISO-8859-1 whatever the charset of its description; it is read with this charset: a picture with an UTF-16 description is not shown (id3.py:362-368).
* `C84_flags_refuted`: The flags of the frames of version 2.4 (0abc0000 0h00kmnp) are read with the layout of version 2.3: the flag that the frame goes when the tag is changed is shown as the one for changes of the file, and a compressed frame is not shown as compressed (id3.py:434-442).
* `C84_title_refuted`: The end of an UTF-16 title is the first two zeros side by side, even when they belong to two characters: here the title is U+0100 U+0041, and the text of the comment is not shown (string_field.py).
* `C84_padding_refuted`: Zeros after the frames that are fewer than the bytes of a frame header end the tag with an error.
* `C36_offset_refuted`: An offset beyond the data is not refused: fewer bytes are appended.
* `C51_stored_refuted`: The full statement is false of the code, in three ways. 1. The data of stored blocks is dropped.
* `C51_crossing_refuted`
* `C51_repeat_refuted`
* `C83_unknown_refuted`: Pictures whose first or second segment is APP3 to APP11, APP15 or reserved are refused: only the types with a name are accepted there (jpeg.py:574-580).
* `C83_content_size_refuted`
* `C83_thumbnail_refuted`: JFIF thumbnails are red, green and blue bytes of pixels; the parser wants 256 colors and then a byte for each pixel (jpeg.py:118-123): a thumbnail of one pixel is shown as a palette, and no data.
* `C83_scan_refuted`: A scan of the second component alone, as in most progressive pictures: the parser wants the number of the component not to be more than the number of components of the scan (jpeg.py:208-211), and shows only this number.
* `C83_fill_refuted`: Fill bytes, which T.81 (B.1.1.2) allows before any marker: the parser takes the second 0xFF for the type of a segment (jpeg.py:514-528), and all that follows is taken for its data.
* `C83_tem_refuted`: The marker TEM (0xFF01) has no size; the parser takes the marker after it for one.
* `C83_dpi_refuted`: The units 2 are dots per centimeter (JFIF 1.02): 118 dots per centimeter, which are 300 dots per inch, are told as 118 dots per inch (metadata/jpeg.py:172-174).
* `C46_time_alarm_refuted`: "The previous alarm is restored" fails: it is cancelled. A limitedTime inside another one takes the outer limit away.
* `C46_memory_refuted`: "The previous limit is restored" fails for every previous limit: it is taken for a number of pages and multiplied by their size.
* `C47_bzip2_refuted`: "Bzip2 data can be read" fails: the first read passes the default data '', a text, to the decompressor, which raises TypeError.
* `C38_last_day_refuted`: "Years up to 2030" fails on the last day of 2030, for a date with a time.
* `C38_nan_refuted`: NaN passes every filter, and is stored as many times as it is assigned.
* `C38_prefix_refuted`: A text that begins another one is lost, even when both were meant.
* `C39_str_refuted`: str() of an empty metadata raises TypeError.
* `C39_newline_refuted`: A text with a newline forges a line: two metadata with different values have the same str().
* `C39_dictionary_refuted`: The first of two values is not in the dictionary.
* `C39_group_key_refuted`: A group named "k[1]" by the caller makes the next "k[]" fail.
* `C39_group_dictionary_refuted`: Two groups with the same header: the dictionary keeps the second one only.
* `C82_content_size_missing_refuted`: A header that counts no track, or more tracks than there are: asking for the size of the content raises MissingField (midi.py:263-264).
* `C82_sysex_refuted`: The standard has events with the status 0xF0 and 0xF7 (system exclusive messages); the parser knows none of the commands from 0xF0 to 0xFE (midi.py:170-173): the events after the first one of them are not shown, though the track is one of the format, and the command where it stopped is not shown either. The other tracks are shown.
* `C82_notes_refuted`: The table of names has "G#" twice (tracker.py:5): the notes A, A# and B of each octave are shown with the name of the note below.
* `C71_live_refuted`: In a segment of unknown size, what follows is shown up to the first cluster of unknown size, as written by programs that record or broadcast: it is refused, and the rest of the file is not shown (mkv.py:576-578).
* `C71_nested_refuted`: A chapter inside a chapter, or a tag inside a tag, which the format allows, is shown as an unknown element: the tables do not refer to themselves (mkv.py:288-321).
* `C71_missing_refuted`: Tags inside tags, chapters inside chapters and the flag of default languages (0x4484) are in the format and are shown as unknown elements (mkv.py: their tables lack them).
* `C73_wide_refuted`: A file whose first atom has a size of 64 bits is refused, although the parser shows such atoms everywhere.
* `C73_mvex_refuted`: The boxes of fragmented movies that say so, "mvex" with "trex", hold boxes and are shown as bytes (mp4.py:1110-1247 does not have them).
* `C73_meta_refuted`: Metadata whose atoms are followed by one to three bytes, for instance a 4-byte terminator cut short, shows none of its atoms: the list has no size of its own, and the error on its last atom deletes all of it.
* `C85_duration_refuted`
* `C85_padding_refuted`: The size of the content is counted from the start of the frames as if the first one were there: when bytes come before it, the content is cut after one frame.
* `C55_offset_refuted`: An OBJ_OFS_DELTA offset is read with the encoding of sizes: the offset 128 is shown as 0.
* `C55_copy_refuted`: A copy instruction with several bytes of offset shows them in the wrong order.
* `C55_size_refuted`: No size byte means 65536 bytes; 0 is shown.
* `C78_description_refuted`: The description tells no format, of any file: the headers are looked for among the fields of the page, but are among its segments (ogg.py:310-313).
* `C78_packets_refuted`: The packets: the list of packets of a logical stream always ends with an error, whatever the file: after the first page, the code asks for an attribute that no field has ([fragment.__next__], ogg.py:181; the links are called [next]).
* `C78_content_size_refuted`
* `C78_empty_refuted`
* `C78_data_refuted`: The data of a stream stop at the first page without data, of this stream or of another one (ogg.py:205-217: a page without segments ends the search of the next fragment): here the three bytes of the last page are lost.
* `C58_sectors_refuted`: The blocks of a file of version 4 are of 4096 bytes and block b is at (b+1)*4096, since the header takes a whole sector (MS-CFB 2.2). The parser looks 3584 bytes before.
* `C58_content_size_refuted`: ... but not a chain of one block after them: a file of two one-block streams is cut after the first one.
* `C59_clusters_refuted`: The data of a file cannot be found: the first entry is looked up with a float, so a file that has a first cluster ends with a TypeError.
* `C76_content_size_refuted`: A file whose text holds the twelve bytes that end PNG files is said to end inside this text: its contents are cut before the image (png.py:290 looks for these bytes anywhere).
* `C76_gray_refuted`: The background of a gray picture is one number (RFC 2083, 4.2.1): the parser shows the checksum of the chunk as two other colours, and no checksum (png.py:141-144 always reads three numbers).
* `C76_empty_refuted`: When the first chunk of image data is empty, the others are shown neither as image data nor with their checksums (png.py:167 looks for the data of the first chunk).
* `C76_text_refuted`: A text of 65536 bytes is not shown, nor its checksum: strings are at most 65535 bytes long (string_field.py:142).
* `C90_empty_refuted`: An archive in which an empty file comes before other files is shown up to that file only: neither it nor any file after it is shown.
* `C86_tga_lines_refuted`: The pixels of a Targa picture that is not compressed are meant to be shown line by line (tga.py:101-103): the test is made on the field, and not on its value, and is never true. They are shown as bytes, whatever the kind of the image, and no rate of compression is told.
* `C86_tga_map_refuted`: The map of colors of a Targa picture has the number of colors told by the file: it is read as if it had one for each value of a pixel (tga.py:98-100). The map of 2 colors of this picture is shown with the 4 pixels inside, and the palette ends with an error.
* `C86_pcx_width_refuted`: The picture of a PCX file goes from its first column to its last one: the first one is not used, and a picture of one column is told to have as many as the last one and those before it (image.py:137-138).
* `C86_pcx_marker_refuted`: The 256 colors at the end of a PCX file are preceded by a byte, 12, that tells that they are there: it is shown as the last byte of the pixels (pcx.py:66-73).
* `C86_ico_mono_refuted`: Icons of two colors, and every icon of a number of colors other than 0 and 16, make the file refused (ico.py:31-45), though their depth is known to the extractor of metadata (image.py:104-110).
* `C86_ico_256_refuted`: The width and the height of an icon of 256 pixels are stored as 0: none is told.
* `C86_ico_png_refuted`: An icon stored as a PNG picture is shown as a bitmap, whose width is the end of the signature of PNG (ico.py:53-67).
* `C33_excluded_refuted`: The union of two excluded ranges is the exclusion of both: [^ab]|[^ac] gives [^a-c].
* `C33_dot_refuted`: A dot absorbs a newline it does not match: .|\n gives .
* `C33_repeat_refuted`: Repetitions of repetitions: (a{2})* gives a*, which also matches "a".
* `C33_repeat_or_refuted`: (a{2,}|b)+ gives (aa|b)+, which does not match "aaa".
* `C33_refused_refuted`: (a?|b)* is refused although it is a proper expression, and (a{1,2}){0,0} becomes a* instead of being refused.
* `C33_operand_refuted`: a & b may change the operand a: after x = .a and y = x & "b", x is .ab; and x & x reads the items it is replacing: a.b & itself gives a.ba.ba...
* `C34_raises_refuted`: (a* )? has no longest match; asking raises TypeError instead of giving None.
* `C53_range_refuted`: Ranges that are not escaped: [^a] for a range of ^ and a, [\d] for \ and d, [,-a] for a comma, a dash and a.
* `C53_repeat_refuted`: A repetition of a repetition is not bracketed: RegexRepeat(a{2}, 0, 1) is "a{2}?", which Python's re module reads as a lazy a{2}.
* `C53_terminates_refuted`: An alternative that ends the text is read for ever: _parse answers index 0 at the end of the text, so parse("(a|") starts again, whatever the number of turns.
* `C54_prefix_refuted`: The item given for a match may be one that matches only its beginning: with the regexes "a" and "ab", a match "ab" is given to "a".
* `C70_last_refuted`: A list whose last chunk is empty does not show it: the loop stops when eight bytes remain (riff.py:285).
* `C01_negative_address_refuted`: Full statement "raises ReadStreamError exactly when the addressed bytes are not all inside" is false for negative addresses: they index from the end.
* `C04_writeBit_refuted`
* `C05_writeInteger_signed_refuted`
* `C06_long_unaligned_refuted`: Longer unaligned copies are refused (AssertionError), so "appends exactly the addressed bits" fails for them.
* `C08_confinement_refuted`: "Reads that leave the window fail" is false: only the parent's end is checked.
* `C11_pipe_size_refuted`: ... but not otherwise: a second read past the end announces a size that counts the last, short block as a full one.
* `C19_replace_clash_refuted`: After replacing key [2] by the existing key [1], deleting the second item leaves an item that no key can reach.
* `C66_flag_only_refuted`: An AVI file that has no index, but whose header announces one, keeps this flag: a file is only written when something was removed.
* `C66_png_text_refuted`: The metadata of a PNG file that are compressed (zTXt, named "comp_text[]") or in UTF-8 (iTXt, named "utf8_text[]") are kept, at every level.
* `C66_jpeg_xmp_refuted`: The metadata of a JPEG file that are in an APP1 chunk which is not EXIF (XMP, named "chunk[]") or in an APP12 chunk are kept, at every level.
* `C66_tar_refuted`: A TAR archive cannot be stripped: the owner is given as a text, and the editor wants bytes.
* `C40_slices_refuted`
* `C40_overlap_refuted`: ... for a magic that overlaps the one before
* `C40_same_magic_refuted`: ... and for the second parser with the same magic: the text is loaded once.
* `C40_unaligned_refuted`: "The search goes on after each file" fails if a file asks to skip its content, whose size is not a number of bytes, beyond the slice.
* `C40_optional_refuted`: "Loading the parsers first is optional" fails.
* `C68_content_size_refuted`: The content size counts one of the two null blocks at the end of an archive: the file that hachoir-subfile cuts out has one block less.
* `C68_large_refuted`: The size of a large file is in binary, after a byte 128: it is read as 0, the content is not shown, and its blocks are shown as other entries.
* `C68_prefix_refuted`: The content of a file with a prefix is given its name without the prefix.
* `C30_straddle_refuted`: The full statement is false for wide charsets: a text with two characters such as U+0041 U+0100 is cut.
* `C30_line_endian_refuted`: A line of UTF-16-LE text in a big endian parser may not be ended by its newline: the terminator is chosen with the endian of the parser.
* `C30_pascal_bom_refuted`: The byte-order mark of a Pascal string is looked for at the prefix: every Pascal string with a byte-order mark is misread.
* `C67_long_refuted`: Documents with a string of a million bytes or more (the hashes of 50000 pieces) or a number of more than 21 characters are not shown: the parser refuses them.
* `C67_names_refuted`: Two keys of a dictionary may be given the same name, as spaces become "_": the second item then has another name than its key (C23).
* `C61_large_refuted`: So a field of null bytes is shown as "<null>" although its byte 4096 is not null.
* `C61_empty_refuted`: An empty pattern is compared for ever.
* `C61_bits_refuted`: Of a larger one only the first 128 bits.
* `C62_null_refuted`: No date (all bytes null, as in many archives) is shown as the first of January 1980.
* `C63_ipv6_refuted`: In a little-endian field set the address is shown backwards.
* `C63_version_refuted`: ... but in big endian another digit of it is taken for the version, and in little endian the variant is read in the low bits of its byte instead of the high ones.
* `C64_sparse_refuted`: A hole (a sparse run has no offset) is given the clusters of the run before it.
* `C77_method_refuted`: Archives whose first file is compressed with one of the newer methods are refused (zip.py:24-46, 320-323).
* `C77_suffix_refuted`: For every such archive, asking for the suffix of file names raises MissingField: the field "compressed_data" is asked for, and the field of contents that are not compressed is named "data" (zip.py:470, 266-275).
* `C77_streamed_refuted`: An archive written as a stream: the lengths and the checksum of a file are zero in its header and follow its contents, as the flags say (APPNOTE.TXT, 4.3.9). The first twelve bytes of the contents are then shown as the lengths and the checksum, and no field has the contents (zip.py:308-314).
* `C77_comment_refuted`: For every archive with a comment, the size of the contents is less than that of the archive: the comment is not counted (zip.py:475-481).
* `C77_zip64_refuted`
* `C77_noname_refuted`

## 6. Print Assumptions

`PropertiesAiff.v` (6 theorems, all "Closed under the global context"): `C88_file`, `C88_any`, `C88_valid`, `C88_size_refuted`, `C88_padding_refuted`, `C88_marker_refuted`.

`PropertiesAiffMeta.v` (1 theorems, all "Closed under the global context"): `C88_metadata`.

`PropertiesAr.v` (6 theorems, all "Closed under the global context"): `C79_members`, `C79_prefix`, `C79_any`, `C79_valid`, `C79_description`, `C79_large_refuted`.

`PropertiesAsn.v` (6 theorems, all "Closed under the global context"): `C69_values`, `C69_valid`, `C69_trailing`, `C69_any`, `C69_set_refuted`, `C69_oid_refuted`.

`PropertiesAu.v` (6 theorems, all "Closed under the global context"): `C87_file`, `C87_unknown`, `C87_any`, `C87_valid`, `C87_unknown_refuted`, `C87_metadata`.

`PropertiesBits.v` (22 theorems, all "Closed under the global context"): `C14_long2raw`, `C14_raw_roundtrip`, `C14_negative`, `C14_middle`, `C15_long2bin_layout`, `C15_bin2long_long2bin`, `C15_byte2bin`, `C15_str2bin`, `C15_str2hex_decodes`, `C15_str2hex_injective`, `C15_countBits`, `C16_strswapmid`, `C16_strswapmid_odd`, `C16_swap16`, `C16_swap32`, `C16_swap16_involutive`, `C16_swap32_involutive`, `C17_paddingSize`, `C17_alignValue`, `C17_align_is_padding`, `C18_binarySearch`, `C18_lowerBound`.

`PropertiesBlock.v` (5 theorems, all "Closed under the global context"): `C72_blocks`, `C72_content`, `C72_any`, `C72_single_refuted`, `C72_empty_refuted`.

`PropertiesBmp.v` (12 theorems, all "Closed under the global context"): `C80_file`, `C80_any`, `C80_valid`, `C80_version5_refuted`, `C80_description`, `C80_content_size`, `C80_metadata`, `C80_dpi_refuted`, `C80_colours_refuted`, `C80_nibbles_refuted`, `C80_core_refuted`, `C80_topdown_refuted`.

`PropertiesCharset.v` (8 theorems, all "Closed under the global context"): `C60_ascii`, `C60_utf8`, `C60_valid`, `C60_utf16`, `C60_latin1`, `C60_latin1_refuted`, `C60_other`, `C60_utf32_refuted`.

`PropertiesEdit.v` (20 theorems, all "Closed under the global context"): `C31_unmodified`, `C31_edited_bytes`, `C31_edited_bits`, `C31_unedited_kept`, `C31_field_content`, `C31_accepted_fits`, `C32_bytes`, `C32_bits`, `C31_signed_refuted`, `C32_signed_size_refuted`, `C31_pascal_refuted`, `C31_character_refuted`, `C31_inserted_bytes_refuted`, `C31_unaligned_refuted`, `C31_large_unaligned_refuted`, `C32_delete_refuted`, `C31_insert_lost_refuted`, `C32_insert_before_nothing_refuted`, `C31_insert_order_refuted`, `C31_integer_size_refuted`.

`PropertiesFields.v` (23 theorems, all "Closed under the global context"): `C20_names_and_sizes`, `C20_tiling_partial`, `C20_clash_refuted`, `C21_order_independence`, `C21_same_answers`, `C21_same_named_field`, `C21_same_field_seen`, `C21_missing_refuted`, `C21_iteration_refuted`, `C22_feeding_ends`, `C22_cover_partial`, `C22_cover_refuted`, `C23_array_names`, `C24_by_address`, `C24_negative_refuted`, `C25_replace`, `C25_replace_accepts`, `C25_write`, `C25_rejected_partial`, `C25_atomic_refuted`, `C29_items`, `C29_len_partial`, `C29_len_refuted`.

`PropertiesFields2.v` (18 theorems, all "Closed under the global context"): `C26_path_partial`, `C26_relative_partial`, `C26_dots`, `C26_valid`, `C26_join_path`, `C26_absolute_address`, `C26_extent_partial`, `C26_path_refuted`, `C27_gaps_exact_partial`, `C27_gaps_maximal_partial`, `C27_gaps_general`, `C27_window_refuted`, `C27_maximal_refuted`, `C27_repair`, `C27_empty_refuted`, `C28_static_size_partial`, `C28_redefinition_refuted`, `C28_leaf_refuted`.

`PropertiesGif.v` (8 theorems, all "Closed under the global context"): `C48_any`, `C48_decode`, `C48_greedy`, `C48_full_refuted`, `C48_reset_refuted`, `C48_old_reset`, `C57_eval`, `C57_injective`.

`PropertiesGifFile.v` (12 theorems, all "Closed under the global context"): `C81_file`, `C81_any`, `C81_valid`, `C81_stream`, `C81_content_size`, `C81_content_size_le`, `C81_content_size_refuted`, `C81_metadata`, `C81_transparency_refuted`, `C81_delay_refuted`, `C81_description_refuted`, `C81_netscape_refuted`.

`PropertiesGuess.v` (17 theorems, all "Closed under the global context"): `C56_lookup`, `C56_unique_id`, `C56_refused`, `C56_accepted`, `C56_id_refuted`, `C56_id_partial`, `C56_inherit`, `C56_construct`, `C50_order`, `C50_first`, `C50_fallback`, `C50_choice`, `C50_again`, `C50_id_refuted`, `C50_class_refuted`, `C50_cache_refuted`, `C50_extension`.

`PropertiesGzip.v` (5 theorems, all "Closed under the global context"): `C75_members`, `C75_valid`, `C75_any`, `C75_extra_refuted`, `C75_two_refuted`.

`PropertiesHuman.v` (26 theorems, all "Closed under the global context"): `C42_filesize_partial`, `C42_bitsize_partial`, `C42_duration`, `C42_unique`, `C42_nanosec`, `C43_unix`, `C43_mac`, `C43_win64_partial`, `C43_uuid60_partial`, `C43_duration_partial`, `C43_millis`, `C43_exact_refuted`, `C43_distinct_refuted`, `C44_text`, `C44_injective`, `C44_text_injective`, `C45_newlines`, `C45_clean`, `C45_fixed_points`, `C45_idempotent`, `C52_printable`, `C52_literal_partial`, `C52_unicode_partial`, `C52_unique`, `C52_backslash_refuted`, `C52_c1_refuted`.

`PropertiesId3.v` (10 theorems, all "Closed under the global context"): `C84_id3v2`, `C84_id3v1`, `C84_metadata_v1`, `C84_metadata_v2`, `C84_genre_refuted`, `C84_track_refuted`, `C84_picture_refuted`, `C84_flags_refuted`, `C84_title_refuted`, `C84_padding_refuted`.

`PropertiesInflate.v` (19 theorems, all "Closed under the global context"): `C35_canonical`, `C35_every_symbol`, `C35_code_fits`, `C35_prefix_free`, `C35_decode`, `C35_decode_sound`, `C35_fixed`, `C35_empty`, `C36_copy_partial`, `C36_unique`, `C36_offset_refuted`, `C37_tables`, `C37_cover`, `C37_unique`, `C51_inflate_partial`, `C51_ends`, `C51_stored_refuted`, `C51_crossing_refuted`, `C51_repeat_refuted`.

`PropertiesJpeg.v` (17 theorems, all "Closed under the global context"): `C83_file`, `C83_prefix`, `C83_any`, `C83_valid`, `C83_description`, `C83_content_size`, `C83_content_size_le`, `C83_quality`, `C83_quality_gray`, `C83_metadata`, `C83_quality_comment`, `C83_unknown_refuted`, `C83_content_size_refuted`, `C83_thumbnail_refuted`, `C83_scan_refuted`, `C83_fill_refuted`, `C83_tem_refuted`.

`PropertiesJpeg2.v` (4 theorems, all "Closed under the global context"): `C83_nearest`, `C83_thumbnail`, `C83_jfif`, `C83_dpi_refuted`.

`PropertiesLimits.v` (9 theorems, all "Closed under the global context"): `C46_time_handler`, `C46_time_call`, `C46_time_alarm_partial`, `C46_time_alarm_refuted`, `C46_memory_partial`, `C46_memory_refuted`, `C47_reads`, `C47_deflate`, `C47_bzip2_refuted`.

`PropertiesMeta.v` (25 theorems, all "Closed under the global context"): `C38_root`, `C38_minimal`, `C38_minimal_kept`, `C38_grows`, `C38_kept`, `C38_sound`, `C38_range_partial`, `C38_int_range`, `C38_duration_range`, `C38_date_range`, `C38_last_day_refuted`, `C38_get`, `C38_nan_refuted`, `C38_prefix_refuted`, `C38_track`, `C39_lines`, `C39_order`, `C39_str_refuted`, `C39_newline_refuted`, `C39_dictionary_partial`, `C39_dictionary_refuted`, `C39_groups`, `C39_group_lines`, `C39_group_key_refuted`, `C39_group_dictionary_refuted`.

`PropertiesMidi.v` (15 theorems, all "Closed under the global context"): `C82_file`, `C82_valid`, `C82_invalid`, `C82_description`, `C82_integer`, `C82_integer_value`, `C82_integer_long`, `C82_any`, `C82_content_size`, `C82_content_size_le`, `C82_content_size_missing_refuted`, `C82_sysex_refuted`, `C82_notes`, `C82_notes_refuted`, `C82_last_notes`.

`PropertiesMkv.v` (10 theorems, all "Closed under the global context"): `C71_elements`, `C71_valid`, `C71_content_size`, `C71_unknown`, `C71_any`, `C71_live_refuted`, `C71_nested_refuted`, `C71_tables`, `C71_identifiers`, `C71_missing_refuted`.

`PropertiesMp4.v` (11 theorems, all "Closed under the global context"): `C73_atoms`, `C73_open`, `C73_any`, `C73_valid`, `C73_wide_refuted`, `C73_mime`, `C73_registry`, `C73_mvex_refuted`, `C73_meta_refuted`, `C74_tables`, `C74_any`.

`PropertiesMpeg.v` (8 theorems, all "Closed under the global context"): `C85_file`, `C85_any`, `C85_valid`, `C85_description`, `C85_metadata`, `C85_content_size`, `C85_duration_refuted`, `C85_padding_refuted`.

`PropertiesNumbers.v` (25 theorems, all "Closed under the global context"): `C41_midi`, `C41_midi_any`, `C41_asn_length`, `C41_oid`, `C41_oid_any`, `C41_ebml`, `C41_ebml_signed`, `C41_ebml_zero`, `C41_sevenzip`, `C41_xiph`, `C41_git_size`, `C41_git_object`, `C41_unary`, `C41_ends`, `C49_move`, `C49_table`, `C49_round_trip`, `C49_onto`, `C49_block`, `C49_coded`, `C55_offset_refuted`, `C55_offset_partial`, `C55_copy_refuted`, `C55_size_refuted`, `C55_copy_partial`.

`PropertiesOgg.v` (15 theorems, all "Closed under the global context"): `C78_pages`, `C78_prefix`, `C78_any`, `C78_valid`, `C78_signature`, `C78_content_size`, `C78_no_content_size`, `C78_mime`, `C78_description_refuted`, `C78_data`, `C78_packets_refuted`, `C78_packets`, `C78_content_size_refuted`, `C78_empty_refuted`, `C78_data_refuted`.

`PropertiesOle.v` (11 theorems, all "Closed under the global context"): `C58_any`, `C58_chain`, `C58_fragments`, `C58_content`, `C58_content_512`, `C58_error`, `C58_sectors_refuted`, `C58_content_size`, `C58_content_size_refuted`, `C59_entry`, `C59_clusters_refuted`.

`PropertiesPng.v` (9 theorems, all "Closed under the global context"): `C76_chunks`, `C76_any`, `C76_valid`, `C76_signature`, `C76_content_size`, `C76_content_size_refuted`, `C76_gray_refuted`, `C76_empty_refuted`, `C76_text_refuted`.

`PropertiesPrsPak.v` (6 theorems, all "Closed under the global context"): `C90_file`, `C90_names`, `C90_any`, `C90_valid`, `C90_refused`, `C90_empty_refuted`.

`PropertiesRaster.v` (21 theorems, all "Closed under the global context"): `C86_tga`, `C86_pcx`, `C86_ico`, `C86_tga_any`, `C86_pcx_any`, `C86_ico_any`, `C86_tga_valid`, `C86_pcx_valid`, `C86_ico_valid`, `C86_ico_description`, `C86_ico_size`, `C86_tga_metadata`, `C86_pcx_metadata`, `C86_ico_metadata`, `C86_tga_lines_refuted`, `C86_tga_map_refuted`, `C86_pcx_width_refuted`, `C86_pcx_marker_refuted`, `C86_ico_mono_refuted`, `C86_ico_256_refuted`, `C86_ico_png_refuted`.

`PropertiesReal.v` (4 theorems, all "Closed under the global context"): `C89_file`, `C89_any`, `C89_valid`, `C89_refused`.

`PropertiesRealMeta.v` (1 theorems, all "Closed under the global context"): `C89_metadata`.

`PropertiesRegex.v` (22 theorems, all "Closed under the global context"): `C33_language_partial`, `C33_total`, `C33_excluded_refuted`, `C33_dot_refuted`, `C33_repeat_refuted`, `C33_repeat_or_refuted`, `C33_refused_refuted`, `C33_operand_refuted`, `C34_bounds`, `C34_reached`, `C34_max`, `C34_raises_refuted`, `C53_round_trip_partial`, `C53_escape`, `C53_range_refuted`, `C53_repeat_refuted`, `C53_terminates_refuted`, `C54_union`, `C54_pattern`, `C54_none`, `C54_refused`, `C54_prefix_refuted`.

`PropertiesRiff.v` (4 theorems, all "Closed under the global context"): `C70_chunks`, `C70_valid`, `C70_any`, `C70_last_refuted`.

`PropertiesStream.v` (31 theorems, all "Closed under the global context"): `C01_readBits_exact`, `C01_readBits_any_stream`, `C01_file_serves`, `C01_file_past_end`, `C01_readBits_zero`, `C01_negative_address_refuted`, `C02_adjacent_reads_join`, `C02_adjacent_reads_split`, `C03_readInteger_twos_complement`, `C03_readInteger_past_end`, `C04_writeBits_then_readBits`, `C04_complete_bytes`, `C04_writeBit_refuted`, `C05_writeInteger_unsigned_partial`, `C05_writeInteger_signed_refuted`, `C05_writeInteger_unaligned`, `C06_copyBytesFrom`, `C06_copyBytesFrom_short_input`, `C06_copyBitsFrom`, `C06_extends_reads`, `C06_long_unaligned_refuted`, `C07_searchBytes_first`, `C07_searchBytes_unaligned`, `C07_searchBytesLength`, `C08_substream_window`, `C08_substream_bits`, `C08_past_parent`, `C08_confinement_refuted`, `C10_concat_serves`, `C10_concat_readBits`, `C10_concat_readBytes`.

`PropertiesStream2.v` (12 theorems, all "Closed under the global context"): `C09_fragmented_reads`, `C09_fragmented_size`, `C09_fragmented_end`, `C11_pipe_like_file`, `C11_pipe_small_file`, `C11_pipe_first_size`, `C11_pipe_size_partial`, `C11_pipe_size_refuted`, `C12_pipe_lru`, `C13_file_view`, `C19_dict_history_partial`, `C19_replace_clash_refuted`.

`PropertiesStrip.v` (13 theorems, all "Closed under the global context"): `C66_check`, `C66_png`, `C66_jpeg`, `C66_mpeg`, `C66_au`, `C66_riff`, `C66_avi`, `C66_riff_size`, `C66_riff_clean`, `C66_flag_only_refuted`, `C66_png_text_refuted`, `C66_jpeg_xmp_refuted`, `C66_tar_refuted`.

`PropertiesSubfile.v` (10 theorems, all "Closed under the global context"): `C40_sound`, `C40_complete_partial`, `C40_skip`, `C40_skip_complete_partial`, `C40_slices_refuted`, `C40_overlap_refuted`, `C40_same_magic_refuted`, `C40_magics`, `C40_unaligned_refuted`, `C40_optional_refuted`.

`PropertiesTar.v` (6 theorems, all "Closed under the global context"): `C68_members`, `C68_valid`, `C68_any`, `C68_content_size_refuted`, `C68_large_refuted`, `C68_prefix_refuted`.

`PropertiesText.v` (11 theorems, all "Closed under the global context"): `C30_bytes`, `C30_unterminated`, `C30_wide_partial`, `C30_text_partial`, `C30_text`, `C30_bom_partial`, `C30_pascal`, `C30_strip`, `C30_straddle_refuted`, `C30_line_endian_refuted`, `C30_pascal_bom_refuted`.

`PropertiesTorrent.v` (7 theorems, all "Closed under the global context"): `C67_bencode`, `C67_exact`, `C67_stops`, `C67_long_refuted`, `C67_names_refuted`, `C67_values`, `C67_integer_keys`.

`PropertiesValues.v` (22 theorems, all "Closed under the global context"): `C61_bytes`, `C61_large`, `C61_large_refuted`, `C61_empty_refuted`, `C61_bits`, `C61_bits_refuted`, `C61_off`, `C62_msdos`, `C62_any`, `C62_null_refuted`, `C62_fat`, `C63_ipv4`, `C63_ipv6`, `C63_ipv6_refuted`, `C63_mac`, `C63_guid`, `C63_version`, `C63_version_refuted`, `C64_runs`, `C64_any`, `C64_sparse_refuted`, `C65_cylinder`.

`PropertiesZip.v` (13 theorems, all "Closed under the global context"): `C77_records`, `C77_prefix`, `C77_any`, `C77_valid`, `C77_method_refuted`, `C77_cut`, `C77_mime`, `C77_suffix_refuted`, `C77_streamed_refuted`, `C77_content_size`, `C77_comment_refuted`, `C77_zip64_refuted`, `C77_noname_refuted`.

