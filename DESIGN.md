# Formal model of esheldon/meds: design

The code in /repo is not run. It is read as text and modelled function by
function in Gallina (Coq 8.16.1). Every definition carries a comment with the
file and lines it models.

* Model files (definitions only): Base, Img, Types, Reader, BoundsM,
  MakerLayout, MakerWrite, MakerFile, Composite, Fast3tree, Uberseg, Outlier,
  Sky, Extract, Coadd, Compare, CLib, Meta, CatCols, CatFile, Single, UbersegFl, UbersegTy, CProg, CoaddRng, Typed, View, Fast3treeQ, FtMem, CMem, Scripts, Config, WcsSel, MakerFail, LayoutFl, InfoText, CoaddFail, ExtractExt, Memory, MakerMem, CompositeFl, OutlierFl, CoaddFl, CompareFl, OffsetFl, PsfTy, CText, BoxFl, NumExt, PsfState, PsfFail, CmpCat, CoaddTarget, CoaddRange.
* Specifications, written without the helpers of the model: `Spec*.v`.
* Proofs: `*Lemmas*.v`. Concrete data for the examples: `Example*.v`.
* Property theorems: `Prop*.v`. They hold only theorems closed by one lemma,
  `Print Assumptions`, and examples showing that the hypotheses can be met.

## Trusted base

* Coq's kernel (8.16.1) and, for each theorem, what `Print Assumptions` lists
  (last section of this file). The only axioms are those of the standard
  library's real numbers (`sig_forall_dec`, `sig_not_dec`,
  `functional_extensionality_dep`, once `classic`). No axiom is added here.
* The faithfulness of the model to the text of /repo. It was checked by reading
  only; nothing of /repo was run.
* The specifications in `Spec*.v` and the statements in `Prop*.v`.
* The contracts of the libraries listed below.

## Conventions of the model

* A Python exception is a value: `res A = Ok a | Err e` with one constructor of
  `err` per exception class. Loops of the C code that may not terminate run on
  fuel; exhaustion is `Err OutOfFuel`, never a normal result.
* Integers are unbounded `Z`. Catalog fields are int64 (or int32) in the code;
  overflow is not modelled.
* Pixel values, positions and Jacobian elements are exact rationals `Q` or are
  kept abstract (polymorphic). Float rounding, NaN and infinities are not
  modelled. Where the code needs square roots or trigonometry
  (`reject_outliers`, `radec_to_uv`, the sky cut) the model is over Coq's `R`.
  Exception: the tree search of meds/_uberseg.c is also modelled with every
  operation rounded to single or double precision (Single, UbersegFl); only the
  range of exponents is left unbounded. Second exception: Typed models the
  reading, calibration and storing of the mosaics with numpy's number types
  (integers that wrap, IEEE 754 single and double with underflow, overflow,
  infinities and NaN), for the casting rules of numpy 1 and numpy 2. Third:
  LayoutFl models bounds, acceptance, corner and cutout position of an object in
  an image with doubles and 32 and 64 bit integers. Fourth: CompositeFl models the
  positions in the coadd of the composite and interpolated maps with doubles. Fifth:
  OutlierFl models reject_outliers with singles and doubles. Sixth: CoaddFl models the
  mask checks of the coadder and the weights it coadds with doubles. Seventh:
  CompareFl models the checks of the comparator on one pair of cutouts with singles and
  doubles; the order of numpy's additions and its square root are parameters. Eighth:
  OffsetFl models make_wcs_positions with singles and doubles. Ninth:
  PsfTy models the PSF extension of type f4 (C130). Tenth: CText models
  the decimal text of doubles that make-meds-input prints (C131). Eleventh:
  BoxFl models the box sizes of make-meds-input with doubles and ints (C132).
* A FITS image extension is a flat list of pixels. A slice read `[a:b]` is
  exact when `0 <= a < b <= size`, a write of a list at `k` is exact when
  `0 <= k` and `k + length <= size`; outside of this the model returns
  `Err FitsError` (assumption about fitsio; no positive theorem relies on what
  happens there). The content of a freshly reserved extension is an arbitrary
  parameter. Compression and quantisation are not modelled.
* WCS transformations, PSF objects, interpolators, noise, psc's coadd, esutil's
  matching, random subsets, numpy's unstable orders are arbitrary parameters
  of the model or hypotheses of the theorem (pointwise where the code uses
  them on arrays). joblib returns results in submission order.
* Python negative indexing is modelled where user input can reach it
  (`py_index`). Arrays that are views of one another are modelled as such where
  the code writes into them (composite weights, `reject_outliers`).
* In C: memory allocation succeeds, no integer overflow, `NULL` is `None`, a
  read through a dangling pointer is an error value.

## What is modelled and what is not

| file | modelled | not modelled |
|----|----|----|
| meds/maker.py | writing of a file from configuration, catalog, image_info and psfs: object data, layout, start rows, mosaic writers, psf layout and writers (serial and joblib), calibration, image bounds, rough sky cut, resizing, columns of the catalog (names, shapes, broadcasting), type list, loading of the configuration, choice of the WCS objects, positions of one object in doubles, what a failing write leaves behind, metadata, image_info check | construction of WCS objects by esutil, FITS headers and compression, logging, timing, temporary files |
| meds/meds.py | all accessors, composites, uberseg, cseg weight, coadd seg interpolation, source info, `split_mosaic`, `reject_outliers`, index checks, the tables the constructor requires | `close`, `__repr__`, context manager, `has_psf` outside of psf accessors |
| meds/_uberseg.c | both uberseg loops, the conversion of the arguments of `uberseg_tree` | other argument errors |
| meds/fast3tree.c | build with removal of non-finite points, sphere, skip, periodic and box queries, next-closest distance, `set_minmax`, `maxmin_rebuild` ; memory of nodes and results in build and sphere query (realloc always moves, never fails) | failing allocation, other dimensions than two |
| meds/util.py | `validate_meds`, output and image_info columns, offset conversion, tangent plane, text columns | kinds and sizes of numbers in numpy dtypes |
| meds/bounds.py | all | `__repr__` |
| meds/extractor.py, meds/number_extractor.py | extraction of tables and mosaics, cleanup, file names, all extensions and what a failing range extraction leaves | header cards |
| meds/coadd.py | epoch selection, flags, masks, bad-pixel interpolation, random numbers, coadd file layout, rows, metadata and image_info, configuration history | psc's coadding, psf drawing, the random number generator (its stream is a parameter), plots |
| meds/compare.py | decisions, reports and errors | drawing, printed text |
| meds/defaults.py | the default configuration and the default pixel values | |
| src/meds.c, src/meds.h | `meds_open`, cutout and mosaic accessors, source facts, distortion, name buffers, metadata fields, writing a cutout to FITS; allocation, writes and freeing of everything but the latter | printing |
| src/make-meds-input.c | all | printing of numbers, failures of cfitsio inside a table |
| src/meds-get-cutout.c | all | extended file names of cfitsio |
| scripts/meds-view | grid, combined mosaic, scaling, choice of objects, pictures and page | drawing by biggles, text of names and page, functions the program does not call |
| scripts/meds-extract-range, meds-extract-catalog | all, with optparse and `int` | printing, words that are not ASCII |
| scripts/meds-compare | main on parsed arguments | argparse, `--id-name` |
| src/test*.c, tests | nothing | everything |

## Claims found to be false of the code

Each has a `_refuted` theorem with a witness and, where there is one, a positive
theorem with the exact condition: C12, C17, C18, C19, C22, C23, C24, C27, C33,
C34, C39, C42, C44, C48, C49, C50, C55, C56, C57, C59, C61, C63, C64, C66, C67,
C69, C70, C71, C72, C73, C74, C75, C76, C77, C78, C85, C86, C88, C89,
C90, C92, C94, C96, C97, C99, C100, C101, C102, C106, C107, C108, C109, C110, C111, C112, C113, C115, C116, C117, C118, C119, C122, C123, C124, C125, C126, C127, C128, C129, C130, C131, C132, C133, C136, C137, C139, C140, C141, C142, C143, C144, C145, C146. Their status in MANIFEST.json is "partial".

## Tests against wrong programs

`seeded/LOG.jsonl` has one line per edited model. `theorems_failed` lists the
theorems whose proof no longer goes through after the edit (directly, or because
it depends on a lemma that fails). A failing proof script is weaker evidence
than a refutation of the statement on the edited model: the list may contain
theorems that are still true. An empty list is what shows a gap.
The edited copies are built without the Examples and only as far as the property
files of the claim; theorems of other files are not tried.

## Properties

For each property: the model it is stated on, how it is proved, and what is
false or left open. The theorem names are in MANIFEST.json.

| id | status | file | model and proof | remarks |
|----|----|----|----|----|
| C01 Cutout pixel ranges tile the mosaic | proved | PropMaker.v | `set_start_rows` loop; induction over objects, tiling predicate of SpecTiles | Every catalog; also the 'total_pixels != npix' check never fails. |
| C02 Write then read returns the source pixels | proved | PropMaker.v | layout, write loops, reader; writes into tiled ranges commute, refinement to a pixel specification | Types with a fill value (image, weight, seg, bmask), exact arithmetic. |
| C03 Boxes crossing image edges are clipped correctly | proved | PropMaker.v | `_get_clipped_boxes` and the paste into a filled stamp; case analysis against a pixel specification |  |
| C04 A mosaic is the stack of its cutouts | proved | PropMaker.v | mosaic reader, `split_mosaic`; list arithmetic over contiguous ranges |  |
| C05 Every mosaic pixel is defined by the inputs | proved | PropMaker.v | reserved content is a parameter; coverage of the tiled range | Provided every source of a cutout supplies the type. |
| C06 Each object gets exactly the images that contain it | proved | PropMaker.v | `_build_meds_layout` in the index-list style of the code; refinement to a per-object filter of the images | The sky cut and the wcs are arbitrary pointwise functions. |
| C07 Recorded positions refer to the right image and are mutually consistent | proved | PropMaker.v | as C06; positions of the filter |  |
| C08 Unused cutout slots keep the sentinel and used slots survive resizing | proved | PropMaker.v | resizing of the slots; per-slot characterisation |  |
| C09 Box sizes are rounded up to even | proved | PropMaker.v | `_force_box_sizes_even`; arithmetic |  |
| C10 The coadd check is exact and the first cutout is the coadd | proved | PropMaker.v | coadd check of the layout; both directions |  |
| C11 Trimming to the coadd keeps exactly the objects inside it | proved | PropMaker.v | trimming; filter of the catalog |  |
| C12 Forcing into the coadd bounds | partial | PropMaker.v | `_force_into_coadd_bounds`; clipping to the same bounds is the identity; witness | The claim is false: refuted by a witness; proved instead that the option never changes a written file. |
| C13 Parallel sky-to-image conversion equals the serial one | proved | PropMaker.v | chunking of `_do_sky2image`; chunks partition the list | joblib returns outputs in submission order (contract of joblib). |
| C14 PSF images round trip with per-cutout shapes | proved | PropMaker.v | psf layout and writers; as C01 and C02 with variable sizes | Positive psf sizes for reading back; both directions of the shape check. |
| C15 Parallel PSF writing equals serial PSF writing | proved | PropMaker.v | both psf writers; flattening of the chunks | PSF rendering is a pure function in the model. |
| C16 Calibration of image and weight | proved | PropMaker.v | `_read_image`; field arithmetic | Exact arithmetic; scale not 0. |
| C17 A missing source file for a type is skipped | partial | PropMaker.v | path test and skip; characterisation and witness | Holds for seg, bmask, ormask, noise; false for image and weight and for the text 'none' in bytes columns (refuted); cutouts of a skipped source are whatever the reserved space held. |
| C18 Every supported cutout type can be written | partial | PropMaker.v | fill table; witness for the types without a fill value | Success proved for image, weight, seg, bmask; false for ormask and noise (refuted, and proved never writable). |
| C19 Writing is repeatable | partial | PropAgain.v, PropMaker.v | `write` as a state transformer; witness; the layout loop followed from any catalog (`AgainLemmas`) gives what a second write does | False: the maker keeps its modified catalog, so a second write counts the cutouts again. It succeeds exactly when no object has two or more, and then every cutout is stored twice; otherwise IndexError. |
| C20 Cutout type list normalisation | proved | PropMaker.v | `_set_cutout_types`; list induction | Aliasing of the caller's list is not expressed: lists are values in the model. 'image' given twice stays twice. |
| C21 Allowed-bits mask and its complement | proved | PropMaker.v | allowed-bits mask; bitwise reasoning |  |
| C22 Image bounds select positions on the image | partial | PropMaker.v | `_get_image_bounds`; exact for offset 1, witness for offset 0 | Proved for position_offset 1; false for other offsets (refuted with offset 0). |
| C23 Out-of-range indices are rejected | partial | PropMaker.v | `_check_indices`; characterisation, witness for negatives | Proved for non-negative indices; false for negative ones (refuted). |
| C24 Accessors agree on objects without cutouts and on PSF types | partial | PropMaker.v | list accessors; characterisation and witnesses | List accessors of cutouts and Jacobians agree; false for get_psf_list and get_mosaic('psf') (refuted). |
| C25 Composite list and mosaic accessors agree with the single-cutout ones | proved | PropComposite.v | views into one mosaic; equality with the single-cutout accessors | Equality including errors, on every well-formed file (tiled mosaics); maker files are well-formed (C25_maker_files_wf). |
| C26 Composite weight keeps exactly the pixels of the central object (and sky) | proved | PropComposite.v | `_make_composite_image`; geometry over Q | Exact characterisation by seen/same_sky (exact rational Jacobians, round half to even); central position assumed non-negative (negative would wrap). |
| C27 Composite seg: documented zero outside, number inside | partial | PropComposite.v | `get_cseg_cutout`; witness and characterisation | Full claim refuted: sky pixels outside the object's seg region keep the number. What holds is proved in C27_cseg_partial. |
| C28 Interpolated segmentation maps are faithful | proved | PropComposite.v | `_interpolate_coadd_seg_image`; geometry over Q | Each value is the coadd seg value nearest the mapped position (hence a coadd seg value); a singular coadd Jacobian is the only error. |
| C29 Uberseg semantics (reference implementation) | proved | PropUberseg.v | `get_uberseg` in Python; argmin specification | Statement on any well-formed file, object and cutout, through get_cweight_cutout and interpolate_coadd_seg. ~two_values together with one object pixel covers 'more than two values' and also single-valued maps. |
| C30 Direct C uberseg equals the Python one | proved | PropUberseg.v | direct C loop; equality with C29 | Bit-for-bit equality of the two results. For object number 0 they differ (C30_number_zero). |
| C31 Tree-based C uberseg equals the Python one up to ties | proved | PropUberseg.v | C loop with the tree; tree invariants, growing radius | Exact arithmetic (the C code computes distances in 32-bit floats, exact for stamps below a few thousand pixels except the growing radius). Fuel bounds the radius loop: the theorem shows that it stops. |
| C32 k-d tree build and sphere query are exact | proved | PropUberseg.v | fast3tree build and sphere query; permutation and box invariants | Radii are compared by exact squares. Points at exactly the radius may or may not be returned (they are when the whole box is inside). |
| C33 Uberseg returns for every seg map | partial | PropUberseg.v | all-sky maps; witness, divergence for every fuel | The claim is false: for an all-sky map the Python code raises ValueError and the C code never returns (OutOfFuel for every fuel). Proved: it returns whenever there is an object pixel. |
| C34 Uberseg's two-value shortcut | partial | PropUberseg.v | two-value shortcut; witness and characterisation | The claim is false when the object's own number is absent from the two-valued map. Proved: the shortcut obeys the nearest-object rule if the number occurs and either sky occurs or the central seg value is the number. |
| C35 Circular seg weight | proved | PropComposite.v | `get_cseg_weight`; extremal characterisation | The pixel keeps its weight iff it is strictly closer to the centre than every pixel of another object. Without a number column the accessor always raises. |
| C36 Outlier rejection criterion | proved | PropOutlier.v | `reject_outliers` over R with aliasing; median defined by sorting | Over the real numbers; lists of equal length, weight maps distinct and not shared with the images (otherwise the in-place updates interfere). Median per pixel characterised by sorting and shown unique; exact list of rejected pixels, clipping of negative weights, all other arrays untouched. |
| C37 Outlier rejection is idempotent | proved | PropOutlier.v | as C36; second run | Second application changes nothing and returns 0 (weight arrays may be shared among themselves; no image may be a weight map). Over the real numbers. |
| C38 Bounds algebra | proved | PropSky.v | bounds.py; arithmetic over Q | Exact rationals. contains_points shown equal to contains_point pointwise; containment = point-set inclusion; expand_* give the smallest bounds. |
| C39 Expanding bounds by bounds | partial | PropSky.v | `expand_bounds`; witness and exact condition | The English claim is false: expand_bounds uses elif, so bounds sticking out on both sides of an axis are not covered (C39_expand_bounds_refuted). Exact condition for containment proved (iff). |
| C40 Offset conversion is invertible | proved | PropSky.v | `make_wcs_positions`; arithmetic over Q | Exact rationals; floating-point rounding not modelled. |
| C41 Tangent-plane coordinates | proved | PropSky.v | `radec_to_uv` over R; trigonometric identities | Over the real numbers, equal to the standard gnomonic projection up to the sign of u; nothing on floats. |
| C42 The sky cut only accepts positions near the image | partial | PropSky.v | rough sky cut over R; witness with a tangent-plane WCS, exact condition | The English claim is false: the rough cut accepts the antipode of every accepted position (refuted, with a tangent-plane WCS as witness). Proved: exact condition of the cut, and that no position of an image with linear tangent-plane WCS is lost. |
| C43 Range extraction preserves cutouts and PSFs | proved | PropExtract.v | extractor.py; shift of contiguous ranges | Stated for every well formed file (any psf layout the extractor supports) and specialised to maker-written files; covers cutouts of every type except ormask, psfs, all non-start columns, source info and jacobians. |
| C44 Range extraction keeps every cutout type | partial | PropExtract.v | list of copied types; witnesses and positive part | Refuted: a maker file with image only makes the extraction raise, and ormask is dropped (or, with copy_all, copied without shifting the rows, so that reads give other pixels). Proved for the remaining types of files with image, weight, seg. Unknown extensions: C122. |
| C45 Extractions compose | proved | PropExtract.v | extractor.py twice; equality of files | Exact equality of the two files when the inner range has a cutout; otherwise both have the same rows up to start columns and all accessors raise. |
| C46 Extraction of objects without cutouts | proved | PropExtract.v | extractor.py without cutouts | Any file. |
| C47 Number extraction preserves cutouts and PSFs | proved | PropExtract.v | number_extractor.py; invariant of the merged ranges | For every permutation in which the table rows may be returned; the output is a well formed file again. Stated from the constructor arguments to the file on disk, and for maker-written files. |
| C48 Number lookup finds the unique row | partial | PropExtract.v | number lookup; characterisation and witness | Refuted: a repeated number one of whose rows is row number-1 is accepted. The exact condition for AssertionError is proved. |
| C49 Number extraction works for every PSF layout | partial | PropExtract.v | psf layouts of number_extractor.py; witnesses and positive part | Refuted for psf_box_size, for sizes per object and for files without bmask. |
| C50 Extractors never destroy the input file | partial | PropExtract.v | file system with names and inodes, destructor; witnesses and positive part | Refuted for equal names with cleanup=True (the destructor deletes the input after the constructor rejected the arguments) and for two names of one file. Proved whenever the two names are different files. |
| C51 Catalog extraction copies the catalog unchanged | proved | PropExtract.v | catalog extractor; equality of tables | From the constructor to the files on disk; metadata table kept as an opaque value. |
| C52 Every rejected epoch carries exactly one reason, and counts match | proved | PropCoadd.v | `_get_obslist` and flags; induction over the epochs | Outlier rejection, psf, interpolation, noise and psc's coadd are parameters; rejection is assumed to keep the shapes of the weight maps. C52_total needs max_masked_frac < 1, the stamp_edge check on and a coadd cutout with non-singular jacobian. |
| C53 ORed mask of a coadd | proved | PropCoadd.v | fold of the masks; bitwise | The masks are those after symmetrisation, if configured. |
| C54 Coadd file layout | proved | PropCoadd.v | coadd file writer; as C01 and C02 | Proved for any coadder giving stamps of the object's size and square psfs, and for the package's own coadder under the same assumption on psc. obj_range with negative indices: C143. total_psf_pixels is supplied by the sub class; the space must suffice. |
| C55 Mask symmetrisation | partial | PropCoadd.v | rotation and symmetrisation; per-pixel characterisation, witnesses | What becomes of each pixel is proved; invariance under rotation is refuted for weights and masks (one rotation is added, not the orbit), and bits of a mask pixel can be lost, so that a cutout no longer hits the edge. |
| C56 Flag lists are combined into one mask | partial | PropCoadd.v | sum of flags; bitwise, witness | Flags are summed: refuted for lists with shared bits, e.g. a repeated flag; C56_exactly_disjoint shows the claim holds exactly for lists without shared bits. |
| C57 Mask checks are total and honour their switches | partial | PropCoadd.v | mask checks; characterisation and witnesses | stamp_edge.check=False raises UnboundLocalError instead of switching the check off, so that no cutout can be used. Central sizes above the stamp size slice from a negative index and miss pixels. Proved for sizes up to the stamp and for central_region.check=False. |
| C58 Bad-pixel interpolation leaves good pixels alone | proved | PropCoadd.v | `_interp_bad_pixels`; lists of good and bad positions partition the stamp | Any interpolator that gives one value per position asked for. |
| C59 Coadder construction does not alter the caller's configuration | partial | PropCoadd.v | heap of caller dictionaries; histories of constructions | The entry dither_psfs is popped from the caller's dictionary: a second coadder built from it uses True. C59_history gives the settings in every history; equality is proved when dither_psfs is absent or true. |
| C60 Comparison of two files | proved | PropCompare.v | compare.py; decision logic, fold over the pairs | Random subsets and esutil's matching are parameters (every subset, every correct matching). Also says exactly what is only reported: weights and images never raise for pixel differences. |
| C61 The default comparator can compare images | partial | PropCompare.v | compare.py; no run with the default completes | Refuted: with the default png_prefix=False, go() never completes for any pair of files (C61_default_refuted). With png_prefix=None it completes for readable, compatible files. |
| C62 The C library reads the same pixels as the Python library | proved | PropCLib.v | C accessors; refinement against the Python reader | Model of meds_open and of all cutout accessors of src/meds.c; a NULL return is None. Memory allocation is assumed to succeed and C integers not to overflow. A source file id beyond image_info makes the C library return a dangling pointer (modelled as IndexError). |
| C63 The C library returns the distortion of the requested cutout | partial | PropCLib.v | C distortion accessor; witness and characterisation | False: the pointer returned is always that of the first cutout (refutation with a witness); proved: it is exactly the distortion of cutout 0. |
| C64 C name buffers are large enough | partial | PropCLib.v | `get_namelen_max`; witness and exact condition | False: when the wcs column is wider than the image column the sky width is taken instead (refutation with witness); proved: exactly when the buffer is large enough. |
| C65 FFT-friendly box sizes | proved | PropCLib.v | size table and box sizes; finite table lemmas and monotonicity | Exact arithmetic for the sigma size; the cast of ceil is exact. The smallest-size statement excludes the size 3, because the sigma size is always even. |
| C66 Validation accepts what the maker writes and reports what is missing | partial | PropMeta.v | `validate_meds`, constructor; list reasoning, witness | Accepts maker files: proved. A missing object_data, image_info or metadata table raises in the MEDS constructor and is never reported (refutation); otherwise exactly the missing extensions and columns are reported. |
| C67 Metadata fields | partial | PropMeta.v | `_set_meta_data`; column maps, witness | A metadata column with the name of a version column makes the constructor raise ValueError (refutation), in particular the metadata of any written file; otherwise all columns are kept and the version columns added. |
| C68 Source information refers to the image the pixels came from | proved | PropMaker.v | source info; per-slot characterisation |  |
| C69 Coadding copes with objects that have no cutouts | partial | PropCoadd.v | coadder on an empty object; witness and general failure | Refuted: an object without cutouts raises ValueError in get_cutout_list and no file is written. C54_coadds_written covers files in which every object has a cutout. |
| C70 Next closest distance of the tree | partial | PropTree.v | `find_next_closest_distance`; path to a leaf, search bound, witness | False from a position that is not a point (refutation: the diagonal of a box is returned); proved: a lower bound from everywhere, and exact from every point of the tree. |
| C71 Rejection reasons of every epoch are recorded | partial | PropCoadd.v | flags of objects without a coadd; witness and positive part | Refuted: when all cutouts of an object are left out their reasons are dropped and orig_flags keeps -9999. Proved for objects with a coadd. |
| C72 Pictures for objects without cutouts | partial | PropCompare.v | pictures of the comparator; witness | Refuted: UnboundLocalError when the first object looked at is empty; a later empty object gets the picture of the object before it. Holds when all objects looked at have a common cutout. |
| C73 The C library opens the files the maker writes | partial | PropCLib.v | `meds_open`; witness and exact condition | False: the documented image_info columns include neither wcs_path nor sky_path, so meds_open returns NULL (refutation, and for every file with just these columns); proved: exactly when meds_open succeeds. |
| C74 The C library returns every metadata field of the file | partial | PropCLib.v | `read_meta` with a sticky status; witness and exact list | False: the cfitsio status is never reset, so after the first missing column every later field is lost (refutation); proved: exactly which fields are returned. |
| C75 Extra catalog columns are kept | partial | PropCat.v | `written_columns`: constructor, trimming, resizing as maps of tables of named columns with numpy broadcasting; witness for a column named like a psf column, otherwise all columns kept | A column with the name of one of the five psf columns is silently dropped when there is no psf_data (refutation). Proved: every column with a name the maker does not compute is written with its shape and rows (box_size apart, which may be made even); kinds and sizes of numbers are not modelled. |
| C76 object_data of a file can be used as input again | partial | PropCat.v | `remake_meds`: the constructor takes over ncutout and the columns of the cutouts; witness (cutouts doubled), exact counts, ValueError for another width | False: ncutout and the columns of the cutouts of the input are copied, so cutouts are added after the old ones (refutation: each object gets its cutout twice). Proved: the new count is the old one plus the number of accepting images (without psf_data and trimming); columns of another width are an error. |
| C77 Metadata of the file of coadds | partial | PropCat.v | `set_coadd_meta`; witness with two rows, proved for one row | False for metadata of other than one row: ValueError (refutation). Proved for one row: all columns kept, versions replaced. |
| C78 Positions and sources in the file of coadds | partial | PropCat.v | `write_coadds`; witness where cutout 0 is not from image 0; proved otherwise | The source info is always that of the first image (refutation when the object's first cutout is from another image). Proved: sky position, Jacobian, centre, original position; the sources agree when cutout 0 is from image 0. |
| C79 Tree search in single precision | proved | PropSingle.v | `Single`, `UbersegFl`: every float operation rounded; distances between pixels are exact, so any radius schedule finds a nearest pixel; an example shows that the size limit is needed | Exponent range unbounded (no overflow or underflow); values stay between 1/2 and 2^30 in practice. Fused multiply-add gives the same values since all products are exact. |
| C80 Cutouts of an object do not depend on the other objects | proved | PropLocal.v | from C02, C06, C07, C14 for both files: lists of accepting images are sorted and have the same members, all fields of a used slot are functions of image and row | Pixels of a type only for sources that have a file of the type (otherwise see C17). |
| C81 Adding images at the end only adds cutouts at the end | proved | PropLocal.v | as C80, with one list of images a prefix of the other | Both runs are assumed to succeed; the catalogs may differ too. |
| C82 Colours are used exactly where configured | proved | PropLocal.v | C07 and C14 with the colour argument spelled out; independence from C80 | A configured colour without the column: the wcs or psf is called without one (as color=None in the code). |
| C83 Extracting from a file equals making the smaller file | proved | PropLocal.v | C43 and C80 | Without trimming to the coadd; the first file has image, weight and seg; at least one cutout in the range. The width of the per-cutout columns may differ. |
| C84 Object numbers are only names | proved | PropRelabel.v | SpecRelabel relates the two files; RelabelLemmas proves every accessor respects the relation (tree included); C84_weights_renamed, C84_segs_renamed | Seg values and numbers are non-negative integers. |
| C85 Lines of make-meds-input | partial | PropCProg.v | CProg models the program on a map of files; C85_lines_partial, C85_lines_with_ids_partial, C85_rejected_partial, C85_numbers_partial (atoi); C85_words_rejected_refuted: words after enough ids are accepted | Refuted: an id file with other text after enough ids is accepted (C85_words_rejected_refuted). a_world is assumed not 0 (undefined conversion in C); printing of doubles, integer overflow and failures of cfitsio inside a table are not modelled. |
| C86 meds-get-cutout writes what Python reads, and says when it fails | partial | PropCProg.v | CProg models the program and meds_cutout_write_fits; C86_mosaic_partial, C86_cutout_partial, C86_nothing_written_partial, C86_other_files_partial; refuted: C86_failure_status_refuted, C86_index_checked_refuted, C86_input_kept_refuted | Refuted: the exit status is 0 when nothing was extracted; a word is read as index 0; with the MEDS file as output file the MEDS file is replaced. Proved: what is written, that nothing is written for a missing cutout, that other files are unchanged. |
| C87 Noise maps are made of fresh random numbers | proved | PropCoaddRng.v | CoaddRng.v threads the position in the stream (an arbitrary function of the position) through get_coadd_obs, the object loop and the maker; SpecCoaddRng.v says which part of the stream each epoch and object must get (tiles of consecutive ranges); C87_epochs is for one object, C87_objects for a file of a maker with any history. | The numbers themselves are an arbitrary stream g: that RandomState.normal gives independent normal numbers is not modelled. The resampling of the noise maps by the coadder is the oracle or_coadd. |
| C88 Coadds do not depend on seed, range or earlier writes | partial | PropCoaddRng.v | Proved for everything but the noise, for two makers with any seeds, histories and ranges (C88_planes_partial, C88_call_partial), and for the noise when seed and first object agree (C88_same_start_partial). For the noise in general it is false: C88_noise_refuted. | False for the noise: the generator is shared, so an object's noise depends on how many numbers the objects coadded before it took. Hypotheses on the oracles: reject_outliers keeps shapes, coadds are square stamps, interpolation is total, and the coadd planes other than noise are computed without the noise maps of the inputs. |
| C89 One coadd maker, several writes | partial | PropCoaddRng.v | CoaddRng.v keeps the maker's catalog between writes as the code does. C89_asked_partial: objects asked for are right after any history. C89_other_rows_refuted: a row of an earlier write stays in the catalog of the next file with ncutout 1 and its old start row, where another object's pixels are. | False for the objects not asked for: _write_cutouts changes self.obj_data in place and never resets it, so the second file of one maker has stale rows that point into other objects' pixels. |
| C90 Masks and segmentation numbers keep their values in the file's integer type | partial | PropTyped.v | Typed models arrays with types and assignment that wraps. The positive part is proved through the polymorphic writer lemmas and arithmetic of two's complement; a 64 bit witness refutes the full claim with the default types. | False for 64 bit sources with the default i4: flag 2**40 and number 2**32 are stored as 0, without error. |
| C91 Image and weight pixels are calibrated to single precision | proved | PropTyped.v | Every operation is modelled as the exact rational result rounded to nearest even with gradual underflow; errors are propagated through subtraction, product, square and inverse in rational arithmetic. | scale**2 is taken to be the product rounded once. Backgrounds of integer type are not covered. |
| C92 Images of any number type can be used | partial | PropTyped.v | The casting rule of in-place operations is part of the model. Writability is proved for float images and weights; a file can only be written from such, and integer witnesses raise TypeError. | False for integers: im *= scale and subim += default raise TypeError for integer images, weights, or an integer image_dtype or weight_dtype. |
| C93 meds-view gives every cutout its own cell | proved | PropView.v | View.v models Grid and make_combined_mosaic (View.paste for the slice assignment). The loop invariant gives each pixel of the mosaic from the cell it is in; injectivity and filling order follow from division with remainder. | int(sqrt(n)) is taken as the exact integer square root (true below 2^52); numpy would repeat an image with a single row or column, the model raises. |
| C94 --combine shows the cutouts the same way up | partial | PropView.v | False: the mosaic is flipped as a whole so that the first row of cells is on top, which also mirrors every cutout. C94_separate_partial and C94_combined_partial give the position of every pixel in both drawings, C94_same_way_up_refuted a cutout whose drawings differ. | Refuted. Positions are those in the array handed to biggles, whose second axis is the height. |
| C95 meds-view draws the named objects | proved | PropView.v | The run is a computation that emits events (file written, window shown, page line). C95_pictures gives the page exactly and the last write under every name; C95_objects the list of objects. | Psf and uberseg pictures are assumed readable with images of one size for each object; types stored as mosaics only need their extension (and the weights for images). The text of names and of the page is not modelled. |
| C96 the page of meds-view is complete | partial | PropView.v | False: C96_quit_refuted (the user quits) and C96_beyond_end_refuted (--end at the number of objects). C96_page_complete_iff_partial: closed exactly by runs that reach the end, for every file, even unreadable ones. | Refuted; closing of the file object by the interpreter is not modelled. |
| C97 brightness of the pictures of meds-view | partial | PropView.v | Exact value of each drawn pixel for images (largest pixel plus noise positive), psf images that are not flat and non-negative maps with a positive pixel. False otherwise: C97_negative_refuted (the picture becomes its negative), C97_white_refuted (all white), C97_nan_refuted, C97_flat_psf_refuted, C97_sign_bit_refuted (nothing but nan). | Refuted outside the stated conditions. Rounding to 4 byte floats is not modelled; square root and logarithm are parameters, the latter increasing with value 0 at 1. Pictures with --combine are scaled once more by the largest pixel of all. |
| C98 box queries of the tree | proved | PropTreeQ.v | Model of both queries over the tree of the build; both are shown equal to a filter of the points, using only that every node's box contains its points. | exact rational coordinates, two dimensions |
| C99 sphere query of the tree | partial | PropTreeQ.v | Proved up to points at exactly the radius; there the claim is refuted by two trees that answer differently for the same point. | points at exactly the radius are returned if their node lies inside the sphere and not otherwise (refuted witness) |
| C100 sphere query from a point on | partial | PropTreeQ.v | Results as places in the array; induction over the tree with the place where a node begins. That earlier points are left out is refuted: a node inside the sphere is returned as a whole. | earlier points may be returned too (refuted witness); everything else proved |
| C101 sphere query with periodic boundaries | partial | PropTreeQ.v | Each image search is shown equal to a filter by distance from the image centre; the filters exclude each other because the period is at least twice the radius, and images not searched are farther than the radius. | for centres inside the period and 2r <= period; otherwise refuted: with a larger radius 0 is returned and the earlier results stay, and from a centre outside the period points are missed; points at exactly the radius as in C99 |
| C102 renewing the boxes after the points have moved | partial | PropTreeQ.v | The renewed boxes are shown to be the bounding boxes of all nodes; the queries need no more. For a tree without points the calls never end (refuted). | all trees with points; the empty tree is the refuted witness |
| C103 points that are not finite | proved | PropTreeQ.v | Loop invariant: everything before i is finite, everything from num_points on is not, the array stays a permutation. |  |
| C104 memory of the tree while it is built | proved | PropFtMem.v | FtMem models nodes in an array with a generation number; every access with an older generation or outside the array is an error. Induction on the recursion with a frame condition (`split_mem_ok`). | Coordinates exact; realloc always moves and never fails. |
| C105 buffer of the results of sphere queries | proved | PropFtMem.v | The searched tree is the one in memory of C104; writes outside the buffer are errors. Induction on the tree held in memory. | Coordinates exact; realloc never fails. |
| C106 Opening a file in C writes only inside the memory it allocated | partial | PropCMem.v | CMem.v models every allocation, write and free of src/meds.c on a heap of blocks with sizes; fits_read_col_str writes the text and a terminating zero. Weakest preconditions with a failure condition as parameter give at once: no fault when everything fits, and what fits when there was no fault. | False: buffers have the width of the column and no cell for the terminating zero, so a name or metadata text that fills its column is written one byte too far (C106_within_buffers_refuted; C106_full_name_fails_partial for every file). Proved: no fault when names are shorter than the buffer (C106_within_partial), and for a readable file exactly then (C106_exactly_partial). |
| C107 meds_free gives back what meds_open allocated | partial | PropCMem.v | Same model; the blocks allocated afterwards are those of before and a list of lost blocks, whose sizes are given by a separate specification (lost_meta, rows_unreadable). | False: DESDATA is never freed (C107_everything_back_refuted), and four arrays stay allocated when a row of object_data cannot be read (C107_failure_refuted). Proved for every file: no double free, no use of freed memory, the file is closed, and the exact list of what is lost (C107_account_partial). |
| C108 Cutouts read in C can be given back completely | partial | PropCMem.v | Same heap; the decisions are those of the functional model of C62, with which the success of each request is proved to agree. Induction over the requests. | False: the pixels are lost when the extension is missing (C108_nothing_lost_refuted). Proved for every list of requests: no fault, and exactly those pixels are lost (C108_account_partial). |
| C109 get_uberseg gives the same weights with the C code and without it, whatever the number types | partial | PropUbersegTy.v | UbersegTy.v: the fast and slow paths on typed arrays (numbers, infinities, NaN as in Typed.v; tree search in single precision as in UbersegFl.v). Refuted three ways: numbers 2^32 apart are confused, numbers beyond a C int raise OverflowError and floating point numbers TypeError, double precision weights are rounded and change type. Proved for seg values in [0, 2^31), a nonzero int32 number and f4 weights; for other weights the fast result is the slow one converted to f4. | False in general (C109_wrapped_refuted, C109_number_refuted, C109_double_refuted); the positive theorems cover seg values that fit a C int and weights that are f4 numbers, and say what happens to other weights. |
| C110 The extraction programs write what the functions write, and their exit status tells | partial | PropScripts.v | Scripts.v: optparse with its help option, Python's int of a text, the two mains on top of extractor_life of Extract.v. Refuted: a request for help anywhere before '--' exits 0 without a file, and an extraction that fails half-way has already replaced the old output file. Proved: the full table of outcomes of every command line, what is written on success, that a negative number is rejected with status 2, and exactly which texts are read as integers. | False in general (C110_status_refuted, C110_failure_refuted); the positive theorems give every outcome of every command line. For the catalog a failure changes nothing. |
| C111 The exit status of meds-compare tells whether the files agree | partial | PropScripts.v | Scripts.v: main after argparse on top of go of Compare.v. Refuted: images and weights beyond the tolerance are only printed, and objects that are only in one file are not noticed. Proved: status 0 iff some ids match, the columns are the same and for all pairs looked at the counts (unless --no-nepoch) and shapes agree and bmask and seg are identical. | False in general (C111_images_refuted, C111_objects_refuted); C111_status_partial says exactly what status 0 means for readable files without pictures. argparse is not modelled and the ids are the column id. |
| C112 The C accessors read only the memory of the opened file | partial | PropCAccess.v | CLib.v, where an access outside an array is the error value IndexError. Refuted for meds_get_source_info and meds_get_source_path: file_id is only checked from below. Proved for the other accessors and the pixel macros without assuming that the file is consistent, and exactly when the reference is outside. | False for meds_get_source_info (C112_reference_refuted; C112_reference_partial says exactly when); the other accessors are covered by the positive theorems. |
| C113 The configuration means what is documented | partial | PropConfig.v | Config.v: dicts with update, the truth of Python values, _load_config and _set_extra_config, the places where the entries are read, and make_from_config on top of the maker of MakerFile.v. Refuted: bitmask_allowed changes no file, psf options are dropped when psf_type is given too, use_joblib False does not switch joblib off when its options are given, the text 'False' switches options on. Proved: the value of every setting in terms of what is in the dict, independence of order and unknown keys, exactly which configurations are accepted, and that the file is the one made with these settings. | False in general (C113_bitmask_refuted, C113_psf_refuted, C113_joblib_refuted, C113_text_refuted); the positive theorems cover every entry that the modelled maker reads. fpack_pars is not modelled, and a value of the wrong type is an error at once although the code raises when it is first used. |
| C114 Each image is laid out with its own astrometry | proved | PropWcs.v | WcsSel.v: WCS objects in a memory, set_naxis and the position_offset attribute as updates of it, the layout loop over that memory. SpecWcs.v says independently which picture belongs to image i; the layout with memory succeeds with a result iff the layout of MakerLayout.v does on these pictures. | The WCS objects of esutil are oracles (transformations, size); get_wcs of a psf returns either one object each time or a new copy each time. |
| C115 Making a file leaves the caller's WCS objects as they were | partial | PropWcs.v | WcsSel.v. Refuted: size and offset are overwritten. Proved: which objects change, that the transformations never do, and that the last image that shares the object decides what is left in it. | False (C115_unchanged_refuted); C115_objects_partial gives the exact final state of every object. |
| C116 A write that fails does not leave a file that passes for a good one | partial | PropFail.v | MakerFail.v: the writers as loops over a state of the disk that survives the exception. Proved: they agree with the writers of MakerFile.v (same exception, same complete file), other files are not touched, the layout is made before the old file is removed, and exactly which mosaics of the incomplete file are complete, begun and untouched. Refuted: a missing weight map leaves a file that opens and validates, with undefined segmentation maps. | False in general (C116_incomplete_refuted). C116_other_files, C116_complete_partial and C116_layout_partial are the parts that hold; C116_left_partial says what the incomplete file contains. One write of a cutout is atomic, and writing tables does not fail in the model. |
| C117 Positions, corners and cutout positions in double precision | partial | PropLayoutFl.v | LayoutFl.v computes bounds, acceptance, corner and cutout position of one object in one image with IEEE doubles, an int32 truncation and int64 corners. FlMonoLemmas.v proves that rounding is monotone, does not cross numbers of the type, and has relative error 2^-53. No object on the image is lost, those with cutouts are inside up to 2^-20 of a pixel, with offsets 0 or 1 exactly those on the image are accepted and the stored position is exact, the corner never comes from an overflow, the cutout position is off by at most 2^-30. Refuted: the sum is exact (the half box drops bits), the cutout position lies strictly below the upper edge of its pixel, and with other offsets a position off the image may be rounded onto its edge, or one on the edge of the buffer zone lost; positions, offset and buffer in units of 2^-20 of a pixel are treated exactly. C117_written_partial joins the two models: in such units the file written by the exact-number model of C06/C07 has exactly the cutouts computed in doubles, with the same positions and corners. | Four parts of the claim are refuted by rounding of the last bit; the _partial theorems bound the effect, C117_none_lost, C117_usual_offsets and C117_usual_positions hold without tolerance. Clipping to the coadd bounds is left out: it does not change accepted positions. |
| C118 The sky cut loses no object on the image | partial | PropSkyCut.v | rough_sky_bounds of Sky.v over the real numbers. Witness: an invertible WCS with rows bent by 25 arc seconds, of which the grid (first and last column only, for a square image) sees nothing. Positive: tangent-plane coordinates of a flat image are quotients of affine functions with positive denominator, which take their extremes at the corners, and the corners are in the grid; for distorted images a bound on the deviation from an affine map. | False for distorted images (refuted by a witness with the default buffer). Proved: every tangent-plane WCS with corners within 45 degrees of the centre, any buffer; any WCS within half the buffer of an affine map. |
| C119 Names and astrometry texts of image_info are kept | partial | PropInfoText.v | InfoText.v models assignment to and reading from a numpy column of type S<n> (ASCII only, cut, NULs dropped), strip(), and the column after a round trip through a file that fills with NULs or blanks. Witness: im1.fits.fz in a column of 14 characters is opened as im1.fits. Astrometry: no proper prefix of the text of a JSON object is balanced (bracket depth outside of strings stays at least one), so json.loads, which accepts only balanced texts, raises; stated about get_wcs of C114. | False for names longer than path_len: cut silently, possibly to the name of another image (refuted). Proved: names that fit and have no white space at the ends; which texts are kept; astrometry texts that do not fit raise; version strings. |
| C120 A box size that was never set is refused | proved | PropBox.v | The image type is always written and a source without image raises, so for each object with a cutout the loop over files reaches zeros((box, box)); successful folds succeeded at each element. BoxLemmas.v, on the model of C01-C20. | Input boxes of -1 become 0 and are not covered; objects on no image keep any box size. |
| C121 A coadd write that fails leaves no file that opens, and can be repeated | proved | PropCoaddFail.v | CoaddFail.v runs the loops on a state that survives the exception, with the row after each group of assignments; agreement with CoaddRng.v step by step. object_data is written last, so it is missing after an exception. For the repetition: a relation between rows that writing the object does not tell apart, kept by every partial filling since the number of flags of an object does not depend on the generator (C88), and two folds over related rows end equal. | C121_coadder takes the external interpolation, outlier rejection and psc as for C88. One hdu.write happens completely or not at all; writing tables and reserving does not fail. C116 is the counterpart for MEDSMaker, which writes object_data first. |
| C122 Extensions of an extracted file | partial | PropExtractExt.v | ExtractExt.v: files as lists of named extensions, the writes in turn on a state that survives the exception. Names by a list of names beside the list of writes; equality with Extract.v through the tables and mosaics the accessors see. ExtractExtLemmas.v. | Refuted: with copy_all noise_cutouts is written twice, the second time unshifted (default_ext has 'noise'); an extraction that fails after image_cutouts leaves a file that opens and validates. Proved: the list of extensions, foreign extensions found as they were, agreement with the cutout model, exact prefix left by a failure. Header cards are not modelled; number extraction has no copy_all. |
| C123 What the accessors hand out belongs to the program that asked | partial | PropMemory.v | Memory.v: memory as a list of arrays, views of split_mosaic, the accessors with their copies and in-place assignments as code that changes the memory; a program is a list of calls and assignments. MemoryLemmas, 2: every accessor leaves the old memory as it was and its new array holds what the accessors of Reader, Composite, Uberseg compute (loops over shared parts by an invariant on the mosaic). MemoryLemmas3: invariant of programs (tables in place, arrays handed out pairwise separate). | Refuted for the tables: get_cat, get_image_info, get_source_info and m[name] hand out the object's own arrays, assigning to them changes later answers; proved: exactly as if the file had those tables (C123_tables_partial). Proved for all image, list, composite, uberseg and jacobian accessors. Views of image_info rows are assignments to the whole table; metadata, closing the file and dicts of get_jacobian are left out. |
| C124 Makers are independent of the arrays they are made from | partial | PropMakerMem.v | MakerMem.v: a memory of arrays, making a maker allocates new image_info, meta_data and obj_data and keeps references to psf_data and psf_info, write reads the maker's arrays and changes its obj_data; programs are lists of Make, Write and Change. MakerMemLemmas: invariant (the program's arrays below n, every maker's three arrays above, disjoint and ordered), each step keeps the arrays of every other maker. | Refuted for psf_data and psf_info, which are kept by reference in spite of the comment 'make copies since we may alter some things' in __init__: replacing one of them (in place) before write changes the file. Proved for obj_data, image_info and meta_data, with psf_data and psf_info as they are at the time of the write (C124_late_partial); the program's arrays are never changed (C124_arrays). Only the first write of each maker (a second one is C19); nested dictionaries of the configuration (shared by reference too) are not cells of the memory; a maker whose write failed keeps its obj_data here. |
| C125 Composite and interpolated maps in double precision | partial | PropCompositeFl.v | CompositeFl.v: the two functions with every operation rounded to a double (fround of Typed), the inverse a parameter. CompositeFlLemmas: propagation of absolute errors (ap). CompositeFlLemmas2: the position is within tolerance = B*M*N*(2^-46+4 delta) of the exact one; rounding to the same pixel away from half-integers; equality with the exact accessors of Composite.v. | Refuted: positions half way between coadd pixels can go to the other one (0.168 arc seconds per pixel, half a pixel offset), even with the exact inverse rounded; and an invertible but nearly singular Jacobian gives another map in the coadd's own frame. Proved: the pixel used is within half a pixel plus the tolerance (1e-10 pixels for ordinary images), equality with the exact accessors when no position is within the tolerance of a tie, and the coadd's own map in its frame when the tolerance is below half a pixel. The inverse (LAPACK) is a parameter with a stated error bound; the sizes are bounded by B*M*N <= 2^30; signs of zero are not modelled. |
| C126 Outlier rejection with floating point numbers | partial | PropOutlierFl.v | OutlierFl.v: the function with every operation rounded in the type numpy uses, NaN and infinities; numpy.sqrt a parameter. OutlierFlLemmas 1-3: the sort, the median (middle values), relative errors of the two sides of the comparison. OutlierFlLemmas4: comparison with the criterion over R of C36's specification at 1 plus or minus 1e-4; the count; the two witnesses. | Refuted: a NaN in one image keeps its own weight and shields that pixel in all other images (the median is NaN and no comparison holds); a float32 deviation of 2^64 with sigma 2^63 (2 sigma) is rejected at 5 sigma since its square overflows. Proved: without NaN and with finite middle values (they are finite when more than half of the values are) the criterion holds up to one part in 10^4 for moderate sizes, infinite pixels included; with a NaN exactly clipping happens; totality, weights cleared or clipped, and the count hold for all numbers. Images of integers, shared arrays (modelled in Outlier.v) and broadcasting are not modelled here. |
| C127 Weights and mask checks of the coadder in floating point | partial | PropCoaddFl.v | CoaddFl.v: the checks and the weights after interpolation with doubles; comparisons with NaN are false; the division and the median are rounded. CoaddFlLemmas: two fractions that differ do so by at least 1/(q size), more than the rounding errors; the other tests are those of exact weights after replacing infinities and NaN by numbers of the same outcome. CoaddFlLemmas2: the median of positive doubles is positive and lies between two of them; NaN in the median. | Refuted: a NaN weight outside the central region passes all checks, is coadded, and every pixel without positive weight or with a bad flag gets NaN too (C127_nan says so for every stamp). Proved: without NaN all weights are positive and filled as stated (the upper bound for weights up to 2^1000, otherwise the mean of two may overflow to infinity); fraction, flags, and agreement with the exact decision of C52 for finite weights. The pixel values of the image and the noise are not modelled here. |
| C128 The checks of the comparator in floating point | partial | PropCompareFl.v | CompareFl.v: diff, mean, std, abs and comparisons with rounding; the order of the additions is any tree over the pixels, the square root any function within two units of rounding. CompareFlLemmas 1-4: error of a tree of additions by its number of layers, of the two means, and Cauchy-Schwarz for the effect of all errors on the standard deviation. CompareFlLemmas5: NaN and infinities through any tree, equal images, monotone rounding for the weights. | Refuted: a pixel that is NaN or infinite in either image makes the image check pass whatever the other pixels (C128_nan, for all images); weights that are NaN or infinite are reported, and NaN pixels raise, when a file is compared with itself. Proved: for finite pixels the check agrees with the exact standard deviation up to e (tol + B) + 2^-60 with e = (4 layers + 40) units of rounding and B the largest difference; equal images pass with rms 0; the count of weights is at least the exact count and at most that for a tolerance smaller by three units; exact comparison iff same shape and values. A constant offset between two images is not seen by the image check, as its docstring says. |
| C129 Conversion between wcs and zero based positions in floating point | partial | PropOffsetFl.v | OffsetFl.v: the function on whole arrays with rounding and numpy's broadcasting of the columns. OffsetFlLemmas: fields, broadcasting, round trips of arrays from those of one number. OffsetFlLemmas2: exact subtraction of 0 or 1 from half a pixel on, exact sums of multiples of 2^-20, error of two roundings. OffsetFlLemmas3: arrays, NaN, counterexamples. | Refuted: the position 0.1 is lost in both directions with offset 1, (0.1 + 1) - 1 and (0.1 - 1) + 1 differ from 0.1. Proved: wcs positions between 1/2 and 2^32 with offset 0 or 1 come back exactly; multiples of 2^-20 below 2^30 come back exactly in both directions; any positions up to B come back within 8 units of rounding of B and differ by the offset within 4; NaN stays NaN and no other position becomes NaN; one column is used for all rows, other sizes raise ValueError. Strengthens C40, which is over exact numbers. |
| C130 PSF images are kept to single precision | partial | PropPsfTy.v | PsfTy.v: make_meds with PSF objects that return typed arrays and an extension of type f4, cfitsio's conversion included. PsfTyLemmas: rounding gives the nearest f4, finite up to the largest one. PsfTyLemmas2: the run against the run over exact numbers of C14, the pixels placed. PsfTyLemmas3: nearest, sums, order, failure, lists. | Refuted: a double 0.1 comes back as the f4 nearest to it. Proved: each pixel comes back as the nearest f4 (none nearer, error within 2^-24 of it plus 2^-150), NaN and f4 infinities as they are, f4 values unchanged; the sum is within 2^-24 of the sum of absolute values; the order is kept; writing fails with FitsError exactly when a double is infinite or beyond the largest f4; get_psf_list agrees. The joblib writer is in C139. |
| C131 The text of make-meds-input gives back the catalog | partial | PropCText.v | CText.v: printf's %ld, %d and %.16g on integers and doubles, the line and the output. SpecCText: reading words, integers, decimals and doubles. CTextLemmas: digits, the decimal exponent, the sixteen digits. CTextLemmas2: reading back digits, exponents and the three layouts. CTextLemmas3: words, lines, the double nearest to the decimal, singles. | Refuted: sixteen digits do not identify a double (1000 + 2^-43 is printed as 1000), and the text of the largest double reads as infinity. Proved: the number and order of the lines, ids and boxes exact, infinities and NaN kept, positions up to 10^30 read back within 10^-15 of themselves, the printed decimal within 5 10^-16 and exact for positions of sixteen digits or fewer, positions of single precision exact after conversion. The signs of zero and NaN are not modelled. |
| C132 Box sizes of make-meds-input as computed in doubles and ints | partial | PropBoxFl.v | BoxFl.v: the five roundings, ceil, the casts and the int operations; what C leaves undefined is an error. BoxFlLemmas: error of each step, backward error of the radius, integers near the radius; the box then obeys C85's specification for the nearby radius. | Refuted: a circular object whose radius is 24 pixels and 10^-15 gets a box of 48 pixels. Proved for 0 <= B_WORLD <= A_WORLD, A_WORLD > 0 and a flux radius up to 10^8: nothing undefined happens, the box is the right one for a flux radius within 2^-49 of the given one, and for the given one itself unless the radius is that close to an integer. With A_WORLD = 0 the conversion to int is undefined whatever the other columns. |
| C133 Extensions of files extracted by number, also after a failure | partial | PropNumExt.v | NumExt.v: selection, the writes in turn and the constructor with the previous output. NumExtLemmas: names of the writes, row ranges against the objects asked for, agreement with Extract.extract_numbers, the two cases of the constructor. | Refuted: noise maps are dropped; a file without bit masks makes the extraction raise and leaves a file that opens and validates, in place of the old one. Proved: the list of extensions of a complete output, tables and mosaics as in C47 to C49 whatever other extensions exist, which prefix is left after an exception, and that the old file survives exactly the failures found before the input is open; an unknown number leaves a file with no extension. |
| C134 Chains of extractions | proved | PropChain.v | SpecChain.v: derived, the inductive closure of both extractions. ChainLemmas: one step keeps an invariant (unique numbers, well formed if any object has cutouts) and relates every row to one of its input; induction over the chain. | Noise cutouts are left out since number extraction drops them (C133), copy_all since it copies mosaics unshifted (C44). |
| C135 Every answer about an object survives extraction | proved | PropChain2.v | SpecChain2.v: same_answers, the list of all accessors. ChainLemmas2: mosaics agree since both are the stacks of equal cutouts; the composites are functions of cutouts, centres, jacobians and number. | Exact arithmetic for the composites as in C25-C33; negative cutout numbers are left out (they reach unused slots). |
| C136 List accessors, and files without numbers | partial | PropLists.v | SpecLists.v: listed, what a list of answers is. ListsLemmas: induction over the cutouts; for pixel types from the tiling of the mosaic. | The lists are proved. The clause on numbers is refuted: without the column get_number returns i+1 and get_cseg_cutout works, but get_cseg_weight raises ValueError always and get_uberseg unless the seg map has exactly two values. |
| C137 Extraction from files of coadds | partial | PropCoaddExt.v | The file of coadds, cut at the end of its last coadd, is well formed (tiling of cutouts and psfs from the invariant of the write loop); a read that succeeds in the cut file gives the same in the whole one. Extraction by number: the loop over psf rows has no branch for psf_box_size. | Proved for ranges and all types but ormask, which the extractor does not copy (refuted). Refuted for numbers: extracting a coadd by number raises ValueError, and a result never has an object with a cutout. |
| C138 Extracted files compare equal | proved | PropCmpExt.v | CmpExtLemmas: from C134 the rows with one id in both files come from one row of the first file, so their cutouts are equal; equal cutouts pass every check. Files without any cutout, which are not well formed, are included. | esutil's match gives rows with equal ids; sigma clipping of the means is taken not to raise. Differences of catalog columns (start_row) are only printed by the program and are not part of the statement. No png prefix (C61, C72 say what happens with one). The shared objects must not be none: the program raises then. |
| C139 Parallel PSF writing with PSF objects that have a memory | partial | PropPsfState.v | PsfState.v: layout and both writers over a memory of any type; get_rec may raise, change the memory, and return an array that later calls overwrite. Each writer succeeds exactly when the sequence of calls does and the writes of what it returned do; jobs are compared with it by a relation between memories. | Refuted when get_rec returns a buffer it uses again (a job dumps its images after rendering them all: also below 2000 objects) and when results depend on earlier calls (each group of jobs starts from a copy of the objects; witness with jobs of one object). Proved when neither is the case, and for random numbers with one job or one group; about files made, not about which error is raised. Threads as workers are not modelled; get_rec_shape and get_center do not change the memory. |
| C140 What is in the file after a PSF object failed | partial | PropPsfFail.v | PsfFail.v: the writers of PsfState.v with the state of the disk when they stop. The loops are flattened to the list of cutouts; the ranges of the PSFs tile the extension, so a prefix of the writes fills a prefix of it. | Refuted for joblib: nothing is written before all jobs are done, so that all PSFs are lost when one object raises, also those of finished jobs. Proved serially in full and for joblib in this weaker form (nothing written when an object raises; everything before an image that does not fit otherwise, for objects that do not return a buffer they use again). Of the image with a number too large for single precision itself nothing is said. One hdu.write is taken to happen completely or not at all; which of several failing jobs joblib reports is taken as the first. |
| C141 Comparison of catalogs | partial | PropCmpCat.v | CmpCat.v: numpy.allclose with its broadcasting and floating point arithmetic of the types of the columns; a rounding analysis of |x - y| <= 1e-8 + 1e-5 |y|. | Refuted: a difference below 10^-5 of the number passes (start rows off by 50), the tolerance refers to the second file so that the order of the files matters, and text columns raise TypeError, also for a file compared with itself. Proved for columns of numbers up to that tolerance and rounding (10 units of the coarser type); integers below 2^53, floats below 2^120, integer types of 32 and 64 bits. esutil's sigma_clip is taken not to raise. Broadcasting of a scalar column against one with several elements is modelled but nothing is proved about it. |
| C142 The pixel grid of the coadds | partial | PropCoaddTarget.v | CoaddTarget.v: the medians over the file (nan as no target) and get_coadd_obs with them. CoaddTargetLemmas: sortedness and counting arguments for medians. CoaddTargetLemmas2: equal answers of the accessors (C135) give equal coadds; files without epochs; witnesses made by the maker. | Refuted: the medians are taken element by element, so that two epochs turned by 180 degrees give the zero matrix (the seg map of the coadd is then one pixel everywhere), and the target depends on the whole file, so that extracting an object changes its coadd (witness: its seg map). Proved: each element is the median, a Jacobian of more than half of the objects is the target, bounds of the epochs hold for the target, order does not matter, without epochs no target is used, and extraction keeps the coadds when it keeps the target. Exact rationals (the mean of two is not rounded). |
| C143 Objects counted from the end | partial | PropCoaddRange.v | CoaddRange.v: the writer with numpy indexing, equal to that of Coadd.v for ranges from zero. FromEndLemmas: all accessors use the index only through the checked row. CoaddRangeLemmas: invariant over any list of indices (a row written is in the mosaics below the next free place). CoaddRangeLemmas2: pixels, rows and success by counting pixels over distinct objects. | Refuted: in a file without number column get_number of the k-th object from the end is 1 - k, and a range like [-n, n) names objects twice and runs out of the reserved space (fitsio refuses the write) although every coadd fits. Proved for files with a number column and for ranges that name no object twice (any range for the contents of a file that was written). |
| C144 The order of the images | partial | PropOrder.v | SpecOrder.v: what a rearrangement is and what it means that two cutouts of two files are the same. OrderLemmas: the images that get a cutout of an object (C06) in the second file are the moved ones of the first; the place in the slots of each gives the order; contents from C09/C14 for both files. | Refuted: the number of a cutout is not kept (cutouts follow the order of the images), and with a coadd (first_image_is_coadd) moved from the first place an object may lose cutouts, as the bounds buffer goes with the place. Proved: the cutouts are the same up to their order whenever a coadd stays first; pixels for the types whose file the source supplies (others: C17). |
| C145 Images left out | partial | PropLeave.v | SpecLeave.v: what it means to leave out rows, and which cutouts are from kept images. LeaveLemmas: the images accepting an object (C06) in the small file are those of the large one that are kept; both lists of slots are in the order of the images, so the places correspond increasingly; contents from C09/C14 for both files. | Refuted: with a coadd (first_image_is_coadd) left out, the next image takes its place with the bounds buffer and an object can get a cutout that the file of all images has not. Proved whenever a coadd is kept; pixels for the types whose file the source supplies (others: C17). |
| C146 The origin of the pixel grid | partial | PropFrame.v | SpecFrame.v: arrays, sources and wcs inside larger ones. FrameLemmas: an image that accepts an object (C06) does so in the larger frame; rounding commutes with whole shifts for positions that are not negative; both cutouts are crops (C02) of calibrated images (C16) that agree on the common pixels. | Refuted: an object before the first row or column of the coadd, inside the bounds buffer, has a negative position, which is rounded towards zero and not down; its cutout starts one pixel further and the position inside the cutout differs by one. Proved for positions that are not negative (with position offsets up to 1: all images but the coadd, and objects on the coadd); place, Jacobian and psf for all; exact arithmetic. |
| C147 Other zero points | proved | PropScale.v | SpecScale.v: the same files with other scales. ScaleLemmas: layout and psfs depend on the images only through their wcs and offsets; both cutouts are crops (C02) of one array with two factors. ScaleLemmas2: simulation of the two runs by arrays of equal shapes. ScaleLemmas3: the masks come from seg cutouts, which are the same; masked accessors simulated pixel by pixel. | Pixels: for types for which the source has a file; the same psf objects and contents of the reserved psf space; exact arithmetic. ormask and noise cannot be written by the maker (C18). The scale column of image_info differs, of course. Masked weights: for files with weight and seg extensions, and sources with a weight file for the image and a seg file for the coadd. |
| C148 Backgrounds taken off before | proved | PropNet.v | SpecNet.v: sources of equal difference. NetLemmas: layout and psfs do not depend on the sources; calibrated images (C16) of equal differences are equal, and cutouts are crops of them (C02). NetLemmas2: simulation of the two runs as for C147. | For types for which the source has a file; the same psf objects and contents of the reserved psf space; exact arithmetic (in single precision the order of subtraction and rounding matters, C91). |
| C149 Bits that are not declared unusable | proved | PropBits.v | SpecBits.v: masks that flag the same pixels. BitsLemmas: images of all types but bmask read the same arrays; simulation of the two runs by files equal but for the bmask extension. | The shapes of the masks stay the same; a mask is not added or removed; the same contents of the reserved space; exact integers (C90 for the file's integer type). |
| C150 Each cutout type has its own files | proved | PropOwn.v | SpecOwn.v: sources that agree in the files of one type. OwnLemmas: layout and psfs do not depend on the sources; both cutouts are crops (C02) of the same array. OwnLemmas2: the loop over the types touches an extension only at its own type. | C150_own: for types for which the source has a file, any reserved space and types; C150_extension: all types, the same types and reserved space. When both files are made (a file that cannot be read stops the run for all types); the same psf objects and contents of the reserved psf space. |

## Print Assumptions of every theorem

`ClassicalDedekindReals.sig_forall_dec`, `ClassicalDedekindReals.sig_not_dec`, `Classical_Prop.classic`, `FunctionalExtensionality.functional_extensionality_dep`:

* `C42_hemisphere_refuted`
* `C118_distorted_refuted`
* `C118_tangent_plane_partial`

`ClassicalDedekindReals.sig_forall_dec`, `ClassicalDedekindReals.sig_not_dec`, `FunctionalExtensionality.functional_extensionality_dep`:

* `C36_outlier_criterion`
* `C36_fewer_than_three_images`
* `C37_idempotent`
* `C126_overflow_refuted`
* `C126_criterion_partial`
* `C41_gnomonic`
* `C41_undefined_at_90_degrees`
* `C41_centre`
* `C41_periodic`
* `C41_norm`
* `C41_u_direction`
* `C41_v_on_the_meridian`
* `C41_orthonormal`
* `C42_antipodes_always_together`
* `C42_cut_is_bounds_partial`
* `C42_nothing_on_the_image_is_cut`
* `C118_distortion_partial`

`ClassicalDedekindReals.sig_forall_dec`, `FunctionalExtensionality.functional_extensionality_dep`:

* `C36_median_unique`

Closed under the global context (535 theorems):

* `C01_cutouts_tile_mosaics`, `C01_pixel_count_check_never_fails`
* `C02_write_then_read`
* `C03_clipped_ranges`, `C03_stamp_pixels`
* `C04_mosaic_is_stack`, `C04_split_mosaic`
* `C05_mosaic_determined`, `C05_success_independent_of_disk`
* `C06_exactly_the_images_containing_it`
* `C07_recorded_positions`
* `C08_slots`
* `C09_even_boxes`
* `C10_coadd_check_exact`, `C10_first_cutout_is_coadd`
* `C100_only_later_refuted`, `C100_skip_partial`
* `C101_periodic_partial`, `C101_code_partial`, `C101_extent_partial`, `C101_too_large_refuted`, `C101_outside_refuted`
* `C102_empty_refuted`, `C102_moved_partial`
* `C103_not_finite`
* `C104_build_memory`
* `C105_search_memory`
* `C106_within_buffers_refuted`, `C106_full_name_fails_partial`, `C106_within_partial`, `C106_exactly_partial`, `C106_shorter_names_partial`
* `C107_everything_back_refuted`, `C107_failure_refuted`, `C107_account_partial`, `C107_desdata_partial`
* `C108_nothing_lost_refuted`, `C108_account_partial`
* `C109_wrapped_refuted`, `C109_number_refuted`, `C109_double_refuted`, `C109_same_partial`, `C109_rounded_partial`, `C109_two_values_partial`
* `C11_trim_keeps_objects_inside`, `C11_check_never_fails_after_trim`
* `C110_status_refuted`, `C110_failure_refuted`, `C110_range_partial`, `C110_range_outcomes_partial`, `C110_negative_partial`, `C110_catalog_partial`, `C110_catalog_outcomes_partial`, `C110_integers_partial`
* `C111_images_refuted`, `C111_objects_refuted`, `C111_status_partial`, `C111_no_file_partial`
* `C112_reference_refuted`, `C112_reference_partial`, `C112_centre_partial`, `C112_file_id_partial`, `C112_distortion_partial`, `C112_cutout_partial`, `C112_mosaic_partial`
* `C113_bitmask_refuted`, `C113_psf_refuted`, `C113_joblib_refuted`, `C113_text_refuted`, `C113_layout_partial`, `C113_output_partial`, `C113_extname_partial`, `C113_order_partial`, `C113_default_partial`, `C113_accepts_partial`, `C113_file_partial`
* `C114_own_astrometry`, `C114_one_astrometry`
* `C115_unchanged_refuted`, `C115_objects_partial`
* `C116_incomplete_refuted`, `C116_other_files`, `C116_complete_partial`, `C116_layout_partial`, `C116_left_partial`
* `C117_adds_up_refuted`, `C117_central_pixel_refuted`, `C117_off_the_image_refuted`, `C117_buffer_refuted`, `C117_none_lost`, `C117_inside_partial`, `C117_usual_offsets`, `C117_usual_positions`, `C117_coarse_partial`, `C117_positions_partial`, `C117_exact_partial`, `C117_written_partial`
* `C119_names_refuted`, `C119_longer_names`, `C119_names_partial`, `C119_kept`, `C119_refused`, `C119_astrometry`, `C119_versions`
* `C12_force_into_coadd_bounds_refuted`, `C12_force_changes_nothing`
* `C120_boxes`, `C120_input`, `C120_unset`
* `C121_refused`, `C121_complete`, `C121_other_files`, `C121_again`, `C121_generator`, `C121_coadder`
* `C122_once_refuted`, `C122_left_refuted`, `C122_extensions_partial`, `C122_found_partial`, `C122_same_partial`, `C122_left_partial`
* `C123_answers_refuted`, `C123_answers_partial`, `C123_tables_partial`, `C123_kept`, `C123_others`
* `C124_refuted`, `C124_partial`, `C124_late_partial`, `C124_arrays`
* `C125_refuted`, `C125_frame_refuted`, `C125_pixel_partial`, `C125_cweight_partial`, `C125_cseg_partial`, `C125_interpolate_partial`, `C125_frame_partial`, `C125_no_inverse`
* `C126_nan_refuted`, `C126_median_finite`, `C126_nan_partial`, `C126_total`, `C126_weights`, `C126_count`, `C126_few`
* `C127_positive_refuted`, `C127_positive_partial`, `C127_nan`, `C127_fraction`, `C127_flags`, `C127_same`
* `C128_images_refuted`, `C128_self_refuted`, `C128_images_partial`, `C128_nan`, `C128_equal`, `C128_weights_partial`, `C128_weights_self`, `C128_exact`, `C128_shapes`
* `C129_zero_based_refuted`, `C129_wcs_refuted`, `C129_usual_partial`, `C129_coarse`, `C129_near`, `C129_offset`, `C129_stored`, `C129_one_column`, `C129_shapes`, `C129_nan`
* `C13_parallel_equals_serial`, `C13_jobs_cover`
* `C130_exact_refuted`, `C130_nearest_partial`, `C130_single`, `C130_sum`, `C130_order`, `C130_too_large`, `C130_list`
* `C131_output_partial`, `C131_output_with_ids_partial`, `C131_lines_partial`, `C131_decimal_partial`, `C131_single_partial`, `C131_exact_refuted`, `C131_finite_refuted`
* `C132_box_partial`, `C132_same_partial`, `C132_covers_refuted`, `C132_no_axis_partial`
* `C133_all_types_refuted`, `C133_left_refuted`, `C133_extensions_partial`, `C133_same_partial`, `C133_left_partial`, `C133_checks_partial`, `C133_clobbers_partial`, `C133_unknown_partial`
* `C134_chain`, `C134_agree`, `C134_range_works`, `C134_numbers_work`, `C134_maker_files`
* `C135_answers`, `C135_agree`
* `C136_no_column_refuted`, `C136_numbers_partial`, `C136_no_column_partial`, `C136_psfs_partial`, `C136_jacobians_partial`, `C136_ubersegs_partial`, `C136_cutouts_partial`
* `C137_numbers_refuted`, `C137_ormask_refuted`, `C137_range_partial`, `C137_numbers_partial`
* `C138_nothing_found`, `C138_status`
* `C139_buffer_refuted`, `C139_random_refuted`, `C139_same_partial`, `C139_one_job_partial`, `C139_memory_partial`, `C139_cache_partial`
* `C14_psf_round_trip`, `C14_shape_mismatch_raises`, `C14_honest_shapes_succeed`
* `C140_lost_refuted`, `C140_serial_partial`, `C140_joblib_partial`, `C140_old_partial`, `C140_complete_partial`
* `C141_exact_refuted`, `C141_order_refuted`, `C141_text_refuted`, `C141_text_partial`, `C141_fields_partial`, `C141_self_partial`, `C141_names`
* `C142_singular_refuted`, `C142_others_refuted`, `C142_median_partial`, `C142_common_partial`, `C142_between_partial`, `C142_order`, `C142_exists`, `C142_no_epochs`, `C142_no_target_iff`, `C142_extracted_partial`
* `C143_number_refuted`, `C143_twice_refuted`, `C143_from_end_partial`, `C143_outside_partial`, `C143_coadder_partial`, `C143_pixels_partial`, `C143_rows_partial`, `C143_written_partial`, `C143_same_partial`
* `C144_place_refuted`, `C144_coadd_refuted`, `C144_order_partial`, `C144_writable_partial`
* `C145_coadd_refuted`, `C145_cutouts_partial`, `C145_writable_partial`
* `C146_buffer_refuted`, `C146_frames_partial`
* `C147_scaled`, `C147_significance`, `C147_outcome`, `C147_masked`
* `C148_net`, `C148_outcome`
* `C149_bits`, `C149_outcome`
* `C15_parallel_psf_equals_serial`
* `C150_own`, `C150_extension`, `C150_masked`
* `C16_calibration`, `C16_significance_independent_of_scale`, `C16_weights_stay_nonpositive`
* `C17_skipped_type_partial`, `C17_skipped_cutouts_are_reserved_space`, `C17_required_type_raises`, `C17_missing_file_skipped_refuted`
* `C18_writable_partial`, `C18_no_fill_value_not_writable`, `C18_supported_type_writable_refuted`
* `C19_second_write_exact_partial`, `C19_second_write_raises_partial`, `C19_second_write_partial`, `C19_write_repeatable_refuted`
* `C20_types_normalised`, `C20_image_once`, `C20_unsupported_raises`, `C20_error_is_ValueError`
* `C21_complement_bits`, `C21_only_allowed_bits`
* `C22_recorded_position_on_image`, `C22_other_offset_refuted`
* `C23_out_of_range_rejected_partial`, `C23_negative_index_refuted`
* `C24_empty_object_partial`, `C24_psf_mosaic_refuted`, `C24_psf_list_of_empty_object_refuted`
* `C25_maker_files_wf`, `C25_cweight`, `C25_cseg`, `C25_interpolation`
* `C26_cweight_semantics`, `C26_weights_kept_or_zeroed`, `C26_restrict_removes_more`
* `C27_zero_outside_refuted`, `C27_cseg_partial`
* `C28_interpolation_semantics`, `C28_singular_jacobian`, `C28_same_geometry`
* `C29_python_uberseg`, `C29_only_removes`
* `C30_direct_equals_python`
* `C31_tree_uberseg`, `C31_tree_equals_python_without_ties`, `C31_any_arrays`
* `C32_build`, `C32_find_sphere`
* `C33_all_sky_refuted`, `C33_all_sky`, `C33_returns_partial`
* `C34_shortcut_refuted`, `C34_shortcut_partial`
* `C35_circular_weight`, `C35_needs_number`
* `C38_contains_point`, `C38_contains_points`, `C38_contains_bounds`, `C38_contains_bounds_transitive`, `C38_contained_points`, `C38_expand_points`, `C38_expand_point`, `C38_intersects`, `C38_intersects_symmetric`
* `C39_expand_bounds_refuted`, `C39_contains_old`, `C39_contains_new_partial`
* `C40_offset_round_trip`, `C40_inverse_round_trip`, `C40_difference_is_offset`
* `C43_maker_files`, `C43_any_file`
* `C44_only_image_refuted`, `C44_ormask_refuted`, `C44_types_partial`
* `C45_compose`, `C45_compose_without_cutouts`
* `C46_without_cutouts`
* `C47_numbers`, `C47_maker_files`
* `C48_row_carries_number`, `C48_duplicate_refuted`, `C48_one_number_partial`, `C48_raises_partial`, `C48_unique_found`
* `C49_psf_box_refuted`, `C49_no_bmask_refuted`, `C49_psf_per_object_refuted`, `C49_layouts_partial`
* `C50_same_name_refuted`, `C50_alias_refuted`, `C50_input_untouched_partial`, `C50_only_the_output_touched`, `C50_rejected_without_cleanup_partial`
* `C51_catalog_copied`
* `C52_flags_and_counts`, `C52_one_documented_bit`, `C52_total`
* `C53_ormask`
* `C54_layout`, `C54_pixels`, `C54_rows`, `C54_written`, `C54_coadder_gives_stamps`, `C54_coadds_written`
* `C55_weight`, `C55_mask`, `C55_unusable_stays`, `C55_weight_invariant_refuted`, `C55_mask_invariant_refuted`, `C55_bits_kept_refuted`
* `C56_any_flag_refuted`, `C56_exactly_disjoint`, `C56_bad_pixels_partial`, `C56_edge_pixels_partial`
* `C57_stamp_edge_switch_refuted`, `C57_stamp_edge_off_raises`, `C57_stamp_edge_off_unused`, `C57_central_off`, `C57_every_size_refuted`, `C57_central_rejected_partial`, `C57_central_detected_partial`, `C57_central_only_partial`, `C57_checks_total`
* `C58_interpolation`
* `C59_same_behaviour_refuted`, `C59_history`, `C59_same_behaviour_partial`
* `C60_exact_types`, `C60_weights_only_reported`, `C60_images_only_reported`, `C60_self`
* `C61_default_refuted`, `C61_without_pictures`
* `C62_cutouts`, `C62_no_other_cutouts`, `C62_mosaics`, `C62_no_other_mosaics`, `C62_facts`, `C62_no_other_facts`, `C62_no_such_object`
* `C63_requested_cutout_refuted`, `C63_first_cutout_partial`
* `C64_large_enough_refuted`, `C64_when_large_enough_partial`
* `C65_smallest`, `C65_largest`, `C65_monotone`, `C65_idempotent`, `C65_box_is_fft_size`, `C65_box_at_most`, `C65_box_at_least`, `C65_box_covers`, `C65_box_smallest`
* `C66_accepts_maker_files`, `C66_image_info_checked`, `C66_missing_table_refuted`, `C66_fails_partial`, `C66_reports_partial`
* `C67_collision_refuted`, `C67_written_metadata_rejected_partial`, `C67_columns_partial`
* `C68_source_info`
* `C69_empty_object_refuted`, `C69_empty_object_raises`, `C69_no_file`
* `C70_any_position_refuted`, `C70_lower_bound_partial`, `C70_from_a_point_partial`
* `C71_reasons_recorded_refuted`, `C71_reasons_recorded_partial`
* `C72_empty_first_refuted`, `C72_stale_picture_refuted`, `C72_pictures_partial`
* `C73_opens_maker_files_refuted`, `C73_documented_columns_rejected_partial`, `C73_when_opened_partial`
* `C74_every_field_refuted`, `C74_fields_before_a_gap_partial`
* `C75_psf_named_column_refuted`, `C75_columns_partial`, `C75_computed_partial`
* `C76_reuse_refuted`, `C76_counts_partial`, `C76_width_partial`, `C76_column_width_partial`, `C76_taken_over_partial`
* `C77_rows_refuted`, `C77_fails_partial`, `C77_columns_partial`
* `C78_source_refuted`, `C78_geometry_partial`, `C78_source_partial`
* `C79_single_precision`, `C79_equals_python_without_ties`, `C79_any_arrays`, `C79_rounding`, `C79_integers`
* `C80_objects_independent`
* `C81_later_images_only_append`
* `C82_unused_colours`, `C82_color_before_wcs_color`, `C82_used_colours`, `C82_used_psf_colours`
* `C83_extract_of_made`
* `C84_weights_renamed`, `C84_segs_renamed`
* `C85_lines_partial`, `C85_lines_with_ids_partial`, `C85_rejected_partial`, `C85_words_rejected_refuted`, `C85_numbers_partial`
* `C86_mosaic_partial`, `C86_cutout_partial`, `C86_nothing_written_partial`, `C86_other_files_partial`, `C86_failure_status_refuted`, `C86_index_checked_refuted`, `C86_input_kept_refuted`
* `C87_epochs`, `C87_objects`
* `C88_planes_partial`, `C88_call_partial`, `C88_same_start_partial`, `C88_noise_refuted`
* `C89_asked_partial`, `C89_other_rows_refuted`
* `C90_integers_partial`, `C90_refuted`
* `C91_image`, `C91_weight`, `C91_exact`
* `C92_floats_partial`, `C92_only_floats`, `C92_refuted`
* `C93_grid`, `C93_combined`
* `C94_separate_partial`, `C94_combined_partial`, `C94_same_way_up_refuted`
* `C95_objects`, `C95_pictures`, `C95_nothing_asked`
* `C96_page_complete_iff_partial`, `C96_quit_refuted`, `C96_beyond_end_refuted`
* `C97_image_partial`, `C97_negative_refuted`, `C97_white_refuted`, `C97_nan_refuted`, `C97_psf_partial`, `C97_flat_psf_refuted`, `C97_seg_partial`, `C97_sign_bit_refuted`
* `C98_box`
* `C99_radius_refuted`, `C99_sphere_partial`
