{"id": "C01", "title": "Cutout pixel ranges tile the mosaic", "statement": "In a file written by MEDSMaker.write, the pixel ranges [start_row, start_row+box_size^2) of all cutouts, taken in catalog order and then cutout order, are consecutive: the first starts at 0, each starts where the previous ended, and the last ends exactly at the number of pixels reserved for each mosaic. Hence ranges of different cutouts never overlap and never leave the mosaic, and the 'total_pixels != npix' ValueError can never be raised.", "quantifier": "every catalog (any number of objects, any box sizes, any number of cutouts per object, including zero)", "why_tests_cant": "The claim is about all pairs of cutouts of all catalogs; a test sees a handful of catalogs and an off-by-one only shows for particular mixes of empty and non-empty objects.", "anchors": ["meds/maker.py:MEDSMaker._set_start_rows_and_pixel_count"]}
{"id": "C02", "title": "Write then read returns the source pixels", "statement": "For every object i, cutout k < ncutout[i] and cutout type t in {image, weight, seg, bmask} present for the source file, MEDS(file).get_cutout(i,k,t) returns a box_size x box_size image whose pixel (r,c) is the source image pixel (orig_start_row+r, orig_start_col+c) after calibration when that position lies on the source image, and the fill value of the type otherwise. No other write to the file changes it.", "quantifier": "every catalog, every set of source images of any shape, every object/cutout/type/pixel", "why_tests_cant": "Requires that later writes of other objects, files and types never clobber this one, for all layouts and histories of writes.", "anchors": ["meds/maker.py:MEDSMaker._write_cutouts", "meds/maker.py:MEDSMaker._write_cutout", "meds/meds.py:MEDS.get_cutout"]}
{"id": "C03", "title": "Boxes crossing image edges are clipped correctly", "statement": "For a box of any size at any (possibly negative or beyond-the-edge) start, the clipped source slice and destination slice have the same length, lie inside the source axis and the box respectively, and pair up exactly the positions that are on the image; if no position of the box is on the image nothing is copied and the whole cutout holds the fill value (0 for image, weight and seg, 2**30 for bmask).", "quantifier": "every axis length, start and box size", "why_tests_cant": "Edge geometry has many cases (left, right, both, fully outside on either side); tests enumerate a few integers.", "anchors": ["meds/maker.py:MEDSMaker._get_clipped_boxes", "meds/maker.py:MEDSMaker._write_cutout", "meds/defaults.py:default_values"]}
{"id": "C04", "title": "A mosaic is the stack of its cutouts", "statement": "For files written by the maker, get_mosaic(i,t) has ncutout*box_size rows and its k-th block of box_size rows equals get_cutout(i,k,t); get_cutout_list(i,t) has exactly ncutout[i] entries and entry k equals get_cutout(i,k,t). Splitting a stack of equal square images returns those images.", "quantifier": "every maker-written file, object, cutout type", "why_tests_cant": "Holds only because cutouts of an object are stored contiguously; must hold for every layout.", "anchors": ["meds/meds.py:MEDS.get_mosaic", "meds/meds.py:MEDS.get_cutout_list", "meds/meds.py:split_mosaic"]}
{"id": "C05", "title": "Every mosaic pixel is defined by the inputs", "statement": "The content of each mosaic after MEDSMaker.write does not depend on what the reserved disk space held before, provided each source file supplies that type; and the mosaic of one type does not depend on which other types are written.", "quantifier": "every initial content of the reserved space, every catalog and image set", "why_tests_cant": "Uninitialised-space bugs are invisible when the filesystem happens to return zeros.", "anchors": ["meds/maker.py:MEDSMaker._reserve_mosaic_images", "meds/maker.py:MEDSMaker._write_cutouts"]}
{"id": "C06", "title": "Each object gets exactly the images that contain it", "statement": "After the layout is built, ncutout[i] is the number of images whose sky cut and pixel bounds accept object i; file_id[i,:ncutout[i]] lists exactly these images in increasing order without repetition.", "quantifier": "every catalog, every list of images, every WCS (as an arbitrary pointwise function) and every sky cut", "why_tests_cant": "Index composition through two successive 'where' selections with scatter assignment; errors appear only for particular subsets.", "anchors": ["meds/maker.py:MEDSMaker._build_meds_layout", "meds/maker.py:MEDSMaker._get_pos_and_bounds"]}
{"id": "C07", "title": "Recorded positions refer to the right image and are mutually consistent", "statement": "For each cutout k of object i with file_id f: orig_row/orig_col are the zero-offset position of object i under the WCS of image f, cutout_row = orig_row - orig_start_row (same for col), and the recorded Jacobian is that of image f at that position. For positions >= 0 the object lies within half a pixel of the natural centre (box_size-1)/2 of the cutout.", "quantifier": "every catalog, image list and WCS", "why_tests_cant": "Needs all objects/images; wrong pairing (q versus q_rc) shows only when the two cuts select different subsets.", "anchors": ["meds/maker.py:MEDSMaker._build_meds_layout", "meds/util.py:make_wcs_positions"]}
{"id": "C08", "title": "Unused cutout slots keep the sentinel and used slots survive resizing", "statement": "In the object_data written by the maker the per-cutout arrays have length max(2, max ncutout); slots at index >= ncutout[i] hold -9999 in every field, slots below are those filled during layout, and no object, id or per-object field is lost or reordered by the resize.", "quantifier": "every catalog and number of images", "why_tests_cant": "Quantifies over all slots of all objects after a resize whose size depends on the data.", "anchors": ["meds/maker.py:MEDSMaker._make_resized_data", "meds/util.py:get_meds_output_struct"]}
{"id": "C09", "title": "Box sizes are rounded up to even", "statement": "Every box_size in the written catalog is even, is not smaller than the requested size and exceeds it by at most one; even requests are unchanged.", "quantifier": "every catalog", "why_tests_cant": "Universal over integers.", "anchors": ["meds/maker.py:MEDSMaker._force_box_sizes_even"]}
{"id": "C10", "title": "The coadd check is exact and the first cutout is the coadd", "statement": "With first_image_is_coadd, check_in_coadd and without force_into_coadd_bounds, building the layout raises MEDSCreationError if and only if some object is not inside the (buffered) coadd bounds; when it does not raise, every object has at least one cutout and its cutout 0 is from image 0.", "quantifier": "every catalog, image list, WCS, buffer", "why_tests_cant": "An if-and-only-if over all catalogs.", "anchors": ["meds/maker.py:MEDSMaker._build_meds_layout"]}
{"id": "C11", "title": "Trimming to the coadd keeps exactly the objects inside it", "statement": "With trim_to_coadd the output catalog is the input catalog restricted, in order, to the objects inside the buffered coadd bounds; the later coadd check then never fails.", "quantifier": "every catalog with at least one object in the coadd, every WCS", "why_tests_cant": "Depends on index composition for arbitrary subsets.", "anchors": ["meds/maker.py:MEDSMaker._build_meds_layout"]}
{"id": "C12", "title": "Forcing into the coadd bounds", "statement": "With force_into_coadd_bounds=True, objects inside the buffer zone around the coadd are moved to the edge of the image, so that every recorded coadd position lies within the unbuffered image bounds (documented in default_config).", "quantifier": "every catalog, WCS and buffer", "why_tests_cant": "The documented effect concerns positions in a 1e-3 pixel zone that random tests essentially never hit.", "anchors": ["meds/maker.py:MEDSMaker._force_into_coadd_bounds", "meds/defaults.py:default_config"]}
{"id": "C13", "title": "Parallel sky-to-image conversion equals the serial one", "statement": "With joblib enabled, the chunked conversion returns the same positions in the same order as the serial call, for any number of workers and any number of objects: the chunks cover every object exactly once and none is empty.", "quantifier": "every list length, worker count >= 1 and pointwise WCS; every completion order of the jobs given that outputs are returned in submission order", "why_tests_cant": "Chunk boundary errors occur only for particular length/worker combinations.", "anchors": ["meds/maker.py:MEDSMaker._do_sky2image", "meds/maker.py:_sky2image_func"]}
{"id": "C14", "title": "PSF images round trip with per-cutout shapes", "statement": "When PSF data are given, the psf ranges [psf_start_row, +row_size*col_size) tile the psf mosaic consecutively and get_psf(i,k) returns exactly the image the PSF object of the cutout's source file returned for the recorded position, whatever the (varying) shapes; if a returned image has a shape other than announced, ValueError is raised.", "quantifier": "every catalog and PSF family with arbitrary shapes", "why_tests_cant": "Variable record sizes: correctness of every start depends on all previous shapes.", "anchors": ["meds/maker.py:MEDSMaker._set_psf_layout", "meds/maker.py:MEDSMaker._write_psf_cutouts_serial", "meds/meds.py:MEDS.get_psf"]}
{"id": "C15", "title": "Parallel PSF writing equals serial PSF writing", "statement": "The joblib PSF path produces exactly the file (or the error) that the serial path produces, for any number of objects relative to the chunk size of 2000.", "quantifier": "every catalog, every chunk size >= 1, every PSF family whose rendering succeeds", "why_tests_cant": "Chunked bookkeeping (per job counter) only matters beyond 2000 objects.", "anchors": ["meds/maker.py:MEDSMaker._write_psf_cutouts_joblib", "meds/maker.py:_psf_rec_func"]}
{"id": "C16", "title": "Calibration of image and weight", "statement": "Image pixels are (raw - background) * scale (background omitted if no file is given); weight pixels are raw / scale^2, and 0 wherever the bitmask has an unusable bit set; with scale > 0 the significance image^2*weight of unmasked pixels does not depend on scale, and no weight becomes positive that was not.", "quantifier": "every pixel value, background, scale and bitmask", "why_tests_cant": "Real-valued universal statement.", "anchors": ["meds/maker.py:MEDSMaker._read_image", "meds/maker.py:MEDSMaker._check_bad_bmask"]}
{"id": "C17", "title": "A missing source file for a type is skipped", "statement": "If a source has no file for a cutout type (path blank or 'none'), writing that type skips the source and continues.", "quantifier": "every image list and cutout type", "why_tests_cant": "Concerns every combination of missing files and types.", "anchors": ["meds/maker.py:MEDSMaker._write_cutouts", "meds/maker.py:MEDSMaker._read_image", "meds/maker.py:MEDSMaker._read_one_image"]}
{"id": "C18", "title": "Every supported cutout type can be written", "statement": "For each type the maker accepts in cutout_types (image, weight, seg, bmask, ormask, noise), writing cutouts of that type from a complete image_info succeeds.", "quantifier": "every supported type, every catalog", "why_tests_cant": "Needs all types times all catalogs.", "anchors": ["meds/maker.py:SUPPORTED_CUTOUT_TYPES", "meds/maker.py:MEDSMaker._write_cutout", "meds/defaults.py:default_values"]}
{"id": "C19", "title": "Writing is repeatable", "statement": "Calling write() twice on the same maker produces the same file contents both times.", "quantifier": "every catalog and image list, every history of write calls", "why_tests_cant": "History property: tests call write once.", "anchors": ["meds/maker.py:MEDSMaker.write", "meds/maker.py:MEDSMaker._build_meds_layout"]}
{"id": "C20", "title": "Cutout type list normalisation", "statement": "The configured list of cutout types is normalised to one that starts with 'image', contains the same other types in the same order, and construction raises ValueError if and only if some requested type is unsupported; the caller's list is not modified.", "quantifier": "every list of type names", "why_tests_cant": "Universal over lists (duplicates, order, unknown names).", "anchors": ["meds/maker.py:MEDSMaker._set_cutout_types", "meds/maker.py:SUPPORTED_CUTOUT_TYPES"]}
{"id": "C21", "title": "Allowed-bits mask and its complement", "statement": "bitmask_allowed_inv is the exact 32-bit complement of bitmask_allowed: a bit of a 32-bit mask value is set in the one iff it is clear in the other, so a 32-bit mask value has only allowed bits iff its AND with the complement is 0.", "quantifier": "every 32-bit mask and value", "why_tests_cant": "2^64 combinations.", "anchors": ["meds/maker.py:MEDSMaker._load_config"]}
{"id": "C22", "title": "Image bounds select positions on the image", "statement": "An object is given a cutout from an image only if its recorded zero-offset position lies in [0,nrow-1] x [0,ncol-1] (plus the buffer for the coadd).", "quantifier": "every image size, position_offset and position", "why_tests_cant": "Depends on the offset convention for all values.", "anchors": ["meds/maker.py:MEDSMaker._get_image_bounds", "meds/util.py:make_wcs_positions", "meds/util.py:get_image_info_struct"]}
{"id": "C23", "title": "Out-of-range indices are rejected", "statement": "get_cutout, get_psf, get_source_info and get_jacobian raise for every (iobj, icutout) that is not a valid index, i.e. unless 0 <= iobj < size and 0 <= icutout < ncutout[iobj].", "quantifier": "every file and every pair of integers", "why_tests_cant": "All integers, including negative ones, which Python would silently wrap.", "anchors": ["meds/meds.py:MEDS._check_indices"]}
{"id": "C24", "title": "Accessors agree on objects without cutouts and on PSF types", "statement": "For an object with no cutouts all list accessors behave alike (raise ValueError), and type='psf' is accepted by get_mosaic as documented.", "quantifier": "every file and object", "why_tests_cant": "Cross-method consistency over all files.", "anchors": ["meds/meds.py:MEDS.get_psf_list", "meds/meds.py:MEDS.get_cutout_list", "meds/meds.py:MEDS.get_mosaic", "meds/meds.py:MEDS.get_uberseg_list"]}
{"id": "C25", "title": "Composite list and mosaic accessors agree with the single-cutout ones", "statement": "On maker-written files get_cweight_cutout_list(i)[k] = get_cweight_cutout(i,k), get_cseg_cutout_list(i)[k] = get_cseg_cutout(i,k), interpolate_coadd_seg_mosaic block k = interpolate_coadd_seg(i,k), for every k, although the mosaic versions work in place on shared storage.", "quantifier": "every maker-written file, object, cutout and restrict_to_seg value", "why_tests_cant": "Aliasing between views: must hold for every order of in-place updates.", "anchors": ["meds/meds.py:MEDS.get_cweight_mosaic", "meds/meds.py:MEDS.get_cseg_mosaic", "meds/meds.py:MEDS.interpolate_coadd_seg_mosaic"]}
{"id": "C26", "title": "Composite weight keeps exactly the pixels of the central object (and sky)", "statement": "get_cweight_cutout(i,k) equals the weight cutout except that a pixel is 0 iff the coadd seg pixel nearest to its image under the Jacobian map (clipped to the coadd stamp) belongs to another object than the one at the coadd centre (with restrict_to_seg: is not that object). Weights are never increased, restrict_to_seg only removes more, and a singular coadd Jacobian gives all zeros for k>0.", "quantifier": "every file, object, cutout, Jacobian", "why_tests_cant": "Universal over real-valued geometry.", "anchors": ["meds/meds.py:MEDS._make_composite_image", "meds/meds.py:MEDS.get_cweight_cutout"]}
{"id": "C27", "title": "Composite seg: documented zero outside, number inside", "statement": "get_cseg_cutout(i,k) is the object's number inside its coadd seg region and zero outside it (documented).", "quantifier": "every file, object and cutout", "why_tests_cant": "Semantic statement about all pixels.", "anchors": ["meds/meds.py:MEDS.get_cseg_cutout", "meds/meds.py:MEDS._make_composite_image"]}
{"id": "C28", "title": "Interpolated segmentation maps are faithful", "statement": "interpolate_coadd_seg(i,k) always has the coadd stamp's shape and each of its values is a value of the coadd seg map; no index error can occur however extreme the Jacobians are; if cutout k has the Jacobian and centre of the coadd (nonsingular) the result is the coadd seg map itself; k=0 returns the coadd seg map.", "quantifier": "every seg map, Jacobian pair and centres", "why_tests_cant": "Universal over maps and matrices.", "anchors": ["meds/meds.py:MEDS.interpolate_coadd_seg", "meds/meds.py:MEDS._interpolate_coadd_seg_image"]}
{"id": "C29", "title": "Uberseg semantics (reference implementation)", "statement": "With more than two distinct seg values, get_uberseg(fast=False) zeroes exactly the pixels whose nearest non-sky seg pixel (first in row-major order among equals) is not the object's; all other pixels equal the composite weight. In every case, with the C code or without it and whatever the seg map, each pixel is that of the composite weight or 0.", "quantifier": "every seg map, weight map, object number", "why_tests_cant": "Nearest-neighbour statement over all maps.", "anchors": ["meds/meds.py:MEDS.get_uberseg"]}
{"id": "C30", "title": "Direct C uberseg equals the Python one", "statement": "uberseg_direct produces the same weight map as the Python loop for every seg map that contains at least one non-sky pixel.", "quantifier": "every integer seg map, weight map, object number other than 0 (0 denotes sky)", "why_tests_cant": "Two implementations, all inputs.", "anchors": ["meds/_uberseg.c:uberseg_direct", "meds/meds.py:MEDS.get_uberseg"]}
{"id": "C31", "title": "Tree-based C uberseg equals the Python one up to ties", "statement": "uberseg_tree zeroes a pixel iff the seg value of a nearest non-sky pixel is not the object's number; it agrees with the Python loop at every pixel whose nearest non-sky pixels all carry the same seg value.", "quantifier": "every seg map of nonnegative integers with at least two non-sky pixels or no sky pixel, every weight map and object number other than 0 (0 denotes sky)", "why_tests_cant": "Requires a k-d tree search to be exact for all point sets.", "anchors": ["meds/_uberseg.c:uberseg_tree", "meds/fast3tree.c:fast3tree_find_next_closest_distance", "meds/fast3tree.c:fast3tree_find_sphere"]}
{"id": "C32", "title": "k-d tree build and sphere query are exact", "statement": "fast3tree_init arranges a permutation of the given points into nodes whose boxes are the exact bounding boxes of their points, the recursion terminates for every input, and fast3tree_find_sphere returns every point strictly inside the sphere and no point strictly outside it, each once.", "quantifier": "every finite point set (including duplicates) and every centre/radius", "why_tests_cant": "Recursive in-place partition; errors show up only for special configurations.", "anchors": ["meds/fast3tree.c:_fast3tree_sort_dim_pos", "meds/fast3tree.c:_fast3tree_split_node", "meds/fast3tree.c:_fast3tree_find_sphere"]}
{"id": "C33", "title": "Uberseg returns for every seg map", "statement": "get_uberseg terminates and returns a weight map for every seg map, with fast=True and fast=False alike.", "quantifier": "every seg map, including all-sky", "why_tests_cant": "Termination for all inputs.", "anchors": ["meds/_uberseg.c:uberseg_tree", "meds/meds.py:MEDS.get_uberseg"]}
{"id": "C34", "title": "Uberseg's two-value shortcut", "statement": "The shortcut taken when the seg map has exactly two distinct values returns the same map the full algorithm would.", "quantifier": "every seg map with two distinct values", "why_tests_cant": "Needs all maps; typical tests have {0, number}.", "anchors": ["meds/meds.py:MEDS.get_uberseg"]}
{"id": "C35", "title": "Circular seg weight", "statement": "get_cseg_weight(i,k) equals the weight map on the largest open disc around the chosen centre that contains no pixel of another object and is 0 elsewhere; hence no pixel of another object has weight; with no other object the weight map is returned unchanged.", "quantifier": "every seg and weight map, centre, number", "why_tests_cant": "Extremal statement over all maps.", "anchors": ["meds/meds.py:MEDS.get_cseg_weight"]}
{"id": "C36", "title": "Outlier rejection criterion", "statement": "reject_outliers with >= 3 images zeroes exactly the pixels with positive weight for which |im-med| > nsigma*sigma + A*|med|, sigma = 1/sqrt(weight), med the per-pixel median (nsigma, A >= 0); other positive weights are untouched, negative weights become 0, images are never modified and the returned count is the number of pixels zeroed; with fewer than 3 images nothing changes and 0 is returned.", "quantifier": "every list of images and weights, nsigma, A", "why_tests_cant": "The implemented criterion is a squared form; equivalence is a real-analysis statement for all values.", "anchors": ["meds/meds.py:reject_outliers"]}
{"id": "C37", "title": "Outlier rejection is idempotent", "statement": "Running reject_outliers again on its own result changes nothing and reports 0 rejected pixels.", "quantifier": "every list of images and weights", "why_tests_cant": "History property over all inputs.", "anchors": ["meds/meds.py:reject_outliers"]}
{"id": "C38", "title": "Bounds algebra", "statement": "contains_point and contains_points agree; containment of bounds is transitive and implies containment of points; expanding by points yields the smallest bounds containing the old bounds and the points; intersects_bounds is symmetric and true iff the open boxes (non-degenerate) share a point.", "quantifier": "every bounds and points", "why_tests_cant": "Universal over reals.", "anchors": ["meds/bounds.py:Bounds"]}
{"id": "C39", "title": "Expanding bounds by bounds", "statement": "After a.expand_bounds(b), a contains both the old a and b.", "quantifier": "every pair of bounds", "why_tests_cant": "Fails only when b sticks out on both sides of a.", "anchors": ["meds/bounds.py:Bounds.expand_bounds"]}
{"id": "C40", "title": "Offset conversion is invertible", "statement": "make_wcs_positions followed by its inverse (and vice versa) returns the original positions, and zero-offset and WCS positions always differ by exactly the offset in both coordinates.", "quantifier": "every position and offset (exact arithmetic)", "why_tests_cant": "Universal statement.", "anchors": ["meds/util.py:make_wcs_positions"]}
{"id": "C41", "title": "Tangent-plane coordinates", "statement": "radec_to_uv maps the centre to (0,0), is invariant under adding 360 degrees to either right ascension, and (u,v) in radians satisfies 1+u^2+v^2 = 1/cos^2 of the angular distance; u is positive toward decreasing right ascension, v toward increasing declination on the meridian; the local unit vectors are orthonormal.", "quantifier": "every sky position and centre", "why_tests_cant": "Real-analysis identity for all angles.", "anchors": ["meds/util.py:radec_to_uv", "meds/util.py:thetaphi_to_unitvecs_ruv"]}
{"id": "C42", "title": "The sky cut only accepts positions near the image", "statement": "A position accepted by the tangent-plane sky cut is on the same hemisphere as the image centre.", "quantifier": "every sky position", "why_tests_cant": "Antipodal positions are never in test catalogs.", "anchors": ["meds/util.py:radec_to_uv", "meds/maker.py:MEDSMaker._do_rough_sky_cut"]}
{"id": "C43", "title": "Range extraction preserves cutouts and PSFs", "statement": "extract_range(f, a, b, g): object j of g is object a+j of f, and get_cutout(j,k,t) of g equals get_cutout(a+j,k,t) of f for image, weight, seg and, when present, bmask and noise; get_psf agrees as well. Object ids, ncutout and all non-start fields are equal.", "quantifier": "every maker-written file with these types, every range 0 <= a <= b < size containing an object with cutouts, every k, t", "why_tests_cant": "All ranges of all files, with empty objects at either end of the range.", "anchors": ["meds/extractor.py:MEDSExtractor._extract", "meds/extractor.py:MEDSExtractor._get_row_range", "meds/extractor.py:get_psf_row_range"]}
{"id": "C44", "title": "Range extraction keeps every cutout type", "statement": "Extraction works for any file the maker can write and every cutout type of the input is readable, with the same pixels, in the output; with copy_all=True additional extensions are copied consistently.", "quantifier": "every maker configuration (types written) and range", "why_tests_cant": "Depends on the set of extensions present.", "anchors": ["meds/extractor.py:MEDSExtractor._extract"]}
{"id": "C45", "title": "Extractions compose", "statement": "Extracting range [c,d] from the extraction of [a,b] reads the same pixels as extracting [a+c,a+d] directly.", "quantifier": "every file and nested ranges", "why_tests_cant": "History property.", "anchors": ["meds/extractor.py:MEDSExtractor._extract"]}
{"id": "C46", "title": "Extraction of objects without cutouts", "statement": "If no object of the range has cutouts the output is still a valid file with the same catalog rows whose accessors raise ValueError for every object.", "quantifier": "every file and such range", "why_tests_cant": "Special branch, all files.", "anchors": ["meds/extractor.py:MEDSExtractor._write_dummy"]}
{"id": "C47", "title": "Number extraction preserves cutouts and PSFs", "statement": "extract_numbers(f, nums, g): g holds exactly one object per requested number, and for the object with number n in g and in f, get_cutout and get_psf agree for every cutout and for image, weight, seg, bmask, whatever the order or adjacency of the objects in f and the row order in which the table rows are returned.", "quantifier": "every maker-written file with unique numbers, every set of numbers, every row order", "why_tests_cant": "Range merging depends on adjacency patterns of the chosen subset.", "anchors": ["meds/number_extractor.py:MEDSNumberExtractor._get_row_ranges", "meds/number_extractor.py:MEDSNumberExtractor._extract", "meds/number_extractor.py:get_psf_row_ranges"]}
{"id": "C48", "title": "Number lookup finds the unique row", "statement": "The row chosen for each requested number carries that number; AssertionError is raised if a number is absent, or present more than once.", "quantifier": "every catalog and list of numbers", "why_tests_cant": "The shortcut for naturally placed numbers must not bypass the uniqueness check.", "anchors": ["meds/number_extractor.py:MEDSNumberExtractor._get_inds"]}
{"id": "C49", "title": "Number extraction works for every PSF layout", "statement": "Number extraction works for every file with a psf extension that the reader can read (psf_row_size/psf_col_size or psf_box_size), and for files lacking bmask as the range extractor does.", "quantifier": "every file the reader accepts", "why_tests_cant": "Depends on columns present.", "anchors": ["meds/number_extractor.py:MEDSNumberExtractor._extract"]}
{"id": "C50", "title": "Extractors never destroy the input file", "statement": "No use of an extractor, including a rejected one and any cleanup, deletes or modifies the input MEDS file.", "quantifier": "every argument combination and every history ending in object destruction", "why_tests_cant": "Concerns destructor timing after an exception.", "anchors": ["meds/extractor.py:MEDSExtractor.__init__", "meds/extractor.py:MEDSExtractor.close", "meds/number_extractor.py:MEDSNumberExtractor.close"]}
{"id": "C51", "title": "Catalog extraction copies the catalog unchanged", "statement": "extract_catalog writes a file whose object_data, image_info and metadata equal those of the input.", "quantifier": "every file", "why_tests_cant": "Simple but universal.", "anchors": ["meds/extractor.py:MEDSCatalogExtractor._extract"]}
{"id": "C52", "title": "Every rejected epoch carries exactly one reason, and counts match", "statement": "For each object the coadder's flag array has one entry per single-epoch cutout; an entry is 0 iff the cutout was used, otherwise it is exactly one of the five documented bits, the first failing test in documented order; ncoadd equals the number of zero entries and NO_GOOD_CUTOUTS is returned iff that number is 0 (or there is only the coadd).", "quantifier": "every object, every mask and weight configuration", "why_tests_cant": "All combinations of failing tests.", "anchors": ["meds/coadd.py:MEDSCoadder._get_obslist", "meds/coadd.py:MEDSCoadder.get_coadd_obs"]}
{"id": "C53", "title": "ORed mask of a coadd", "statement": "A bit is set in a coadd's ormask pixel iff it is set in the bmask of at least one cutout used.", "quantifier": "every non-empty list of masks", "why_tests_cant": "Bitwise universal.", "anchors": ["meds/coadd.py:MEDSCoadder.get_coadd_obs"]}
{"id": "C54", "title": "Coadd file layout", "statement": "In a coadd MEDS file the pixel ranges of the objects that have a coadd are consecutive from 0, inside the reserved space, and disjoint, for every obj_range and every pattern of failed coadds; get_cutout of the result returns the coadd's pixels; objects without coadd have ncutout 0.", "quantifier": "every catalog, obj_range and failure pattern", "why_tests_cant": "All failure patterns.", "anchors": ["meds/coadd.py:MEDSCoaddMaker._write_object_cutouts", "meds/coadd.py:MEDSCoaddMaker._write_cutouts"]}
{"id": "C55", "title": "Mask symmetrisation", "statement": "Symmetrising adds the 90-degree rotation of the masked region: afterwards a pixel is masked iff it or its source under the rotation was masked, and no masked pixel becomes usable. Symmetrised masks are invariant under 90-degree rotation.", "quantifier": "every square mask", "why_tests_cant": "All masks.", "anchors": ["meds/coadd.py:MEDSCoadder._symmetrize_weight", "meds/coadd.py:MEDSCoadder._symmetrize_bmask"]}
{"id": "C56", "title": "Flag lists are combined into one mask", "statement": "A pixel is treated as bad iff it has at least one of the configured bmask_flags bits set.", "quantifier": "every list of flags and mask value", "why_tests_cant": "Sum versus OR differ only for overlapping flags.", "anchors": ["meds/coadd.py:MEDSCoadder._set_bad_flags", "meds/coadd.py:MEDSCoadder._hits_the_edge"]}
{"id": "C57", "title": "Mask checks are total and honour their switches", "statement": "central_region.check=False and stamp_edge.check=False disable the respective check; with check=True a cutout whose central pixels are masked is rejected for every configured size.", "quantifier": "every configuration and mask", "why_tests_cant": "Configuration space times masks.", "anchors": ["meds/coadd.py:MEDSCoadder._central_region_is_masked", "meds/coadd.py:MEDSCoadder._ps_edge_pixels_are_masked"]}
{"id": "C58", "title": "Bad-pixel interpolation leaves good pixels alone", "statement": "Interpolation changes image pixels only where the weight is not positive or a bad flag is set, afterwards every weight is positive, and the returned count is the number of such pixels.", "quantifier": "every image, weight and mask with at least one good pixel, any interpolator", "why_tests_cant": "All masks and interpolators.", "anchors": ["meds/coadd.py:MEDSCoadder._interp_bad_pixels", "meds/coadd.py:MEDSCoadder._do_interp"]}
{"id": "C59", "title": "Coadder construction does not alter the caller's configuration", "statement": "Two coadders built from the same configuration object behave identically.", "quantifier": "every configuration and history of constructions", "why_tests_cant": "History/aliasing property.", "anchors": ["meds/coadd.py:MEDSCoadder._set_config"]}
{"id": "C60", "title": "Comparison of two files", "statement": "Comparing bmask or seg raises ValueError iff some matched object has a different cutout count (when required), a different shape or a different pixel; comparing a file with itself never raises for these types.", "quantifier": "every pair of files", "why_tests_cant": "All files.", "anchors": ["meds/compare.py:Comparator.compare_images", "meds/compare.py:Comparator._compare_images_exact", "meds/compare.py:Comparator._check_ncutout"]}
{"id": "C61", "title": "The default comparator can compare images", "statement": "Comparator(f1,f2).go() with default arguments completes for image cutouts of readable files.", "quantifier": "every pair of files", "why_tests_cant": "All files.", "anchors": ["meds/compare.py:Comparator.__init__", "meds/compare.py:Comparator.compare_images"]}
{"id": "C62", "title": "The C library reads the same pixels as the Python library", "statement": "For every object and cutout index, the C accessors succeed iff the indices are in range (negative indices are rejected) and then return the same pixels as the Python get_cutout/get_mosaic; MOSAIC_GET(m,k,r,c) of a mosaic is pixel (r,c) of cutout k.", "quantifier": "every well-formed file and all integer indices", "why_tests_cant": "Two implementations, all inputs.", "anchors": ["src/meds.c:get_cutoutp_dbl", "src/meds.c:get_mosaicp_dbl", "src/meds.c:cutout_from_ptr", "src/meds.h:MOSAIC_GET"]}
{"id": "C63", "title": "The C library returns the distortion of the requested cutout", "statement": "meds_get_distortion(m,iobj,icutout) refers to the distortion of that cutout.", "quantifier": "every file and valid indices", "why_tests_cant": "All indices.", "anchors": ["src/meds.c:meds_get_distortion"]}
{"id": "C64", "title": "C name buffers are large enough", "statement": "The name buffer length used for reading image_info strings is at least the width of each of the string columns read.", "quantifier": "every combination of column widths", "why_tests_cant": "All width combinations.", "anchors": ["src/meds.c:get_namelen_max"]}
{"id": "C65", "title": "FFT-friendly box sizes", "statement": "make-meds-input gives each object the smallest size of the form 2^N or 3*2^N (N>=1 or 3) not below the clamped requirement, at most 6144, between the rounded minimum and maximum; rounding is monotone and idempotent.", "quantifier": "every object extent, minimum and maximum", "why_tests_cant": "All integers.", "anchors": ["src/make-meds-input.c:fft_round_size", "src/make-meds-input.c:get_box_size"]}
{"id": "C66", "title": "Validation accepts what the maker writes and reports what is missing", "statement": "validate_meds reports no missing required extension or column for a maker-written file and reports every missing required extension or column otherwise.", "quantifier": "every file", "why_tests_cant": "All column/extension sets.", "anchors": ["meds/util.py:validate_meds"]}
{"id": "C67", "title": "Metadata fields", "statement": "The metadata table written by the maker has every input column with its values unchanged plus the five version columns; input columns that collide with version columns do not make construction fail.", "quantifier": "every metadata table", "why_tests_cant": "All column sets.", "anchors": ["meds/maker.py:MEDSMaker._set_meta_data"]}
{"id": "C68", "title": "Source information refers to the image the pixels came from", "statement": "get_source_info(i,k) returns the image_info row of the image from which the pixels of get_cutout(i,k) were taken.", "quantifier": "every maker-written file and valid indices", "why_tests_cant": "All files.", "anchors": ["meds/meds.py:MEDS.get_source_info"]}
{"id": "C69", "title": "Coadding copes with objects that have no cutouts", "statement": "Every object of a readable input file gets a row in the coadd file; an object for which no cutout is available is marked NO_GOOD_CUTOUTS and does not stop the run.", "quantifier": "every input file", "why_tests_cant": "Files with empty objects in every position.", "anchors": ["meds/coadd.py:MEDSCoadder._get_obslist", "meds/coadd.py:MEDSCoaddMaker._write_object_cutouts"]}
{"id": "C70", "title": "Next closest distance of the tree", "statement": "fast3tree_find_next_closest_distance returns the smallest distance from the given point to another point of the tree.", "quantifier": "every tree and point", "why_tests_cant": "All point sets.", "anchors": ["meds/fast3tree.c:fast3tree_find_next_closest_distance", "meds/_uberseg.c:uberseg_tree"]}
{"id": "C71", "title": "Rejection reasons of every epoch are recorded", "statement": "After coadding, orig_flags of every object asked for holds the reason for each rejected single-epoch cutout, also when no cutout was good enough for a coadd.", "quantifier": "every object, every pattern of rejections", "why_tests_cant": "All rejection patterns.", "anchors": ["meds/coadd.py:MEDSCoaddMaker._write_object_cutouts"]}
{"id": "C72", "title": "Pictures for objects without cutouts", "statement": "With a png prefix, comparing images of two readable files works for objects without cutouts: no exception, and no picture of another object under their index.", "quantifier": "every pair of files, every position of the empty objects", "why_tests_cant": "All positions of empty objects.", "anchors": ["meds/compare.py:Comparator.compare_images"]}
{"id": "C73", "title": "The C library opens the files the maker writes", "statement": "meds_open succeeds on every file written by MEDSMaker whose image_info table has the columns of get_image_info_dtype.", "quantifier": "every well-formed file and set of image_info columns", "why_tests_cant": "All column sets; two programs.", "anchors": ["src/meds.c:meds_open", "src/meds.c:load_image_info", "meds/util.py:get_image_info_dtype", "meds/maker.py:MEDSMaker._check_image_info"]}
{"id": "C74", "title": "The C library returns every metadata field of the file", "statement": "meds_get_meta returns the value of each of its fields that is present in the metadata table, whichever other fields are missing.", "quantifier": "every metadata table", "why_tests_cant": "All subsets of columns.", "anchors": ["src/meds.c:read_meta", "src/meds.c:fits_read_string_byname"]}
{"id": "C75", "title": "Extra catalog columns are kept", "statement": "Every column of obj_data that the maker does not compute itself is in the object_data of the written file, with the same shape and, row by row, the same values (after trimming, those of the kept objects).", "quantifier": "every catalog, column set and shape, psf_data given or not", "why_tests_cant": "All column sets; three successive tables.", "anchors": ["meds/maker.py:MEDSMaker._get_extra_fields", "meds/maker.py:MEDSMaker._get_full_obj_data", "meds/maker.py:MEDSMaker._make_resized_data", "meds/util.py:get_meds_output_struct"]}
{"id": "C76", "title": "object_data of a file can be used as input again", "statement": "Giving the object_data of a written file as obj_data makes a file with the same cutouts as the original input would: computed columns of the input are ignored.", "quantifier": "every catalog, every list of images", "why_tests_cant": "All files and image lists.", "anchors": ["meds/maker.py:MEDSMaker._get_full_obj_data", "meds/maker.py:MEDSMaker._build_meds_layout"]}
{"id": "C77", "title": "Metadata of the file of coadds", "statement": "The coadd file's metadata holds every metadata column of the original file and the versions of the packages in use.", "quantifier": "every metadata table", "why_tests_cant": "All tables and numbers of rows.", "anchors": ["meds/coadd.py:MEDSCoaddMaker._set_meta"]}
{"id": "C78", "title": "Positions and sources in the file of coadds", "statement": "Cutout 0 of an object of the coadd file has the sky position of the object, the Jacobian and centre of its coadd, the original position of cutout 0 of the original file, and the source info of the image that position refers to.", "quantifier": "every file, coadder and range of objects", "why_tests_cant": "All layouts; relation of two files.", "anchors": ["meds/coadd.py:MEDSCoaddMaker._set_obj_data", "meds/coadd.py:MEDSCoaddMaker._set_image_info", "meds/coadd.py:MEDSCoaddMaker._write_object_cutouts"]}
{"id": "C79", "title": "Tree search in single precision", "statement": "For stamps of at most 2896 by 2896 pixels (in general, sides with h*h + w*w <= 2^24) get_uberseg(fast=True), whose C code rounds every coordinate, distance and radius to single precision, ends and keeps or zeroes each pixel by the number of an object pixel that is nearest exactly; without ties of different objects it equals fast=False.", "quantifier": "every file, object, cutout and seg map of non-negative integers within the size", "why_tests_cant": "Rounding at each step of a growing search over a tree, for every map.", "anchors": ["meds/_uberseg.c:uberseg_tree", "meds/fast3tree.c:fast3tree_find_sphere", "meds/fast3tree.c:fast3tree_find_next_closest_distance", "meds/meds.py:MEDS.get_uberseg"]}
{"id": "C80", "title": "Cutouts of an object do not depend on the other objects", "statement": "In two files made from the same images and settings (also with other cutout types), a row of the input with the same position, box size and colours gives the same number of cutouts, and for each the same source, position, Jacobian, pixels of every type both files have, and psf, wherever the row stands and whatever else is in the catalogs.", "quantifier": "every pair of catalogs, list of images, types, psfs", "why_tests_cant": "Relation between two runs on arbitrary catalogs.", "anchors": ["meds/maker.py:MEDSMaker._build_meds_layout", "meds/maker.py:MEDSMaker._set_start_rows_and_pixel_count", "meds/maker.py:MEDSMaker._write_cutouts", "meds/maker.py:MEDSMaker._set_psf_layout"]}
{"id": "C81", "title": "Adding images at the end only adds cutouts at the end", "statement": "If image_info (and psf_data) is extended by further rows, each object keeps its cutouts under the same indices, with the same source, position, Jacobian, pixels and psf, and every further cutout is from a new image.", "quantifier": "every catalog, every list of images and further images", "why_tests_cant": "Relation between two runs on arbitrary image lists.", "anchors": ["meds/maker.py:MEDSMaker._build_meds_layout", "meds/maker.py:MEDSMaker._get_full_obj_data"]}
{"id": "C82", "title": "Colours are used exactly where configured", "statement": "Positions and Jacobians in an image are those the wcs gives for the object's colour ('color', else 'wcs_color') if colours are configured for that image, and without colour otherwise; likewise psfs with 'psf_color'. Colours not configured, and 'wcs_color' beside 'color', have no influence on cutouts, positions and psfs.", "quantifier": "every catalog, configuration, wcs and psf", "why_tests_cant": "Relation between two runs; all settings and colour-dependent wcs.", "anchors": ["meds/maker.py:MEDSMaker._wcs_uses_color", "meds/maker.py:MEDSMaker._psf_uses_color", "meds/maker.py:MEDSMaker._get_pos_and_bounds", "meds/maker.py:MEDSMaker._build_meds_layout", "meds/maker.py:MEDSMaker._write_psf_cutouts_serial"]}
{"id": "C83", "title": "Extracting from a file equals making the smaller file", "statement": "Extracting objects a to b of a file gives, for every object, the same row data, cutouts, Jacobians, sources and psfs as a file made from just these rows of the catalog.", "quantifier": "every catalog, range, list of images, types and psfs", "why_tests_cant": "Two different programs on arbitrary input.", "anchors": ["meds/extractor.py:MEDSExtractor._extract", "meds/maker.py:MEDSMaker.write"]}
{"id": "C84", "title": "Object numbers are only names", "statement": "If the objects of a file are given other numbers (different numbers stay different, 0 stays sky, positive numbers stay positive) in the catalog and in the seg mosaic alike, then get_cweight_cutout, get_cweight_mosaic, get_cweight_cutout_list, get_cseg_weight, get_uberseg and get_uberseg_list (fast or not) return exactly the same weights or the same error for every object and cutout, and the seg cutouts, interpolated seg maps and composite segs are the same up to the new numbers.", "quantifier": "for all files, renumberings, objects, cutouts, switches", "why_tests_cant": "a test uses one numbering; the claim relates two files for every renumbering, and goes through the k-d tree whose points carry the numbers", "anchors": ["meds/meds.py:MEDS.get_cweight_cutout", "meds/meds.py:MEDS.get_cseg_cutout", "meds/meds.py:MEDS.get_cseg_weight", "meds/meds.py:MEDS.get_uberseg", "meds/meds.py:MEDS.interpolate_coadd_seg", "meds/_uberseg.c:uberseg_tree"]}
{"id": "C85", "title": "Lines of make-meds-input", "statement": "make-meds-input prints one line per row of the SExtractor catalog, in its order, with the row's index or the id at the same place of the id file, Y_IMAGE, X_IMAGE and a box size 2^N or 3 2^N fit for the object and the two sizes of the command line; with a missing id file, or one with more or fewer ids, or with text that is not an id, it exits with status 1 and prints nothing. It never changes a file.", "quantifier": "for all catalogs, id files and command lines", "why_tests_cant": "tests cannot enumerate catalogs, id files and sizes", "anchors": ["src/make-meds-input.c:main", "src/make-meds-input.c:get_box_size"]}
{"id": "C86", "title": "meds-get-cutout writes what Python reads, and says when it fails", "statement": "meds-get-cutout writes to the output file exactly the image mosaic (or cutout) of the object that the Python accessors return and changes no other file; if there is no such object or cutout, or an index is not a number, it writes nothing and its exit status is not 0; the MEDS file itself is never changed.", "quantifier": "for all files and command lines", "why_tests_cant": "tests cannot enumerate files and command lines", "anchors": ["src/meds-get-cutout.c:main", "src/meds.c:meds_cutout_write_fits"]}
{"id": "C87", "title": "Noise maps are made of fresh random numbers", "statement": "Of the random numbers of the coadder's generator, every single-epoch cutout that is used for a coadd gets a part of its own, as many numbers as it has pixels and in row order, each times the error from the weight map; a cutout that is not used takes none; the cutouts of an object, the objects of a file and the files written by one maker follow one another in the stream without gap or overlap.", "quantifier": "for all files, generators, seeds, configurations, ranges and earlier writes", "why_tests_cant": "a test sees one seed and a few objects; reuse of numbers between two noise maps, which correlates them, shows in no single output", "anchors": ["meds/coadd.py:MEDSCoadder._make_noise_image", "meds/coadd.py:MEDSCoadder._get_obslist", "meds/coadd.py:MEDSCoaddMaker._write_cutouts"]}
{"id": "C88", "title": "Coadds do not depend on seed, range or earlier writes", "statement": "The coadd of an object (image, weight, bmask, ormask, noise, psf, row of the catalog) is the same whether the maker is asked for all objects or a range containing it, and whatever the maker wrote before; another seed changes at most the noise.", "quantifier": "for all files, seeds, ranges, histories of two makers and objects", "why_tests_cant": "relates two runs with arbitrary ranges, seeds and histories", "anchors": ["meds/coadd.py:MEDSCoaddMaker.write", "meds/coadd.py:MEDSCoaddMaker._write_cutouts", "meds/coadd.py:MEDSCoadder.get_coadd_obs", "meds/coadd.py:MEDSCoadder._make_noise_image"]}
{"id": "C89", "title": "One coadd maker, several writes", "statement": "A coadd maker can write several files: in each, the objects asked for are exactly as its coadder gives them (row, every plane, psf; no cutout and the flags when there is no coadd) and the objects not asked for have no cutouts.", "quantifier": "for all files, lists of ranges and makers", "why_tests_cant": "a test calls write once per maker; the state kept between calls matters only later", "anchors": ["meds/coadd.py:MEDSCoaddMaker.write", "meds/coadd.py:MEDSCoaddMaker._write_cutouts", "meds/coadd.py:MEDSCoaddMaker._write_object_cutouts"]}
{"id": "C90", "title": "Masks and segmentation numbers keep their values in the file's integer type", "statement": "A pixel of a seg or bmask cutout read back from a written file is the pixel of the source file at the corresponding place: equal to it whenever the value can be represented in the configured type (seg_dtype, bmask_dtype), with every bit below the width of that type kept in any case, and 0 (seg) or 2**30 (bmask) outside of the image. Segmentation numbers and flags that the source file holds are never lost.", "quantifier": "all number types of sources and mosaics, all pixel values, all inputs for which the maker succeeds, both casting rules of numpy", "why_tests_cant": "Loss occurs only for source types wider than the mosaic and values above the limit, and silently; tests use 32 bit masks with few bits.", "anchors": ["meds/maker.py:MEDSMaker._read_image", "meds/maker.py:MEDSMaker._write_cutout", "meds/defaults.py:default_config"]}
{"id": "C91", "title": "Image and weight pixels are calibrated to single precision", "statement": "With floating point source files in f4 or f8, any float type of scale and of mosaic, and under the casting rules of numpy 1 and 2, a pixel of an image cutout differs from (image - background) * scale by at most 2**-20 of its size plus 2**-140 * (1 + |scale|), and a weight pixel from weight / scale**2 likewise (values up to 2**60, scales between 2**-30 and 2**30). Weights that are zero, flagged unusable or outside of the image are exactly zero; image pixels outside are exactly zero. Infinities and NaN stay non-finite. Without background and with scale 1, values of the mosaic's type are stored unchanged.", "quantifier": "all pixel values, scales and types in the stated range, all inputs for which the maker succeeds", "why_tests_cant": "Several roundings in mixed precision happen in an order that depends on types and numpy version; tests compare a few values with loose tolerances.", "anchors": ["meds/maker.py:MEDSMaker._read_image", "meds/maker.py:MEDSMaker._check_bad_bmask", "meds/maker.py:MEDSMaker._write_cutout"]}
{"id": "C92", "title": "Images of any number type can be used", "statement": "Image and weight files of any FITS number type, and any configured image_dtype, can be used; calibration converts as needed. Writing succeeds for all sources whose files have equal shapes.", "quantifier": "all number types of sources and mosaics, both casting rules of numpy", "why_tests_cant": "In-place operations on arrays raise only for certain combinations of types; tests use floats.", "anchors": ["meds/maker.py:MEDSMaker._read_image", "meds/maker.py:MEDSMaker._write_cutout"]}
{"id": "C93", "title": "meds-view gives every cutout its own cell", "statement": "For any number n >= 1 of pictures, the grid meds-view chooses has at least n cells, no empty row, and at most two more columns than rows; pictures are placed row by row from left to right and no two share a cell. The mosaic drawn with --combine of images of one size holds every image, unchanged, in the cell of its number, and zero in the unused cells.", "quantifier": "all n >= 1; all lists of images of one size; all pixels", "why_tests_cant": "The special cases of the grid (squares, the case 8, nearly full rows) make each count a separate case; tests look at a few.", "anchors": ["scripts/meds-view:Grid", "scripts/meds-view:make_combined_mosaic"]}
{"id": "C94", "title": "--combine shows the cutouts the same way up", "statement": "A cutout drawn by meds-view --combine is oriented as the same cutout drawn without --combine.", "quantifier": "all lists of images of one size", "why_tests_cant": "A picture that is mirrored looks plausible; only a statement about every pixel separates the two.", "anchors": ["scripts/meds-view:make_combined_mosaic", "scripts/meds-view:view"]}
{"id": "C95", "title": "meds-view draws the named objects", "statement": "meds-view looks at the objects from --start to --end, both included, of a readable file (or all, or the listed ones), in order. If the user does not quit, then with --save or --html-file exactly one picture file is left for each looked-at object with cutouts and each type, showing all its cutouts in order under the titles of their files ('coadd' for the first with --has-coadd); the page has one row for each such object, in order, with its pictures in the order of the types. Without --save, --show and --html-file it raises RuntimeError.", "quantifier": "all readable files, type lists, index choices, titles, with and without --combine, all answers other than q", "why_tests_cant": "The file name is also handed to the plots of the single cutouts, which overwrite each other before the table is written; tests would have to inspect the last write for every object and type.", "anchors": ["scripts/meds-view:Viewer.go", "scripts/meds-view:Viewer.plot_one", "scripts/meds-view:Viewer._get_indices", "scripts/meds-view:view_mosaic"]}
{"id": "C96", "title": "the page of meds-view is complete", "statement": "The page written with --html-file is closed by its last lines.", "quantifier": "all runs", "why_tests_cant": "Depends on how the run ends.", "anchors": ["scripts/meds-view:Viewer.go"]}
{"id": "C97", "title": "brightness of the pictures of meds-view", "statement": "In the picture of a cutout all values are between 0 and 1, the brightest pixel is 1, and brighter pixels are drawn at least as bright.", "quantifier": "all images, weights, psf images, maps", "why_tests_cant": "Scaling divides by a maximum whose sign and value come from the data.", "anchors": ["scripts/meds-view:linear_scale", "scripts/meds-view:Viewer.plot_one"]}
{"id": "C98", "title": "box queries of the tree", "statement": "For any finite points and any box, fast3tree_find_inside_of_box returns exactly the points of the tree that lie in the box, borders included, and fast3tree_find_outside_of_box exactly the others, each point once.", "quantifier": "all lists of points (any number of leaves), all boxes, also inverted ones", "why_tests_cant": "The answers are put together from whole nodes and from single points; which path a point takes depends on the whole tree.", "anchors": ["meds/fast3tree.c:fast3tree_find_inside_of_box", "meds/fast3tree.c:fast3tree_find_outside_of_box"]}
{"id": "C99", "title": "sphere query of the tree", "statement": "fast3tree_find_sphere returns exactly the points whose distance from the centre is less than the radius, each once.", "quantifier": "all lists of points, centres, radii", "why_tests_cant": "A node entirely inside is taken as a whole with another comparison than single points.", "anchors": ["meds/fast3tree.c:fast3tree_find_sphere"]}
{"id": "C100", "title": "sphere query from a point on", "statement": "fast3tree_find_sphere_skip returns the given point and exactly the points after it in the array that are nearer than the radius, each once.", "quantifier": "all lists of points, places in the array, positive radii", "why_tests_cant": "Which earlier points appear depends on where the borders of the nodes fall.", "anchors": ["meds/fast3tree.c:fast3tree_find_sphere_skip"]}
{"id": "C101", "title": "sphere query with periodic boundaries", "statement": "fast3tree_find_sphere_periodic returns exactly the points that have an image (shifted by any numbers of periods) within the radius, each once.", "quantifier": "all lists of points, periods from fast3tree_set_minmax or from the extent of the points, centres, radii", "why_tests_cant": "Up to four images of the centre are searched and the leaf test uses another formula than the node test; no finite set of positions covers the cases.", "anchors": ["meds/fast3tree.c:fast3tree_find_sphere_periodic", "meds/fast3tree.c:_fast3tree_find_sphere_offset", "meds/fast3tree.c:fast3tree_set_minmax"]}
{"id": "C102", "title": "renewing the boxes after the points have moved", "statement": "After the caller changed the positions of the points, fast3tree_maxmin_rebuild makes all box and sphere queries exact for the new positions.", "quantifier": "all lists of points, all new positions", "why_tests_cant": "Needs trees of any shape and any new positions.", "anchors": ["meds/fast3tree.c:fast3tree_maxmin_rebuild"]}
{"id": "C103", "title": "points that are not finite", "statement": "fast3tree_init leaves out exactly the points with a NaN or infinite coordinate: the tree holds every other point once, the left-out ones are moved to the end of the caller's array, and the queries answer for the remaining points.", "quantifier": "all lists of points with finite and other coordinates", "why_tests_cant": "The loop exchanges elements while it runs and looks again at the place it filled.", "anchors": ["meds/fast3tree.c:_fast3tree_build"]}
{"id": "C104", "title": "memory of the tree while it is built", "statement": "Building a tree of any points, also in a structure that held another tree, reads and writes nodes only in the current array of nodes and within it, although the array is moved when it grows during the recursion; afterwards every node is reachable from the root exactly once, children point back to their parent, the array has exactly the size of the number of nodes, at most 2n-1 for n points, and the points lie in the order of the leaves.", "quantifier": "all lists of points (finite coordinates), all previous contents of the structure and of new memory", "why_tests_cant": "A stale pointer after realloc goes unnoticed when realloc does not move, and growth needs unbalanced trees.", "anchors": ["meds/fast3tree.c:fast3tree_init", "meds/fast3tree.c:_fast3tree_split_node", "meds/fast3tree.c:_fast3tree_build", "meds/fast3tree.c:_fast3tree_rebuild_pointers"]}
{"id": "C105", "title": "buffer of the results of sphere queries", "statement": "Any sequence of sphere queries that share one results structure writes only within its buffer; after each query the buffer holds exactly the points of this query, none twice.", "quantifier": "all lists of points, all sequences of centres and radii, all previous contents of the buffer", "why_tests_cant": "The buffer is enlarged by node, its overflow depends on the sequence of nodes visited.", "anchors": ["meds/fast3tree.c:fast3tree_find_sphere", "meds/fast3tree.c:_fast3tree_check_results_space", "meds/fast3tree.c:fast3tree_results_init"]}
{"id": "C106", "title": "Opening a file in C writes only inside the memory it allocated", "statement": "meds_open writes only inside the blocks that it allocated, for every file in which no text is longer than its column and no object has more cutouts than the columns have cells.", "quantifier": "every file (columns, widths, lengths of the texts, rows that cannot be read) and every state of the memory", "why_tests_cant": "A write one byte after a block goes unnoticed in a test, and depends on the lengths of the names in the file.", "anchors": ["src/meds.c:meds_open", "src/meds.c:meds_info_cat_new", "src/meds.c:load_image_info", "src/meds.c:fits_read_string_byname", "src/meds.c:load_table"]}
{"id": "C107", "title": "meds_free gives back what meds_open allocated", "statement": "After meds_open and meds_free, and after a meds_open that fails, exactly the memory of before is allocated, and no block is freed twice.", "quantifier": "every file and every state of the memory", "why_tests_cant": "All combinations of missing and unreadable columns; leaks and double frees are not visible in results.", "anchors": ["src/meds.c:meds_open", "src/meds.c:meds_free", "src/meds.c:meds_meta_free", "src/meds.c:load_table", "src/meds.c:fits_read_string_byname"]}
{"id": "C108", "title": "Cutouts read in C can be given back completely", "statement": "Reading cutouts and mosaics and giving each back with meds_cutout_free leaves the memory as it was, whichever requests fail.", "quantifier": "every file that opens with positive box sizes, every list of requests, every state of the memory", "why_tests_cant": "All sequences of requests, including those out of range and for missing extensions.", "anchors": ["src/meds.c:get_cutout_data_dbl", "src/meds.c:get_cutout_data_int", "src/meds.c:cutout_from_ptr", "src/meds.c:meds_cutout_free", "src/meds.c:meds_get_cutout", "src/meds.c:meds_get_mosaic"]}
{"id": "C109", "title": "get_uberseg gives the same weights with the C code and without it, whatever the number types", "statement": "For any types of the weight and seg mosaics and of the number column, get_uberseg(fast=True) and get_uberseg(fast=False) return the same weights, except at pixels whose nearest object pixels are equally far and belong to different objects.", "quantifier": "all weight and seg arrays of integer or floating point type, all object numbers, all sizes up to nrow^2 + ncol^2 = 2^24", "why_tests_cant": "The fast path converts the seg map to 32 bit integers, the weights to 32 bit floats and the number to a C int. Tests use one file with i4 seg maps, f4 weights and small numbers.", "anchors": ["meds/meds.py:445-508", "meds/_uberseg.c:84-184"]}
{"id": "C110", "title": "The extraction programs write what the functions write, and their exit status tells", "statement": "For every command line, meds-extract-range and meds-extract-catalog exit with status 0 exactly when they have written the output file, which then holds what extract_range (extract_catalog) writes for those arguments; otherwise no file is changed.", "quantifier": "all command lines (lists of ASCII words), all contents of the files, all ways names resolve to files", "why_tests_cant": "The programs are not run by the tests. The number of command lines is unbounded: options, abbreviations, '--', signs, underscores and blanks in numbers, too few and too many words.", "anchors": ["scripts/meds-extract-range:17-31", "scripts/meds-extract-catalog:18-30", "meds/extractor.py:15-36", "meds/extractor.py:86-160"]}
{"id": "C111", "title": "The exit status of meds-compare tells whether the files agree", "statement": "meds-compare exits with status 0 exactly when the two files hold the same objects with the same cutouts (images within the tolerance).", "quantifier": "all pairs of files, all options without pictures, all matchings and random subsets", "why_tests_cant": "The program needs packages the tests do not install and is never run; agreement is a statement about all objects, cutouts and pixels.", "anchors": ["scripts/meds-compare:27-45", "meds/compare.py:12-42", "meds/compare.py:72-167", "meds/compare.py:190-244"]}
{"id": "C112", "title": "The C accessors read only the memory of the opened file", "statement": "For any file that meds_open accepts and any two integers, no accessor of the C library reads outside the memory that holds the file's tables and pixels; indices that do not exist give NULL or 0.", "quantifier": "all files that open (consistent or not), all object and cutout indices, all cutout types, all pixels inside the declared sizes", "why_tests_cant": "Reading outside memory may go unnoticed in a test; the tests of the C library use one good file.", "anchors": ["src/meds.c:1071-1213", "src/meds.c:1222-1388", "src/meds.h:385-405"]}
{"id": "C113", "title": "The configuration means what is documented", "statement": "Whatever dict is given as config, each documented option that it contains takes effect and each one that it does not contain has the documented default; the order of the entries and unknown keys do not matter; a configuration that cannot be used is refused.", "quantifier": "all configurations (nested dicts of any size with values of any type), all catalogs, images and psf objects", "why_tests_cant": "The tests use a handful of configurations; which combination of options is in force is a statement about all subsets and all values, including ones of the wrong type.", "anchors": ["meds/maker.py:1435-1474", "meds/maker.py:1420-1433", "meds/maker.py:1232-1246", "meds/maker.py:1160-1183", "meds/maker.py:566-575", "meds/defaults.py:15-50"]}
{"id": "C114", "title": "Each image is laid out with its own astrometry", "statement": "Every image is laid out with one astrometric solution, size and offset of its own: the WCS of its psf object with the size in the image header (the uncompressed size if compressed), else the solution in the wcs column, else the image header; this holds also when psf objects share one WCS object, which the maker modifies in place for each image.", "quantifier": "all image lists, psf lists with any sharing of WCS objects, headers, catalogs and layout configurations, trimmed or not", "why_tests_cant": "The tests use one source of astrometry and separate objects; that no image sees the size or offset that another one left in a shared object is a statement about all sharing patterns.", "anchors": ["meds/maker.py:914-947", "meds/maker.py:781-829", "meds/maker.py:636-760"]}
{"id": "C115", "title": "Making a file leaves the caller's WCS objects as they were", "statement": "After the layout the WCS objects that the psf objects hand out are as before.", "quantifier": "all image lists, psf lists and memories", "why_tests_cant": "A change of an object of the caller is not visible in the output that tests look at.", "anchors": ["meds/maker.py:934", "meds/maker.py:794"]}
{"id": "C116", "title": "A write that fails does not leave a file that passes for a good one", "statement": "If MEDSMaker.write raises, the file of that name is either the old one or one that validate_meds or MEDS refuses; no other file is touched, and if write returns the file is complete.", "quantifier": "all makers (catalogs, images, psf objects, configurations), all states of the disk, every place at which an exception can be raised", "why_tests_cant": "The tests only write files that can be written; what is left behind depends on the point of the failure, and there is one for every cutout of every type of every image.", "anchors": ["meds/maker.py:85-132", "meds/maker.py:159-254", "meds/maker.py:301-447", "meds/util.py:16-92"]}
{"id": "C117", "title": "Positions, corners and cutout positions in double precision", "statement": "Rounding of the positions in double precision is harmless: every object whose pixel position lies on the image (with the buffer, for a coadd) gets a cutout and no other does, the corner is the integer part of the stored position minus half the box plus one, corner plus position in the cutout is the stored position, and the position in the cutout lies in the pixel the corner was computed for.", "quantifier": "for every image of at most 2^30 pixels a side, every position offset and buffer of at most 2^20 pixels, every box of at most 2^21 pixels, every pair of double positions including infinities and NaN, and every result the processor may give for a conversion out of range", "why_tests_cant": "the cases where rounding decides are single doubles next to an edge; a test compares positions to within a tolerance and uses offsets 0 and 1 only", "anchors": ["meds/maker.py:669-730", "meds/maker.py:781-829", "meds/maker.py:1130-1147", "meds/util.py:303-338", "meds/bounds.py:33-46"]}
{"id": "C118", "title": "The sky cut loses no object on the image", "statement": "A catalog position that lies on an image (the sky position of a pixel position between the first and the last pixel centre) passes the rough tangent-plane cut that precedes the exact test, so the object gets its cutout; in particular with the default bounds_buffer_uv of 16 arc seconds, for images with distortion.", "quantifier": "every WCS and image size, every buffer, every position on the image", "why_tests_cant": "The cut looks at the WCS only on a small grid; whether a position between grid points is kept depends on the WCS everywhere, and a lost object leaves no error, only a missing cutout.", "anchors": ["meds/maker.py:MEDSMaker._get_rough_sky_bounds", "meds/maker.py:MEDSMaker._do_rough_sky_cut", "meds/util.py:radec_to_uv"]}
{"id": "C119", "title": "Names and astrometry texts of image_info are kept", "statement": "A file name or an astrometry text put into the image_info array of get_image_info_struct is what the maker opens or uses and what get_source_path returns from the file: no name is replaced by another one, no image is laid out with part of its astrometry text, and the version strings of the metadata are complete.", "quantifier": "every column length, name and astrometry text, every WCS library that accepts only JSON", "why_tests_cant": "Cutting a text to the length of its column raises nothing; whether the remainder is still a usable name or still valid JSON depends on the text.", "anchors": ["meds/util.py:get_image_info_dtype", "meds/util.py:get_image_info_struct", "meds/maker.py:MEDSMaker._get_wcs", "meds/maker.py:MEDSMaker._read_one_image", "meds/maker.py:MEDSMaker._set_meta_data", "meds/meds.py:MEDS.get_source_path"]}
{"id": "C120", "title": "A box size that was never set is refused", "statement": "get_meds_input_struct fills box_size with -9999. If such an object lies on any image, writing the file raises; a file that was written has no cutout of negative size.", "quantifier": "every catalog, image list, configuration and PSF list", "why_tests_cant": "Needs every catalog and image list; the check is only the accident that an array of negative size cannot be made, after the space for size squared pixels was reserved.", "anchors": ["meds/util.py:get_meds_input_struct", "meds/maker.py:MEDSMaker._write_cutout", "meds/maker.py:MEDSMaker._set_start_rows_and_pixel_count"]}
{"id": "C121", "title": "A coadd write that fails leaves no file that opens, and can be repeated", "statement": "If MEDSCoaddMaker.write raises, at whichever object and cutout, the file at the path can be neither opened with MEDS nor validated, and no other file is touched. Calling write again for the same objects gives the file a maker without the failed attempt would give at that position of the generator.", "quantifier": "every input file, cutout types, coadder, range, point of failure and exception, contents of the reserved space, position of the generator", "why_tests_cant": "A failure can strike at any object and any cutout and leaves the rows of obj_data partly filled in.", "anchors": ["meds/coadd.py:MEDSCoaddMaker.write", "meds/coadd.py:MEDSCoaddMaker._write_object_cutouts", "meds/coadd.py:MEDSCoaddMaker._write_cutout", "meds/meds.py:MEDS.__init__", "meds/util.py:validate_meds"]}
{"id": "C122", "title": "Extensions of an extracted file", "statement": "MEDSExtractor writes object_data, image_info, metadata and the cutouts and psfs it knows, each once; with copy_all every other extension with data is copied unchanged. If it raises, the file left behind cannot be taken for a good one.", "quantifier": "every file with any extensions of any names and contents, every range, copy_all or not", "why_tests_cant": "Needs files with arbitrary further extensions and failures at any of the writes.", "anchors": ["meds/extractor.py:MEDSExtractor._extract", "meds/extractor.py:MEDSExtractor.__init__", "meds/util.py:validate_meds"]}
{"id": "C123", "title": "What the accessors hand out belongs to the program that asked", "statement": "A program may change the arrays it gets from an open MEDS object in place: later calls of any accessor answer as on a newly opened file, and arrays handed out earlier (also the other parts of the same list) keep their values.", "quantifier": "every file, every program: any sequence of accessor calls and in-place assignments to the arrays handed out, in any order", "why_tests_cant": "Aliasing shows only in particular orders of calls and assignments; tests look at single calls.", "anchors": ["meds/meds.py:MEDS.__init__", "meds/meds.py:MEDS.get_cutout", "meds/meds.py:MEDS.get_cutout_list", "meds/meds.py:split_mosaic", "meds/meds.py:MEDS.get_cweight_mosaic", "meds/meds.py:MEDS.get_uberseg", "meds/meds.py:MEDS.get_cat", "meds/meds.py:MEDS.get_source_info"]}
{"id": "C124", "title": "Makers are independent of the arrays they are made from", "statement": "MEDSMaker copies what it is given: a program may change or reuse obj_data, image_info, meta_data, psf_data and psf_info after making a maker, and make and write other makers, and the file written is still that of the arrays as they were when the maker was made; and no maker changes the program's arrays.", "quantifier": "every memory of arrays and every program: any sequence of making makers, writing them and changing arrays, in any order; every configuration, catalogue and contents of new files", "why_tests_cant": "Aliasing between the caller's arrays and the maker shows only in particular orders of making, changing and writing; tests make one maker and write it at once.", "anchors": ["meds/maker.py:MEDSMaker.__init__", "meds/maker.py:MEDSMaker._set_image_info", "meds/maker.py:MEDSMaker._set_meta_data", "meds/maker.py:MEDSMaker._set_obj_data", "meds/maker.py:MEDSMaker._get_full_obj_data", "meds/maker.py:MEDSMaker._set_psf_data", "meds/maker.py:MEDSMaker._set_psf_info", "meds/maker.py:MEDSMaker.write"]}
{"id": "C125", "title": "Composite and interpolated maps in double precision", "statement": "get_cweight_cutout, get_cseg_cutout and interpolate_coadd_seg compute positions in the coadd in double precision; this does not change the maps: every pixel uses the coadd pixel nearest to the position with the same sky offset, and a cutout with the Jacobian and centre of the coadd gets the coadd's map itself.", "quantifier": "every file, object, cutout, Jacobian, centre and box size; every pixel of the box; every matrix inverse within a stated error of the true one; every behaviour of casts of unrepresentable doubles", "why_tests_cant": "Rounding errors of a chain of thirteen operations and of the matrix inverse matter only at particular positions; tests compare single images, mostly with identity Jacobians.", "anchors": ["meds/meds.py:MEDS._make_composite_image", "meds/meds.py:MEDS.get_cweight_cutout", "meds/meds.py:MEDS.get_cseg_cutout", "meds/meds.py:MEDS.interpolate_coadd_seg", "meds/meds.py:MEDS._interpolate_coadd_seg_image", "meds/meds.py:MEDS.get_jacobian_matrix"]}
{"id": "C126", "title": "Outlier rejection with floating point numbers", "statement": "reject_outliers on float32 or float64 images: pixels further from the median than nsigma*sigma + A*|median| lose their weight, whatever they hold (infinities and NaN included), and all others keep theirs; the weights are otherwise only clipped at zero and the number returned is the number of weights cleared.", "quantifier": "every number and shape of images, float32 and float64 images and weights in any combination, every pixel value (NaN and infinities included), every weight, every nsigma and A, every square root within 1e-6 of the true one", "why_tests_cant": "The failures need a NaN in one image or deviations whose square overflows single precision; a test on ordinary noise sees neither.", "anchors": ["meds/meds.py:reject_outliers"]}
{"id": "C127", "title": "Weights and mask checks of the coadder in floating point", "statement": "MEDSCoadder with double precision weights: every cutout that is coadded has positive weights only (usable weights are kept, all other pixels get one median value between two usable weights); a cutout is left out with the flag of the first reason that applies and coadded if none does; the masked fraction compares with max_masked_frac as the exact fraction does.", "quantifier": "every stamp size, every weight (zeros, negative weights, infinities and NaN included), every mask, every configuration of the flags, symmetrising on or off, every limit p/q with q times the number of pixels up to 2^50", "why_tests_cant": "The failure needs a NaN weight outside the central region; whether rounding moves a stamp that is exactly at the limit to the other side has to be known for every limit and size, not for the ones tried.", "anchors": ["meds/coadd.py:MEDSCoadder._get_mask_frac", "meds/coadd.py:MEDSCoadder._symmetrize_weight", "meds/coadd.py:MEDSCoadder._central_region_is_masked", "meds/coadd.py:MEDSCoadder._ps_edge_pixels_are_masked", "meds/coadd.py:MEDSCoadder._interp_bad_pixels"]}
{"id": "C128", "title": "The checks of the comparator in floating point", "statement": "For float cutouts the comparator reports an image whose pixel differences have a standard deviation above image_rms_tol and no other, prints the number of weights that differ by weight_tol or more, raises for an exact comparison iff some pixel differs, and finds nothing when a file is compared with itself; rounding and the order in which numpy adds do not matter beyond the precision of the pixels.", "quantifier": "every image size, every pixel (infinities and NaN included), single and double precision, every order of summation with a bounded number of layers, every tolerance", "why_tests_cant": "The order of the additions is numpy's choice and changes between versions and processors; the failure needs one pixel that is not a number.", "anchors": ["meds/compare.py:Comparator._compare_images", "meds/compare.py:Comparator._compare_weights", "meds/compare.py:Comparator._compare_images_exact"]}
{"id": "C129", "title": "Conversion between wcs and zero based positions in floating point", "statement": "make_wcs_positions stores the positions it is given unchanged, the other pair differs from them by the offset, and converting the result back gives the positions one started from; rounding loses nothing.", "quantifier": "every array of positions (infinities and NaN included), every offset, single and double precision, both directions", "why_tests_cant": "The loss is in the last bits and depends on the position; tests use round positions.", "anchors": ["meds/util.py:make_wcs_positions"]}
{"id": "C130", "title": "PSF images are kept to single precision", "statement": "get_psf returns, in the shape rendered, the numbers that the PSF object's get_rec returned when the file was made, whatever their type: nothing is lost, the sum and the order of the pixels are kept, and a PSF that cannot be kept makes writing fail.", "quantifier": "every catalog, image list and configuration, every set of PSF objects returning arrays of any integer or floating point type (infinities and NaN included), every cutout", "why_tests_cant": "The loss is in the last bits, depends on the numbers, and the failure only happens for numbers beyond 3.4e38.", "anchors": ["meds/maker.py:MEDSMaker._reserve_mosaic_images", "meds/maker.py:MEDSMaker._write_psf_cutouts_serial", "meds/meds.py:MEDS.get_psf", "meds/meds.py:MEDS.get_psf_list"]}
{"id": "C131", "title": "The text of make-meds-input gives back the catalog", "statement": "The standard output of make-meds-input has one line per object, in order, of four words separated by blanks; a program that reads them gets the id, the box size and the row and column of the catalog exactly.", "quantifier": "every catalog, id file and pair of sizes, every id and box size, every double as a position (infinities and NaN included)", "why_tests_cant": "What is lost shows in the last digits of some numbers, the layout changes with the size of the number, and there are 2^64 doubles.", "anchors": ["src/make-meds-input.c:cat_write_meds_input", "src/make-meds-input.c:load_rows"]}
{"id": "C132", "title": "Box sizes of make-meds-input as computed in doubles and ints", "statement": "For every object of a catalog make-meds-input computes, in double and int arithmetic, the smallest allowed box that holds the detection and ten sigma stretched by the ellipticity.", "quantifier": "every detection range, every flux radius and pair of axes as doubles, every pair of sizes", "why_tests_cant": "Rounding only shows when the radius is within a few parts in 10^16 of an integer, and what is undefined in C shows only with some compilers.", "anchors": ["src/make-meds-input.c:get_sigma_size", "src/make-meds-input.c:get_box_size", "src/make-meds-input.c:load_rows"]}
{"id": "C133", "title": "Extensions of files extracted by number, also after a failure", "statement": "extract_numbers writes every extension of the input for the chosen objects; if it raises, the file that was there before is kept or at least no file is left that can be opened and passes validation.", "quantifier": "every file with any extensions, every list of numbers, every order in which fitsio returns rows, every previous output file", "why_tests_cant": "Depends on which extensions are present and on where the exception happens; tests extract from complete files.", "anchors": ["meds/number_extractor.py:MEDSNumberExtractor._extract", "meds/number_extractor.py:MEDSNumberExtractor._write_dummy", "meds/number_extractor.py:MEDSNumberExtractor._check_inputs"]}
{"id": "C134", "title": "Chains of extractions", "statement": "However a file was made by repeated extraction, by range (without copy_all) or by number, from a file with image, weight, seg and bmask cutouts and unique numbers, each of its objects has the row, cutouts of these types, PSFs, source information and jacobians that the object of that number has in the first file; two files made in different ways agree on the objects they share; and a further extraction within the file does not fail.", "quantifier": "every such file, in particular every such file of the maker; every finite chain of ranges and lists of numbers, every order in which fitsio returns rows", "why_tests_cant": "History property over chains of any length; objects without cutouts in between change the extensions written.", "anchors": ["meds/extractor.py:MEDSExtractor._extract", "meds/number_extractor.py:MEDSNumberExtractor._extract", "meds/number_extractor.py:MEDSNumberExtractor._get_row_ranges"]}
{"id": "C135", "title": "Every answer about an object survives extraction", "statement": "For an object of a file made by repeated extraction (C134), every accessor of class MEDS called with cutout number k >= 0 returns what it returns for the object of that number in the first file, value or exception: cutouts, mosaics and lists of image, weight, seg and bmask, PSFs, number, source information and paths, jacobians, centres, composite weight and seg (cutout, mosaic, list), interpolated coadd seg, circular seg weight and uberseg, fast or slow. Two files extracted in different ways agree in the same sense.", "quantifier": "every such file and chain, every object, every cutout number k >= 0, both values of every flag", "why_tests_cant": "Every accessor times every chain of extractions; a shift error of one row shows only in accessors that read the mosaic as a whole or the coadd cutout of another row.", "anchors": ["meds/meds.py:MEDS.get_mosaic", "meds/meds.py:MEDS.get_cweight_mosaic", "meds/meds.py:MEDS.get_cseg_mosaic", "meds/meds.py:MEDS.get_uberseg", "meds/meds.py:MEDS.get_cseg_weight", "meds/extractor.py:MEDSExtractor._extract"]}
{"id": "C136", "title": "List accessors, and files without numbers", "statement": "get_psf_list, get_cutout_list (also of type 'psf'), get_jacobian_list and get_uberseg_list return, for each cutout in order, what the accessor of one cutout returns, and raise what the first failing one raises; a file without the column number is served as if the numbers were 1, 2, ..., as get_number says.", "quantifier": "every file (well formed for pixel types), every object with cutouts, every type, fast or slow", "why_tests_cant": "Every file and every position in the list; files without a number column are not in the tests.", "anchors": ["meds/meds.py:MEDS.get_psf_list", "meds/meds.py:MEDS.get_cutout_list", "meds/meds.py:MEDS.get_jacobian_list", "meds/meds.py:MEDS.get_uberseg_list", "meds/meds.py:MEDS.get_number", "meds/meds.py:MEDS.get_cseg_weight"]}
{"id": "C137", "title": "Extraction from files of coadds", "statement": "The extractors work on the files MEDSCoaddMaker writes as on those of MEDSMaker: a range or a list of numbers with coadds in it gives a file whose accessors answer for these objects as those of the original do, and which holds no pixels but those of the selected coadds.", "quantifier": "every input file, configuration of cutout types, object range of the coadder, coadder whose stamps have the right shape (the package's does), failing objects, and every range or list of numbers extracted", "why_tests_cant": "Needs every pattern of failed objects: their space is reserved and stays unused at the end of the mosaics, so these are not the files the extractor tests use.", "anchors": ["meds/coadd.py:MEDSCoaddMaker.write", "meds/coadd.py:MEDSCoaddMaker._write_object_cutouts", "meds/extractor.py:MEDSExtractor._extract", "meds/number_extractor.py:MEDSNumberExtractor._extract"]}
{"id": "C138", "title": "Extracted files compare equal", "statement": "meds-compare, run on two files extracted from one file in whatever way (by range or by number, any number of times; the file itself is one of them), finds no difference between the cutouts of the objects they share: no exception, no message about images or weights, status 0.", "quantifier": "every file the extractors work on with unique ids, every chain of extractions on either side, every random subset, every tolerance >= 0, with or without --no-nepoch", "why_tests_cant": "All chains of extractions and all catalogs; one direction of error (a shifted start row, a wrong order of rows) shows only in particular selections.", "anchors": ["meds/compare.py:Comparator.go", "meds/compare.py:Comparator._match", "meds/compare.py:Comparator.compare_images", "meds/extractor.py:MEDSExtractor._extract", "meds/number_extractor.py:MEDSNumberExtractor._extract", "scripts/meds-compare:main"]}
{"id": "C139", "title": "Parallel PSF writing with PSF objects that have a memory", "statement": "With joblib the PSF extension is the one the serial writer makes, and both are what the PSF objects render, also for objects that change while they render: caches, random numbers, work buffers.", "quantifier": "every configuration, catalog, list of PSF objects with any kind of memory shared among them, size of a job and grouping of the jobs on workers", "why_tests_cant": "Depends on how joblib hands jobs and copies of the objects to its workers, which changes from run to run, and on catalogs of more than 2000 objects.", "anchors": ["meds/maker.py:MEDSMaker._write_psf_cutouts_joblib", "meds/maker.py:MEDSMaker._write_psf_cutouts_serial", "meds/maker.py:MEDSMaker._set_psf_layout", "meds/maker.py:_psf_rec_func"]}
{"id": "C140", "title": "What is in the file after a PSF object failed", "statement": "When the write fails while PSFs are rendered or written, the exception is the one of a PSF object or of an image that does not fit; the images, weights and masks in the file are complete, and the PSFs rendered before the failure are in the file.", "quantifier": "every configuration, catalog, list of PSF objects with any memory and any failures, content of the disk before, serial or joblib with any size of a job and grouping of the jobs", "why_tests_cant": "Depends on at which of many cutouts an object fails and on what the disk held before; a test fixes one of each.", "anchors": ["meds/maker.py:MEDSMaker._write_psf_cutouts_serial", "meds/maker.py:MEDSMaker._write_psf_cutouts_joblib", "meds/maker.py:MEDSMaker.write"]}
{"id": "C141", "title": "Comparison of catalogs", "statement": "compare_object_data reports exactly the fields in which matched objects of the two catalogs differ, requiring exact match, whichever file is given first, for all catalogs with the same columns.", "quantifier": "every pair of catalogs with any columns, number types, numbers of elements per row and values (including NaN and infinities), and every list of matched rows", "why_tests_cant": "Depends on the size of the numbers compared, on their order, and on rounding at the edge of the tolerance; tests use small catalogs of equal or grossly different numbers.", "anchors": ["meds/compare.py:Comparator.compare_object_data"]}
{"id": "C142", "title": "The pixel grid of the coadds", "statement": "The target Jacobian of MEDSCoadder represents the epochs of the file: it is invertible when the Jacobians of all epochs are, a Jacobian shared by most objects is used as it is, the order of the objects does not matter, files without epochs can be processed, and the coadd of an object does not depend on which other objects are in the file (coadding an extracted file gives the same coadds).", "quantifier": "every file with any number of objects, cutouts and Jacobians, every extraction from it, every configuration and every psf, interpolation, rejection and coadding function", "why_tests_cant": "The medians are over all objects of a file; the effect of mixed orientations or of leaving out objects shows only for particular collections of Jacobians.", "anchors": ["meds/coadd.py:MEDSCoadder._set_target_jacobian", "meds/coadd.py:MEDSCoadder.get_coadd_obs", "meds/coadd.py:MEDSCoadder._get_interpolated_coadd_seg", "meds/coadd.py:MEDSCoadder._get_jacobian_matrix"]}
{"id": "C143", "title": "Objects counted from the end", "statement": "Where an object index is taken, a negative index counts from the end as in Python: every accessor answers for j - n what it answers for object j of n, an index that names no object is refused, and MEDSCoaddMaker.write with any obj_range writes, for each object an index of the range names, the coadd of that object where the accessors find it, leaves every other object without a cutout, and succeeds whenever every index names an object and the coadds can be made.", "quantifier": "every file, every object and cutout index, every accessor; every coadder giving stamps of the object's size, every pair of range limits of either sign, any cutout types and contents of the reserved space", "why_tests_cant": "Tests use non-negative ranges; negative ones visit the objects out of order, so that the place of each coadd in the mosaics depends on the whole range.", "anchors": ["meds/coadd.py:MEDSCoaddMaker._write_cutouts", "meds/coadd.py:MEDSCoaddMaker._write_object_cutouts", "meds/coadd.py:MEDSCoaddMaker.write", "meds/meds.py:MEDS._check_indices", "meds/meds.py:MEDS.get_number"]}
{"id": "C144", "title": "The order of the images", "statement": "The order of the rows of image_info does not matter: MEDSMaker run with the same catalog and the same images in another order, psf_data moved along, makes a file in which every object has the same cutouts - as many, from the same images, at the same places, with the same Jacobians, sources, pixels and psfs - and if one of the files can be made so can the other.", "quantifier": "every catalog, every list of images and psfs and every rearrangement of it, every configuration, any two lists of cutout types, any contents of the reserved space", "why_tests_cant": "Tests make one file from one order. The claim is about pairs of runs, and about every permutation of any number of images.", "anchors": ["meds/maker.py:MEDSMaker._build_meds_layout", "meds/maker.py:MEDSMaker._get_pos_and_bounds", "meds/maker.py:MEDSMaker._write_cutouts", "meds/maker.py:MEDSMaker._write_psf_cutouts", "meds/meds.py:MEDS.get_cutout", "meds/meds.py:MEDS.get_psf"]}
{"id": "C145", "title": "Images left out", "statement": "Leaving out images leaves out their cutouts and changes nothing else: MEDSMaker run with the same catalog and only some of the images, in the same order and with their psfs, makes a file with the same objects in which the cutouts of each object are exactly those that the file of all images has from the images kept, in the same order, with the same places, Jacobians, sources, pixels and psfs; and it can be made whenever the file of all images can.", "quantifier": "every catalog, every list of images and psfs and every selection from it, every configuration, any two lists of cutout types, any contents of the reserved space", "why_tests_cant": "Tests make one file from one list. The claim is about pairs of runs, any number of images and any selection; all start rows and file ids differ between the two files.", "anchors": ["meds/maker.py:MEDSMaker._build_meds_layout", "meds/maker.py:MEDSMaker._get_pos_and_bounds", "meds/maker.py:MEDSMaker._write_cutouts", "meds/maker.py:MEDSMaker._write_psf_cutouts", "meds/meds.py:MEDS.get_cutout", "meds/meds.py:MEDS.get_psf"]}
{"id": "C146", "title": "The origin of the pixel grid", "statement": "What an image contributes does not depend on the frame it is stored in: if each image is put into a larger array, any number of rows and columns from its corner, with its wcs giving positions in the larger array, then every cutout of the file made before is in the file made after, its original position moved by those rows and columns, its first pixel likewise, with the same position inside the cutout, the same Jacobian, the same psf, and the same pixels wherever they come from the smaller image.", "quantifier": "every catalog, every list of images, every frame around each of them, every configuration without trimming, any two lists of cutout types, any contents of the reserved space", "why_tests_cant": "Tests use one frame. The claim is about pairs of runs, every offset and every position, including fractional ones and those at the edges where the rounding of positions and the clipping of boxes differ.", "anchors": ["meds/maker.py:MEDSMaker._build_meds_layout", "meds/maker.py:MEDSMaker._get_pos_and_bounds", "meds/maker.py:MEDSMaker._write_cutout", "meds/maker.py:MEDSMaker._get_clipped_boxes", "meds/maker.py:MEDSMaker._read_image", "meds/meds.py:MEDS.get_cutout", "meds/meds.py:MEDS.get_psf"]}
{"id": "C147", "title": "Other zero points", "statement": "Multiplying the scales of the images by any nonzero factors, one for each image, changes the pixels of image and weight cutouts and nothing else in them or in the catalog: image pixels are multiplied by the factor of their image, weights divided by its square, seg and bmask cutouts, positions, boxes, Jacobians, start rows and psfs stay the same, image^2*weight of every pixel stays the same, the weights masked by the coadd seg map (get_cweight_cutout, get_uberseg, the composite weights from the mapped coadd seg) are masked in the same pixels and divided by the same square, and the new file can be made exactly when the old one can.", "quantifier": "every catalog, every list of images, every choice of nonzero factors, every configuration, any two lists of cutout types, any contents of the reserved pixel space", "why_tests_cant": "Tests use one scale. The claim is about pairs of runs, for all factors and all pixels, also those that are masked or filled.", "anchors": ["meds/maker.py:MEDSMaker._read_image", "meds/maker.py:MEDSMaker._get_scale", "meds/maker.py:MEDSMaker._write_cutout", "meds/meds.py:MEDS.get_cutout", "meds/meds.py:MEDS.get_psf"]}
{"id": "C148", "title": "Backgrounds taken off before", "statement": "Image cutouts depend on an image and its background only through their difference: if one file is made from images with background files and another from images (with other backgrounds or none) that have the same difference pixel by pixel, then, when both are made, they have the same catalog, the same psfs and the same pixels in every cutout of every type; in particular a background file may be replaced by taking the background off the image before, and when the backgrounds have the shapes of their images the one file can be made exactly when the other can.", "quantifier": "every catalog, every list of images, every background array, every configuration, any two lists of cutout types, any contents of the reserved pixel space", "why_tests_cant": "The claim is about pairs of runs for all background arrays; a test compares a few of them, and rarely with cutouts at the edges, scales and masks together.", "anchors": ["meds/maker.py:MEDSMaker._read_image", "meds/maker.py:MEDSMaker._read_one_image", "meds/maker.py:MEDSMaker._write_cutout", "meds/meds.py:MEDS.get_cutout"]}
{"id": "C149", "title": "Bits that are not declared unusable", "statement": "The bitmasks of the images matter only through the pixels they flag with unusable_bmask: changing other bits of any mask (or any bit when unusable_bmask is not configured) changes the bmask cutouts and nothing else; catalog, psfs, all image, weight and seg extensions, and the weights from get_cweight_cutout, get_uberseg and get_cseg_weight stay the same, and the new file can be made exactly when the old one can.", "quantifier": "every catalog, every list of images, every pair of masks that flag the same pixels, every value of unusable_bmask, every configuration, every list of cutout types", "why_tests_cant": "The claim is about pairs of runs, for all masks and all values of unusable_bmask, negative ones included; tests use one mask.", "anchors": ["meds/maker.py:MEDSMaker._read_image", "meds/maker.py:MEDSMaker._check_bad_bmask", "meds/maker.py:MEDSMaker._write_cutouts", "meds/meds.py:MEDS.get_cweight_cutout", "meds/meds.py:MEDS.get_uberseg"]}
{"id": "C150", "title": "Each cutout type has its own files", "statement": "The cutouts of a type depend on the files of that type and no others: if two files are made from the same catalog and the same images on the sky, then catalog and psfs are the same whatever the pixel files hold, and a cutout of a type is the same whenever its image has the same files for the type - image: image, background and scale; weight: weight and scale, and the bitmask only when unusable_bmask is configured; seg: seg; bmask: bmask - whatever the other files of this image and all files of the other images hold and whichever other types are written; if all images have the same files for a type, the whole extension is the same, also where images have no file for it; and the weights from get_cweight_cutout and get_uberseg depend on the weight files of their image and the seg map of the coadd only.", "quantifier": "every catalog, every pair of lists of images with the same astrometry, every configuration, any two lists of cutout types, any contents of the reserved pixel space", "why_tests_cant": "Non-interference: the claim is about all pairs of inputs that differ in files that should not matter. A test changes one file at a time.", "anchors": ["meds/maker.py:MEDSMaker._read_image", "meds/maker.py:MEDSMaker._write_cutouts", "meds/maker.py:MEDSMaker._build_meds_layout", "meds/meds.py:MEDS.get_cutout"]}
