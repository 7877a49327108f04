# ---------------------------------------------------------------- ByteHandler
p("Single-byte bit access is exact",
  "ByteHandler::SetBit(byte,pos,v) with pos<8 makes GetBit(byte,pos) return v and leaves the other seven bits as they were; with pos>=8 both calls throw std::invalid_argument and the byte keeps its value. No call is undefined behaviour.",
  "every byte value, every position (also >= 8), both bit values",
  "the claim is a frame condition over all bits and all out-of-range positions",
  (BH,"ByteHandler::SetBit(Byte&,uint8_t,bool)","ByteHandler::GetBit(Byte,uint8_t)"))
p("Bit-position and byte-count queries",
  "GetHigherBitPos returns the index of the highest set bit of a non-zero byte (0 for 0); GetLowerBitPos returns the index of the lowest set bit (255 for 0); CalcRealByteCnt(n) returns the least number of bytes, at least one, in which n can be written. All loops terminate.",
  "every byte; every 64-bit n",
  "2^64 inputs",
  (BH,"GetHigherBitPos","GetLowerBitPos","CalcRealByteCnt"))
p("Byte-array bit access does not work",
  "For a non-null array of n>=8 bytes and any in-range bit position Pos (Pos < 8n): when Pos<=8 the array overloads of SetBit/GetBit are undefined behaviour (division by zero or an access past the array); when Pos>8 SetBit changes nothing and GetBit returns false. So the documented contract 'set/get the bit at Pos' holds for no position that is set to 1. std::invalid_argument is thrown exactly for a null pointer, n<8 or Pos>=8n.",
  "every array content and length >= 8, every position, both values",
  "tests sample a few positions and the repository has none for these overloads",
  (BH,"ByteHandler::SetBit(Byte*,size_t,size_t,bool)","ByteHandler::GetBit(Byte*,size_t,size_t)"))
# ---------------------------------------------------------------- BitMatrix
p("A new or resized matrix is all zeros with the requested size",
  "BitMatrix(r,c) (when memory is available) has r rows and c columns and every Get(i,j) with i<r, j<c is false; Resize(r,c) with r,c>0 gives the same matrix whatever the object held before; Resize with a zero dimension throws std::runtime_error and leaves the object as it was. When memory is not available the constructor yields the empty 0x0 matrix.",
  "all sizes, all prior contents of the object, all allocation outcomes",
  "unbounded sizes and prior states",
  (BM,"BitMatrix::BitMatrix(size_t,size_t)","BitMatrix::Resize"))
p("Set/Get behave as a bounds-checked 2-D array of bits",
  "On a well-formed matrix Set(i,j,v) with i<rows and j<cols changes exactly the bit (i,j): Get(i,j) afterwards is v and every other Get is unchanged, sizes unchanged. Out-of-range Set/Get throw std::runtime_error and change nothing. Neither is ever undefined behaviour.",
  "all matrices reachable through the API, all indices, both values",
  "frame condition over every other cell",
  (BM,"BitMatrix::Get","BitMatrix::Set"))
p("Every history of in-contract calls refines an abstract bit array",
  "Starting from a constructed matrix, any finite sequence of Set, Get, SetRange and SetByte with in-range arguments, Ones, Zeros, Resize, copy and XOR-assignment never reaches undefined behaviour, and every returned value equals that of an abstract rows x cols array of booleans on which the same calls are performed.",
  "all finite call sequences, all sizes, all arguments satisfying the documented ranges",
  "the set of histories is infinite",
  (BM,"BitMatrix"),(BMH,"BitMatrix"))
p("SetRange fills exactly the inclusive rectangle, and its range check is off by one",
  "SetRange(i0,j0,i1,j1,v) with i0<=i1<rows, j0<=j1<cols sets exactly the cells i0..i1 x j0..j1 to v and nothing else. It throws without effect when i0>i1, i1>rows, j0>j1 or j1>cols. It does NOT reject i1=rows: that call is always undefined behaviour (write past the row array); nor j1=cols (with i1<rows): that is undefined behaviour when cols is a multiple of 8 and otherwise harmless: it acts as SetRange(i0,j0,i1,cols-1) for every observer.",
  "all well-formed matrices, all argument quadruples, both values",
  "boundary behaviour for every size",
  (BM,"BitMatrix::SetRange","BitMatrix::UnsafeSet"))
p("SetByte writes eight columns, most significant bit first, and its column check is off by one",
  "SetByte(i,jb,b) with i<rows and jb<ceil(cols/8) makes Get(i,8*jb+k) the k-th most significant bit of b for every visible column and changes no other cell; i>=rows or jb>ceil(cols/8) throws std::invalid_argument without effect; jb=ceil(cols/8) is accepted by the check and is undefined behaviour. UnsafeSetByte (for derived classes) fills the eight columns with one value and is undefined behaviour out of range.",
  "all well-formed matrices, all byte positions, all byte values",
  "boundary behaviour for every size",
  (BM,"BitMatrix::SetByte"))
p("Ones and Zeros",
  "On a non-empty matrix Ones() makes every Get true and Zeros() makes every Get false, sizes unchanged; on a 0x0 matrix Ones() throws std::runtime_error and Zeros() does nothing.",
  "all well-formed matrices",
  "all sizes and contents",
  (BM,"BitMatrix::Ones","BitMatrix::Zeros"))
p("XOR is cell-wise",
  "A^B of two non-empty matrices of equal size is a matrix of that size whose cell (i,j) is A(i,j) xor B(i,j) and neither operand changes; different sizes throw std::invalid_argument; empty operands (or failure to allocate the result) throw std::runtime_error.",
  "all pairs of well-formed matrices, all allocation outcomes",
  "all sizes and contents",
  (BM,"operator^"))
p("operator== / operator!= are a 0.01% tolerance test, and overlap",
  "For two non-empty equal-sized matrices of n<=2^38 bits differing in d bits: A==B is true exactly when 10000*d<=n, and A!=B is true exactly when 10000*d>=n (IEEE-754 double evaluation included). Hence == is not bit equality, is not transitive, and when 10000*d=n both A==B and A!=B are true. For different sizes or empty operands == is false and != true, so an empty matrix does not equal itself.",
  "all pairs of matrices up to 2^38 bits",
  "depends on floating-point rounding for every n and d",
  (BM,"operator==","operator!=","BitMatrix::Compare"))
p("Compare is a symmetric similarity score",
  "Compare(A,B)=Compare(B,A) always; it is exactly 1 when A and B are identical non-empty matrices, it is -1 exactly for different sizes, empty operands or allocation failure, otherwise it lies in [0,1]. It never throws.",
  "all pairs of well-formed matrices up to 2^53 bits",
  "floating-point claims over all sizes",
  (BM,"BitMatrix::Compare"))
p("OneRatio and ZeroRatio are correctly rounded fractions",
  "For a non-empty matrix of n<=2^53 bits with k ones, OneRatio() is the IEEE double nearest to k/n and ZeroRatio() the one nearest to (n-k)/n; for an empty matrix both are NaN. Hidden padding bits never count.",
  "all well-formed matrices up to 2^53 bits",
  "floating-point accumulation over every size",
  (BM,"BitMatrix::CalcRatio","OneRatio","ZeroRatio"))
p("Copies are independent; moved-from and converted objects are broken",
  "A copy (construction or assignment) has the same sizes and bits, and later changes to either do not show in the other. A moved-from BitMatrix (by construction or assignment) keeps reporting its old row and column counts while holding no data, so an in-range Get or Set on it is undefined behaviour. A LayoutMatrix move-constructed from a BitMatrix always reports 0 columns and is invalid. Move-assigning an object to itself loses its data: a LayoutMatrix becomes empty, a BitMatrix keeps its sizes without data.",
  "all non-empty matrices",
  "aliasing and moved-from behaviour for every size",
  (BM,"BitMatrix::BitMatrix(BitMatrix&&)","operator="),(LM,"LayoutMatrix::LayoutMatrix(BitMatrix&&)"))
p("Serialize has a fixed layout and drops the last partial byte",
  "Serialize of an r x c matrix yields 18+floor(r*c/8) bytes: 8, the 8-byte little-endian r, 8, the 8-byte little-endian c, then the bits in row-major order packed least significant bit first; the last (r*c mod 8) bits are not stored. An empty matrix throws std::runtime_error.",
  "all well-formed matrices with sizes below 2^64",
  "format claim for every size",
  (BM,"BitMatrix::Serialize","SerializeSizes","SerializeMatrix"))
p("Serialize/DeserializeMatrix round trip, exactly when the bit count is a multiple of 8",
  "If r*c is a multiple of 8, DeserializeMatrix(Serialize(m)) returns a matrix with the same sizes and bits. If it is not, DeserializeMatrix(Serialize(m)) reads past the end of the vector: undefined behaviour.",
  "all non-empty matrices",
  "the repository tests only 100x50, where r*c is a multiple of 8",
  (BM,"BitMatrix::DeserializeMatrix","BitMatrix::Serialize"))
p("DeserializeMatrix is memory safe only on well-framed input",
  "For an arbitrary byte vector: empty input throws; otherwise the call is undefined behaviour whenever the first byte exceeds 8 or the vector is shorter than 2+2*k bytes (k the first byte) or the payload holds fewer than r*c bits for the r,c it announces; in every other case it returns the r x c matrix of the payload bits (memory permitting). The stored column-width byte is ignored: the row width is used for both.",
  "all byte vectors",
  "adversarial inputs of unbounded length",
  (BM,"BitMatrix::DeserializeMatrix"))
p("FromString fills the upper-left block only, and its length check can wrap",
  "FromString(s,r,c) throws std::invalid_argument unless |s| equals r*c modulo 2^32. If |s| is at least ceil(r/8)*ceil(c/8) - always so when r*c<2^32 - it is not undefined behaviour, and row i<ceil(r/8) holds the bits of s[i*ceil(c/8)..], most significant first, and every row >= ceil(r/8) is zero. If r*c wraps and |s| is less than that (for example r=c=65536 with the empty string) it is undefined behaviour.",
  "all strings, all 32-bit sizes",
  "wrap-around needs matrices of 2^32 cells",
  (BM,"BitMatrix::FromString"))
p("Vector2D shape and bounds",
  "Vector2D(r,c) is r x c default-initialised when 1<=r,c<=5000 and empty otherwise; Resize(r,c) is r x c for all r,c; At(i,j) returns the element in range and throws std::invalid_argument otherwise; assigning through At(i,j) changes that element only and no length; operator! is false exactly for a non-empty rectangular shape with non-empty rows; ColCount() on an empty Vector2D is undefined behaviour.",
  "all sizes and indices",
  "all sizes",
  (V2,"Vector2D","IsIndexValid","Resize","At","CheckParameters","ColCount"))
# ---------------------------------------------------------------- CRC
p("CalcHash is CRC-32 (reflected 0xEDB88320)",
  "Crc32::CalcHash(data,n) for 0<n<2^32 equals the bit-at-a-time CRC-32 with reflected polynomial 0xEDB88320, initial value and final complement 0xFFFFFFFF; it throws std::invalid_argument for n=0 or a null pointer.",
  "all non-empty byte strings",
  "infinitely many strings; the 256-entry table could hide one wrong word",
  (CRC,"Crc32::CalcHash","g_crc32Table"))
p("CRC-32 detects every burst of at most 32 bits",
  "Two strings of equal length below 2^32 that differ only inside a window of at most four consecutive bytes have different CalcHash values.",
  "all strings, all positions, all replacements",
  "every position and every replacement of unbounded strings",
  (CRC,"Crc32::CalcHash"))
# ---------------------------------------------------------------- Base64
p("Standard and URL encoding conform to RFC 4648",
  "Base64Encode(s,standard) for non-empty s is the RFC 4648 section 4 encoding of s; Base64Encode(s,url) uses the section 5 alphabet but '.' for padding. The empty string throws std::invalid_argument for standard, url, mime and pem and yields the empty string for radix64. An encoding value outside the enumeration gives the empty string, in both directions.",
  "all byte strings, including bytes >= 0x80 (signed char)",
  "all strings",
  (B64,"InBase64Encode","Base64::Base64Encode"))
p("Standard and URL round trip",
  "Base64Decode(Base64Encode(s,t),t') = s for t,t' in {standard,url} and every non-empty s; the encoder is therefore injective.",
  "all non-empty byte strings",
  "fuzzing samples 1000 strings",
  (B64,"InBase64Encode","InBase64StandardDecode"))
p("The decoder's exact behaviour on arbitrary text",
  "Base64Decode(t,standard or url) for any non-empty text: reading quartets left to right, it throws std::runtime_error at the first symbol outside both alphabets in a position it decodes, stops at the first '=' or '.' in third or fourth place of a quartet ignoring whatever follows, and is undefined behaviour exactly when the text ends inside a quartet before that. Otherwise the result is the concatenation of the quartets' 24 bits cut to whole bytes. The empty text throws std::invalid_argument.",
  "all byte strings",
  "adversarial inputs of unbounded length",
  (B64,"InBase64StandardDecode","InGetSymbPosition"))
p("Encoded length, alphabet and padding",
  "The standard/url encoding of n>=1 bytes has length 4*ceil(n/3); every character is in the 64-letter alphabet except (3-n mod 3) mod 3 padding characters, which are the last ones.",
  "all non-empty byte strings",
  "all lengths",
  (B64,"InBase64Encode"))
p("MIME and PEM line structure",
  "Base64Encode(s,mime) (resp. pem) is the standard encoding cut into lines of exactly 76 (resp. 64) characters joined by CR LF, the last line being non-empty and no longer than that, with no trailing separator; removing CR and LF gives the standard encoding.",
  "all non-empty byte strings",
  "all lengths, in particular multiples of the line length",
  (B64,"InBase64EncodeWithSeparator","InBase64EncodeMime","InBase64EncodePem"))
p("MIME and PEM round trip",
  "Base64Decode(Base64Encode(s,t),t)=s for t in {mime,pem} and every non-empty s, also when CR and LF characters are inserted or removed anywhere in the text.",
  "all non-empty byte strings, all placements of CR/LF",
  "all placements of separators",
  (B64,"InBase64DecodeWithSeparators"))
p("Radix-64 round trip, and the zero-checksum failure",
  "If Base64Encode(s,radix64) returns e then Base64Decode(e,radix64)=s. The encoder throws exactly when the CRC-32 of the MIME text is 0 (or that text's length is a multiple of 2^32), and such inputs exist; the empty string maps to the empty string.",
  "all byte strings",
  "one input in 2^32 fails: no test finds it",
  (B64,"InRadix64Encode","InRadix64Decode"))
p("Radix-64 integrity",
  "If Base64Decode(t,radix64) returns for non-empty t then the last 8 characters are the base64 form of the little-endian CRC-32 of the rest. Hence a text obtained from an encoder output by changing a burst of at most four consecutive characters, wherever it lies (payload, checksum, or across their border), is always rejected with an exception.",
  "all strings, all corruptions of that shape",
  "all positions and replacements",
  (B64,"InRadix64Decode"),(CRC,"Crc32::CalcHash"))
# ---------------------------------------------------------------- RLE
p("Run-length encoding of a matrix is faithful and bounded",
  "Rle::Encode(m) for a non-empty matrix, read as (bit 7 = value, bits 0-6 = run length), expands to exactly the row-major bits of m; its length lies between ceil(n/127) and n for n=rows*cols bits. An empty matrix gives the empty string.",
  "all well-formed matrices",
  "runs of every length around multiples of 127",
  (RLE,"Rle::Encode(const LayoutMatrix&)"))
p("DecodeMatrix is total",
  "Rle::DecodeMatrix(s,r,c) for any byte string never throws and is never undefined behaviour; for non-empty s it returns the r x c matrix (memory permitting, else the empty matrix) holding the first r*c expanded bits in row-major order and zeros after; surplus runs are ignored. The empty string gives the empty matrix.",
  "all byte strings, all sizes",
  "adversarial inputs",
  (RLE,"Rle::DecodeMatrix"))
p("Matrix RLE round trip",
  "Rle::DecodeMatrix(Rle::Encode(m),rows,cols) has the sizes and bits of m.",
  "all non-empty matrices with sizes below 2^32",
  "all sizes and contents",
  (RLE,"Rle::Encode(const LayoutMatrix&)","Rle::DecodeMatrix"))
p("Byte-string RLE: encoder faithful, decoder a stub",
  "Rle::ByteEncode(s) for non-empty s expands to the bits of s (most significant first); on the empty string it is undefined behaviour. Rle::ByteDecode returns the empty string for every input and terminates, so no non-empty string survives ByteDecode(ByteEncode(s)). Rle::Encode(string) and Rle::Decode(string) return the empty string.",
  "all byte strings",
  "all strings",
  (RLE,"Rle::ByteEncode","Rle::ByteDecode","Rle::Encode(std::string_view)","Rle::Decode"))
# ---------------------------------------------------------------- LayoutMatrix hash
p("Size field: encoding, and the exact set of sizes that decode",
  "EncodeSz(r,c) is the standard Base64 of eight zero bytes followed by the little-endian 64-bit r*2^32+c, 24 characters. DecodeSz of those 16 bytes shifts a 64-bit value by 64 and more: undefined behaviour in C++ for every 16-byte input. With x86-64 shift semantics (count modulo 64) and signed char, it returns (r,c) exactly when every one of the low seven bytes of r*2^32+c is below 128 or followed only by 0xFF bytes; otherwise a wrong size. Any other input length throws std::invalid_argument.",
  "all 32-bit r,c; all strings",
  "the repository tests only sizes 50..120",
  (LM,"LayoutMatrix::EncodeSz","LayoutMatrix::DecodeSz"))
p("Encoding-flag byte",
  "EncodeEncodings(rle,b64) stores rle in bit 1 and b64 in bit 0; DecodeEncodings recovers rle, but reports rle for both flags, so b64 is recovered exactly when b64=rle.",
  "both flags; every byte",
  "finite; listed because DecodeHash relies on it",
  (LM,"LayoutMatrix::EncodeEncodings","LayoutMatrix::DecodeEncodings"))
p("Matrix hash round trip",
  "With x86-64 shifts and sufficient memory: for every non-empty matrix m whose sizes are below 2^32 and whose size field decodes (see the size-field property), DecodeHash(EncodeHash(m)) and InitMatrFromHash(m.GetHash()) give a matrix with the sizes and bits of m; for sizes with a byte >= 128 in a position that spoils the size field the result has other sizes than m.",
  "all non-empty matrices, all sizes",
  "tests cover only random 50..120 x 50..120",
  (LM,"LayoutMatrix::EncodeHash","LayoutMatrix::DecodeHash","GetHash","InitMatrFromHash"))
p("Equal hashes mean equal matrices",
  "If EncodeHash(a) and EncodeHash(b) return the same text, a and b have the same sizes (modulo 2^32) and the same bits; conversely matrices with the same sizes and bits have the same hash whatever their hidden padding bits.",
  "all pairs of non-empty matrices with sizes below 2^32",
  "pairs of unbounded matrices",
  (LM,"LayoutMatrix::EncodeHash"))
p("DecodeHash rejects damaged hashes",
  "DecodeHash throws for the empty text, for a text without the BEGIN line or the END line, for a hash that suffered a burst corruption of at most four characters anywhere, and for every truncated hash; it throws when the decoded body is shorter than the 62-byte parameter block or lacks the size or encode-type section.",
  "all texts; all such corruptions",
  "all positions and replacements",
  (LM,"LayoutMatrix::DecodeHash"))
p("File round trip",
  "m.FlushFile(f) followed by n.ReadFile(f) with no I/O fault and no intervening write returns true twice and leaves n with the sizes and bits of m (under the hash round-trip conditions); an empty file name or a file that cannot be opened makes either return false and changes neither the matrix nor any file.",
  "all matrices, all prior file-system contents, all prior n",
  "all contents",
  (LM,"LayoutMatrix::FlushFile","LayoutMatrix::ReadFile"))
p("Failure atomicity of file operations",
  "ReadFile that throws or returns false leaves the matrix object unchanged. So does an InitMatrFromHash that fails. FlushFile is not atomic: it truncates the file before encoding, so flushing an empty matrix throws after destroying the previous contents, and a crash between truncation and write leaves the file empty; a short write is reported as success. A file torn at any point is never mistaken for another matrix: reading it throws and keeps the object.",
  "all matrices, all prior contents, all crash points",
  "crash points",
  (LM,"LayoutMatrix::FlushFile","LayoutMatrix::ReadFile"))
# ---------------------------------------------------------------- workspace, zond
p("Workspace coordinates",
  "SetAngleCoords accepts exactly boxes with left<=right and bottom<=top and otherwise returns false and changes nothing; isInWorkspace is true exactly for points strictly inside.",
  "all coordinates",
  "all 32-bit coordinates",
  (LM,"WorkspaceCoords::SetAngleCoords","WorkspaceCoords::isInWorkspace"))
p("SetEps validates the wrong value",
  "LayoutZond::SetEps(e) accepts or rejects according to the previously stored accuracy, not according to e: from a fresh zond any e is accepted, and once a value outside [0,0.5] is stored every later SetEps throws.",
  "all doubles, all histories of calls",
  "histories",
  (Z,"LayoutZond::SetEps","LayoutZond::SetDeltas"))
p("Zonding a rectangle only sets bits, only inside the bounds",
  "ZondRectangle never clears a bit, never changes the matrix size, and any bit it sets lies within the bound indices and the matrix; if it throws, the matrix is unchanged. ZondGeometry ignores polygons, throws for every other type, and dereferences a null pointer.",
  "all rectangles, workspaces, deltas, bounds and matrices (IEEE doubles)",
  "all coordinates",
  (Z,"LayoutZond::ZondRectangle"))
p("A rectangle that covers the workspace fills it",
  "If the rectangle contains the whole workspace, every cell within the bounds is set and no other, for every cell size from 2^-32 (a one-unit box cut into the most parts a uint32_t can express) and every accuracy up to 1/8: rounding never makes the covering test fail.",
  "all rectangles, workspaces and matrix sizes (IEEE doubles)",
  "floating-point comparison for all coordinates",
  (Z,"LayoutZond::ZondRectangle"))
p("A rectangle starting left of or above the workspace aborts",
  "If the rectangle starts left of or above the workspace and ends at least one whole cell short of some edge, ZondRectangle throws std::invalid_argument and sets nothing - also when it overlaps the workspace, so overlapping cells are lost and the whole Process call is aborted.",
  "all rectangles and workspaces with positive size",
  "all coordinates",
  (Z,"LayoutZond::NormIndicies","LayoutZond::ZondRectangle"),(G,"LayoutBitmapGenerator::ZondMatrix"))
p("Every cell whose centre is covered is set",
  "For a rectangle starting inside the workspace, each cell (i,j) inside the bounds whose centre, in index space, lies within the computed begin/end indices is set.",
  "all index values representable as doubles below 2^31",
  "all fractional positions",
  (Z,"LayoutZond::NormIndicies"))
p("Cells are set at most one cell too far",
  "Every cell set by ZondRectangle (not covering the workspace) has its centre at most one cell (plus the accuracy) outside the rectangle; the last cell is overshot by one exactly when the end index has fraction >= 1/2 or reaches the last cell, so the 'centre inside' rule of the begin edge is not applied at the end edge.",
  "all index values representable as doubles below 2^31",
  "all fractional positions",
  (Z,"LayoutZond::NormIndicies"))
# ---------------------------------------------------------------- generator
p("Generator initialisation is one-shot",
  "The first Init with non-null data, a non-empty layer set and an ordered box succeeds; every later Init on the same generator throws std::invalid_argument, whatever its arguments; an Init rejected for its arguments before the reset can be repeated, one rejected for its box cannot.",
  "all argument sequences",
  "call histories",
  (G,"LayoutBitmapGenerator::Init","LayoutBitmapGenerator::Reset"))
p("Process after Init reads a destroyed element",
  "After a successful Init, Process(r,c) with r,c>0 always performs ColCount() on the emptied fragment matrix: undefined behaviour under C++ rules. If that read yields any value at all, the value has no influence on the resulting matrix.",
  "all layouts, sizes and values read",
  "undefined behaviour that happens to work",
  (G,"LayoutBitmapGenerator::Process"),(V2,"ColCount"))
p("Process depends only on its inputs",
  "The matrix produced by Process(r,c) is a function of the layout, layer set, box and r,c: it does not depend on earlier Process calls or the previous matrix contents; repeating a call gives the same matrix.",
  "all call histories",
  "histories",
  (G,"LayoutBitmapGenerator::Process"))
p("Only the first selected layer of each library is drawn",
  "InitGeometryItems collects, per library, the geometries of the first layer (in file order) whose number is in the layer set, and no other layer's; so selecting several layers draws only one of them.",
  "all layouts and layer sets",
  "all layouts",
  (G,"LayoutBitmapGenerator::InitGeometryItems","ProcessGeometries"))
p("The bitmap is the union of its geometries, order-independent",
  "When Process completes, cell (i,j) is set exactly when zonding some collected geometry alone would set it; permuting the geometries of a layer does not change the matrix; geometries outside the workspace contribute nothing.",
  "all layouts, all permutations",
  "all permutations",
  (G,"LayoutBitmapGenerator::ZondMatrix","ProcessGeometries","GeometryWorkspaceIntersection"))
# ---------------------------------------------------------------- converter
p("Paths are converted to points at the origin",
  "PathToRectList on a path of n>=1 points returns n-1 rectangles, one per segment, on the path's layer, each of which consists of the point (0,0) alone - whatever the coordinates and the width of the path (the switch that computes the corners falls through to its default). A null pointer or an object that is not a path throws std::invalid_argument; a path without points is undefined behaviour.",
  "all paths of any length, position and width whose intermediate values fit",
  "missing break in a switch: all coordinates and path lengths",
  (CONV,"GeometryConverter::PathToRectList","InCalcRectAngles","InFillBox"))
p("The discarded path arithmetic still overflows",
  "PathToRectList is undefined behaviour exactly when one of the values it computes (and discards) for some segment of non-zero length - the segment's points plus or minus half the width - does not fit in 32 bits; in particular when half the width to the left or right of a segment's first point leaves the range. A path whose points all coincide is defined for every width.",
  "all paths",
  "boundary values of all coordinates",
  (CONV,"InCalcRectAngles"))
p("Reference flattening",
  "SplitSref(ref) on an acyclic structure returns, depth first in order, each polygon and rectangle (and the boxes of each path) reached through the references, translated by the sum of the minima of the structures on the way - never by the reference's own placement coordinates; null references give an empty list; a path contributes point boxes at that sum (C53); no call throws.",
  "all acyclic reference graphs of any depth",
  "unbounded nesting",
  (CONV,"GeometryConverter::SplitSref","InAddCoordValue"))
p("Cyclic references never terminate",
  "If a structure refers to itself directly or through others, SplitSref on a reference into the cycle neither returns nor throws for any stack depth; on otherwise well-formed structures it exhausts the stack at every depth. When a call returns, every deeper stack gives the same result.",
  "all graphs in which every path from the reference can be extended, all stack depths",
  "non-termination",
  (CONV,"GeometryConverter::SplitSref"))
# ---------------------------------------------------------------- MSK reader
p("Box construction",
  "FillBox(leftBot,rightTop) produces the five corner points left-top, right-top, right-bottom, left-bottom, left-top, the given layer, and min/max equal to the bounding box of the corners, for every orientation of the two points, without 32-bit overflow whenever the differences fit.",
  "all coordinates",
  "all coordinates",
  (MSK,"MskReader::FillBox"),(CONV,"InFillBox"))
p("Reading a well-formed MSK file",
  "For every text whose lines are BB, REC and TITLE records with numbers that fit in 32 bits (names up to 7, texts up to 63 characters) or lines that begin with none of these keywords, and that has at least one BB or one REC with a known layer: Read into an empty layout returns true, sets name and format, and the layout has one library with one element holding, in file order, the BB boxes and the rectangles whose layer name is in the table (others are dropped), each with the corner points its numbers say.",
  "all such files of any length",
  "all files",
  (MSK,"MskReader::Read","ReadSectionRectangle","ReadSectionBoundingBox","ParseRecLine"))
p("Layers partition the rectangles",
  "After a Read of any text into an empty layout that returns true, concatenating the layers' geometry lists is a permutation of the element's geometry list; every geometry sits in a layer whose number equals its own layer number; no two layers have the same number except those of bounding boxes (-5); every other layer holds its objects in file order; every layer has the name that belongs to its number.",
  "all files",
  "all files",
  (MSK,"ReadSectionRectangle","ReadSectionBoundingBox"))
p("Element bounding box",
  "After a successful Read into an empty layout the element's min/max is the exact bounding box of all its geometries; a file of well-formed lines without any BB or known REC (for instance only the VERSION line) makes Read undefined behaviour.",
  "all files",
  "all files",
  (MSK,"MskReader::Read"))
p("Malformed lines",
  "In a file whose earlier lines are in order, each of these lines makes Read undefined behaviour: a REC line whose layer token has 8 or more characters (8-byte buffer), a TITLE text of 64 or more characters (64-byte buffer), a REC line that ends before the layer token (indexes a string at -1), a REC or BB number that does not fit in 32 bits, a box whose width or height or opposite corner overflows. A BB line that ends early is accepted, with zeros for the missing numbers.",
  "all such lines",
  "adversarial inputs",
  (MSK,"ParseRecLine","ReadSectionBoundingBox"))
p("Format detection",
  "GetReader returns a reader exactly when the name (each wide character cut to a byte) ends in a letter, digit or underscore followed by '.msk' (any case), the file opens, and its text starts with VERSION.",
  "all names and file contents",
  "all names",
  (MSK,"MskReader::IsMyFormat"),(S+"LayoutReader/LayoutReader.cpp","GetReader"))
# ---------------------------------------------------------------- GDSII
p("GDSII integer conversion",
  "Normalize_WORD converts the in-memory image of a big-endian two-byte two's complement integer to its value for all 65536 images, and Normalize_DWORD does the same for four bytes except 0x80000000, where it overflows (undefined behaviour); every image occurs. DeNormalize_WORD/DWORD turn every 16-bit/32-bit integer into the image of its big-endian two's complement form, so that Normalize_* gives it back (except -2^31).",
  "all 2^16 and 2^32 images",
  "2^32 images",
  (GDH,"Normalize_WORD","Normalize_DWORD","DeNormalize_WORD","DeNormalize_DWORD"))
p("GDSII real conversion",
  "Normalize_DOUBLE returns, for every eight-byte GDSII real, the IEEE double nearest (ties to even) to (-1)^s * m/2^56 * 16^(e-64).",
  "all 2^64 images",
  "2^64 images",
  (GDH,"Normalize_DOUBLE"))
p("GDSII real encoding loses powers of 16",
  "DeNormalize_DOUBLE followed by Normalize_DOUBLE is the identity on every double x with 2^-52<=|x|<16^63 that is not plus or minus a power of 16; powers of 16 up to 16^63 (in particular 1.0), NaN and every |x|<2^-52 come back as 0, every finite |x|>16^63 as a number in (-16^-64,0], and for the infinities the behaviour is undefined.",
  "all doubles in that range",
  "2^62 values",
  (GDH,"DeNormalize_DOUBLE"))
p("The GDSII reader never reads",
  "LayoutReader_GDSIIbin::Read on a freshly created reader returns false without touching the layout, for every file and layout, and stays so however often it is called.",
  "all files, layouts and call sequences",
  "histories",
  (GDS,"LayoutReader_GDSIIbin::Read"))
# ---------------------------------------------------------------- compression coefficients
p("Compression coefficients",
  "CalcCompressionCoeffitient(str,true) of a non-empty string is the IEEE double nearest to |str| / |ByteEncode(str)| (the divisor is never 0); with false it is +infinity for every non-empty string, because the plain encoder returns the empty string; for the empty string both are 0. For a non-empty r x c matrix it is the double nearest to (18 + floor(rc/8)) / |Encode(matrix)|; for an empty matrix 0.",
  "all strings up to 2^49 bytes, all matrices up to 2^52 bits",
  "floating-point quotient for every input",
  (RLE,"Rle::CalcCompressionCoeffitient"))
# ---------------------------------------------------------------- end to end
p("Covered cells are set, from Init to the bitmap",
  "Init with a layout and a box, then Process(r,c): if every rectangle to be drawn begins neither left of nor above the box (and none reaches 2^30 cells past it), and the objects can be converted, then Process returns true, and every cell whose centre - measured in real numbers from the box - lies in one of the rectangles at least 2^-20 of a cell away from its edges is set. All floating-point rounding is accounted for.",
  "all layouts, 32-bit boxes, row and column counts up to 2^30, call histories",
  "rounding of every coordinate and every size",
  (G,"LayoutBitmapGenerator::Process","LayoutBitmapGenerator::Init"),(Z,"LayoutZond::ZondRectangle"))
p("Set cells lie near a rectangle, from Init to the bitmap",
  "In the same situation every cell that is set has its centre at most one cell (plus 2^-20 of a cell) away, in each direction, from some rectangle to be drawn.",
  "all layouts, 32-bit boxes, row and column counts up to 2^30, call histories",
  "rounding of every coordinate and every size",
  (G,"LayoutBitmapGenerator::Process","LayoutBitmapGenerator::Init"),(Z,"LayoutZond::ZondRectangle"))
p("One rectangle across the left or top edge aborts the whole bitmap",
  "If one of the rectangles to be drawn begins left of or above the box and ends at least one cell (plus 2^-20) short of some edge, Process(r,c) throws std::invalid_argument, whatever else the layout contains - so a box that cuts through the layout usually yields no bitmap.",
  "all layouts, 32-bit boxes, row and column counts up to 2^30, call histories",
  "all coordinates and orders of the objects",
  (G,"LayoutBitmapGenerator::Process"),(Z,"LayoutZond::NormIndicies"))
p("Polygons leave no mark",
  "After a Process(r,c) that returns true every set cell is due to a rectangle: polygons, wherever they lie and however large, set nothing. If no rectangle is to be drawn the bitmap is empty.",
  "all layouts, boxes, sizes, call histories",
  "all layouts",
  (G,"LayoutBitmapGenerator::Process"),(Z,"LayoutZond::ZondGeometry"))
# ---------------------------------------------------------------- MSK reader, continued
p("Failing reads",
  "MskReader::Read(null) returns false. When the file cannot be opened, Read returns false, leaves the libraries of the layout alone and sets the format to undefined - but on a reader that has read a file successfully before, it deletes the objects of the earlier layout a second time (undefined behaviour). Whenever Read returns false the libraries are unchanged; whenever it returns true the stream is closed and the name of the reader unchanged.",
  "all files, layouts and reader states",
  "fault injection and histories",
  (MSK,"MskReader::Read"))
p("A second file gets no bounding box",
  "Reading into a layout that already has a library appends one library, recomputes the bounding box of the first element of the first library, and leaves the bounding box of the new element at (-1,-1),(-1,-1); everything else in the old libraries is unchanged.",
  "all files and layouts",
  "histories",
  (MSK,"MskReader::Read"))
# ---------------------------------------------------------------- GDSII reader
p("GDSII format detection",
  "LayoutReader_GDSIIbin::IsMyFormat(name) is false when the part of the name after its last dot (the whole name if there is no dot) is neither gds nor gdsii, or when the file cannot be opened; otherwise, for files of at least four bytes, it is true exactly when the file begins 00 06 00 02, two bytes of any value, 00 1C 01 02 - or consists of these bytes without the last one. For shorter files it looks at indeterminate memory, unless there are three bytes of which the third is not 0 (false). Every well-formed library is recognised. In all cases the reader keeps the name.",
  "all names, file systems and file contents",
  "the space of file contents",
  (GDS,"LayoutReader_GDSIIbin::IsMyFormat"))
p("Reading GDSII ends",
  "Read on a reader whose data pointer is set (by a derived class) and no record open: for every file and layout it returns - with the reader unchanged and the layout bearing the reader's file name and the GDSII format - or it negates -2^31 (signed overflow) or uses a value that a file breaking off in mid-record did not supply. It never loops forever, throws, or reads outside an object. A file that cannot be opened gives false and an untouched layout; a null layout is dereferenced.",
  "all files and layouts",
  "all byte strings",
  (GDS,"LayoutReader_GDSIIbin::Read"))
p("Well-formed GDSII files",
  "Reading a well-formed library (HEADER, BGNLIB, LIBNAME, optional records, UNITS, structures of boundaries, paths, boxes, texts and structure references with at most one property each, ENDLIB, any number of NULs) into an empty layout yields one library with that name, units that are the doubles nearest to the reals in the file, and for every structure in order one element with the name, one object per element with its layer, coordinates, bounding box, class and class-specific numbers; the element's box is the bounding box of all coordinates, or (-1,-1),(-1,-1) when it is empty; an element is flat when it holds no reference, nested when it is referred to. Property numbers are kept, property values are lost. Read returns true exactly when every reference names a structure of the file.",
  "all well-formed libraries (coordinates and widths other than -2^31)",
  "unbounded structured inputs",
  (GDS,"LayoutReader_GDSIIbin::Read","LayoutReader_GDSIIbin::ReadSection_XY"),(GDH,"Normalize_DWORD"))
p("GDSII references",
  "After Read of any file into an empty layout: the result is true exactly when there is an element for every name that a reference mentions; in this case every reference points to the first element (in file order) of its name, and an element is marked as nested exactly when it is such a target.",
  "all files",
  "all byte strings",
  (GDS,"LayoutReader_GDSIIbin::ResolveStructureReference","LayoutReader_GDSIIbin::PostProcessLayout"))
p("GDSII layer lists",
  "After a successful Read of any file into an empty layout, the layer list of a library has one entry per different pair (layer, data type) of its objects other than references (data type 0 for texts and boxes); the layer numbers of the list are those of the pairs in ascending order, but the data types stay in the order of first appearance, so that an entry need not be the pair of any object.",
  "all files",
  "all byte strings",
  (GDS,"LayoutReader_GDSIIbin::EnumerateLayers"))
p("GDSII library boxes",
  "After a successful Read of any file into an empty layout, the box of a library is that of its last element that is not nested - not the union - or (0,0),(0,0) when there is none. After a failed one all layer lists are empty and all library boxes (0,0),(0,0).",
  "all files",
  "all byte strings",
  (GDS,"LayoutReader_GDSIIbin::EvaluateBoundingBox"))
p("GDSII records that are refused are not skipped",
  "A second PROPATTR in an element, and every record belonging to an element that occurs outside of one (such as the SNAME of an array reference, since AREF itself is skipped), is refused, but its data are then taken for records: Read does exactly what it would do if the header of that record were absent. The same holds for every known record at every place where it is not expected (before a library, among structures, among elements, inside an element of another kind): BGNSTR inside a structure, SNAME in a boundary and so on. Records of unknown types are skipped with their data. Whole structures can be lost this way while Read returns true.",
  "all well-formed beginnings, all data, all continuations",
  "all byte strings",
  (GDS,"LayoutReader_GDSIIbin::ReadSection_PROPATTR","LayoutReader_GDSIIbin::ReadSection_SNAME"))
# ---------------------------------------------------------------- MSK reader, names and histories
p("Names given to what is read from an MSK file",
  "After a successful Read the new library bears the whole file name in UTF-8, and its one element the part of the name after the last slash (a backslash separates nothing) without its extension (the part from the last dot, unless that dot comes first), in UTF-8. If the name has a character beyond Unicode, Read returns false and leaves the libraries alone.",
  "all wide file names, files and layouts",
  "unbounded names",
  (MSK,"MskReader::GetElemName","MskReader::WcsStrToUtf8","MskReader::Read"))
p("An MSK reader can be used again - unless it has seen an empty file",
  "What Read does depends only on the name, the file and the layout, not on what the reader did before, as long as the stream is closed; reading the same file twice into empty layouts gives the same result. But IsMyFormat on an empty file leaves the stream open: from then on IsMyFormat is always false, and Read into an empty layout is undefined behaviour, whatever the file holds.",
  "all reader histories, files and layouts",
  "histories",
  (MSK,"MskReader::Read","MskReader::IsMyFormat"))
p("From an MSK file to the bitmap",
  "GetReader, Read into an empty layout, Init with one layer (any but -5) and Process(r,c), for a well-formed MSK file: if the rectangles of the layer that meet the box do not begin left of or above it, the calls succeed; every cell whose centre lies inside a rectangle of the file on that layer (2^-20 of a cell away from its edges) is set, and every set cell has its centre within one cell of such a rectangle.",
  "all well-formed files, layers, 32-bit boxes, row and column counts up to 2^30",
  "the composition of parsing and rasterisation over all files and sizes",
  (MSK,"MskReader::Read","GetReader"),(G,"LayoutBitmapGenerator::Init","LayoutBitmapGenerator::Process"))
# ---------------------------------------------------------------- identification
p("Bitmaps and hashes depend only on the set of objects",
  "Two generators with the same box in force and layouts whose candidate objects (those of the first selected layers) are the same as sets - in any order, with any repetitions and null pointers - behave alike: if Process(r,c) returns true on one it does so on the other, the bitmaps have the same cells, and their hashes are equal. Conversely two bitmaps (of any two layouts and sizes below 2^32) with the same hash have the same size and the same cells.",
  "all layouts, call histories, boxes, sizes",
  "relates two arbitrary executions",
  (G,"LayoutBitmapGenerator::Process"),(LM,"LayoutMatrix::GetHash"))
p("MSK files with the same rectangles on a layer get the same hash",
  "Two well-formed MSK files, under whatever names, with whatever other layers, titles and line orders, that state the same set of rectangles on layer n (not -5): if the bitmap of layer n over some box exists for one, it exists for the other, with the same cells and the same hash.",
  "all pairs of well-formed files, boxes, sizes",
  "relates two arbitrary files",
  (MSK,"MskReader::Read"),(G,"LayoutBitmapGenerator::Process"),(LM,"LayoutMatrix::GetHash"))
p("Moving a layout and its box",
  "Moving a layout of rectangles and polygons together with the box by any vector (within 32 bits) changes neither the bitmap nor the outcome of Process, if every rectangle meeting the box contains it or ends at least one cell (plus 2^-20) before one of its edges; likewise for two MSK files whose rectangles on a layer differ by a translation. Without that condition the outcome can change: a rectangle that begins left of the box and ends exactly half a cell before its right edge makes Process throw near the origin and is drawn over the whole bitmap at a distance of 2^30.",
  "all layouts, vectors, boxes, sizes up to 2^30",
  "relates executions for all translations",
  (G,"LayoutBitmapGenerator::Process"),(Z,"LayoutZond::ZondRectangle"))
# ---------------------------------------------------------------- printing and fragments
p("A printed matrix can be read back",
  "Print writes one line of 0s and 1s per row, in order, then an empty line, for every matrix; two non-empty matrices print alike exactly when they have the same size and the same cells.",
  "all matrices of all sizes and contents",
  "unbounded sizes; the converse relates all pairs of matrices",
  (BM,"BitMatrix::Print"))
p("Fragments: histories of settings",
  "After any history of SetMatrix, SetWorkspaceCoords, SetIndicies, Process and Reset on a Fragment: SetMatrix throws invalid_argument exactly for a null pointer; Process throws runtime_error when no matrix has been set since the last Reset, is undefined behaviour when one is set but a side of the workspace in force does not fit in 32 bits, and otherwise returns - whatever the indices, inverted or empty ones included. The zond of the fragment always has the workspace and the indices that were set last (Reset does not change them), and after Process its cell sides are the sides of the workspace in force divided by the numbers of columns and rows, correctly rounded. GeometryWorkspaceIntersection is false for null, and otherwise says whether the object's bounding box and the workspace in force have a point in common.",
  "all call histories, workspaces, indices, objects",
  "unbounded histories; floating-point division for all operands",
  (S+"LayoutFragment/LayoutFragment.cpp","Fragment::SetMatrix","Fragment::SetWorkspaceCoords","Fragment::SetIndicies","Fragment::Process","Fragment::Reset","Fragment::GeometryWorkspaceIntersection"))
p("Zonding a part of a matrix",
  "A zond whose bound indices are rows i0..i1 and columns j0..j1, standing for a workspace, and a rectangle that begins inside the workspace and ends a cell before one of its edges: a cell (i0+k, j0+l) within the bounds whose centre the rectangle covers is set exactly when (the rectangle lies in one row of cells or k >= i0) and (in one column or l >= j0); what is set besides has its centre within one cell of the rectangle at that offset. So a rectangle spanning several rows loses the first i0 of them, a part that begins further down than it is high stays empty, and the drawing does not move with the bounds.",
  "all rectangles, workspaces, cell sizes, bounds below 2^30, matrices",
  "floating-point rule over all coordinates and offsets",
  (Z,"LayoutZond::ZondRectangle","LayoutZond::NormIndicies","LayoutZond::SetBoundIndicies"))
p("Printing an object",
  "PrintGeometry of a rectangle writes its layer, type, bounding box and the first and third point as decimal numbers in a fixed form, indented by the depth, and nothing to standard error; rectangles that print alike have the same depth and the same values. A null pointer gives the message Invalid Geometry on standard error and no exception, an object of another type nothing at all; a rectangle with fewer than three points or of the wrong class is undefined behaviour.",
  "all objects, values and depths",
  "unambiguity relates all pairs of objects",
  (S+"UnitTests/LayoutPrinter/LayoutPrinter.cpp","LayoutPrinter::PrintGeometry"))
p("Blank bitmaps, and why GDSII layouts are always blank",
  "When no object of the selected layers (first selected layer of each library) has a bounding box that meets the box given to Init, Process(r,c) returns true and the bitmap is all zeros. In particular the layout a GDSII reader leaves behind - it never puts objects into layers - gives a blank bitmap for every file, every selection of layers and every box. A box with a side that does not fit in 32 bits makes Process undefined behaviour whatever the layout.",
  "all layouts, call histories, selections, boxes, sizes",
  "all layouts and sizes",
  (G,"LayoutBitmapGenerator::Process","LayoutBitmapGenerator::Init"),(GDS,"LayoutReader_GDSIIbin::Read"))
# ---------------------------------------------------------------- ownership
p("Destroying a layout",
  "The destructor of LayoutData is defined exactly when every library, element and geometry pointer it reaches is null or points to a live object of its type and no object is reached twice. It then releases each of these objects exactly once and nothing else (in particular nothing through the layers, which hold pointers they do not own); otherwise it is undefined behaviour.",
  "all heaps and all layouts over them, null pointers and sharing included",
  "all shapes of the object graph",
  ("src/Common/Include/LayoutData.hpp","LayoutData::~LayoutData","Library::~Library","Element::~Element"))
p("Copies of layouts, libraries and elements cannot both be destroyed",
  "LayoutData, Library and Element can be copied (the implicit copies copy the pointers). Destroying the original and then the copy is undefined behaviour (a double free) whenever the original owns at least one object, and harmless when it owns none.",
  "all heaps, layouts, libraries, elements",
  "all object graphs",
  ("src/Common/Include/LayoutData.hpp","LayoutData","Library","Element"))
p("Reading an MSK file and the ownership of what is read",
  "A successful Read into a sound layout leaves a sound layout that owns what it owned before and one new library, one new element and the new geometries; the layers of the new library point to exactly the geometries of the new element. The only other objects that remain are one lost text object per TITLE line of a well-formed file, which nobody owns; destroying the layout leaves exactly these. A Read that returns false with a fresh reader leaves no object behind. A reader that has succeeded once and then fails to open a file deletes its element twice, whether or not the first layout has been destroyed.",
  "all heaps, layouts, files, reader states",
  "all files and object graphs; needs the whole heap as an observable",
  (MSK,"MskReader::Read","MskReader::ReadSectionTitle","MskReader::ReadSectionRectangle","MskReader::ReadSectionBoundingBox"),("src/Common/Include/LayoutData.hpp","LayoutData::~LayoutData"))
# ---------------------------------------------------------------- splitting into fragments (private, not called by the public interface)
p("Which fragment is in charge of which cell",
  "The helper that assigns index ranges to an r x c grid of fragments of a rows x cols bitmap (r <= rows, c <= cols): every cell in the first r*(rows/r) rows and c*(cols/c) columns has exactly one fragment in charge, the remaining cells have none; so all cells are covered exactly when r divides rows and c divides cols. With more fragments than rows every fragment gets the rows 0 to 2^64-1; without fragments it divides by zero.",
  "all grids and bitmap sizes below 2^63",
  "unbounded sizes; the helper is private and no test reaches it",
  (G,"LayoutBitmapGenerator::InitFragmentsIndicies"))
p("Workspaces of the fragments",
  "The helper that assigns workspaces to an r x c grid of fragments, with the cell sides that Process computes: neighbouring fragments share their edges, the edges go monotonically from left to right and from top to bottom, every edge is less than 1+2^-19 away from the exact division of the box, the outer left and top edges are those of the box, the outer right and bottom edges are at most 1 away from them - and can be short by 1 (a box of width 1 in 49 columns). No call is undefined behaviour for boxes with 32-bit sides.",
  "all grids up to 2^31, all boxes",
  "floating-point arithmetic over all boxes and grid sizes",
  (G,"LayoutBitmapGenerator::InitFragmentsWorkspaces"))
p("Handing out objects to fragments",
  "The helper that moves objects from the generator's lists to the fragments: an object that meets at most two fragments is appended to every fragment if it meets the generator's box (not only to those it meets), erased from the list, and its successor is skipped and stays in the list; an object that meets more fragments stays. If the erased object was the last one, the loop is undefined behaviour. So if all objects meet at most two fragments, every second one stays, and an odd number of them is undefined behaviour. The number that decides is exactly the number of fragments whose workspace meets the object's bounding box.",
  "all lists of objects, grids and boxes",
  "unbounded lists",
  (G,"LayoutBitmapGenerator::DistributeGeometries","LayoutBitmapGenerator::GetFragmentIntersectionCnt"))
p("Does a rectangle lie in one fragment?",
  "pushRectangle for shared pointers, for a rectangle inside the box and cells with whole sides, says whether its first and third corner lie in the same cell of the grid; the overload for plain pointers always says no. A rectangle left of the box is taken to end in the last column, so with one column the answer is yes although it does not meet the box.",
  "all boxes, grids, rectangles inside the box",
  "floating-point quotients over all operands",
  (G,"LayoutBitmapGenerator::pushRectangle"))
# ---------------------------------------------------------------- flipped bits
p("CRC-32 and flipped bits",
  "Two data blocks of the same length that differ in k bits have different CalcHash values if k is 1 or 2 and the length is below 2^29 bytes, k = 3 and the length is at most 11454 bytes, k = 4 and at most 375 bytes, or k = 5 and at most 37 bytes. Each of the last three lengths is exact: one byte more and some error of that kind is missed.",
  "all data, all places of the flipped bits",
  "all pairs, triples, ... of bit positions in data of unbounded content; the two-bit case is a statement about the order of a polynomial",
  (CRC,"CalcHash"))
p("Flipped bits in Radix-64 texts and matrix hashes",
  "Of an accepted Radix-64 text: flipping one or two bits anywhere (payload, checksum, or one in each) makes the decoder throw runtime_error, for texts of up to 131072 characters; flipping one or two bits of the payload for payloads below 2^29 characters, three for up to 11454, four for up to 375. A matrix hash of up to 131072 characters with one or two flipped bits, in the frame or in the text, is rejected with an exception.",
  "all accepted texts, all matrices, all places of the flipped bits",
  "all pairs of bit positions in all texts",
  (B64,"Base64Decode"),(LM,"LayoutMatrix::DecodeHash"))
# ---------------------------------------------------------------- layouts that differ a little
p("Taking objects away",
  "If Process(r,c) succeeds for a layout, it also succeeds, for the same box, for any layout whose selected layers hold a subset of the objects, and every cell set in the smaller layout's bitmap is set in the larger one's.",
  "all pairs of layouts, call histories, boxes, sizes",
  "relates all pairs of layouts",
  (G,"LayoutBitmapGenerator::Process"))
p("Adding small rectangles",
  "Adding rectangles that begin inside the box changes at most as many cells of the bitmap as their areas in cells, each with a rim of three half cells (and 2^-20 of a cell) all around, add up to. If that sum is at most a ten-thousandth of the number of cells, operator == calls the two bitmaps equal.",
  "all layouts, sets of added rectangles, boxes up to 32 bits, bitmap sizes up to 2^38 cells",
  "floating-point rounding over all rectangles, boxes and sizes",
  (G,"LayoutBitmapGenerator::Process"),(Z,"LayoutZond::ZondRectangle"),(BM,"operator=="))
p("Adding large rectangles",
  "If the second layout has a rectangle in the box on a place where the first layout's bitmap is clear, and its area in cells without a rim of half a cell (and 2^-20 of a cell) all around exceeds a ten-thousandth of the number of cells, then operator == tells the two bitmaps apart and operator != says true.",
  "all layouts, rectangles, boxes up to 32 bits, bitmap sizes up to 2^38 cells",
  "floating-point rounding over all rectangles, boxes and sizes",
  (G,"LayoutBitmapGenerator::Process"),(Z,"LayoutZond::ZondRectangle"),(BM,"operator=="))
# ---------------------------------------------------------------- stored bitmaps, exact cells
p("Stored bitmaps as references",
  "A bitmap produced by Process, written with FlushFile and read back with ReadFile on x86 (dimensions that survive the size field) is as good as the bitmap itself: same cells, same hash text, and Compare, == and != against any matrix, on either side, give identical results. So a layout with the same objects, processed later in the same box by any generator, is recognised: Compare gives exactly 1.0, == true, != false, and the hash texts are equal; other files are untouched.",
  "all layouts, call histories, boxes, sizes with surviving dimensions, file systems, machines",
  "composition of generator, encoder, file and decoder over all layouts and sizes",
  (G,"LayoutBitmapGenerator::Process"),(LM,"LayoutMatrix::FlushFile, LayoutMatrix::ReadFile"),(BM,"operator==, BitMatrix::Compare"))
p("Exactly which cells are set",
  "If the drawn rectangles begin inside the box and the box is cut into cells of a whole number of units (at most 2^18 per side), or every edge lies at a box edge or at least 1/1024 of a cell from all cell borders and centres, then a cell (i,j) of the bitmap is set if and only if some drawn rectangle begins at or before the centre of the cell and, in each direction, ends at or after the centre or overshoots into the cell; edges are compared as exact real numbers, with no tolerance.",
  "all layouts, boxes up to 32 bits, bitmap sizes, rectangles",
  "an exact (iff) claim about floating-point comparisons for all rectangles and cells",
  (G,"LayoutBitmapGenerator::Process"),(Z,"LayoutZond::ZondRectangle"))
p("Scale invariance",
  "Two layouts whose drawn rectangles lie, measured in cells of their boxes, at the same places, with edges as in the previous property, have the same bitmap; in particular a layout and box with all coordinates multiplied by the same positive integer. Without the condition on the edges this fails: there is a layout whose bitmap changes when it is scaled by 200000.",
  "all pairs of layouts and boxes, all scale factors",
  "relates two runs on different floating-point operands for all inputs",
  (G,"LayoutBitmapGenerator::Process"),(Z,"LayoutZond::ZondRectangle"))
# ---------------------------------------------------------------- several references
p("Ranking references by their scores",
  "For equal-sized non-empty matrices, Compare is within 2^-52 of the share of equal cells (up to 2^53 cells). Below 2^51 cells the ranking is exact: Compare(q,a) > Compare(q,b) if and only if q differs from a in fewer cells than from b, the two scores are equal if and only if the numbers are, and a score of 1.0 means that all cells agree.",
  "all triples of matrices up to 2^51 cells",
  "strict monotonicity of a twice rounded quotient for every size",
  (BM,"BitMatrix::Compare"))
p("References that are never confused",
  "1 - Compare obeys the triangle inequality up to 3*2^-52. If one matrix of at most 2^38 cells is == to two references, these differ in at most one cell in 5000 and score at least 0.9998 with each other; so references that differ in more cells can never both be recognised in the same bitmap.",
  "all triples of equal-sized non-empty matrices",
  "a claim about all triples of matrices and all roundings",
  (BM,"BitMatrix::Compare, operator=="))
p("Growing rectangles",
  "If every drawn rectangle of one layout lies inside a drawn rectangle of another (same box, edges as in 'Exactly which cells are set'), then for every set cell of the first bitmap the same cell, its left, its upper, or its upper left neighbour is set in the second. If the rectangles of the first layout end, to the right and downwards, in the first half of a cell (for example on a cell border), no set cell is lost. In general a cell can be lost: a rectangle that ends at 7.8 cells sets column 8, one that ends at 8.2 cells does not.",
  "all pairs of layouts, boxes, sizes",
  "relates the bitmaps of all pairs of nested layouts",
  (G,"LayoutBitmapGenerator::Process"),(Z,"LayoutZond::ZondRectangle"))
p("The bitmap and the covered area",
  "With edges as in 'Exactly which cells are set', every cell whose centre a drawn rectangle covers is set; if all right and lower ends of the drawn rectangles are clean (in the first half of a cell before the last one, or at or beyond the centre of the last cell) exactly these cells are set. Hence two such layouts over the same box have the same bitmap, and the same hash, if they cover the same cell centres, in however many rectangles the area is cut, and different bitmaps otherwise. Without clean ends cutting a rectangle in two can change the bitmap.",
  "all layouts, boxes, sizes, ways of cutting an area into rectangles",
  "a claim about all decompositions of all areas",
  (G,"LayoutBitmapGenerator::Process"),(Z,"LayoutZond::ZondRectangle"))
# ---------------------------------------------------------------- turning
p("Turning a layout over",
  "Exchange the axes of a layout of rectangles and polygons and of its box, so that 'to the right' becomes 'downwards' ((x,y) becomes (-y,-x)): Process with c rows and r columns succeeds whenever Process of the original with r rows and c columns does, and the bitmap is the transposed one; no condition on where the edges lie. The scores of two transposed bitmaps equal those of the originals. Mirroring left to right is not respected: bitmaps of mirror images are in general not mirror images, because rectangles only grow to the right and downwards.",
  "all layouts of rectangles and polygons, boxes, bitmap sizes up to 2^30",
  "relates two runs with different floating-point operands, including all boundary cases",
  (G,"LayoutBitmapGenerator::Process"),(Z,"LayoutZond::ZondRectangle"),(BM,"BitMatrix::Compare"))

p("Randm takes one draw per cell",
  "On any matrix Randm() keeps the sizes and sets cell (i,j) to whether draw number i*cols+j of the engine is even: every cell is written exactly once, in row-major order, with its own draw, and nothing out of range is touched.",
  "every matrix and every sequence of draws",
  "The engine is seeded by the clock, so no test can pin the outcome; the claim is for every sequence it may produce.",
  (BM,"BitMatrix::Randm"))

# ---------------------------------------------------------------- sharing
p("A generator of its own behaves like a value",
  "In a program with any number of generators, layouts and bitmaps, a generator that is neither copied nor assigned to or from, whose bitmap nobody else writes to, in a program that leaves its layouts alone, is at any time exactly what its own calls make of it, and GetMatrix points to a bitmap of its own with exactly that contents: calls on other generators in between have no effect.",
  "every program (sequence of constructions, copies, assignments, Init, SetLayerArray, Process, changes of layouts and bitmaps)",
  "Interference would need the right interleaving of calls on several objects.",
  (G,"LayoutBitmapGenerator","GetMatrix","Process","Init"))
p("A generator has one bitmap for its whole life",
  "GetMatrix of a generator returns the same pointer for its whole life (until it is assigned to): the next Process draws over the bitmap earlier GetMatrix calls returned. So pointers kept from two Process calls of one generator show the same bitmap and compare with score 1 whatever the layouts were; that a kept pointer keeps showing its bitmap is refuted.",
  "every program between the two GetMatrix calls",
  "Every sequence of calls in between.",
  (G,"GetMatrix","Process"),(BM,"Compare"))
p("Bitmaps of different generators stay apart",
  "What a pointer to a bitmap shows does not change as long as no generator that holds this pointer is processed, copied or assigned from, and nobody writes through the pointer.",
  "every program",
  "Every interleaving of calls on other objects.",
  (G,"GetMatrix","Process"))
p("Copies of a generator share its bitmap",
  "Copying (or moving, which copies) a generator copies its settings but not its bitmap: Process on either draws into the one bitmap both return from GetMatrix, with the contents the other would have drawn. Assigning to a generator makes it share the source's bitmap; pointers kept from before keep the old one.",
  "every program and every pair of sizes",
  "Every state of the two generators.",
  (G,"LayoutBitmapGenerator","GetMatrix","Process"))
p("The layout is read by Process, not by Init",
  "A layout that changes between Init and Process is drawn as it is at Process: the bitmap is the one a generator initialised with the changed layout draws.",
  "every layout, every sequence of changes, every box, layers and sizes",
  "Every sequence of changes between the calls.",
  (G,"Init","Process","InitGeometryItems"))

# ---------------------------------------------------------------- moved-from, accepted hashes, run-length text
p("A moved-from matrix matches everything",
  "A BitMatrix that was moved from keeps its sizes without data. As the left operand it is a perfect match for every matrix of these sizes: ^ gives all zeros, Compare gives 1, == is true and != is false (up to 2^38 cells), whatever the right operand shows. As the right operand ^, Compare, == and != are undefined behaviour. operator! says it is empty, Serialize throws runtime_error, GetHash throws invalid_argument, Zeros does nothing, OneRatio and ZeroRatio are undefined behaviour. Assignment or Resize makes it usable again.",
  "every matrix moved from, every other operand of the same non-zero sizes",
  "A claim about every pair of matrices.",
  (BM,"BitMatrix(BitMatrix&&)","operator^","Compare","operator==","operator!="))
p("What DecodeHash accepts",
  "DecodeHash (x86-64 shifts, texts below 4 GiB) returns a matrix exactly for the texts that consist of the BEGIN line, a text, the Base64 of the CRC-32 of that text and the END line, where the text is MIME Base64 of data, 14 bytes, '__SIZE__', 24 characters, '__ENCODE_TYPE__' and one flag byte, '__PARAMETERS__' occurs somewhere in these last 62 bytes, and the 24 characters decode to 16 bytes (which give the sizes: bytes 0-7 and 8-15 as signed numbers or-ed at their places); with flag bit 1 the data are Base64 of run lengths, and the result is the matrix of these sizes filled with them; otherwise the data go to FromString and the result is a LayoutMatrix without columns. A text that is not sealed by its own checksum is refused with an exception, never with undefined behaviour; the texts on which the call is undefined are exactly the sealed ones whose Base64 ends inside a group of four or whose plain data FromString cannot read. That the 14 bytes must be '__PARAMETERS__' is refuted.",
  "all texts below 2^32 bytes",
  "The set of accepted texts is infinite, and the boundary cases (overlapping markers, a marker inside the size field) are not the ones a tester writes down.",
  (LM,"DecodeHash","DecodeSz","DecodeEncodings"),(B64,"Base64Decode"))
p("The exact run-length text and hash length",
  "Encode(LayoutMatrix) and ByteEncode write each maximal run of n equal cells (row by row) as n / 127 bytes of 127 cells and one byte with the remaining n mod 127, so a run whose length is a multiple of 127 ends with a byte that counts nothing. The text has the sum of n / 127 + 1 bytes; no text for the same cells is shorter by more than the number of runs whose length is a multiple of 127, and one is shorter by exactly that (so it is not always the shortest: refuted). The length of a hash is a function of this length alone: 70 characters of markers and checksum plus the Base64 of payload and parameters with a line break after every 76 characters.",
  "every non-empty matrix, every non-empty byte string",
  "A claim about every matrix; the boundary at multiples of 127 and 76 is easily missed.",
  (RLE,"Rle::Encode","Rle::ByteEncode"),(LM,"EncodeHash"))

# ---------------------------------------------------------------- storage, algebra, forging, pieces
p("The storage hashing asks for",
  "Encode(LayoutMatrix), EncodeHash and FlushFile first ask for storage of rows * rows characters (modulo 2^64), whatever the number of columns. If a string may be that long and there is room, nothing is to be seen of it; otherwise they throw length_error or bad_alloc, and FlushFile has emptied the file by then. That room for the run-length text suffices is refuted: for one column and at least two rows the request is longer than the text. When 2^32 divides the number of rows, nothing is asked for.",
  "every non-empty matrix, every limit on string lengths and every heap",
  "Depends on sizes and free memory that no test has.",
  (RLE,"Rle::Encode"),(LM,"EncodeHash","FlushFile"))
p("The algebra of ^ and of the scores",
  "On matrices of the same sizes ^ is commutative and associative, undoes itself ((a ^ b) ^ b shows a) and gives zeros for equal operands. Compare(a ^ c, b ^ c) = Compare(a, b), and Compare(a ^ b, zeros) = Compare(a, b). ^ with a matrix of ones gives the opposite; what a third matrix scores with a matrix and with its opposite adds up to 1 up to rounding. 1 - Compare satisfies the triangle inequality up to rounding, and a chain of matrices each == to the next has == ends.",
  "all matrices of the same non-zero sizes (up to 2^53 cells for scores)",
  "Algebraic laws over all operands.",
  (BM,"operator^","Compare","operator=="))
p("Forging the CRC-32",
  "For every text with a gap of four bytes anywhere and every checksum there is exactly one filling of the gap that gives it. So for every text of at least five bytes and every new value of the byte before the last four there is a choice of the last four that keeps the checksum; that equal checksums mean equal texts is refuted. A text followed by its checksum (least significant byte first) has the checksum 0x2144DF1C. The change of the checksum depends only on the length and the flipped bits.",
  "all texts below 2^32 bytes, all checksums",
  "2^32 checksums and infinitely many texts.",
  (CRC,"CalcHash"))
p("Base64 in pieces",
  "Base64 (standard and URL) of a ++ b is the concatenation of the two encodings when the length of a is a multiple of 3. Decoding x ++ y, where x decodes and has no padding character, gives what x and y decode to, or fails as y does. Everything after the padding of an encoding is ignored. The first 4k characters of an encoding decode to the first 3k bytes. That encodings of any pieces can be concatenated and decoded is refuted.",
  "all texts, all cut points at whole groups",
  "All texts and cut points.",
  (B64,"Base64Encode","Base64Decode"))
p("MSK files that end early",
  "Of a well-formed MSK file of which only the first k characters are there (a crash while writing, a full disk), the whole lines are read as ever. The last, partial line: a REC line that ends before its name is undefined behaviour, except that one ending with the sign of the first number is passed over; one that ends inside or after the name is a rectangle on the layer with the shorter name, if there is one; a BB line that ends inside its numbers is a bounding box with zeros for the missing numbers and a number without its last digits (undefined behaviour if the differences overflow), except that one ending with the sign of the first number is passed over; TITLE lines and other lines give nothing. If no object is left, Read is undefined behaviour. GetReader accepts the file from 7 characters on. That the objects read are among those of the whole file is refuted.",
  "every well-formed file and every length k",
  "Every crash point of every file.",
  (MSK,"MskReader::Read","ParseRecLine","ReadSectionBoundingBox","ReadSectionTitle"))
p("A library of stored references",
  "Bitmaps stored with FlushFile one after another (each non-empty, with sizes that survive the size field, and room on the disk): all calls return true, then every file reads back as the bitmap stored there last and all other files are as they were. At every moment in between (a crash) at most the file being written is lost: it reads as its new bitmap or ReadFile throws and leaves its object alone; the files finished before read as stored and the others are as they were. That the file being written holds the old or the new bitmap at every moment is refuted. Of two references read back the one with the greater score differs in fewer cells from the query, and a score of 1 means the same cells. Two MSK files with the same rectangles on a layer: the stored and re-read bitmap of one scores exactly 1 with the bitmap of the other.",
  "every sequence of stores, every crash point, every query; every pair of well-formed MSK files with the same rectangles on the layer",
  "Every crash point of every history of stores.",
  (LM,"FlushFile","ReadFile"),(BM,"Compare"),(MSK,"MskReader::Read"),(G,"Process"))
p("GDSII files that end early",
  "Of a well-formed GDSII file of which only the first k bytes are there, for every k: the place where the text ends (between records, inside the four bytes that begin a record, or inside the data of a record of some type) is determined by the text. If it ends inside the data of BGNLIB, BGNSTR, TEXTTYPE, PRESENTATION, STRANS or PATHTYPE, Read uses numbers without a value (undefined behaviour); if it ends inside the data of WIDTH or XY, Read may overflow (it does when the bytes that are there, followed by zeros, are -2^31). In all other cases Read returns, with no library for fewer than 10 bytes, with a library that has as much of its name as is there and no elements if the text ends before the end of UNITS, and otherwise with exactly the structures that are there completely; then it returns true iff all references among those can be resolved, and each structure is shown as in the whole file. The ENDLIB record makes no difference. That Read notices that structures are missing is refuted.",
  "every well-formed library, every length k, every reader and empty layout",
  "Every crash point of every file.",
  (GDS,"Read","ReadSection_*","PostProcessLayout"))
p("One layout at two resolutions",
  "If every drawn rectangle begins inside the box and its visible part is at least as long as a cell of the first resolution each way (and two millionths of a cell more), then for every cell that is set in the bitmap of the same layout and box at any second resolution there is a cell set at the first whose centre lies, each way, at most one cell of the one and one cell of the other away (times 1 + 2^-20), measured as a fraction of the box. So such a layout is blank at one resolution iff at every other with cells no larger than its rectangles. That no rectangle is lost at a coarser resolution, however narrow, is refuted.",
  "every layout, box, pair of histories and pair of resolutions up to 2^30 each way",
  "All layouts, boxes and resolutions.",
  (G,"Init","Process"),(Z,"ZondGeometry"))
p("Layouts drawn slightly differently",
  "Two layouts whose drawn rectangles stand in pairs, each edge at most d cells from its partner's edge (each measured in cells of its own box): both generators succeed, and their bitmaps differ in at most the cells along the edges, that is at most (4 + 4d) times (width + height + 6 + 4d) per pair, up to a millionth of a cell. If ten thousand times that sum is at most the number of cells, operator == calls the bitmaps equal. That half a cell of inaccuracy always goes unnoticed is refuted.",
  "every d >= 0, every pair of layouts, boxes, histories and every resolution up to 2^30 each way",
  "All pairs of layouts and all displacements.",
  (G,"Init","Process"),(Z,"ZondGeometry"),(BM,"operator=="))
p("The settings of a zond",
  "Whatever setters are called on a zond, in whatever order, with exceptions caught: bound indices and workspace are those of the last call that set them, the deltas are those of the last SetDeltas call with no negative value (zeros before the first), and the accuracy is the first value ever given (to the constructor or to SetEps) that lies outside [0, 1/2] or is infinite, and if there is none the last value given.",
  "every history of setter calls with any doubles, NaN included",
  "Histories of any length over all doubles.",
  (Z,"LayoutZond","SetEps","SetDeltas","SetBoundIndicies","SetWorkspaceCoord"))
p("A zond whose cells have no size",
  "With both deltas zero (none were set, or zeros) and a finite accuracy, a rectangle that contains the workspace sets exactly the cells within the bound indices; every other rectangle throws invalid_argument and sets nothing. That a zond without deltas draws nothing is refuted.",
  "every rectangle and workspace with 32-bit coordinates whose differences fit in 32 bits, every accuracy, bounds and matrix; every history of setter calls without deltas",
  "All rectangles and histories; divisions by zero must not reach a conversion.",
  (Z,"ZondRectangle","NormIndicies"))
p("Noise does not change the winner",
  "In the situation of C129, with T the bound on the cells that can differ: the score of the noisy bitmap against the reference is at least 1 - T / (number of cells) up to 2^-52, and every other bitmap of the same size that differs from the reference in more than 2 T cells scores strictly less. So, if all references are stored in files and every other one is that far away, the reference gets the strictly greatest score of all files that are read back.",
  "every d >= 0, every pair of layouts, boxes and histories, every library of references, every resolution with fewer than 2^51 cells",
  "All layouts, displacements and libraries.",
  (G,"Init","Process"),(BM,"Compare"),(LM,"FlushFile","ReadFile"))
p("MSK files with slightly different numbers",
  "Two MSK files whose rectangles on layer n correspond one by one, in order, with every coordinate at most k units apart - and which may differ in everything else, in texts, notation, line ends and other layers - are read, bound to a box and drawn on layer n; the two bitmaps differ in at most T cells, T the cells along the edges of the first file's rectangles within d + margin (k units being at most d cells); the score of one against the other is at least 1 - T / (number of cells) up to 2^-52, and they compare equal if 10000 T is at most the number of cells.",
  "every pair of MSK files, every k, d >= 0, layer, box of manageable size, resolution up to 2^38 cells, rectangles meeting the box and not starting outside it",
  "All files, displacements and boxes; a test tries one pair.",
  (MSK,"Read"),(G,"Init","Process"),(BM,"Compare","operator=="))
p("A drawing with small errors is recognised",
  "A reference MSK file is read, drawn on layer n and stored, with other bitmaps of the same size, in files; a second MSK file, with the same rectangles on layer n up to k units in every coordinate, is read and drawn. Read back from their files, the reference scores strictly higher against the drawing than every bitmap that differs from the reference in more than 2 T cells, T as in C133. That more than T cells would do is refuted.",
  "every pair of MSK files, every k, layer, box of manageable size, resolution with fewer than 2^51 cells, every library of any size and order of writing",
  "All files, errors and libraries.",
  (MSK,"Read"),(G,"Init","Process"),(BM,"Compare"),(LM,"FlushFile","ReadFile"))
p("Mirror images and quarter turns",
  "For each of the eight symmetries of a sheet: if every rectangle one layout draws is, up to d cells, the image of one that another layout draws in its own box, and the other way round, then both Process calls succeed (with rows and columns exchanged for quarter turns) and the image of the second bitmap differs from the first in at most T cells, T the cells along the edges within d + margin; a matrix that shows the image scores at least 1 - T / (number of cells) up to 2^-52, and compares equal if 10000 T is at most the number of cells. (That the images are equal is refuted in C111.) Likewise for two MSK files.",
  "every symmetry, every d >= 0, pair of layouts, boxes and histories, every resolution (scores: up to 2^38 cells), rectangles that begin inside the box",
  "All layouts, symmetries and sizes; the rounding of each cell position is not symmetric.",
  (G,"Init","Process"),(Z,"ZondRectangle"),(BM,"Compare","operator=="),(MSK,"Read"))
p("Running out of memory while a matrix is copied",
  "When memory runs out in the middle of a BitMatrix assignment after k rows, bad_alloc reaches the caller and the object still reports its old sizes; rows from k on are unchanged, earlier rows show the other matrix's cells, and reading one beyond that matrix's last byte is undefined behaviour; so every cell can be read if and only if k = 0 or the old columns fit in the other matrix's row bytes, and with equal row bytes the object is the mixture of both. An interrupted LayoutMatrix assignment has lost its own cells, reports the other matrix's sizes and has no rows: any Get or Set is undefined behaviour, operator! is true, Serialize throws. A later assignment that succeeds repairs either. A copy constructor gives an empty object; the noexcept moves of LayoutMatrix give a full copy or end the program. That the assigned-to matrix is left as it was, and that it can always be read, are refuted.",
  "all matrices that show something, every number of rows replaced before memory runs out",
  "The point at which memory runs out is not under a test's control.",
  (BM,"operator=","BitMatrix"),(LM,"operator=","LayoutMatrix"),(V2,"operator="))
p("A damaged library and a search in it",
  "A program stores bitmaps with FlushFile; afterwards each file is intact, gone, or damaged: cut off, without the BEGIN or the END line, up to four characters in a row changed, or one or two bits flipped. Then an intact file reads as the bitmap stored last, and ReadFile refuses every other one (false or an exception) and leaves its object alone. A program that reads file after file into one object, skips what is refused and keeps the best score never fails; it finds nothing only if all files are gone or damaged, and otherwise an intact file from which the query differs in no more cells than from any other intact file; the score is 1 exactly if the cells are the same. An intact file nearer than all other intact ones is found; so is the reference of a drawing with errors (C132). That the search finds the right reference or nothing is refuted: if its file is damaged, the best of the others is found.",
  "every library of equal-sized non-empty bitmaps (fewer than 2^51 cells), every damage of these kinds to any number of files, every order and selection of names, every query (bit flips: hashes of up to 131072 characters)",
  "All combinations of damage over all files.",
  (LM,"FlushFile","ReadFile","DecodeHash"),(BM,"Compare"))
p("Windows of a sheet",
  "A layout of rectangles is drawn in the box of a sheet, and by another generator in the box of a window whose sides are cell borders of the sheet; in each the rectangles that meet the box begin inside it. Then both Process calls succeed and the bitmap of the window differs from the block of r x c cells of the sheet's bitmap in at most T cells, T the number of cells along the edges (margin included) of the rectangles that come near the window; it scores at least 1 - T / (number of cells) up to 2^-52 against a matrix that shows the block and compares equal if 10000 T is at most the number of cells. Likewise for one MSK file read once. That the bitmap of the window is exactly the block is refuted: a rectangle that ends just before the window leaves a mark in the block.",
  "every layout of rectangles with consistent boxes (every MSK file), sheet, window, numbers of rows and columns (scores: up to 2^38 cells), history of two generators",
  "All layouts and windows; the cell positions are rounded differently in the two boxes.",
  (G,"Init","Process"),(Z,"ZondRectangle","SetDeltas"),(MSK,"Read"),(BM,"Compare","operator=="))
p("A library with bitmaps of several sizes and a search in it",
  "The program of C137 searches a damaged library whose bitmaps have any sizes. It never fails; it finds nothing only if every file is gone or damaged; the score it reports is -1 exactly if no intact bitmap has the query's size, and otherwise it finds an intact bitmap of the query's size from which the query differs in no more cells than from any other intact bitmap of that size; the score is 1 exactly if the cells are the same. So an intact bitmap nearer than all others of its size is found, and so is the reference of a drawing with errors (C132), whatever other sizes are in the library. That a match found has the query's size is refuted: a program must look at the score.",
  "every library of non-empty bitmaps of any sizes, every damage, order and selection of names, every query (fewer than 2^51 cells)",
  "All combinations of sizes and damage.",
  (BM,"Compare"),(LM,"FlushFile","ReadFile"))
p("A zond whose settings are not numbers",
  "SetDeltas accepts NaN and infinity, SetEps accepts NaN (and after that anything). With an accuracy that is NaN, a rectangle that begins in the workspace sets exactly the cells (i,j) that are surely inside along both axes - the rectangle reaches over a border of cells, begins before the cell or at the edge of the workspace, and ends after the cell or reaches the last cell - and one that begins above or left of the workspace throws, even if it contains the workspace. With dy NaN every rectangle is undefined behaviour; with dx NaN none is drawn and none succeeds. With infinite deltas every rectangle, wherever it lies, sets exactly the first cell if the accuracy is positive and none if it is zero. That a rectangle that contains the workspace is always drawn when the cells have a size is refuted.",
  "every zond with such settings, every rectangle whose differences fit in 32 bits, every matrix, every number of rows and columns below 2^31",
  "All rectangles and positions; the comparisons with NaN decide.",
  (Z,"SetDeltas","SetEps","NormIndicies","ZondRectangle"))
