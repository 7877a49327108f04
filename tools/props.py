#!/usr/bin/env python3
"""Generates /verif/properties.jsonl (one JSON object per property)."""
import json, os
S = "src/Common/Impl/"
I = "src/Common/Include/"
BM, BMH = S+"BitMatrix/BitMatrix.cpp", I+"BitMatrix.h"
BH = S+"ByteHandler/ByteHandler.cpp"
B64 = S+"Base64/Base64.cpp"
CRC = S+"Hash/Crc32/Crc32.cpp"
RLE = S+"RunLengthEncoding/RunLengthEncoding.cpp"
LM = S+"LayoutMatrix/LayoutMatrix.cpp"
V2 = S+"Vector2D/Vector2D.cpp"
MSK = S+"LayoutReader/ReaderImpl/MskReader.cpp"
GDS = S+"LayoutReader/ReaderImpl/GdsiiBinaryReader.cpp"
GDH = S+"LayoutReader/Helpers/GDSIIHelperFunctions.cpp"
CONV = S+"LayoutConverter/LayoutConverter.cpp"
Z = S+"LayoutBitmapZond/LayoutBitmapZond.cpp"
G = S+"LayoutBitmapGenerator/LayoutBitmapGenerator.cpp"
P = []
def p(title, statement, quantifier, why, *anchors):
    P.append(dict(id="C%02d" % (len(P)+1), title=title, statement=statement,
                  quantifier=quantifier, why_tests_cant=why,
                  anchors=[dict(file=a[0], symbols=list(a[1:])) for a in anchors]))
exec(open(os.path.join(os.path.dirname(__file__), "props_data.py")).read())
with open(os.path.join(os.path.dirname(__file__), "..", "properties.jsonl"), "w") as f:
    for o in P: f.write(json.dumps(o, ensure_ascii=False) + "\n")
print(len(P), "properties")
