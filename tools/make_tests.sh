#!/bin/sh
# Regenerate theories/Test*.v from the unit tests (the repository is the argument).
set -e
src=${1:-/repo}/test/unit_tests
here=$(dirname "$0")
out=$here/../rocq/theories
gen() { python3 "$here/translate_tests.py" "$src/$1" "$2" "$3" > "$out/$4.v"; }
gen test_relax.cpp LocateUnstableTerrainCell locate_unstable_tests TestLocateUnstable
gen test_relax.cpp CheckUnstableTerrainCell check_terrain_tests TestCheckTerrain
gen test_relax.cpp RelaxUnstableTerrainCell relax_terrain_cell_tests TestRelaxTerrainCell
gen test_relax.cpp RelaxTerrain relax_terrain_tests TestRelaxTerrain
gen test_relax.cpp CheckUnstableBodyCell check_body_tests TestCheckBody
gen test_relax.cpp RelaxUnstableBodyCell relax_body_cell_tests TestRelaxBodyCell
gen test_relax.cpp RelaxBodySoil relax_body_soil_tests TestRelaxBodySoil
gen test_intersecting_cells.cpp MoveBodySoil move_body_soil_tests TestMoveBodySoil
gen test_intersecting_cells.cpp MoveIntersectingBodySoil move_intersecting_body_soil_tests TestMoveIntersectingBodySoil
gen test_intersecting_cells.cpp LocateIntersectingCells locate_intersecting_tests TestLocateIntersecting
gen test_intersecting_cells.cpp MoveIntersectingBody move_intersecting_body_tests TestMoveIntersectingBody
gen test_body_pos.cpp IncludeNewBodyPos include_tests TestIncludeNewBodyPos
gen test_body_pos.cpp UpdateBody update_body_tests TestUpdateBody
gen test_utils.cpp CheckVolume check_volume_tests TestCheckVolume
gen test_utils.cpp CheckSoil check_soil_tests TestCheckSoil
python3 "$here/translate_geometry.py" "${1:-/repo}" "$out"
