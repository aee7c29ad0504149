(** * What the [__repr__] methods print.

    Generated by /verif/tools/gen_reprs.py from the text of /repo/fastkml; each
    entry cites the lines it comes from.  Do not edit.  All of them print
    [module.Class(ns=..., name_spaces=..., ARGS, **SPLAT,)]; listed are the
    ARGS: name of the argument, attribute it is taken from, and whether it is
    printed with [repr] (otherwise with [str]).  [KmlDateTime] is in Repr.v. *)
From Coq Require Import String List.
Import ListNotations.
Local Open Scope string_scope.

Definition repr_args : list (string * list (string * string * bool)) :=
  [(* atom.py:144-166 *)
   ("atom.Link", [("href", "href", true); ("rel", "rel", true); ("type", "type", true); ("hreflang", "hreflang", true); ("title", "title", true); ("length", "length", true)]);
   (* atom.py:293-311 *)
   ("atom._Person", [("name", "name", true); ("uri", "uri", true); ("email", "email", true)]);
   (* base.py:90-106 *)
   ("base._XMLObject", []);
   (* containers.py:133-159 *)
   ("containers._Container", [("id", "id", true); ("target_id", "target_id", true); ("name", "name", true); ("visibility", "visibility", true); ("isopen", "isopen", true); ("atom_link", "atom_link", true); ("atom_author", "atom_author", true); ("address", "address", true); ("phone_number", "phone_number", true); ("snippet", "snippet", true); ("description", "description", true); ("view", "view", true); ("times", "times", true); ("style_url", "style_url", true); ("styles", "styles", true); ("region", "region", true); ("extended_data", "extended_data", true); ("features", "features", true)]);
   (* containers.py:274-301 *)
   ("containers.Document", [("id", "id", true); ("target_id", "target_id", true); ("name", "name", true); ("visibility", "visibility", true); ("isopen", "isopen", true); ("atom_link", "atom_link", true); ("atom_author", "atom_author", true); ("address", "address", true); ("phone_number", "phone_number", true); ("snippet", "snippet", true); ("description", "description", true); ("view", "view", true); ("times", "times", true); ("style_url", "style_url", true); ("styles", "styles", true); ("region", "region", true); ("extended_data", "extended_data", true); ("features", "features", true); ("schemata", "schemata", true)]);
   (* data.py:125-143 *)
   ("data.SimpleField", [("name", "name", true); ("type_", "type_", false); ("display_name", "display_name", true)]);
   (* data.py:255-274 *)
   ("data.Schema", [("id", "id", true); ("name", "name", true); ("fields", "fields", true)]);
   (* data.py:373-394 *)
   ("data.Data", [("id", "id", true); ("target_id", "target_id", true); ("name", "name", true); ("value", "value", true); ("display_name", "display_name", true)]);
   (* data.py:487-504 *)
   ("data.SimpleData", [("name", "name", true); ("value", "value", true)]);
   (* data.py:595-607 *)
   ("data.SchemaData", [("id", "id", true); ("target_id", "target_id", true); ("schema_url", "schema_url", true); ("data", "data", true)]);
   (* data.py:694-710 *)
   ("data.ExtendedData", [("elements", "elements", true)]);
   (* features.py:144-161 *)
   ("features.Snippet", [("text", "text", true); ("max_lines", "max_lines", true)]);
   (* features.py:615-648 *)
   ("features.Placemark", [("id", "id", true); ("target_id", "target_id", true); ("name", "name", true); ("visibility", "visibility", true); ("isopen", "isopen", true); ("atom_link", "atom_link", true); ("atom_author", "atom_author", true); ("address", "address", true); ("phone_number", "phone_number", true); ("snippet", "snippet", true); ("description", "description", true); ("view", "view", true); ("times", "times", true); ("style_url", "style_url", true); ("styles", "styles", true); ("region", "region", true); ("extended_data", "extended_data", true); ("kml_geometry", "kml_geometry", true)]);
   (* features.py:844-879 *)
   ("features.NetworkLink", [("id", "id", true); ("target_id", "target_id", true); ("name", "name", true); ("visibility", "visibility", true); ("isopen", "isopen", true); ("atom_link", "atom_link", true); ("atom_author", "atom_author", true); ("address", "address", true); ("phone_number", "phone_number", true); ("snippet", "snippet", true); ("description", "description", true); ("view", "view", true); ("times", "times", true); ("style_url", "style_url", true); ("styles", "styles", true); ("region", "region", true); ("extended_data", "extended_data", true); ("refresh_visibility", "refresh_visibility", true); ("fly_to_view", "fly_to_view", true); ("link", "link", true)]);
   (* geometry.py:271-280 *)
   ("geometry.Coordinates", [("coords", "coords", true)]);
   (* geometry.py:434-454 *)
   ("geometry.Point", [("id", "id", true); ("target_id", "target_id", true); ("extrude", "extrude", true); ("altitude_mode", "altitude_mode", false); ("kml_coordinates", "kml_coordinates", true)]);
   (* geometry.py:607-621 *)
   ("geometry.LineString", [("id", "id", true); ("target_id", "target_id", true); ("extrude", "extrude", true); ("tessellate", "tessellate", true); ("altitude_mode", "altitude_mode", false); ("geometry", "geometry", true)]);
   (* geometry.py:885-894 *)
   ("geometry.BoundaryIs", [("kml_geometry", "kml_geometry", true)]);
   (* geometry.py:1094-1116 *)
   ("geometry.Polygon", [("id", "id", true); ("target_id", "target_id", true); ("extrude", "extrude", true); ("tessellate", "tessellate", true); ("altitude_mode", "altitude_mode", false); ("geometry", "geometry", true)]);
   (* geometry.py:1323-1334 *)
   ("geometry.MultiGeometry", [("id", "id", true); ("target_id", "target_id", true); ("kml_geometries", "kml_geometries", true)]);
   (* gx.py:282-303 *)
   ("gx.Track", [("id", "id", true); ("target_id", "target_id", true); ("altitude_mode", "altitude_mode", false); ("track_items", "track_items", true); ("extended_data", "extended_data", true)]);
   (* gx.py:518-531 *)
   ("gx.MultiTrack", [("id", "id", true); ("target_id", "target_id", true); ("altitude_mode", "altitude_mode", false); ("tracks", "tracks", true); ("interpolate", "interpolate", true)]);
   (* kml.py:139-148 *)
   ("kml.KML", [("features", "features", true)]);
   (* kml_base.py:97-114 *)
   ("kml_base._BaseObject", [("id", "id", true); ("target_id", "target_id", true)]);
   (* links.py:93-111 *)
   ("links.Link", [("id", "id", true); ("target_id", "target_id", true); ("href", "href", true); ("refresh_mode", "refresh_mode", false); ("refresh_interval", "refresh_interval", true); ("view_refresh_mode", "view_refresh_mode", false); ("view_refresh_time", "view_refresh_time", true); ("view_bound_scale", "view_bound_scale", true); ("view_format", "view_format", true); ("http_query", "http_query", true)]);
   (* model.py:84-95 *)
   ("model.Location", [("altitude", "altitude", true); ("latitude", "latitude", true); ("longitude", "longitude", true)]);
   (* model.py:173-184 *)
   ("model.Orientation", [("heading", "heading", true); ("tilt", "tilt", true); ("roll", "roll", true)]);
   (* model.py:253-264 *)
   ("model.Scale", [("x", "x", true); ("y", "y", true); ("z", "z", true)]);
   (* model.py:330-340 *)
   ("model.Alias", [("target_href", "target_href", true); ("source_href", "source_href", true)]);
   (* model.py:389-398 *)
   ("model.ResourceMap", [("aliases", "aliases", true)]);
   (* model.py:457-473 *)
   ("model.Model", [("id", "id", true); ("target_id", "target_id", true); ("altitude_mode", "altitude_mode", false); ("location", "location", true); ("orientation", "orientation", true); ("scale", "scale", true); ("link", "link", true); ("resource_map", "resource_map", true)]);
   (* network_link_control.py:131-155 *)
   ("network_link_control.NetworkLinkControl", [("min_refresh_period", "min_refresh_period", true); ("max_session_length", "max_session_length", true); ("cookie", "cookie", true); ("message", "message", true); ("link_name", "link_name", true); ("link_description", "link_description", true); ("link_snippet", "link_snippet", true); ("expires", "expires", true); ("view", "view", true)]);
   (* overlays.py:345-358 *)
   ("overlays.ViewVolume", [("left_fov", "left_fov", true); ("right_fov", "right_fov", true); ("bottom_fov", "bottom_fov", true); ("top_fov", "top_fov", true); ("near", "near", true)]);
   (* overlays.py:524-536 *)
   ("overlays.ImagePyramid", [("tile_size", "tile_size", true); ("max_width", "max_width", true); ("max_height", "max_height", true); ("grid_origin", "grid_origin", false)]);
   (* overlays.py:785-818 *)
   ("overlays.PhotoOverlay", [("id", "id", true); ("target_id", "target_id", true); ("name", "name", true); ("visibility", "visibility", true); ("isopen", "isopen", true); ("atom_link", "atom_link", true); ("atom_author", "atom_author", true); ("address", "address", true); ("phone_number", "phone_number", true); ("snippet", "snippet", true); ("description", "description", true); ("view", "view", true); ("times", "times", true); ("style_url", "style_url", true); ("styles", "styles", true); ("region", "region", true); ("extended_data", "extended_data", true); ("color", "color", true); ("draw_order", "draw_order", true); ("icon", "icon", true); ("rotation", "rotation", true); ("view_volume", "view_volume", true); ("image_pyramid", "image_pyramid", true); ("point", "point", true); ("shape", "shape", false)]);
   (* overlays.py:958-971 *)
   ("overlays.LatLonBox", [("north", "north", true); ("south", "south", true); ("east", "east", true); ("west", "west", true); ("rotation", "rotation", true)]);
   (* overlays.py:1207-1238 *)
   ("overlays.GroundOverlay", [("id", "id", true); ("target_id", "target_id", true); ("name", "name", true); ("visibility", "visibility", true); ("isopen", "isopen", true); ("atom_link", "atom_link", true); ("atom_author", "atom_author", true); ("address", "address", true); ("phone_number", "phone_number", true); ("snippet", "snippet", true); ("description", "description", true); ("view", "view", true); ("times", "times", true); ("style_url", "style_url", true); ("styles", "styles", true); ("region", "region", true); ("extended_data", "extended_data", true); ("color", "color", true); ("draw_order", "draw_order", true); ("icon", "icon", true); ("altitude", "altitude", true); ("altitude_mode", "altitude_mode", false); ("lat_lon_box", "lat_lon_box", true)]);
   (* overlays.py:1326-1338 *)
   ("overlays._XY", [("x", "x", true); ("y", "y", true); ("x_units", "x_units", false); ("y_units", "y_units", false)]);
   (* overlays.py:1586-1619 *)
   ("overlays.ScreenOverlay", [("id", "id", true); ("target_id", "target_id", true); ("name", "name", true); ("visibility", "visibility", true); ("isopen", "isopen", true); ("atom_link", "atom_link", true); ("atom_author", "atom_author", true); ("address", "address", true); ("phone_number", "phone_number", true); ("snippet", "snippet", true); ("description", "description", true); ("view", "view", true); ("times", "times", true); ("style_url", "style_url", true); ("styles", "styles", true); ("region", "region", true); ("extended_data", "extended_data", true); ("color", "color", true); ("draw_order", "draw_order", true); ("icon", "icon", true); ("overlay_xy", "overlay_xy", true); ("screen_xy", "screen_xy", true); ("rotation_xy", "rotation_xy", true); ("size", "size", true); ("rotation", "rotation", true)]);
   (* styles.py:127-136 *)
   ("styles.StyleUrl", [("url", "url", true)]);
   (* styles.py:327-339 *)
   ("styles.HotSpot", [("x", "x", true); ("y", "y", true); ("xunits", "xunits", false); ("yunits", "yunits", false)]);
   (* styles.py:490-506 *)
   ("styles.IconStyle", [("id", "id", true); ("target_id", "target_id", true); ("color", "color", true); ("color_mode", "color_mode", false); ("scale", "scale", true); ("heading", "heading", true); ("icon", "icon", true); ("hot_spot", "hot_spot", true)]);
   (* styles.py:628-641 *)
   ("styles.LineStyle", [("id", "id", true); ("target_id", "target_id", true); ("color", "color", true); ("color_mode", "color_mode", false); ("width", "width", true)]);
   (* styles.py:735-749 *)
   ("styles.PolyStyle", [("id", "id", true); ("target_id", "target_id", true); ("color", "color", true); ("color_mode", "color_mode", false); ("fill", "fill", true); ("outline", "outline", true)]);
   (* styles.py:848-861 *)
   ("styles.LabelStyle", [("id", "id", true); ("target_id", "target_id", true); ("color", "color", true); ("color_mode", "color_mode", false); ("scale", "scale", true)]);
   (* styles.py:994-1008 *)
   ("styles.BalloonStyle", [("id", "id", true); ("target_id", "target_id", true); ("bg_color", "bg_color", true); ("text_color", "text_color", true); ("text", "text", true); ("display_mode", "display_mode", false)]);
   (* styles.py:1135-1146 *)
   ("styles.Style", [("id", "id", true); ("target_id", "target_id", true); ("styles", "styles", true)]);
   (* styles.py:1245-1257 *)
   ("styles.Pair", [("id", "id", true); ("target_id", "target_id", true); ("key", "key", false); ("style", "style", true)]);
   (* styles.py:1347-1358 *)
   ("styles.StyleMap", [("id", "id", true); ("target_id", "target_id", true); ("pairs", "pairs", true)]);
   (* times.py:278-289 *)
   ("times.TimeStamp", [("id", "id", true); ("target_id", "target_id", true); ("timestamp", "timestamp", true)]);
   (* times.py:355-367 *)
   ("times.TimeSpan", [("id", "id", true); ("target_id", "target_id", true); ("begin", "begin", true); ("end", "end", true)]);
   (* views.py:297-314 *)
   ("views.Camera", [("id", "id", true); ("target_id", "target_id", true); ("longitude", "longitude", true); ("latitude", "latitude", true); ("altitude", "altitude", true); ("heading", "heading", true); ("tilt", "tilt", true); ("roll", "roll", true); ("altitude_mode", "altitude_mode", false)]);
   (* views.py:412-429 *)
   ("views.LookAt", [("id", "id", true); ("target_id", "target_id", true); ("longitude", "longitude", true); ("latitude", "latitude", true); ("altitude", "altitude", true); ("heading", "heading", true); ("tilt", "tilt", true); ("range", "range", true); ("altitude_mode", "altitude_mode", false)]);
   (* views.py:518-533 *)
   ("views.LatLonAltBox", [("north", "north", true); ("south", "south", true); ("east", "east", true); ("west", "west", true); ("min_altitude", "min_altitude", true); ("max_altitude", "max_altitude", true); ("altitude_mode", "altitude_mode", false)]);
   (* views.py:690-702 *)
   ("views.Lod", [("min_lod_pixels", "min_lod_pixels", true); ("max_lod_pixels", "max_lod_pixels", true); ("min_fade_extent", "min_fade_extent", true); ("max_fade_extent", "max_fade_extent", true)]);
   (* views.py:826-838 *)
   ("views.Region", [("id", "id", true); ("target_id", "target_id", true); ("lat_lon_alt_box", "lat_lon_alt_box", true); ("lod", "lod", true)])].
