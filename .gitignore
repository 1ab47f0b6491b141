.nia.cache
.lia.cache
__pycache__/
